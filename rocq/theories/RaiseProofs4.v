(** raise_error. *)
From Coq Require Import String.
From Verif Require Import Base Tac UnicodeModel BitProofs SpecStr SpecText StrProofs Utf8Proofs TextProofs SpecInt Uint128Model Uint128Text
  AddressModel NetworkModel AnyModel CodeModel StreamModel SpecStream ErrorModel SpecError RaiseProofs RaiseProofs2 RaiseProofs3.

(** What stands before and after the quoted text. *)
Definition num (v : Z) : list Z := ostream_u64 10 (w32 v).
Definition before (c : ec) (v : Z) : list Z :=
  match c with
  | empty_netmask => lit "empty mask in address "
  | invalid_netmask => lit "is not a valid netmask in address "
  | netmask_pattern_mixes_zeroes_and_ones => lit "netmask pattern mixes zeroes & ones in address "
  | has_host_bits_set => lit "has host bits set in address "
  | only_one_slash_permitted => lit "only one '/' permitted in address "
  | string_is_too_long => lit "input string is too long "
  | empty_octet => lit "empty octet " ++ num v ++ lit " in address "
  | expected_4_octets => lit "expected 4 octets in "
  | leading_0_are_not_permitted => lit "leading zeros are not permitted in octet " ++ num v ++ lit " of address "
  | octet_more_3_characters | octet_has_invalid_symbol => lit "in octet " ++ num v ++ lit " of address "
  | octet_exceeded_255 => lit "octet " ++ num v ++ lit " of address "
  | least_3_parts => lit "least 3 parts in address "
  | most_8_colons_permitted => lit "most 8 colons permitted in address "
  | part_is_more_4_chars | part_has_invalid_symbol => lit "in part " ++ num v ++ lit " of address "
  | most_one_double_colon_permitted => lit "at most one '::' permitted in address "
  | leading_colon_only_permitted_as_part_of_double_colon => lit "at leading ':' only permitted as part of '::' in address "
  | trailing_colon_only_permitted_as_part_of_double_colon => lit "at trailing ':' only permitted as part of '::' in address "
  | expected_at_most_7_other_parts_with_double_colon => lit "expected at most 7 other parts with '::' in address "
  | exactly_8_parts_expected_without_double_colon => lit "exactly 8 parts expected without '::' in address "
  | scope_id_is_too_long => lit "scope id is too long in address "
  | invalid_scope_id => lit "invalid scope id in address "
  | unexpected_symbol => lit "unexpected next unicode symbol " ++ print_symbol_code v ++ lit " in string "
  | wrong_encoding_sequence => lit "incorrect sequence of bytes in unicode encoding for string "
  | _ => []
  end.
Definition after (c : ec) : list Z :=
  match c with
  | octet_more_3_characters => lit " more 3 characters"
  | octet_has_invalid_symbol => lit " has invalid symbol"
  | octet_exceeded_255 => lit " exceeded 255"
  | part_is_more_4_chars => lit " more 4 characters"
  | part_has_invalid_symbol => lit " has invalid symbols"
  | _ => []
  end.
Definition fixed (c : ec) : list Z :=
  match c with
  | empty_address => lit "address cannot be empty"
  | invalid_version => lit "versions don't match"
  | invalid_prefixlen_diff => lit "invalid prefixlen_diff"
  | new_prefix_must_be_shorter => lit "new prefix must be shorter"
  | new_prefix_must_be_longer => lit "new prefix must be longer"
  | cannot_set_prefixlen_diff_and_new_prefix => lit "cannot set prefixlen_diff and new_prefix"
  | not_contained_network => lit "network is not a subnet of other"
  | _ => lit "unknown error"
  end.
Definition cls (c : ec) : xclass := fst (throw_args c 0).
Definition is_quoting (c : ec) : bool := if list_eq_dec Z.eq_dec (before c 0) [] then false else true.

Lemma quoting_dec c : quoting c <-> is_quoting c = true.
Proof.
  unfold quoting. destruct c; vm_compute; split; intros H; try reflexivity; try discriminate H.
  all: try (destruct H as (H1 & H2 & H3); exfalso; (apply H1; reflexivity) || (apply H2; reflexivity) || (apply H3; exact I)).
  all: repeat split; (discriminate || (intros G; exact G)).
Qed.
Ltac lits := repeat match goal with |- context [print_array TChar (?a ++ [0])] =>
  let v := eval vm_compute in (print_array TChar (a ++ [0])) in replace (print_array TChar (a ++ [0])) with v by (vm_compute; reflexivity) end.
Lemma raise_quoting T c v s n : is_quoting c = true -> raise_error T c v s n =
  (b <- error_text s n ;; t <- print_array T b ;; Ret (mk_exn XParse c (before c v ++ t ++ after c))).
Proof.
  intros H. unfold raise_error. destruct (error_text s n) as [b| |]; [|reflexivity..]. cbn [bind].
  destruct c; try (vm_compute in H; discriminate H); clear H; cbn [throw_args concat_args print_arg]; lits; cbn [bind]; fold (num v);
    (destruct (print_array T b) as [t| |]; [|reflexivity..]); cbn [bind before after]; do 2 f_equal;
    rewrite ?app_nil_r, <- ?app_assoc; reflexivity.
Qed.
Lemma raise_fixed T c v s n : is_quoting c = false -> raise_error T c v s n = (b <- error_text s n ;; Ret (mk_exn (cls c) c (fixed c))).
Proof.
  intros H. unfold raise_error. destruct (error_text s n) as [b| |]; [|reflexivity..]. cbn [bind].
  destruct c; try (vm_compute in H; discriminate H); clear H; cbn [throw_args concat_args print_arg]; lits; reflexivity.
Qed.
Lemma cls_ok c : class_of c (cls c).
Proof.
  unfold class_of. destruct c; vm_compute; split; split; intros H; try discriminate H; try reflexivity; try exact I; try contradiction.
Qed.
Lemma quoting_cls c : is_quoting c = true -> cls c = XParse.
Proof. destruct c; vm_compute; congruence. Qed.

Lemma raise_total T c v s : Forall (unit_ok T) s -> exists k w, raise_error T c v s (zlen s) = Ret (mk_exn k c w) /\ class_of c k.
Proof.
  intros H. destruct (text_defined T s H) as (b & Eb & Hb). destruct (is_quoting c) eqn:Q.
  - rewrite (raise_quoting T c v s _ Q), Eb. cbn [bind]. destruct (print_array_defined T b Hb) as (t & Et). rewrite Et. cbn [bind].
    eexists _, _. split; [reflexivity|]. rewrite <- (quoting_cls c Q). apply cls_ok.
  - rewrite (raise_fixed T c v s _ Q), Eb. cbn [bind]. eexists _, _. split; [reflexivity|]. apply cls_ok.
Qed.
Lemma raise_logic c : ~ quoting c -> exists k w, forall T v s, Forall (unit_ok T) s -> raise_error T c v s (zlen s) = Ret (mk_exn k c w).
Proof.
  intros N. exists (cls c), (fixed c). intros T v s H. destruct (text_defined T s H) as (b & Eb & _).
  rewrite raise_fixed, Eb; [reflexivity|]. destruct (is_quoting c) eqn:Q; [|reflexivity]. exfalso. apply N, quoting_dec, Q.
Qed.
Lemma shows_at c T v s t : is_quoting c = true -> shows T s t -> raise_error T c v s (zlen s) = Ret (mk_exn XParse c (before c v ++ t ++ after c)).
Proof.
  intros Q (cs & p & ds & tp & Hc & -> & He & Hp & ->).
  destruct (excerpt_ok T cs p ds Hc He) as (b & tp' & Eb & Et & Hp'). rewrite (raise_quoting _ _ _ _ _ Q), Eb. cbn [bind]. rewrite Et. cbn [bind].
  do 4 f_equal. f_equal. clear -Hp Hp'. revert tp' Hp'. induction Hp as [|c cs t ts P1 P IH]; intros tp' Hp'; inversion Hp' as [|? ? t' ts' P1' P']; subst; [reflexivity|].
  rewrite (IH _ P'). f_equal. clear -P1 P1'. unfold pictured1 in *. destruct (match T with TChar => true | _ => c <? 128 end); [congruence|].
  destruct P1 as (z & h & -> & N & L), P1' as (z' & h' & -> & N' & L'). rewrite (numeral_unique 16 h h' c ltac:(lia) N N') in *.
  replace z with z' by lia. reflexivity.
Qed.
Lemma shows_raise c : quoting c -> exists pre post, forall T v s t, shows T s t -> raise_error T c v s (zlen s) = Ret (mk_exn XParse c (pre v ++ t ++ post)).
Proof. intros Q. apply quoting_dec in Q. exists (before c), (after c). intros. apply shows_at; assumption. Qed.
Lemma shows_some T cs : Forall (symbol_ok T) cs -> exists t, shows T (encode T cs) t.
Proof.
  intros H. destruct (excerpt_exists T cs) as (p & ds & E). destruct (excerpt_ok T cs p ds H E) as (b & tp & _ & _ & P).
  exists (tp ++ ds), cs, p, ds, tp. auto 10.
Qed.
Lemma shows_ascii T s : Forall is_ascii s -> ~ In 0 s -> zlen s <= 100 -> shows T s s.
Proof.
  intros H N L.
  assert (Hs : Forall (symbol_ok T) s).
  { rewrite Forall_forall in *. intros x Hx. specialize (H x Hx). unfold is_ascii in H. assert (x <> 0) by (intros ->; contradiction).
    destruct T; cbn; unfold is_char, scalar; lia. }
  assert (E : encode T s = s).
  { clear -H. induction H as [|x s Hx H IH]; [reflexivity|]. cbn [encode flat_map]. fold (encode T s). rewrite IH. unfold is_ascii in Hx.
    destruct T; cbn [enc]; try reflexivity.
    - rewrite (proj2 (Z.ltb_lt x 0x80)) by lia. reflexivity.
    - rewrite (proj2 (Z.ltb_lt x 0x10000)) by lia. reflexivity. }
  assert (X : excerpt T s s []) by (constructor; rewrite E; exact L).
  destruct (excerpt_ok T s s [] Hs X) as (b & tp & _ & _ & P).
  exists s, s, [], tp. split; [exact Hs|]. split; [symmetry; exact E|]. split; [exact X|]. split; [exact P|].
  rewrite app_nil_r. symmetry. eapply pictured_ascii; eassumption.
Qed.
Lemma shows_stops c : quoting c -> exists pre post, forall T v cs r, Forall (symbol_ok T) cs -> Forall (unit_ok T) r -> zlen (encode T cs) < 100 ->
  exists t, pictured T cs t /\ raise_error T c v (encode T cs ++ 0 :: r) (zlen (encode T cs ++ 0 :: r)) = Ret (mk_exn XParse c (pre v ++ t ++ post)).
Proof.
  intros Q. apply quoting_dec in Q. exists (before c), (after c). intros T v cs r Hc Hr Hl.
  destruct (stops_ok T cs r Hc Hr Hl) as (b & t & Eb & Et & P). exists t. split; [exact P|].
  rewrite (raise_quoting _ _ _ _ _ Q), Eb. cbn [bind]. rewrite Et. reflexivity.
Qed.

(** ** Numbers *)
Lemma num_ok v : 0 <= v < 2 ^ 32 -> numeral 10 (num v) v.
Proof.
  intros H. unfold num, w32. rewrite Z.mod_small by exact H. apply ostream_u64_ok; [lia|]. split; [lia|]. apply Z.lt_trans with (2 ^ 32); [lia|reflexivity].
Qed.
Lemma raise_number c : numbered c -> exists lead, forall T v s, 0 <= v < 2 ^ 32 -> Forall (unit_ok T) s ->
  exists x d rest, raise_error T c v s (zlen s) = Ret x /\ x_what x = lead ++ 32 :: d ++ 32 :: rest /\ numeral 10 d v.
Proof.
  intros N. assert (Q : is_quoting c = true) by (destruct c; vm_compute in N; try contradiction; reflexivity).
  assert (B : exists lead tail, forall v, before c v = lead ++ 32 :: num v ++ 32 :: tail).
  { destruct c; vm_compute in N; try contradiction; clear N; cbn [before].
    1: exists (lit "empty octet"), (lit "in address ").
    2: exists (lit "leading zeros are not permitted in octet"), (lit "of address ").
    3,4: exists (lit "in octet"), (lit "of address ").
    5: exists (lit "octet"), (lit "of address ").
    6,7: exists (lit "in part"), (lit "of address ").
    all: intros v; reflexivity. }
  destruct B as (lead & tail & B). exists lead. intros T v s Hv H. destruct (text_defined T s H) as (b & Eb & Hb).
  destruct (print_array_defined T b Hb) as (t & Et). rewrite (raise_quoting _ _ _ _ _ Q), Eb. cbn [bind]. rewrite Et. cbn [bind].
  eexists _, (num v), (tail ++ t ++ after c). split; [reflexivity|]. split; [|apply num_ok, Hv]. cbn [x_what]. rewrite B.
  rewrite <- !app_assoc. cbn [app]. rewrite <- !app_assoc. reflexivity.
Qed.
Lemma raise_symbol : exists lead, forall T v s, 0 <= v < 2 ^ 32 -> Forall (unit_ok T) s ->
  exists x d rest, raise_error T unexpected_symbol v s (zlen s) = Ret x /\ x_what x = lead ++ 32 :: d ++ 32 :: rest /\ code_name v d.
Proof.
  exists (lit "unexpected next unicode symbol"). intros T v s Hv H. destruct (text_defined T s H) as (b & Eb & Hb).
  destruct (print_array_defined T b Hb) as (t & Et). rewrite raise_quoting, Eb by reflexivity. cbn [bind]. rewrite Et. cbn [bind].
  eexists _, (print_symbol_code v), (lit "in string " ++ t ++ after unexpected_symbol). split; [reflexivity|]. split; [|apply name_ok, Hv]. cbn [x_what before].
  rewrite <- !app_assoc. reflexivity.
Qed.

(** ** The message tells the code *)
Fixpoint starts (p w : list Z) : bool :=
  match p, w with
  | [], _ => true
  | x :: p, y :: w => (x =? y) && starts p w
  | _, _ => false
  end.
Lemma starts_app p w : starts p (p ++ w) = true.
Proof. induction p; cbn; [reflexivity|]. rewrite Z.eqb_refl. exact IHp. Qed.
Definition table : list (list Z * ec) :=
  [(lit "empty m", empty_netmask); (lit "is", invalid_netmask); (lit "netm", netmask_pattern_mixes_zeroes_and_ones); (lit "ha", has_host_bits_set);
   (lit "on", only_one_slash_permitted); (lit "inp", string_is_too_long); (lit "empty o", empty_octet); (lit "expected 4", expected_4_octets);
   (lit "leading", leading_0_are_not_permitted); (lit "in o", octet_has_invalid_symbol); (lit "oc", octet_exceeded_255); (lit "least", least_3_parts);
   (lit "mo", most_8_colons_permitted); (lit "in p", part_has_invalid_symbol); (lit "at m", most_one_double_colon_permitted);
   (lit "at l", leading_colon_only_permitted_as_part_of_double_colon); (lit "at t", trailing_colon_only_permitted_as_part_of_double_colon);
   (lit "expected a", expected_at_most_7_other_parts_with_double_colon); (lit "ex", exactly_8_parts_expected_without_double_colon); (lit "sc", scope_id_is_too_long);
   (lit "invalid s", invalid_scope_id); (lit "une", unexpected_symbol); (lit "inc", wrong_encoding_sequence); (lit "ad", empty_address); (lit "ve", invalid_version);
   (lit "invalid p", invalid_prefixlen_diff); (lit "new prefix must be s", new_prefix_must_be_shorter); (lit "new prefix must be l", new_prefix_must_be_longer);
   (lit "ca", cannot_set_prefixlen_diff_and_new_prefix); (lit "netw", not_contained_network); (lit "unk", no_error)].
Definition guess (w : list Z) : ec :=
  match find (fun e => starts (fst e) w) table with
  | Some (_, octet_has_invalid_symbol) => if starts (lit "sr") (rev w) then octet_more_3_characters else octet_has_invalid_symbol
  | Some (_, part_has_invalid_symbol) => if starts (lit "sr") (rev w) then part_is_more_4_chars else part_has_invalid_symbol
  | Some (_, c) => c
  | None => no_error
  end.
Fixpoint clash (p q : list Z) : bool :=
  match p, q with
  | x :: p, y :: q => negb (x =? y) || clash p q
  | _, _ => false
  end.
Lemma starts_false p q w : clash p q = true -> starts p (q ++ w) = false.
Proof.
  revert q. induction p as [|x p IH]; intros [|y q] H; cbn in *; try discriminate.
  destruct (x =? y); [|reflexivity]. apply IH. exact H.
Qed.
Lemma guess_fixed c : is_quoting c = false -> guess (fixed c) = c.
Proof. destruct c; vm_compute; congruence. Qed.
Lemma starts_true p q w : starts p q = true -> starts p (q ++ w) = true.
Proof. revert q. induction p as [|x p IH]; intros [|y q] H; cbn in *; try discriminate; auto. apply andb_prop in H. destruct H as [-> H]. cbn. auto. Qed.
Lemma find_head q w : forallb (fun e => clash (fst e) q || starts (fst e) q) table = true ->
  find (fun e => starts (fst e) (q ++ w)) table = find (fun e => starts (fst e) q) table.
Proof.
  induction table as [|e l IH]; [reflexivity|]. cbn [forallb find]. intros H. apply andb_prop in H. destruct H as [H1 H2].
  destruct (starts (fst e) q) eqn:E; [rewrite (starts_true _ _ _ E); reflexivity|]. rewrite orb_false_r in H1.
  rewrite (starts_false _ _ _ H1). auto.
Qed.
Definition head (c : ec) : list Z :=
  match c with
  | empty_octet => lit "empty octet "
  | leading_0_are_not_permitted => lit "leading zeros are not permitted in octet "
  | octet_more_3_characters | octet_has_invalid_symbol => lit "in octet "
  | octet_exceeded_255 => lit "octet "
  | part_is_more_4_chars | part_has_invalid_symbol => lit "in part "
  | unexpected_symbol => lit "unexpected next unicode symbol "
  | _ => before c 0
  end.
Lemma before_head c v : exists r, before c v = head c ++ r.
Proof. destruct c; cbn [before head]; try (exists []; rewrite app_nil_r; reflexivity); eexists; reflexivity. Qed.
Lemma head_decided c : is_quoting c = true -> forallb (fun e => clash (fst e) (head c) || starts (fst e) (head c)) table = true.
Proof. destruct c; vm_compute; congruence. Qed.
Lemma head_found c : is_quoting c = true -> option_map snd (find (fun e => starts (fst e) (head c)) table) =
  Some (match c with octet_more_3_characters => octet_has_invalid_symbol | part_is_more_4_chars => part_has_invalid_symbol | _ => c end).
Proof. destruct c; vm_compute; congruence. Qed.
Lemma guess_quoting c v t : is_quoting c = true -> guess (before c v ++ t ++ after c) = c.
Proof.
  intros Q. unfold guess. destruct (before_head c v) as (r & ->). rewrite <- (app_assoc (head c)).
  rewrite find_head by (apply head_decided, Q). pose proof (head_found c Q) as F.
  destruct (find _ table) as [[p k]|]; [|discriminate F]. cbn [option_map snd] in F. injection F as ->. clear Q.
  rewrite !app_assoc, rev_app_distr. generalize (rev ((head c ++ r) ++ t)). intros y.
  destruct c; cbn [after]; try reflexivity;
    (rewrite starts_true by (vm_compute; reflexivity); reflexivity) || (rewrite starts_false by (vm_compute; reflexivity); reflexivity).
Qed.
Lemma guess_raise T c v s n x : raise_error T c v s n = Ret x -> guess (x_what x) = c.
Proof.
  intros H. destruct (is_quoting c) eqn:Q.
  - rewrite (raise_quoting _ _ _ _ _ Q) in H. destruct (error_text s n) as [b| |]; try discriminate H. cbn [bind] in H.
    destruct (print_array T b) as [t| |]; try discriminate H. cbn [bind] in H. injection H as <-. cbn [x_what]. apply guess_quoting, Q.
  - rewrite (raise_fixed _ _ _ _ _ Q) in H. destruct (error_text s n) as [b| |]; try discriminate H. cbn [bind] in H. injection H as <-.
    cbn [x_what]. apply guess_fixed, Q.
Qed.
Lemma what_code T T' c c' v v' s s' n n' x x' : raise_error T c v s n = Ret x -> raise_error T' c' v' s' n' = Ret x' ->
  x_what x = x_what x' -> c = c'.
Proof. intros H H' E. apply guess_raise in H, H'. congruence. Qed.
Lemma digits_until d d' r r' : Forall (fun c => c <> 32) d -> Forall (fun c => c <> 32) d' -> d ++ 32 :: r = d' ++ 32 :: r' -> d = d'.
Proof.
  intros H. revert d'. induction H as [|x d Hx H IH]; intros d' H' E; destruct H' as [|y d' Hy H']; cbn [app] in E; try congruence.
  f_equal; [congruence|]. apply IH; [exact H'|congruence].
Qed.
Lemma numeral_chars d v : numeral 10 d v -> Forall (fun c => c <> 32) d.
Proof.
  intros (ds & H & _). induction H as [|c d s ds Hc H IH]; constructor; [|exact IH]. unfold digit_char in Hc. lia.
Qed.
Lemma what_value T T' c v v' s s' n n' x x' : numbered c -> 0 <= v < 2 ^ 32 -> 0 <= v' < 2 ^ 32 ->
  raise_error T c v s n = Ret x -> raise_error T' c v' s' n' = Ret x' -> x_what x = x_what x' -> v = v'.
Proof.
  intros N Hv Hv' H H' E. assert (Q : is_quoting c = true) by (destruct c; vm_compute in N; try contradiction; reflexivity).
  rewrite (raise_quoting _ _ _ _ _ Q) in H. rewrite (raise_quoting _ _ _ _ _ Q) in H'. destruct (error_text s n) as [b| |]; try discriminate H. destruct (error_text s' n') as [b'| |]; try discriminate H'.
  cbn [bind] in H, H'. destruct (print_array T b) as [t| |]; try discriminate H. destruct (print_array T' b') as [t'| |]; try discriminate H'.
  cbn [bind] in H, H'. injection H as <-. injection H' as <-. cbn [x_what] in E.
  assert (B : exists lead tail, forall v, before c v = lead ++ num v ++ 32 :: tail).
  { clear - N. destruct c; vm_compute in N; try contradiction; clear N; cbn [before].
    1: exists (lit "empty octet "), (lit "in address ").
    2: exists (lit "leading zeros are not permitted in octet "), (lit "of address ").
    3,4: exists (lit "in octet "), (lit "of address ").
    5: exists (lit "octet "), (lit "of address ").
    6,7: exists (lit "in part "), (lit "of address ").
    all: intros v; reflexivity. }
  destruct B as (lead & tail & B). rewrite !B, <- !app_assoc in E. apply app_inv_head in E. cbn [app] in E.
  pose proof (num_ok v Hv) as V. pose proof (num_ok v' Hv') as V'.
  apply digits_until in E; [|eapply numeral_chars; eassumption..]. rewrite E in V. eapply numeral_value; eassumption.
Qed.
