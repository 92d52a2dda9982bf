(** Arrays, literals and templates against the parsers of strings. *)
From Verif Require Import Base Tac UnicodeModel FixedStringModel V4Model V6Model AddressModel NetworkModel AnyModel CodeModel StreamModel
  SpecStr SpecAny SpecCode SpecStream StrProofs Utf8Proofs V4Proofs BufProofs FixedStringProofs CodeProofs CodeProofs3 StreamProofs
  ErrProofs RaiseProofs5 V6Full LiteralModel SpecLiteral LiteralProofs.

Definition throw_of (k : kind) (strict : bool) (ts : list tok) : res obj :=
  match k with
  | KAddr v => rmap (OAddr v) (parse_throw v ts)
  | KNet v => rmap (ONet v) (net_parse_throw v ts strict)
  | KAny => rmap OAny (any_parse_throw ts)
  | KAnyNet => rmap OAnyNet (anet_parse_throw ts strict)
  end.
Lemma rmap_bind {A B C} (f : B -> C) (m : res A) (g : A -> res B) : rmap f (bind m g) = bind m (fun a => rmap f (g a)).
Proof. destruct m; reflexivity. Qed.
Lemma string_throw T k strict s : string_of T k strict s = (ts <- tokens (reader_of T) s ;; throw_of k strict ts).
Proof.
  destruct k; cbn [string_of throw_of]; unfold addr_string, net_string, any_string, anet_string; apply rmap_bind.
Qed.
Lemma real T : reader_real (reader_of T).
Proof.
  destruct T; cbn [reader_of]; [apply char_reader_real|apply utf8_reader_real|apply utf16_reader_real|apply utf32_reader_real|apply utf32_reader_real].
Qed.
Lemma array_throw T k strict data :
  array_of T k strict data = (f <- fs_make (reader_of T) (cap data) data ;; throw_of k strict (chars (fs_chars f))).
Proof.
  pose proof (fs_make_sim (reader_of T) (cap data) data no_error (real T)) as Q.
  destruct k; cbn [array_of throw_of]; unfold addr_array, net_array, any_array, anet_array, parse_array_throw, net_array_throw.
  - apply rmap_bind.
  - apply rmap_bind.
  - unfold parse_array_st, addr_array, parse_array_throw. destruct (fs_make (reader_of T) (cap data) data) as [f|e v|u]; cbn [fs_outcome bind] in *.
    + rewrite Q. cbn [bind]. rewrite ok_ok. reflexivity.
    + destruct Q as [Q (f & ->)]. cbn [bind]. rewrite (ok_no _ Q). cbn [bind]. rewrite (ok_no _ Q). reflexivity.
    + rewrite Q. reflexivity.
  - unfold net_array_st, net_array, net_array_throw. destruct (fs_make (reader_of T) (cap data) data) as [f|e v|u]; cbn [fs_outcome bind] in *.
    + rewrite Q. cbn [bind]. rewrite ok_ok. reflexivity.
    + destruct Q as [Q (f & ->)]. cbn [bind]. rewrite (ok_no _ Q). cbn [bind]. rewrite (ok_no _ Q). reflexivity.
    + rewrite Q. reflexivity.
Qed.
(** The copy made by the templates of the version-erased classes. *)
Lemma copy_loop_ok n s : ~ In 0 s -> zlen s <= Z.of_nat n -> forall b a, s = a ++ b ->
  copy_loop (length b) (filled n s) (zlen a) (a ++ repeat 0 (length b + 1)) = Ret (s ++ [0]).
Proof.
  intros H0 Hn. induction b as [|c b IH]; intros a E; cbn [copy_loop length Nat.add].
  - rewrite E, app_nil_r. reflexivity.
  - unfold fs_at, filled. cbn [fs_data]. rewrite buf_nat.
    replace (rd (s ++ _) (zlen a)) with (Ret c) by (rewrite E, <- app_assoc; cbn [app]; symmetry; apply rd_mid; reflexivity).
    cbn [bind repeat]. rewrite wr_mid by reflexivity. cbn [bind].
    specialize (IH (a ++ [c])). rewrite <- IH by (rewrite <- app_assoc; exact E).
    unfold filled. rewrite buf_nat, <- app_assoc. autorewrite with zl. reflexivity.
Qed.
Lemma copy_ok n s : ~ In 0 s -> zlen s <= Z.of_nat n -> copy_fixed (filled n s) = Ret (s ++ [0]).
Proof.
  intros H0 Hn. unfold copy_fixed, fs_size. cbn [filled fs_length]. fold (filled n s).
  replace (Z.to_nat (zlen s)) with (length s) by (unfold zlen; lia). replace (Z.to_nat (zlen s + 1)) with (length s + 1)%nat by (unfold zlen; lia).
  apply (copy_loop_ok n s H0 Hn s []). reflexivity.
Qed.
Lemma whole s : ~ In 0 s -> c_string (cap (s ++ [0])) (s ++ [0]) s.
Proof.
  intros H. split; [exact H|]. exists [0]. split; [reflexivity|left]. unfold cap. rewrite app_length. cbn [length]. lia.
Qed.
Lemma template_array T k strict data : template_of T k strict data = array_of T k strict data.
Proof.
  rewrite array_throw.
  destruct k; cbn [template_of throw_of]; unfold addr_template, net_template, any_template, anet_template; rewrite rmap_bind.
  - reflexivity.
  - reflexivity.
  - destruct (fs_make (reader_of T) (cap data) data) as [f|e v|u] eqn:E; cbn [bind]; [|reflexivity|reflexivity].
    apply fs_make_form in E as (s & -> & H0 & Hn). rewrite copy_ok by assumption. cbn [bind].
    unfold parse_array_st, addr_fixed. pose proof (fs_make_sim (reader_of TChar) (cap (s ++ [0])) (s ++ [0]) no_error (real TChar)) as Q.
    rewrite (fs_make_plain TChar _ _ s (whole s H0) (or_introl eq_refl)) in Q. cbn [fs_outcome] in Q.
    change char_next with (reader_of TChar). rewrite Q. cbn [bind]. rewrite ok_ok.
    rewrite !filled_chars by (try assumption; pose proof (c_string_len _ _ _ (whole s H0)); unfold zlen in *; lia). reflexivity.
  - destruct (fs_make (reader_of T) (cap data) data) as [f|e v|u] eqn:E; cbn [bind]; [|reflexivity|reflexivity].
    apply fs_make_form in E as (s & -> & H0 & Hn). rewrite copy_ok by assumption. cbn [bind].
    unfold net_array_st, net_fixed. pose proof (fs_make_sim (reader_of TChar) (cap (s ++ [0])) (s ++ [0]) no_error (real TChar)) as Q.
    rewrite (fs_make_plain TChar _ _ s (whole s H0) (or_introl eq_refl)) in Q. cbn [fs_outcome] in Q.
    change char_next with (reader_of TChar). rewrite Q. cbn [bind]. rewrite ok_ok.
    rewrite !filled_chars by (try assumption; pose proof (c_string_len _ _ _ (whole s H0)); unfold zlen in *; lia). reflexivity.
Qed.

Lemma tokens_plain T s : plain T s -> tokens (reader_of T) s = Ret (chars s).
Proof. intros [->|H]; [apply char_tokens|apply tokens_ascii; exact H]. Qed.
Lemma array_ok T k strict data s : c_string (pred (length data)) data s -> plain T s ->
  array_of T k strict data = string_of T k strict s.
Proof.
  intros HC HP. rewrite array_throw, string_throw, (tokens_plain T s HP). unfold cap. rewrite (fs_make_plain T _ _ s HC HP). cbn [bind].
  apply c_string_len in HC. rewrite filled_chars by (unfold zlen; lia). reflexivity.
Qed.
Lemma array_rejects T k strict data s : wide T -> Forall (unit_ok T) data -> c_string (pred (length data)) data s -> ~ Forall is_ascii s ->
  exists e x, array_of T k strict data = Err e x /\ encoding_error e.
Proof.
  intros W U HC HB. destruct (fs_make_bad T _ data s W U (Nat.le_pred_l _) HC HB) as (e & v & E & K).
  exists e, v. split; [|exact K]. rewrite array_throw. unfold cap. rewrite E. reflexivity.
Qed.
(** The literal operators. *)
Lemma literal_array T k s : literal_of T k s =
  if zlen s >? longest k then Err string_is_too_long 0 else array_of T k true (s ++ repeat 0 (Z.to_nat (longest k + 1 - zlen s))).
Proof.
  destruct k as [[]|[]| |]; cbn [literal_of array_of longest];
    unfold addr_literal_t, net_literal_t, any_literal_t, anet_literal_t, literal;
    cbn [max_string_len]; change (15 * 2 + 1) with 31; change (57 + 4) with 61; change (57 * 2 + 1) with 115;
    (destruct (_ >? _); reflexivity).
Qed.
Lemma padded_c_string (k : kind) s t : zlen s <= longest k -> c_string (length s) s t ->
  c_string (pred (length (s ++ repeat 0 (Z.to_nat (longest k + 1 - zlen s))))) (s ++ repeat 0 (Z.to_nat (longest k + 1 - zlen s))) t.
Proof.
  intros Hl (H0 & rest & -> & HT). split; [exact H0|].
  set (m := Z.to_nat (longest k + 1 - zlen (t ++ rest))). exists (rest ++ repeat 0 m). split; [rewrite app_assoc; reflexivity|].
  assert (M : (1 <= m)%nat) by (unfold m; lia). rewrite !app_length, repeat_length in *.
  destruct HT as [HT|[HT (r & ->)]].
  - destruct rest as [|y rest]; [|cbn [length] in HT; lia]. cbn [length app]. destruct m as [|[|m]]; [lia|left; lia|]. right. split; [lia|].
    exists (repeat 0 (S m)). reflexivity.
  - right. cbn [length] in *. split; [lia|]. eexists. reflexivity.
Qed.
Lemma literal_ok T k s t : c_string (length s) s t -> plain T t ->
  literal_of T k s = if zlen s >? longest k then Err string_is_too_long 0 else string_of T k true t.
Proof.
  intros HC HP. rewrite literal_array. destruct (Z.gtb_spec (zlen s) (longest k)); [reflexivity|].
  apply array_ok; [apply padded_c_string; assumption|exact HP].
Qed.
Lemma literal_rejects T k s t : wide T -> Forall (unit_ok T) s -> c_string (length s) s t -> ~ Forall is_ascii t ->
  exists e x, literal_of T k s = Err e x /\ (e = string_is_too_long \/ encoding_error e).
Proof.
  intros W U HC HB. rewrite literal_array. destruct (Z.gtb_spec (zlen s) (longest k)); [eauto|].
  destruct (array_rejects T k true (s ++ repeat 0 (Z.to_nat (longest k + 1 - zlen s))) t W) as (e & x & E & K).
  - apply Forall_app. split; [exact U|]. apply Forall_forall. intros y Hy. apply repeat_spec in Hy. subst y.
    destruct T; cbn [unit_ok]; unfold is_char, is_u8, is_u16, is_u32; lia.
  - apply padded_c_string; assumption.
  - exact HB.
  - exists e, x. split; [exact E|right; exact K].
Qed.

Lemma fs_fill_error next : reader_text next -> forall k data n it i f e x, i + Z.of_nat k <= zlen (fs_data f) -> 0 <= i -> fs_fill k next data n it i f = Err e x -> encoding_error e.
Proof.
  intros R. induction k as [|k IH]; intros data n it i f e x Hk Hi; cbn [fs_fill]; [discriminate|].
  pose proof (R data n it) as Q. destruct (next data n it) as [[[c|e' v] it']| |]; cbn [bind]; [|intros [= <- _]; exact Q|destruct Q|discriminate].
  destruct (wr_some (fs_data f) i c) as (d & -> & L); [lia|]. cbn [bind]. destruct (c =? 0); [discriminate|]. apply IH; [cbn [fs_data]; lia|lia].
Qed.
Lemma fs_make_error next n data e x : reader_text next -> fs_make next n data = Err e x -> encoding_error e.
Proof. intros R. apply fs_fill_error; [exact R| |lia]. unfold fs_empty, zlen. cbn [fs_data]. rewrite repeat_length. lia. Qed.
(** A terminated array of any type. *)
Lemma array_terminated T k strict d : Forall (unit_ok T) d ->
  (exists t, ~ In 0 t /\ (T <> TChar -> Forall is_ascii t) /\ array_of T k strict (d ++ [0]) = string_of TChar k strict t) \/
  (exists e x, array_of T k strict (d ++ [0]) = Err e x /\ encoding_error e).
Proof.
  intros U. rewrite array_throw. unfold cap. rewrite app_length, Nat.add_1_r. cbn [pred].
  assert (UZ : Forall (unit_ok T) (d ++ [0])).
  { apply Forall_app. split; [exact U|]. constructor; [|constructor]. destruct T; cbn [unit_ok]; unfold is_char, is_u8, is_u16, is_u32; lia. }
  pose proof (fs_make_safe T d) as S0. destruct (fs_make (reader_of T) (length d) (d ++ [0])) as [f|e v|u] eqn:E; cbn [bind].
  - left. destruct (fs_make_form' _ _ _ _ (fun c => T <> TChar -> is_ascii c) (fun it c it' K N => reader_ascii T _ _ it c it' N UZ K) E) as (t & -> & H0 & L & F).
    exists t. split; [exact H0|]. split.
    + intros N. eapply Forall_impl; [|exact F]. intros c K. exact (K N).
    + rewrite filled_chars by exact L. rewrite string_throw, (tokens_plain TChar t (or_introl eq_refl)). reflexivity.
  - right. exists e, v. split; [reflexivity|]. exact (fs_make_error _ _ _ _ _ (reader_T_text T) E).
  - destruct (S0 u U eq_refl).
Qed.
Lemma array_defined T k strict d u : Forall (unit_ok T) d -> is_net k = false -> array_of T k strict (d ++ [0]) <> UB u.
Proof.
  intros U K. destruct (array_terminated T k strict d U) as [(t & _ & _ & ->)|(e & x & -> & _)]; [|discriminate].
  rewrite string_throw, (tokens_plain TChar t (or_introl eq_refl)). cbn [bind].
  assert (R : Forall ErrProofs.tok_real (chars t)) by (apply Forall_forall; intros y Hy; apply in_map_iff in Hy as (c & <- & _); exact I).
  assert (A : forall v w, addr_parse v (chars t) <> UB w).
  { intros [] w H; cbn [addr_parse] in H.
    - pose proof (v4_defined (chars t)) as D. destruct (v4_from_string (chars t)); cbn [bind] in H; [discriminate|discriminate|exact D].
    - pose proof (v6_defined (chars t)) as D. destruct (v6_from_string true (chars t)) as [[]| |]; cbn [bind] in H; [discriminate|discriminate|exact D]. }
  destruct k; try discriminate K; cbn [throw_of].
  - rewrite parse_throw_eq by exact R. specialize (A v u). destruct (addr_parse v (chars t)); cbn [rmap]; congruence.
  - rewrite any_parse_throw_eq by exact R. unfold any_parse, addr_parse_code. pose proof (A V4) as A4. pose proof (A V6) as A6.
    destruct (addr_parse V4 (chars t)) as [a|e x|w]; cbn [bind]; [|..|destruct (A4 w eq_refl)].
    + destruct (ec_eqb _ _); cbn [rmap]; [discriminate|]. destruct (addr_parse V6 (chars t)) as [b|e' x'|w]; cbn [bind rmap]; [discriminate|discriminate|destruct (A6 w eq_refl)].
    + destruct (ec_eqb _ _); cbn [rmap]; [discriminate|]. destruct (addr_parse V6 (chars t)) as [b|e' x'|w]; cbn [bind rmap]; [discriminate|discriminate|destruct (A6 w eq_refl)].
Qed.
