(** Proofs about the exceptions of every build. *)
From Coq Require Import String.
From Verif Require Import Base Tac UnicodeModel FixedStringModel V4Model V6Model AddressModel SpecText SpecAddr SpecStr SpecOrder NetworkModel SpecNet SpecAny
  AnyModel CodeModel SpecCode StreamModel SpecStream StreamProofs ErrorModel SpecError RaiseProofs RaiseProofs2 RaiseProofs3 RaiseProofs4 ErrProofs2 LiteralModel SpecLiteral NoThrowModel SpecNoThrow Utf8Model SpecUtf8
  InnerProofs CharUtf8Proofs ConfigModel ConfigProofs NetConfigModel NetConfigProofs MacroModel SpecMacro MacroProofs MacroProofs2 MacroProofs3 MacroProofs4 MacroProofs5 BuildModel SpecBuild.
From Verif Require RaiseProofs5 CodeProofs.
Close Scope string_scope.

(** ** Error codes under the scope-id macros *)
Lemma split_loop_c_tame g : forall ts pos e sc s i, Forall tok_tame ts -> tame (split_scope_loop_c g ts pos e sc s i).
Proof. induction ts as [|[c|e x] ts IH]; intros pos en sc s i H; cbn [split_scope_loop_c]; rl. Qed.
Lemma v6_c_tame g le ts : Forall tok_tame ts -> tame (v6_from_string_c g le ts).
Proof.
  intros H. unfold v6_from_string_c. destruct ts as [|t ts]; [exact I|]. apply tame_bind.
  { unfold split_scope_id_c. apply tame_bind; [apply split_loop_c_tame; exact H|]. intros ? _. rl. }
  intros [e s] _. apply tame_bind; [apply split_parts_tame, firstn_tame; exact H|]. intros [ps pc] _.
  apply tame_bind; [apply bound_tame|]. intros [[hi lo] sk] _. apply tame_bind.
  - unfold parse_parts. apply tame_bind; [apply parts_loop_tame|]. intros [ix r] _. apply tame_bind; [apply tame_assert|]. intros _ _.
    apply tame_bind; [apply parts_loop_tame|]. intros [? ?] _. exact I.
  - intros b _. destruct (c_max g >? 0); [|exact I]. apply tame_bind; [apply tame_rd|]. intros s0 _. destruct (negb (s0 =? 0)); [|exact I].
    apply tame_bind; [apply fs_make_tame|]. intros ? _. exact I.
Qed.
Lemma addr_c_tame g ts : Forall tok_tame ts -> tame (addr_parse_c g ts).
Proof. intros H. unfold addr_parse_c. apply tame_bind; [apply v6_c_tame; exact H|]. intros [? ?] _. exact I. Qed.
Lemma net_c_tame g ts strict : Forall tok_tame ts -> tame (net_parse_c g ts strict).
Proof.
  intros H. assert (X : tame (net_parse_res_c g ts strict)).
  { unfold net_parse_res_c. apply tame_bind; [apply net_split_tame; exact H|]. intros [a m] E.
    apply tame_bind; [apply parse_netmask_tame; apply split_mask_tame in E; [exact E|exact H|constructor]|]. intros [nm p] _.
    apply tame_bind.
    { assert (A : tame (addr_parse_array_c g a)); [|destruct (addr_parse_array_c g a); auto].
      unfold addr_parse_array_c. apply tame_bind; [apply fs_make_tame|]. intros f _. apply addr_c_tame, chars_tame. }
    intros ad _. apply tame_bind; [pose proof (strict_tame V6 ad nm strict) as A; destruct (strict_netmask V6 ad nm strict); auto|]. intros ? _. exact I. }
  unfold net_parse_c. destruct (net_parse_res_c g ts strict) as [|e x|]; try exact I. cbn [tame] in X. unfold raise_if. destruct (ec_eqb e no_error); [exact I|exact X].
Qed.
Lemma net_default_tame v ts strict : Forall tok_tame ts -> tame (net_parse v ts strict).
Proof.
  intros H. pose proof (net_parse_tame v ts strict H) as X. unfold net_parse. destruct (net_parse_res v ts strict) as [|e x|]; try exact I. cbn [tame] in X.
  unfold raise_if. destruct (ec_eqb e no_error); [exact I|exact X].
Qed.
Lemma tame_rmap {A B} (f : A -> B) r : tame r -> tame (rmap f r).
Proof. destruct r; auto. Qed.
Lemma read_tame g k strict ts : Forall tok_tame ts -> tame (read_by g k strict ts).
Proof.
  intros H. destruct k as [[]|[]| |]; cbn [read_by]; try (apply tame_rmap).
  - apply addr_parse_tame, H.
  - apply addr_c_tame, H.
  - apply net_default_tame, H.
  - apply net_c_tame, H.
  - unfold any_parse_c. unfold addr_parse_code. destruct (addr_parse V4 ts) as [a4|e4 x4|]; cbn [bind]; [exact I| |exact I].
    destruct (ec_eqb e4 no_error); [exact I|]. apply tame_bind; [apply addr_c_tame, H|]. intros ? _. exact I.
  - destruct (net_parse V4 ts strict); try exact I. apply tame_rmap, net_c_tame, H.
Qed.

(** ** Reading and printing *)
Definition eT (b : build) (T : chtype) : chtype := match T with TChar => if b_utf8 b then TChar8 else TChar | _ => T end.
Definition es (b : build) (T : chtype) (s : list Z) : list Z := match T with TChar => if b_utf8 b then octets s else s | _ => s end.
Lemma shows_in_eq b T s t : shows_in b T s t <-> shows (eT b T) (es b T s) t.
Proof. destruct T; cbn; try reflexivity. destruct (b_utf8 b); reflexivity. Qed.
Lemma es_units b T s : Forall (unit_ok T) s -> Forall (unit_ok (eT b T)) (es b T s).
Proof. destruct T; cbn; try (intros H; exact H). destruct (b_utf8 b); [intros _; exact (octets_u8 s)|intros H; exact H]. Qed.
Lemma es_zlen b T s : zlen (es b T s) = zlen s.
Proof. destruct T; cbn; try reflexivity. destruct (b_utf8 b); [apply octets_zlen|reflexivity]. Qed.
Lemma reader_text_b b T : RaiseProofs5.reader_text (reader_b b T).
Proof.
  destruct T; try exact (RaiseProofs5.reader_T_text _). cbn [reader_b]. unfold inner_b. destruct (b_utf8 b); [|exact RaiseProofs5.char_text].
  intros data n it. exact (RaiseProofs5.utf8_text (octets data) n it).
Qed.
Lemma print_octets : forall k s it, print_loop k utf8c_next s it = print_loop k utf8_next (octets s) it.
Proof.
  induction k as [|k IH]; intros s it; cbn [print_loop]; rewrite octets_zlen; [reflexivity|]. destruct (it <? zlen s); [|reflexivity].
  unfold utf8c_next at 1. destruct (utf8_next (octets s) (zlen s) it) as [[[c|e x] i]| |]; cbn [bind]; try reflexivity; rewrite IH; reflexivity.
Qed.
Lemma print_array_eq b T s : print_array_b b T s = print_array (eT b T) (es b T s).
Proof.
  unfold print_array_b, print_array. destruct T; try reflexivity. cbn [reader_b eT es]. unfold inner_b. destruct (b_utf8 b); [|reflexivity].
  rewrite print_octets, octets_len. reflexivity.
Qed.
Lemma print_ascii8 : forall k s it, Forall is_ascii s -> print_loop k utf8_next s it = print_loop k char_next s it.
Proof.
  induction k as [|k IH]; intros s it HA; cbn [print_loop]; [reflexivity|]. destruct (it <? zlen s); [|reflexivity].
  pose proof (utf8c_same s (zlen s) it HA) as E. unfold utf8c_next in E. rewrite octets_id in E by exact HA. rewrite E.
  destruct (char_next s (zlen s) it) as [[[c|e x] i]| |]; cbn [bind]; try reflexivity; rewrite IH by exact HA; reflexivity.
Qed.
Lemma print_lit b s : Forall is_ascii s -> print_array_b b TChar (s ++ [0]) = print_array TChar (s ++ [0]).
Proof.
  intros HA. assert (H : Forall is_ascii (s ++ [0])) by (apply Forall_app; split; [exact HA|constructor; [unfold is_ascii; lia|constructor]]).
  rewrite print_array_eq. cbn [eT es]. destruct (b_utf8 b); [|reflexivity]. rewrite octets_id by exact H. apply print_ascii8, H.
Qed.
Definition lit_ok (a : arg) : Prop := match a with Lit s => Forall is_ascii s | _ => True end.
Definition lit_okb (a : arg) : bool := match a with Lit s => forallb (fun c => (0 <=? c) && (c <? 128)) s | _ => true end.
Lemma lit_okb_ok l : forallb lit_okb l = true -> Forall lit_ok l.
Proof.
  intros H. apply Forall_forall. intros a Ha. rewrite forallb_forall in H. specialize (H a Ha). destruct a; cbn in *; auto.
  apply Forall_forall. intros c Hc. rewrite forallb_forall in H. specialize (H c Hc). unfold is_ascii. lia.
Qed.
Lemma args_ascii c v : Forall lit_ok (snd (throw_args c v)).
Proof. apply lit_okb_ok. destruct c; reflexivity. Qed.
Lemma concat_eq b T str l : Forall lit_ok l -> concat_args_b b T str l = concat_args (eT b T) (es b T str) l.
Proof.
  assert (P : forall a, lit_ok a -> print_arg_b b T str a = print_arg (eT b T) (es b T str) a).
  { intros [s|n|v|] H; cbn [print_arg_b print_arg]; try reflexivity; [apply print_lit, H|apply print_array_eq]. }
  induction l as [|a l IH]; [reflexivity|]. intros H. inversion H as [|? ? Ha Hl]. subst. cbn [concat_args_b concat_args]. rewrite (P a Ha).
  destruct l as [|a' l']; [reflexivity|]. rewrite (IH Hl). reflexivity.
Qed.
Lemma octets_app a c : octets (a ++ c) = octets a ++ octets c.
Proof. unfold octets. apply map_app. Qed.
Lemma text_octets s : exists str, error_text s (zlen s) = Ret str /\ error_text (octets s) (zlen (octets s)) = Ret (octets str).
Proof.
  destruct (Z.le_gt_cases (zlen s) 100) as [H|H].
  - eexists. split; [apply text_short, H|]. rewrite text_short by (rewrite octets_zlen; exact H). rewrite octets_len. f_equal. symmetry. apply (octets_pad s).
  - eexists. split; [apply text_long; lia|]. rewrite text_long by (rewrite octets_zlen; lia). f_equal. rewrite octets_app, octets_firstn. reflexivity.
Qed.
Lemma raise_eq b T c v s : raise_error_b b T c v s (zlen s) = raise_error (eT b T) c v (es b T s) (zlen (es b T s)).
Proof.
  unfold raise_error_b, raise_error. pose proof (args_ascii c v) as HA. destruct (throw_args c v) as [k args]. cbn [snd] in HA.
  assert (D : exists str, error_text s (zlen s) = Ret str /\ error_text (es b T s) (zlen (es b T s)) = Ret (es b T str) \/
    error_text s (zlen s) = error_text (es b T s) (zlen (es b T s)) /\ forall u, es b T u = u).
  { destruct T; try (exists []; right; split; [reflexivity|intros; reflexivity]). cbn [es]. destruct (b_utf8 b); [|exists []; right; split; [reflexivity|intros; reflexivity]].
    destruct (text_octets s) as (str & E). exists str. left. exact E. }
  destruct D as (str & [[E1 E2]|[E1 E2]]).
  - rewrite E1, E2. cbn [bind]. rewrite concat_eq by exact HA. reflexivity.
  - rewrite E1. destruct (error_text (es b T s) (zlen (es b T s))); cbn [bind]; try reflexivity. rewrite concat_eq by exact HA. rewrite E2. reflexivity.
Qed.
Lemma raising_eq {A} b T s (r : res A) : raising_b b T s r = raising (eT b T) (es b T s) r.
Proof. destruct r; cbn [raising_b raising]; try reflexivity. rewrite raise_eq. reflexivity. Qed.

(** ** Exceptions of every build *)
Lemma b_class b T c v s : Forall (unit_ok T) s -> exists k w, raise_error_b b T c v s (zlen s) = Ret (mk_exn k c w) /\ class_of c k.
Proof. intros H. rewrite raise_eq. apply raise_total, es_units, H. Qed.
Lemma b_quotes c : quoting c -> exists pre post, forall b T v s t, shows_in b T s t -> raise_error_b b T c v s (zlen s) = Ret (mk_exn XParse c (pre v ++ t ++ post)).
Proof. intros Q. destruct (shows_raise c Q) as (pre & post & F). exists pre, post. intros b T v s t H. apply shows_in_eq in H. rewrite raise_eq. apply F, H. Qed.
Lemma b_fixed c : ~ quoting c -> exists k w, forall b T v s, Forall (unit_ok T) s -> raise_error_b b T c v s (zlen s) = Ret (mk_exn k c w).
Proof. intros Q. destruct (raise_logic c Q) as (k & w & F). exists k, w. intros b T v s H. rewrite raise_eq. apply F, es_units, H. Qed.
Lemma b_number c : numbered c -> exists lead, forall b T v s, 0 <= v < 2 ^ 32 -> Forall (unit_ok T) s ->
  exists x d rest, raise_error_b b T c v s (zlen s) = Ret x /\ x_what x = lead ++ 32 :: d ++ 32 :: rest /\ numeral 10 d v.
Proof. intros N. destruct (raise_number c N) as (lead & F). exists lead. intros b T v s Hv H. rewrite raise_eq. apply F; [exact Hv|apply es_units, H]. Qed.
Lemma b_symbol : exists lead, forall b T v s, 0 <= v < 2 ^ 32 -> Forall (unit_ok T) s ->
  exists x d rest, raise_error_b b T unexpected_symbol v s (zlen s) = Ret x /\ x_what x = lead ++ 32 :: d ++ 32 :: rest /\ code_name v d.
Proof. destruct raise_symbol as (lead & F). exists lead. intros b T v s Hv H. rewrite raise_eq. apply F; [exact Hv|apply es_units, H]. Qed.
Lemma b_what_code b b' T T' c c' v v' s s' x x' : raise_error_b b T c v s (zlen s) = Ret x -> raise_error_b b' T' c' v' s' (zlen s') = Ret x' ->
  x_what x = x_what x' -> c = c'.
Proof. rewrite !raise_eq. apply what_code. Qed.
Lemma ascii_shown b T s : Forall is_ascii s -> ~ In 0 s -> zlen s <= 100 -> shows_in b T s s.
Proof.
  intros HA H0 HL. apply shows_in_eq. assert (E : es b T s = s) by (destruct T; try reflexivity; cbn; destruct (b_utf8 b); [apply octets_id, HA|reflexivity]).
  rewrite E. apply shows_ascii; assumption.
Qed.
Lemma raising_map {A B} b T s (f : A -> B) (r : res A) :
  rmap (fun x => match x with inl a => inl (f a) | inr e => inr e end) (raising_b b T s r) = raising_b b T s (rmap f r).
Proof. destruct r as [a|e x|]; cbn; try reflexivity. destruct (raise_error_b b T e x s (zlen s)); reflexivity. Qed.
Lemma b_throw_eq b T k strict s : b_throw_of b T k strict s = raising_b b T s (b_string_of b T k strict s).
Proof.
  unfold b_throw_of, b_string_of, addr_parse_x_b, net_parse_x_b, any_parse_x_b, anet_parse_x_b. pose proof (tokens_b_quiet b T s) as Q.
  destruct (tokens (reader_b b T) s) as [ts| |]; cbn [bind]; [|contradiction|destruct k; reflexivity]. destruct k; apply raising_map.
Qed.
Lemma b_string_tame b T k strict s : Forall (unit_ok T) s -> tame (b_string_of b T k strict s).
Proof.
  intros U. rewrite b_string_eq by (apply units_ok; exact U). pose proof (fun ts => RaiseProofs5.tokens_tame (reader_b b T) s ts (reader_text_b b T)) as HT.
  pose proof (tokens_b_quiet b T s) as Q. destruct (tokens (reader_b b T) s) as [ts| |]; cbn [bind]; [|contradiction|exact I].
  pose proof (read_tame (b_cfg b) k strict ts (HT ts eq_refl)) as M. unfold hush. destruct (b_throws b); [exact M|]. destruct (read_by (b_cfg b) k strict ts); exact I.
Qed.
Lemma b_throws_as b T k strict s code : Forall (unit_ok T) s -> throws_as XParse (b_coded_of b T k strict s code) (b_throw_of (throwing b) T k strict s).
Proof.
  intros U. rewrite b_throw_eq. pose proof (b_codes b T k strict s code U) as C. pose proof (b_string_tame (throwing b) T k strict s U) as M.
  destruct (b_string_of (throwing b) T k strict s) as [o|e x|u].
  - rewrite C. cbn [throws_as raising_b]. split; [reflexivity|]. intros N. contradiction N. reflexivity.
  - destruct C as [N C]. rewrite C. cbn [throws_as raising_b tame] in *. split; [intros E; contradiction|]. intros _.
    destruct (b_class (throwing b) T e x s U) as (k' & w & R & K). rewrite R. cbn [bind]. exists w. destruct (RaiseProofs5.tame_quoting e M) as (_ & K' & _).
    replace XParse with k'; [reflexivity|]. destruct K as [K1 K2], K' as [K1' K2']. destruct k'; try reflexivity.
    + exfalso. apply N, K2. reflexivity.
    + exfalso. assert (XParse = XLogic) as F; [apply K1', K1; reflexivity|discriminate F].
  - rewrite C. reflexivity.
Qed.
Lemma b_message b T k strict s x d : Forall (unit_ok T) s -> shows_in b T s d -> b_throw_of b T k strict s = Ret (inr x) ->
  x_class x = XParse /\ (x_code x = empty_address \/ exists pre post, x_what x = pre ++ d ++ post).
Proof.
  intros U Hd. rewrite b_throw_eq, raising_eq. intros E. apply shows_in_eq in Hd. eapply RaiseProofs5.raising_message; [|exact Hd|exact E]. apply b_string_tame, U.
Qed.
