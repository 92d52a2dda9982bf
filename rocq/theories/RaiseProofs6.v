(** Exceptions of the parsers of arrays and literals. *)
From Coq Require Import String.
From Verif Require Import Base Tac UnicodeModel SpecStr StrProofs FixedStringModel V4Model V6Model AddressModel NetworkModel IterModel AnyModel CodeModel SpecAny SpecCode CodeProofs CodeProofs3 CodeLemmas
  SpecNet SpecAddr StreamModel SpecStream StreamProofs ErrorModel SpecError RaiseProofs RaiseProofs2 RaiseProofs3 RaiseProofs4 RaiseProofs5 ErrProofs2.
From Verif Require ErrProofs.

(** Characters delivered by the readers. *)
Definition delivers (r : res (tok * Z)) : Prop := match r with Ret (Ch c, _) => is_char c | _ => True end.
Definition nonneg (r : res (Z * bool * Z)) : Prop := match r with Ret (v, _, _) => 0 <= v | _ => True end.
Lemma nonneg_bind {A} (m : res A) k : (forall a, m = Ret a -> nonneg (k a)) -> nonneg (bind m k).
Proof. destruct m; cbn; auto; intros; exact I. Qed.
Lemma finish_char m : nonneg m -> delivers ('(v, correct, it) <- m ;; let it := it + 1 in
  if negb correct then Ret (Bad wrong_encoding_sequence 0, it) else if v >? 127 then Ret (Bad unexpected_symbol v, it) else Ret (Ch v, it)).
Proof.
  destruct m as [[[v c] it]| |]; cbn [bind]; intros H; try exact I. cbn in H. cbv zeta. destruct (negb c); [exact I|].
  destruct (Z.gtb_spec v 127); [exact I|]. cbn. unfold is_char. lia.
Qed.
Lemma land_mask a m : 0 <= m -> 0 <= Z.land a m.
Proof. intros H. apply Z.land_nonneg. auto. Qed.
Lemma push_nonneg v t : 0 <= t -> 0 <= utf8_push v t.
Proof. intros H. unfold utf8_push. apply Z.lor_nonneg. split; [apply Z.mod_pos_bound; reflexivity|exact H]. Qed.
Lemma trailing_nonneg s e it : nonneg (utf8_trailing s e it).
Proof.
  unfold utf8_trailing. cbv zeta. destruct (_ >=? _); [cbn; lia|]. apply nonneg_bind. intros b _. destruct (_ =? _); cbn; [apply land_mask; lia|lia].
Qed.
Lemma char_delivered T s n it : Forall (unit_ok T) s -> delivers (reader_of T s n it).
Proof.
  intros U. assert (U32 : delivers (utf32_next s n it)).
  { unfold utf32_next. destruct (rd s it) as [u| |]; cbn [bind]; try exact I. cbv zeta. pose proof (Z.mod_pos_bound u (2 ^ 32) eq_refl) as B. fold (w32 u) in B.
    destruct (Z.gtb_spec (w32 u) 127); [exact I|]. cbn. unfold is_char. lia. }
  destruct T; cbn [reader_of]; [| | |exact U32|exact U32].
  - unfold char_next. destruct (rd s it) as [u| |] eqn:E; cbn [bind]; try exact I. exact (rd_ok _ _ _ _ U E).
  - unfold utf8_next. destruct (rd s it) as [u| |] eqn:E; cbn [bind]; try exact I. apply finish_char.
    destruct (utf8_code_point u) as [[v m]|] eqn:F; [|cbn; lia].
    assert (0 <= v).
    { pose proof (rd_ok _ _ _ _ U E) as Hu. cbn in Hu. unfold is_u8 in Hu. unfold utf8_code_point in F.
      repeat match type of F with (if ?b then _ else _) = _ => destruct b end; try discriminate F; injection F as <- _; try (apply land_mask); lia. }
    destruct (m =? 1); [cbn; assumption|].
    destruct (m =? 2); [|destruct (m =? 3)].
    + apply nonneg_bind. intros [[t c] i] E1. pose proof (trailing_nonneg s n it) as T1. rewrite E1 in T1. cbn. apply push_nonneg, T1.
    + apply nonneg_bind. intros [[t c] i] E1. apply nonneg_bind. intros [[t2 c2] i2] E2. pose proof (trailing_nonneg s n i) as T1. rewrite E2 in T1. cbn. apply push_nonneg, T1.
    + apply nonneg_bind. intros [[t c] i] E1. apply nonneg_bind. intros [[t2 c2] i2] E2. apply nonneg_bind. intros [[t3 c3] i3] E3.
      pose proof (trailing_nonneg s n i2) as T1. rewrite E3 in T1. cbn. apply push_nonneg, T1.
  - unfold utf16_next. destruct (rd s it) as [u| |] eqn:E; cbn [bind]; try exact I. apply finish_char.
    pose proof (rd_ok _ _ _ _ U E) as Hu. cbn in Hu. unfold is_u16 in Hu. destruct (_ =? _); [|cbn; lia]. cbv zeta.
    destruct (_ >=? _); [cbn; apply land_mask; lia|]. apply nonneg_bind. intros u2 _. destruct (_ =? _); cbn; [apply Z.mod_pos_bound; reflexivity|apply land_mask; lia].
Qed.
Lemma wr_forall {A} (P : A -> Prop) l i x l' : Forall P l -> P x -> wr l i x = Ret l' -> Forall P l'.
Proof.
  unfold wr. destruct (_ <? _); [discriminate|]. intros H Hx. destruct (upd l (Z.to_nat i) x) as [u|] eqn:E; [|discriminate]. intros F. injection F as <-.
  revert u E. generalize (Z.to_nat i). clear i. induction H as [|y l Hy H IH]; intros [|k] u E; cbn in E; try discriminate.
  - injection E as <-. constructor; assumption.
  - destruct (upd l k x) as [r|] eqn:F; [|discriminate]. injection E as <-. constructor; [exact Hy|]. eapply IH, F.
Qed.
Lemma fs_fill_facts T k : forall data n it i f, Forall (unit_ok T) data -> Forall is_char (fs_data f) ->
  match fs_fill k (reader_of T) data n it i f with
  | Ret g => Forall is_char (fs_data g)
  | Err e _ => e = unexpected_symbol \/ e = wrong_encoding_sequence
  | UB _ => True
  end.
Proof.
  induction k as [|k IH]; intros data n it i f U C; cbn [fs_fill]; [exact C|].
  pose proof (char_delivered T data n it U) as D. pose proof (reader_T_text T data n it) as X.
  destruct (reader_of T data n it) as [[[c|e x] it']| |]; cbn [bind] in *; [|exact X|destruct X|exact I].
  destruct (wr (fs_data f) i c) as [d| |] eqn:E; cbn [bind]; [| |exact I].
  - cbn in D. pose proof (wr_forall _ _ _ _ _ C D E) as C'. destruct (c =? 0); [exact C'|]. apply IH; [exact U|exact C'].
  - exfalso. revert E. unfold wr. destruct (_ <? _); [discriminate|]. destruct (upd _ _ _); discriminate.
Qed.
Lemma firstn_forall {A} (P : A -> Prop) n l : Forall P l -> Forall P (firstn n l).
Proof. intros H. revert n. induction H; intros [|n]; cbn; constructor; auto. Qed.
Lemma array_throws {A} T n data (o : res (A * ec)) (g : fstr -> res A) : Forall (unit_ok T) data ->
  silent o -> (forall f, tame (g f)) -> agree o (f <- fs_make (reader_of T) n data ;; g f) ->
  throws_as XParse o (array_x T n data (fun f => raising TChar (fs_chars f) (g f))).
Proof.
  intros U Q M G. pose proof (fs_fill_facts T n data (Z.of_nat n) 0 0 (fs_empty n) U) as F.
  change (fs_fill n (reader_of T) data (Z.of_nat n) 0 0 (fs_empty n)) with (fs_make (reader_of T) n data) in F.
  assert (C0 : Forall is_char (fs_data (fs_empty n))).
  { unfold fs_empty. cbn [fs_data]. apply Forall_forall. intros x Hx. apply repeat_spec in Hx. subst. unfold is_char. lia. }
  specialize (F C0). unfold array_x. destruct (fs_make (reader_of T) n data) as [f|e x|u].
  - cbn [raising bind] in *. apply raising_agree; [|exact Q|apply M|exact G]. unfold fs_chars. apply firstn_forall. exact F.
  - cbn [bind] in G. pose proof (raising_agree T (firstn n data) o (Err e x) (firstn_forall _ _ _ U) Q) as R.
    assert (H : throws_as XParse o (raising T (firstn n data) (Err e x))) by (apply R; [destruct F as [->| ->]; exact I|exact G]). clear R.
    cbn [raising] in H. destruct (raise_total T e x (firstn n data) (firstn_forall _ _ _ U)) as (k & w & E & _).
    replace (raising T (firstn n data) (Err e x : res fstr)) with (Ret (inr (mk_exn k e w)) : res (fstr + exn)) by (cbn [raising]; rewrite E; reflexivity).
    cbn [bind]. rewrite E in H. exact H.
  - cbn [raising bind] in *. destruct o as [[a c]| |u']; cbn in *; [|destruct Q|congruence].
    destruct G as [G1 G2]. destruct (ec_eq_dec c no_error) as [N|N]; [specialize (G1 N); discriminate|]. destruct (G2 N). discriminate.
Qed.
Lemma chars_tame0 s : Forall tok_tame (chars s).
Proof. apply chars_tame. Qed.
Lemma fs_st_silent T n data code : silent (fs_make_st (reader_of T) n data code).
Proof.
  pose proof (fs_make_sim (reader_of T) n data code (reader_T_real T)) as F. destruct (fs_make (reader_of T) n data); cbn in F.
  - rewrite F. exact I.
  - destruct F as (_ & f & ->). exact I.
  - rewrite F. exact I.
Qed.
Lemma genuine_T T : reader_genuine (reader_of T).
Proof. apply reader_is_genuine, reader_T_real. Qed.
Lemma addr_array_throws T v n data code : Forall (unit_ok T) data -> throws_as XParse (parse_array_st v (reader_of T) n data code) (addr_array_x T v n data).
Proof.
  intros U. apply (array_throws T n data _ (fun f => parse_throw v (chars (fs_chars f)))); [exact U| | |].
  - unfold parse_array_st. pose proof (fs_st_silent T n data code) as Q. destruct (fs_make_st (reader_of T) n data code) as [[f c]| |]; cbn [bind]; [|destruct Q|exact I].
    destruct (ok c); [apply parse_st_silent, chars_tame|exact I].
  - intros f. apply parse_throw_tame, chars_tame.
  - apply (parse_array_overloads v (reader_of T) n data code (genuine_T T)).
Qed.
Lemma net_array_throws T v n data strict code : Forall (unit_ok T) data -> throws_as XParse (net_array_st v (reader_of T) n data strict code) (net_array_x T v n data strict).
Proof.
  intros U. apply (array_throws T n data _ (fun f => net_parse_throw v (chars (fs_chars f)) strict)); [exact U| | |].
  - unfold net_array_st. pose proof (fs_st_silent T n data code) as Q. destruct (fs_make_st (reader_of T) n data code) as [[f c]| |]; cbn [bind]; [|destruct Q|exact I].
    destruct (ok c); [apply net_st_silent, chars_tame|exact I].
  - intros f. apply net_throw_tame, chars_tame.
  - apply (net_array_overloads v (reader_of T) n data strict code (genuine_T T)).
Qed.
Lemma literal_too_long T v s d : shows T s d -> max_string_len v < zlen s ->
  addr_literal_x T v s = Ret (inr (mk_exn XParse string_is_too_long (lit "input string is too long " ++ d))).
Proof.
  intros H L. unfold addr_literal_x. destruct (Z.gtb_spec (zlen s) (max_string_len v)); [|lia].
  rewrite (shows_at string_is_too_long T 0 s d eq_refl H). cbn [bind before after]. rewrite app_nil_r. reflexivity.
Qed.
(** A long text whose hundredth unit lies inside a symbol: no "...". *)
Definition straddling : list Z := repeat 97 99 ++ [0xD83D; 0xDE00].
Lemma no_dots : exists x, obj_throw TChar16 (KAddr V4) false straddling = Ret (inr x) /\ zlen straddling > 100 /\ Forall (unit_ok TChar16) straddling /\
  x_what x = lit "in octet 0 of address " ++ repeat 97 99 ++ lit " has invalid symbol".
Proof.
  eexists. split; [vm_compute; reflexivity|]. split; [vm_compute; reflexivity|]. split; [|vm_compute; reflexivity].
  unfold straddling. apply Forall_app. split; [|repeat constructor; cbn; unfold is_u16; lia].
  apply Forall_forall. intros x Hx. apply repeat_spec in Hx. subst. cbn. unfold is_u16. lia.
Qed.
