(** Builds with several macros set: exact texts, the scope-id setter, the default. *)
From Verif Require Import Base Tac SpecStr SpecText SpecAny SpecCode StrProofs Utf8Proofs RaiseProofs6 Uint128Model UnicodeModel FixedStringModel FixedStringProofs V4Model V6Model AddressModel NetworkModel
  AnyModel CodeModel StreamModel SpecStream StreamProofs LiteralModel SpecLiteral LiteralProofs LiteralProofs2 ScopeModel SpecScope ScopeProofs NoThrowModel SpecNoThrow NoThrowProofs Utf8Model SpecUtf8 ErrProofs CodeProofs CodeProofs2 CodeProofs3
  InnerProofs CharUtf8Proofs ConfigModel ConfigProofs NetConfigModel NetConfigProofs NetConfigProofs3 SpecV6 SpecConfig MacroModel MacroProofs SpecMacro MacroProofs2 MacroProofs3.

(** ** The characters of a text *)
Lemma reads_all T s : Forall (unit_ok T) s -> exists ts, tokens (reader_of T) s = Ret ts /\ forall cs, ts = chars cs <-> reads T s cs.
Proof.
  intros U. destruct (reads_tokens T s [] U) as (ts & E & _). exists ts. split; [exact E|]. intros cs. destruct (reads_tokens T s cs U) as (ts' & E' & H).
  rewrite E in E'. injection E' as <-. exact H.
Qed.
Lemma reads_b b T s : Forall (unit_ok T) s -> exists ts, tokens (reader_b b T) s = Ret ts /\ forall cs, ts = chars cs <-> reads_in b T s cs.
Proof.
  intros U. destruct T; cbn [reader_b reads_in].
  - destruct (b_utf8 b) eqn:E.
    + destruct (utf8_tokens (octets s) (octets_u8 s)) as (ts & E1 & E2). exists ts. split; [|exact E2]. unfold inner_b. rewrite E, <- tokens_octets in *. exact E1.
    + exists (chars s). unfold inner_b. rewrite E. split; [apply char_tokens|]. intros cs. split; [intros H; symmetry; exact (chars_inj _ _ H)|intros ->; reflexivity].
  - apply utf8_tokens. exact U.
  - apply (reads_all TChar16 s U).
  - apply (reads_all TChar32 s U).
  - apply (reads_all TWchar s U).
Qed.

(** ** IPv6 addresses *)
Lemma b_accepted b T strict s a : 0 <= c_max (b_cfg b) <= 64 -> Forall (unit_ok T) s ->
  (b_string_of (throwing b) T (KAddr V6) strict s = Ret (OAddr V6 a) <->
   exists p gs t, reads_in b T s p /\ v6_loose_for (c_max (b_cfg b)) (c_spaces (b_cfg b)) p gs t /\ a = mk_addr (group_bytes gs) t).
Proof.
  intros Hg U. rewrite b_string_eq by (apply units_ok; exact U). change (reader_b (throwing b) T) with (reader_b b T). change (b_cfg (throwing b)) with (b_cfg b).
  destruct (reads_b b T s U) as (ts & E & R). rewrite E. cbn [bind]. unfold hush. change (b_throws (throwing b)) with true. cbv iota. cbn [read_by]. unfold addr_parse_c. split.
  - intros H. destruct (v6_from_string_c (b_cfg b) true ts) as [[q t]| |] eqn:EV; cbn [bind rmap] in H; try discriminate. injection H as <-.
    destruct (c_tokens (b_cfg b) ts (q, t) Hg EV) as (p & ->). apply (c_exact (b_cfg b) p q t Hg) in EV as (gs & L & ->). exists p, gs, t. split; [apply R; reflexivity|split; [exact L|reflexivity]].
  - intros (p & gs & t & H & L & ->). apply R in H as ->. assert (EV : v6_from_string_c (b_cfg b) true (chars p) = Ret (group_bytes gs, t)) by (apply (c_exact _ _ _ _ Hg); eauto).
    rewrite EV. reflexivity.
Qed.

(** ** The setter *)
Definition set_core (g : config) (n : Z) (ts : list tok) : res (list Z) :=
  if n >? c_max g then Err scope_id_is_too_long 0
  else str <- set_scope_loop_c g ts 0 (repeat 0 (Z.to_nat (c_max g + 1))) ;; f <- fs_make char_next (Z.to_nat (c_max g)) str ;; Ret (fs_chars f).
Lemma change_loop_sim_b b : forall ts i str, Forall tok_real ts -> match set_scope_loop_c (b_cfg b) ts i str with
  | Ret s => change_loop_b b ts i str no_error 0 0 = Ret (Some s, no_error, 0)
  | Err e x => e <> no_error /\ change_loop_b b ts i str no_error 0 0 = Ret (None, e, x)
  | UB u => change_loop_b b ts i str no_error 0 0 = UB u end.
Proof.
  induction ts as [|[c|e x] ts IH]; intros i str H; cbn [set_scope_loop_c change_loop_b next_st].
  - reflexivity.
  - inversion H as [|? ? _ H']. subst. rewrite ok_ok. cbn [negb]. destruct (invalid_symbol_c (b_cfg b) c); [split; [discriminate|reflexivity]|].
    pose proof (quiet_wr str i c) as Q. destruct (wr str i c); cbn [bind]; [|contradiction|reflexivity]. apply IH. exact H'.
  - inversion H as [|? ? T _]. subst. cbn in T. rewrite (ok_no _ T). split; [exact T|reflexivity].
Qed.
Lemma change_eq b old n ts code : 0 < c_max (b_cfg b) -> fits b ts -> Forall tok_real ts -> match set_core (b_cfg b) n ts with
  | Ret s => change_b b old n ts code 0 = Ret (s, no_error, 0)
  | Err e x => e <> no_error /\ change_b b old n ts code 0 = Ret (old, e, x)
  | UB u => change_b b old n ts code 0 = UB u end.
Proof.
  intros P HA H. unfold set_core, change_b. destruct (Z.gtb_spec (c_max (b_cfg b)) 0); [|lia]. destruct (n >? c_max (b_cfg b)); [split; [discriminate|reflexivity]|]. cbv zeta.
  pose proof (change_loop_sim_b b ts 0 (repeat 0 (Z.to_nat (c_max (b_cfg b) + 1))) H) as G.
  assert (FA : forall s c i, change_loop_b b ts 0 (repeat 0 (Z.to_nat (c_max (b_cfg b) + 1))) no_error 0 0 = Ret (Some s, c, i) -> Forall (A_b b) s).
  { intros s c i E. refine (change_loop_A (A_b b) _ b ts 0 _ no_error 0 0 (Some s) c i HA _ E); try apply A0_b. apply Forall_forall. intros x Hx. apply repeat_spec in Hx. subst. apply A0_b. }
  destruct (set_scope_loop_c (b_cfg b) ts 0 (repeat 0 (Z.to_nat (c_max (b_cfg b) + 1)))) as [s|e x|u]; cbn [bind].
  - specialize (FA _ _ _ G). rewrite G. cbn [bind]. pose proof (char_make_sim (Z.to_nat (c_max (b_cfg b))) s) as F.
    rewrite (make_st_same_b (A_b b) b (same_b b)) by exact FA. destruct (fs_make char_next (Z.to_nat (c_max (b_cfg b))) s) as [f| |]; cbn [bind]; [|contradiction|rewrite F; reflexivity].
    rewrite F. cbn [bind]. rewrite ok_ok. reflexivity.
  - destruct G as (E & ->). split; [exact E|reflexivity].
  - rewrite G. reflexivity.
Qed.
Lemma set_scope_eq b a n ts : 0 < c_max (b_cfg b) -> fits b ts -> Forall tok_real ts ->
  set_scope_b b a n ts = hush b a (rmap (mk_addr (a_bytes a)) (set_core (b_cfg b) n ts)).
Proof.
  intros P HA H. unfold set_scope_b. cbv zeta. pose proof (change_eq b (a_scope a) n ts no_error P HA H) as G.
  destruct (set_core (b_cfg b) n ts) as [t|e x|u]; cbn [rmap].
  - rewrite G. cbn [bind]. unfold raise_b, hush. rewrite ok_ok. destruct (b_throws b); reflexivity.
  - destruct G as (E & ->). cbn [bind]. unfold raise_b, hush. rewrite (ok_no _ E). destruct (b_throws b), a; reflexivity.
  - rewrite G. unfold hush. destruct (b_throws b); reflexivity.
Qed.
Lemma set_scope_code_eq b a n ts code : 0 < c_max (b_cfg b) -> fits b ts -> Forall tok_real ts ->
  set_scope_code_b b a n ts code = coded a (rmap (mk_addr (a_bytes a)) (set_core (b_cfg b) n ts)).
Proof.
  intros P HA H. unfold set_scope_code_b. pose proof (change_eq b (a_scope a) n ts code P HA H) as G.
  destruct (set_core (b_cfg b) n ts) as [t|e x|u]; cbn [rmap coded].
  - rewrite G. reflexivity.
  - destruct G as (E & ->). cbn [bind]. destruct a; reflexivity.
  - rewrite G. reflexivity.
Qed.
Lemma scope_set_eq b T a s : 0 < c_max (b_cfg b) -> units b T s ->
  scope_set_b b T a s = (ts <- tokens (reader_b b T) s ;; hush b a (rmap (mk_addr (a_bytes a)) (set_core (b_cfg b) (zlen s) ts))).
Proof.
  intros P HU. unfold scope_set_b. destruct (tokens (reader_b b T) s) as [ts| |] eqn:E; cbn [bind]; try reflexivity. apply reader_b_fits in E as [HA H]; [|exact HU].
  apply set_scope_eq; assumption.
Qed.
Lemma scope_set_code_eq b T a s code : 0 < c_max (b_cfg b) -> units b T s ->
  scope_set_code_b b T a s code = (ts <- tokens (reader_b b T) s ;; coded a (rmap (mk_addr (a_bytes a)) (set_core (b_cfg b) (zlen s) ts))).
Proof.
  intros P HU. unfold scope_set_code_b. destruct (tokens (reader_b b T) s) as [ts| |] eqn:E; cbn [bind]; try reflexivity. apply reader_b_fits in E as [HA H]; [|exact HU].
  apply set_scope_code_eq; assumption.
Qed.
Lemma scope_array_eq b T a data : 0 < c_max (b_cfg b) -> units b T data ->
  scope_set_array_b b T a data = hush b a (f <- fs_make (reader_b b T) (cap data) data ;; rmap (mk_addr (a_bytes a)) (set_core (b_cfg b) (fs_size f) (chars (fs_chars f)))).
Proof.
  intros P HU. unfold scope_set_array_b. destruct (Z.gtb_spec (c_max (b_cfg b)) 0); [|lia].
  pose proof (fs_make_sim (reader_b b T) (cap data) data no_error (reader_b_real b T)) as F.
  assert (HF : forall f, fs_make (reader_b b T) (cap data) data = Ret f -> Forall (A_b b) (fs_chars f)) by (intros f; apply reader_b_make; exact HU).
  assert (G : forall f, fs_make (reader_b b T) (cap data) data = Ret f -> (ts <- tokens (inner_b b) (fs_chars f) ;; set_scope_b b a (fs_size f) ts) =
    hush b a (rmap (mk_addr (a_bytes a)) (set_core (b_cfg b) (fs_size f) (chars (fs_chars f))))).
  { intros f E. specialize (HF f E). rewrite tokens_b by exact HF. cbn [bind]. apply set_scope_eq; [exact P|apply fits_chars; exact HF|apply chars_real]. }
  destruct (fs_make (reader_b b T) (cap data) data) as [f|e x|u]; cbn [bind fs_outcome] in *.
  - rewrite F. cbn [bind]. rewrite ok_ok, !(G f eq_refl). destruct (b_throws b); reflexivity.
  - destruct F as (E & q & ->). cbn [bind]. rewrite (ok_no _ E). unfold hush. destruct (b_throws b); reflexivity.
  - rewrite F. unfold hush. destruct (b_throws b); reflexivity.
Qed.
