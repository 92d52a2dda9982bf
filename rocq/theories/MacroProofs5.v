(** Builds with several macros set: arrays, literals, the setter and the default. *)
From Verif Require Import Base Tac SpecStr SpecText SpecAny SpecCode StrProofs Utf8Proofs RaiseProofs6 Uint128Model UnicodeModel FixedStringModel FixedStringProofs V4Model V6Model AddressModel NetworkModel
  AnyModel CodeModel StreamModel SpecStream StreamProofs LiteralModel SpecLiteral LiteralProofs LiteralProofs2 ScopeModel SpecScope ScopeProofs NoThrowModel SpecNoThrow NoThrowProofs Utf8Model SpecUtf8 ErrProofs CodeProofs CodeProofs2 CodeProofs3
  InnerProofs CharUtf8Proofs ConfigModel ConfigProofs NetConfigModel NetConfigProofs NetConfigProofs3 SpecV6 SpecConfig MacroModel MacroProofs SpecMacro MacroProofs2 MacroProofs3 MacroProofs4 SpecLoose.

(** ** Arrays and literals *)
Lemma octets_c_string n data s : Forall is_ascii s -> c_string n data s -> c_string n (octets data) s.
Proof.
  intros A (H0 & rest & -> & H). split; [exact H0|]. exists (octets rest). split; [unfold octets; rewrite map_app; fold (octets s); rewrite octets_id by exact A; reflexivity|].
  destruct H as [H|(L & r & ->)]; [left; exact H|]. right. split; [exact L|]. exists (octets r). reflexivity.
Qed.
Lemma make_plain_b b T n data s : c_string n data s -> Forall is_ascii s -> fs_make (reader_b b T) n data = Ret (filled n s).
Proof.
  intros HC HA. destruct T; try (apply (fs_make_plain _ _ _ _ HC); right; exact HA). cbn [reader_b]. unfold inner_b. destruct (b_utf8 b).
  - rewrite make_octets. apply (fs_make_plain TChar8); [apply octets_c_string; assumption|right; exact HA].
  - apply (fs_make_plain TChar); [exact HC|left; reflexivity].
Qed.
Lemma tokens_plain_b b T s : Forall is_ascii s -> tokens (reader_b b T) s = Ret (chars s).
Proof.
  intros HA. destruct T; try (apply (tokens_plain _ _ (or_intror HA))). cbn [reader_b]. unfold inner_b. destruct (b_utf8 b); [|apply char_tokens].
  rewrite tokens_octets, octets_id by exact HA. apply (tokens_plain TChar8). right. exact HA.
Qed.
Lemma ascii_unit T c : is_ascii c -> unit_ok T c.
Proof. unfold is_ascii. destruct T; cbn [unit_ok]; unfold is_char, is_u8, is_u16, is_u32; lia. Qed.
Lemma b_array_string b T k strict data s : Forall (unit_ok T) data -> c_string (pred (length data)) data s -> Forall is_ascii s ->
  b_array_of b T k strict data = b_string_of b T k strict s.
Proof.
  intros U HC HA. rewrite b_array_eq by (apply units_ok; exact U). rewrite b_string_eq by (apply units_ok; eapply Forall_impl; [apply ascii_unit|exact HA]).
  unfold cap. rewrite (make_plain_b b T _ _ s HC HA), tokens_plain_b by exact HA. cbn [bind]. apply c_string_len in HC. rewrite filled_chars by (unfold zlen; lia). reflexivity.
Qed.
Lemma padded_c n s t : zlen s <= n -> c_string (length s) s t -> c_string (pred (length (padded n s))) (padded n s) t.
Proof.
  unfold padded. intros Hl (H0 & rest & -> & HT). split; [exact H0|].
  set (m := Z.to_nat (n + 1 - zlen (t ++ rest))). exists (rest ++ repeat 0 m). split; [rewrite app_assoc; reflexivity|].
  assert (1 <= m)%nat by (subst m; lia). clearbody m. rewrite !app_length, repeat_length.
  destruct HT as [HT|[HT (r & ->)]].
  - rewrite app_length in HT. destruct rest as [|y rest]; [|cbn [length] in HT; lia]. cbn [length app]. destruct m as [|[|m]]; [lia|left; lia|]. right. split; [lia|].
    exists (repeat 0 (S m)). reflexivity.
  - right. cbn [length] in *. split; [lia|]. eexists. reflexivity.
Qed.
Lemma b_literal_string b T k s t : zlen s <= longest_for (c_max (b_cfg b)) k -> Forall (unit_ok T) s -> c_string (length s) s t -> Forall is_ascii t ->
  b_literal_of b T k s = b_string_of b T k true t.
Proof.
  intros HL U HC HA. rewrite b_literal_eq. cbv zeta. rewrite firstn_all2 by (unfold zlen in HL; lia).
  destruct (Z.gtb_spec (zlen s) (longest_for (c_max (b_cfg b)) k)); [lia|].
  destruct (b_throws b); (apply b_array_string; [apply padded_ok; exact U|apply padded_c; assumption|exact HA]).
Qed.

(** ** The setter *)
Lemma b_off_scope b T a s : c_max (b_cfg b) = 0 -> Forall (unit_ok T) s -> scope_set_b b T a s = Ret a.
Proof.
  intros Z0 U. unfold scope_set_b. destruct (reads_b b T s U) as (ts & -> & _). cbn [bind]. unfold set_scope_b, change_b. cbv zeta. rewrite Z0. cbn [Z.gtb Z.compare bind].
  unfold raise_b. rewrite ok_ok. destruct (b_throws b), a; reflexivity.
Qed.
Lemma b_off_scope_code b T a s code : c_max (b_cfg b) = 0 -> Forall (unit_ok T) s -> scope_set_code_b b T a s code = Ret (a, code).
Proof.
  intros Z0 U. unfold scope_set_code_b. destruct (reads_b b T s U) as (ts & -> & _). cbn [bind]. unfold set_scope_code_b, change_b. rewrite Z0. cbn [Z.gtb Z.compare bind].
  destruct a; reflexivity.
Qed.
Lemma b_off_scope_array b T a data : c_max (b_cfg b) = 0 -> scope_set_array_b b T a data = Ret a.
Proof. intros Z0. unfold scope_set_array_b. rewrite Z0. reflexivity. Qed.
Lemma b_off b T a s code : c_max (b_cfg b) = 0 -> Forall (unit_ok T) s ->
  scope_set_b b T a s = Ret a /\ scope_set_code_b b T a s code = Ret (a, code) /\ scope_set_array_b b T a s = Ret a.
Proof. intros Z0 U. split; [apply b_off_scope; assumption|split; [apply b_off_scope_code; assumption|apply b_off_scope_array; exact Z0]]. Qed.
Lemma b_scope_silent b T a s : 0 <= c_max (b_cfg b) -> Forall (unit_ok T) s -> silent a (scope_set_b (throwing b) T a s) (scope_set_b (quietly b) T a s).
Proof.
  intros P U. destruct (Z.eq_dec (c_max (b_cfg b)) 0) as [Z0|NZ]; [rewrite !b_off_scope by assumption; reflexivity|].
  rewrite !scope_set_eq by (try (apply units_ok; exact U); change (b_cfg (throwing b)) with (b_cfg b); change (b_cfg (quietly b)) with (b_cfg b); lia).
  change (reader_b (throwing b) T) with (reader_b b T). change (reader_b (quietly b) T) with (reader_b b T). change (b_cfg (throwing b)) with (b_cfg b). change (b_cfg (quietly b)) with (b_cfg b).
  pose proof (tokens_b_quiet b T s) as Q. destruct (tokens (reader_b b T) s); cbn [bind]; [|contradiction|reflexivity]. apply silent_hush.
Qed.
Lemma b_scope_array_silent b T a data : 0 <= c_max (b_cfg b) -> Forall (unit_ok T) data -> silent a (scope_set_array_b (throwing b) T a data) (scope_set_array_b (quietly b) T a data).
Proof.
  intros P U. destruct (Z.eq_dec (c_max (b_cfg b)) 0) as [Z0|NZ]; [rewrite !b_off_scope_array by assumption; reflexivity|].
  rewrite !scope_array_eq by (try (apply units_ok; exact U); change (b_cfg (throwing b)) with (b_cfg b); change (b_cfg (quietly b)) with (b_cfg b); lia).
  change (reader_b (throwing b) T) with (reader_b b T). change (reader_b (quietly b) T) with (reader_b b T). change (b_cfg (throwing b)) with (b_cfg b). change (b_cfg (quietly b)) with (b_cfg b).
  apply silent_hush.
Qed.
Lemma set_core_tokens g n ts t : set_core g n ts = Ret t -> exists cs, ts = chars cs.
Proof.
  unfold set_core. destruct (n >? c_max g); [discriminate|]. generalize 0 (repeat 0 (Z.to_nat (c_max g + 1))). induction ts as [|[c|e x] ts IH]; intros i str H.
  - exists []. reflexivity.
  - cbn [set_scope_loop_c] in H. destruct (invalid_symbol_c g c); [discriminate|]. destruct (wr str i c) as [str'| |]; cbn [bind] in H; try discriminate.
    destruct (IH _ _ H) as (cs & ->). exists (c :: cs). reflexivity.
  - discriminate.
Qed.
Lemma set_core_ok g n cs t : cfg_ok g -> 0 < c_max g -> zlen cs <= n ->
  (set_core g n (chars cs) = Ret t <-> n <= c_max g /\ Forall (scope_char_of (c_spaces g)) cs /\ before_nul cs t).
Proof.
  intros Hg P L. pose proof (c_set_ok g [] no_error cs t Hg P) as C. unfold v6_set_scope_c in C. unfold set_core.
  destruct (Z.gtb_spec (c_max g) 0); [|lia]. destruct (Z.gtb_spec n (c_max g)).
  - split; [discriminate|intros; lia].
  - destruct (Z.gtb_spec (zlen cs) (c_max g)); [lia|].
    destruct (bind (set_scope_loop_c g (chars cs) 0 (repeat 0 (Z.to_nat (c_max g + 1)))) _) as [t'|e x|u] eqn:E.
    + split; [intros K; injection K as <-|intros (_ & F & B)]; [|assert (K : @Ret (list Z * ec) (t', no_error) = Ret (t, no_error)) by (apply C; split; [lia|auto]); injection K as <-; reflexivity].
      destruct C as (C & _). specialize (C eq_refl). tauto.
    + split; [discriminate|]. intros (_ & F & B). assert (K : @Ret (list Z * ec) ([], e) = Ret (t, no_error)) by (apply C; split; [lia|auto]). injection K as _ ->.
      exfalso. pose proof (c_set_loop_err g cs 0 (repeat 0 (Z.to_nat (c_max g + 1)))) as CE. destruct (set_scope_loop_c g (chars cs) 0 (repeat 0 (Z.to_nat (c_max g + 1)))) as [r|e' x'|]; cbn [bind] in E; try discriminate.
      * pose proof (char_make_sim (Z.to_nat (c_max g)) r) as G. destruct (fs_make char_next (Z.to_nat (c_max g)) r); cbn [bind] in E; [discriminate|contradiction|discriminate].
      * specialize (CE _ _ eq_refl). subst e'. discriminate.
    + split; [discriminate|]. intros (_ & F & B). assert (K : @UB (list Z * ec) u = Ret (t, no_error)) by (apply C; split; [lia|auto]). discriminate.
Qed.
Lemma lax_shorter s cs : lax_utf8 s cs -> zlen cs <= zlen s.
Proof. exact (reads_shorter TChar8 s cs). Qed.
Lemma reads_in_shorter b T s cs : reads_in b T s cs -> zlen cs <= zlen s.
Proof.
  destruct T; cbn [reads_in]; try exact (reads_shorter _ s cs). destruct (b_utf8 b); [intros H; apply lax_shorter in H; change (bytes_of s) with (octets s) in H; rewrite octets_zlen in H; exact H|intros ->; lia].
Qed.
Lemma b_scope_exact b T a s a' : 0 < c_max (b_cfg b) <= 64 -> Forall (unit_ok T) s ->
  (scope_set_b (throwing b) T a s = Ret a' <->
   exists cs t, zlen s <= c_max (b_cfg b) /\ reads_in b T s cs /\ Forall (scope_char_of (c_spaces (b_cfg b))) cs /\ before_nul cs t /\ a' = mk_addr (a_bytes a) t).
Proof.
  intros P U. assert (Hg : cfg_ok (b_cfg b)) by (unfold cfg_ok; lia). rewrite scope_set_eq by (try (apply units_ok; exact U); change (b_cfg (throwing b)) with (b_cfg b); lia).
  change (reader_b (throwing b) T) with (reader_b b T). change (b_cfg (throwing b)) with (b_cfg b).
  destruct (reads_b b T s U) as (ts & -> & R). cbn [bind]. unfold hush. change (b_throws (throwing b)) with true. cbv iota. split.
  - intros H. destruct (set_core (b_cfg b) (zlen s) ts) as [t| |] eqn:E; cbn [rmap] in H; try discriminate. injection H as <-.
    destruct (set_core_tokens _ _ _ _ E) as (cs & ->). assert (RC : reads_in b T s cs) by (apply R; reflexivity).
    apply set_core_ok in E as (L & F & B); [|exact Hg|lia|exact (reads_in_shorter _ _ _ _ RC)]. exists cs, t. do 4 (split; [assumption|]). reflexivity.
  - intros (cs & t & L & RC & F & B & ->). pose proof (reads_in_shorter _ _ _ _ RC). apply R in RC as ->.
    assert (E : set_core (b_cfg b) (zlen s) (chars cs) = Ret t) by (apply set_core_ok; [exact Hg|lia|assumption|auto]). rewrite E. reflexivity.
Qed.
Lemma b_scope_codes b T a s code : 0 < c_max (b_cfg b) <= 64 -> Forall (unit_ok T) s ->
  match scope_set_b (throwing b) T a s with
  | Ret a' => scope_set_code_b b T a s code = Ret (a', no_error) | Err e _ => e <> no_error /\ scope_set_code_b b T a s code = Ret (a, e) | UB u => scope_set_code_b b T a s code = UB u end.
Proof.
  intros P U. rewrite scope_set_code_eq by (try (apply units_ok; exact U); lia). rewrite scope_set_eq by (try (apply units_ok; exact U); change (b_cfg (throwing b)) with (b_cfg b); lia).
  change (reader_b (throwing b) T) with (reader_b b T). change (b_cfg (throwing b)) with (b_cfg b). pose proof (tokens_b_quiet b T s) as Q.
  destruct (tokens (reader_b b T) s) as [ts| |] eqn:E; cbn [bind]; [|contradiction|reflexivity]. apply reader_b_fits in E as [HA H]; [|apply units_ok; exact U].
  unfold hush. change (b_throws (throwing b)) with true. cbv iota. pose proof (change_eq b (a_scope a) (zlen s) ts no_error ltac:(lia) HA H) as G.
  destruct (set_core (b_cfg b) (zlen s) ts); cbn [rmap coded]; [reflexivity|split; [apply G|reflexivity]|reflexivity].
Qed.
Lemma utf8_scope b a s : 0 <= c_max (b_cfg b) -> scope_set_b (in_utf8 b) TChar a s = scope_set_b (in_bytes b) TChar8 a (bytes_of s).
Proof.
  intros P. change (bytes_of s) with (octets s). destruct (Z.eq_dec (c_max (b_cfg b)) 0) as [Z0|NZ].
  - unfold scope_set_b. change (reader_b (in_utf8 b) TChar) with utf8c_next. change (reader_b (in_bytes b) TChar8) with utf8_next. rewrite tokens_octets.
    destruct (tokens utf8_next (octets s)); cbn [bind]; try reflexivity. unfold set_scope_b, change_b. change (b_cfg (in_utf8 b)) with (b_cfg b). change (b_cfg (in_bytes b)) with (b_cfg b). rewrite Z0. reflexivity.
  - rewrite (scope_set_eq _ TChar) by (try apply char_units; change (b_cfg (in_utf8 b)) with (b_cfg b); lia).
    rewrite (scope_set_eq _ TChar8) by (try apply u8_units; change (b_cfg (in_bytes b)) with (b_cfg b); lia).
    change (reader_b (in_utf8 b) TChar) with utf8c_next. change (reader_b (in_bytes b) TChar8) with utf8_next. rewrite tokens_octets, octets_zlen. reflexivity.
Qed.
Lemma other_scope b T a s : 0 <= c_max (b_cfg b) -> T <> TChar -> Forall (unit_ok T) s -> scope_set_b (in_utf8 b) T a s = scope_set_b (in_bytes b) T a s.
Proof.
  intros P NT U. destruct (Z.eq_dec (c_max (b_cfg b)) 0) as [Z0|NZ]; [rewrite !b_off_scope by assumption; reflexivity|].
  rewrite !scope_set_eq by (try (apply units_ok; exact U); change (b_cfg (in_utf8 b)) with (b_cfg b); change (b_cfg (in_bytes b)) with (b_cfg b); lia).
  rewrite other_reader_b by exact NT. reflexivity.
Qed.

(** ** The default *)
Lemma read_default k strict ts : Forall tok_real ts -> read_by default_config k strict ts = throw_of k strict ts.
Proof.
  intros H. destruct default_addr as (P & _ & A & _). destruct default_net as (N & _). destruct k as [[]|[]| |]; cbn [read_by throw_of].
  - rewrite parse_throw_eq by exact H. reflexivity.
  - rewrite parse_throw_eq by exact H. rewrite P. reflexivity.
  - rewrite net_parse_throw_eq by exact H. reflexivity.
  - rewrite net_parse_throw_eq by exact H. rewrite N. reflexivity.
  - rewrite any_parse_throw_eq by exact H. rewrite A. reflexivity.
  - rewrite anet_parse_throw_eq by exact H. unfold anet_parse. rewrite N. unfold net_parse_code. rewrite (net_parse_is_res V4 ts strict H).
    pose proof (net_parse_real V4 ts strict H) as RR. destruct (net_parse_res V4 ts strict) as [n|e x|u]; cbn [bind rmap]; [reflexivity| |reflexivity].
    cbn [real] in RR. change (ec_eqb e no_error) with (ok e). rewrite (ok_no _ RR). destruct (net_parse V6 ts strict); reflexivity.
Qed.
Lemma def_units b T s : b_utf8 b = false -> units b T s.
Proof. intros E. apply Forall_forall. intros c _ _ K. congruence. Qed.
Lemma def_reader T : reader_b default_build T = reader_of T.
Proof. destruct T; reflexivity. Qed.
Lemma default_strings T k strict s : b_string_of default_build T k strict s = string_of T k strict s.
Proof.
  rewrite b_string_eq by (apply def_units; reflexivity). rewrite string_throw, def_reader. destruct (tokens (reader_of T) s) as [ts| |] eqn:E; cbn [bind]; try reflexivity.
  unfold hush. change (b_throws default_build) with true. cbv iota. apply read_default. exact (tokens_real _ _ _ (LiteralProofs2.real T) E).
Qed.
Lemma default_arrays T k strict data : b_array_of default_build T k strict data = array_of T k strict data.
Proof.
  rewrite b_array_eq by (apply def_units; reflexivity). rewrite array_throw, def_reader. unfold hush. change (b_throws default_build) with true. cbv iota.
  destruct (fs_make (reader_of T) (cap data) data); cbn [bind]; try reflexivity. apply read_default, chars_real.
Qed.
Lemma default_literals T k s : b_literal_of default_build T k s = literal_of T k s.
Proof.
  rewrite b_literal_eq, literal_array. cbv zeta. change (b_throws default_build) with true. cbv iota. rewrite default_arrays.
  assert (E : longest_for (c_max (b_cfg default_build)) k = longest k) by (destruct k as [[]|[]| |]; reflexivity). rewrite E. reflexivity.
Qed.
Lemma silent_unique {X} (d : X) r q q' : silent d r q -> silent d r q' -> q = q'.
Proof. unfold silent. destruct r; congruence. Qed.
Lemma quiet_strings T k strict s : Forall (unit_ok T) s -> b_string_of (quietly default_build) T k strict s = nx_string_of T k strict s.
Proof.
  intros U. apply (silent_unique (nothing k) (string_of T k strict s)); [|apply nx_string_silent]. rewrite <- default_strings. exact (b_silent_strings default_build T k strict s U).
Qed.
Lemma quiet_arrays T k strict data : Forall (unit_ok T) data -> b_array_of (quietly default_build) T k strict data = nx_array_of T k strict data.
Proof.
  intros U. apply (silent_unique (nothing k) (array_of T k strict data)); [|apply nx_array_silent]. rewrite <- default_arrays. exact (b_silent_arrays default_build T k strict data U).
Qed.
Lemma utf8_default_strings T k strict s : Forall (unit_ok T) s -> b_string_of (in_utf8 default_build) T k strict s = u_string_of T k strict s.
Proof.
  intros U. destruct T; [rewrite utf8_strings, char_string; apply default_strings|..];
    (rewrite other_strings, other_string by (try discriminate; exact U); apply default_strings).
Qed.
Lemma utf8_default_arrays T k strict data : Forall (unit_ok T) data -> b_array_of (in_utf8 default_build) T k strict data = u_array_of T k strict data.
Proof.
  intros U. destruct T; [rewrite utf8_arrays, char_array; apply default_arrays|..];
    (rewrite other_arrays, other_array by (try discriminate; exact U); apply default_arrays).
Qed.

(** ** Overloads with an error code *)
Lemma read_by_real g k strict ts : Forall tok_real ts -> ErrProofs.real (read_by g k strict ts).
Proof.
  intros H. set (b := mk_build g false true). pose proof (addr_c_real g ts H) as A6. pose proof (net_in_real b V6 ts strict H) as N6. cbn [net_in b b_cfg] in N6.
  pose proof (net_in_real b V4 ts strict H) as N4. cbn [net_in] in N4. pose proof (addr_parse_real V4 ts H) as A4.
  destruct k as [[]|[]| |]; cbn [read_by].
  - destruct (addr_parse V4 ts); exact A4.
  - destruct (addr_parse_c g ts); exact A6.
  - destruct (net_parse V4 ts strict); exact N4.
  - destruct (net_parse_c g ts strict); exact N6.
  - unfold any_parse_c, addr_parse_code. destruct (addr_parse V4 ts) as [a|e x|u]; cbn [bind]; [exact I| |exact I]. destruct (ec_eqb e no_error); [exact I|].
    destruct (addr_parse_c g ts); exact A6.
  - destruct (net_parse V4 ts strict); [exact I| |exact I]. destruct (net_parse_c g ts strict); exact N6.
Qed.
Lemma b_codes b T k strict s code : Forall (unit_ok T) s ->
  match b_string_of (throwing b) T k strict s with
  | Ret o => b_coded_of b T k strict s code = Ret (o, no_error)
  | Err e _ => e <> no_error /\ b_coded_of b T k strict s code = Ret (default_of k, e)
  | UB u => b_coded_of b T k strict s code = UB u
  end.
Proof.
  intros U. rewrite b_coded_of_eq, b_string_eq by (apply units_ok; exact U). change (reader_b (throwing b) T) with (reader_b b T). change (b_cfg (throwing b)) with (b_cfg b).
  pose proof (tokens_b_quiet b T s) as Q. destruct (tokens (reader_b b T) s) as [ts| |] eqn:E; cbn [bind]; [|contradiction|reflexivity].
  apply reader_b_fits in E as [_ H]; [|apply units_ok; exact U]. unfold hush. change (b_throws (throwing b)) with true. cbv iota.
  pose proof (read_by_real (b_cfg b) k strict ts H) as R. destruct (read_by (b_cfg b) k strict ts); cbn [coded ErrProofs.real] in *; [reflexivity|split; [exact R|reflexivity]|reflexivity].
Qed.
