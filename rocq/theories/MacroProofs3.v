(** Builds with several macros set: one macro at a time. *)
From Verif Require Import Base Tac SpecStr SpecText SpecAny SpecCode StrProofs Utf8Proofs RaiseProofs6 Uint128Model UnicodeModel FixedStringModel FixedStringProofs V4Model V6Model AddressModel NetworkModel
  AnyModel CodeModel StreamModel SpecStream StreamProofs LiteralModel SpecLiteral LiteralProofs LiteralProofs2 ScopeModel SpecScope ScopeProofs NoThrowModel SpecNoThrow NoThrowProofs Utf8Model SpecUtf8 ErrProofs CodeProofs CodeProofs2 CodeProofs3
  InnerProofs CharUtf8Proofs ConfigModel ConfigProofs NetConfigModel NetConfigProofs NetConfigProofs3 SpecV6 SpecConfig MacroModel MacroProofs SpecMacro MacroProofs2.

(** ** The classes *)
Definition b_of (b : build) (k : kind) (strict : bool) (ts : list tok) : res obj :=
  match k with
  | KAddr v => rmap (OAddr v) (parse_b b v ts)
  | KNet v => rmap (ONet v) (net_parse_b b v ts strict)
  | KAny => rmap OAny (any_parse_b b ts)
  | KAnyNet => rmap OAnyNet (anet_parse_b b ts strict)
  end.
Lemma hush_map {X Y} b (f : X -> Y) d r : rmap f (hush b d r) = hush b (f d) (rmap f r).
Proof. unfold hush. destruct (b_throws b), r; reflexivity. Qed.
Lemma hush_ret {X} b (d x : X) : hush b d (Ret x) = Ret x.
Proof. unfold hush. destruct (b_throws b); reflexivity. Qed.
Lemma hush_ub {X} b (d : X) u : hush b d (UB u) = UB u.
Proof. unfold hush. destruct (b_throws b); reflexivity. Qed.
Lemma b_of_eq b k strict ts : fits b ts -> Forall tok_real ts -> b_of b k strict ts = hush b (nothing k) (read_by (b_cfg b) k strict ts).
Proof.
  intros HA H. destruct k as [v|v| |]; cbn [b_of nothing default_of].
  - rewrite parse_b_eq by assumption. rewrite hush_map. destruct v; reflexivity.
  - rewrite net_parse_b_eq by assumption. rewrite hush_map. destruct v; reflexivity.
  - cbn [read_by]. unfold any_parse_b, any_parse_c. cbv zeta. rewrite parse_code_b_eq, parse_b_eq by assumption. cbn [addr_in]. unfold addr_parse_code.
    pose proof (addr_parse_real V4 ts H) as R. destruct (addr_parse V4 ts) as [a|e x|u]; cbn [coded bind real] in *.
    + rewrite ok_ok. change (ec_eqb no_error no_error) with true. cbn [rmap]. rewrite hush_ret. reflexivity.
    + change (ec_eqb e no_error) with (ok e). rewrite (ok_no _ R). unfold hush. destruct (b_throws b), (addr_parse_c (b_cfg b) ts); reflexivity.
    + unfold hush; destruct (b_throws b); reflexivity.
  - cbn [read_by]. unfold anet_parse_b. cbv zeta. rewrite net_parse_code_b_eq, net_parse_b_eq by assumption. cbn [net_in].
    pose proof (net_in_real b V4 ts strict H) as R. cbn [net_in] in R. destruct (net_parse V4 ts strict) as [a|e x|u]; cbn [coded bind real] in *.
    + rewrite ok_ok; unfold hush; destruct (b_throws b); reflexivity.
    + rewrite (ok_no _ R). unfold hush. destruct (b_throws b), (net_parse_c (b_cfg b) ts strict); reflexivity.
    + unfold hush; destruct (b_throws b); reflexivity.
Qed.
Definition b_coded (b : build) (k : kind) (strict : bool) (ts : list tok) (code : ec) : res (obj * ec) :=
  match k with
  | KAddr v => rmap (fun r => (OAddr v (fst r), snd r)) (parse_code_b b v ts code)
  | KNet v => rmap (fun r => (ONet v (fst r), snd r)) (net_parse_code_b b v ts strict code)
  | KAny => rmap (fun r => (OAny (fst r), snd r)) (any_parse_code_b b ts code)
  | KAnyNet => rmap (fun r => (OAnyNet (fst r), snd r)) (anet_parse_code_b b ts strict code)
  end.
Lemma b_coded_eq b k strict ts code : fits b ts -> Forall tok_real ts -> b_coded b k strict ts code = coded (default_of k) (read_by (b_cfg b) k strict ts).
Proof.
  intros HA H. destruct k as [v|v| |]; cbn [b_coded default_of].
  - rewrite parse_code_b_eq by assumption. destruct v; cbn [addr_in read_by]; [destruct (addr_parse V4 ts)|destruct (addr_parse_c _ ts)]; reflexivity.
  - rewrite net_parse_code_b_eq by assumption. destruct v; cbn [net_in read_by]; [destruct (net_parse V4 ts strict)|destruct (net_parse_c _ ts strict)]; reflexivity.
  - cbn [read_by]. unfold any_parse_code_b, any_parse_c. cbv zeta. rewrite (parse_code_b_eq b V4) by assumption. cbn [addr_in]. unfold addr_parse_code.
    pose proof (addr_parse_real V4 ts H) as R. destruct (addr_parse V4 ts) as [a|e x|u]; cbn [coded bind real] in *; [rewrite ok_ok; reflexivity| |reflexivity].
    change (ec_eqb e no_error) with (ok e). rewrite (ok_no _ R). rewrite (parse_code_b_eq b V6) by assumption. cbn [addr_in]. pose proof (addr_c_real (b_cfg b) ts H) as R6.
    destruct (addr_parse_c (b_cfg b) ts) as [a|e' x'|u]; cbn [coded bind real] in *; [rewrite ok_ok|rewrite (ok_no _ R6)|]; reflexivity.
  - cbn [read_by]. unfold anet_parse_code_b. cbv zeta. rewrite (net_parse_code_b_eq b V4) by assumption. cbn [net_in].
    pose proof (net_in_real b V4 ts strict H) as R. cbn [net_in] in R. destruct (net_parse V4 ts strict) as [a|e x|u]; cbn [coded bind real] in *; [rewrite ok_ok; reflexivity| |reflexivity].
    rewrite (ok_no _ R). rewrite (net_parse_code_b_eq b V6) by assumption. cbn [net_in]. pose proof (net_in_real b V6 ts strict H) as R6. cbn [net_in] in R6.
    destruct (net_parse_c (b_cfg b) ts strict) as [a|e' x'|u]; cbn [coded bind real] in *; [rewrite ok_ok|rewrite (ok_no _ R6)|]; reflexivity.
Qed.

Lemma b_string_eq b T k strict s : units b T s ->
  b_string_of b T k strict s = (ts <- tokens (reader_b b T) s ;; hush b (nothing k) (read_by (b_cfg b) k strict ts)).
Proof.
  intros HU. unfold b_string_of. change (fun ts => match k with KAddr v => _ | KNet v => _ | KAny => _ | KAnyNet => _ end) with (b_of b k strict).
  destruct (tokens (reader_b b T) s) as [ts| |] eqn:E; cbn [bind]; try reflexivity. apply reader_b_fits in E as [HA H]; [|exact HU].
  exact (b_of_eq b k strict ts HA H).
Qed.
Lemma b_coded_of_eq b T k strict s code : units b T s ->
  b_coded_of b T k strict s code = (ts <- tokens (reader_b b T) s ;; coded (default_of k) (read_by (b_cfg b) k strict ts)).
Proof.
  intros HU. unfold b_coded_of. destruct (tokens (reader_b b T) s) as [ts| |] eqn:E; cbn [bind]; try reflexivity. apply reader_b_fits in E as [HA H]; [|exact HU].
  exact (b_coded_eq b k strict ts code HA H).
Qed.
Lemma b_array_eq b T k strict data : units b T data ->
  b_array_of b T k strict data = hush b (nothing k) (f <- fs_make (reader_b b T) (cap data) data ;; read_by (b_cfg b) k strict (chars (fs_chars f))).
Proof.
  intros HU. pose proof (reader_b_real b T) as R.
  assert (HF : forall f, fs_make (reader_b b T) (cap data) data = Ret f -> Forall (A_b b) (fs_chars f)) by (intros f; apply reader_b_make; exact HU).
  destruct k as [v|v| |]; cbn [b_array_of nothing default_of].
  - unfold addr_array_b. rewrite parse_array_b_eq by assumption. rewrite hush_map. f_equal. destruct (fs_make _ _ _); cbn [bind]; [destruct v|..]; reflexivity.
  - unfold net_array_t_b. rewrite net_array_b_eq by assumption. rewrite hush_map. f_equal. destruct (fs_make _ _ _); cbn [bind]; [destruct v|..]; reflexivity.
  - cbn [read_by]. unfold any_array_b, addr_array_b. rewrite parse_array_code_b_eq, parse_array_b_eq by assumption.
    pose proof (fs_make_sim (reader_b b T) (cap data) data no_error R) as F.
    destruct (fs_make (reader_b b T) (cap data) data) as [f|e x|u]; cbn [bind coded fs_outcome] in *.
    + cbn [addr_in]. unfold any_parse_c, addr_parse_code. pose proof (addr_parse_real V4 (chars (fs_chars f)) (chars_real _)) as RR.
      destruct (addr_parse V4 (chars (fs_chars f))) as [a|e x|u]; cbn [coded bind real] in *.
      * rewrite ok_ok; unfold hush; destruct (b_throws b); reflexivity.
      * change (ec_eqb e no_error) with (ok e). rewrite (ok_no _ RR). unfold hush. destruct (b_throws b), (addr_parse_c (b_cfg b) (chars (fs_chars f))); reflexivity.
      * unfold hush; destruct (b_throws b); reflexivity.
    + destruct F as (E & _). rewrite (ok_no _ E). unfold hush. destruct (b_throws b); reflexivity.
    + unfold hush; destruct (b_throws b); reflexivity.
  - cbn [read_by]. unfold anet_array_b, net_array_t_b. rewrite net_array_code_b_eq, net_array_b_eq by assumption.
    pose proof (fs_make_sim (reader_b b T) (cap data) data no_error R) as F.
    destruct (fs_make (reader_b b T) (cap data) data) as [f|e x|u]; cbn [bind coded fs_outcome] in *.
    + pose proof (net_in_real b V4 (chars (fs_chars f)) strict (chars_real _)) as RR. cbn [net_in] in *.
      destruct (net_parse V4 (chars (fs_chars f)) strict) as [a|e x|u]; cbn [coded bind real] in *.
      * rewrite ok_ok; unfold hush; destruct (b_throws b); reflexivity.
      * rewrite (ok_no _ RR). unfold hush. destruct (b_throws b), (net_parse_c (b_cfg b) (chars (fs_chars f)) strict); reflexivity.
      * unfold hush; destruct (b_throws b); reflexivity.
    + destruct F as (E & _). rewrite (ok_no _ E). unfold hush. destruct (b_throws b); reflexivity.
    + unfold hush; destruct (b_throws b); reflexivity.
Qed.
Definition padded (n : Z) (s : list Z) : list Z := s ++ repeat 0 (Z.to_nat (n + 1 - zlen s)).
Lemma b_literal_eq b T k s : b_literal_of b T k s =
  let n := longest_for (c_max (b_cfg b)) k in
  if b_throws b then if zlen s >? n then Err string_is_too_long 0 else b_array_of b T k true (padded n s)
  else b_array_of b T k true (padded n (firstn (Z.to_nat n) s)).
Proof.
  destruct k as [[]|[]| |]; cbn [b_literal_of b_array_of longest_for]; unfold addr_literal_b, net_literal_b, any_literal_b, anet_literal_b, literal_b, literal, nx_literal, padded; cbn [max_len_b max_string_len]; unfold max_len_c; cbv zeta.
  - change (max_string_len V4) with 15. destruct (b_throws b); [destruct (zlen s >? _)|]; reflexivity.
  - destruct (b_throws b); [destruct (zlen s >? _)|]; reflexivity.
  - change (15 * 2 + 1) with 31. destruct (b_throws b); [destruct (zlen s >? _)|]; reflexivity.
  - replace (41 + c_max (b_cfg b) + 4) with (45 + c_max (b_cfg b)) by lia. destruct (b_throws b); [destruct (zlen s >? _)|]; reflexivity.
  - destruct (b_throws b); [destruct (zlen s >? _)|]; reflexivity.
  - replace ((41 + c_max (b_cfg b)) * 2 + 1) with (83 + 2 * c_max (b_cfg b)) by lia. destruct (b_throws b); [destruct (zlen s >? _)|]; reflexivity.
Qed.

(** ** IPADDRESS_NO_EXCEPTIONS *)
Lemma silent_hush {X} b (d : X) r : silent d (hush (throwing b) d r) (hush (quietly b) d r).
Proof. unfold hush, throwing, quietly. cbn [b_throws]. destruct r; reflexivity. Qed.
Lemma tokens_b_quiet b T s : quiet (tokens (reader_b b T) s).
Proof. apply tokens_quiet, reader_b_real. Qed.
Lemma b_silent_strings b T k strict s : Forall (unit_ok T) s -> silent (nothing k) (b_string_of (throwing b) T k strict s) (b_string_of (quietly b) T k strict s).
Proof.
  intros HU. rewrite !b_string_eq by (apply units_ok; exact HU). change (reader_b (throwing b) T) with (reader_b b T). change (reader_b (quietly b) T) with (reader_b b T).
  pose proof (tokens_b_quiet b T s) as Q. destruct (tokens (reader_b b T) s); cbn [bind]; [|contradiction|reflexivity].
  change (b_cfg (throwing b)) with (b_cfg b). change (b_cfg (quietly b)) with (b_cfg b). apply silent_hush.
Qed.
Lemma b_silent_arrays b T k strict data : Forall (unit_ok T) data -> silent (nothing k) (b_array_of (throwing b) T k strict data) (b_array_of (quietly b) T k strict data).
Proof.
  intros HU. rewrite !b_array_eq by (apply units_ok; exact HU). change (reader_b (throwing b) T) with (reader_b b T). change (reader_b (quietly b) T) with (reader_b b T).
  change (b_cfg (throwing b)) with (b_cfg b). change (b_cfg (quietly b)) with (b_cfg b). apply silent_hush.
Qed.
Lemma padded_ok T n s : Forall (unit_ok T) s -> Forall (unit_ok T) (padded n s).
Proof.
  intros H. apply Forall_app. split; [exact H|]. apply Forall_forall. intros x Hx. apply repeat_spec in Hx. subst. apply unit_zero.
Qed.
Lemma longest_for_pos n k : 0 <= n -> 0 <= longest_for n k.
Proof. intros H. destruct k as [[]|[]| |]; cbn [longest_for]; lia. Qed.
Lemma b_silent_literals b T k s : Forall (unit_ok T) s -> zlen s <= longest_for (c_max (b_cfg b)) k ->
  silent (nothing k) (b_literal_of (throwing b) T k s) (b_literal_of (quietly b) T k s).
Proof.
  intros HU HL. rewrite !b_literal_eq. cbv zeta. change (b_cfg (throwing b)) with (b_cfg b). change (b_cfg (quietly b)) with (b_cfg b).
  change (b_throws (throwing b)) with true. change (b_throws (quietly b)) with false. cbv iota.
  destruct (Z.gtb_spec (zlen s) (longest_for (c_max (b_cfg b)) k)); [lia|]. rewrite firstn_all2 by (unfold zlen in HL; lia). apply b_silent_arrays, padded_ok, HU.
Qed.
Lemma b_long_literals b T k s : longest_for (c_max (b_cfg b)) k < zlen s ->
  b_literal_of (throwing b) T k s = Err string_is_too_long 0 /\
  b_literal_of (quietly b) T k s = b_literal_of (quietly b) T k (firstn (Z.to_nat (longest_for (c_max (b_cfg b)) k)) s).
Proof.
  intros HL. rewrite !b_literal_eq. cbv zeta. change (b_cfg (throwing b)) with (b_cfg b). change (b_cfg (quietly b)) with (b_cfg b).
  change (b_throws (throwing b)) with true. change (b_throws (quietly b)) with false. cbv iota.
  split; [destruct (Z.gtb_spec (zlen s) (longest_for (c_max (b_cfg b)) k)); [reflexivity|lia]|]. rewrite firstn_firstn, Nat.min_id. reflexivity.
Qed.

(** ** IPADDRESS_CHAR_IS_UTF8 *)
Lemma hush_cfg {X} b b' (d : X) r : b_throws b = b_throws b' -> hush b d r = hush b' d r.
Proof. intros H. unfold hush. rewrite H. reflexivity. Qed.
Lemma u8_units b s : units b TChar8 (bytes_of s).
Proof. apply units_ok. exact (octets_u8 s). Qed.
Lemma char_units b s : units b TChar s.
Proof. apply Forall_forall. intros c _ H. contradiction H. reflexivity. Qed.
Lemma utf8_strings b k strict s : b_string_of (in_utf8 b) TChar k strict s = b_string_of (in_bytes b) TChar8 k strict (bytes_of s).
Proof.
  rewrite (b_string_eq _ TChar) by apply char_units. rewrite (b_string_eq _ TChar8) by apply u8_units.
  change (reader_b (in_utf8 b) TChar) with utf8c_next. change (reader_b (in_bytes b) TChar8) with utf8_next. rewrite tokens_octets. reflexivity.
Qed.
Lemma utf8_codes b k strict s code : b_coded_of (in_utf8 b) TChar k strict s code = b_coded_of (in_bytes b) TChar8 k strict (bytes_of s) code.
Proof.
  rewrite (b_coded_of_eq _ TChar) by apply char_units. rewrite (b_coded_of_eq _ TChar8) by apply u8_units.
  change (reader_b (in_utf8 b) TChar) with utf8c_next. change (reader_b (in_bytes b) TChar8) with utf8_next. rewrite tokens_octets. reflexivity.
Qed.
Lemma utf8_arrays b k strict data : b_array_of (in_utf8 b) TChar k strict data = b_array_of (in_bytes b) TChar8 k strict (bytes_of data).
Proof.
  rewrite (b_array_eq _ TChar) by apply char_units. rewrite (b_array_eq _ TChar8) by apply u8_units.
  change (reader_b (in_utf8 b) TChar) with utf8c_next. change (reader_b (in_bytes b) TChar8) with utf8_next. change (bytes_of data) with (octets data).
  rewrite make_octets, cap_octets. reflexivity.
Qed.
Lemma octets_padded n s : octets (padded n s) = padded n (octets s).
Proof. unfold padded. rewrite octets_pad, octets_zlen. reflexivity. Qed.
Lemma octets_firstn n s : octets (firstn n s) = firstn n (octets s).
Proof. unfold octets. symmetry. apply firstn_map. Qed.
Lemma utf8_literals b k s : b_literal_of (in_utf8 b) TChar k s = b_literal_of (in_bytes b) TChar8 k (bytes_of s).
Proof.
  rewrite !b_literal_eq. cbv zeta. change (b_cfg (in_utf8 b)) with (b_cfg b). change (b_cfg (in_bytes b)) with (b_cfg b).
  change (b_throws (in_utf8 b)) with (b_throws b). change (b_throws (in_bytes b)) with (b_throws b). rewrite !utf8_arrays. change bytes_of with octets.
  rewrite !octets_padded, octets_firstn, octets_zlen. reflexivity.
Qed.
Lemma other_reader_b b T : T <> TChar -> reader_b (in_utf8 b) T = reader_b (in_bytes b) T.
Proof. destruct T; [congruence|reflexivity|reflexivity|reflexivity|reflexivity]. Qed.
Lemma other_strings b T k strict s : T <> TChar -> Forall (unit_ok T) s -> b_string_of (in_utf8 b) T k strict s = b_string_of (in_bytes b) T k strict s.
Proof. intros NT HU. rewrite !b_string_eq by (apply units_ok; exact HU). rewrite other_reader_b by exact NT. reflexivity. Qed.
Lemma other_codes b T k strict s code : T <> TChar -> Forall (unit_ok T) s -> b_coded_of (in_utf8 b) T k strict s code = b_coded_of (in_bytes b) T k strict s code.
Proof. intros NT HU. rewrite !b_coded_of_eq by (apply units_ok; exact HU). rewrite other_reader_b by exact NT. reflexivity. Qed.
Lemma other_arrays b T k strict data : T <> TChar -> Forall (unit_ok T) data -> b_array_of (in_utf8 b) T k strict data = b_array_of (in_bytes b) T k strict data.
Proof. intros NT HU. rewrite !b_array_eq by (apply units_ok; exact HU). rewrite other_reader_b by exact NT. reflexivity. Qed.
Lemma firstn_ok {X} (P : X -> Prop) n s : Forall P s -> Forall P (firstn n s).
Proof. intros H. rewrite <- (firstn_skipn n s) in H. apply Forall_app in H. tauto. Qed.
Lemma other_literals b T k s : T <> TChar -> Forall (unit_ok T) s -> b_literal_of (in_utf8 b) T k s = b_literal_of (in_bytes b) T k s.
Proof.
  intros NT HU. rewrite !b_literal_eq. cbv zeta. change (b_cfg (in_utf8 b)) with (b_cfg b). change (b_cfg (in_bytes b)) with (b_cfg b).
  change (b_throws (in_utf8 b)) with (b_throws b). change (b_throws (in_bytes b)) with (b_throws b).
  rewrite (other_arrays b T k true (padded _ s) NT) by (apply padded_ok; exact HU). rewrite other_arrays by (try exact NT; apply padded_ok, firstn_ok, HU). reflexivity.
Qed.

(** ** Without the two: the scope-id macros *)
Lemma plain_strings b k strict s : b_string_of (in_bytes (throwing b)) TChar k strict s = read_by (b_cfg b) k strict (chars s).
Proof. rewrite b_string_eq by apply char_units. change (reader_b _ TChar) with char_next. rewrite char_tokens. reflexivity. Qed.
Lemma plain_codes b k strict s code : b_coded_of (in_bytes b) TChar k strict s code =
  match read_by (b_cfg b) k strict (chars s) with Ret o => Ret (o, no_error) | Err e _ => Ret (default_of k, e) | UB u => UB u end.
Proof. rewrite b_coded_of_eq by apply char_units. change (reader_b _ TChar) with char_next. rewrite char_tokens. reflexivity. Qed.
