(** Builds with several macros set: strings and error codes. *)
From Verif Require Import Base Tac SpecStr SpecText SpecAny SpecCode StrProofs Utf8Proofs RaiseProofs6 Uint128Model UnicodeModel FixedStringModel FixedStringProofs V4Model V6Model AddressModel NetworkModel
  AnyModel CodeModel StreamModel SpecStream StreamProofs LiteralModel SpecLiteral LiteralProofs ScopeModel SpecScope ScopeProofs NoThrowModel SpecNoThrow NoThrowProofs Utf8Model SpecUtf8 ErrProofs CodeProofs CodeProofs2 CodeProofs3
  InnerProofs CharUtf8Proofs ConfigModel ConfigProofs NetConfigModel NetConfigProofs MacroModel MacroProofs SpecMacro.

(** ASCII if [char] is UTF-8. *)
Definition A_b (b : build) (c : Z) : Prop := b_utf8 b = true -> is_ascii c.
Lemma A0_b b : A_b b 0. Proof. intros _. exact ascii0. Qed.
Lemma Ahex_b b : Forall (A_b b) hex_digits.
Proof. eapply Forall_impl; [|exact hex_a]. intros c H _. exact H. Qed.
Lemma same_b b data n it : Forall (A_b b) data -> inner_b b data n it = char_next data n it.
Proof.
  unfold inner_b, A_b. destruct (b_utf8 b); [|reflexivity]. intros H. apply utf8c_same. eapply Forall_impl; [|exact H]. intros c Hc. exact (Hc eq_refl).
Qed.
Notation fits b := (Forall (tok_A (A_b b))).
Lemma units_any b T : to_A (A_b b) (fun c => T <> TChar -> b_utf8 b = true -> unit_ok T c) (reader_b b T).
Proof.
  intros data n it t it' HD H. unfold tok_A, A_b. destruct t as [c|]; [|exact I]. intros U.
  assert (HA : tok_a (Ch c)); [|exact HA].
  destruct T; cbn [reader_b] in H.
  - unfold inner_b in H. rewrite U in H. exact (utf8c_to_ascii _ _ _ _ _ (any_units data) H).
  - apply (others_to_ascii TChar8 ltac:(congruence) data n it _ it'); [|exact H]. eapply Forall_impl; [|exact HD]. intros x Hx. apply Hx; [congruence|exact U].
  - apply (others_to_ascii TChar16 ltac:(congruence) data n it _ it'); [|exact H]. eapply Forall_impl; [|exact HD]. intros x Hx. apply Hx; [congruence|exact U].
  - apply (others_to_ascii TChar32 ltac:(congruence) data n it _ it'); [|exact H]. eapply Forall_impl; [|exact HD]. intros x Hx. apply Hx; [congruence|exact U].
  - apply (others_to_ascii TWchar ltac:(congruence) data n it _ it'); [|exact H]. eapply Forall_impl; [|exact HD]. intros x Hx. apply Hx; [congruence|exact U].
Qed.
(** The units a text must have. *)
Definition units (b : build) (T : chtype) (s : list Z) : Prop := Forall (fun c => T <> TChar -> b_utf8 b = true -> unit_ok T c) s.
Lemma units_ok b T s : Forall (unit_ok T) s -> units b T s.
Proof. intros H. eapply Forall_impl; [|exact H]. auto. Qed.
Lemma reader_b_real b T : reader_real (reader_b b T).
Proof.
  assert (RU : reader_real utf8c_next) by (intros data n it; exact (utf8_reader_real (octets data) n it)).
  destruct T; cbn [reader_b]; [unfold inner_b; destruct (b_utf8 b); [exact RU|exact char_reader_real]|exact utf8_reader_real|exact utf16_reader_real|exact utf32_reader_real|exact utf32_reader_real].
Qed.
Lemma reader_b_fits b T s ts : units b T s -> tokens (reader_b b T) s = Ret ts -> fits b ts /\ Forall tok_real ts.
Proof.
  intros HU H. split; [|exact (tokens_real _ _ _ (reader_b_real b T) H)].
  exact (tokens_A (A_b b) _ _ s ts (units_any b T) HU H).
Qed.
Lemma reader_b_make b T n data f : units b T data -> fs_make (reader_b b T) n data = Ret f -> Forall (A_b b) (fs_chars f).
Proof.
  intros HU H. apply chars_A. exact (fs_make_A (A_b b) (A0_b b) _ _ n data f (units_any b T) HU H).
Qed.
Lemma fits_chars b s : Forall (A_b b) s -> fits b (chars s).
Proof. apply toks_A. Qed.
Lemma tokens_b b s : Forall (A_b b) s -> tokens (inner_b b) s = Ret (chars s).
Proof. apply tokens_same_b. apply same_b. Qed.

(** What a throwing function does in a build, and what one with a code does. *)
Definition hush {X} (b : build) (d : X) (r : res X) : res X := if b_throws b then r else match r with Err _ _ => Ret d | _ => r end.
Definition coded {X} (d : X) (r : res X) : res (X * ec) := match r with Ret a => Ret (a, no_error) | Err e _ => Ret (d, e) | UB u => UB u end.
Lemma raise_outcome {X} b (d : X) r o : outcome d r o -> real r -> ('(a, c, v) <- o ;; raise_b b a c v) = hush b d r.
Proof.
  intros O R. unfold hush, raise_b. destruct r as [a|e x|u]; cbn [outcome real] in *.
  - destruct O as (x & ->). cbn [bind]. rewrite ok_ok. destruct (b_throws b); reflexivity.
  - rewrite O. cbn [bind]. rewrite (ok_no _ R). destruct (b_throws b); reflexivity.
  - rewrite O. destruct (b_throws b); reflexivity.
Qed.
Lemma coded_outcome {X} (d : X) r o : outcome d r o -> ('(a, c, _) <- o ;; Ret (a, c)) = coded d r.
Proof. unfold coded. destruct r as [a|e x|u]; cbn [outcome]; [intros (x & ->)|intros ->|intros ->]; reflexivity. Qed.

(** ** Addresses *)
Definition addr_in (b : build) (v : ver) (ts : list tok) : res addr := match v with V4 => addr_parse V4 ts | V6 => addr_parse_c (b_cfg b) ts end.
Lemma addr_in_real b v ts : Forall tok_real ts -> real (addr_in b v ts).
Proof. destruct v; [apply addr_parse_real|apply addr_c_real]. Qed.
Lemma string_b_sim b v ts : fits b ts -> Forall tok_real ts -> outcome (addr_default v) (addr_in b v ts) (string_b b v ts no_error 0).
Proof.
  intros HA H. destruct v; [exact (string_sim0 V4 ts no_error H)|]. cbn [string_b addr_in]. unfold addr_parse_c.
  pose proof (v6_string_sim_b (A_b b) (A0_b b) (Ahex_b b) b (same_b b) ts HA H) as G.
  destruct (v6_from_string_c (b_cfg b) true ts) as [[q s]| |]; cbn [outcome bind] in *; [destruct G as (x & ->); eexists; reflexivity|rewrite G; reflexivity|rewrite G; reflexivity].
Qed.
Lemma parse_b_eq b v ts : fits b ts -> Forall tok_real ts -> parse_b b v ts = hush b (addr_default v) (addr_in b v ts).
Proof. intros HA H. unfold parse_b. cbv zeta. apply raise_outcome; [apply string_b_sim; assumption|apply addr_in_real; assumption]. Qed.
Lemma parse_code_b_eq b v ts code : fits b ts -> Forall tok_real ts -> parse_code_b b v ts code = coded (addr_default v) (addr_in b v ts).
Proof. intros HA H. unfold parse_code_b. cbv zeta. apply coded_outcome, string_b_sim; assumption. Qed.
Lemma parse_array_code_b_eq b v next n data code : reader_real next -> (forall f, fs_make next n data = Ret f -> Forall (A_b b) (fs_chars f)) ->
  parse_array_code_b b v next n data code = coded (addr_default v) (f <- fs_make next n data ;; addr_in b v (chars (fs_chars f))).
Proof.
  intros R HF. unfold parse_array_code_b. pose proof (fs_make_sim next n data code R) as F. destruct (fs_make next n data) as [f|e x|u]; cbn [fs_outcome bind coded] in *.
  - rewrite F. cbn [bind]. rewrite ok_ok. specialize (HF f eq_refl). rewrite (tokens_b _ _ HF). cbn [bind]. apply parse_code_b_eq; [apply fits_chars; exact HF|apply chars_real].
  - destruct F as (E & f & ->). cbn [bind]. rewrite (ok_no _ E). reflexivity.
  - rewrite F. reflexivity.
Qed.
Lemma parse_array_b_eq b v next n data : reader_real next -> (forall f, fs_make next n data = Ret f -> Forall (A_b b) (fs_chars f)) ->
  parse_array_b b v next n data = hush b (addr_default v) (f <- fs_make next n data ;; addr_in b v (chars (fs_chars f))).
Proof.
  intros R HF. unfold parse_array_b, hush.
  assert (K : forall f, fs_make next n data = Ret f -> (ts <- tokens (inner_b b) (fs_chars f) ;; parse_b b v ts) = hush b (addr_default v) (addr_in b v (chars (fs_chars f)))).
  { intros f E. specialize (HF f E). rewrite (tokens_b _ _ HF). cbn [bind]. apply parse_b_eq; [apply fits_chars; exact HF|apply chars_real]. }
  pose proof (fs_make_sim next n data no_error R) as F. destruct (fs_make next n data) as [f|e x|u]; cbn [fs_outcome bind] in *.
  - specialize (K f eq_refl). unfold hush in K. destruct (b_throws b); [exact K|]. rewrite F. cbn [bind]. rewrite ok_ok. exact K.
  - destruct (b_throws b); [reflexivity|]. destruct F as (E & f & ->). cbn [bind]. rewrite (ok_no _ E). reflexivity.
  - destruct (b_throws b); [reflexivity|]. rewrite F. reflexivity.
Qed.

(** ** Networks *)
Definition net_in (b : build) (v : ver) (ts : list tok) (strict : bool) : res net := match v with V4 => net_parse V4 ts strict | V6 => net_parse_c (b_cfg b) ts strict end.
Definition net_res_in (b : build) (v : ver) (ts : list tok) (strict : bool) : res net := match v with V4 => net_parse_res V4 ts strict | V6 => net_parse_res_c (b_cfg b) ts strict end.
Definition array_in (b : build) (v : ver) (data : list Z) : res addr := f <- fs_make char_next (Z.to_nat (max_len_b b v)) data ;; addr_in b v (chars (fs_chars f)).
Lemma net_in_res b v ts strict : Forall tok_real ts -> net_in b v ts strict = net_res_in b v ts strict.
Proof. intros H. destruct v; [apply net_parse_is_res|apply net_c_is_res]; exact H. Qed.
Lemma net_res_eq b v ts strict : net_res_in b v ts strict =
  ('(address, m) <- net_split (max_len_b b v) ts (repeat 0 (Z.to_nat (max_len_b b v + 1))) 0 false [] ;;
   '(netmask, p) <- parse_netmask v m ;; a <- with_value (mask_value v m) (array_in b v address) ;;
   a <- with_value (mask_value v m) (strict_netmask v a netmask strict) ;; Ret (mk_net a netmask p)).
Proof. destruct v; reflexivity. Qed.
Lemma net_in_real b v ts strict : Forall tok_real ts -> real (net_in b v ts strict).
Proof. intros H. rewrite net_in_res by exact H. destruct v; [apply net_parse_real|apply net_c_real]; exact H. Qed.
Lemma net_string_b_sim b v ts strict code : fits b ts -> Forall tok_real ts -> outcome (net_default v) (net_in b v ts strict) (net_string_b b v ts strict code 0).
Proof.
  intros HA H. rewrite net_in_res, net_res_eq by exact H. unfold net_string_b. cbv zeta.
  pose proof (net_split_sim (max_len_b b v) ts (repeat 0 (Z.to_nat (max_len_b b v + 1))) 0 false [] H) as G.
  destruct (net_split (max_len_b b v) ts (repeat 0 (Z.to_nat (max_len_b b v + 1))) 0 false []) as [[address nm]|e x|u] eqn:ES; cbn [bind].
  2:{ destruct G as (E & ->). reflexivity. }
  2:{ rewrite G. reflexivity. }
  pose proof G as GA. apply (net_split_A (A_b b) (A0_b b)) in GA; [|exact HA|apply zeros_A; exact (A0_b b)].
  rewrite G. clear G. cbn [bind]. apply split_mask_real in ES; [|exact H|constructor].
  pose proof (mask_sim v nm ES) as G. destruct (parse_netmask v nm) as [[m p]|e x|u]; cbn [weak bind] in *.
  2:{ destruct G as (E & ->). cbn [bind]. rewrite (ok_no _ E). reflexivity. }
  2:{ rewrite G. reflexivity. }
  rewrite G. clear G. cbn [bind]. rewrite ok_ok. cbn [negb].
  assert (HI : fs_make (inner_b b) (Z.to_nat (max_len_b b v)) address = fs_make char_next (Z.to_nat (max_len_b b v)) address) by (apply (fill_same_b (A_b b) b (same_b b)); exact GA).
  assert (G : parse_array_code_b b v (inner_b b) (Z.to_nat (max_len_b b v)) address no_error = coded (addr_default v) (array_in b v address)).
  { rewrite parse_array_code_b_eq; [unfold array_in; rewrite HI; reflexivity|exact (reader_b_real b TChar)|].
    intros f E. rewrite HI in E. apply chars_A. exact (fs_make_A (A_b b) (A0_b b) _ _ _ _ _ (char_to_A (A_b b)) GA E). }
  rewrite G. clear G.
  assert (R : real (array_in b v address)).
  { unfold array_in. apply real_bind; [apply fs_make_real|]. intros f _. apply addr_in_real, chars_real. }
  destruct (array_in b v address) as [a|e x|u]; cbn [bind with_value coded real] in *.
  2:{ rewrite (ok_no _ R). reflexivity. }
  2:{ reflexivity. }
  rewrite ok_ok. cbn [negb].
  pose proof (strict_sim v a m strict) as T. destruct (strict_netmask v a m strict) as [q|e x|u]; cbn [bind with_value].
  - rewrite T. cbn [bind]. rewrite ok_ok. eexists. reflexivity.
  - destruct T as (-> & ->). reflexivity.
  - rewrite T. reflexivity.
Qed.
Lemma net_parse_b_eq b v ts strict : fits b ts -> Forall tok_real ts -> net_parse_b b v ts strict = hush b (net_default v) (net_in b v ts strict).
Proof. intros HA H. unfold net_parse_b. cbv zeta. apply raise_outcome; [apply net_string_b_sim; assumption|apply net_in_real; assumption]. Qed.
Lemma net_parse_code_b_eq b v ts strict code : fits b ts -> Forall tok_real ts -> net_parse_code_b b v ts strict code = coded (net_default v) (net_in b v ts strict).
Proof. intros HA H. unfold net_parse_code_b. apply coded_outcome, net_string_b_sim; assumption. Qed.
Lemma net_array_code_b_eq b v next n data strict code : reader_real next -> (forall f, fs_make next n data = Ret f -> Forall (A_b b) (fs_chars f)) ->
  net_array_code_b b v next n data strict code = coded (net_default v) (f <- fs_make next n data ;; net_in b v (chars (fs_chars f)) strict).
Proof.
  intros R HF. unfold net_array_code_b. pose proof (fs_make_sim next n data code R) as F. destruct (fs_make next n data) as [f|e x|u]; cbn [fs_outcome bind coded] in *.
  - rewrite F. cbn [bind]. rewrite ok_ok. specialize (HF f eq_refl). rewrite (tokens_b _ _ HF). cbn [bind]. apply net_parse_code_b_eq; [apply fits_chars; exact HF|apply chars_real].
  - destruct F as (E & f & ->). cbn [bind]. rewrite (ok_no _ E). reflexivity.
  - rewrite F. reflexivity.
Qed.
Lemma net_array_b_eq b v next n data strict : reader_real next -> (forall f, fs_make next n data = Ret f -> Forall (A_b b) (fs_chars f)) ->
  net_array_b b v next n data strict = hush b (net_default v) (f <- fs_make next n data ;; net_in b v (chars (fs_chars f)) strict).
Proof.
  intros R HF. unfold net_array_b, hush.
  assert (K : forall f, fs_make next n data = Ret f -> (ts <- tokens (inner_b b) (fs_chars f) ;; net_parse_b b v ts strict) = hush b (net_default v) (net_in b v (chars (fs_chars f)) strict)).
  { intros f E. specialize (HF f E). rewrite (tokens_b _ _ HF). cbn [bind]. apply net_parse_b_eq; [apply fits_chars; exact HF|apply chars_real]. }
  pose proof (fs_make_sim next n data no_error R) as F. destruct (fs_make next n data) as [f|e x|u]; cbn [fs_outcome bind] in *.
  - specialize (K f eq_refl). unfold hush in K. destruct (b_throws b); [exact K|]. rewrite F. cbn [bind]. rewrite ok_ok. exact K.
  - destruct (b_throws b); [reflexivity|]. destruct F as (E & f & ->). cbn [bind]. rewrite (ok_no _ E). reflexivity.
  - destruct (b_throws b); [reflexivity|]. rewrite F. reflexivity.
Qed.
