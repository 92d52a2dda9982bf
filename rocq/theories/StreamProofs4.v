(** Numbers: text in every character type, and streams. *)
From Verif Require Import Base Tac TextProofs UnicodeModel FixedStringModel V4Model V6Model Uint128Model SpecInt Uint128Proofs Uint128Text
  SpecText SpecStr StrProofs SpecAny AnyModel ErrProofs NetProofs2 CodeProofs StreamModel SpecStream StreamProofs StreamProofs2 StreamProofs3.

Lemma digits_ascii r s ds : r <= 16 -> digits_of r s ds -> Forall is_ascii s /\ Forall (fun c => ~ blank c) s.
Proof.
  intros Hr. induction 1 as [|c d s ds [R H] _ [IH1 IH2]]; [auto|]. assert (48 <= c <= 57 \/ 97 <= c <= 102) by lia.
  split; constructor; try assumption; unfold is_ascii, blank; lia.
Qed.
Lemma radix_le f : ufmt_radix f <= 16. Proof. destruct f; cbn; lia. Qed.
Lemma num_text_ok T f a : wf128 a -> exists s, u128_to_string f a = Ret s /\ u128_to_text T f a = Ret s /\ numeral (ufmt_radix f) s (to_Z a) /\
  Forall (fun c => is_ascii c /\ ~ blank c) s /\ s <> [] /\ u128_from_text T f s = Ret (Some a).
Proof.
  intros W. destruct (to_string_ok f a W) as (s & E & N). destruct (text_round_trip f a W) as (s' & E' & R). rewrite E in E'. apply ret_inj in E'. subst s'.
  pose proof N as (ds & D & Nz & _). destruct (digits_ascii _ s ds (radix_le f) D) as [A B]. exists s. split; [exact E|].
  unfold u128_to_text. rewrite E. cbn [bind]. rewrite convert_ascii by exact A. split; [reflexivity|]. split; [exact N|].
  split; [apply Forall_forall; intros c K; rewrite Forall_forall in A, B; auto|]. split; [intros ->; inversion D; subst; contradiction|].
  unfold u128_from_text. rewrite tokens_ascii by exact A. cbn [bind]. rewrite R. reflexivity.
Qed.
Lemma upper_all_ok s : Forall is_ascii s -> upper_all s = Ret (map upper s).
Proof. induction 1 as [|c s H _ IH]; [reflexivity|]. cbn [upper_all map]. rewrite toupper_ok by exact H. cbn [bind]. rewrite IH. reflexivity. Qed.
Lemma base_radix hex oct : ufmt_radix (base_of hex oct) = radix_of hex oct.
Proof. destruct hex, oct; reflexivity. Qed.
Lemma num_put_ok T a os : wf128 a -> o_fail os = false ->
  exists s out, numeral (radix_of (o_hex os) (o_oct os)) s (to_Z a) /\ padded (o_width os) (o_left os) (o_fill os) (if o_upper os then map upper s else s) out /\
    u128_put T a os = Ret (mk_os (o_out os ++ out) false (o_upper os) (o_left os) (o_hex os) (o_oct os) 0 (o_fill os) (o_fmt os)).
Proof.
  intros W F. destruct (num_text_ok T (base_of (o_hex os) (o_oct os)) a W) as (s & E & _ & N & A & _). rewrite base_radix in N.
  assert (As : Forall is_ascii s) by (eapply Forall_impl; [|exact A]; intros c [H _]; exact H).
  assert (Ak : Forall is_ascii (kase (o_upper os) s)) by (apply kase_ascii; exact As).
  destruct (os_write_good (kase (o_upper os) s) os F) as (out & P & Q). exists s, out. split; [exact N|]. split; [exact P|].
  unfold u128_put. rewrite E. cbn [bind]. assert (U : (if o_upper os then upper_all s else Ret s) = Ret (kase (o_upper os) s)) by (destruct (o_upper os); [apply upper_all_ok; exact As|reflexivity]).
  rewrite U. cbn [bind]. rewrite convert_ascii by exact Ak. rewrite Q. reflexivity.
Qed.
Lemma num_put_failed T a os : wf128 a -> o_fail os = true -> u128_put T a os = Ret os.
Proof.
  intros W F. destruct (num_text_ok T (base_of (o_hex os) (o_oct os)) a W) as (s & E & _ & N & A & _).
  assert (As : Forall is_ascii s) by (eapply Forall_impl; [|exact A]; intros c [H _]; exact H).
  unfold u128_put. rewrite E. cbn [bind]. assert (U : (if o_upper os then upper_all s else Ret s) = Ret (kase (o_upper os) s)) by (destruct (o_upper os); [apply upper_all_ok; exact As|reflexivity]).
  rewrite U. cbn [bind]. unfold os_write. rewrite F. reflexivity.
Qed.
(** *** Extraction *)
Lemma took_flags i w i' : took i w i' -> i_hex i' = i_hex i /\ i_oct i' = i_oct i.
Proof. intros [?|? ? ? ?|b w0 r e ? ? ? ? ? ? ?]; cbn; auto. Qed.
Lemma num_get_ok T value i w i' : took i w i' ->
  u128_get T value i = match u128_from_text T (base_of (i_hex i) (i_oct i)) w with
                       | Ret (Some x) => Ret (x, i') | Ret None => Ret (value, i_set_fail i') | Err e x => Err e x | UB u => UB u end.
Proof.
  intros H. destruct (took_flags _ _ _ H) as [F1 F2]. apply took_read in H. unfold u128_get, u128_from_text. rewrite H, F1, F2. destruct (tokens (reader_of T) w) as [ts|e x|u]; cbn [bind]; try reflexivity.
Qed.
(** What is read from a word of ASCII characters, exactly. *)
Lemma num_word T f w : Forall is_ascii w -> Forall (fun c => c <> 0) w ->
  (exists ds, Forall2 (digit_read f) w ds /\ u128_from_text T f w = Ret (Some (of_Z (horner (ufmt_radix f) 0 ds)))) \/
  ((forall ds, ~ Forall2 (digit_read f) w ds) /\ u128_from_text T f w = Ret None).
Proof.
  intros A N. unfold u128_from_text. rewrite tokens_ascii by exact A. cbn [bind]. destruct (u128_from_string f (chars w)) as [x|] eqn:E.
  - left. apply from_string_ok in E as (ds & F & ->); [|exact N]. eauto.
  - right. split; [|reflexivity]. intros ds F. pose proof (proj2 (from_string_ok f w N (of_Z (horner (ufmt_radix f) 0 ds)))) as K. rewrite K in E by eauto. discriminate.
Qed.
Lemma upper_read f c d : digit_char (ufmt_radix f) c d -> digit_read f (upper c) d.
Proof.
  intros [R [[H ->]|[H ->]]]; unfold digit_read, upper.
  - destruct (Z.leb_spec 97 (48 + d)); cbn [andb]; [lia|]. left. split; [exact R|]. left. lia.
  - destruct (Z.leb_spec 97 (97 + (d - 10))); [|lia]. destruct (Z.leb_spec (97 + (d - 10)) 122); [|destruct f; cbn in R; lia]. cbn [andb].
    right. destruct f; cbn [ufmt_radix] in R; try lia. split; [reflexivity|]. lia.
Qed.
Lemma num_upper_reads T f a s up : wf128 a -> u128_to_string f a = Ret s -> u128_from_text T f (kase up s) = Ret (Some a).
Proof.
  intros W E. destruct (num_text_ok T f a W) as (s' & E' & _ & (ds & D & _ & _ & V) & A & _ & R). rewrite E in E'. apply ret_inj in E'. subst s'. destruct up; cbn [kase]; [|exact R].
  assert (As : Forall is_ascii s) by (eapply Forall_impl; [|exact A]; intros c [H _]; exact H).
  unfold u128_from_text. rewrite tokens_ascii by exact (kase_ascii true s As). cbn [bind]. f_equal. apply from_string_ok.
  - apply Forall_map. assert (Nz := digits_of_nonzero _ _ _ D). eapply Forall_impl; [|exact Nz]. intros c Hc. cbv beta in Hc |- *. unfold upper. destruct (Z.leb_spec 97 c), (Z.leb_spec c 122); cbn [andb]; lia.
  - exists ds. split; [|rewrite V, of_to_Z by exact W; reflexivity]. clear -D. induction D as [|c d s ds H _ IH]; cbn [map]; constructor; [apply upper_read; exact H|exact IH].
Qed.
(** Written to a stream and read from a stream with the same base flags. *)
Lemma num_stream_round_trip T up hex oct a value rest : wf128 a -> rest = [] \/ (exists c r, rest = c :: r /\ blank c) ->
  exists os i, u128_put T a (mk_os [] false up false hex oct 0 32 0) = Ret os /\ o_fail os = false /\
    u128_get T value (mk_is (o_out os ++ rest) false false true hex oct 0 0) = Ret (a, i) /\ i_fail i = false /\ i_in i = rest.
Proof.
  intros W Hr. destruct (num_text_ok T (base_of hex oct) a W) as (s & E & _ & N & A & Ne & _).
  assert (As : Forall is_ascii s) by (eapply Forall_impl; [|exact A]; intros c [H _]; exact H).
  set (w := kase up s). assert (Aw : Forall is_ascii w) by (apply kase_ascii; exact As).
  assert (P : u128_put T a (mk_os [] false up false hex oct 0 32 0) = Ret (mk_os w false up false hex oct 0 32 0)).
  { unfold u128_put. cbn [o_hex o_oct o_upper]. rewrite E. cbn [bind]. assert (U : (if up then upper_all s else Ret s) = Ret w) by (subst w; destruct up; [apply upper_all_ok; exact As|reflexivity]).
    rewrite U. cbn [bind]. rewrite convert_ascii by exact Aw. unfold os_write. cbn [o_fail o_width o_out o_left o_hex o_oct o_fill o_fmt o_upper app]. rewrite Z2Nat.inj_sub, Z2Nat.inj_0 by (unfold zlen; lia). reflexivity. }
  assert (Nw : w <> []) by (subst w; destruct s; [contradiction|]; destruct up; discriminate).
  assert (Bw : Forall (fun c => ~ blank c) w).
  { subst w. destruct up; cbn [kase]; [apply Forall_map|]; (eapply Forall_impl; [|exact A]); intros c [_ H]; [|exact H]. unfold upper, blank in *. destruct (Z.leb_spec 97 c), (Z.leb_spec c 122); cbn [andb]; lia. }
  set (e := match rest with [] => true | _ => false end).
  assert (K : took (mk_is (w ++ rest) false false true hex oct 0 0) w (mk_is rest e false true hex oct 0 0)).
  { assert (X : (match w with [] => true | _ => false end) = false) by (destruct w; [contradiction|reflexivity]).
    pose proof (took_word (mk_is (w ++ rest) false false true hex oct 0 0) [] w rest e eq_refl eq_refl eq_refl (Forall_nil _) Bw) as K. rewrite X in K. cbn [i_in i_eof i_fail i_skipws i_hex i_oct i_width i_strict] in K. apply K.
    - destruct w as [|c w0]; [contradiction|]. exists c, (w0 ++ rest). split; [reflexivity|]. inversion Bw. assumption.
    - destruct Hr as [->|(c & r & -> & B)]; [left|right; right]; (split; [reflexivity|]); (split; [try reflexivity; lia|]); [lia|eauto]. }
  eexists _, _. split; [exact P|]. split; [reflexivity|]. cbn [o_out]. rewrite (num_get_ok T value _ _ _ K). cbn [i_hex i_oct]. pose proof (num_upper_reads T _ a s up W E) as R. fold w in R. rewrite R. auto.
Qed.
(** Nothing to read: the variable becomes zero although the extraction failed. *)
Lemma num_nothing T value i : i_eof i = true \/ i_fail i = true \/ (i_skipws i = true /\ Forall blank (i_in i)) ->
  exists i', u128_get T value i = Ret (mk128 0 0, i') /\ i_fail i' = true.
Proof.
  intros H. assert (exists i', took i [] i' /\ i_fail i' = true) as (i' & K & F).
  { destruct (i_eof i) eqn:Ee; [eexists; split; [apply took_bad; left; exact Ee|reflexivity]|]. destruct (i_fail i) eqn:Ef; [eexists; split; [apply took_bad; right; exact Ef|reflexivity]|].
    destruct H as [H|[H|[Hs Hb]]]; try discriminate. eexists. split; [apply took_end; assumption|reflexivity]. }
  exists i'. split; [|exact F]. rewrite (num_get_ok T value i [] i' K). unfold u128_from_text. assert (E : tokens (reader_of T) [] = Ret []) by (destruct T; reflexivity). rewrite E. reflexivity.
Qed.
(** A word that is not a number leaves the variable alone. *)
Lemma num_bad_word T value i w i' : took i w i' -> Forall is_ascii w -> Forall (fun c => c <> 0) w ->
  (forall ds, ~ Forall2 (digit_read (base_of (i_hex i) (i_oct i))) w ds) -> u128_get T value i = Ret (value, i_set_fail i').
Proof.
  intros K A N H. rewrite (num_get_ok T value i w i' K). destruct (num_word T (base_of (i_hex i) (i_oct i)) w A N) as [(ds & F & _)|[_ ->]]; [destruct (H ds F)|reflexivity].
Qed.
Lemma num_overwritten : exists T value i x i', u128_get T value i = Ret (x, i') /\ i_fail i' = true /\ x <> value.
Proof.
  exists TChar, (mk128 0 7), (new_is []). destruct (num_nothing TChar (mk128 0 7) (new_is [])) as (i' & E & F); [right; right; split; [reflexivity|constructor]|].
  exists (mk128 0 0), i'. split; [exact E|]. split; [exact F|discriminate].
Qed.
