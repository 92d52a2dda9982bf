(** The IPv6 integer form, reverse pointer, embedded IPv4 addresses and scope
    ids; consequences used by PropsV6. *)
From Coq Require Import Btauto.
From Verif Require Import Base Tac SpecText TextProofs SpecInt Uint128Model Uint128Proofs UnicodeModel FixedStringModel
  SpecAddr SpecStr V4Model V4Proofs V4Format BitProofs StrProofs Utf8Proofs FixedStringProofs V6Model SpecV4 SpecV6 BufProofs V6Proofs V6Parse V6Grammar V6Full V6Format.

(** Reads of an explicit list. *)
Ltac rdc := repeat (match goal with |- context [rd ?l ?i] => let v := eval compute in (rd l i) in change (rd l i) with v end; cbn [bind]).

(** ** Integer form *)
Lemma list16 (bs : list Z) : length bs = 16%nat ->
  exists a b c d e f g h i j k l m n o p, bs = [a; b; c; d; e; f; g; h; i; j; k; l; m; n; o; p].
Proof.
  intros L. do 16 (destruct bs as [|? bs]; [discriminate L|]). destruct bs; [|discriminate L].
  repeat eexists.
Qed.
Lemma byte_w64 b s : is_byte b -> 0 <= s <= 56 -> w64 (Z.shiftl b s) = b * 2 ^ s.
Proof.
  unfold is_byte, w64. intros Hb Hs. rewrite shl_mul by lia. apply Z.mod_small.
  assert (2 ^ s <= 2 ^ 56) by (apply Z.pow_le_mono_r; lia). pose proof (pow2_pos s ltac:(lia)).
  change (2 ^ 64) with (256 * 2 ^ 56). nia.
Qed.
Lemma lor_down hi b s : is_byte b -> 0 <= s <= 56 -> Z.lor (hi * 2 ^ (s + 8)) (w64 (Z.shiftl b s)) = (hi * 256 + b) * 2 ^ s.
Proof.
  intros Hb Hs. rewrite byte_w64 by assumption. rewrite lor_add by (unfold is_byte in Hb; rewrite ?pow2_split by lia; pose proof (pow2_pos s ltac:(lia)); change (2 ^ 8) with 256; nia).
  rewrite pow2_split by lia. change (2 ^ 8) with 256. ring.
Qed.
Lemma lor_up x b s : is_byte b -> 0 <= s <= 56 -> 0 <= x < 2 ^ s -> Z.lor x (w64 (Z.shiftl b s)) = b * 2 ^ s + x.
Proof. intros Hb Hs Hx. rewrite byte_w64, Z.lor_comm, lor_add by (assumption || lia). reflexivity. Qed.

Lemma down8 a b c d e f g h : is_byte a -> is_byte b -> is_byte c -> is_byte d -> is_byte e -> is_byte f -> is_byte g -> is_byte h ->
  Z.lor (Z.lor (Z.lor (Z.lor (Z.lor (Z.lor (Z.lor (Z.lor 0 (w64 (Z.shiftl a 56))) (w64 (Z.shiftl b 48))) (w64 (Z.shiftl c 40)))
    (w64 (Z.shiftl d 32))) (w64 (Z.shiftl e 24))) (w64 (Z.shiftl f 16))) (w64 (Z.shiftl g 8))) (w64 (Z.shiftl h 0))
  = be_value [a; b; c; d; e; f; g; h].
Proof.
  intros. change (Z.lor 0 (w64 (Z.shiftl a 56))) with (Z.lor (0 * 2 ^ (56 + 8)) (w64 (Z.shiftl a 56))). rewrite lor_down by (assumption || lia).
  rewrite (lor_down _ b 48) by (assumption || lia). rewrite (lor_down _ c 40) by (assumption || lia). rewrite (lor_down _ d 32) by (assumption || lia).
  rewrite (lor_down _ e 24) by (assumption || lia). rewrite (lor_down _ f 16) by (assumption || lia). rewrite (lor_down _ g 8) by (assumption || lia).
  rewrite (lor_down _ h 0) by (assumption || lia). unfold be_value. cbn [horner]. change (2 ^ 0) with 1. ring.
Qed.
Lemma up8 a b c d e f g h : is_byte a -> is_byte b -> is_byte c -> is_byte d -> is_byte e -> is_byte f -> is_byte g -> is_byte h ->
  Z.lor (Z.lor (Z.lor (Z.lor (Z.lor (Z.lor (Z.lor (Z.lor 0 (w64 (Z.shiftl h 0))) (w64 (Z.shiftl g 8))) (w64 (Z.shiftl f 16)))
    (w64 (Z.shiftl e 24))) (w64 (Z.shiftl d 32))) (w64 (Z.shiftl c 40))) (w64 (Z.shiftl b 48))) (w64 (Z.shiftl a 56))
  = be_value [a; b; c; d; e; f; g; h].
Proof.
  intros. rewrite <- (down8 a b c d e f g h) by assumption. rewrite !Z.lor_0_l.
  apply Z.bits_inj'. intros n Hn. rewrite !Z.lor_spec. btauto.
Qed.

Lemma bytes_half a b c d e f g h i j k l m n o p :
  be_value [a; b; c; d; e; f; g; h; i; j; k; l; m; n; o; p] = be_value [a; b; c; d; e; f; g; h] * 2 ^ 64 + be_value [i; j; k; l; m; n; o; p].
Proof. unfold be_value. cbn [horner]. change (2 ^ 64) with (256*256*256*256*256*256*256*256). ring. Qed.
Lemma be8_range a b c d e f g h : is_byte a -> is_byte b -> is_byte c -> is_byte d -> is_byte e -> is_byte f -> is_byte g -> is_byte h ->
  0 <= be_value [a; b; c; d; e; f; g; h] < 2 ^ 64.
Proof. unfold is_byte, be_value. intros. cbn [horner]. pows. lia. Qed.

(** The two halves of the integer: reading order depends on the host. *)
Definition host (le : bool) (bs : list Z) : list Z :=
  if le then bs else rev (firstn 8 bs) ++ rev (skipn 8 bs).
Lemma host_ok le bs : bytes_ok V6 bs -> bytes_ok V6 (host le bs).
Proof.
  intros [L F]. destruct le; [split; assumption|]. cbn [host]. split.
  - rewrite app_length, !rev_length, firstn_length, skipn_length. cbn [nbytes] in *. lia.
  - rewrite <- (firstn_skipn 8 bs) in F. apply Forall_app in F as [F1 F2]. apply Forall_app. split; apply Forall_rev; assumption.
Qed.
Lemma host_host le bs : bytes_ok V6 bs -> host le (host le bs) = bs.
Proof.
  intros [L F]. destruct le; [reflexivity|]. cbn [host]. cbn [nbytes] in L.
  destruct (list16 bs L) as (a & b & c & d & e & f & g & h & i & j & k & l & m & n & o & p & ->). reflexivity.
Qed.

Lemma v6_to_uint_host le bs : bytes_ok V6 bs -> exists u, v6_to_uint le bs = Ret u /\ wf128 u /\ to_Z u = be_value (host le bs).
Proof.
  intros [L F]. cbn [nbytes] in L.
  destruct (list16 bs L) as (a & b & c & d & e & f & g & h & i & j & k & l & m & n & o & p & ->).
  repeat match goal with H : Forall _ (_ :: _) |- _ => inversion_clear H end.
  destruct le.
  - eexists. split; [reflexivity|].
    rewrite !down8 by assumption. cbn [host]. rewrite bytes_half. split; [split; apply be8_range; assumption|reflexivity].
  - eexists. split; [reflexivity|]. cbn [host firstn skipn rev app].
    rewrite !up8 by assumption. rewrite bytes_half. split; [split; apply be8_range; assumption|reflexivity].
Qed.

Definition unpack8 (x : Z) : list Z :=
  [w8 (Z.shiftr x 56); w8 (Z.shiftr x 48); w8 (Z.shiftr x 40); w8 (Z.shiftr x 32); w8 (Z.shiftr x 24); w8 (Z.shiftr x 16); w8 (Z.shiftr x 8); w8 (Z.shiftr x 0)].
Lemma w8_byte x : is_byte (w8 x).
Proof. pose proof (w8_range x). unfold is_byte. change (2 ^ 8) with 256 in *. lia. Qed.
Lemma unpack8_ok x : 0 <= x < 2 ^ 64 -> be_value (unpack8 x) = x.
Proof.
  intros H. unfold unpack8, w8. rewrite !shr_div by lia. unfold be_value. cbn [horner].
  change (2 ^ 0) with 1. rewrite Z.div_1_r. change (2 ^ 16) with (256 * 256). change (2 ^ 24) with (256 * 256 * 256).
  change (2 ^ 32) with (256 * 256 * 256 * 256). change (2 ^ 40) with (256 * 256 * 256 * 256 * 256).
  change (2 ^ 48) with (256 * 256 * 256 * 256 * 256 * 256). change (2 ^ 56) with (256 * 256 * 256 * 256 * 256 * 256 * 256).
  change (2 ^ 64) with 18446744073709551616 in H. change (2 ^ 8) with 256.
  rewrite <- !Z.div_div by lia.
  lia.
Qed.
Lemma unpack8_bytes x : Forall is_byte (unpack8 x).
Proof. unfold unpack8. repeat (apply Forall_cons; [apply w8_byte|]). apply Forall_nil. Qed.

Lemma v6_from_uint_host le u : wf128 u -> exists bs, v6_from_uint le u = Ret bs /\ bytes_ok V6 bs /\ be_value (host le bs) = to_Z u.
Proof.
  intros [Hu Hl]. destruct u as [x y]. cbn [up lo] in *.
  exists (host le (unpack8 x ++ unpack8 y)). split; [destruct le; reflexivity|].
  assert (bytes_ok V6 (unpack8 x ++ unpack8 y)) as H.
  { split; [reflexivity|]. apply Forall_app. split; apply unpack8_bytes. }
  split; [apply host_ok; assumption|]. rewrite host_host by assumption.
  unfold unpack8 at 1 2. cbn [app]. rewrite bytes_half. fold (unpack8 x) (unpack8 y). rewrite !unpack8_ok by assumption. reflexivity.
Qed.

Lemma v6_to_uint_ok bs : bytes_ok V6 bs -> exists u, v6_to_uint true bs = Ret u /\ wf128 u /\ to_Z u = be_value bs.
Proof. exact (v6_to_uint_host true bs). Qed.
Lemma v6_from_uint_ok u : wf128 u -> exists bs, v6_from_uint true u = Ret bs /\ bytes_ok V6 bs /\ be_value bs = to_Z u.
Proof. exact (v6_from_uint_host true u). Qed.
Lemma v6_uint_inverse le bs : bytes_ok V6 bs -> exists u, v6_to_uint le bs = Ret u /\ wf128 u /\ v6_from_uint le u = Ret bs.
Proof.
  intros H. destruct (v6_to_uint_host le bs H) as (u & E & Hu & Ev). exists u. split; [assumption|]. split; [assumption|].
  destruct (v6_from_uint_host le u Hu) as (bs' & E' & Hb & Ev'). rewrite E'. f_equal.
  rewrite <- (host_host le bs'), <- (host_host le bs) by assumption. f_equal.
  apply (be_value_inj V6); [apply host_ok; assumption..|congruence].
Qed.
Lemma v6_big_endian_wrong : exists bs u, bytes_ok V6 bs /\ v6_to_uint false bs = Ret u /\ to_Z u <> be_value bs.
Proof.
  exists [1; 0; 0; 0; 0; 0; 0; 0; 0; 0; 0; 0; 0; 0; 0; 0]. eexists. split; [|split; [vm_compute; reflexivity|vm_compute; discriminate]].
  split; [reflexivity|]. repeat (apply Forall_cons; [unfold is_byte; lia|]). apply Forall_nil.
Qed.

(** ** Reverse pointer *)
Definition nibbles (g : Z) : list Z := [g / 4096; g / 256 mod 16; g / 16 mod 16; g mod 16].
Lemma hex4_digits gs : Forall is_group gs -> digits_of 16 (flat_map hex4 gs) (flat_map nibbles gs).
Proof.
  unfold is_group. induction 1 as [|g gs H _ IH]; [constructor|]. unfold hex4, nibbles in *. cbn [flat_map app].
  repeat (apply Forall2_cons; [apply hexc_digit; lia|]). exact IH.
Qed.
Lemma nibbles_value gs : Forall is_group gs -> forall acc, horner 16 acc (flat_map nibbles gs) = horner 256 acc (group_bytes gs).
Proof.
  unfold is_group. induction 1 as [|g gs H _ IH]; intros acc; [reflexivity|].
  cbn [flat_map group_bytes nibbles app horner]. fold (group_bytes gs). rewrite IH. f_equal. lia.
Qed.
Lemma filter_hex4 g : is_group g -> filter (fun c => negb (c =? 58)) (hex4 g) = hex4 g.
Proof.
  unfold is_group, hex4. intros H. assert (A : forall d, 0 <= d < 16 -> negb (hexc d =? 58) = true).
  { intros d Hd. unfold hexc. destruct (Z.ltb_spec d 10); lia. }
  cbn [filter]. rewrite !A by lia. reflexivity.
Qed.
Lemma filter_join : forall gs, Forall is_group gs ->
  filter (fun c => negb (c =? 58)) (join (map hex4 gs)) = flat_map hex4 gs.
Proof.
  induction gs as [|g gs IH]; intros H; [reflexivity|]. inversion_clear H. cbn [map flat_map].
  destruct gs as [|g' gs].
  - cbn [map join flat_map]. rewrite filter_hex4, app_nil_r by assumption. reflexivity.
  - rewrite join_cons by discriminate. rewrite filter_app, filter_hex4 by assumption. f_equal.
    change (filter (fun c => negb (c =? 58)) (58 :: join (map hex4 (g' :: gs)))) with (filter (fun c => negb (c =? 58)) (join (map hex4 (g' :: gs)))).
    apply IH. assumption.
Qed.
Lemma fold_dots : forall cs x, fold_left (fun a b => a ++ [46; b]) cs x = x ++ flat_map (fun b => [46; b]) cs.
Proof.
  induction cs as [|c cs IH]; intros x; cbn [fold_left flat_map]; [rewrite app_nil_r; reflexivity|].
  rewrite IH, <- app_assoc. reflexivity.
Qed.
Lemma dots_flat : forall cs c, dots (c :: cs) = c :: flat_map (fun b => [46; b]) cs.
Proof.
  induction cs as [|d cs IH]; intros c; [reflexivity|]. 
  change (dots (c :: d :: cs)) with (c :: 46 :: dots (d :: cs)). rewrite IH. reflexivity.
Qed.

Lemma v6_pointer_ok bs : bytes_ok V6 bs -> exists s, v6_reverse_pointer bs = Ret s /\ pointer6 (be_value bs) s.
Proof.
  intros Hb. destruct (bytes16 bs Hb) as (gs & L & HF & ->).
  destruct (v6_to_string_ok gs [] full L HF) as (t & Ht & E); [cbn; lia|]. cbn [fmt_text] in Ht. subst t.
  unfold v6_reverse_pointer. rewrite E. cbn [bind scope_suffix]. rewrite app_nil_r, filter_join by assumption.
  assert (Lf : length (rev (flat_map hex4 gs)) = 32%nat).
  { rewrite rev_length. clear -L. do 9 (destruct gs as [|? gs]; try discriminate L). reflexivity. }
  destruct (rev (flat_map hex4 gs)) as [|c cs] eqn:ER; [discriminate|].
  eexists. split; [reflexivity|]. exists (c :: cs), (flat_map nibbles gs). split; [assumption|].
  rewrite <- ER, rev_involutive. split; [apply hex4_digits; assumption|]. split; [apply nibbles_value; assumption|].
  rewrite ER, dots_flat, fold_dots. reflexivity.
Qed.

Lemma dots_inj : forall a b, length a = length b -> dots a = dots b -> a = b.
Proof.
  induction a as [|x a IH]; intros b L H; destruct b as [|y b]; try discriminate L; [reflexivity|].
  destruct a as [|x' a], b as [|y' b]; try discriminate L.
  - cbn [dots] in H. injection H as ->. reflexivity.
  - change (x :: 46 :: dots (x' :: a) = y :: 46 :: dots (y' :: b)) in H.
    assert (x = y /\ dots (x' :: a) = dots (y' :: b)) as [-> H2] by (split; congruence).
    f_equal. apply IH; [cbn in L |- *; lia|exact H2].
Qed.
Lemma pointer6_unique v v' s : pointer6 v s -> pointer6 v' s -> v = v'.
Proof.
  intros (cs & ds & L & D & V & E) (cs' & ds' & L' & D' & V' & E'). subst s. apply app_inv_tail in E'.
  apply dots_inj in E'; [|congruence]. subst cs'. rewrite <- V, <- V'. f_equal. eapply digits_of_values; eassumption.
Qed.
Lemma v6_pointer_inj a b s : bytes_ok V6 a -> bytes_ok V6 b -> v6_reverse_pointer a = Ret s -> v6_reverse_pointer b = Ret s -> a = b.
Proof.
  intros Ha Hb Ea Eb. destruct (v6_pointer_ok a Ha) as (s1 & E1 & P1). destruct (v6_pointer_ok b Hb) as (s2 & E2 & P2).
  rewrite Ea in E1. rewrite Eb in E2. injection E1 as <-. injection E2 as <-.
  apply (be_value_inj V6); [assumption..|]. eapply pointer6_unique; eassumption.
Qed.

(** ** Formats and round trip *)
Lemma v6_formats bs scope fmt : bytes_ok V6 bs -> zlen scope <= 16 ->
  exists gs t, length gs = 8%nat /\ Forall is_group gs /\ bs = group_bytes gs /\ text_in fmt gs t /\
    v6_to_string bs scope fmt = Ret (t ++ scope_suffix scope).
Proof.
  intros Hb Hs. destruct (bytes16 bs Hb) as (gs & L & HF & ->). destruct (v6_to_string_ok gs scope fmt L HF Hs) as (t & Ht & E).
  exists gs, t. repeat split; try assumption. apply fmt_spec; assumption.
Qed.
Lemma v6_round_trip_ok bs scope fmt : bytes_ok V6 bs -> storable scope ->
  exists s, v6_to_string bs scope fmt = Ret s /\ v6_from_string true (chars s) = Ret (bs, scope).
Proof.
  intros Hb Hs. assert (zlen scope <= 16) as Hl by (destruct Hs as [->|[[H _] _]]; [cbn; lia|lia]).
  destruct (bytes16 bs Hb) as (gs & L & HF & ->). destruct (v6_to_string_ok gs scope fmt L HF Hl) as (t & Ht & E).
  exists (t ++ scope_suffix scope). split; [assumption|]. eapply v6_round_trip; eassumption.
Qed.
Lemma v6_format_inj fmt bs scope bs' scope' s : bytes_ok V6 bs -> storable scope -> bytes_ok V6 bs' -> storable scope' ->
  v6_to_string bs scope fmt = Ret s -> v6_to_string bs' scope' fmt = Ret s -> bs = bs' /\ scope = scope'.
Proof.
  intros Hb Hs Hb' Hs' E E'. destruct (v6_round_trip_ok bs scope fmt Hb Hs) as (s1 & E1 & P1).
  destruct (v6_round_trip_ok bs' scope' fmt Hb' Hs') as (s2 & E2 & P2). rewrite E in E1. rewrite E' in E2.
  injection E1 as <-. injection E2 as <-. rewrite P1 in P2. injection P2 as -> ->. auto.
Qed.
Lemma v6_buffer bs scope fmt : bytes_ok V6 bs -> zlen scope <= 16 ->
  exists r n, v6_to_chars bs scope fmt = Ret (r, n) /\ zlen r = 58 /\ 0 <= n <= 57.
Proof.
  intros Hb Hs. destruct (bytes16 bs Hb) as (gs & L & HF & ->). destruct (v6_to_chars_ok gs scope fmt L HF Hs) as (t & _ & E & Hl).
  do 2 eexists. split; [exact E|]. split; [apply zlen_buf; rewrite zlen_app; change (zlen [0]) with 1; lia|]. split; [apply zlen_nonneg|assumption].
Qed.
Lemma hex_group_range p v : hex_group p v -> is_group v.
Proof.
  intros [Hl (ds & F & ->)].
  assert (F' : Forall (fun d => 0 <= d < 16) ds).
  { clear Hl. induction F as [|c d s ds Hc _ IH]; constructor; [|assumption]. unfold hex_char in Hc. lia. }
  apply Forall2_length in F. pose proof (horner_range 16 ltac:(lia) ds F') as R.
  assert (16 ^ zlen ds <= 16 ^ 4) by (apply Z.pow_le_mono_r; unfold zlen in *; lia).
  change (16 ^ 4) with 65536 in *. unfold is_group. lia.
Qed.
Lemma groups_range ts vs : Forall2 hex_group ts vs -> Forall is_group vs.
Proof. induction 1; constructor; [eapply hex_group_range; eassumption|assumption]. Qed.
Lemma tail_range s vs : tail_text s vs -> Forall is_group vs.
Proof.
  intros [(ts & F & _)|(ts & vs' & q & a & b & c & d & F & Hq & _ & ->)]; [eapply groups_range; eassumption|].
  apply Forall_app. split; [eapply groups_range; eassumption|]. apply dotted_quad_bytes in Hq as [_ Hq].
  repeat match goal with H : Forall _ (_ :: _) |- _ => inversion_clear H end.
  repeat (apply Forall_cons; [unfold is_group; lia|]). apply Forall_nil.
Qed.
Lemma v6_text_groups s gs : v6_text s gs -> Forall is_group gs.
Proof.
  intros [_ [H|(h & l & hv & n & lv & (ts & F & _) & Hl & _ & _ & ->)]]; [eapply tail_range; eassumption|].
  apply Forall_app. split; [eapply groups_range; eassumption|]. apply Forall_app. split; [|eapply tail_range; eassumption].
  apply Forall_forall. intros x Hx. apply repeat_spec in Hx as ->. unfold is_group. lia.
Qed.
(** Whatever is parsed can be stored and formatted. *)
Lemma cut_forall P s : Forall P s -> Forall P (cut s).
Proof. induction 1; cbn; [constructor|]. destruct (_ =? 0); constructor; assumption. Qed.
Lemma v6_parsed_ok s bs t : no_nul s -> v6_from_string true (chars s) = Ret (bs, t) -> bytes_ok V6 bs /\ storable t.
Proof.
  intros Hn H. apply v6_accept_iff in H; [|assumption]. destruct H as (gs & Hs & -> & _).
  assert (G : forall a, v6_text a gs -> no_nul a -> Forall is_group gs /\ length gs = 8%nat).
  { intros a Ha Hna. split; [|apply Ha]. eapply v6_text_groups; eassumption. }
  destruct Hs as [[Ht ->]|(a & -> & Ha & Hsc)].
  - destruct (G s Ht Hn). split; [apply group_bytes_ok; assumption|left; reflexivity].
  - assert (no_nul a /\ no_nul t) as [Na Nt]. { unfold no_nul in *. rewrite in_app_iff in Hn. cbn [In] in Hn. tauto. }
    destruct (G a Ha Na). split; [apply group_bytes_ok; assumption|right; auto].
Qed.

(** ** Embedded IPv4 addresses *)
Lemma be_app a b : be_value (a ++ b) = be_value a * 256 ^ zlen b + be_value b.
Proof.
  unfold be_value. rewrite <- (horner_acc 256 b (horner 256 0 a)) by lia. generalize 0.
  induction a as [|x a IH]; intros acc; [reflexivity|]. cbn [app horner]. apply IH.
Qed.
Lemma be_range b : Forall is_byte b -> 0 <= be_value b < 256 ^ zlen b.
Proof. intros H. apply horner_range; [lia|]. eapply Forall_impl; [|exact H]. unfold is_byte. intros; lia. Qed.
Lemma be_div a b : Forall is_byte b -> be_value (a ++ b) / 256 ^ zlen b = be_value a.
Proof. intros H. pose proof (be_range b H). rewrite be_app, Z.div_add_l, Z.div_small by lia. lia. Qed.
Lemma be_mod a b : Forall is_byte b -> be_value (a ++ b) mod 256 ^ zlen b = be_value b.
Proof. intros H. pose proof (be_range b H). rewrite be_app, Z.add_comm, Z.mod_add, Z.mod_small by lia. reflexivity. Qed.
(** Bytes [i, i+n) as a number. *)
Lemma be_slice a b c : Forall is_byte b -> Forall is_byte c ->
  be_value (a ++ b ++ c) / 256 ^ zlen c mod 256 ^ zlen b = be_value b.
Proof. intros Hb Hc. rewrite app_assoc, be_div, be_mod by assumption. reflexivity. Qed.

Lemma be2 a b : is_byte a -> is_byte b -> forall x y, is_byte x -> is_byte y -> (be_value [a; b] = be_value [x; y] <-> a = x /\ b = y).
Proof. unfold is_byte, be_value. intros. cbn [horner]. lia. Qed.

Lemma v6_6to4_ok bs : bytes_ok V6 bs -> exists o, v6_sixtofour bs = Ret o /\
  forall a, o = Some a <-> be_value bs / 2 ^ 112 = 0x2002 /\ bytes_ok V4 a /\ be_value a = be_value bs / 2 ^ 80 mod 2 ^ 32.
Proof.
  intros [L F]. cbn [nbytes] in L.
  destruct (list16 bs L) as (a & b & c & d & e & f & g & h & i & j & k & l & m & n & o & p & ->).
  assert (E1 : be_value [a; b; c; d; e; f; g; h; i; j; k; l; m; n; o; p] / 2 ^ 112 = be_value [a; b]).
  { change [a; b; c; d; e; f; g; h; i; j; k; l; m; n; o; p] with ([a; b] ++ [c; d; e; f; g; h; i; j; k; l; m; n; o; p]) in *.
    apply Forall_app in F as [_ F]. apply be_div, F. }
  assert (E2 : be_value [a; b; c; d; e; f; g; h; i; j; k; l; m; n; o; p] / 2 ^ 80 mod 2 ^ 32 = be_value [c; d; e; f]).
  { change [a; b; c; d; e; f; g; h; i; j; k; l; m; n; o; p] with ([a; b] ++ [c; d; e; f] ++ [g; h; i; j; k; l; m; n; o; p]) in *.
    apply Forall_app in F as [_ F]. apply Forall_app in F as [F1 F2]. apply (be_slice [a; b] _ _ F1 F2). }
  rewrite E1, E2. clear E1 E2.
  repeat match goal with H : Forall _ (_ :: _) |- _ => inversion_clear H end.
  change 0x2002 with (be_value [0x20; 0x02]). 
  pose proof (be2 a b ltac:(assumption) ltac:(assumption) 0x20 0x02 ltac:(unfold is_byte; lia) ltac:(unfold is_byte; lia)) as B.
  exists (if negb (a =? 0x20) || negb (b =? 0x02) then None else Some [c; d; e; f]). split.
  { unfold v6_sixtofour. rdc. destruct (negb (a =? 0x20) || negb (b =? 0x02)); reflexivity. }
  intros q. rewrite B. destruct (Z.eqb_spec a 0x20), (Z.eqb_spec b 0x02); cbn [negb orb]; (split; [|intros (H1' & H2' & H3')]); try discriminate; try lia.
  - intros [= <-]. split; [auto|]. split; [|reflexivity]. apply bytes4_ok; assumption.
  - f_equal. apply (be_value_inj V4); [apply bytes4_ok; assumption|assumption|congruence].
Qed.

Lemma lnot_byte x : is_byte x -> w8 (Z.lnot x) = 255 - x.
Proof. unfold is_byte, w8, Z.lnot. intros. change (2 ^ 8) with 256. lia. Qed.
Lemma be4_ext a b c d : be_value [a; b; c; d] = ((a * 256 + b) * 256 + c) * 256 + d.
Proof. unfold be_value. cbn [horner]. ring. Qed.

Lemma v6_teredo_ok bs : bytes_ok V6 bs -> exists o, v6_teredo bs = Ret o /\
  forall s c, o = Some (s, c) <-> be_value bs / 2 ^ 96 = 0x20010000 /\ bytes_ok V4 s /\ bytes_ok V4 c /\
    be_value s = be_value bs / 2 ^ 64 mod 2 ^ 32 /\ be_value c = 2 ^ 32 - 1 - be_value bs mod 2 ^ 32.
Proof.
  intros [L F]. cbn [nbytes] in L.
  destruct (list16 bs L) as (a & b & c & d & e & f & g & h & i & j & k & l & m & n & o & p & ->).
  assert (E1 : be_value [a; b; c; d; e; f; g; h; i; j; k; l; m; n; o; p] / 2 ^ 96 = be_value [a; b; c; d]).
  { change [a; b; c; d; e; f; g; h; i; j; k; l; m; n; o; p] with ([a; b; c; d] ++ [e; f; g; h; i; j; k; l; m; n; o; p]) in *.
    apply Forall_app in F as [_ F]. apply be_div, F. }
  assert (E2 : be_value [a; b; c; d; e; f; g; h; i; j; k; l; m; n; o; p] / 2 ^ 64 mod 2 ^ 32 = be_value [e; f; g; h]).
  { change [a; b; c; d; e; f; g; h; i; j; k; l; m; n; o; p] with ([a; b; c; d] ++ [e; f; g; h] ++ [i; j; k; l; m; n; o; p]) in *.
    apply Forall_app in F as [_ F]. apply Forall_app in F as [F1 F2]. apply (be_slice [a; b; c; d] _ _ F1 F2). }
  assert (E3 : be_value [a; b; c; d; e; f; g; h; i; j; k; l; m; n; o; p] mod 2 ^ 32 = be_value [m; n; o; p]).
  { change [a; b; c; d; e; f; g; h; i; j; k; l; m; n; o; p] with ([a; b; c; d; e; f; g; h; i; j; k; l] ++ [m; n; o; p]) in *.
    apply Forall_app in F as [_ F]. apply be_mod, F. }
  rewrite E1, E2, E3. clear E1 E2 E3.
  repeat match goal with H : Forall _ (_ :: _) |- _ => inversion_clear H end.
  exists (if negb (a =? 0x20) || negb (b =? 0x01) || negb (c =? 0) || negb (d =? 0) then None
          else Some ([e; f; g; h], [255 - m; 255 - n; 255 - o; 255 - p])). split.
  { unfold v6_teredo. rdc. rewrite !lnot_byte by assumption.
    destruct (negb (a =? 0x20) || negb (b =? 0x01) || negb (c =? 0) || negb (d =? 0)); reflexivity. }
  assert (Hc : bytes_ok V4 [255 - m; 255 - n; 255 - o; 255 - p]) by (apply bytes4_ok; unfold is_byte in *; lia).
  assert (Ec : be_value [255 - m; 255 - n; 255 - o; 255 - p] = 2 ^ 32 - 1 - be_value [m; n; o; p]).
  { rewrite !be4_ext. pows. lia. }
  rewrite <- Ec.
  intros q r. destruct (negb (a =? 0x20) || negb (b =? 0x01) || negb (c =? 0) || negb (d =? 0)) eqn:Q.
  - split; [discriminate|]. intros (H' & _). rewrite be4_ext in H'. exfalso. unfold is_byte in *. lia.
  - split.
    + intros [= <- <-]. split; [rewrite be4_ext; lia|]. split; [apply bytes4_ok; assumption|]. auto.
    + intros (_ & H' & H'' & Eq & Er). f_equal. f_equal; apply (be_value_inj V4); auto; apply bytes4_ok; assumption.
Qed.

Lemma v6_mapped_ok bs : bytes_ok V6 bs -> exists o, v6_ipv4_mapped bs = Ret o /\
  (forall a, o = Some a <-> be_value bs / 2 ^ 32 mod 2 ^ 16 = 0xFFFF /\ bytes_ok V4 a /\ be_value a = be_value bs mod 2 ^ 32).
Proof.
  intros [L F]. cbn [nbytes] in L.
  destruct (list16 bs L) as (a & b & c & d & e & f & g & h & i & j & k & l & m & n & o & p & ->).
  assert (E1 : be_value [a; b; c; d; e; f; g; h; i; j; k; l; m; n; o; p] / 2 ^ 32 mod 2 ^ 16 = be_value [k; l]).
  { change [a; b; c; d; e; f; g; h; i; j; k; l; m; n; o; p] with ([a; b; c; d; e; f; g; h; i; j] ++ [k; l] ++ [m; n; o; p]) in *.
    apply Forall_app in F as [_ F]. apply Forall_app in F as [F1 F2]. apply (be_slice [a; b; c; d; e; f; g; h; i; j] _ _ F1 F2). }
  assert (E3 : be_value [a; b; c; d; e; f; g; h; i; j; k; l; m; n; o; p] mod 2 ^ 32 = be_value [m; n; o; p]).
  { change [a; b; c; d; e; f; g; h; i; j; k; l; m; n; o; p] with ([a; b; c; d; e; f; g; h; i; j; k; l] ++ [m; n; o; p]) in *.
    apply Forall_app in F as [_ F]. apply be_mod, F. }
  rewrite E1, E3. clear E1 E3.
  repeat match goal with H : Forall _ (_ :: _) |- _ => inversion_clear H end.
  change 0xFFFF with (be_value [0xFF; 0xFF]). 
  pose proof (be2 k l ltac:(assumption) ltac:(assumption) 0xFF 0xFF ltac:(unfold is_byte; lia) ltac:(unfold is_byte; lia)) as B.
  exists (if negb (k =? 0xFF) || negb (l =? 0xFF) then None else Some [m; n; o; p]). split.
  { unfold v6_ipv4_mapped. rdc. destruct (negb (k =? 0xFF) || negb (l =? 0xFF)); reflexivity. }
  intros q. rewrite B. destruct (Z.eqb_spec k 0xFF), (Z.eqb_spec l 0xFF); cbn [negb orb]; (split; [|intros (H1' & H2' & H3')]); try discriminate; try lia.
  - intros [= <-]. split; [auto|]. split; [|reflexivity]. apply bytes4_ok; assumption.
  - f_equal. apply (be_value_inj V4); [apply bytes4_ok; assumption|assumption|congruence].
Qed.
(** Every address of ::ffff:0:0/96 is recognised... *)
Lemma v6_mapped_complete bs : bytes_ok V6 bs -> be_value bs / 2 ^ 32 = 0xFFFF ->
  exists a, v6_ipv4_mapped bs = Ret (Some a) /\ bytes_ok V4 a /\ be_value a = be_value bs mod 2 ^ 32.
Proof.
  intros Hb Hv. destruct (v6_mapped_ok bs Hb) as (o & E & H).
  pose proof (v4_from_uint_ok (be_value bs mod 2 ^ 32) ltac:(apply Z.mod_pos_bound; lia)) as [A B].
  exists (v4_from_uint true (be_value bs mod 2 ^ 32)). rewrite E. split; [|auto]. f_equal. apply H. rewrite Hv. auto.
Qed.
(** ...but others are too: 1::ffff:102:304. *)
Lemma v6_mapped_wrong : exists bs a, bytes_ok V6 bs /\ v6_ipv4_mapped bs = Ret (Some a) /\ be_value bs / 2 ^ 32 <> 0xFFFF.
Proof.
  exists [0; 1; 0; 0; 0; 0; 0; 0; 0; 0; 255; 255; 1; 2; 3; 4], [1; 2; 3; 4].
  split; [split; [reflexivity|]; repeat (apply Forall_cons; [unfold is_byte; lia|]); apply Forall_nil|].
  split; [reflexivity|vm_compute; discriminate].
Qed.

(** ** Scope id *)
Lemma set_scope_loop_ok : forall s pre, zlen pre + zlen s <= 16 ->
  outcome (set_scope_loop (chars s) (zlen pre) (buf 17 pre)) 
    (if forallb (fun c => negb (is_invalid_scope_id_symbol c)) s then Some (buf 17 (pre ++ s)) else None).
Proof.
  induction s as [|c s IH]; intros pre H; cbn [chars map set_scope_loop forallb].
  - rewrite app_nil_r. reflexivity.
  - destruct (is_invalid_scope_id_symbol c); cbn [negb andb]; [auto|].
    autorewrite with zl in H. pose proof (zlen_nonneg s).
    rewrite wr_buf by lia. cbn [bind]. replace (zlen pre + 1) with (zlen (pre ++ [c])) by (autorewrite with zl; lia).
    replace (pre ++ c :: s) with ((pre ++ [c]) ++ s) by (rewrite <- app_assoc; reflexivity). apply IH. autorewrite with zl. lia.
Qed.
Lemma scope_chars_iff s : forallb (fun c => negb (is_invalid_scope_id_symbol c)) s = true <-> Forall scope_char s.
Proof.
  rewrite forallb_forall, Forall_forall. split; intros H c Hc; specialize (H c Hc).
  - apply scope_char_iff. destruct (is_invalid_scope_id_symbol c); [discriminate|reflexivity].
  - apply scope_char_iff in H. rewrite H. reflexivity.
Qed.
Lemma set_scope_iff s t : v6_set_scope (zlen s) (chars s) = Ret t <-> zlen s <= 16 /\ Forall scope_char s /\ t = cut s.
Proof.
  unfold v6_set_scope, scope_max. destruct (Z.gtb_spec (zlen s) 16); [split; [discriminate|lia]|].
  pose proof (set_scope_loop_ok s [] ltac:(autorewrite with zl; lia)) as S. change (buf 17 []) with (repeat 0 17) in S.
  change (zlen (@nil Z)) with 0 in S. cbn [app] in S. rewrite <- scope_chars_iff.
  destruct (forallb _ s) eqn:EF; cbn [outcome] in S.
  - rewrite S. cbn [bind].
    destruct (fs_make_cut 16 (buf 17 s) (cut s)) as (f & E & Hf).
    + unfold buf. rewrite app_length, repeat_length. unfold zlen. lia.
    + unfold buf. destruct (Z.to_nat 17 - length s)%nat eqn:EN; [unfold zlen in *; lia|]. cbn [repeat]. apply c_string_cut. unfold zlen in *. lia.
    + rewrite E. cbn [bind]. rewrite Hf. split; [intros [= <-]; auto|]. intros (_ & _ & ->). reflexivity.
  - destruct S as (e & v & ->). cbn [bind]. split; [discriminate|]. intros (_ & C & _). discriminate.
Qed.
Lemma set_scope_exact s t : no_nul s -> (v6_set_scope (zlen s) (chars s) = Ret t <-> zlen s <= 16 /\ Forall scope_char s /\ t = s).
Proof. intros H. rewrite set_scope_iff, cut_id by assumption. tauto. Qed.
Lemma set_scope_defined s : is_defined (v6_set_scope (zlen s) (chars s)).
Proof.
  unfold v6_set_scope, scope_max. destruct (Z.gtb_spec (zlen s) 16); [exact I|].
  pose proof (set_scope_loop_ok s [] ltac:(autorewrite with zl; lia)) as S. change (buf 17 []) with (repeat 0 17) in S.
  change (zlen (@nil Z)) with 0 in S. cbn [app] in S. destruct (forallb _ s) eqn:EF; cbn [outcome] in S.
  - rewrite S. cbn [bind].
    destruct (fs_make_cut 16 (buf 17 s) (cut s)) as (f & E & Hf).
    + unfold buf. rewrite app_length, repeat_length. unfold zlen. lia.
    + unfold buf. destruct (Z.to_nat 17 - length s)%nat eqn:EN; [unfold zlen in *; lia|]. cbn [repeat]. apply c_string_cut. unfold zlen in *. lia.
    + rewrite E. exact I.
  - destruct S as (e & v & ->). exact I.
Qed.
(** "a" NUL "b" is stored as "a". *)
Lemma set_scope_nul : exists s t, v6_set_scope (zlen s) (chars s) = Ret t /\ t <> s.
Proof. exists [97; 0; 98], [97]. split; [reflexivity|discriminate]. Qed.

Lemma scope_value_loop_ok : forall s acc, match scope_value_loop s acc with
  | Some v => exists ds, digits_of 10 s ds /\ w32 v = w32 (horner 10 acc ds)
  | None => forall ds, ~ digits_of 10 s ds end.
Proof.
  induction s as [|c s IH]; intros acc; cbn [scope_value_loop].
  - exists []. split; [constructor|reflexivity].
  - destruct (Z.geb_spec c 48), (Z.leb_spec c 57); cbn [andb].
    + specialize (IH (w32 (acc * 10 + (c - 48)))). destruct (scope_value_loop s (w32 (acc * 10 + (c - 48)))) as [v|].
      * destruct IH as (ds & Hd & Hv). exists ((c - 48) :: ds). split; [constructor; [unfold digit_char; lia|assumption]|].
        rewrite Hv. cbn [horner]. rewrite (horner_acc 10 ds (w32 _)), (horner_acc 10 ds (acc * 10 + (c - 48))) by lia.
        unfold w32. rewrite <- (Z.add_mod_idemp_l (_ mod _ * _)), Z.mul_mod_idemp_l, Z.add_mod_idemp_l by lia. reflexivity.
      * intros ds Hd. inversion Hd; subst. eapply IH. eassumption.
    + intros ds Hd. inversion Hd; subst. match goal with H : digit_char _ _ _ |- _ => unfold digit_char in H end. lia.
    + intros ds Hd. inversion Hd; subst. match goal with H : digit_char _ _ _ |- _ => unfold digit_char in H end. lia.
    + lia.
Qed.
Lemma scope_value_range : forall s acc v, 0 <= acc < 2 ^ 32 -> scope_value_loop s acc = Some v -> 0 <= v < 2 ^ 32.
Proof.
  induction s as [|c s IH]; intros acc v Ha H; cbn [scope_value_loop] in H; [apply some_inj in H as <-; assumption|].
  destruct (_ && _); [|discriminate]. eapply IH; [|exact H]. apply w32_range.
Qed.
Lemma scope_value_ok s : 
  (fst (scope_value s) = true <-> s <> [] /\ exists ds, digits_of 10 s ds) /\
  (forall ds, s <> [] -> digits_of 10 s ds -> snd (scope_value s) = horner 10 0 ds mod 2 ^ 32) /\
  (fst (scope_value s) = false -> snd (scope_value s) = 0).
Proof.
  unfold scope_value. destruct s as [|c s]; [cbn [fst snd]; split; [split; [discriminate|intros [C _]; congruence]|split; [congruence|reflexivity]]|].
  pose proof (scope_value_loop_ok (c :: s) 0) as H. pose proof (scope_value_range (c :: s) 0) as R.
  destruct (scope_value_loop (c :: s) 0) as [v|]; cbn [fst snd].
  - destruct H as (ds & Hd & Hv). specialize (R v ltac:(lia) eq_refl). split; [split; [intros _; split; [discriminate|eauto]|reflexivity]|].
    split; [|discriminate]. intros ds' _ Hd'. rewrite (digits_of_values _ _ _ _ Hd' Hd).
    unfold w32 in Hv. rewrite Z.mod_small in Hv by assumption. exact Hv.
  - split; [split; [discriminate|]|split; [|reflexivity]].
    + intros [_ [ds Hd]]. exfalso. eapply H. eassumption.
    + intros ds _ Hd. exfalso. eapply H. eassumption.
Qed.
Lemma scope_value_small s ds : s <> [] -> digits_of 10 s ds -> horner 10 0 ds < 2 ^ 32 -> scope_value s = (true, horner 10 0 ds).
Proof.
  intros Hs Hd Hr. destruct (scope_value_ok s) as (A & B & _). destruct (scope_value s) as [x y]. cbn [fst snd] in *.
  rewrite (proj2 A) by eauto. rewrite (B ds) by assumption. f_equal. apply Z.mod_small.
  pose proof (horner_range 10 ltac:(lia) ds (digits_of_range _ _ _ Hd)). lia.
Qed.
Lemma scope_value_wrap : exists s ds, digits_of 10 s ds /\ zlen s <= 16 /\ fst (scope_value s) = true /\ snd (scope_value s) <> horner 10 0 ds.
Proof.
  exists [52;50;57;52;57;54;55;50;57;54], [4;2;9;4;9;6;7;2;9;6]. split.
  - repeat (apply Forall2_cons; [unfold digit_char; lia|]). apply Forall2_nil.
  - split; [cbn; lia|]. split; [reflexivity|vm_compute; discriminate].
Qed.

(** ** Errors and NUL *)
Lemma digit_group c d : 48 <= c <= 57 -> d = c - 48 -> hex_group [c] d.
Proof. intros H ->. split; [cbn; lia|]. exists [c - 48]. split; [constructor; [unfold hex_char; lia|constructor]|reflexivity]. Qed.
Lemma v6_refused : exists s gs, v6_text s gs /\ no_nul s /\ forall b t, v6_from_string true (chars s) <> Ret (b, t).
Proof.
  exists [58;58;49;58;50;58;51;58;52;58;53;58;49;46;50;46;51;46;52], [0; 1; 2; 3; 4; 5; 258; 772]. split; [|split].
  - split; [reflexivity|]. right. exists [], [49;58;50;58;51;58;52;58;53;58;49;46;50;46;51;46;52], [], 1%nat, [1; 2; 3; 4; 5; 258; 772].
    split; [exists []; split; [constructor|reflexivity]|]. split; [|split; [lia|split; reflexivity]].
    right. exists [[49]; [50]; [51]; [52]; [53]], [1; 2; 3; 4; 5], [49;46;50;46;51;46;52], 1, 2, 3, 4.
    split; [|split; [apply v4_accept_iff; reflexivity|split; reflexivity]].
    repeat (apply Forall2_cons; [apply digit_group; lia|]). apply Forall2_nil.
  - unfold no_nul. cbn [In]. lia.
  - intros b t. vm_compute. discriminate.
Qed.
(** NUL and the text after it are ignored: "::1" NUL "zz", "::1%a" NUL "b". *)
Lemma v6_nul_ignored : exists s r x, ~ In 0 s /\ v6_from_string true (chars (s ++ 0 :: r)) = Ret x /\ v6_from_string true (chars s) = Ret x
   /\ r = [122; 122].
Proof. exists [58; 58; 49], [122; 122]. eexists. split; [cbn [In]; lia|]. split; [vm_compute; reflexivity|split; vm_compute; reflexivity]. Qed.
Lemma v6_scope_nul : exists s r b, ~ In 0 s /\ v6_from_string true (chars (s ++ 0 :: r)) = Ret (b, [97]) /\ r = [98].
Proof. exists [58; 58; 49; 37; 97], [98]. eexists. split; [cbn [In]; lia|]. split; [vm_compute; reflexivity|reflexivity]. Qed.
(** The IPv4 parser treats NUL as any other wrong character. *)
Lemma v4_nul s b : In 0 s -> v4_from_string (chars s) <> Ret b.
Proof.
  intros H E. apply v4_accept_iff in E. apply quad_addr in E. rewrite Forall_forall in E. apply E in H.
  unfold addr_char in H. lia.
Qed.

(** ** Encoded inputs *)
Lemma utf16_v6 s a : Forall is_u16 s ->
  ((ts <- tokens utf16_next s ;; v6_from_string true ts) = Ret a <-> Forall is_ascii s /\ v6_from_string true (chars s) = Ret a).
Proof. intros H. apply (strict_parse is_u16 utf16_next (v6_from_string true) utf16_strict v6_tokens_only s H a). Qed.
Lemma utf32_v6 s a : Forall is_u32 s ->
  ((ts <- tokens utf32_next s ;; v6_from_string true ts) = Ret a <-> Forall is_ascii s /\ v6_from_string true (chars s) = Ret a).
Proof. intros H. apply (strict_parse is_u32 utf32_next (v6_from_string true) utf32_strict v6_tokens_only s H a). Qed.
Lemma utf8_v6 s a : Forall is_u8 s ->
  ((ts <- tokens utf8_next s ;; v6_from_string true ts) = Ret a <-> exists p, lax_utf8 s p /\ v6_from_string true (chars p) = Ret a).
Proof. intros H. apply (utf8_parse (v6_from_string true) v6_tokens_only s H a). Qed.

(** ** Restatements *)
Lemma v6_accepts_iff s : no_nul s ->
  (exists b t, v6_from_string true (chars s) = Ret (b, t)) <-> (exists gs t, v6_scoped s gs t) /\ ~ refused s.
Proof.
  intros Hn. split.
  - intros (b & t & H). apply v6_accept_iff in H; [|assumption]. destruct H as (gs & H & _ & R). eauto.
  - intros [(gs & t & H) R]. exists (group_bytes gs), t. apply v6_accept_iff; eauto.
Qed.
Lemma v6_value s b t : no_nul s -> v6_from_string true (chars s) = Ret (b, t) ->
  exists gs, v6_scoped s gs t /\ b = group_bytes gs /\ bytes_ok V6 b /\ storable t.
Proof.
  intros Hn H. pose proof (v6_parsed_ok _ _ _ Hn H) as [B S]. apply v6_accept_iff in H; [|assumption].
  destruct H as (gs & Hs & E & _). eauto 6.
Qed.
Lemma v6_denotes_one s gs t gs' t' : no_nul s -> ~ refused s -> v6_scoped s gs t -> v6_scoped s gs' t' ->
  group_bytes gs = group_bytes gs' /\ t = t'.
Proof.
  intros Hn Hr H H'. assert (A : forall g u, v6_scoped s g u -> v6_from_string true (chars s) = Ret (group_bytes g, u)).
  { intros g u Hg. apply v6_accept_iff; eauto. }
  apply A in H, H'. rewrite H in H'. injection H' as -> ->. auto.
Qed.
Lemma scope_has_value s : fst (scope_value s) = true <-> s <> [] /\ exists ds, digits_of 10 s ds.
Proof. apply scope_value_ok. Qed.
Lemma scope_value_mod s ds : s <> [] -> digits_of 10 s ds -> snd (scope_value s) = horner 10 0 ds mod 2 ^ 32.
Proof. destruct (scope_value_ok s) as (_ & H & _). apply H. Qed.

(** The format specifications determine the text. *)
Lemma Forall2_fun {A B} (R : A -> B -> Prop) : (forall a a' b, R a b -> R a' b -> a = a') ->
  forall l m, Forall2 R l m -> forall l', Forall2 R l' m -> l = l'.
Proof.
  intros H l m F. induction F as [|x y l m Hx _ IH]; intros l' F'; inversion F'; subst; [reflexivity|]. f_equal; eauto.
Qed.
Lemma compact_unique gs t t' : compact_text gs t -> compact_text gs t' -> t = t'.
Proof.
  intros (ts & F & ->) (ts' & F' & ->). f_equal. eapply (Forall2_fun (numeral 16)); [|exact F|exact F'].
  intros. apply (numeral_unique 16 _ _ b); [lia|assumption..].
Qed.
Lemma padded_unique s s' v : padded_group s v -> padded_group s' v -> s = s'.
Proof.
  intros (ds & D & L & E) (ds' & D' & L' & E'). assert (ds = ds') as ->; [|eapply digits_of_unique; eassumption].
  pose proof (digits_of_range _ _ _ D) as R. pose proof (digits_of_range _ _ _ D') as R'.
  do 5 (destruct ds as [|? ds]; try discriminate L). do 5 (destruct ds' as [|? ds']; try discriminate L').
  repeat match goal with H : Forall _ (_ :: _) |- _ => inversion_clear H end. cbn [horner] in E, E'.
  repeat f_equal; lia.
Qed.
Lemma app_inj_length {A} : forall (a a' b b' : list A), a ++ b = a' ++ b' -> length a = length a' -> a = a' /\ b = b'.
Proof.
  induction a as [|x a IH]; intros [|y a'] b b' E L; try discriminate L; [auto|]. cbn [app] in E. injection E as -> E.
  cbn [length] in L. destruct (IH _ _ _ E) as [-> ->]; [lia|]. auto.
Qed.
Lemma text_in_unique fmt gs t t' : Forall is_group gs -> text_in fmt gs t -> text_in fmt gs t' -> t = t'.
Proof.
  intros HF. destruct fmt; cbn [text_in].
  - intros (ts & F & ->) (ts' & F' & ->). f_equal. eapply (Forall2_fun padded_group); [|exact F|exact F']. intros; eapply padded_unique; eassumption.
  - apply compact_unique.
  - intros [[C N]|(a & n & b & sa & sb & E & Hn & Best & Ca & Cb & ->)] [[C' N']|(a' & n' & b' & sa' & sb' & E' & Hn' & Best' & Ca' & Cb' & ->)].
    + eapply compact_unique; eassumption.
    + apply N in E'. lia.
    + apply N' in E. lia.
    + destruct (Best _ _ _ E') as [H1 H2]. destruct (Best' _ _ _ E) as [H3 H4].
      assert (n = n') as <- by lia. specialize (H2 eq_refl). specialize (H4 eq_refl).
      assert (length a = length a') as L by lia. rewrite E in E'. apply app_inj_length in E' as [<- E']; [|assumption].
      apply app_inv_head in E' as <-. f_equal; [eapply compact_unique; eassumption|]. f_equal. eapply compact_unique; eassumption.
Qed.
