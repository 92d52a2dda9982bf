(** Small consequences used by PropsV4. *)
From Verif Require Import Base Tac SpecText TextProofs SpecAddr V4Model SpecV4 V4Proofs V4Format BitProofs StrProofs.

Lemma bytes_ok_v4 bs : bytes_ok V4 bs <-> zlen bs = 4 /\ Forall (fun x => 0 <= x <= 255) bs.
Proof. unfold bytes_ok, zlen. cbn [nbytes]. split; intros [H1 H2]; (split; [lia|exact H2]). Qed.

Lemma dotted_quad_ok s bs : dotted_quad s bs -> bytes_ok V4 bs.
Proof. intros H. apply bytes_ok_v4. eapply dotted_quad_bytes; eassumption. Qed.
Lemma v4_format_ok bs : bytes_ok V4 bs -> exists s, v4_to_string bs = Ret s /\ dotted_quad s bs /\ zlen s <= 15.
Proof. intros H. apply bytes_ok_v4 in H as [H1 H2]. apply v4_format; assumption. Qed.
Lemma v4_round_trip_ok bs : bytes_ok V4 bs -> exists s, v4_to_string bs = Ret s /\ v4_from_string (chars s) = Ret bs.
Proof. intros H. apply bytes_ok_v4 in H as [H1 H2]. apply v4_round_trip; assumption. Qed.

Lemma v4_error_codes s e k : v4_from_string (chars s) = Err e k ->
  In e [empty_address; expected_4_octets; empty_octet; leading_0_are_not_permitted;
        octet_more_3_characters; octet_exceeded_255; octet_has_invalid_symbol] /\ 0 <= k <= 4.
Proof.
  intros H. apply v4_reject_iff in H. remember (chars s) as ts eqn:E.
  destruct H; try (apply octets_prefix_nonneg in H); cbn [In]; try (split; [tauto|lia]).
  exfalso. eapply chars_bad; eassumption.
Qed.

Lemma v4_big_endian_wrong : exists bs, bytes_ok V4 bs /\ exists n, v4_to_uint false bs = Ret n /\ n <> be_value bs.
Proof.
  exists [1; 2; 3; 4]. split; [apply bytes4_ok; unfold is_byte; lia|]. eexists. split; [reflexivity|].
  vm_compute. discriminate.
Qed.
Lemma v4_uint_inverse le bs : bytes_ok V4 bs ->
  exists n, v4_to_uint le bs = Ret n /\ 0 <= n < 2 ^ 32 /\ v4_from_uint le n = bs.
Proof.
  intros H. destruct (bytes4 bs H) as (a & b & c & d & -> & Ha & Hb & Hc & Hd).
  rewrite v4_to_uint_pack by assumption. eexists. split; [reflexivity|].
  destruct le; (split; [apply pack4_range; assumption|]; rewrite v4_from_uint_pack by assumption; reflexivity).
Qed.

Lemma v4_pointer_text le a b c d : bytes_ok V4 [a; b; c; d] ->
  v4_reverse_pointer le [a; b; c; d] = Ret ((dec d ++ 46 :: dec c ++ 46 :: dec b ++ 46 :: dec a) ++ in_addr_arpa)
  /\ dotted_quad (dec d ++ 46 :: dec c ++ 46 :: dec b ++ 46 :: dec a) [d; c; b; a].
Proof.
  intros H. destruct (bytes4 _ H) as (a' & b' & c' & d' & E & Ha & Hb & Hc & Hd). injection E as <- <- <- <-.
  split.
  - rewrite v4_reverse_pointer_ok by assumption. f_equal. repeat (rewrite <- app_assoc; cbn [app]). reflexivity.
  - exists (dec d), (dec c), (dec b), (dec a), d, c, b, a. unfold is_byte in *.
    repeat (split; [apply dec_octet; assumption|]). split; reflexivity.
Qed.
Lemma v4_pointer le a b c d : bytes_ok V4 [a; b; c; d] ->
  exists s, v4_reverse_pointer le [a; b; c; d] = Ret (s ++ [46;105;110;45;97;100;100;114;46;97;114;112;97])
    /\ dotted_quad s [d; c; b; a].
Proof. intros H. destruct (v4_pointer_text le a b c d H) as [E Q]. eauto. Qed.
Lemma v4_pointer_inj le x y s : bytes_ok V4 x -> bytes_ok V4 y ->
  v4_reverse_pointer le x = Ret s -> v4_reverse_pointer le y = Ret s -> x = y.
Proof.
  intros Hx Hy Ex Ey.
  destruct (bytes4 x Hx) as (a & b & c & d & -> & _). destruct (bytes4 y Hy) as (a' & b' & c' & d' & -> & _).
  destruct (v4_pointer le a b c d Hx) as (s1 & E1 & Q1). destruct (v4_pointer le a' b' c' d' Hy) as (s2 & E2 & Q2).
  rewrite Ex in E1. rewrite Ey in E2. injection E1 as ->. injection E2 as E2. apply app_inv_tail in E2. subst s2.
  apply v4_accepts in Q1, Q2. rewrite Q1 in Q2. injection Q2 as -> -> -> ->. reflexivity.
Qed.

Lemma v4_to_chars_defined bs : bytes_ok V4 bs -> is_defined (v4_to_chars bs).
Proof.
  intros H. destruct (v4_format_ok bs H) as (s & E & _). unfold v4_to_string in E.
  destruct (v4_to_chars bs) as [[r l]| |]; [exact I|discriminate..].
Qed.
