(** Lemmas and witnesses about constant texts. *)
From Coq Require Import String.
From Verif Require Import Base Tac SpecText SpecV4 SpecInt SpecAddr SpecOrder SpecNet UnicodeModel V4Model AddressModel NetworkModel AnyModel CodeModel StreamModel SpecStr SpecStream SpecAny
  ErrProofs CodeProofs CodeProofs3 V4Proofs NetProofs NetWitness StreamWitness LiteralModel SpecLiteral LiteralProofs LiteralProofs2.

(** The texts of IPv4 addresses all fit in a literal. *)
Lemma quad_len s bs : dotted_quad s bs -> zlen s <= 15.
Proof.
  intros (sa & sb & sc & sd & a & b & c & d & A & B & C & D & -> & _).
  assert (L : forall s x, octet_text s x -> zlen s <= 3) by (intros s x H; destruct (octet_cur_ok s x H) as ((_ & K & _) & _); exact K).
  apply L in A, B, C, D. autorewrite with zl. lia.
Qed.
Lemma v4_fits T strict s o : plain T s -> string_of T (KAddr V4) strict s = Ret o -> zlen s <= longest (KAddr V4).
Proof.
  intros HP. rewrite string_throw, (tokens_plain T s HP). cbn [bind throw_of longest].
  rewrite parse_throw_eq by (apply Forall_forall; intros y Hy; apply in_map_iff in Hy as (c & <- & _); exact I). cbn [addr_parse].
  destruct (v4_from_string (chars s)) as [bs| |] eqn:E; cbn [bind rmap]; [|discriminate|discriminate]. intros _.
  apply v4_accept_tokens in E as (s' & E & Q). apply chars_inj in E. subst s'. exact (quad_len _ _ Q).
Qed.
Lemma v6_long : exists s o, Forall is_ascii s /\ ~ In 0 s /\ string_of TChar (KAddr V6) true s = Ret o /\ literal_of TChar (KAddr V6) s = Err string_is_too_long 0.
Proof.
  exists (str "1111:2222:3333:4444:5555:6666:123.123.123.123%abcdefghijklmnop"). eexists.
  split; [apply ascii_by; vm_compute; reflexivity|]. split; [vm_compute; intuition discriminate|]. split; [vm_compute; reflexivity|vm_compute; reflexivity].
Qed.
Lemma net_long : exists s o, Forall is_ascii s /\ ~ In 0 s /\ string_of TChar (KNet V4) true s = Ret o /\ literal_of TChar (KNet V4) s = Err string_is_too_long 0.
Proof.
  exists (str "1.2.3.4/000000000000000000000000000000032"). eexists.
  split; [apply ascii_by; vm_compute; reflexivity|]. split; [vm_compute; intuition discriminate|]. split; [vm_compute; reflexivity|vm_compute; reflexivity].
Qed.
(** "1.2.3.4", the two bytes C0 80, "A": the array is cut at the overlong NUL. *)
Lemma utf8_cut : exists data s o, Forall is_u8 data /\ c_string (pred (List.length data)) data s /\
  array_of TChar8 (KAddr V4) true data = Ret o /\ string_of TChar8 (KAddr V4) true s = Err octet_has_invalid_symbol 3.
Proof.
  exists (str "1.2.3.4" ++ [0xC0; 0x80; 65; 0])%list, (str "1.2.3.4" ++ [0xC0; 0x80; 65])%list. eexists.
  split; [repeat (apply Forall_cons; [unfold is_u8; cbn; lia|]); apply Forall_nil|]. split.
  - split; [cbn; intuition lia|]. exists [0]. split; [reflexivity|left; reflexivity].
  - split; vm_compute; reflexivity.
Qed.
(** An array of five char8_t without a final NUL: C1 81 C1 81 41. *)
Lemma utf8_overrun : exists data, Forall is_u8 data /\ ~ In 0 data /\ array_of TChar8 (KAddr V4) true data = UB OutOfBounds.
Proof.
  exists [0xC1; 0x81; 0xC1; 0x81; 65]. split; [repeat (apply Forall_cons; [unfold is_u8; lia|]); apply Forall_nil|].
  split; [cbn; intuition lia|vm_compute; reflexivity].
Qed.
Lemma uint_literal_ok n : 0 <= n < 2 ^ 64 ->
  (n < 2 ^ 32 -> forall nttp, exists a, uint_literal nttp n = Ret a /\ wf_addr V4 a /\ val a = n) /\
  (2 ^ 32 <= n -> uint_literal true n = UB AssertFailed /\ exists a, uint_literal false n = Ret a /\ wf_addr V4 a /\ val a = n mod 2 ^ 32).
Proof.
  intros H. split.
  - intros L nttp. unfold uint_literal. destruct (Z.leb_spec n 4294967295); [|change (2 ^ 32) with 4294967296 in L; lia]. rewrite andb_false_r.
    unfold w32. rewrite Z.mod_small by lia. destruct (from_uint_spec V4 n) as (a & E & W & V & _); [cbn [width]; lia|]. exists a. auto.
  - intros L. unfold uint_literal. destruct (Z.leb_spec n 4294967295); [change (2 ^ 32) with 4294967296 in L; lia|]. cbn [negb andb]. split; [reflexivity|].
    destruct (from_uint_spec V4 (w32 n)) as (a & E & W & V & _); [cbn [width]; apply Z.mod_pos_bound; reflexivity|]. exists a. auto.
Qed.
Lemma uint_literal_wraps : exists n a, 0 <= n < 2 ^ 64 /\ uint_literal false n = Ret a /\ val a <> n.
Proof. exists 4294967297, (mk_addr [0; 0; 0; 1] []). split; [change (2 ^ 64) with 18446744073709551616; lia|]. split; [reflexivity|discriminate]. Qed.
