(** Consequences used by PropsUnicode. *)
From Verif Require Import Base Tac UnicodeModel V4Model SpecV4 V4Proofs SpecStr StrProofs Utf8Proofs.

Lemma v4_tokens_only ts a : v4_from_string ts = Ret a -> exists s, ts = chars s.
Proof. intros H. apply v4_accept_tokens in H as (s & -> & _). eauto. Qed.

Lemma utf16_v4 s a : Forall is_u16 s ->
  ((ts <- tokens utf16_next s ;; v4_from_string ts) = Ret a <-> Forall is_ascii s /\ v4_from_string (chars s) = Ret a).
Proof. intros H. apply (strict_parse is_u16 utf16_next v4_from_string utf16_strict v4_tokens_only s H a). Qed.
Lemma utf32_v4 s a : Forall is_u32 s ->
  ((ts <- tokens utf32_next s ;; v4_from_string ts) = Ret a <-> Forall is_ascii s /\ v4_from_string (chars s) = Ret a).
Proof. intros H. apply (strict_parse is_u32 utf32_next v4_from_string utf32_strict v4_tokens_only s H a). Qed.
Lemma utf8_v4 s a : Forall is_u8 s ->
  ((ts <- tokens utf8_next s ;; v4_from_string ts) = Ret a <-> exists p, lax_utf8 s p /\ v4_from_string (chars p) = Ret a).
Proof. intros H. apply (utf8_parse v4_from_string v4_tokens_only s H a). Qed.
Lemma utf16_tokens s : Forall is_u16 s ->
  exists ts, tokens utf16_next s = Ret ts /\
    ((Forall is_ascii s /\ ts = chars s) \/
     (exists p x q e v rest, s = p ++ x :: q /\ Forall is_ascii p /\ ~ is_ascii x /\
        ts = chars p ++ Bad e v :: rest /\ (e = unexpected_symbol \/ e = wrong_encoding_sequence))).
Proof. apply strict_tokens, utf16_strict. Qed.
Lemma utf32_tokens s : Forall is_u32 s ->
  exists ts, tokens utf32_next s = Ret ts /\
    ((Forall is_ascii s /\ ts = chars s) \/
     (exists p x q e v rest, s = p ++ x :: q /\ Forall is_ascii p /\ ~ is_ascii x /\
        ts = chars p ++ Bad e v :: rest /\ (e = unexpected_symbol \/ e = wrong_encoding_sequence))).
Proof. apply strict_tokens, utf32_strict. Qed.
Lemma utf8_ascii s : Forall is_ascii s -> lax_utf8 s s /\ forall p, lax_utf8 s p -> p = s.
Proof. intros H. split; [apply lax_ascii; assumption|]. intros p HL. eapply lax_ascii_inv; eassumption. Qed.

Lemma utf8_first_bad : forall p b q t, Forall is_ascii p -> ~ is_ascii b -> lax_utf8 (p ++ b :: q) t ->
  ((b = 0xC0 \/ b = 0xC1) /\ exists t1 q', q = t1 :: q' /\ cont t1) \/
  (b = 0xE0 /\ exists x t1 q', q = x :: t1 :: q' /\ cont t1) \/
  (b = 0xF0 /\ exists x y t1 q', q = x :: y :: t1 :: q' /\ cont t1).
Proof.
  induction p as [|a p IH]; intros b q t Hp Hb H.
  - cbn [app] in H. inversion H as [|seq c s' p' HL HP E]; subst.
    destruct HL; cbn [app] in E; injection E as ? ?; subst; [contradiction|..].
    + left. split; [assumption|]. eauto.
    + right; left. split; [reflexivity|]. eauto 6.
    + right; right. split; [reflexivity|]. eauto 8.
  - inversion Hp as [|? ? Ha Hp']; subst. inversion H as [|seq c s' p' HL HP E]; subst.
    destruct HL; cbn [app] in E; injection E as ? ?; subst.
    + eapply IH; eassumption.
    + exfalso. unfold is_ascii in Ha. lia.
    + exfalso. unfold is_ascii in Ha. lia.
    + exfalso. unfold is_ascii in Ha. lia.
Qed.

Lemma utf8_overlong : exists s a, Forall is_u8 s /\ s = 0xC0 :: 0xB1 :: [46; 50; 46; 51; 46; 52] /\
  (ts <- tokens utf8_next s ;; v4_from_string ts) = Ret a.
Proof.
  do 2 eexists. split; [|split; reflexivity]. repeat constructor; unfold is_u8; lia.
Qed.
Lemma utf8_bad_cont : exists s a, Forall is_u8 s /\ s = 0xE0 :: 0x41 :: 0xB1 :: [46; 50; 46; 51; 46; 52] /\
  ~ cont 0x41 /\ (ts <- tokens utf8_next s ;; v4_from_string ts) = Ret a.
Proof.
  do 2 eexists. split; [|split; [reflexivity|split; [unfold cont; lia|reflexivity]]]. repeat constructor; unfold is_u8; lia.
Qed.
