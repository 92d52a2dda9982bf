(** Facts about numerals. *)
From Verif Require Import Base Tac SpecText.

Lemma Forall2_impl {A B} (P Q : A -> B -> Prop) : (forall a b, P a b -> Q a b) ->
  forall l l', Forall2 P l l' -> Forall2 Q l l'.
Proof. induction 2; constructor; auto. Qed.

Lemma horner_app r : forall ds acc d, horner r acc (ds ++ [d]) = horner r acc ds * r + d.
Proof. induction ds as [|x ds IH]; intros acc d; cbn; [reflexivity|apply IH]. Qed.

Lemma horner_acc r : forall ds acc, 0 <= r -> horner r acc ds = acc * r ^ zlen ds + horner r 0 ds.
Proof.
  induction ds as [|x ds IH]; intros acc Hr; cbn [horner].
  - change (zlen []) with 0. change (r ^ 0) with 1. lia.
  - rewrite IH, (IH (0 * r + x)) by lia. rewrite zlen_cons, Z.pow_add_r, Z.pow_1_r by (pose proof (zlen_nonneg ds); lia). ring.
Qed.

Lemma horner_range r : 1 < r -> forall ds, Forall (fun d => 0 <= d < r) ds -> 0 <= horner r 0 ds < r ^ zlen ds.
Proof.
  intros Hr ds. induction ds as [|x ds IH] using rev_ind; intros Hd.
  - cbn. change (zlen []) with 0. change (r ^ 0) with 1. lia.
  - apply Forall_app in Hd as [Hd Hx]. inversion Hx; subst. specialize (IH Hd). rewrite horner_app.
    autorewrite with zl. rewrite Z.pow_add_r by (pose proof (zlen_nonneg ds); lia).
    change (0 + 1) with 1. rewrite Z.pow_1_r. nia.
Qed.

Lemma digits_of_range r s ds : digits_of r s ds -> Forall (fun d => 0 <= d < r) ds.
Proof. induction 1 as [|? ? ? ? H]; constructor; [apply H|assumption]. Qed.

Lemma digit_char_unique r c d c' : digit_char r c d -> digit_char r c' d -> c = c'.
Proof. unfold digit_char. lia. Qed.

Lemma digit_char_value r c d d' : digit_char r c d -> digit_char r c d' -> d = d'.
Proof. unfold digit_char. lia. Qed.

Lemma digits_of_unique r : forall ds s s', digits_of r s ds -> digits_of r s' ds -> s = s'.
Proof.
  induction ds as [|d ds IH]; intros s s' H H'; inversion H; inversion H'; subst; [reflexivity|].
  f_equal; [eapply digit_char_unique; eassumption|apply IH; assumption].
Qed.

Lemma canonical_digits_unique r : 1 < r -> forall n ds ds',
  (length ds <= n)%nat ->
  Forall (fun d => 0 <= d < r) ds -> Forall (fun d => 0 <= d < r) ds' ->
  ds <> [] -> ds' <> [] ->
  (hd 0 ds = 0 -> length ds = 1%nat) -> (hd 0 ds' = 0 -> length ds' = 1%nat) ->
  horner r 0 ds = horner r 0 ds' -> ds = ds'.
Proof.
  intros Hr. induction n as [|n IH]; intros ds ds' Hn Hd Hd' Hne Hne' Hc Hc' Hv.
  { destruct ds; [congruence|cbn in Hn; lia]. }
  destruct (exists_last Hne) as (l & x & ->). destruct (exists_last Hne') as (l' & x' & ->).
  rewrite !horner_app in Hv. apply Forall_app in Hd as [Hl Hx]. apply Forall_app in Hd' as [Hl' Hx'].
  inversion Hx as [|? ? Hx0 _]; inversion Hx' as [|? ? Hx0' _]; subst.
  pose proof (horner_range r Hr l Hl) as [B1 _]. pose proof (horner_range r Hr l' Hl') as [B2 _].
  assert (horner r 0 l = horner r 0 l') by nia. assert (x = x') by nia. subst x'.
  assert (P : forall m, Forall (fun d => 0 <= d < r) m -> (hd 0 (m ++ [x]) = 0 -> length (m ++ [x]) = 1%nat) ->
     m <> [] -> 0 < horner r 0 m).
  { intros m Hm Hcm Hmn. destruct m as [|a m]; [congruence|]. cbn [horner]. rewrite horner_acc by lia.
    inversion Hm; subst. pose proof (horner_range r Hr m H3).
    assert (a <> 0). { intros ->. cbn in Hcm. rewrite app_length in Hcm. cbn in Hcm. lia. }
    assert (0 < r ^ zlen m) by (apply Z.pow_pos_nonneg; unfold zlen; lia). nia. }
  f_equal. destruct l as [|a l]; destruct l' as [|a' l'].
  - reflexivity.
  - specialize (P (a' :: l') Hl' Hc' ltac:(discriminate)). cbn in *. lia.
  - specialize (P (a :: l) Hl Hc ltac:(discriminate)). cbn in *. lia.
  - apply IH; try assumption; try discriminate.
    + rewrite app_length in Hn. cbn in *. lia.
    + intros E. cbn in *. specialize (Hc E). rewrite app_length in Hc. cbn in Hc. lia.
    + intros E. cbn in *. specialize (Hc' E). rewrite app_length in Hc'. cbn in Hc'. lia.
Qed.

(** A number has at most one canonical numeral, and a numeral one value. *)
Lemma numeral_unique r s s' v : 1 < r -> numeral r s v -> numeral r s' v -> s = s'.
Proof.
  intros Hr (ds & H1 & H2 & H3 & H4) (ds' & H1' & H2' & H3' & H4').
  assert (ds = ds').
  { eapply (canonical_digits_unique r Hr (length ds)); eauto using digits_of_range; lia. }
  subst. eapply digits_of_unique; eassumption.
Qed.

Lemma digits_of_values r : forall s ds ds', digits_of r s ds -> digits_of r s ds' -> ds = ds'.
Proof.
  induction s as [|c s IH]; intros ds ds' H H'; inversion H; inversion H'; subst; [reflexivity|].
  f_equal; [eapply digit_char_value; eassumption|apply IH; assumption].
Qed.

Lemma numeral_value r s v v' : numeral r s v -> numeral r s v' -> v = v'.
Proof.
  intros (ds & H1 & _ & _ & <-) (ds' & H1' & _ & _ & <-).
  rewrite (digits_of_values r s ds ds'); auto.
Qed.

Lemma numeral_nonneg r s v : 1 < r -> numeral r s v -> 0 <= v.
Proof. intros Hr (ds & H1 & _ & _ & <-). apply horner_range; eauto using digits_of_range. Qed.

Lemma numeral_digit r c d : digit_char r c d -> numeral r [c] d.
Proof.
  intros H. exists [d]. repeat split; try discriminate.
  - constructor; [exact H|constructor].
Qed.

Lemma numeral_snoc r s v c d : 1 < r -> numeral r s v -> 0 < v -> digit_char r c d ->
  numeral r (s ++ [c]) (v * r + d).
Proof.
  intros Hr (ds & H1 & H2 & H3 & H4) Hv Hd. exists (ds ++ [d]). repeat split.
  - apply Forall2_app; [assumption|]. constructor; [assumption|constructor].
  - destruct ds; discriminate.
  - intros E. destruct ds as [|a ds]; [congruence|]. cbn [hd app] in *. specialize (H3 E).
    destruct ds; [|discriminate]. cbn in H4. lia.
  - rewrite horner_app, H4. reflexivity.
Qed.
