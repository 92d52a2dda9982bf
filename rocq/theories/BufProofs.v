(** Fixed zero-initialised buffers filled from the left. *)
From Verif Require Import Base Tac V4Model.

Definition buf (n : Z) (pre : list Z) : list Z := pre ++ repeat 0 (Z.to_nat n - length pre).

Lemma buf_nil n : repeat 0 (Z.to_nat n) = buf n [].
Proof. unfold buf. cbn. rewrite Nat.sub_0_r. reflexivity. Qed.

Lemma zlen_0 {A} (l : list A) : zlen l = 0 -> l = [].
Proof. destruct l; [reflexivity|]. autorewrite with zl. pose proof (zlen_nonneg l). lia. Qed.

Lemma zlen_repeat {A} (x : A) n : zlen (repeat x n) = Z.of_nat n.
Proof. unfold zlen. rewrite repeat_length. reflexivity. Qed.

Lemma wr_buf n pre c i : i = zlen pre -> zlen pre < n -> wr (buf n pre) i c = Ret (buf n (pre ++ [c])).
Proof.
  intros -> H. unfold buf, zlen in *. rewrite app_length. cbn [length].
  replace (Z.to_nat n - length pre)%nat with (S (Z.to_nat n - (length pre + 1)))%nat by lia. cbn [repeat].
  rewrite wr_mid by reflexivity. rewrite <- app_assoc. reflexivity.
Qed.

Lemma zlen_buf n pre : zlen pre <= n -> zlen (buf n pre) = n.
Proof. intros H. unfold buf. autorewrite with zl. rewrite zlen_repeat. unfold zlen in *. lia. Qed.

Lemma firstn_buf n pre : firstn (length pre) (buf n pre) = pre.
Proof. unfold buf. rewrite firstn_app, firstn_all, Nat.sub_diag. cbn. apply app_nil_r. Qed.

Lemma copy_chars_buf : forall seg x y n pre i o, i = zlen x -> o = zlen pre -> zlen pre + zlen seg <= n ->
  copy_chars (length seg) i (x ++ seg ++ y) (buf n pre) o = Ret (buf n (pre ++ seg), zlen pre + zlen seg).
Proof.
  induction seg as [|c seg IH]; intros x y n pre i o -> -> H; cbn [copy_chars length app].
  - rewrite app_nil_r. autorewrite with zl. do 2 f_equal. lia.
  - autorewrite with zl in H. pose proof (zlen_nonneg seg).
    rewrite rd_mid by reflexivity. cbn [bind]. rewrite wr_buf by lia. cbn [bind].
    replace (x ++ c :: seg ++ y) with ((x ++ [c]) ++ seg ++ y) by (rewrite <- app_assoc; reflexivity).
    rewrite IH; autorewrite with zl; try lia. rewrite <- app_assoc. do 2 f_equal. lia.
Qed.

Lemma to_nat_zlen {A} (l : list A) : Z.to_nat (zlen l) = length l.
Proof. unfold zlen. apply Nat2Z.id. Qed.
