(** The text of a message. *)
From Coq Require Import String.
From Verif Require Import Base Tac UnicodeModel BitProofs SpecStr SpecText StrProofs Utf8Proofs TextProofs SpecInt Uint128Model Uint128Text
  AddressModel NetworkModel AnyModel CodeModel StreamModel SpecStream ErrorModel SpecError RaiseProofs RaiseProofs2.

(** ** Printing *)
Lemma read_zero T p r : Forall (unit_ok T) p -> Forall (unit_ok T) r -> let s := p ++ 0 :: r in
  exists n, reader_of T s (zlen s) (zlen p) = Ret (Ch 0, n).
Proof.
  intros Hp Hr. cbn zeta. destruct T; cbn [reader_of unit_ok] in *.
  - unfold char_next. rewrite rd_mid by reflexivity. eexists. reflexivity.
  - rewrite utf8_next_ok.
    + replace (Z.to_nat (zlen p)) with (Datatypes.length p) by (unfold zlen; lia).
      rewrite skipn_app, skipn_all, Nat.sub_diag. eexists. reflexivity.
    + apply Forall_app. split; [exact Hp|]. constructor; [unfold is_u8; lia|exact Hr].
    + unfold zlen. rewrite app_length. cbn [Datatypes.length]. lia.
  - unfold utf16_next. rewrite rd_mid by reflexivity. eexists. reflexivity.
  - unfold utf32_next. rewrite rd_mid by reflexivity. eexists. reflexivity.
  - unfold utf32_next. rewrite rd_mid by reflexivity. eexists. reflexivity.
Qed.
Lemma zlen_app {A} (a b : list A) : zlen (a ++ b) = zlen a + zlen b.
Proof. unfold zlen. rewrite app_length. lia. Qed.
Lemma seen_nz T c : symbol_ok T c -> c <> 0.
Proof. destruct T; cbn; unfold scalar; lia. Qed.
Lemma seen_range T c : symbol_ok T c -> 0 <= c < 2 ^ 32 \/ T = TChar.
Proof. destruct T; cbn [symbol_ok]; unfold scalar; change (2 ^ 32) with 4294967296; auto; left; lia. Qed.

Definition print_at (T : chtype) (p tail u : list Z) : Prop :=
  forall k, (Datatypes.length tail <= k)%nat -> print_loop k (reader_of T) (p ++ tail) (zlen p) = Ret u.
Lemma print_stop T p tail e n : tail <> [] -> reader_of T (p ++ tail) (zlen (p ++ tail)) (zlen p) = Ret (e, n) -> e = Ch 0 \/ e = Bad wrong_encoding_sequence 0 ->
  print_at T p tail [].
Proof.
  intros N E D k Hk. destruct tail as [|x tail]; [congruence|]. destruct k as [|k]; [cbn in Hk; lia|]. cbn [print_loop].
  destruct (Z.ltb_spec (zlen p) (zlen (p ++ x :: tail))); [|reflexivity]. rewrite E. cbn [bind]. destruct D as [-> | ->]; reflexivity.
Qed.
Lemma print_one T p c r u : symbol_ok T c -> Forall (unit_ok T) p -> Forall (unit_ok T) r -> print_at T (p ++ enc T c) r u ->
  exists t, pictured1 T c t /\ print_at T p (enc T c ++ r) (t ++ u).
Proof.
  intros H Hp Hr Hu. exists (match seen T c with Ch c => [c] | Bad _ v => print_symbol_code v end). split.
  - unfold pictured1, seen. destruct (match T with TChar => true | _ => c <? 128 end) eqn:E; [reflexivity|].
    apply name_ok. destruct (seen_range T c H) as [G|G]; [exact G|subst; discriminate].
  - intros k Hk. pose proof (enc_len T c) as L. rewrite app_length in Hk. unfold zlen in L. destruct k as [|k]; [lia|]. cbn [print_loop].
    destruct (Z.ltb_spec (zlen p) (zlen (p ++ enc T c ++ r))) as [G|G].
    2:{ exfalso. rewrite !zlen_app in G. unfold zlen in G. lia. }
    rewrite (read_enc T p c r H Hp Hr). cbn [bind].
    assert (E : print_loop k (reader_of T) (p ++ enc T c ++ r) (zlen p + zlen (enc T c)) = Ret u).
    { rewrite app_assoc, <- zlen_app. apply Hu. lia. }
    pose proof (seen_nz T c H) as NZ. unfold seen. destruct (match T with TChar => true | _ => c <? 128 end).
    + destruct (Z.eqb_spec c 0); [contradiction|]. rewrite E. reflexivity.
    + destruct (Z.eqb_spec c 0); [contradiction|]. rewrite E. reflexivity.
Qed.
Lemma print_encode T tail u : Forall (unit_ok T) tail -> forall cs p, Forall (symbol_ok T) cs -> Forall (unit_ok T) p ->
  print_at T (p ++ encode T cs) tail u -> exists t, pictured T cs t /\ print_at T p (encode T cs ++ tail) (t ++ u).
Proof.
  intros Ht. induction cs as [|c cs IH]; intros p Hc Hp Hu.
  - exists []. split; [constructor|]. cbn [encode flat_map app] in *. rewrite app_nil_r in Hu. exact Hu.
  - inversion Hc as [|? ? H1 H2]. subst. cbn [encode flat_map] in *. fold (encode T cs) in *.
    destruct (IH (p ++ enc T c)) as (t & Pt & Qt); [exact H2|apply Forall_app; split; [exact Hp|apply enc_units, H1]|rewrite <- app_assoc; exact Hu|].
    destruct (print_one T p c (encode T cs ++ tail) (t ++ u) H1 Hp) as (t1 & P1 & Q1); [|exact Qt|].
    { apply Forall_app. split; [apply encode_units, H2|exact Ht]. }
    exists (t1 ++ t). split; [constructor; assumption|]. rewrite <- !app_assoc. exact Q1.
Qed.
Lemma print_array_at T s u : print_at T [] s u -> print_array T s = Ret u.
Proof. intros H. apply (H (Datatypes.length s)). lia. Qed.

Lemma unit_small T x : 0 <= x < 128 -> unit_ok T x.
Proof.
  intros H. destruct T; cbn [unit_ok]; unfold is_char, is_u8, is_u16, is_u32; change (2 ^ 16) with 65536; change (2 ^ 32) with 4294967296; change (2 ^ 31) with 2147483648; lia.
Qed.
Lemma dots_units T : Forall (unit_ok T) dots.
Proof. unfold dots. repeat constructor; apply unit_small; lia. Qed.
Lemma dot_ok T : symbol_ok T 46.
Proof. destruct T; cbn; unfold is_char, scalar; lia. Qed.
Lemma enc_dot T : enc T 46 = [46].
Proof. destruct T; reflexivity. Qed.
Lemma zero_at T p r : Forall (unit_ok T) p -> Forall (unit_ok T) r -> print_at T p (0 :: r) [].
Proof. intros Hp Hr. destruct (read_zero T p r Hp Hr) as (n & E). eapply print_stop; [discriminate|exact E|auto]. Qed.
Lemma pictured_ascii T : forall cs t, Forall is_ascii cs -> pictured T cs t -> t = cs.
Proof.
  intros cs t H P. induction P as [|c cs t ts P1 P IH]; [reflexivity|]. inversion H as [|? ? H1 H2]. subst. rewrite (IH H2). unfold is_ascii in H1.
  unfold pictured1 in P1. destruct T; [subst; reflexivity| | | |]; (destruct (Z.ltb_spec c 128); [subst; reflexivity|lia]).
Qed.
Lemma dots_at T p : Forall (unit_ok T) p -> print_at T p dots [46; 46; 46].
Proof.
  intros Hp.
  assert (Z3 : Forall (unit_ok T) [0]) by (repeat constructor; apply unit_small; lia).
  destruct (print_encode T [0] [] Z3 [46; 46; 46] p) as (t & Pt & Qt).
  - repeat constructor; apply dot_ok.
  - exact Hp.
  - apply zero_at; [apply Forall_app; split; [exact Hp|]|constructor]. apply encode_units. repeat constructor; apply dot_ok.
  - apply pictured_ascii in Pt; [|repeat constructor; unfold is_ascii; lia]. subst t.
    unfold encode in Qt. cbn [flat_map] in Qt. rewrite !enc_dot in Qt. exact Qt.
Qed.

(** ** The copy *)
Lemma copy_ok : forall k i address rest, (k <= Datatypes.length address)%nat -> forall pre, i = zlen pre -> (k <= Datatypes.length rest)%nat ->
  forall all, all = pre ++ address -> copy_loop k i all (pre ++ rest) = Ret (pre ++ firstn k address ++ skipn k rest).
Proof.
  induction k as [|k IH]; intros i address rest Ha pre Hi Hr all ->; cbn [copy_loop firstn skipn]; [reflexivity|].
  destruct address as [|x address]; [cbn in Ha; lia|]. destruct rest as [|y rest]; [cbn in Hr; lia|].
  rewrite rd_mid by exact Hi. cbn [bind]. rewrite wr_mid by exact Hi. cbn [bind].
  replace (pre ++ x :: rest) with ((pre ++ [x]) ++ rest) by (rewrite <- app_assoc; reflexivity).
  rewrite (IH (i + 1) address rest ltac:(cbn in Ha; lia) (pre ++ [x])).
  - rewrite <- app_assoc. reflexivity.
  - rewrite zlen_app. change (zlen [x]) with 1. lia.
  - cbn in Hr. lia.
  - rewrite <- app_assoc. reflexivity.
Qed.
Lemma copy_all k s rest : (k <= Datatypes.length s)%nat -> (k <= Datatypes.length rest)%nat -> copy_loop k 0 s rest = Ret (firstn k s ++ skipn k rest).
Proof. intros H1 H2. exact (copy_ok k 0 s rest H1 [] eq_refl H2 s eq_refl). Qed.
Lemma text_short s : zlen s <= 100 -> error_text s (zlen s) = Ret (s ++ repeat 0 (104 - Datatypes.length s)).
Proof.
  intros H. unfold error_text. destruct (Z.gtb_spec (zlen s) 100); [lia|].
  assert (L : (Z.to_nat (zlen s) = Datatypes.length s)%nat) by (unfold zlen; lia). rewrite L.
  rewrite copy_all; [|lia|rewrite repeat_length; unfold zlen in H; lia].
  cbn [bind app]. rewrite firstn_all. do 2 f_equal. unfold zlen in H.
  replace 104%nat with (Datatypes.length s + (104 - Datatypes.length s))%nat at 1 by lia. rewrite repeat_app, skipn_app, skipn_all2 by (rewrite repeat_length; lia).
  rewrite repeat_length, Nat.sub_diag. reflexivity.
Qed.
Lemma text_long s : zlen s > 100 -> error_text s (zlen s) = Ret (firstn 100 s ++ dots).
Proof.
  intros H. unfold error_text. destruct (Z.gtb_spec (zlen s) 100); [|lia]. change (Z.to_nat 100) with 100%nat.
  rewrite copy_all; [|unfold zlen in H; lia|rewrite repeat_length; lia].
  cbn [bind app]. change (skipn 100 (repeat 0 104)) with [0; 0; 0; 0].
  assert (L : zlen (firstn 100 s) = 100). { unfold zlen in *. rewrite firstn_length. lia. }
  rewrite wr_mid by lia. cbn [bind].
  replace (firstn 100 s ++ 46 :: [0; 0; 0]) with ((firstn 100 s ++ [46]) ++ 0 :: [0; 0]) by (rewrite <- app_assoc; reflexivity).
  rewrite wr_mid by (rewrite zlen_app, L; reflexivity). cbn [bind].
  replace ((firstn 100 s ++ [46]) ++ 46 :: [0; 0]) with ((firstn 100 s ++ [46; 46]) ++ 0 :: [0]) by (rewrite <- !app_assoc; reflexivity).
  rewrite wr_mid by (rewrite zlen_app, L; reflexivity). rewrite <- app_assoc. reflexivity.
Qed.
Lemma zeros_units T n : Forall (unit_ok T) (repeat 0 n).
Proof. induction n; cbn; constructor; auto. apply unit_small. lia. Qed.
Lemma text_defined T s : Forall (unit_ok T) s -> exists b, error_text s (zlen s) = Ret b /\ Forall (unit_ok T) b.
Proof.
  intros H. destruct (Z_le_gt_dec (zlen s) 100).
  - eexists. split; [apply text_short; assumption|]. apply Forall_app. split; [exact H|apply zeros_units].
  - eexists. split; [apply text_long; assumption|]. apply Forall_app. split; [|apply dots_units].
    rewrite <- (firstn_skipn 100 s) in H. apply Forall_app in H. apply H.
Qed.
Lemma encode_app T a b : encode T (a ++ b) = encode T a ++ encode T b.
Proof. unfold encode. apply flat_map_app. Qed.

(** ** What is shown of a text *)
Lemma excerpt_ok T cs p ds : Forall (symbol_ok T) cs -> excerpt T cs p ds ->
  exists b tp, error_text (encode T cs) (zlen (encode T cs)) = Ret b /\ print_array T b = Ret (tp ++ ds) /\ pictured T p tp.
Proof.
  intros Hc [Hl|p' q E L N|p' c q E L].
  - destruct (print_encode T (repeat 0 (104 - Datatypes.length (encode T cs))) [] (zeros_units T _) cs []) as (t & Pt & Qt).
    + exact Hc.
    + constructor.
    + unfold zlen in Hl. destruct (104 - Datatypes.length (encode T cs))%nat eqn:En; [lia|]. cbn [repeat].
      apply zero_at; [apply encode_units, Hc|apply zeros_units].
    + eexists _, t. split; [apply text_short; exact Hl|]. split; [apply print_array_at; exact Qt|exact Pt].
  - subst cs. apply Forall_app in Hc. destruct Hc as [Hp Hq].
    destruct (print_encode T dots [46; 46; 46] (dots_units T) p' []) as (t & Pt & Qt).
    + exact Hp.
    + constructor.
    + apply dots_at. apply encode_units, Hp.
    + eexists _, t. split; [apply text_long|].
      { rewrite encode_app, zlen_app, L. destruct q as [|x q]; [congruence|]. cbn [encode flat_map]. rewrite zlen_app. pose proof (enc_len T x). unfold zlen in *. lia. }
      split; [|exact Pt]. rewrite encode_app, firstn_app, firstn_all2 by (unfold zlen in L; lia).
      replace (100 - Datatypes.length (encode T p'))%nat with 0%nat by (unfold zlen in L; lia). rewrite app_nil_r. apply print_array_at. exact Qt.
  - subst cs. apply Forall_app in Hc. destruct Hc as [Hp Hq]. inversion Hq as [|? ? Hx Hq']. subst.
    rewrite encode_app, zlen_app in L. assert (Ec : encode T [c] = enc T c) by (cbn [encode flat_map]; apply app_nil_r). rewrite Ec in L.
    set (n := (100 - Datatypes.length (encode T p'))%nat).
    assert (Hn : (0 < n < Datatypes.length (enc T c))%nat) by (unfold n; unfold zlen in L; lia).
    assert (Ea : firstn n (enc T c) <> []). { intros E. apply (f_equal (@Datatypes.length Z)) in E. rewrite firstn_length in E. cbn [Datatypes.length] in E. clearbody n. lia. }
    assert (Eb : skipn n (enc T c) <> []). { intros E. apply (f_equal (@Datatypes.length Z)) in E. rewrite skipn_length in E. cbn [Datatypes.length] in E. clearbody n. lia. }
    destruct (read_cut T (encode T p') c _ _ Hx (encode_units _ _ Hp) (eq_sym (firstn_skipn n (enc T c))) Ea Eb) as (m & R).
    assert (Ut : Forall (unit_ok T) (firstn n (enc T c) ++ dots)).
    { apply Forall_app. split; [|apply dots_units]. pose proof (enc_units T c Hx) as U. rewrite <- (firstn_skipn n (enc T c)) in U. apply Forall_app in U. apply U. }
    destruct (print_encode T (firstn n (enc T c) ++ dots) [] Ut p' []) as (t & Pt & Qt).
    + exact Hp.
    + constructor.
    + eapply print_stop; [|exact R|auto]. destruct (firstn n (enc T c)); discriminate.
    + assert (Eq : encode T (p' ++ c :: q) = encode T p' ++ enc T c ++ encode T q) by (rewrite encode_app; reflexivity).
      eexists _, t. split; [apply text_long|].
      { rewrite Eq, !zlen_app. unfold zlen in *. lia. }
      split; [|exact Pt]. rewrite Eq, firstn_app, firstn_all2 by (unfold zlen in L; lia). fold n.
      rewrite firstn_app. replace (n - Datatypes.length (enc T c))%nat with 0%nat by lia. rewrite app_nil_r, <- app_assoc.
      apply print_array_at. exact Qt.
Qed.
Lemma excerpt_exists T : forall cs, exists p ds, excerpt T cs p ds.
Proof.
  intros cs. destruct (Z_le_gt_dec (zlen (encode T cs)) 100) as [H|H]; [exists cs, []; constructor; exact H|].
  assert (G : forall q p, zlen (encode T p) <= 100 -> zlen (encode T (p ++ q)) > 100 -> exists a ds, excerpt T (p ++ q) a ds).
  { induction q as [|c q IH]; intros p Hp Hq; [rewrite app_nil_r in Hq; lia|].
    destruct (Z.eq_dec (zlen (encode T p)) 100) as [E|E]; [exists p, [46; 46; 46]; eapply ex_cut; [reflexivity|exact E|discriminate]|].
    destruct (Z_le_gt_dec (zlen (encode T (p ++ [c]))) 100) as [L|L].
    - replace (p ++ c :: q) with ((p ++ [c]) ++ q) in * by (rewrite <- app_assoc; reflexivity). apply IH; assumption.
    - exists p, []. eapply ex_straddle; [reflexivity|]. lia. }
  apply (G cs []); [unfold zlen; cbn; lia|exact H].
Qed.
Lemma stops_ok T cs r : Forall (symbol_ok T) cs -> Forall (unit_ok T) r -> zlen (encode T cs) < 100 -> let s := encode T cs ++ 0 :: r in
  exists b t, error_text s (zlen s) = Ret b /\ print_array T b = Ret t /\ pictured T cs t.
Proof.
  intros Hc Hr Hl. cbn zeta.
  assert (G : exists r', Forall (unit_ok T) r' /\ error_text (encode T cs ++ 0 :: r) (zlen (encode T cs ++ 0 :: r)) = Ret (encode T cs ++ 0 :: r')).
  { destruct (Z_le_gt_dec (zlen (encode T cs ++ 0 :: r)) 100) as [H|H].
    - exists (r ++ repeat 0 (104 - Datatypes.length (encode T cs ++ 0 :: r))). split; [apply Forall_app; split; [exact Hr|apply zeros_units]|].
      rewrite text_short by exact H. rewrite <- app_assoc. reflexivity.
    - exists (firstn (99 - Datatypes.length (encode T cs)) r ++ dots). split.
      + apply Forall_app. split; [|apply dots_units]. rewrite <- (firstn_skipn (99 - Datatypes.length (encode T cs)) r) in Hr. apply Forall_app in Hr. apply Hr.
      + rewrite text_long by exact H. rewrite firstn_app, firstn_all2 by (unfold zlen in Hl; lia). rewrite <- app_assoc. do 2 f_equal.
        unfold zlen in Hl. replace (100 - Datatypes.length (encode T cs))%nat with (S (99 - Datatypes.length (encode T cs))) by lia. reflexivity. }
  destruct G as (r' & Hr' & E).
  destruct (print_encode T (0 :: r') [] ltac:(constructor; [apply unit_small; lia|exact Hr']) cs []) as (t & Pt & Qt).
  - exact Hc.
  - constructor.
  - apply zero_at; [apply encode_units, Hc|exact Hr'].
  - rewrite app_nil_r in Qt. eexists _, t. split; [exact E|]. split; [apply print_array_at; exact Qt|exact Pt].
Qed.
