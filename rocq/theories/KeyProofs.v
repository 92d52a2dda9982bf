(** Texts as keys: order and length of the IPv6 texts. *)
From Verif Require Import Base Tac TextProofs UnicodeModel FixedStringModel V4Model V6Model
  SpecText SpecAddr SpecStr SpecV4 SpecV6 StrProofs V4Proofs BufProofs BitProofs V4Lemmas V6Proofs V6Parse V6Grammar V6Full V6Format V6Lemmas
  AddressModel SpecOrder SpecKeys.

(** *** Order of the full texts *)
Lemma lex_app : forall p q a b, length p = length q -> (lex_lt (p ++ a) (q ++ b) <-> lex_lt p q \/ p = q /\ lex_lt a b).
Proof.
  induction p as [|x p IH]; intros [|y q] a b L; cbn [length] in L; try lia; cbn [app].
  - split; [intros H; right; auto|]. intros [H|[_ H]]; [|exact H]. destruct (lex_irrefl _ H).
  - specialize (IH q a b ltac:(lia)). split.
    + intros H. apply lex_lt_inv in H. cbn in H. destruct H as [H|[-> H]]; [left; apply lex_lt_head; exact H|].
      apply IH in H as [H|[-> H]]; [left; apply lex_lt_cons; exact H|right; auto].
    + intros [H|[E H]].
      * apply lex_lt_inv in H. cbn in H. destruct H as [H|[-> H]]; [apply lex_lt_head; exact H|apply lex_lt_cons, IH; auto].
      * injection E as -> ->. apply lex_lt_cons, IH. auto.
Qed.
Lemma lex_cons x y a b : lex_lt (x :: a) (y :: b) <-> x < y \/ x = y /\ lex_lt a b.
Proof.
  split.
  - intros H. apply lex_lt_inv in H. exact H.
  - intros [H|[-> H]]; [apply lex_lt_head; exact H|apply lex_lt_cons; exact H].
Qed.
Lemma lex_nil a : ~ lex_lt a [].
Proof. intros H. apply lex_lt_inv in H. destruct a; exact H. Qed.
Lemma hexc_mono x y : 0 <= x < 16 -> 0 <= y < 16 -> (V6Proofs.hexc x < V6Proofs.hexc y <-> x < y) /\ (V6Proofs.hexc x = V6Proofs.hexc y <-> x = y).
Proof. unfold V6Proofs.hexc. intros. destruct (Z.ltb_spec x 10), (Z.ltb_spec y 10); lia. Qed.
Lemma hex4_order x y : is_group x -> is_group y -> (lex_lt (hex4 x) (hex4 y) <-> x < y).
Proof.
  unfold is_group, hex4. intros Hx Hy. rewrite !lex_cons.
  destruct (hexc_mono (x / 4096) (y / 4096) ltac:(lia) ltac:(lia)) as [-> ->].
  destruct (hexc_mono (x / 256 mod 16) (y / 256 mod 16) ltac:(lia) ltac:(lia)) as [-> ->].
  destruct (hexc_mono (x / 16 mod 16) (y / 16 mod 16) ltac:(lia) ltac:(lia)) as [-> ->].
  destruct (hexc_mono (x mod 16) (y mod 16) ltac:(lia) ltac:(lia)) as [-> ->].
  pose proof (lex_nil []) as N. split.
  - intros [H|[E [H|[F [H|[G [H|[_ H]]]]]]]]; [..|contradiction]; lia.
  - intros H. lia.
Qed.
Lemma horner_cmp r x y xs ys : 1 < r -> length xs = length ys -> Forall (fun d => 0 <= d < r) xs -> Forall (fun d => 0 <= d < r) ys ->
  (horner r 0 (x :: xs) < horner r 0 (y :: ys) <-> x < y \/ x = y /\ horner r 0 xs < horner r 0 ys).
Proof.
  intros Hr L Fx Fy. cbn [horner]. rewrite (horner_acc r xs), (horner_acc r ys) by lia. unfold zlen. rewrite L. change (Z.of_nat (length ys)) with (zlen ys).
  pose proof (horner_range r Hr xs Fx) as Rx. pose proof (horner_range r Hr ys Fy) as Ry. unfold zlen in Rx. rewrite L in Rx. fold (zlen ys) in Rx.
  set (P := r ^ zlen ys) in *. clearbody P. set (u := horner r 0 xs) in *. set (w := horner r 0 ys) in *. clearbody u w. cbn. clear -Rx Ry. split.
  - intros H. destruct (Z.lt_trichotomy x y) as [|[->|]]; [auto|right; split; [reflexivity|lia]|]. nia.
  - intros [H|[-> H]]; nia.
Qed.
Lemma full_order : forall xs ys, length xs = length ys -> Forall is_group xs -> Forall is_group ys ->
  (lex_lt (join (map hex4 xs)) (join (map hex4 ys)) <-> horner 65536 0 xs < horner 65536 0 ys).
Proof.
  induction xs as [|x xs IH]; intros [|y ys] L Fx Fy; cbn [length] in L; try lia.
  - cbn. split; [intros H; destruct (lex_irrefl _ H)|lia].
  - inversion Fx as [|? ? Hx Fx']. inversion Fy as [|? ? Hy Fy']. subst.
    rewrite horner_cmp by (first [lia|assumption]). cbn [map].
    destruct xs as [|x' xs], ys as [|y' ys]; cbn [length] in L; try lia.
    + cbn [map join horner]. rewrite hex4_order by assumption. lia.
    + rewrite !join_cons by discriminate. rewrite lex_app by reflexivity. rewrite hex4_order by assumption. rewrite lex_cons.
      rewrite <- (IH (y' :: ys)) by (first [assumption|cbn [length] in *; lia]).
      assert (hex4 x = hex4 y <-> x = y) as E.
      { split; [|intros ->; reflexivity]. intros E. apply (f_equal (fun s => s ++ [0])) in E. clear -Hx Hy E.
        destruct (Z.lt_trichotomy x y) as [H|[H|H]]; [|exact H|]; apply hex4_order in H; try assumption; apply app_inv_tail in E; rewrite E in H; destruct (lex_irrefl _ H). }
      rewrite E. assert (~ 58 < 58) by lia. tauto.
Qed.
Lemma group_value : forall gs acc, horner 256 acc (group_bytes gs) = horner 65536 acc gs.
Proof.
  induction gs as [|g gs IH]; intros acc; [reflexivity|]. cbn [group_bytes flat_map app horner]. fold (group_bytes gs). rewrite IH. f_equal. lia.
Qed.
Lemma suffix_order a b : lex_lt (scope_suffix a) (scope_suffix b) <-> lex_lt a b.
Proof.
  destruct a as [|x a], b as [|y b]; cbn [scope_suffix]; try reflexivity.
  - split; intros _; apply lex_lt_nil_cons.
  - split; intros H; destruct (lex_nil _ H).
  - rewrite (lex_cons 37 37). split; [intros [H|[_ H]]; [lia|exact H]|auto].
Qed.
Lemma full_key a b s t : wf_addr V6 a -> wf_addr V6 b -> addr_to_string V6 a full = Ret s -> addr_to_string V6 b full = Ret t ->
  (lex_lt s t <-> addr_before a b).
Proof.
  intros [Ba Sa] [Bb Sb] Ea Eb. cbn [addr_to_string] in Ea, Eb. unfold addr_before, val, be_value.
  destruct (bytes16 _ Ba) as (xs & Lx & Fx & Ex). destruct (bytes16 _ Bb) as (ys & Ly & Fy & Ey). rewrite Ex in Ea |- *. rewrite Ey in Eb |- *.
  assert (forall u, storable u /\ Forall is_char u -> zlen u <= 16) as Z16.
  { intros u [[->|[[H _] _]] _]; [change (zlen (@nil Z)) with 0; lia|lia]. }
  destruct (v6_to_string_ok xs (a_scope a) full Lx Fx (Z16 _ Sa)) as (s' & Hs & Es). destruct (v6_to_string_ok ys (a_scope b) full Ly Fy (Z16 _ Sb)) as (t' & Ht & Et).
  rewrite Es in Ea. rewrite Et in Eb. injection Ea as <-. injection Eb as <-. cbn [fmt_text] in Hs, Ht. subst s' t'.
  assert (forall us, length (join (map hex4 us)) = (5 * length us - 1)%nat) as LF.
  { induction us as [|u us IH]; [reflexivity|]. destruct us as [|u' us]; [reflexivity|]. cbn [map]. rewrite join_cons by discriminate.
    rewrite app_length. change (length (hex4 u)) with 4%nat. cbn [map length] in *. rewrite IH. lia. }
  rewrite lex_app by (rewrite !LF; lia). rewrite suffix_order, full_order by (first [assumption|lia]). rewrite !group_value.
  assert (join (map hex4 xs) = join (map hex4 ys) <-> horner 65536 0 xs = horner 65536 0 ys) as E.
  { split.
    - intros E. destruct (Z.lt_trichotomy (horner 65536 0 xs) (horner 65536 0 ys)) as [H|[H|H]]; [|exact H|]; apply full_order in H; try assumption; try lia; rewrite E in H; destruct (lex_irrefl _ H).
    - intros E. destruct (lex_total (join (map hex4 xs)) (join (map hex4 ys))) as [H|[H|H]]; [|exact H|]; apply full_order in H; try assumption; lia. }
  rewrite E. reflexivity.
Qed.

(** *** Lengths *)
Lemma F2_len (A B : Type) (R : A -> B -> Prop) (l : list A) (m : list B) : Forall2 R l m -> length l = length m.
Proof. induction 1; cbn [length]; congruence. Qed.
Fixpoint total (ts : list (list Z)) : Z := match ts with [] => 0 | t :: ts' => zlen t + total ts' end.
Lemma total_app a b : total (a ++ b) = total a + total b.
Proof. induction a as [|t a IH]; cbn [total app]; [lia|]. rewrite IH. lia. Qed.
Lemma join_total : forall ts, zlen (join ts) = total ts + Z.max 0 (zlen ts - 1).
Proof.
  induction ts as [|t ts IH]; [reflexivity|]. rewrite zlen_cons. cbn [total]. destruct ts as [|t' ts].
  - cbn [join total]. change (zlen (@nil (list Z))) with 0. lia.
  - rewrite join_cons by discriminate. rewrite zlen_app, zlen_cons, IH. rewrite zlen_cons. pose proof (zlen_nonneg ts). lia.
Qed.
Definition size (vs : list Z) : Z := total (map hexmin vs).
Lemma size_app a b : size (a ++ b) = size a + size b.
Proof. unfold size. rewrite map_app. apply total_app. Qed.
Lemma size_zeros n : size (repeat 0 n) = Z.of_nat n.
Proof. induction n as [|n IH]; [reflexivity|]. cbn [repeat]. change (0 :: repeat 0 n) with ([0] ++ repeat 0 n). rewrite size_app, IH. change (size [0]) with 1. lia. Qed.
Lemma hexmin_bound v k : 0 <= v < 16 ^ k -> 1 <= k -> zlen (hexmin v) <= k.
Proof.
  intros H K. unfold hexmin. destruct (Z.ltb_spec v 16); [change (1 <= k); lia|].
  assert (k = 1 \/ k = 2 \/ k = 3 \/ 4 <= k) as [->|[->|[->|K4]]] by lia.
  - change (16 ^ 1) with 16 in H. lia.
  - change (16 ^ 2) with 256 in H. destruct (Z.ltb_spec v 256); [|lia]. change (2 <= 2). lia.
  - change (16 ^ 3) with 4096 in H. destruct (Z.ltb_spec v 256); [change (2 <= 3); lia|]. destruct (Z.ltb_spec v 4096); [|lia]. change (3 <= 3). lia.
  - destruct (Z.ltb_spec v 256); [change (2 <= k); lia|]. destruct (Z.ltb_spec v 4096); [change (3 <= k); lia|]. change (4 <= k). lia.
Qed.
Lemma hexmin_least t v : hex_group t v -> zlen (hexmin v) <= zlen t.
Proof.
  intros [L (ds & F & ->)]. apply hexmin_bound; [|lia].
  assert (zlen ds = zlen t) as <- by (unfold zlen; rewrite (F2_len _ _ _ _ _ F); reflexivity).
  apply horner_range; [lia|]. clear -F. induction F as [|c d s ds H _ IH]; constructor; [|assumption]. unfold hex_char in H. lia.
Qed.
Lemma groups_size ts vs : Forall2 hex_group ts vs -> size vs <= total ts.
Proof. unfold size. induction 1 as [|t v ts vs H _ IH]; cbn [map total]; [lia|]. apply hexmin_least in H. lia. Qed.
Lemma octet_size s x : octet_text s x -> 1 <= zlen s /\ (10 <= x -> 2 <= zlen s) /\ 0 <= x <= 255.
Proof.
  intros [(ds & D & Ne & _ & <-) H]. assert (zlen ds = zlen s) as <- by (unfold zlen; rewrite (F2_len _ _ _ _ _ D); reflexivity).
  pose proof (horner_range 10 ltac:(lia) ds (digits_of_range _ _ _ D)) as R. destruct ds as [|d [|e ds]]; [congruence|..].
  - change (zlen [d]) with 1 in *. lia.
  - rewrite !zlen_cons in *. pose proof (zlen_nonneg ds). lia.
Qed.
Lemma pair_size sa a sb b : octet_text sa a -> octet_text sb b -> zlen (hexmin (a * 256 + b)) <= zlen sa + zlen sb + 1.
Proof.
  intros A B. apply octet_size in A as (A1 & A2 & A3). apply octet_size in B as (B1 & _ & B3).
  unfold hexmin. destruct (Z.ltb_spec (a * 256 + b) 16); [change (1 <= zlen sa + zlen sb + 1); lia|].
  destruct (Z.ltb_spec (a * 256 + b) 256); [change (2 <= zlen sa + zlen sb + 1); lia|].
  destruct (Z.ltb_spec (a * 256 + b) 4096); [change (3 <= zlen sa + zlen sb + 1); lia|]. change (4 <= zlen sa + zlen sb + 1). lia.
Qed.
Lemma quad_size q a b c d : dotted_quad q [a; b; c; d] -> size [a * 256 + b; c * 256 + d] + 1 <= zlen q.
Proof.
  intros (sa & sb & sc & sd & a' & b' & c' & d' & A & B & C & D & -> & E). injection E as <- <- <- <-.
  pose proof (pair_size _ _ _ _ A B). pose proof (pair_size _ _ _ _ C D). unfold size. cbn [map total]. rewrite !zlen_app, !zlen_cons, !zlen_app, !zlen_cons, zlen_app, zlen_cons. lia.
Qed.
Lemma tail_size s vs : tail_text s vs -> size vs + Z.max 0 (zlen vs - 1) <= zlen s.
Proof.
  intros [(ts & F & ->)|(ts & vs' & q & a & b & c & d & F & Q & -> & ->)]; rewrite join_total; pose proof (groups_size _ _ F).
  - assert (zlen ts = zlen vs) as -> by (unfold zlen; rewrite (F2_len _ _ _ _ _ F); reflexivity). lia.
  - assert (zlen ts = zlen vs') as E by (unfold zlen; rewrite (F2_len _ _ _ _ _ F); reflexivity).
    apply quad_size in Q. rewrite size_app, total_app, !zlen_app, E. cbn [total]. change (zlen [q]) with 1. change (zlen [a * 256 + b; c * 256 + d]) with 2.
    pose proof (zlen_nonneg vs'). lia.
Qed.
Lemma groups_text_size s vs : groups_text s vs -> size vs + Z.max 0 (zlen vs - 1) <= zlen s.
Proof. intros H. apply tail_size. left. exact H. Qed.
Definition edge (l : list Z) : Z := match l with [] => 1 | _ => 0 end.
Lemma min_len vs : zlen (join (map hexmin vs)) = size vs + zlen vs - 1 + edge vs.
Proof.
  rewrite join_total. unfold zlen at 1. rewrite map_length. fold (zlen vs). fold (size vs). destruct vs as [|v vs]; [reflexivity|].
  rewrite zlen_cons. pose proof (zlen_nonneg vs). cbn [edge]. lia.
Qed.
Lemma max_edge vs : Z.max 0 (zlen vs - 1) = zlen vs - 1 + edge vs.
Proof. destruct vs as [|v vs]; [reflexivity|]. rewrite zlen_cons. pose proof (zlen_nonneg vs). cbn [edge]. lia. Qed.
(** What "::" in place of [n] of eight groups leaves. *)
Definition elided (gs a : list Z) (n : nat) (b : list Z) : Z := size gs + 8 - 2 * Z.of_nat n + edge a + edge b.
Lemma elided_least s gs : v6_text s gs -> size gs + 7 <= zlen s \/
  exists a n b, gs = a ++ repeat 0 n ++ b /\ (1 <= n)%nat /\ elided gs a n b <= zlen s.
Proof.
  intros [L [T|(h & l & hv & n & lv & Hh & Hl & Hn & -> & E)]].
  - left. apply tail_size in T. assert (zlen gs = 8) by (unfold zlen; lia). lia.
  - right. exists hv, n, lv. split; [exact E|]. split; [exact Hn|]. apply groups_text_size in Hh. apply tail_size in Hl. rewrite max_edge in Hh, Hl.
    rewrite !zlen_app. change (zlen [58; 58]) with 2. unfold elided. rewrite E at 1. rewrite !size_app, size_zeros.
    assert (zlen hv + Z.of_nat n + zlen lv = 8) by (rewrite E, !app_length, repeat_length in L; unfold zlen; lia). lia.
Qed.
Lemma elided_text gs a n b : length gs = 8%nat -> gs = a ++ repeat 0 n ++ b -> zlen (join (map hexmin a) ++ [58; 58] ++ join (map hexmin b)) = elided gs a n b.
Proof.
  intros L E. rewrite !zlen_app, !min_len. change (zlen [58; 58]) with 2. unfold elided. rewrite E at 1. rewrite !size_app, size_zeros.
  assert (zlen a + Z.of_nat n + zlen b = 8) by (rewrite E, !app_length, repeat_length in L; unfold zlen; lia). lia.
Qed.
Lemma edges l : 0 <= edge l <= 1.
Proof. destruct l; cbn [edge]; lia. Qed.
Lemma compressed_len gs t : length gs = 8%nat -> fmt_text compressed gs t ->
  (zlen t = size gs + 7 /\ forall a n b, gs = a ++ repeat 0 n ++ b -> (n <= 1)%nat) \/
  (exists a n b, gs = a ++ repeat 0 n ++ b /\ (2 <= n)%nat /\
     (forall a' n' b', gs = a' ++ repeat 0 n' ++ b' -> (n' <= n)%nat /\ (n' = n -> (length a <= length a')%nat)) /\ zlen t = elided gs a n b).
Proof.
  intros L [[-> H]|(a & n & b & E & Hn & H & ->)].
  - left. split; [|exact H]. rewrite min_len. assert (zlen gs = 8) by (unfold zlen; lia). destruct gs; [discriminate L|]. cbn [edge]. lia.
  - right. exists a, n, b. split; [exact E|]. split; [exact Hn|]. split; [exact H|]. apply elided_text; assumption.
Qed.
Lemma run_edges gs a n b : length gs = 8%nat -> gs = a ++ repeat 0 n ++ b ->
  ((n < 8)%nat /\ edge a + edge b <= 1) \/ (n = 8%nat /\ edge a + edge b = 2).
Proof.
  intros L E. rewrite E, !app_length, repeat_length in L. destruct a as [|x a], b as [|y b]; cbn [length edge] in *.
  - right. lia.
  - left. lia.
  - left. lia.
  - left. lia.
Qed.
Lemma no_edge l : edge l = 0 -> l <> [].
Proof. destruct l; cbn [edge]; [lia|discriminate]. Qed.
Lemma near gs t s : length gs = 8%nat -> fmt_text compressed gs t -> v6_text s gs -> zlen t <= zlen s + 1.
Proof.
  intros L Ht Hs. apply elided_least in Hs. apply (compressed_len _ _ L) in Ht as [[Et M]|(a & n & b & E & Hn & M & Et)]; rewrite Et.
  - destruct Hs as [H|(a' & n' & b' & E' & Hn' & H)]; [lia|]. apply M in E'. unfold elided in H. pose proof (edges a'). pose proof (edges b'). lia.
  - pose proof (run_edges _ _ _ _ L E). unfold elided. destruct Hs as [H'|(a' & n' & b' & E' & Hn' & H')]; [lia|].
    pose proof (run_edges _ _ _ _ L E'). destruct (M _ _ _ E') as [M1 _]. unfold elided in H'. pose proof (edges a'). pose proof (edges b'). lia.
Qed.
Lemma shorter_wasteful gs t s : length gs = 8%nat -> fmt_text compressed gs t -> v6_text s gs -> zlen s < zlen t -> wasteful gs.
Proof.
  intros L Ht Hs Lt. apply elided_least in Hs. apply (compressed_len _ _ L) in Ht as [[Et M]|(a & n & b & E & Hn & M & Et)]; rewrite Et in Lt.
  - destruct Hs as [H|(a' & n' & b' & E' & Hn' & H)]; [lia|]. pose proof (M _ _ _ E'). unfold elided in H. pose proof (edges a'). pose proof (edges b').
    assert (n' = 1%nat) by lia. subst n'. exists 1%nat, a', b'. split; [lia|]. split; [split; [eauto|exact M]|]. split; [exact E'|].
    split; [apply no_edge; lia|]. split; [apply no_edge; lia|left; reflexivity].
  - pose proof (run_edges _ _ _ _ L E). unfold elided in Lt. destruct Hs as [H'|(a' & n' & b' & E' & Hn' & H')]; [lia|].
    pose proof (run_edges _ _ _ _ L E'). destruct (M _ _ _ E') as [M1 M2]. unfold elided in H'. pose proof (edges a'). pose proof (edges b').
    assert (n' = n) by lia. subst n'. specialize (M2 eq_refl). exists n, a', b'. split; [lia|].
    split; [split; [eauto|intros ? ? ? R; apply M in R; apply R]|]. split; [exact E'|].
    split; [apply no_edge; lia|]. split; [apply no_edge; lia|]. right. exists b.
    destruct a as [|x a]; [exact E|exfalso]. destruct b as [|y b]; [|cbn [edge] in *; lia].
    assert (Q : length gs = length gs) by reflexivity. rewrite E in Q at 1. rewrite E' in Q. rewrite !app_length in Q. cbn [length edge] in *.
    destruct b' as [|y b']; [cbn [edge] in *; lia|]. cbn [length] in Q. lia.
Qed.
Lemma wasteful_shorter gs t : length gs = 8%nat -> Forall is_group gs -> fmt_text compressed gs t -> wasteful gs ->
  exists s, v6_text s gs /\ ~ In 46 s /\ zlen s < zlen t.
Proof.
  intros L F Ht (n & a & b & Hn & [_ Mx] & E & Na & Nb & D).
  assert (Ea : edge a = 0) by (destruct a; [congruence|reflexivity]). assert (Eb : edge b = 0) by (destruct b; [congruence|reflexivity]).
  exists (join (map hexmin a) ++ [58; 58] ++ join (map hexmin b)).
  assert (Fa : Forall is_group a /\ Forall is_group b) by (rewrite E in F; apply Forall_app in F as [Fa F]; apply Forall_app in F as [_ Fb]; auto).
  destruct Fa as [Fa Fb].
  assert (G : forall l, Forall is_group l -> groups_text (join (map hexmin l)) l).
  { intros l Hl. exists (map hexmin l). split; [apply map_forall2; [exact hexmin_group|exact Hl]|reflexivity]. }
  assert (D46 : forall l, Forall is_group l -> ~ In 46 (join (map hexmin l))).
  { intros l Hl C. destruct (G l Hl) as (ts & Fts & Ej). rewrite Ej in C. assert (Forall (fun c => c <> 46) (join ts)) as A.
    { apply join_chars; [lia|]. clear -Fts. induction Fts as [|p v ts vs H _ IH]; constructor; [|assumption].
      apply hex_group_chars in H. eapply Forall_impl; [|exact H]. intros; cbn in *; lia. }
    rewrite Forall_forall in A. apply A in C. contradiction. }
  split; [split; [exact L|right]|split].
  - exists (join (map hexmin a)), (join (map hexmin b)), a, n, b. split; [apply G; exact Fa|]. split; [left; apply G; exact Fb|]. auto.
  - rewrite !in_app_iff. cbn [In]. pose proof (D46 a Fa). pose proof (D46 b Fb). intuition lia.
  - rewrite (elided_text gs a n b L E). unfold elided. rewrite Ea, Eb. apply (compressed_len _ _ L) in Ht as [[Et M]|(a0 & n0 & b0 & E0 & Hn0 & M & Et)]; rewrite Et.
    + lia.
    + destruct (M _ _ _ E) as [M1 _]. pose proof (Mx _ _ _ E0). assert (n0 = n) by lia. subst n0. destruct D as [D|(r & D)]; [lia|].
      destruct (M [] n r D) as [_ M2]. specialize (M2 eq_refl). destruct a0 as [|x a0]; [|cbn [length] in M2; lia].
      unfold elided. pose proof (edges b0). cbn [edge]. lia.
Qed.

(** *** Against the parser *)
Lemma accepts_text t gs scope : v6_text t gs -> ~ In 46 t -> storable scope ->
  v6_from_string true (chars (t ++ scope_suffix scope)) = Ret (group_bytes gs, scope) /\ no_nul (t ++ scope_suffix scope).
Proof.
  intros Hv H46 Hst.
  assert (Nt : no_nul t) by (unfold no_nul; eapply text_not; [eassumption|unfold addr_char; lia]).
  assert (Hr : raw t gs). { apply raw_iff; [assumption|]. split; [assumption|]. intros C. apply long_quad_dot in C. contradiction. }
  split.
  - apply v6_accept_raw. destruct Hst as [->|[Hsc Hn]].
    + left. cbn [scope_suffix]. rewrite app_nil_r. split; [eapply text_not; [eassumption|unfold addr_char; lia]|]. split; [reflexivity|].
      exists gs. auto.
    + right. destruct scope as [|c scope]; [destruct Hsc as [C _]; cbn in C; lia|]. exists t, (c :: scope). split; [reflexivity|].
      split; [eapply text_not; [eassumption|unfold addr_char; lia]|]. split; [apply scope_okb_iff; assumption|].
      split; [symmetry; apply cut_id; assumption|]. exists gs. auto.
  - unfold no_nul in *. rewrite in_app_iff. destruct Hst as [->|[_ Hn]]; [cbn; tauto|]. destruct scope as [|c scope]; [cbn; tauto|].
    cbn [scope_suffix]. unfold no_nul in Hn. cbn [In] in *. intuition lia.
Qed.
Lemma parsed_text s gs sc : length gs = 8%nat -> Forall is_group gs -> no_nul s -> v6_from_string true (chars s) = Ret (group_bytes gs, sc) ->
  exists u, s = u ++ scope_suffix sc /\ v6_text u gs.
Proof.
  intros L F N H. apply v6_accept_iff in H as (gs' & S & E & _); [|exact N].
  assert (I : forall u, v6_text u gs' -> v6_text u gs).
  { intros u T. rewrite (group_bytes_inj gs gs' E F (v6_text_groups _ _ T)). exact T. }
  destruct S as [[T ->]|(u & -> & T & St)].
  - exists s. cbn [scope_suffix]. rewrite app_nil_r. auto.
  - exists u. destruct sc as [|c sc]; [destruct St as [C _]; change (zlen (@nil Z)) with 0 in C; lia|]. auto.
Qed.
Lemma compressed_near bs sc s t : bytes_ok V6 bs -> storable sc -> v6_to_string bs sc compressed = Ret t ->
  no_nul s -> v6_from_string true (chars s) = Ret (bs, sc) -> zlen t <= zlen s + 1.
Proof.
  intros B St E N P. destruct (bytes16 _ B) as (gs & L & F & ->). assert (zlen sc <= 16) as Hl by (destruct St as [->|[[H _] _]]; [cbn; lia|lia]).
  destruct (v6_to_string_ok gs sc compressed L F Hl) as (t' & Ht & E'). rewrite E in E'. injection E' as ->.
  destruct (parsed_text _ _ _ L F N P) as (u & -> & T). rewrite !zlen_app. pose proof (near _ _ _ L Ht T). lia.
Qed.
Lemma compressed_shortest gs sc t : length gs = 8%nat -> Forall is_group gs -> storable sc -> v6_to_string (group_bytes gs) sc compressed = Ret t ->
  ((exists s, no_nul s /\ v6_from_string true (chars s) = Ret (group_bytes gs, sc) /\ zlen s < zlen t) <-> wasteful gs).
Proof.
  intros L F St E. assert (zlen sc <= 16) as Hl by (destruct St as [->|[[H _] _]]; [cbn; lia|lia]).
  destruct (v6_to_string_ok gs sc compressed L F Hl) as (t' & Ht & E'). rewrite E in E'. injection E' as ->. split.
  - intros (s & N & P & Lt). destruct (parsed_text _ _ _ L F N P) as (u & -> & T). rewrite !zlen_app in Lt. apply (shorter_wasteful gs t' u L Ht T). lia.
  - intros W. destruct (wasteful_shorter _ _ L F Ht W) as (s & T & D & Lt). destruct (accepts_text s gs sc T D St) as [P N].
    exists (s ++ scope_suffix sc). split; [exact N|]. split; [exact P|]. rewrite !zlen_app. lia.
Qed.
Lemma size_range gs : zlen gs <= size gs <= 4 * zlen gs.
Proof.
  unfold size. induction gs as [|g gs IH]; [cbn; lia|]. rewrite zlen_cons. cbn [map total]. pose proof (hexmin_len g). assert (1 <= zlen (hexmin g) <= 4) by (unfold zlen; lia). lia.
Qed.
Lemma full_len gs : length gs = 8%nat -> zlen (join (map hex4 gs)) = 39.
Proof.
  intros L. rewrite join_total. unfold zlen. rewrite map_length, L.
  assert (total (map hex4 gs) = 4 * Z.of_nat (length gs)) as ->; [|rewrite L; reflexivity].
  clear L. induction gs as [|g gs IH]; [reflexivity|]. cbn [map total length]. rewrite IH. change (zlen (hex4 g)) with 4. lia.
Qed.
Lemma text_lengths bs sc : bytes_ok V6 bs -> storable sc ->
  exists f c z, v6_to_string bs sc full = Ret f /\ v6_to_string bs sc compact = Ret c /\ v6_to_string bs sc compressed = Ret z /\
    zlen f = 39 + zlen (scope_suffix sc) /\ 15 + zlen (scope_suffix sc) <= zlen c <= zlen f /\ 2 + zlen (scope_suffix sc) <= zlen z <= zlen c.
Proof.
  intros B St. destruct (bytes16 _ B) as (gs & L & F & ->). assert (zlen sc <= 16) as Hl by (destruct St as [->|[[H _] _]]; [cbn; lia|lia]).
  destruct (v6_to_string_ok gs sc full L F Hl) as (f & Hf & Ef). destruct (v6_to_string_ok gs sc compact L F Hl) as (c & Hc & Ec).
  destruct (v6_to_string_ok gs sc compressed L F Hl) as (z & Hz & Ez). cbn [fmt_text] in Hf, Hc. subst f c.
  exists (join (map hex4 gs) ++ scope_suffix sc), (join (map hexmin gs) ++ scope_suffix sc), (z ++ scope_suffix sc).
  split; [exact Ef|]. split; [exact Ec|]. split; [exact Ez|]. rewrite !zlen_app, full_len by exact L.
  pose proof (size_range gs) as R. assert (zlen gs = 8) as G8 by (unfold zlen; lia).
  assert (zlen (join (map hexmin gs)) = size gs + 7) as ->.
  { rewrite min_len. destruct gs; [discriminate L|]. cbn [edge]. lia. }
  pose proof (zlen_nonneg (scope_suffix sc)). split; [reflexivity|]. split; [lia|].
  apply (compressed_len _ _ L) in Hz as [[E _]|(a & n & b & E & Hn & _ & Ez')].
  - lia.
  - rewrite Ez'. pose proof (run_edges _ _ _ _ L E) as D. pose proof (edges a). pose proof (edges b). unfold elided.
    assert (size gs = size a + Z.of_nat n + size b) as S3 by (rewrite E at 1; rewrite !size_app, size_zeros; lia).
    pose proof (size_range a). pose proof (size_range b). assert (zlen a + Z.of_nat n + zlen b = 8) by (rewrite E, !app_length, repeat_length in L; unfold zlen; lia).
    pose proof (zlen_nonneg a). pose proof (zlen_nonneg b). lia.
Qed.

(** *** Deciding [wasteful], for examples *)
Fixpoint headb (n : nat) (l : list Z) : bool := match n, l with O, _ => true | S n', x :: l' => (x =? 0) && headb n' l' | _, [] => false end.
Lemma headb_iff : forall n l, headb n l = true <-> exists b, l = repeat 0 n ++ b.
Proof.
  induction n as [|n IH]; intros [|x l]; cbn [headb repeat app]; split; intros H; eauto; try discriminate.
  - destruct H as [b H]. discriminate.
  - apply andb_prop in H as [E H]. apply IH in H as [b ->]. exists b. f_equal. lia.
  - destruct H as [b H]. injection H as -> ->. rewrite Z.eqb_refl. apply IH. eauto.
Qed.
Lemma run_at gs n : (exists a b, gs = a ++ repeat 0 n ++ b) <-> exists i, (i <= length gs)%nat /\ headb n (skipn i gs) = true.
Proof.
  split.
  - intros (a & b & ->). exists (length a). split; [rewrite app_length; lia|]. apply headb_iff. exists b. rewrite skipn_app, skipn_all, Nat.sub_diag. reflexivity.
  - intros (i & _ & H). apply headb_iff in H as [b H]. exists (firstn i gs), b. rewrite <- H. symmetry. apply firstn_skipn.
Qed.
Definition hasb (gs : list Z) (n : nat) : bool := existsb (fun i => headb n (skipn i gs)) (seq 0 (S (length gs))).
Lemma hasb_iff gs n : hasb gs n = true <-> exists a b, gs = a ++ repeat 0 n ++ b.
Proof.
  unfold hasb. rewrite run_at, existsb_exists. split; intros (i & H & E); exists i; (split; [|exact E]).
  - apply in_seq in H. lia.
  - apply in_seq. lia.
Qed.
Definition wastefulb (gs : list Z) : bool :=
  existsb (fun n => hasb gs n && negb (hasb gs (S n)) && ((n =? 1)%nat || headb n gs) &&
    existsb (fun i => headb n (skipn i gs) && (i + n <? length gs)%nat) (seq 1 (length gs))) (seq 1 (length gs)).
Lemma wasteful_by gs : wasteful gs <-> wastefulb gs = true.
Proof.
  unfold wastefulb. rewrite existsb_exists. split.
  - intros (n & a & b & Hn & [Hr Mx] & E & Na & Nb & D). exists n.
    assert (L : length gs = (length a + n + length b)%nat) by (rewrite E, !app_length, repeat_length; lia).
    assert (1 <= length a /\ 1 <= length b)%nat as [La Lb] by (destruct a, b; cbn [length]; try congruence; lia).
    split; [apply in_seq; lia|]. repeat (apply andb_true_intro; split).
    + apply hasb_iff. exact Hr.
    + destruct (hasb gs (S n)) eqn:K; [|reflexivity]. apply hasb_iff in K as (a' & b' & K). apply Mx in K. lia.
    + destruct D as [->|D]; [reflexivity|]. apply orb_true_intro. right. apply headb_iff. exact D.
    + apply existsb_exists. exists (length a). split; [apply in_seq; lia|]. apply andb_true_intro. split; [|apply Nat.ltb_lt; lia].
      apply headb_iff. exists b. rewrite E, skipn_app, skipn_all, Nat.sub_diag. reflexivity.
  - intros (n & Hn & H). apply in_seq in Hn. apply andb_prop in H as [H H4]. apply andb_prop in H as [H H3]. apply andb_prop in H as [H1 H2].
    apply existsb_exists in H4 as (i & Hi & H4). apply in_seq in Hi. apply andb_prop in H4 as [H4 H5]. apply Nat.ltb_lt in H5. apply headb_iff in H4 as [b H4].
    exists n, (firstn i gs), b. split; [lia|]. split; [split; [apply hasb_iff; exact H1|]|].
    + intros a m b' E. destruct (Nat.le_gt_cases m n) as [|G]; [assumption|]. assert (hasb gs (S n) = true) as K; [|rewrite K in H2; discriminate].
      apply hasb_iff. exists a, (repeat 0 (m - S n) ++ b'). rewrite E. f_equal. rewrite app_assoc, <- repeat_app. do 2 f_equal. lia.
    + split; [rewrite <- H4; symmetry; apply firstn_skipn|]. assert (length (skipn i gs) = (n + length b)%nat) as L by (rewrite H4, app_length, repeat_length; lia).
      rewrite skipn_length in L. split; [|split].
      * intros C. apply (f_equal (@length Z)) in C. rewrite firstn_length in C. cbn [length] in C. lia.
      * intros ->. cbn [length] in L. lia.
      * apply orb_prop in H3 as [H3|H3]; [left; apply Nat.eqb_eq; exact H3|right; apply headb_iff; exact H3].
Qed.
