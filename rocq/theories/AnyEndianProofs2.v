(** Version-erased classes on a big-endian host: networks and iteration. *)
From Coq Require Import String.
From Verif Require Import Base Tac TextProofs UnicodeModel FixedStringModel V4Model V6Model Uint128Model SpecInt Uint128Proofs Uint128Div2
  SpecText SpecAddr SpecStr SpecV4 SpecV6 StrProofs V4Proofs BufProofs BitProofs FixedStringProofs V4Lemmas V6Proofs V6Parse V6Grammar V6Full V6Lemmas UnicodeLemmas
  AddressModel SpecOrder AddressProofs NetworkModel SpecNet NetProofs NetProofs2 NetProofs3 NetLemmas IterModel SpecAny NetWitness LooseProofs NetText NetText3 MaskProofs CodeProofs ErrProofs
  AnyModel AnyProofs HostModel SpecEndian EndianProofs EndianProofs2 EndianProofs3 EndianProofs4 EndianProofs5 EndianLemmas EndianProofs6 EndianProofs7 EndianProofs8 AnyHostModel SpecAnyEndian AnyEndianProofs.
Open Scope string_scope.
Open Scope Z_scope.
Open Scope list_scope.

(** *** Networks *)
Lemma quad_not_v6 q bs r st n : dotted_quad q bs -> net_parse_res V6 (chars (q ++ r)) st <> Ret n.
Proof.
  intros Q H. apply net_res_prefix in H as (t & r' & a & E & N & H). apply v6_tokens in H as (gs & S6 & _); [|exact N].
  eapply (heads_differ q t (chars r) r'); [eapply quad_head; eassumption|eapply scoped_head; eassumption|]. rewrite <- E, chars_app'. reflexivity.
Qed.
Lemma quad_no_colon q bs : dotted_quad q bs -> ~ In 58 q.
Proof.
  intros H K. destruct (quad_chars q bs H) as (F & _). rewrite Forall_forall in F. apply F in K. unfold is_dec_digit in K. lia.
Qed.
Lemma mirror_no_colon d d' : mask_mirror d d' -> ~ In 58 d.
Proof.
  intros [(_ & _ & F)|(m & Q & _)]; [|eapply quad_no_colon; eassumption]. intros K. rewrite Forall_forall in F. apply F in K. unfold is_dec_digit in K. lia.
Qed.
Lemma anet_big_quad q q' bs d d' strict x : dotted_quad q bs -> dotted_quad q' (rev bs) -> mask_mirror d d' ->
  (anet_parse_h false (chars (q ++ 47 :: d)) strict = Ret x <-> exists y, anet_parse (chars (q' ++ 47 :: d')) strict = Ret y /\ x = mirror_anet y).
Proof.
  intros Q Q' M. unfold anet_parse_h, anet_parse, net_parse_code_h, net_parse_raise_h, net_parse_code, net_parse. rewrite (big_net4 q q' bs d d' strict Q Q' M).
  rewrite no_colon_net6.
  2:{ intros K. apply in_map_iff in K as (c & [= ->] & K). apply in_app_iff in K as [K|[K|K]]; [|discriminate|].
      - exact (quad_no_colon q bs Q K).
      - exact (mirror_no_colon d d' M K). }
  pose proof (quad_not_v6 q bs (47 :: d) strict) as X. pose proof (quad_not_v6 q' (rev bs) (47 :: d') strict) as X'.
  pose proof (net_parse_real V4 _ strict (chars_real (q' ++ 47 :: d'))) as R4.
  pose proof (net_parse_real V6 _ strict (chars_real (q' ++ 47 :: d'))) as R6'. pose proof (net_parse_real V6 _ strict (chars_real (q ++ 47 :: d))) as R6.
  destruct (net_parse_res V4 (chars (q' ++ 47 :: d')) strict) as [n|e z|u]; cbn [rmap bind].
  - change (ec_eqb no_error no_error) with true. cbv iota. split; [intros H; apply ret_inj in H; subst x; eexists; split; reflexivity|].
    intros (y & H & ->). apply ret_inj in H. subst y. reflexivity.
  - rewrite ec_no_false by exact R4. destruct (net_parse_res V6 (chars (q ++ 47 :: d)) strict) as [b|e1 z1|u1]; [destruct (X b Q eq_refl)| |].
    all: destruct (net_parse_res V6 (chars (q' ++ 47 :: d')) strict) as [b'|e2 z2|u2]; [destruct (X' b' Q' eq_refl)| |].
    all: unfold raise_if; rewrite ?ec_no_false by assumption; cbn [bind]; split; [discriminate|intros (y & H & _); discriminate].
  - split; [discriminate|]. intros (y & H & _). discriminate.
Qed.
Lemma anet_big_from a p s : wf_addr (aa_ver a) (aa_addr a) -> 0 <= p <= width (aa_ver a) -> anet_from_address_h false a p s =
  match aa_ver a with V4 => rmap mirror_anet (anet_from_address (mirror_any a) p s) | V6 => anet_from_address a p s end.
Proof.
  destruct a as [v a]. cbn [aa_ver aa_addr]. intros W Hp. unfold anet_from_address_h, anet_from_address, mirror_any. cbn [aa_ver aa_addr].
  destruct v; cbn [ver_eqb ver_num Z.eqb Pos.eqb].
  - rewrite (big_from_address4 a p s W Hp). destruct (from_address V4 (mirror_addr V4 a) p s); reflexivity.
  - rewrite big_from_address6. reflexivity.
Qed.
Lemma anet_big_count x : bytes_net (an_ver x) (an_net x) -> anet_count_h false x = anet_count (mirror_anet x).
Proof.
  destruct x as [v n]. cbn [an_ver an_net]. intros B. unfold anet_count_h, anet_count, mirror_anet, anet_is_v4. cbn [an_ver an_net].
  destruct v; cbn [ver_eqb ver_num Z.eqb Pos.eqb]; rewrite (be_count _ n B); reflexivity.
Qed.
Lemma anet_big_supernet n d np : bytes_net V4 n -> 0 <= d -> 0 <= n_prefix n <= 32 -> (forall q, np = Some q -> 0 <= q) ->
  anet_supernet_h false (mk_an V4 n) d np = rmap mirror_anet (anet_supernet (mirror_anet (mk_an V4 n)) d np).
Proof.
  intros B Hd Hp Hq. unfold anet_supernet_h, anet_supernet, mirror_anet, anet_is_v4. cbn [an_ver an_net ver_eqb ver_num Z.eqb Pos.eqb].
  rewrite (be_supernet4 n d np B Hd Hp Hq). destruct (supernet V4 (mirror_net V4 n) d np); reflexivity.
Qed.

(** *** Version-erased iterators *)
Definition ops_rel {I E} (o o' : iops I E) (v : ver) (R : I -> I -> Prop) (m : E -> E) : Prop :=
  (forall x y, R x y -> o_get o v x = m (o_get o' v y)) /\ (forall x y k, R x y -> related R (o_add o v x k) (o_add o' v y k)) /\
  (forall x y k, R x y -> related R (o_sub o v x k) (o_sub o' v y k)) /\ (forall x y, R x y -> related R (o_reverse o v x) (o_reverse o' v y)) /\
  (forall x x' y y', R x x' -> R y y' -> o_eqb o v x y = o_eqb o' v x' y') /\ (forall x x' y y', R x x' -> R y y' -> o_udiff o v x y = o_udiff o' v x' y') /\
  (forall x y, R x y -> related R (o_base o v x) (o_base o' v y)) /\ (forall x y k, R x y -> o_at o v x k = rmap m (o_at o' v y k)) /\
  (forall x x' y y', R x x' -> R y y' -> o_diff o v x y = o_diff o' v x' y').
Definition arel {I E} (v : ver) (R : I -> I -> Prop) (m : E -> E) (x y : aiter I E) : Prop :=
  ai_ver x = v /\ ai_ver y = v /\ R (ai_it x) (ai_it y) /\ ai_cur x = m (ai_cur y).
Lemma arel_make {I E} (o o' : iops I E) v R m x y : ops_rel o o' v R m -> R x y -> arel v R m (aiter_make o v x) (aiter_make o' v y).
Proof. intros (G & _) H. split; [reflexivity|]. split; [reflexivity|]. split; [exact H|]. apply G, H. Qed.
Lemma arel_add {I E} (o o' : iops I E) v R m x y k : ops_rel o o' v R m -> arel v R m x y -> related (arel v R m) (aiter_add o x k) (aiter_add o' y k).
Proof.
  intros (G & A & _) (V1 & V2 & H & _). unfold aiter_add. rewrite V1, V2. destruct v; cbn [ver_eqb ver_num Z.eqb Pos.eqb];
  apply (related_bind _ _ _ _ _ _ (A _ _ _ H)); intros a b Hab; cbn [related]; (split; [reflexivity|]); (split; [reflexivity|]); (split; [exact Hab|]); apply G, Hab.
Qed.
Lemma arel_sub {I E} (o o' : iops I E) v R m x y k : ops_rel o o' v R m -> arel v R m x y -> related (arel v R m) (aiter_sub o x k) (aiter_sub o' y k).
Proof.
  intros (G & _ & A & _) (V1 & V2 & H & _). unfold aiter_sub. rewrite V1, V2. destruct v; cbn [ver_eqb ver_num Z.eqb Pos.eqb];
  apply (related_bind _ _ _ _ _ _ (A _ _ _ H)); intros a b Hab; cbn [related]; (split; [reflexivity|]); (split; [reflexivity|]); (split; [exact Hab|]); apply G, Hab.
Qed.
Lemma arel_reverse {I E} (o o' : iops I E) v R m x y : ops_rel o o' v R m -> arel v R m x y -> related (arel v R m) (aiter_reverse o x) (aiter_reverse o' y).
Proof.
  intros K (V1 & V2 & H & _). pose proof K as (_ & _ & _ & A & _). unfold aiter_reverse. rewrite V1, V2. destruct v; cbn [ver_eqb ver_num Z.eqb Pos.eqb];
  apply (related_bind _ _ _ _ _ _ (A _ _ H)); intros a b Hab; cbn [related]; apply arel_make; assumption.
Qed.
Lemma arel_eqb {I E} (o o' : iops I E) v R m x x' y y' : ops_rel o o' v R m -> arel v R m x x' -> arel v R m y y' -> aiter_eqb o x y = aiter_eqb o' x' y'.
Proof.
  intros (_ & _ & _ & _ & A & _) (V1 & V2 & H & _) (W1 & W2 & H' & _). unfold aiter_eqb. rewrite V1, V2, W1, W2. destruct v; cbn [ver_eqb ver_num Z.eqb Pos.eqb negb]; apply A; assumption.
Qed.
Lemma arel_udiff {I E} (o o' : iops I E) v R m x x' y y' : ops_rel o o' v R m -> arel v R m x x' -> arel v R m y y' -> aiter_udiff o x y = aiter_udiff o' x' y'.
Proof.
  intros (_ & _ & _ & _ & _ & A & _) (V1 & V2 & H & _) (W1 & W2 & H' & _). unfold aiter_udiff. rewrite V1, V2, W1, W2. destruct v; cbn [ver_eqb ver_num Z.eqb Pos.eqb negb]; rewrite (A _ _ _ _ H H'); reflexivity.
Qed.
Lemma arel_base {I E} (o o' : iops I E) v R m x y : ops_rel o o' v R m -> arel v R m x y -> related (arel v R m) (aiter_base o x) (aiter_base o' y).
Proof.
  intros K (V1 & V2 & H & _). pose proof K as (_ & _ & _ & _ & _ & _ & A & _). unfold aiter_base. rewrite V1, V2. destruct v; cbn [ver_eqb ver_num Z.eqb Pos.eqb];
  apply (related_bind _ _ _ _ _ _ (A _ _ H)); intros a b Hab; cbn [related]; apply arel_make; assumption.
Qed.
Lemma arel_at {I E} (o o' : iops I E) v R m x y k : ops_rel o o' v R m -> arel v R m x y -> aiter_at o x k = rmap m (aiter_at o' y k).
Proof.
  intros (_ & _ & _ & _ & _ & _ & _ & A & _) (V1 & V2 & H & _). unfold aiter_at. rewrite V1, V2. destruct v; cbn [ver_eqb ver_num Z.eqb Pos.eqb]; apply A, H.
Qed.
Lemma arel_diff {I E} (o o' : iops I E) v R m x x' y y' : ops_rel o o' v R m -> arel v R m x x' -> arel v R m y y' -> aiter_diff o x y = aiter_diff o' x' y'.
Proof.
  intros (_ & _ & _ & _ & _ & _ & _ & _ & A) (V1 & V2 & H & _) (W1 & W2 & H' & _). unfold aiter_diff. rewrite V1, V2, W1, W2. destruct v; cbn [ver_eqb ver_num Z.eqb Pos.eqb negb]; apply A; assumption.
Qed.
Lemma arel_seq {I E} (o o' : iops I E) v R m b b' e e' : ops_rel o o' v R m -> R b b' -> R e e' ->
  let s := aseq_make o v b e in let t := aseq_make o' v b' e' in
  aseq_size o s = aseq_size o' t /\ aseq_empty o s = aseq_empty o' t /\ aseq_front s = m (aseq_front t) /\ aseq_back o s = rmap m (aseq_back o' t) /\
  (forall k, aseq_at o s k = rmap m (aseq_at o' t k)) /\ (forall k, aseq_walk o k (q_begin s) (q_end s) = rmap (map m) (aseq_walk o' k (q_begin t) (q_end t))) /\
  (forall k, rloop o k s = rmap (map m) (rloop o' k t)) /\ (forall k, aiter_at o (q_begin s) k = rmap m (aiter_at o' (q_begin t) k)) /\
  aiter_diff o (q_end s) (q_begin s) = aiter_diff o' (q_end t) (q_begin t) /\
  rmap ai_cur (b <- aseq_rbegin o s ;; aiter_base o b) = rmap (fun z => m (ai_cur z)) (b <- aseq_rbegin o' t ;; aiter_base o' b).
Proof.
  intros K Hb He s t. pose proof (arel_make o o' v R m b b' K Hb) as Ab. pose proof (arel_make o o' v R m e e' K He) as Ae.
  change (aiter_make o v b) with (q_begin s) in Ab. change (aiter_make o' v b') with (q_begin t) in Ab. change (aiter_make o v e) with (q_end s) in Ae. change (aiter_make o' v e') with (q_end t) in Ae.
  clearbody s t. split; [exact (arel_udiff o o' v R m _ _ _ _ K Ae Ab)|]. split; [exact (arel_eqb o o' v R m _ _ _ _ K Ab Ae)|]. split; [apply Ab|]. split.
  { unfold aseq_back. pose proof (arel_sub o o' v R m _ _ (to_Z (u128_of_u64 1)) K Ae) as X. destruct (aiter_sub o (q_end s) _), (aiter_sub o' (q_end t) _); cbn [related] in X; try contradiction; cbn [bind rmap]; [f_equal; apply X|destruct X; congruence|congruence]. }
  split.
  { intros k. unfold aseq_at. pose proof (arel_add o o' v R m _ _ k K Ab) as X. destruct (aiter_add o (q_begin s) k), (aiter_add o' (q_begin t) k); cbn [related] in X; try contradiction; cbn [bind rmap]; [f_equal; apply X|destruct X; congruence|congruence]. }
  split.
  { intros k. apply (walk_related (arel v R m)); try assumption.
    - intros. eapply arel_eqb; eassumption.
    - intros. apply arel_add; assumption.
    - intros x y H. apply H. }
  split.
  { intros k. unfold rloop. pose proof (arel_reverse o o' v R m _ _ K Ae) as X. pose proof (arel_reverse o o' v R m _ _ K Ab) as Y. unfold aseq_rbegin, aseq_rend.
    destruct (aiter_reverse o (q_end s)) as [x|e1 x1|u1], (aiter_reverse o' (q_end t)) as [x'|e2 x2|u2]; cbn [related] in X; try contradiction; cbn [bind rmap]; [|destruct X; congruence|congruence].
    destruct (aiter_reverse o (q_begin s)) as [y|e1 y1|u1], (aiter_reverse o' (q_begin t)) as [y'|e2 y2|u2]; cbn [related] in Y; try contradiction; cbn [bind rmap]; [|destruct Y; congruence|congruence].
    apply (walk_related (arel v R m)); try assumption.
    - intros. eapply arel_eqb; eassumption.
    - intros. apply arel_sub; assumption.
    - intros a c H. apply H. }
  split; [intros k; eapply arel_at; eassumption|]. split; [eapply arel_diff; eassumption|].
  unfold aseq_rbegin. pose proof (related_bind _ _ _ _ _ _ (arel_reverse o o' v R m _ _ K Ae) (fun x y H => arel_base o o' v R m x y K H)) as X.
  apply related_map. destruct (b <- aiter_reverse o (q_end s) ;; aiter_base o b), (b <- aiter_reverse o' (q_end t) ;; aiter_base o' b); cbn [related] in *; try assumption. apply X.
Qed.

(** *** hosts *)
Lemma sub_range v x y : 0 <= usub v x y < 2 ^ width v.
Proof. rewrite usub_ok. apply Z.mod_pos_bound. destruct v; reflexivity. Qed.
Lemma be_sub_same v x y k : same v x y -> related (same v) (ait_sub_h false v x k) (ait_sub v y k).
Proof.
  intros ([Eo Ec] & Ek & W & S0). unfold ait_sub_h, ait_sub. destruct (k =? 0); cbn [negb]; [repeat (split; try assumption); apply W|]. cbv zeta. rewrite Eo, Ek.
  pose proof (sub_range v (it_offset y) k) as R. rewrite (be_from_of v _ R), (from_uint_of v _ R). cbn [bind related].
  split; [split; reflexivity|]. split; [reflexivity|]. split; [apply addr_of_wf, R|apply addr_of_scope, R].
Qed.
Lemma be_reverse_same v x y : same v x y -> related (same v) (ait_reverse_h false v x) (ait_reverse v y).
Proof.
  intros ([Eo Ec] & Ek & W & S0). unfold ait_reverse_h, ait_reverse. cbv zeta. rewrite Eo, Ek.
  pose proof (sub_range v (it_offset y) 1) as R. rewrite (be_from_of v _ R), (from_uint_of v _ R). cbn [bind related].
  split; [split; reflexivity|]. split; [reflexivity|]. split; [apply addr_of_wf, R|apply addr_of_scope, R].
Qed.
Lemma be_base_same v x y : same v x y -> related (same v) (ait_base_h false v x) (ait_base v y).
Proof.
  intros ([Eo Ec] & Ek & W & S0). unfold ait_base_h, ait_base. cbv zeta. rewrite Eo, Ek.
  pose proof (add_range v (it_offset y) 1) as R. rewrite (be_from_of v _ R), (from_uint_of v _ R). cbn [bind related].
  split; [split; reflexivity|]. split; [reflexivity|]. split; [apply addr_of_wf, R|apply addr_of_scope, R].
Qed.
Lemma host_rel v : ops_rel (host_ops_h false) host_ops v (same v) mirror_any.
Proof.
  split; [intros x y ([_ E] & _); cbn [host_ops_h host_ops o_get]; rewrite E; reflexivity|]. split; [intros; apply be_add_same; assumption|].
  split; [intros; apply be_sub_same; assumption|]. split; [intros; apply be_reverse_same; assumption|]. split; [intros; apply same_eqb; assumption|].
  split; [intros x x' y y' ([E _] & _) ([E' _] & _); cbn [host_ops_h host_ops o_udiff]; unfold ait_uint_diff; rewrite E, E'; reflexivity|].
  split; [intros; apply be_base_same; assumption|]. split.
  - intros x y k ([E _] & _). cbn [host_ops_h host_ops o_at]. unfold ait_at_h, ait_at. rewrite E. pose proof (add_range v (it_offset y) k) as R.
    rewrite (be_from_of v _ R), (from_uint_of v _ R). reflexivity.
  - intros x x' y y' ([E _] & Ck & _) ([E' _] & Ck' & _). cbn [host_ops_h host_ops o_diff]. unfold ait_diff. rewrite ?E, ?E', ?Ck, ?Ck'. reflexivity.
Qed.
Lemma any_big_hosts sp x : bytes_net (an_ver x) (an_net x) -> n_prefix (an_net x) <> width (an_ver x) ->
  exists s t, any_hosts_h false sp x = Ret s /\ any_hosts sp (mirror_anet x) = Ret t /\
    aseq_size (host_ops_h false) s = aseq_size host_ops t /\ aseq_empty (host_ops_h false) s = aseq_empty host_ops t /\
    aseq_front s = mirror_any (aseq_front t) /\ aseq_back (host_ops_h false) s = rmap mirror_any (aseq_back host_ops t) /\
    (forall k, aseq_at (host_ops_h false) s k = rmap mirror_any (aseq_at host_ops t k)) /\
    (forall k, aseq_walk (host_ops_h false) k (q_begin s) (q_end s) = rmap (map mirror_any) (aseq_walk host_ops k (q_begin t) (q_end t))) /\
    (forall k, rloop (host_ops_h false) k s = rmap (map mirror_any) (rloop host_ops k t)) /\
    (forall k, aiter_at (host_ops_h false) (q_begin s) k = rmap mirror_any (aiter_at host_ops (q_begin t) k)) /\
    aiter_diff (host_ops_h false) (q_end s) (q_begin s) = aiter_diff host_ops (q_end t) (q_begin t) /\
    rmap ai_cur (b <- aseq_rbegin (host_ops_h false) s ;; aiter_base (host_ops_h false) b) = rmap (fun z => mirror_any (ai_cur z)) (b <- aseq_rbegin host_ops t ;; aiter_base host_ops b).
Proof.
  destruct x as [v n]. cbn [an_ver an_net]. intros B Hp. pose proof (be_hosts_same sp v n B Hp) as K. destruct (be_hosts sp v n B) as (s & t & Es & Et & _).
  rewrite Es, Et in K. destruct K as [K1 K2]. exists (aseq_make (host_ops_h false) v (h_begin s) (h_end s)), (aseq_make host_ops v (h_begin t) (h_end t)).
  split; [unfold any_hosts_h, anet_is_v4; cbn [an_ver an_net]; destruct v; cbn [ver_eqb ver_num Z.eqb Pos.eqb]; rewrite Es; reflexivity|].
  split; [unfold any_hosts, mirror_anet, anet_is_v4; cbn [an_ver an_net]; destruct v; cbn [ver_eqb ver_num Z.eqb Pos.eqb]; rewrite Et; reflexivity|].
  exact (arel_seq _ _ v _ _ _ _ _ _ (host_rel v) K1 K2).
Qed.

(** *** IPv4 subnets *)
Lemma be_nit_sub x y k : nsame x y -> related nsame (nit_sub_h false V4 x k) (nit_sub V4 y k).
Proof.
  intros (Si & Sc & Bc & Es & Ep & Hp). unfold nit_sub_h, nit_sub. rewrite Es, Ep. apply (related_bind _ _ _ _ _ _ (be_sub_same V4 _ _ (umul V4 (ni_step y) k) Si)).
  intros i j Sij. pose proof Sij as ([_ Ec] & _ & Wj & _). rewrite Ec. apply (related_bind _ _ _ _ _ _ (related_from _ (ni_prefix y) true Wj Hp)).
  intros c d [Ecd Bd]. cbn. repeat (split; try assumption; try reflexivity); try apply Hp; try apply Sij; try apply Bd.
Qed.
Lemma be_nit_reverse x y : nsame x y -> related nsame (nit_reverse_h false V4 x) (nit_reverse V4 y).
Proof.
  intros (Si & Sc & Bc & Es & Ep & Hp). pose proof Si as ([Eo _] & Ek & _). unfold nit_reverse_h, nit_reverse. cbv zeta. rewrite Es, Ep, Eo, Ek.
  pose proof (sub_range V4 (it_offset (ni_it y)) (ni_step y)) as R. rewrite (be_from_of V4 _ R), (from_uint_of V4 _ R). cbn [bind].
  apply (related_bind _ _ _ _ _ _ (related_from _ (ni_prefix y) true (addr_of_wf V4 _ R) Hp)). intros c d [Ecd Bd]. cbn [related].
  split; [split; [split; reflexivity|]; split; [reflexivity|]; split; [apply addr_of_wf, R|apply addr_of_scope, R]|]. cbn [ni_current ni_step ni_prefix]. auto.
Qed.
Lemma be_nit_base x y : nsame x y -> related nsame (nit_base_h false V4 x) (nit_base V4 y).
Proof.
  intros (Si & Sc & Bc & Es & Ep & Hp). pose proof Si as ([Eo _] & Ek & _). unfold nit_base_h, nit_base. cbv zeta. rewrite Es, Ep, Eo, Ek.
  pose proof (add_range V4 (it_offset (ni_it y)) (ni_step y)) as R. rewrite (be_from_of V4 _ R), (from_uint_of V4 _ R). cbn [bind].
  apply (related_bind _ _ _ _ _ _ (related_from _ (ni_prefix y) true (addr_of_wf V4 _ R) Hp)). intros c d [Ecd Bd]. cbn [related].
  split; [split; [split; reflexivity|]; split; [reflexivity|]; split; [apply addr_of_wf, R|apply addr_of_scope, R]|]. cbn [ni_current ni_step ni_prefix]. auto.
Qed.
Lemma net_rel4 : ops_rel (net_ops_h false) net_ops V4 nsame mirror_anet.
Proof.
  split; [intros x y (_ & E & _); cbn [net_ops_h net_ops o_get]; rewrite E; reflexivity|]. split; [intros; apply be_nit_add; assumption|].
  split; [intros; apply be_nit_sub; assumption|]. split; [intros; apply be_nit_reverse; assumption|]. split; [intros; apply nsame_eqb; assumption|].
  split; [intros x x' y y' (([E _] & _) & _ & _ & Es & _) (([E' _] & _) & _); cbn [net_ops_h net_ops o_udiff]; unfold nit_uint_diff, ait_uint_diff; rewrite E, E', Es; reflexivity|].
  split; [intros; apply be_nit_base; assumption|]. split.
  - intros x y k (Si & Sc & Bc & Es & Ep & Hp). cbn [net_ops_h net_ops o_at]. unfold nit_at_h, nit_at. rewrite Es, Ep.
    pose proof (be_add_same V4 _ _ (umul V4 (ni_step y) k) Si) as X.
    destruct (ait_add_h false V4 (ni_it x) _) as [i|e z|w], (ait_add V4 (ni_it y) _) as [j|e' z'|w']; cbn [related] in X; try contradiction; cbn [bind rmap]; [|destruct X; congruence|congruence].
    pose proof X as ([_ Ec] & _ & Wj & _). rewrite Ec. pose proof (related_from _ (ni_prefix y) true Wj Hp) as Y.
    destruct (from_address_h false V4 _ _ true) as [c|e z|w], (from_address V4 _ _ true) as [d|e' z'|w']; cbn [related] in Y; try contradiction; cbn [bind rmap]; [|destruct Y; congruence|congruence].
    destruct Y as [-> _]. reflexivity.
  - intros x x' y y' (([E _] & Ck & _) & _) (([E' _] & Ck' & _) & _). cbn [net_ops_h net_ops o_diff]. unfold nit_diff, ait_diff. rewrite ?E, ?E', ?Ck, ?Ck'. reflexivity.
Qed.
Lemma any_big_subnets sp n d np : bytes_net V4 n -> 0 <= n_prefix n < 32 ->
  match any_subnets_h false sp (mk_an V4 n) d np, any_subnets sp (mirror_anet (mk_an V4 n)) d np with
  | Ret s, Ret t =>
    aseq_size (net_ops_h false) s = aseq_size net_ops t /\ aseq_empty (net_ops_h false) s = aseq_empty net_ops t /\
    aseq_front s = mirror_anet (aseq_front t) /\ aseq_back (net_ops_h false) s = rmap mirror_anet (aseq_back net_ops t) /\
    (forall k, aseq_at (net_ops_h false) s k = rmap mirror_anet (aseq_at net_ops t k)) /\
    (forall k, aseq_walk (net_ops_h false) k (q_begin s) (q_end s) = rmap (map mirror_anet) (aseq_walk net_ops k (q_begin t) (q_end t))) /\
    (forall k, rloop (net_ops_h false) k s = rmap (map mirror_anet) (rloop net_ops k t)) /\
    (forall k, aiter_at (net_ops_h false) (q_begin s) k = rmap mirror_anet (aiter_at net_ops (q_begin t) k)) /\
    aiter_diff (net_ops_h false) (q_end s) (q_begin s) = aiter_diff net_ops (q_end t) (q_begin t) /\
    rmap ai_cur (b <- aseq_rbegin (net_ops_h false) s ;; aiter_base (net_ops_h false) b) = rmap (fun z => mirror_anet (ai_cur z)) (b <- aseq_rbegin net_ops t ;; aiter_base net_ops b)
  | Err e x, Err e' x' => e = e' /\ x = x'
  | UB u, UB u' => u = u'
  | _, _ => False
  end.
Proof.
  intros B Hp. pose proof (be_subnets4 sp n d np B ltac:(lia)) as K. unfold any_subnets_h, any_subnets, mirror_anet, anet_is_v4. cbn [an_ver an_net ver_eqb ver_num Z.eqb Pos.eqb].
  destruct (subnets_h false sp V4 n d np) as [s|e x|u], (subnets sp V4 (mirror_net V4 n) d np) as [t|e' x'|u']; cbn [related] in K; try contradiction; cbn [bind]; try exact K.
  destruct K as (_ & K1 & K2). exact (arel_seq _ _ V4 _ _ _ _ _ _ net_rel4 K1 (K2 ltac:(lia))).
Qed.

(** *** Exclusions on a little-endian host *)
Lemma le_any_halves sp x : any_halves_h true sp x = any_halves sp x.
Proof.
  unfold any_halves_h, any_halves. destruct any_little as (_ & _ & _ & _ & _ & _ & _ & _ & _ & _ & S). destruct any_iterators_little as (_ & _ & _ & _ & _ & A & _).
  rewrite S. destruct (any_subnets sp x 1 None) as [s| |]; cbn [bind]; try reflexivity. unfold aseq_at. rewrite !A. reflexivity.
Qed.
Lemma le_axit_next sp x : axit_next_h true sp x = axit_next sp x.
Proof. unfold axit_next_h, axit_next. rewrite !le_any_halves. reflexivity. Qed.
Lemma any_exclude_little : (forall sp x y c, any_exclude_code_h true sp x y c = any_exclude_code sp x y c) /\ (forall sp x y, any_exclude_h true sp x y = any_exclude sp x y) /\
  forall sp k a b, aexclude_walk_h true sp k a b = aexclude_walk sp k a b.
Proof.
  assert (E : forall sp x y c, any_exclude_code_h true sp x y c = any_exclude_code sp x y c).
  { intros sp x y c. unfold any_exclude_code_h, any_exclude_code, axit_make_h, axit_make. destruct any_little as (_ & _ & _ & _ & _ & _ & _ & F & _).
    destruct (negb _); [reflexivity|]. destruct (any_clear_scope (anet_address x)) as [a1| |]; cbn [bind]; [|reflexivity|reflexivity].
    destruct (any_clear_scope (anet_address y)) as [a2| |]; cbn [bind]; [|reflexivity|reflexivity]. rewrite !F.
    destruct (anet_from_address a1 (anet_prefixlen x) true) as [l| |]; cbn [bind]; [|reflexivity|reflexivity].
    destruct (anet_from_address a2 (anet_prefixlen y) true) as [r| |]; cbn [bind]; [|reflexivity|reflexivity]. rewrite le_any_halves.
    destruct (any_halves sp l) as [[s1 s2]| |]; cbn [bind]; [|reflexivity|reflexivity]. rewrite le_axit_next. reflexivity. }
  split; [exact E|]. split; [intros; unfold any_exclude_h, any_exclude; rewrite E; reflexivity|]. intros. apply walk_ext. apply le_axit_next.
Qed.

(** *** A single address *)
Lemma any_walk4 k b e : aseq_walk (host_ops_h false) k (aiter_make (host_ops_h false) V4 b) (aiter_make (host_ops_h false) V4 e) =
  rmap (map (mk_aa V4)) (hosts_walk_h false V4 k b e).
Proof.
  apply (walk_related (fun x it => x = aiter_make (host_ops_h false) V4 it)); [| | |reflexivity|reflexivity].
  - intros x x' y y' -> ->. reflexivity.
  - intros x x' ->. unfold aiter_next, aiter_add, ait_next_h. cbn [aiter_make ai_ver ai_it ver_eqb ver_num Z.eqb Pos.eqb host_ops_h o_add o_get].
    replace (u32_of_u128 (to_Z (u128_of_i64 1))) with 1 by (vm_compute; reflexivity). destruct (ait_add_h false V4 x' 1); cbn [bind related]; auto.
  - intros x x' ->. reflexivity.
Qed.
Lemma any_single sp n a b c d : bytes_net V4 n -> n_prefix n = 32 -> a_bytes (n_addr n) = [a; b; c; d] -> exists s, any_hosts_h false sp (mk_an V4 n) = Ret s /\
  (a < 255 \/ [a; b; c; d] = [255; 255; 255; 255] -> aseq_walk (host_ops_h false) 1 (q_begin s) (q_end s) = Ret [mk_aa V4 (n_addr n)]) /\
  (a = 255 -> [a; b; c; d] <> [255; 255; 255; 255] -> forall k, Z.of_nat k <= 2 ^ 32 -> aseq_walk (host_ops_h false) k (q_begin s) (q_end s) = UB OutOfFuel).
Proof.
  intros B Hp Ea. destruct (big_single4 sp n a b c d B Hp Ea) as (s & Es & H1 & H2).
  exists (aseq_make (host_ops_h false) V4 (h_begin s) (h_end s)). unfold any_hosts_h, anet_is_v4. cbn [an_ver an_net ver_eqb ver_num Z.eqb Pos.eqb]. rewrite Es. split; [reflexivity|].
  unfold aseq_make. cbn [q_begin q_end]. split; intros K; [rewrite any_walk4, (H1 K); reflexivity|]. intros K' k Hk. rewrite any_walk4, (H2 K K' k Hk). reflexivity.
Qed.

(** *** Differences *)
Ltac wfn' := apply net_at_wf; reflexivity.
Lemma any_text_refuted : exists s a b, any_parse (chars s) = Ret a /\ any_parse_h false (chars s) = Ret b /\ a <> b.
Proof. exists (str "::ffff:1.2.3.4"). eexists _, _. split; [vm_compute; reflexivity|]. split; [vm_compute; reflexivity|]. discriminate. Qed.
Lemma any_integer_refuted : exists x, wf_addr (aa_ver x) (aa_addr x) /\ any_to_uint32_h false x <> any_to_uint32 x /\ any_to_uint128_h false x <> any_to_uint128 x.
Proof. exists (mk_aa V4 (addr_at V4 "127.0.0.1")). split; [apply addr_at_wf; reflexivity|]. split; vm_compute; discriminate. Qed.
Lemma anet_text_refuted : exists s x e v, anet_parse (chars s) true = Ret x /\ anet_parse_h false (chars s) true = Err e v.
Proof. exists (str "10.0.0.0/8"). eexists _, _, _. split; vm_compute; reflexivity. Qed.
Lemma anet_text_new_refuted : exists s x e v, anet_parse (chars s) true = Err e v /\ anet_parse_h false (chars s) true = Ret x.
Proof. exists (str "0.0.0.10/8"). eexists _, _, _. split; vm_compute; reflexivity. Qed.
Lemma any_hosts6_refuted : exists n s, wf_net V6 n /\ any_hosts_h false true (mk_an V6 n) = Ret s /\ anet_contains (mk_an V6 n) (aseq_front s) = false.
Proof. exists (net_at V6 "2001:db8::/112"). eexists. split; [wfn'|]. split; [vm_compute; reflexivity|]. vm_compute. reflexivity. Qed.
Lemma any_subnets6_refuted : exists n s, wf_net V6 n /\ any_subnets true (mk_an V6 n) 1 None = Ret s /\ aseq_size net_ops s = Ret 2 /\
  any_subnets_h false true (mk_an V6 n) 1 None = Err has_host_bits_set 0.
Proof. exists (net_at V6 "2001:db8::/32"). eexists. split; [wfn'|]. split; [vm_compute; reflexivity|]. split; vm_compute; reflexivity. Qed.
Lemma any_supernet6_refuted : exists n m, wf_net V6 n /\ anet_supernet (mk_an V6 n) 16 None = Ret m /\ anet_supernet_h false (mk_an V6 n) 16 None = Err has_host_bits_set 0.
Proof. exists (net_at V6 "2001:db8::/32"). eexists. split; [wfn'|]. split; vm_compute; reflexivity. Qed.
Lemma any_exclude_refuted : exists m o s l, wf_net V4 m /\ wf_net V4 o /\ any_exclude true (mk_an V4 m) (mk_an V4 o) = Ret s /\
  aexclude_walk true 16 (ae_begin s) (ae_end s) = Ret l /\
  exists t, any_exclude_h false true (mirror_anet (mk_an V4 m)) (mirror_anet (mk_an V4 o)) = Ret t /\ aexclude_walk_h false true 16 (ae_begin t) (ae_end t) = UB AssertFailed.
Proof.
  exists (net_at V4 "10.0.0.0/8"), (net_at V4 "10.1.1.0/24"). eexists _, _. split; [wfn'|]. split; [wfn'|]. split; [vm_compute; reflexivity|]. split; [vm_compute; reflexivity|].
  eexists. split; [vm_compute; reflexivity|]. vm_compute. reflexivity.
Qed.

(** *** The number of addresses *)
Lemma anet_big_count6 n : wf_net V6 n -> (anet_count_h false (mk_an V6 n) = Ret (size V6 n mod 2 ^ 128) <-> n_prefix n = 0 \/ n_prefix n = 64 \/ n_prefix n = 128).
Proof. exact (big_count6 n). Qed.
Lemma anet_big_count4 a p s x : aa_ver a = V4 -> wf_addr V4 (aa_addr a) -> 1 <= p <= 32 -> anet_from_address_h false a p s = Ret x -> anet_count_h false x = Ret (2 ^ (32 - p)).
Proof.
  destruct a as [v a]. cbn [aa_ver aa_addr]. intros -> W Hp. unfold anet_from_address_h. cbn [aa_ver aa_addr ver_eqb ver_num Z.eqb Pos.eqb].
  destruct (from_address_h false V4 a p s) as [n| |] eqn:E; try discriminate. cbn [bind]. intros H. apply ret_inj in H. subst x.
  unfold anet_count_h, anet_is_v4. cbn [an_ver an_net ver_eqb ver_num Z.eqb Pos.eqb]. rewrite (big_count4 a p s n W Hp E). cbn [bind]. rewrite wide32. reflexivity.
Qed.
Lemma any_order_refuted : exists n s a b, wf_net V4 n /\ any_hosts_h false true (mirror_anet (mk_an V4 n)) = Ret s /\
  aiter_add (host_ops_h false) (q_begin s) 1 = Ret a /\ aiter_add (host_ops_h false) (q_begin s) 256 = Ret b /\ aiter_diff (host_ops_h false) b a = 255 /\ aiter_ltb (host_ops_h false) b a = Ret true.
Proof.
  exists (net_at V4 "10.0.0.0/16"). eexists _, _, _. split; [wfn'|]. split; [vm_compute; reflexivity|]. split; [vm_compute; reflexivity|]. split; [vm_compute; reflexivity|].
  split; vm_compute; reflexivity.
Qed.
