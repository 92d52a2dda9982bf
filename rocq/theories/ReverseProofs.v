(** Proofs about reverse iterators. *)
From Coq Require Import String.
From Verif Require Import Base Tac V4Model V6Model SpecInt SpecAddr AddressModel SpecOrder NetworkModel IterModel SpecNet SpecIter
  Uint128Model NetProofs NetProofs2 NetProofs3 NetLemmas NetWitness IterProofs IterProofs2 IterProofs3 IterProofs4 IterLemmas AnyModel SpecAny AnyProofs AnyIter ReverseModel SpecReverse.

(** *** Moves, for any iterator on a line *)
Section Moves.
Context {I E : Type} (o : bops I E) (wf : I -> Prop) (mv : I -> Z -> I -> Prop) (k : I -> Z) (D : I -> Z -> Z) (okd oku : Z -> Prop).
Hypothesis mwf : forall it d x, mv it d x -> wf x.
Hypothesis mext : forall it d a b, mv it d a -> mv it d b -> a = b.
Hypothesis mtrans : forall it d a e b, mv it d a -> mv a e b -> mv it (d + e) b.
Hypothesis m0 : forall it, wf it -> mv it 0 it.
Hypothesis mk : forall it d x, mv it d x -> k x = k it.
Hypothesis mD : forall it d x n, mv it d x -> D x n = D it n.
Hypothesis hrev : forall it, wf it -> exists x, b_reverse o it = Ret x /\ mv it (- k it) x.
Hypothesis hbase : forall it, wf it -> exists x, b_base o it = Ret x /\ mv it (k it) x.
Lemma gen_base_held h : wf h -> exists it, b_base o h = Ret it /\ wf it /\ b_reverse o it = Ret h.
Proof.
  intros W. destruct (hbase h W) as (it & E1 & M1). pose proof (mwf _ _ _ M1) as Wi. exists it. split; [exact E1|]. split; [exact Wi|].
  destruct (hrev it Wi) as (y & E2 & M2). rewrite E2. f_equal. pose proof (mtrans _ _ _ _ _ M1 M2) as M. rewrite (mk _ _ _ M1) in M.
  replace (k h + - k h) with 0 in M by lia. exact (mext _ _ _ _ M (m0 h W)).
Qed.
Lemma gen_rev_base it : wf it -> exists h, b_reverse o it = Ret h /\ wf h /\ b_base o h = Ret it.
Proof.
  intros W. destruct (hrev it W) as (h & E1 & M1). pose proof (mwf _ _ _ M1) as Wi. exists h. split; [exact E1|]. split; [exact Wi|].
  destruct (hbase h Wi) as (y & E2 & M2). rewrite E2. f_equal. pose proof (mtrans _ _ _ _ _ M1 M2) as M. rewrite (mk _ _ _ M1) in M.
  replace (- k it + k it) with 0 in M by lia. exact (mext _ _ _ _ M (m0 it W)).
Qed.
Lemma gen_make it : wf it -> exists r, mirrors o wf r it.
Proof.
  intros W. destruct (gen_rev_base it W) as (h & E1 & W1 & E2). exists (mk_rit h). split; [exact W|]. unfold rit_make, rit_base. rewrite E1. cbn [bind r_it]. auto.
Qed.
Lemma gen_onto r : wf (r_it r) -> exists it, mirrors o wf r it.
Proof.
  destruct r as [h]. cbn [r_it]. intros W. destruct (gen_base_held h W) as (it & E1 & W1 & E2). exists it. split; [exact W1|]. unfold rit_make, rit_base. rewrite E2. cbn [bind r_it]. auto.
Qed.
Lemma mirrors_held r it : mirrors o wf r it -> b_reverse o it = Ret (r_it r) /\ mv it (- k it) (r_it r) /\ wf (r_it r) /\ mv (r_it r) (k it) it.
Proof.
  intros (W & Hm & Hb). unfold rit_make, rit_base in *. destruct (hrev it W) as (x & E1 & M1). rewrite E1 in Hm. cbn [bind] in Hm. apply ret_inj in Hm. subst r. cbn [r_it] in *.
  pose proof (mwf _ _ _ M1) as Wx. split; [exact E1|]. split; [exact M1|]. split; [exact Wx|]. destruct (hbase x Wx) as (y & E2 & M2). rewrite E2 in Hb. apply ret_inj in Hb. subst y.
  rewrite (mk _ _ _ M1) in M2. exact M2.
Qed.
Lemma mirrors_of r it : wf (r_it r) -> wf it -> mv (r_it r) (k it) it -> mirrors o wf r it.
Proof.
  intros Wh W M. destruct (gen_onto r Wh) as (it' & K). replace it with it'; [exact K|]. destruct (mirrors_held r it' K) as (_ & _ & _ & M'). rewrite (mk _ _ _ M) in M. rewrite (mk _ _ _ M') in M'.
  exact (mext _ _ _ _ M' M).
Qed.
(** Two operations moving by the same distance. *)
Lemma gen_move (f : I -> res I) (d : I -> Z) : (forall it, wf it -> exists x, f it = Ret x /\ mv it (d it) x) -> (forall it e x, mv it e x -> d x = d it) ->
  mirrored_move o wf (fun r => x <- f (r_it r) ;; Ret (mk_rit x)) f.
Proof.
  intros Hf Hd r it K. destruct (mirrors_held r it K) as (_ & M1 & Wh & M2). destruct K as (W & _).
  destruct (Hf _ Wh) as (h' & Eh & Mh). destruct (Hf _ W) as (it' & Ei & Mi). rewrite Eh, Ei. cbn [bind]. exists (mk_rit h'), it'. split; [reflexivity|]. split; [reflexivity|].
  apply mirrors_of; cbn [r_it]; [exact (mwf _ _ _ Mh)|exact (mwf _ _ _ Mi)|].
  destruct (hbase h' (mwf _ _ _ Mh)) as (y & _ & My). replace it' with y; [rewrite (mk _ _ _ My); exact My|].
  pose proof (mtrans _ _ _ _ _ Mh My) as A. pose proof (mtrans _ _ _ _ _ M2 Mi) as B. rewrite (mk _ _ _ Mh), (mk _ _ _ M1) in A.
  rewrite (Hd _ _ _ M1) in A. replace (k it + d it) with (d it + k it) in B by lia. exact (mext _ _ _ _ A B).
Qed.
Hypothesis hnext : forall it, wf it -> exists x, b_next o it = Ret x /\ mv it (k it) x.
Hypothesis hprev : forall it, wf it -> exists x, b_prev o it = Ret x /\ mv it (- k it) x.
Hypothesis hplus : forall n it, okd n -> wf it -> exists x, b_plus o it n = Ret x /\ mv it (D it n) x.
Hypothesis hminus : forall n it, okd n -> wf it -> exists x, b_minus o it n = Ret x /\ mv it (- D it n) x.
Hypothesis hadd : forall n it, oku n -> wf it -> exists x, b_add o it n = Ret x /\ mv it (D it n) x.
Hypothesis hsub : forall n it, oku n -> wf it -> exists x, b_sub o it n = Ret x /\ mv it (- D it n) x.
Lemma gen_steps : mirrored_move o wf (rit_next o) (b_prev o) /\ mirrored_move o wf (rit_prev o) (b_next o).
Proof.
  split.
  - apply (gen_move (b_prev o) (fun it => - k it) hprev). intros. f_equal. eapply mk; eassumption.
  - apply (gen_move (b_next o) k hnext). exact mk.
Qed.
Lemma gen_jumps n : okd n -> mirrored_move o wf (fun r => rit_plus o r n) (fun it => b_minus o it n) /\ mirrored_move o wf (fun r => rit_minus o r n) (fun it => b_plus o it n) /\
  mirrored_move o wf (fun r => plus_rit o n r) (fun it => b_minus o it n).
Proof.
  intros Hn. split; [|split].
  - apply (gen_move (fun it => b_minus o it n) (fun it => - D it n)); [intros; apply hminus; assumption|]. intros. f_equal. eapply mD; eassumption.
  - apply (gen_move (fun it => b_plus o it n) (fun it => D it n)); [intros; apply hplus; assumption|]. intros. eapply mD; eassumption.
  - apply (gen_move (fun it => b_minus o it n) (fun it => - D it n)); [intros; apply hminus; assumption|]. intros. f_equal. eapply mD; eassumption.
Qed.
Lemma gen_ujumps n : oku n -> mirrored_move o wf (fun r => rit_add o r n) (fun it => b_sub o it n) /\ mirrored_move o wf (fun r => rit_sub o r n) (fun it => b_add o it n) /\
  mirrored_move o wf (fun r => add_rit o n r) (fun it => b_sub o it n).
Proof.
  intros Hn. split; [|split].
  - apply (gen_move (fun it => b_sub o it n) (fun it => - D it n)); [intros; apply hsub; assumption|]. intros. f_equal. eapply mD; eassumption.
  - apply (gen_move (fun it => b_add o it n) (fun it => D it n)); [intros; apply hadd; assumption|]. intros. eapply mD; eassumption.
  - apply (gen_move (fun it => b_sub o it n) (fun it => - D it n)); [intros; apply hsub; assumption|]. intros. f_equal. eapply mD; eassumption.
Qed.
(** What is read. *)
Lemma gen_deref r it : mirrors o wf r it -> exists p, b_prev o it = Ret p /\ rit_get o r = b_get o p.
Proof.
  intros K. destruct (mirrors_held r it K) as (_ & M1 & _). destruct K as (W & _). destruct (hprev it W) as (p & Ep & Mp). exists p. split; [exact Ep|]. unfold rit_get. f_equal. exact (mext _ _ _ _ M1 Mp).
Qed.
Lemma gen_index r it n : okd n -> mirrors o wf r it -> exists a, rit_index o r n = Ret a /\
  (exists r', rit_plus o r n = Ret r' /\ rit_get o r' = a) /\ (exists x p, b_minus o it n = Ret x /\ b_prev o x = Ret p /\ b_get o p = a).
Proof.
  intros Hn K. destruct (proj1 (gen_jumps n Hn) r it K) as (r' & it' & E1 & E2 & K'). destruct (gen_deref r' it' K') as (p & Ep & Eg).
  unfold rit_plus, rit_plus_eq in E1. unfold rit_index. destruct (b_minus o (r_it r) n) as [x| |] eqn:Ex; cbn [bind] in *; try discriminate E1. apply ret_inj in E1. subst r'.
  exists (b_get o x). split; [reflexivity|]. split; [exists (mk_rit x); unfold rit_plus, rit_plus_eq; rewrite Ex; split; reflexivity|]. exists it', p. unfold rit_get in Eg. cbn [r_it] in Eg. auto.
Qed.
Lemma gen_at r it n : oku n -> mirrors o wf r it -> exists a, rit_at o r n = Ret a /\
  (exists r', rit_add o r n = Ret r' /\ rit_get o r' = a) /\ (exists x p, b_sub o it n = Ret x /\ b_prev o x = Ret p /\ b_get o p = a).
Proof.
  intros Hn K. destruct (proj1 (gen_ujumps n Hn) r it K) as (r' & it' & E1 & E2 & K'). destruct (gen_deref r' it' K') as (p & Ep & Eg).
  unfold rit_add, rit_add_eq in E1. unfold rit_at. destruct (b_sub o (r_it r) n) as [x| |] eqn:Ex; cbn [bind] in *; try discriminate E1. apply ret_inj in E1. subst r'.
  exists (b_get o x). split; [reflexivity|]. split; [exists (mk_rit x); unfold rit_add, rit_add_eq; rewrite Ex; split; reflexivity|]. exists it', p. unfold rit_get in Eg. cbn [r_it] in Eg. auto.
Qed.
Lemma gen_post r it : mirrors o wf r it -> (exists r' it', rit_postinc o r = Ret (r, r') /\ b_prev o it = Ret it' /\ mirrors o wf r' it') /\
  (exists r' it', rit_postdec o r = Ret (r, r') /\ b_next o it = Ret it' /\ mirrors o wf r' it').
Proof.
  intros K. destruct gen_steps as [A B]. destruct (A r it K) as (r1 & i1 & E1 & F1 & K1). destruct (B r it K) as (r2 & i2 & E2 & F2 & K2).
  unfold rit_postinc, rit_postdec. cbv zeta. rewrite E1, E2. cbn [bind]. eauto 10.
Qed.
Lemma gen_back (f g : I -> res I) (d : I -> Z) : (forall it, wf it -> exists x, f it = Ret x /\ mv it (d it) x) -> (forall it, wf it -> exists x, g it = Ret x /\ mv it (- d it) x) ->
  (forall it e x, mv it e x -> d x = d it) -> forall it, wf it -> exists x, f it = Ret x /\ wf x /\ g x = Ret it.
Proof.
  intros Hf Hg Hd it W. destruct (Hf it W) as (x & E1 & M1). pose proof (mwf _ _ _ M1) as Wx. exists x. split; [exact E1|]. split; [exact Wx|].
  destruct (Hg x Wx) as (y & E2 & M2). rewrite E2. f_equal. pose proof (mtrans _ _ _ _ _ M1 M2) as M. rewrite (Hd _ _ _ M1) in M.
  replace (d it + - d it) with 0 in M by lia. exact (mext _ _ _ _ M (m0 it W)).
Qed.
Lemma gen_forward : forward_laws o wf okd oku.
Proof.
  intros it W. split; [|split; [|split]].
  - destruct (gen_back (b_next o) (b_prev o) k hnext hprev mk it W) as (x & E1 & Wx & E2). exists x. unfold post_inc, post_dec. cbv zeta. rewrite E1, E2. auto.
  - destruct (gen_back (b_prev o) (b_next o) (fun it => - k it) hprev) with (it := it) as (x & E1 & Wx & E2); [| |exact W|].
    + intros x Wx. destruct (hnext x Wx) as (y & Ey & M). exists y. split; [exact Ey|]. rewrite Z.opp_involutive. exact M.
    + intros x e y M. f_equal. exact (mk _ _ _ M).
    + exists x. unfold post_inc, post_dec. cbv zeta. rewrite E1, E2. auto.
  - intros n Hn. destruct (gen_back (fun it => b_plus o it n) (fun it => b_minus o it n) (fun it => D it n)) with (it := it) as (x & E1 & Wx & E2);
      [intros; apply hplus; assumption|intros; apply hminus; assumption|intros; eapply mD; eassumption|exact W|]. exists x. auto.
  - intros n Hn. destruct (gen_back (fun it => b_add o it n) (fun it => b_sub o it n) (fun it => D it n)) with (it := it) as (x & E1 & Wx & E2);
      [intros; apply hadd; assumption|intros; apply hsub; assumption|intros; eapply mD; eassumption|exact W|]. exists x. auto.
Qed.
Lemma gen_laws : reverse_laws o wf okd oku /\ forward_laws o wf okd oku.
Proof.
  split; [|exact gen_forward]. split; [split; [exact gen_make|exact gen_onto]|]. split.
  - split; [apply gen_steps|]. split; [apply gen_steps|]. split; [exact gen_jumps|]. split; [exact gen_ujumps|exact gen_post].
  - intros r it K. split; [apply gen_deref; exact K|]. split; [intros n Hn; apply gen_index; assumption|intros n Hn; apply gen_at; assumption].
Qed.
End Moves.

(** *** ip_address_iterator *)
Definition hk (it : ait) : Z := 1.
Definition hD v (it : ait) (n : Z) : Z := n mod 2 ^ width v.

Section Host.
Variable v : ver.
Let o := host_bops v.
Lemma h_wf it d x : moved v it d x -> wf_ait v x. Proof. intros [W _]. exact W. Qed.
Lemma h_rev it : wf_ait v it -> exists x, b_reverse o it = Ret x /\ moved v it (- hk it) x. Proof. intros W. apply ait_reverse_ok. exact W. Qed.
Lemma h_base it : wf_ait v it -> exists x, b_base o it = Ret x /\ moved v it (hk it) x. Proof. intros W. apply ait_base_ok. exact W. Qed.
Lemma h_next it : wf_ait v it -> exists x, b_next o it = Ret x /\ moved v it (hk it) x. Proof. intros W. apply ait_next_ok. exact W. Qed.
Lemma h_prev it : wf_ait v it -> exists x, b_prev o it = Ret x /\ moved v it (- hk it) x. Proof. intros W. apply ait_prev_ok. exact W. Qed.
Lemma h_plus n it : is_i64 n -> wf_ait v it -> exists x, b_plus o it n = Ret x /\ moved v it (hD v it n) x. Proof. intros H W. apply plus_ok; assumption. Qed.
Lemma h_minus n it : is_i64 n -> wf_ait v it -> exists x, b_minus o it n = Ret x /\ moved v it (- hD v it n) x. Proof. intros H W. apply minus_ok; assumption. Qed.
Lemma h_add n it : is_u v n -> wf_ait v it -> exists x, b_add o it n = Ret x /\ moved v it (hD v it n) x.
Proof. intros H W. unfold hD. rewrite Z.mod_small by exact H. apply ait_add_ok; assumption. Qed.
Lemma h_sub n it : is_u v n -> wf_ait v it -> exists x, b_sub o it n = Ret x /\ moved v it (- hD v it n) x.
Proof. intros H W. unfold hD. rewrite Z.mod_small by exact H. apply ait_sub_ok; assumption. Qed.
End Host.

(** *** ip_network_iterator *)
Definition nD v (it : nit) (n : Z) : Z := (ni_step it * n) mod 2 ^ width v.
Section Net.
Variable v : ver.
Let o := net_bops v.
Lemma n_wf it d x : nmoved v it d x -> wf_nit v x. Proof. intros [W _]. exact W. Qed.
Lemma n_k it d x : nmoved v it d x -> ni_step x = ni_step it. Proof. intros (_ & _ & H & _). exact H. Qed.
Lemma n_D it d x n : nmoved v it d x -> nD v x n = nD v it n. Proof. intros M. unfold nD. rewrite (n_k _ _ _ M). reflexivity. Qed.
Lemma n_Du n it : is_i64 n -> (ni_step it * u_of_i64 v n) mod 2 ^ width v = nD v it n.
Proof. intros H. unfold nD. rewrite u_of_i64_ok by exact H. apply Zmult_mod_idemp_r. Qed.
Lemma n_plus n it : is_i64 n -> wf_nit v it -> exists x, b_plus o it n = Ret x /\ nmoved v it (nD v it n) x.
Proof. intros H W. rewrite <- n_Du by exact H. apply nit_add_ok; assumption. Qed.
Lemma n_minus n it : is_i64 n -> wf_nit v it -> exists x, b_minus o it n = Ret x /\ nmoved v it (- nD v it n) x.
Proof. intros H W. rewrite <- n_Du by exact H. apply nit_sub_ok; assumption. Qed.
Lemma n_add n it : is_u v n -> wf_nit v it -> exists x, b_add o it n = Ret x /\ nmoved v it (nD v it n) x.
Proof. intros H W. apply nit_add_ok; assumption. Qed.
Lemma n_sub n it : is_u v n -> wf_nit v it -> exists x, b_sub o it n = Ret x /\ nmoved v it (- nD v it n) x.
Proof. intros H W. apply nit_sub_ok; assumption. Qed.
End Net.

(** *** ip_any_iterator over one of these *)
Section Any.
Context {I E : Type} (o : iops I E) (wf : ver -> I -> Prop) (mv : ver -> I -> Z -> I -> Prop) (k : I -> Z) (D : ver -> I -> Z -> Z).
Definition amv (a : aiter I E) (d : Z) (b : aiter I E) : Prop := exists v x y, a = aiter_make o v x /\ b = aiter_make o v y /\ mv v x d y.
Definition ak (a : aiter I E) : Z := k (ai_it a).
Definition aD (a : aiter I E) (n : Z) : Z := D (ai_ver a) (ai_it a) n.
Hypothesis mwf : forall v it d x, mv v it d x -> wf v x.
Hypothesis mext : forall v it d a b, mv v it d a -> mv v it d b -> a = b.
Hypothesis mtrans : forall v it d a e b, mv v it d a -> mv v a e b -> mv v it (d + e) b.
Hypothesis m0 : forall v it, wf v it -> mv v it 0 it.
Hypothesis mk : forall v it d x, mv v it d x -> k x = k it.
Hypothesis mD : forall v it d x n, mv v it d x -> D v x n = D v it n.
Lemma make_inj v x w y : aiter_make o v x = aiter_make o w y -> v = w /\ x = y.
Proof. intros H. split; [exact (f_equal ai_ver H)|exact (f_equal ai_it H)]. Qed.
Lemma a_wf it d x : amv it d x -> wf_aiter o wf x.
Proof. intros (v & a & b & -> & -> & M). exists v, b. split; [exact (mwf _ _ _ _ M)|reflexivity]. Qed.
Lemma a_ext it d a b : amv it d a -> amv it d b -> a = b.
Proof. intros (v & x & y & -> & -> & M) (w & x' & y' & E1 & -> & M'). apply make_inj in E1. destruct E1 as [<- <-]. f_equal. exact (mext _ _ _ _ _ M M'). Qed.
Lemma a_trans it d a e b : amv it d a -> amv a e b -> amv it (d + e) b.
Proof. intros (v & x & y & -> & -> & M) (w & x' & y' & E1 & -> & M'). apply make_inj in E1. destruct E1 as [<- <-]. exists v, x, y'. split; [reflexivity|]. split; [reflexivity|]. exact (mtrans _ _ _ _ _ _ M M'). Qed.
Lemma a_0 it : wf_aiter o wf it -> amv it 0 it. Proof. intros (v & x & W & ->). exists v, x, x. auto. Qed.
Lemma a_k it d x : amv it d x -> ak x = ak it. Proof. intros (v & a & b & -> & -> & M). exact (mk _ _ _ _ M). Qed.
Lemma a_D it d x n : amv it d x -> aD x n = aD it n. Proof. intros (v & a & b & -> & -> & M). exact (mD _ _ _ _ n M). Qed.
Lemma a_lift (f : aiter I E -> res (aiter I E)) (g : ver -> I -> res I) (d : aiter I E -> Z) (e : ver -> I -> Z) :
  (forall v x, f (aiter_make o v x) = rmap (aiter_make o v) (g v x)) -> (forall v x, d (aiter_make o v x) = e v x) ->
  (forall v x, wf v x -> exists y, g v x = Ret y /\ mv v x (e v x) y) -> forall a, wf_aiter o wf a -> exists b, f a = Ret b /\ amv a (d a) b.
Proof.
  intros Hf Hd Hg a (v & x & W & ->). rewrite Hf, Hd. destruct (Hg v x W) as (y & -> & M). exists (aiter_make o v y). split; [reflexivity|]. exists v, x, y. auto.
Qed.
End Any.

Lemma host_laws_both v : reverse_laws (host_bops v) (wf_ait v) is_i64 (is_u v) /\ forward_laws (host_bops v) (wf_ait v) is_i64 (is_u v).
Proof.
  apply (gen_laws (host_bops v) (wf_ait v) (moved v) hk (hD v)).
  - apply h_wf. - apply moved_ext. - apply moved_trans. - apply moved_0. - reflexivity. - reflexivity.
  - apply h_rev. - apply h_base. - apply h_next. - apply h_prev. - apply h_plus. - apply h_minus. - apply h_add. - apply h_sub.
Qed.
Lemma host_laws v : reverse_laws (host_bops v) (wf_ait v) is_i64 (is_u v). Proof. apply host_laws_both. Qed.
Lemma host_fwd v : forward_laws (host_bops v) (wf_ait v) is_i64 (is_u v). Proof. apply host_laws_both. Qed.
Lemma subnet_laws_both v : reverse_laws (net_bops v) (wf_nit v) is_i64 (is_u v) /\ forward_laws (net_bops v) (wf_nit v) is_i64 (is_u v).
Proof.
  apply (gen_laws (net_bops v) (wf_nit v) (nmoved v) ni_step (nD v)).
  - apply n_wf. - apply nmoved_ext. - apply nmoved_trans. - apply nmoved_0. - apply n_k. - intros; eapply n_D; eassumption.
  - apply nit_reverse_ok. - apply nit_base_ok. - apply nit_next_ok. - apply nit_prev_ok. - apply n_plus. - apply n_minus. - apply n_add. - apply n_sub.
Qed.
Lemma subnet_laws v : reverse_laws (net_bops v) (wf_nit v) is_i64 (is_u v). Proof. apply subnet_laws_both. Qed.
Lemma subnet_fwd v : forward_laws (net_bops v) (wf_nit v) is_i64 (is_u v). Proof. apply subnet_laws_both. Qed.
Lemma umod v n : is_u v (n mod 2 ^ width v). Proof. apply Z.mod_pos_bound, M_pos. Qed.
Lemma any_host_laws_both : reverse_laws (any_bops host_ops) (wf_aiter host_ops wf_ait) is_i64 is_u128 /\ forward_laws (any_bops host_ops) (wf_aiter host_ops wf_ait) is_i64 is_u128.
Proof.
  apply (gen_laws (any_bops host_ops) (wf_aiter host_ops wf_ait) (amv host_ops moved) (ak hk) (aD hD)).
  - apply a_wf. apply h_wf.
  - apply a_ext. apply moved_ext.
  - apply a_trans. apply moved_trans.
  - apply a_0. apply moved_0.
  - reflexivity.
  - apply a_D. reflexivity.
  - eapply (a_lift host_ops wf_ait moved); [intros; apply areverse|intros; reflexivity|intros; apply (h_rev v); assumption].
  - eapply (a_lift host_ops wf_ait moved); [intros; apply abase|intros; reflexivity|intros; apply (h_base v); assumption].
  - eapply (a_lift host_ops wf_ait moved); [intros; apply anext|intros; reflexivity|intros; apply (h_next v); assumption].
  - eapply (a_lift host_ops wf_ait moved); [intros; apply aprev|intros; reflexivity|intros; apply (h_prev v); assumption].
  - intros n it Hn. revert it. eapply (a_lift host_ops wf_ait moved); [intros; apply aplus; exact Hn|intros; reflexivity|intros; apply (h_plus v n); assumption].
  - intros n it Hn. revert it. apply (a_lift host_ops wf_ait moved _ (fun v x => ait_minus v x n) (fun it => - aD hD it n) (fun v x => - hD v x n)); [intros; apply aminus; exact Hn|intros; reflexivity|intros; apply (h_minus v n); assumption].
  - intros n it Hn. revert it. eapply (a_lift host_ops wf_ait moved _ (fun v x => ait_add v x (n mod 2 ^ width v))); [intros; apply aadd_mod; exact Hn|intros; reflexivity|].
    intros v x W. destruct (h_add v (n mod 2 ^ width v) x (umod v n) W) as (y & E & M). exists y. split; [exact E|]. eapply moved_eq; [|exact M]. apply Z.mod_mod. pose proof (M_pos v). lia.
  - intros n it Hn. revert it. apply (a_lift host_ops wf_ait moved _ (fun v x => ait_sub v x (n mod 2 ^ width v)) (fun it => - aD hD it n) (fun v x => - hD v x n)); [intros; apply asub_mod; exact Hn|intros; reflexivity|].
    intros v x W. destruct (h_sub v (n mod 2 ^ width v) x (umod v n) W) as (y & E & M). exists y. split; [exact E|]. eapply moved_eq; [|exact M]. unfold hD. f_equal. apply Z.mod_mod. pose proof (M_pos v). lia.
Qed.
Lemma any_host_laws : reverse_laws (any_bops host_ops) (wf_aiter host_ops wf_ait) is_i64 is_u128. Proof. apply any_host_laws_both. Qed.
Lemma any_host_fwd : forward_laws (any_bops host_ops) (wf_aiter host_ops wf_ait) is_i64 is_u128. Proof. apply any_host_laws_both. Qed.
Lemma any_subnet_laws_both : reverse_laws (any_bops net_ops) (wf_aiter net_ops wf_nit) is_i64 is_u128 /\ forward_laws (any_bops net_ops) (wf_aiter net_ops wf_nit) is_i64 is_u128.
Proof.
  apply (gen_laws (any_bops net_ops) (wf_aiter net_ops wf_nit) (amv net_ops nmoved) (ak ni_step) (aD nD)).
  - apply a_wf. apply n_wf.
  - apply a_ext. apply nmoved_ext.
  - apply a_trans. apply nmoved_trans.
  - apply a_0. apply nmoved_0.
  - apply a_k. apply n_k.
  - apply a_D. intros; eapply n_D; eassumption.
  - apply (a_lift net_ops wf_nit nmoved _ nit_reverse (fun it => - ak ni_step it) (fun v x => - ni_step x)); [intros; apply areverse|intros; reflexivity|intros; apply nit_reverse_ok; assumption].
  - apply (a_lift net_ops wf_nit nmoved _ nit_base (ak ni_step) (fun v x => ni_step x)); [intros; apply abase|intros; reflexivity|intros; apply nit_base_ok; assumption].
  - apply (a_lift net_ops wf_nit nmoved _ nit_next (ak ni_step) (fun v x => ni_step x)); [intros; apply anext|intros; reflexivity|intros; apply nit_next_ok; assumption].
  - apply (a_lift net_ops wf_nit nmoved _ nit_prev (fun it => - ak ni_step it) (fun v x => - ni_step x)); [intros; apply aprev|intros; reflexivity|intros; apply nit_prev_ok; assumption].
  - intros n it Hn. revert it. apply (a_lift net_ops wf_nit nmoved _ (fun v x => nit_plus v x n) (fun it => aD nD it n) (fun v x => nD v x n)); [intros; apply aplus; exact Hn|intros; reflexivity|intros; apply (n_plus v n); assumption].
  - intros n it Hn. revert it. apply (a_lift net_ops wf_nit nmoved _ (fun v x => nit_minus v x n) (fun it => - aD nD it n) (fun v x => - nD v x n)); [intros; apply aminus; exact Hn|intros; reflexivity|intros; apply (n_minus v n); assumption].
  - intros n it Hn. revert it. apply (a_lift net_ops wf_nit nmoved _ (fun v x => nit_add v x (n mod 2 ^ width v)) (fun it => aD nD it n) (fun v x => nD v x n)); [intros; apply aadd_mod; exact Hn|intros; reflexivity|].
    intros v x W. destruct (n_add v (n mod 2 ^ width v) x (umod v n) W) as (y & E & M). exists y. split; [exact E|]. eapply nmoved_eq; [|exact M]. unfold nD. apply Zmult_mod_idemp_r.
  - intros n it Hn. revert it. apply (a_lift net_ops wf_nit nmoved _ (fun v x => nit_sub v x (n mod 2 ^ width v)) (fun it => - aD nD it n) (fun v x => - nD v x n)); [intros; apply asub_mod; exact Hn|intros; reflexivity|].
    intros v x W. destruct (n_sub v (n mod 2 ^ width v) x (umod v n) W) as (y & E & M). exists y. split; [exact E|]. eapply nmoved_eq; [|exact M]. unfold nD. f_equal. apply Zmult_mod_idemp_r.
Qed.
Lemma any_subnet_laws : reverse_laws (any_bops net_ops) (wf_aiter net_ops wf_nit) is_i64 is_u128. Proof. apply any_subnet_laws_both. Qed.
Lemma any_subnet_fwd : forward_laws (any_bops net_ops) (wf_aiter net_ops wf_nit) is_i64 is_u128. Proof. apply any_subnet_laws_both. Qed.
