(** Version-erased iterators and sequences. *)
From Coq Require Import Znumtheory.
From Verif Require Import Base Tac UnicodeModel FixedStringModel V4Model V6Model Uint128Model SpecInt Uint128Proofs SpecAddr SpecOrder AddressModel
  AddressProofs NetworkModel IterModel ClassifyModel SpecNet SpecIter NetProofs NetProofs2 NetProofs3 NetLemmas IterProofs IterProofs2 IterProofs3 IterProofs4 IterProofs5
  IterLemmas AnyModel SpecAny AnyProofs.

Lemma ver_refl v : ver_eqb v v = true. Proof. destruct v; reflexivity. Qed.
Lemma bind_rmap {A B C} (f : A -> B) (r : res A) (k : B -> res C) : bind (rmap f r) k = bind r (fun a => k (f a)).
Proof. destruct r; reflexivity. Qed.
Lemma rmap_bind {A B C} (f : B -> C) (r : res A) (k : A -> res B) : rmap f (bind r k) = bind r (fun a => rmap f (k a)).
Proof. destruct r; reflexivity. Qed.
Lemma rmap_ret {A B} (f : A -> B) (r : res A) b : rmap f r = Ret b -> exists a, r = Ret a /\ b = f a.
Proof. destruct r; cbn; intros H; try discriminate. apply ret_inj in H. eauto. Qed.

(** *** Iterators *)
Section Ops.
Context {I E : Type} (o : iops I E) (v : ver).
Notation mk := (aiter_make o v).
Lemma cur_make it : ai_cur (mk it) = o_get o v it. Proof. reflexivity. Qed.
Lemma narrow n : 0 <= n < 2 ^ 128 -> match v with V4 => u32_of_u128 n | V6 => n end = n mod 2 ^ width v.
Proof. destruct v; intros H; [apply low32; exact H|]. symmetry. apply Z.mod_small. exact H. Qed.
Lemma fits n : 0 <= n < 2 ^ width v -> 0 <= n < 2 ^ 128.
Proof. destruct v; cbn [width]; [change (2 ^ 128) with (2 ^ 32 * 2 ^ 96)|]; lia. Qed.
Lemma aadd_mod it n : 0 <= n < 2 ^ 128 -> aiter_add o (mk it) n = rmap mk (o_add o v it (n mod 2 ^ width v)).
Proof.
  intros H. pose proof (narrow n H) as N. unfold aiter_add, aiter_make. cbn [ai_ver ai_it]. rewrite <- N. destruct v; cbn [ver_eqb ver_num Z.eqb Pos.eqb].
  - destruct (o_add o V4 it _); reflexivity.
  - destruct (o_add o V6 it n); reflexivity.
Qed.
Lemma aadd it n : 0 <= n < 2 ^ width v -> aiter_add o (mk it) n = rmap mk (o_add o v it n).
Proof. intros H. rewrite aadd_mod by (apply fits; exact H). rewrite Z.mod_small by exact H. reflexivity. Qed.
Lemma asub_mod it n : 0 <= n < 2 ^ 128 -> aiter_sub o (mk it) n = rmap mk (o_sub o v it (n mod 2 ^ width v)).
Proof.
  intros H. pose proof (narrow n H) as N. unfold aiter_sub, aiter_make. cbn [ai_ver ai_it]. rewrite <- N. destruct v; cbn [ver_eqb ver_num Z.eqb Pos.eqb].
  - destruct (o_sub o V4 it _); reflexivity.
  - destruct (o_sub o V6 it n); reflexivity.
Qed.
Lemma asub it n : 0 <= n < 2 ^ width v -> aiter_sub o (mk it) n = rmap mk (o_sub o v it n).
Proof. intros H. rewrite asub_mod by (apply fits; exact H). rewrite Z.mod_small by exact H. reflexivity. Qed.
Lemma aat it n : 0 <= n < 2 ^ 128 -> aiter_at o (mk it) n = o_at o v it (n mod 2 ^ width v).
Proof.
  intros H. pose proof (narrow n H) as N. unfold aiter_at, aiter_make. cbn [ai_ver ai_it]. rewrite <- N. destruct v; reflexivity.
Qed.
Lemma ai64 n : is_i64 n -> match v with V4 => u32_of_u128 (to_Z (u128_of_i64 n)) | V6 => to_Z (u128_of_i64 n) end = u_of_i64 v n.
Proof.
  intros H. destruct v; [|reflexivity]. cbn [u_of_i64]. rewrite of_i64_ok by exact H. rewrite low32 by (apply Z.mod_pos_bound; reflexivity).
  unfold w32. symmetry. apply Znumtheory.Zmod_div_mod; [reflexivity|reflexivity|]. exists (2 ^ 96). reflexivity.
Qed.
Lemma aplus it n : is_i64 n -> aiter_plus o (mk it) n = rmap mk (o_add o v it (u_of_i64 v n)).
Proof.
  intros H. pose proof (ai64 n H) as N. unfold aiter_plus, aiter_add, aiter_make. cbn [ai_ver ai_it]. destruct v; cbn [ver_eqb ver_num Z.eqb Pos.eqb]; rewrite N.
  - destruct (o_add o V4 it _); reflexivity.
  - destruct (o_add o V6 it _); reflexivity.
Qed.
Lemma aminus it n : is_i64 n -> aiter_minus o (mk it) n = rmap mk (o_sub o v it (u_of_i64 v n)).
Proof.
  intros H. pose proof (ai64 n H) as N. unfold aiter_minus, aiter_sub, aiter_make. cbn [ai_ver ai_it]. destruct v; cbn [ver_eqb ver_num Z.eqb Pos.eqb]; rewrite N.
  - destruct (o_sub o V4 it _); reflexivity.
  - destruct (o_sub o V6 it _); reflexivity.
Qed.
Lemma aindex it n : is_i64 n -> aiter_index o (mk it) n = o_at o v it (u_of_i64 v n).
Proof.
  intros H. pose proof (ai64 n H) as N. unfold aiter_index, aiter_at, aiter_make. cbn [ai_ver ai_it]. destruct v; cbn [ver_eqb ver_num Z.eqb Pos.eqb]; rewrite N; reflexivity.
Qed.
Lemma one_small : 0 <= 1 < 2 ^ width v. Proof. destruct v; cbn [width]; lia. Qed.
Lemma anext it : aiter_next o (mk it) = rmap mk (o_add o v it 1).
Proof. unfold aiter_next. change (to_Z (u128_of_i64 1)) with 1. apply aadd. apply one_small. Qed.
Lemma aprev it : aiter_prev o (mk it) = rmap mk (o_sub o v it 1).
Proof. unfold aiter_prev. change (to_Z (u128_of_i64 1)) with 1. apply asub. apply one_small. Qed.
Lemma aeqb a b : aiter_eqb o (mk a) (mk b) = o_eqb o v a b.
Proof. unfold aiter_eqb, aiter_make. cbn [ai_ver ai_it]. rewrite ver_refl. destruct v; reflexivity. Qed.
Lemma acmp a b : aiter_cmp o (mk a) (mk b) = o_cmp o v a b.
Proof. unfold aiter_cmp, aiter_make. cbn [ai_ver ai_it]. rewrite Z.compare_refl. destruct v; reflexivity. Qed.
Lemma altb a b : aiter_ltb o (mk a) (mk b) = o_ltb o v a b.
Proof. unfold aiter_ltb, aiter_make. cbn [ai_ver ai_it]. rewrite ver_refl. destruct v; reflexivity. Qed.
Lemma adiff a b : aiter_diff o (mk a) (mk b) = o_diff o v a b.
Proof. unfold aiter_diff, aiter_make. cbn [ai_ver ai_it]. rewrite ver_refl. destruct v; reflexivity. Qed.
Lemma audiff a b : aiter_udiff o (mk a) (mk b) = o_udiff o v a b.
Proof.
  unfold aiter_udiff, aiter_make. cbn [ai_ver ai_it]. rewrite ver_refl. destruct v; [|reflexivity]. cbn [negb ver_eqb ver_num Z.eqb Pos.eqb].
  destruct (o_udiff o V4 a b); cbn [bind]; rewrite ?wide32; reflexivity.
Qed.
Lemma abase it : aiter_base o (mk it) = rmap mk (o_base o v it).
Proof. unfold aiter_base, aiter_make. cbn [ai_ver ai_it]. destruct v; cbn [ver_eqb ver_num Z.eqb Pos.eqb]; [destruct (o_base o V4 it)|destruct (o_base o V6 it)]; reflexivity. Qed.
Lemma areverse it : aiter_reverse o (mk it) = rmap mk (o_reverse o v it).
Proof. unfold aiter_reverse, aiter_make. cbn [ai_ver ai_it]. destruct v; cbn [ver_eqb ver_num Z.eqb Pos.eqb]; [destruct (o_reverse o V4 it)|destruct (o_reverse o V6 it)]; reflexivity. Qed.
Lemma awalk {G} (get : I -> G) (f : G -> E) : (forall it, o_get o v it = f (get it)) -> forall k a b,
  aseq_walk o k (mk a) (mk b) = rmap (map f) (walk (o_eqb o v) (fun it => o_add o v it 1) get k a b).
Proof.
  intros Hg. unfold aseq_walk. induction k as [|k IH]; intros a b; cbn [walk]; rewrite aeqb; destruct (o_eqb o v a b) as [[|]| |]; cbn [bind]; try reflexivity.
  rewrite anext. destruct (o_add o v a 1) as [a'| |]; cbn [bind rmap]; try reflexivity. rewrite IH.
  destruct (walk _ _ get k a' b) as [l| |]; cbn [bind rmap]; try reflexivity. rewrite cur_make, Hg. reflexivity.
Qed.
Lemma arwalk {G} (get : I -> G) (f : G -> E) : (forall it, o_get o v it = f (get it)) -> forall k a b,
  aseq_rwalk o k (mk a) (mk b) = rmap (map f) (walk (o_eqb o v) (fun it => o_sub o v it 1) get k a b).
Proof.
  intros Hg. unfold aseq_rwalk. induction k as [|k IH]; intros a b; cbn [walk]; rewrite aeqb; destruct (o_eqb o v a b) as [[|]| |]; cbn [bind]; try reflexivity.
  rewrite aprev. destruct (o_sub o v a 1) as [a'| |]; cbn [bind rmap]; try reflexivity. rewrite IH.
  destruct (walk _ _ get k a' b) as [l| |]; cbn [bind rmap]; try reflexivity. rewrite cur_make, Hg. reflexivity.
Qed.
End Ops.

(** *** hosts() *)
Lemma any_hosts_eq sp v n : any_hosts sp (mk_an v n) = rmap (fun s => aseq_make host_ops v (h_begin s) (h_end s)) (hosts sp v n).
Proof. unfold any_hosts. destruct v; cbn; [destruct (hosts sp V4 n)|destruct (hosts sp V6 n)]; reflexivity. Qed.
Lemma any_hosts_mirror sp v n s : hosts sp v n = Ret s -> exists s', any_hosts sp (mk_an v n) = Ret s' /\
  (forall k, aseq_walk host_ops k (q_begin s') (q_end s') = rmap (map (mk_aa v)) (hosts_walk v k (h_begin s) (h_end s))) /\
  (forall rb re, hosts_rbegin v s = Ret rb -> hosts_rend v s = Ret re -> exists rb' re', aseq_rbegin host_ops s' = Ret rb' /\ aseq_rend host_ops s' = Ret re' /\
     forall k, aseq_rwalk host_ops k rb' re' = rmap (map (mk_aa v)) (hosts_rwalk v k rb re)) /\
  aseq_size host_ops s' = Ret (hosts_size v s) /\
  (forall i, 0 <= i < 2 ^ 128 -> aseq_at host_ops s' i = rmap (mk_aa v) (hosts_at v s (i mod 2 ^ width v))) /\
  aseq_front s' = mk_aa v (hosts_front s) /\ aseq_back host_ops s' = rmap (mk_aa v) (hosts_back v s) /\
  aseq_empty host_ops s' = hosts_empty v s.
Proof.
  intros H. rewrite any_hosts_eq, H. cbn [rmap]. eexists. split; [reflexivity|]. unfold aseq_make. cbn [q_begin q_end].
  split; [intros k; apply (awalk host_ops v it_current (mk_aa v)); reflexivity|]. split.
  { intros rb re Hb He. unfold aseq_rbegin, aseq_rend. cbn [q_begin q_end]. rewrite !areverse. cbn [o_reverse host_ops]. unfold hosts_rbegin in Hb. unfold hosts_rend in He. rewrite Hb, He.
    cbn [rmap]. eexists _, _. split; [reflexivity|]. split; [reflexivity|]. intros k. apply (arwalk host_ops v it_current (mk_aa v)). reflexivity. }
  split; [unfold aseq_size; cbn [q_begin q_end]; rewrite audiff; reflexivity|]. split.
  { intros i Hi. unfold aseq_at. cbn [q_begin]. rewrite aadd_mod by exact Hi. cbn [o_add host_ops]. unfold hosts_at. destruct (ait_add v (h_begin s) _); reflexivity. }
  split; [reflexivity|]. split.
  { unfold aseq_back. cbn [q_end]. change (to_Z (u128_of_u64 1)) with 1. rewrite asub by apply one_small. cbn [o_sub host_ops]. unfold hosts_back. destruct (ait_sub v (h_end s) 1); reflexivity. }
  unfold aseq_empty. cbn [q_begin q_end]. rewrite aeqb. reflexivity.
Qed.

(** *** subnets() *)
Lemma any_subnets_eq sp v n d np : any_subnets sp (mk_an v n) d np = rmap (fun s => aseq_make net_ops v (s_begin s) (s_end s)) (subnets sp v n d np).
Proof. unfold any_subnets. destruct v; cbn; [destruct (subnets sp V4 n d np)|destruct (subnets sp V6 n d np)]; reflexivity. Qed.
Lemma any_subnets_at v s i : 0 <= i < 2 ^ 128 -> aseq_at net_ops (aseq_make net_ops v (s_begin s) (s_end s)) i = rmap (mk_an v) (subnets_at v s (i mod 2 ^ width v)).
Proof. intros Hi. unfold aseq_at, aseq_make. cbn [q_begin]. rewrite aadd_mod by exact Hi. cbn [o_add net_ops]. unfold subnets_at. destruct (nit_add v (s_begin s) _); reflexivity. Qed.
Lemma any_subnets_mirror sp v n d np s : subnets sp v n d np = Ret s -> exists s', any_subnets sp (mk_an v n) d np = Ret s' /\
  (forall k, aseq_walk net_ops k (q_begin s') (q_end s') = rmap (map (mk_an v)) (subnets_walk v k (s_begin s) (s_end s))) /\
  (forall rb re, subnets_rbegin v s = Ret rb -> subnets_rend v s = Ret re -> exists rb' re', aseq_rbegin net_ops s' = Ret rb' /\ aseq_rend net_ops s' = Ret re' /\
     forall k, aseq_rwalk net_ops k rb' re' = rmap (map (mk_an v)) (subnets_rwalk v k rb re)) /\
  (forall i, 0 <= i < 2 ^ 128 -> aseq_at net_ops s' i = rmap (mk_an v) (subnets_at v s (i mod 2 ^ width v))) /\
  aseq_front s' = mk_an v (subnets_front s) /\ aseq_back net_ops s' = rmap (mk_an v) (subnets_back v s) /\
  aseq_empty net_ops s' = subnets_empty v s.
Proof.
  intros H. rewrite any_subnets_eq, H. cbn [rmap]. eexists. split; [reflexivity|]. split; [intros k; unfold aseq_make; cbn [q_begin q_end]; apply (awalk net_ops v ni_current (mk_an v)); reflexivity|]. split.
  { intros rb re Hb He. unfold aseq_rbegin, aseq_rend, aseq_make. cbn [q_begin q_end]. rewrite !areverse. cbn [o_reverse net_ops]. unfold subnets_rbegin in Hb. unfold subnets_rend in He. rewrite Hb, He.
    cbn [rmap]. eexists _, _. split; [reflexivity|]. split; [reflexivity|]. intros k. apply (arwalk net_ops v ni_current (mk_an v)). reflexivity. }
  split; [intros i; apply any_subnets_at|]. split; [reflexivity|]. split.
  { unfold aseq_back, aseq_make. cbn [q_end]. change (to_Z (u128_of_u64 1)) with 1. rewrite asub by apply one_small. cbn [o_sub net_ops]. unfold subnets_back. destruct (nit_sub v (s_end s) 1); reflexivity. }
  unfold aseq_empty, aseq_make. cbn [q_begin q_end]. rewrite aeqb. reflexivity.
Qed.
(** size() is the distance of the ends. *)
Lemma any_subnets_size sp v n d np q s : wf_net v n -> args_ok d np -> asked v n d np q -> defined v n q -> 0 < q -> subnets sp v n d np = Ret s ->
  aseq_size net_ops (aseq_make net_ops v (s_begin s) (s_end s)) = Ret (if n_prefix n =? 0 then 0 else s_size s).
Proof.
  intros W Ha Hq Hd Q0 Hs. destruct (subnets_good sp v n d np q s W Ha Hq Hd Hs) as (Hr & (Wb & Pb & _ & We & Pe & Qe) & Sz).
  unfold aseq_size, aseq_make. cbn [q_begin q_end]. rewrite audiff. cbn [o_udiff net_ops]. unfold nit_uint_diff, ait_uint_diff. rewrite usub_ok.
  destruct (sub_geom v n q W Hr) as (K0 & Es & M0 & K1 & F0 & T0). specialize (K1 ltac:(lia)). set (M := 2 ^ width v) in *. assert (HM : 0 < M) by (apply pow2_pos; destruct v; cbn [width]; lia).
  destruct Wb as (_ & (Ab & _ & Ob & _) & _). destruct We as (We & (Ae & _ & Oe & _) & _ & Pr & St).
  assert (Step : ni_step (s_end s) = 2 ^ (width v - q)). { rewrite St. unfold size. rewrite <- Pr, Qe. apply Z.mod_small. lia. }
  rewrite Step, Ob, Oe. unfold nit_pos, ait_pos in Pb, Pe. fold M in Pb, Pe. pose proof (val_range v _ Ab) as Rb. pose proof (val_range v _ Ae) as Re. fold M in Rb, Re.
  assert (D : (val (it_current (ni_it (s_end s))) - val (it_current (ni_it (s_begin s)))) mod M = size v n mod M).
  { assert (Sm : subnets_stop v n mod M = (first n + size v n) mod M).
    { unfold subnets_stop. destruct (_ || _); [reflexivity|]. fold M. apply Z.mod_mod. lia. }
    assert (E1 : val (it_current (ni_it (s_end s))) = (first n + size v n) mod M). { rewrite <- Sm, <- Pe, Z.add_comm, Z.mod_add by lia. symmetry. apply Z.mod_small. exact Re. }
    assert (E2 : val (it_current (ni_it (s_begin s))) = first n mod M). { rewrite <- Pb, Z.add_comm, Z.mod_add by lia. symmetry. apply Z.mod_small. exact Rb. }
    rewrite E1, E2, <- Zminus_mod. f_equal. lia. }
  rewrite D. pose proof (Z.mod_pos_bound (size v n) M HM). rewrite udivide_ok by (fold M; lia). f_equal. assert (P0 : 0 <= n_prefix n) by apply W. destruct (Z.eqb_spec (n_prefix n) 0) as [E|E].
  - assert (size v n = M) as -> by (unfold size, M; rewrite E; f_equal; lia). rewrite Z.mod_same by lia. apply Z.div_0_l. lia.
  - assert (size v n < M). { unfold size, M. apply Z.pow_lt_mono_r; lia. } rewrite Z.mod_small by lia. rewrite Es, Sz. apply Z.div_mul. lia.
Qed.

(** *** address_exclude() *)
Definition xopt (sp : bool) (v : ver) (x : xit) : res (option xit) :=
  e1 <- net_eqb v (x_s1 x) (x_other x) ;;
  e2 <- net_eqb v (x_s2 x) (x_other x) ;;
  if negb e1 && negb e2 then
    i1 <- subnet_of sp v (x_other x) (x_s1 x) ;;
    if i1 : bool then
      c <- net_eqb v (x_current x) (x_s2 x) ;;
      if negb c then '(s1, s2) <- halves sp v (x_s1 x) ;; Ret (Some (mk_xit (x_other x) s1 s2 (x_s2 x)))
      else Ret None
    else
      i2 <- subnet_of sp v (x_other x) (x_s2 x) ;;
      if i2 : bool then
        c <- net_eqb v (x_current x) (x_s1 x) ;;
        if negb c then '(s1, s2) <- halves sp v (x_s2 x) ;; Ret (Some (mk_xit (x_other x) s1 s2 (x_s1 x)))
        else Ret None
      else UB AssertFailed
  else if e1 then
    c <- net_eqb v (x_current x) (x_s2 x) ;;
    if negb c then Ret (Some (mk_xit (x_other x) (x_s1 x) (x_s2 x) (x_s2 x))) else Ret None
  else if e2 then
    c <- net_eqb v (x_current x) (x_s1 x) ;;
    if negb c then Ret (Some (mk_xit (x_other x) (x_s1 x) (x_s2 x) (x_s1 x))) else Ret None
  else UB AssertFailed.
Definition xlift (v : ver) (x : xit) : axit := mk_axit (mk_an v (x_other x)) (mk_an v (x_s1 x)) (mk_an v (x_s2 x)) (mk_an v (x_current x)).
Definition xv (v : ver) (o : option xit) : xit := match o with Some x => x | None => xit_default v end.
Definition xa (v : ver) (o : option xit) : axit := match o with Some x => xlift v x | None => axit_default end.
Lemma any_net_eqb v a b : anet_eqb (mk_an v a) (mk_an v b) = net_eqb v a b.
Proof. destruct v; reflexivity. Qed.
Lemma any_net_sub sp v a b : anet_subnet_of sp (mk_an v a) (mk_an v b) = subnet_of sp v a b.
Proof. destruct v; reflexivity. Qed.
Lemma any_halves_eq sp v n : any_halves sp (mk_an v n) = rmap (fun p => (mk_an v (fst p), mk_an v (snd p))) (halves sp v n).
Proof.
  unfold any_halves, halves. rewrite any_subnets_eq. destruct (subnets sp v n 1 None) as [s| |]; cbn [rmap bind]; try reflexivity.
  rewrite !any_subnets_at by (split; reflexivity || discriminate). rewrite !Z.mod_small by (destruct v; split; reflexivity || discriminate). destruct (subnets_at v s 0); cbn [rmap bind]; try reflexivity. destruct (subnets_at v s 1); reflexivity.
Qed.
Ltac bindstep := match goal with
  | |- context [bind ?r _] => lazymatch r with net_eqb _ _ _ => destruct r as [[|]| |] | subnet_of _ _ _ _ => destruct r as [[|]| |] | halves _ _ _ => destruct r as [[? ?]| |] end
  end; cbn [bind negb andb rmap fst snd]; try reflexivity.
Lemma xnext_v sp v x : xit_next sp v x = rmap (xv v) (xopt sp v x).
Proof. unfold xit_next, xopt. repeat bindstep. Qed.
Lemma xnext_a sp v x : axit_next sp (xlift v x) = rmap (xa v) (xopt sp v x).
Proof.
  unfold axit_next, xopt, xlift. cbn [ax_other ax_s1 ax_s2 ax_current]. rewrite !any_net_eqb, !any_net_sub, !any_halves_eq. repeat bindstep; destruct (halves _ _ _) as [[? ?]| |]; reflexivity.
Qed.
Section ARun.
Variables (sp : bool) (v : ver) (o : net).
Hypotheses (Wo : wf_net v o) (Uo : unscoped o).
Definition astate (r : nat) (x : axit) : Prop :=
  (r = 0%nat /\ x = axit_default) \/ ((0 < r)%nat /\ exists it, xstate v o r it /\ x = xlift v it).
Lemma not_default r it : (0 < r)%nat -> xstate v o r it -> it <> xit_default v.
Proof.
  intros Hr [[K _]|(_ & _ & [(n & (_ & _ & Hp & _ & _ & H1 & H2 & _) & _)|(_ & _ & _ & _ & Ne & _)])] ->; [lia| |apply Ne; reflexivity].
  destruct H1 as (_ & _ & _ & F1), H2 as (_ & _ & _ & F2). cbn [xit_default x_s1 x_s2] in *. rewrite F1 in F2.
  assert (Po : n_prefix o <= width v) by apply Wo. pose proof (pow2_pos (width v - (n_prefix n + 1)) ltac:(lia)). lia.
Qed.
Lemma last_opt it : xstate v o 1 it -> xopt sp v it = Ret None.
Proof.
  intros [[K _]|(_ & _ & [(n & (_ & _ & Hp & _) & E)|(_ & Eo & W1 & W2 & Ne & K)])]; [discriminate|lia|].
  unfold xopt. rewrite Eo. destruct K as [[K1 K2]|[K1 K2]].
  - rewrite K2, K1 in *. rewrite (eqb_true v o o) by auto. rewrite (eqb_false v (x_s2 it) o) by (auto; congruence). cbn [bind negb andb]. rewrite (eqb_true v (x_s2 it) (x_s2 it)) by auto. reflexivity.
  - rewrite K2, K1 in *. rewrite (eqb_true v o o) by auto. rewrite (eqb_false v (x_s1 it) o) by auto. cbn [bind negb andb]. rewrite (eqb_true v (x_s1 it) (x_s1 it)) by auto. reflexivity.
Qed.
(** The two loops side by side. *)
Definition rel (r : nat) (it : xit) (x : axit) : Prop := xstate v o r it /\ ((r = 0%nat /\ x = axit_default) \/ ((0 < r)%nat /\ x = xlift v it)).
Lemma rel_astate r it x : rel r it x -> astate r x.
Proof. intros (H & [[-> ->]|[Hr ->]]); [left; auto|right; eauto]. Qed.
Lemma rel_next r it x : rel (S r) it x -> exists it' x', xit_next sp v it = Ret it' /\ axit_next sp x = Ret x' /\ rel r it' x'.
Proof.
  intros (H & [[K _]|[_ ->]]); [discriminate|]. destruct (xstate_next sp v o Wo Uo r it H) as (it' & E & H'). rewrite xnext_a. destruct r as [|r].
  - exists it', axit_default. rewrite (last_opt it H). split; [exact E|]. split; [reflexivity|]. split; [exact H'|left; auto].
  - rewrite xnext_v in E. destruct (xopt sp v it) as [[y|]| |] eqn:Q; cbn [rmap xv] in E; try discriminate; apply ret_inj in E; subst it'.
    + exists y, (xlift v y). rewrite xnext_v, Q. split; [reflexivity|]. split; [reflexivity|]. split; [exact H'|]. right. split; [lia|reflexivity].
    + exfalso. apply (not_default (S r) (xit_default v)); [lia|exact H'|reflexivity].
Qed.
Lemma astate_next r x : astate (S r) x -> exists x', axit_next sp x = Ret x' /\ astate r x'.
Proof. intros [[K _]|(_ & it & H & ->)]; [discriminate|]. destruct (rel_next r it (xlift v it)) as (it' & x' & _ & E & K); [split; [exact H|right; split; [lia|reflexivity]]|]. apply rel_astate in K. eauto. Qed.
(** The end is an IPv4 network, so only IPv4 elements can equal it. *)
Lemma astate_eqb : (v = V4 -> ~ is_one v o) -> forall r x, astate r x -> axit_eqb x axit_default = Ret (r =? 0)%nat.
Proof.
  intros G r x [[-> ->]|(Hr & it & H & ->)]; [reflexivity|]. unfold axit_eqb, xlift. cbn [axit_default ax_current]. destruct r as [|r]; [lia|].
  destruct v; [|reflexivity]. pose proof (xstate_eqb V4 o Wo (G eq_refl) (S r) it H) as K. unfold xit_eqb in K. cbn [xit_default x_current] in K. exact K.
Qed.
Lemma rel_walk : ~ is_one v o -> forall k r it x, rel r it x -> aexclude_walk sp k x axit_default = rmap (map (mk_an v)) (exclude_walk sp v k it (xit_default v)).
Proof.
  intros G. unfold aexclude_walk, exclude_walk. induction k as [|k IH]; intros r it x R; cbn [walk]; rewrite (astate_eqb (fun _ => G) r x (rel_astate r it x R)), (xstate_eqb v o Wo G r it (proj1 R)); destruct r as [|r]; cbn [bind Nat.eqb]; try reflexivity.
  destruct (rel_next r it x R) as (it' & x' & -> & -> & R'). cbn [bind]. rewrite (IH r it' x' R'). destruct (walk _ _ _ k it' _) as [l| |]; cbn [bind rmap]; try reflexivity.
  destruct R as (_ & [[K _]|[_ ->]]); [discriminate|reflexivity].
Qed.
End ARun.
Lemma any_exclude_core sp v n o : wf_net v n -> wf_net v o -> unscoped n -> unscoped o -> subset v o n -> n_prefix n < n_prefix o ->
  exists it x, xit_make sp v n o = Ret it /\ axit_make sp (mk_an v n) (mk_an v o) = Ret x /\ rel v o (Z.to_nat (xcount n o)) it x.
Proof.
  intros Wn Wo Un Uo So Hp. assert (Po : n_prefix o <= width v) by apply Wo. unfold xit_make, axit_make. rewrite any_halves_eq. destruct (halves_ok sp v n Wn ltac:(lia)) as (a & b & -> & Ha & Hb). cbn [rmap bind fst snd].
  assert (Sp : splitting v o n (mk_xit o a b n)) by (split; [exact Wn|]; split; [exact Un|]; split; [exact Hp|]; split; [exact So|]; cbn [x_other x_s1 x_s2 x_current]; auto).
  destruct (split_step sp v o Wo Uo n _ Sp) as (it' & E & H). change (mk_axit (mk_an v o) (mk_an v a) (mk_an v b) (mk_an v n)) with (xlift v (mk_xit o a b n)). rewrite xnext_a.
  fold (xcount n o) in H. exists it'. rewrite E. rewrite xnext_v in E. assert (R0 : (0 < Z.to_nat (xcount n o))%nat) by (unfold xcount; lia).
  destruct (xopt sp v _) as [[y|]| |] eqn:Q; cbn [rmap xv] in E; try discriminate; apply ret_inj in E; subst it'.
  - eexists. split; [reflexivity|]. split; [reflexivity|]. split; [exact H|]. right. auto.
  - exfalso. exact (not_default v o Wo _ (xit_default v) R0 H eq_refl).
Qed.
Lemma any_bare_ok v n : wf_net v n -> (a <- any_clear_scope (anet_address (mk_an v n)) ;; anet_from_address a (anet_prefixlen (mk_an v n)) true) = Ret (mk_an v (bare v n)).
Proof.
  intros W. pose proof (remove_scope_net_ok v n W) as E. destruct v.
  - unfold anet_address, anet_is_v4, any_clear_scope, anet_from_address, anet_prefixlen. cbn [an_ver an_net ver_eqb ver_num Z.eqb Pos.eqb aa_ver aa_addr bind].
    assert (Q : bare V4 n = n) by (cbn [remove_scope_net] in E; apply ret_inj in E; symmetry; exact E).
    rewrite from_address_spec by apply W. assert (val (n_addr n) mod 2 ^ (width V4 - n_prefix n) = 0) as -> by apply W. cbn [Z.eqb bind]. do 2 f_equal. rewrite Q. symmetry. apply (net_ext V4); try reflexivity; try assumption. apply net_of_wf; apply W.
  - unfold anet_address, anet_is_v4, any_clear_scope, anet_from_address, anet_prefixlen. cbn [an_ver an_net ver_eqb ver_num Z.eqb Pos.eqb aa_ver aa_addr bind]. cbn [remove_scope_net] in E.
    destruct (remove_scope V6 (n_addr n)) as [a| |]; cbn [bind] in E; try discriminate. cbn [bind aa_ver aa_addr ver_eqb ver_num Z.eqb Pos.eqb]. rewrite E. reflexivity.
Qed.
Lemma any_exclude_open sp v n o code : wf_net v n -> wf_net v o ->
  any_exclude_code sp (mk_an v n) (mk_an v o) code =
    (sub <- subnet_of sp v (bare v o) (bare v n) ;;
     if negb sub then Ret (aexclude_default, not_contained_network)
     else eq <- net_eqb v (bare v n) (bare v o) ;; if eq : bool then Ret (aexclude_default, no_error)
          else x <- axit_make sp (mk_an v (bare v n)) (mk_an v (bare v o)) ;; Ret (mk_aexclude x axit_default, no_error)).
Proof.
  intros Wn Wo. pose proof (any_bare_ok v n Wn) as En. pose proof (any_bare_ok v o Wo) as Eo. unfold any_exclude_code. cbn [an_ver]. rewrite ver_refl. cbn [negb].
  destruct (any_clear_scope (anet_address (mk_an v n))) as [a1| |]; cbn [bind] in En; try discriminate. destruct (any_clear_scope (anet_address (mk_an v o))) as [a2| |]; cbn [bind] in Eo; try discriminate.
  cbn [bind]. rewrite En. cbn [bind]. rewrite Eo. cbn [bind]. rewrite any_net_sub, any_net_eqb. reflexivity.
Qed.
Lemma any_exclude_not sp v n o code : wf_net v n -> wf_net v o -> ~ subset v o n -> any_exclude_code sp (mk_an v n) (mk_an v o) code = Ret (aexclude_default, not_contained_network).
Proof.
  intros Wn Wo H. destruct (bare_ok v n Wn) as (Wbn & Ubn & _). destruct (bare_ok v o Wo) as (Wbo & Ubo & _). rewrite any_exclude_open by assumption.
  rewrite subnet_false; [reflexivity|assumption..|]. rewrite subset_bare by assumption. exact H.
Qed.
Lemma any_exclude_same sp v n o code : wf_net v n -> wf_net v o -> subset v o n -> n_prefix n = n_prefix o -> any_exclude_code sp (mk_an v n) (mk_an v o) code = Ret (aexclude_default, no_error).
Proof.
  intros Wn Wo H E. destruct (bare_ok v n Wn) as (Wbn & Ubn & _ & Pn). destruct (bare_ok v o Wo) as (Wbo & Ubo & _ & Po). rewrite any_exclude_open by assumption.
  rewrite <- subset_bare in H by assumption. rewrite subnet_true by assumption. cbn [bind negb].
  assert (bare v n = bare v o) as -> by (symmetry; apply (subset_eq v); auto; congruence). rewrite eqb_true by auto. reflexivity.
Qed.
Lemma any_exclude_list sp v n o code : wf_net v n -> wf_net v o -> subset v o n -> n_prefix n < n_prefix o -> (v = V4 -> ~ is_one v o) ->
  exists s l, any_exclude_code sp (mk_an v n) (mk_an v o) code = Ret (s, no_error) /\
    aexclude_walk sp (Z.to_nat (n_prefix o - n_prefix n)) (ae_begin s) (ae_end s) = Ret (map (mk_an v) l) /\ Z.of_nat (length l) = n_prefix o - n_prefix n /\ listed v o (n_prefix n) l /\
    forall k, Z.of_nat k < n_prefix o - n_prefix n -> aexclude_walk sp k (ae_begin s) (ae_end s) = UB OutOfFuel.
Proof.
  intros Wn Wo H Hp G. destruct (bare_ok v n Wn) as (Wbn & Ubn & _ & Pn). destruct (bare_ok v o Wo) as (Wbo & Ubo & Fo & Po). rewrite any_exclude_open by assumption.
  rewrite <- subset_bare in H by assumption. rewrite subnet_true by assumption. cbn [bind negb].
  rewrite eqb_false by (auto; apply prefix_ne; lia). cbn [bind]. destruct (any_exclude_core sp v (bare v n) (bare v o) Wbn Wbo Ubn Ubo H ltac:(lia)) as (it0 & it & _ & -> & X). apply rel_astate in X. cbn [bind].
  assert (G' : v = V4 -> ~ is_one v (bare v o)) by (unfold is_one; rewrite Fo, Po; exact G). unfold xcount in X. rewrite Pn, Po in X. set (r := Z.to_nat (n_prefix o - n_prefix n)) in *.
  pose proof (walk_gen axit_eqb (axit_next sp) ax_current axit_default _ (astate_eqb v (bare v o) Wbo G') (astate_next sp v (bare v o) Wbo Ubo)) as Wk.
  pose proof (Wk r r it X) as Wr. rewrite Nat.leb_refl in Wr. destruct Wr as (l & El & Hl & Hi). eexists. exists (map an_net l). split; [reflexivity|].
  assert (Hi' : forall i, (i < r)%nat -> exists m, nth_error l i = Some (mk_an v m) /\ beside v o (n_prefix n + 1 + Z.of_nat i) m).
  { intros i Hlt. destruct (Hi i Hlt) as (x & [[? _]|(_ & y & Py & ->)] & Ex); [lia|]. exists (x_current y). split; [exact Ex|]. destruct Py as [[? _]|(_ & Bs & _)]; [lia|].
    apply (proj1 (beside_bare v o _ _ Wo)) in Bs. rewrite Po in Bs. replace (n_prefix n + 1 + Z.of_nat i) with (n_prefix o + 1 - Z.of_nat (r - i)) by lia. exact Bs. }
  assert (M : map (mk_an v) (map an_net l) = l).
  { rewrite map_map. rewrite <- (map_id l) at 2. apply map_ext_in. intros a Ia. apply In_nth_error in Ia as (i & Ei). assert (Hl' : (i < r)%nat) by (rewrite <- Hl; apply nth_error_Some; congruence).
    destruct (Hi' i Hl') as (m & Em & _). rewrite Ei in Em. injection Em as ->. reflexivity. }
  rewrite M. split; [exact El|]. rewrite map_length. split; [rewrite Hl; unfold r; lia|]. split.
  - intros i Hlt. rewrite map_length, Hl in Hlt. destruct (Hi' i Hlt) as (m & Em & Bs). exists m. split; [rewrite nth_error_map, Em; reflexivity|exact Bs].
  - intros k Hk. pose proof (Wk k r it X) as Wr. destruct (Nat.leb_spec r k); [lia|exact Wr].
Qed.
Lemma any_exclude_mirror sp v n o : wf_net v n -> wf_net v o -> ~ is_one v o ->
  match address_exclude sp v n o with
  | Ret s => exists s', any_exclude sp (mk_an v n) (mk_an v o) = Ret s' /\ forall k, aexclude_walk sp k (ae_begin s') (ae_end s') = rmap (map (mk_an v)) (exclude_walk sp v k (e_begin s) (e_end s))
  | Err e x => any_exclude sp (mk_an v n) (mk_an v o) = Err e x
  | UB u => False
  end.
Proof.
  intros Wn Wo G. destruct (bare_ok v n Wn) as (Wbn & Ubn & _ & Pn). destruct (bare_ok v o Wo) as (Wbo & Ubo & Fo & Po).
  unfold any_exclude. rewrite any_exclude_open by assumption. unfold address_exclude, exclude_code. rewrite !remove_scope_net_ok by assumption. cbn [bind].
  destruct (subnet_spec sp v (bare v o) (bare v n) Wbo Wbn Ubo Ubn) as (b & -> & _ & Hb). cbn [bind]. destruct b; [|reflexivity]. cbn [negb]. pose proof (proj1 Hb eq_refl) as So.
  destruct (net_eqb_ok v (bare v n) (bare v o) Wbn Wbo) as (e & -> & He). cbn [bind]. destruct e.
  - eexists. split; [reflexivity|]. intros k. unfold aexclude_walk, exclude_walk. destruct k; cbn [walk ae_begin ae_end aexclude_default e_begin e_end exclude_default]; unfold xit_eqb; rewrite eqb_true by (apply net_default_wf || reflexivity); reflexivity.
  - assert (Lt : n_prefix (bare v n) < n_prefix (bare v o)).
    { pose proof (net_top v _ Wbo) as To. pose proof (net_top v _ Wbn) as Tn. destruct (Z.lt_ge_cases (n_prefix (bare v n)) (n_prefix (bare v o))) as [K|K]; [exact K|exfalso].
      assert (Sn : subset v (bare v n) (bare v o)). { apply (nested v (bare v n) (bare v o) (first (bare v o))); auto; [apply So|]; apply in_first; exact Wbo. }
      assert (bare v n = bare v o) by (apply (subset_antisym v); auto). apply He in H. discriminate. }
    destruct (any_exclude_core sp v (bare v n) (bare v o) Wbn Wbo Ubn Ubo So Lt) as (it & x & -> & -> & R). cbn [bind]. eexists. split; [reflexivity|].
    intros k. cbn [ae_begin ae_end e_begin e_end]. apply (rel_walk sp v (bare v o) Wbo Ubo) with (r := Z.to_nat (xcount (bare v n) (bare v o))); [|exact R].
    unfold is_one. rewrite Fo, Po. exact G.
Qed.
