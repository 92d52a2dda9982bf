(** Default-constructed objects. *)
From Coq Require Import String.
From Verif Require Import Base Tac UnicodeModel V4Model V6Model Uint128Model SpecInt SpecText SpecAddr SpecStr AddressModel SpecOrder AddressProofs
  NetworkModel SpecNet NetProofs NetProofs2 NetProofs3 IterModel SpecIter IterProofs AnyModel AnyProofs ClassifyModel ClassifyProofs SpecClass NetWitness FixedStringModel ScopeModel ContainerModel.
Open Scope string_scope.
Open Scope Z_scope.
Open Scope list_scope.

Definition zero_text (v : ver) : list Z := match v with V4 => str "0.0.0.0" | V6 => str "::" end.
Definition everything (v : ver) : net := match v with V4 => net_at V4 "0.0.0.0/0" | V6 => net_at V6 "::/0" end.
Lemma default_val v : val (addr_default v) = 0. Proof. destruct v; reflexivity. Qed.
Lemma default_addr v : wf_addr v (addr_default v) /\ addr_parse v (chars (zero_text v)) = Ret (addr_default v) /\
  (forall a, wf_addr v a -> (is_unspecified a = true <-> a_bytes a = a_bytes (addr_default v))) /\ forall a, wf_addr v a -> ~ addr_before a (addr_default v).
Proof.
  destruct (addr_default_wf v) as [W0 V0]. split; [exact W0|]. split; [destruct v; vm_compute; reflexivity|]. split; intros a W.
  - rewrite (unspecified_ok v a W). unfold within, unspecified. cbn [fst snd]. pose proof (val_range v a W) as R. split.
    + intros K. apply (val_inj v); [exact W|exact W0|lia].
    + intros K. unfold val in *. rewrite K. lia.
  - intros K. pose proof (val_range v a W) as R. unfold addr_before in K. rewrite V0 in K.
    destruct K as [K|[_ (p & [(y & b & _ & K)|(x & y & a' & b' & _ & K & _)])]]; [lia|destruct v; destruct p; discriminate K..].
Qed.
Lemma default_net v : wf_net v (net_default v) /\ net_parse v (chars (zero_text v)) true = Ret (net_default v) /\
  forall a, wf_addr v a -> (contains (net_default v) a = true <-> is_unspecified a = true).
Proof.
  split; [apply net_default_wf|]. split; [destruct v; vm_compute; reflexivity|]. intros a W. rewrite (contains_spec v _ a (net_default_wf v) W), (unspecified_ok v a W).
  unfold in_net, within, unspecified, first, size. cbn [net_default n_addr n_prefix fst snd]. rewrite default_val, Z.sub_diag. change (2 ^ 0) with 1. lia.
Qed.
Lemma default_any : any_parse (chars (str "0.0.0.0")) = Ret aa_default /\ anet_parse (chars (str "0.0.0.0")) true = Ret an_default /\
  (forall x, any_eqb x aa_default = Ret true -> aa_ver x = V4) /\ (forall x, anet_eqb x an_default = Ret true -> an_ver x = V4).
Proof.
  split; [vm_compute; reflexivity|]. split; [vm_compute; reflexivity|]. split; intros [[|] a] K; try reflexivity; discriminate K.
Qed.
Lemma default_ait v k : 0 <= k < 2 ^ width v -> exists x, ait_add v (ait_default v) k = Ret x /\ wf_addr v (it_current x) /\ val (it_current x) = k /\ it_carry x = 0.
Proof.
  intros H. unfold ait_add. destruct (Z.eqb_spec k 0) as [->|N]; cbn [negb].
  - exists (ait_default v). split; [reflexivity|]. split; [apply addr_default_wf|]. split; [apply default_val|reflexivity].
  - cbn [ait_default it_offset it_carry]. rewrite uadd_ok, Z.add_0_l, Z.mod_small by exact H. rewrite (from_uint_of v k H). cbn [bind]. eexists. split; [reflexivity|]. cbn [it_current it_carry].
    split; [apply addr_of_wf, H|]. split; [apply addr_of_val, H|]. destruct (Z.ltb_spec k 0); [lia|reflexivity].
Qed.
Lemma nit_stay v c k : nit_add v (mk_nit c (ait_default v) 0 0) k = Ret (mk_nit (everything v) (ait_default v) 0 0) /\
  nit_sub v (mk_nit c (ait_default v) 0 0) k = Ret (mk_nit (everything v) (ait_default v) 0 0).
Proof.
  unfold nit_add, nit_sub. cbn [ni_step ni_it ni_prefix]. rewrite umul_ok, Z.mul_0_l, Zmod_0_l. unfold ait_add, ait_sub. cbn [Z.eqb negb bind].
  destruct v; (split; vm_compute; reflexivity).
Qed.
Lemma default_nit v k : ni_current (nit_default v) = net_default v /\
  (exists x, nit_add v (nit_default v) k = Ret x /\ ni_current x = everything v /\ nit_add v x k = Ret x /\ nit_sub v x k = Ret x) /\
  forall a, wf_addr v a -> contains (everything v) a = true.
Proof.
  split; [reflexivity|]. split.
  - eexists. split; [apply nit_stay|]. split; [reflexivity|]. split; apply nit_stay.
  - intros a W. assert (We : wf_net v (everything v)) by (destruct v; wfn). apply (contains_spec v _ a We W). pose proof (val_range v a W) as R. unfold in_net.
    destruct v; exact R.
Qed.
Lemma default_subnets v k : s_size (subnets_default v) = 0 /\ subnets_empty v (subnets_default v) = Ret true /\
  subnets_walk v k (s_begin (subnets_default v)) (s_end (subnets_default v)) = Ret [] /\
  exists x y, subnets_rbegin v (subnets_default v) = Ret x /\ subnets_rend v (subnets_default v) = Ret y /\ subnets_rwalk v k x y = Ret [].
Proof.
  split; [reflexivity|]. split; [destruct v; reflexivity|]. split; [destruct v, k; reflexivity|].
  destruct v; (eexists _, _; split; [vm_compute; reflexivity|]; split; [vm_compute; reflexivity|]; destruct k; vm_compute; reflexivity).
Qed.
Lemma default_exclude sp v k : exclude_walk sp v k (e_begin (exclude_default v)) (e_end (exclude_default v)) = Ret [] /\
  aexclude_walk sp k (ae_begin aexclude_default) (ae_end aexclude_default) = Ret [] /\
  x_current (xit_default v) = net_default v /\ xit_next sp v (xit_default v) = Ret (xit_default v) /\ axit_next sp axit_default = Ret axit_default.
Proof. split; [destruct v, k; reflexivity|]. split; [destruct k; reflexivity|]. split; [reflexivity|]. split; [destruct v; vm_compute; reflexivity|vm_compute; reflexivity]. Qed.
Lemma default_diff v x : nit_uint_diff v (nit_default v) x = match v with V4 => UB DivByZero | V6 => Ret 0 end.
Proof. unfold nit_uint_diff. cbn [nit_default ni_step]. destruct v; cbn [udivide]; reflexivity. Qed.
Lemma failed_subnets sp v n d np s e : subnets_code sp v n no_error d np = Ret (s, e) -> e <> no_error ->
  s = subnets_default v /\ exists s', any_subnets_code sp (mk_an v n) no_error d np = Ret (s', e) /\ aseq_empty net_ops s' = Ret true /\ aseq_size net_ops s' = match v with V4 => UB DivByZero | V6 => Ret 0 end.
Proof.
  intros K N. assert (E : s = subnets_default v).
  { unfold subnets_code in K. destruct (remove_scope v (n_addr n)) as [ad| |]; cbn [bind] in K; [|congruence..]. destruct (_ =? _); [destruct (subnets_single _ _ _ _) as [x| |]; cbn [bind] in K; congruence|].
    destruct (match np with Some _ => _ | None => _ end) as [e'|diff]; [congruence|]. destruct (_ >? _); [congruence|]. destruct (subnets_make _ _ _ _ _ _) as [x| |]; cbn [bind] in K; congruence. }
  split; [exact E|]. subst s. unfold any_subnets_code, anet_is_v4. cbn [an_ver an_net]. destruct v; cbn -[subnets_code net_ops aseq_make aseq_size aseq_empty]; rewrite K; cbn [bind];
    (eexists; split; [reflexivity|split; reflexivity]).
Qed.
Lemma default_aiter : host_aiter_default = aiter_make host_ops V4 (ait_default V4) /\ net_aiter_default = aiter_make net_ops V4 (nit_default V4) /\
  (forall k, 0 <= k < 2 ^ 32 -> exists x, aiter_add host_ops host_aiter_default k = Ret x /\ ai_ver x = V4 /\ aa_ver (ai_cur x) = V4 /\ val (aa_addr (ai_cur x)) = k) /\
  forall k, exists x, aiter_add net_ops net_aiter_default k = Ret x /\ ai_cur x = mk_an V4 (everything V4).
Proof.
  split; [reflexivity|]. split; [reflexivity|]. split.
  - intros k H. unfold aiter_add. cbn [host_aiter_default ai_ver ai_it]. cbn [ver_eqb ver_num Z.eqb Pos.eqb].
    rewrite (low32 k) by lia. rewrite (Z.mod_small k (2 ^ 32)) by exact H.
    destruct (default_ait V4 k H) as (x & E & _ & Vx & _). cbn [o_add host_ops]. rewrite E. cbn [bind]. eexists. split; [reflexivity|]. split; [reflexivity|]. split; [reflexivity|exact Vx].
  - intros k. unfold aiter_add. cbn [net_aiter_default ai_ver ai_it]. cbn [ver_eqb ver_num Z.eqb Pos.eqb]. cbn [o_add net_ops]. unfold nit_default.
    destruct (nit_stay V4 (net_default V4) (u32_of_u128 k)) as [E _]. rewrite E. cbn [bind]. eexists. split; reflexivity.
Qed.
