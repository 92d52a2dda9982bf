(** Subnets of single addresses on a big-endian host: the statements of C74. *)
From Coq Require Import String.
From Verif Require Import Base Tac UnicodeModel FixedStringModel V4Model V6Model Uint128Model SpecInt SpecText SpecAddr SpecStr SpecV4 SpecV6
  StrProofs BitProofs AddressModel SpecOrder AddressProofs NetworkModel SpecNet NetProofs NetProofs2 NetProofs3 NetLemmas IterModel SpecIter SpecAny NetWitness
  HostModel SpecEndian EndianProofs EndianProofs2 EndianProofs6 EndianProofs7 EndianProofs11 EndianProofs12.
Open Scope Z_scope.
Open Scope list_scope.

Lemma ones_mirror v : mirror_addr v (mask_of v (width v)) = mask_of v (width v).
Proof. destruct v; vm_compute; reflexivity. Qed.
Lemma single_from v a s : wf_addr v a -> from_address_h false v a (width v) s = Ret (net_of v a (width v)).
Proof.
  intros W. pose proof (mirror_addr_ok v a W) as W'.
  assert (E : from_address_h false v a (width v) s = rmap (mirror_net v) (from_address v (mirror_addr v a) (width v) s)).
  { destruct v; [apply be_from_address4; [exact W|cbn; lia]|apply big_from_half; [exact W|auto]]. }
  rewrite E, from_address_spec by (try exact W'; destruct v; cbn; lia). rewrite Z.sub_diag, Z.pow_0_r, Z.mod_1_r. cbn [Z.eqb rmap].
  unfold mirror_net, net_of. cbn [n_addr n_mask n_prefix]. rewrite (mirror_addr_twice v a W), ones_mirror. reflexivity.
Qed.
Definition around (v : ver) (x : nit) (y : ait) : Prop :=
  ni_it x = y /\ ni_current x = net_of v (it_current y) (width v) /\ ni_step x = 1 /\ ni_prefix x = width v /\ wf_addr v (it_current y).
Lemma around_make v a c o : wf_addr v a -> to_uint_h false v a = Ret o -> exists x, nit_make_h false v a 1 (width v) c = Ret x /\ around v x (mk_ait a o c).
Proof. intros W E. unfold nit_make_h, ait_make_h. rewrite (single_from v a true W), E. cbn [bind]. eexists. split; [reflexivity|]. repeat split; apply W. Qed.
Lemma around_next v x y : around v x y -> related (around v) (nit_next_h false v x) (ait_next_h false v y).
Proof.
  intros (Ei & Ec & Es & Ep & W). unfold nit_next_h, nit_add_h, ait_next_h. rewrite Ei, Es, Ep. replace (umul v 1 1) with 1 by (destruct v; reflexivity).
  unfold ait_add_h. change (negb (1 =? 0)) with true. cbv iota zeta. pose proof (add_range v (it_offset y) 1) as R. rewrite (be_from_of v _ R). cbn [bind it_current].
  pose proof (mirror_addr_ok v _ (addr_of_wf v _ R)) as Wm. rewrite (single_from v _ true Wm). cbn [bind related]. unfold around. cbn [ni_it ni_current ni_step ni_prefix it_current]. auto 10.
Qed.
Lemma around_eqb v x x' y y' : around v x x' -> around v y y' -> nit_eqb v x y = ait_eqb v x' y'.
Proof.
  intros (Ei & Ec & _ & _ & W) (Ei' & Ec' & _ & _ & W'). unfold nit_eqb, ait_eqb, net_eqb. rewrite Ei, Ei', Ec, Ec'. destruct (_ =? _); [|reflexivity]. cbn [net_of n_addr n_mask].
  destruct (addr_eqb_ok v _ _ W W') as (r & -> & _). cbn [bind]. destruct r; [|reflexivity].
  assert (Wm : wf_addr v (mask_of v (width v))) by (apply mask_of_wf; destruct v; cbn; lia).
  destruct (addr_eqb_ok v _ _ Wm Wm) as (r & -> & Hr). f_equal. apply Hr. reflexivity.
Qed.
Lemma big_subnets_single sp v n d np : wf_net v n -> n_prefix n = width v -> exists s t, subnets_h false sp v n d np = Ret s /\ hosts_h false sp v n = Ret t /\
  s_size s = 1 /\ subnets_at_h false v s 0 = Ret (mk_net (mk_addr (a_bytes (n_addr n)) []) (n_mask n) (n_prefix n)) /\
  forall k, subnets_walk_h false v k (s_begin s) (s_end s) = rmap (map (fun a => mk_net a (n_mask n) (n_prefix n))) (hosts_walk_h false v k (h_begin t) (h_end t)).
Proof.
  intros W Hp. pose proof W as (Wn & _). set (a := mk_addr (a_bytes (n_addr n)) []). assert (Wa : wf_addr v a) by (destruct v; [split; [apply Wn|reflexivity]|apply empty_scope; apply Wn]).
  assert (Em : n_mask n = mask_of v (width v)) by (pose proof (net_of_eq v n W) as K; rewrite Hp in K; apply (f_equal n_mask) in K; exact K).
  assert (Er : exists b, remove_scope v (n_addr n) = Ret b /\ a_bytes b = a_bytes (n_addr n)) by (destruct v; eexists; split; reflexivity).
  destruct Er as (b & Er & Eb). unfold subnets_h. rewrite Er. cbn [bind]. rewrite Hp, Z.eqb_refl. unfold subnets_single_h. rewrite Eb. fold a. cbv zeta.
  assert (Tu : forall c, a_bytes c = a_bytes (n_addr n) -> to_uint_h false v c = Ret (val (mirror_addr v a))).
  { intros c Ec. rewrite <- (be_to_val v a Wa). unfold a, to_uint_h. cbn [a_bytes]. rewrite Ec. reflexivity. }
  rewrite (Tu b Eb). cbn [bind]. unfold hosts_h, hosts_make_h. rewrite Hp, Z.eqb_refl. destruct (Z.eqb_spec (width v) (width v - 1)); [lia|]. rewrite (Tu (n_addr n) eq_refl). cbn [bind].
  pose proof (mirror_addr_ok v a Wa) as Wa'. pose proof (val_range v _ Wa') as Rx.
  assert (Ex : mirror_addr v (addr_of v (val (mirror_addr v a))) = a) by (rewrite addr_of_eq by (try exact Wa'; reflexivity); apply mirror_addr_twice; exact Wa).
  set (x := val (mirror_addr v a)) in *. clearbody x. pose proof (add_range v x 1) as Ry. set (y := uadd v x 1) in *. clearbody y.
  rewrite (be_from_of v x Rx), (be_from_of v y Ry). cbn [bind]. rewrite Ex. set (l := mirror_addr v (addr_of v y)).
  assert (Wl : wf_addr v l) by (apply mirror_addr_ok, addr_of_wf, Ry).
  assert (Tl : exists o, to_uint_h false v l = Ret o) by (eexists; apply be_to_val, Wl). destruct Tl as [o Tl].
  destruct (around_make v a 0 _ Wa (Tu a eq_refl)) as (p & -> & Ap). cbn [bind].
  destruct (le_unscoped sp v l a Wl Wa) as (_ & _ & -> & _); [unfold l, a; cbn [mirror_addr a_scope]; apply addr_of_scope, Ry|]. cbn [bind].
  set (c := if _ <? _ then 1 else 0). destruct (around_make v l c _ Wl Tl) as (q & -> & Aq). cbn [bind]. unfold ait_make_h. rewrite (Tu a eq_refl), Tl. cbn [bind].
  eexists. eexists. split; [reflexivity|]. split; [reflexivity|]. cbn [s_size s_begin s_end h_begin h_end]. split; [reflexivity|]. rewrite Em. split.
  - unfold subnets_at_h, nit_add_h. cbn [s_begin]. destruct Ap as (Ei & _ & Es & Ep & _). rewrite Ei, Es, Ep. replace (umul v 1 0) with 0 by (destruct v; reflexivity).
    unfold ait_add_h. change (negb (0 =? 0)) with false. cbv iota. cbn [bind it_current]. rewrite (single_from v a true Wa). reflexivity.
  - intros k. unfold subnets_walk_h, hosts_walk_h. apply (walk_related (around v)); try assumption.
    + intros. apply around_eqb; assumption.
    + intros. apply around_next. assumption.
    + intros u w (_ & E & _). exact E.
Qed.
