(** Network operations under every setting of the scope-id macros: inclusion,
    the functions that do not depend on the setting, the default setting. *)
From Coq Require Import String.
From Verif Require Import Base Tac TextProofs UnicodeModel FixedStringModel V4Model V6Model Uint128Model SpecInt Uint128Proofs Uint128Div2
  SpecText SpecAddr SpecStr SpecV4 SpecV6 StrProofs V4Proofs BufProofs BitProofs FixedStringProofs V4Lemmas V6Proofs V6Parse V6Grammar V6Full V6Format V6Lemmas
  AddressModel SpecOrder AddressProofs NetworkModel SpecNet NetProofs NetProofs2 NetProofs3 MaskProofs ErrProofs NetText NetText2 NetText3
  SpecLoose LooseProofs SpecExact HashProofs IterModel ConfigModel SpecConfig ConfigProofs NetConfigModel SpecNetConfig NetConfigProofs NetConfigProofs2 NetConfigProofs3
  NetOpsConfigModel SpecNetOpsConfig ExactProofs NetOpsConfigProofs.
Close Scope string_scope.

Lemma broadcast_for m sp n : net_for m sp n -> wf_addr V6 (broadcast n) /\ val (broadcast n) = first n + size V6 n - 1 /\ a_scope (broadcast n) = [].
Proof. intros H. exact (broadcast_spec V6 _ (bare_wf m sp n H)). Qed.
Lemma ends_for m sp a b : net_for m sp a -> net_for m sp b -> (subset V6 a b <-> first b <= first a /\ first a + size V6 a <= first b + size V6 b).
Proof. intros A B. exact (subset_ends V6 _ _ (bare_wf m sp a A) (bare_wf m sp b B)). Qed.
Lemma le_for g sp a b : addr_for (c_max g) (c_spaces g) a -> addr_for (c_max g) (c_spaces g) b ->
  exists r, op_le_c g sp a b = Ret r /\ (r = true <-> if sp then ~ addr_before b a else ~ either_before b a).
Proof.
  intros A B. unfold op_le_c. destruct sp.
  - destruct (addr_cmp_c_ok g a b A B) as (c & -> & H). cbn [bind]. eexists. split; [reflexivity|]. destruct c.
    + subst b. split; [|reflexivity]. intros _ [K|[_ K]]; [lia|exact (lex_irrefl _ K)].
    + split; [|reflexivity]. intros _ [K|[E K]]; destruct H as [H|[F H]]; try lia. exact (lex_irrefl _ (lex_trans _ _ _ K H)).
    + split; [discriminate|tauto].
  - destruct (addr_ltb_c_ok g b a B A) as (r & -> & H). cbn [bind]. eexists. split; [reflexivity|]. rewrite <- H. destruct r; cbn [negb]; intuition congruence.
Qed.
Lemma subnet_for g sp a b : net_for (c_max g) (c_spaces g) a -> net_for (c_max g) (c_spaces g) b ->
  exists r, subnet_of_c g sp a b = Ret r /\ supernet_of_c g sp b a = Ret r /\ (r = true <-> subset V6 a b /\ scopes_allow sp a b).
Proof.
  intros A B. assert (S0 : supernet_of_c g sp b a = subnet_of_c g sp a b) by reflexivity. rewrite S0. clear S0.
  cut (exists r, subnet_of_c g sp a b = Ret r /\ (r = true <-> subset V6 a b /\ scopes_allow sp a b)).
  { intros (r & E & H). exists r. auto. }
  pose proof (ends_for _ _ a b A B) as E. destruct (broadcast_for _ _ a A) as (Wba & Vba & Sba). destruct (broadcast_for _ _ b B) as (Wbb & Vbb & Sbb).
  unfold subnet_of_c, is_subnet_of_c. destruct (le_for g sp (n_addr b) (n_addr a) (proj1 B) (proj1 A)) as (r & -> & H). cbn [bind].
  rewrite ge_plain by assumption. destruct (le_unscoped sp V6 (broadcast b) (broadcast a) Wbb Wba) as (_ & -> & _); [congruence|]. rewrite Vba, Vbb.
  assert (X : (if sp then ~ addr_before (n_addr a) (n_addr b) else ~ either_before (n_addr a) (n_addr b)) <-> first b <= first a /\ scopes_allow sp a b).
  { unfold scopes_allow, addr_before, either_before. change (val (n_addr a)) with (first a). change (val (n_addr b)) with (first b).
    generalize (first a) (first b) (lex_lt (a_scope (n_addr a)) (a_scope (n_addr b))). clear. intros x y L. destruct sp; intuition lia. }
  rewrite X in H. clear X. destruct r.
  - eexists. split; [reflexivity|]. rewrite Z.leb_le, E. apply proj1 in H. specialize (H eq_refl). destruct H as [H1 H2]. clear - H1 H2. intuition lia.
  - exists false. split; [reflexivity|]. split; [discriminate|]. intros [K L]. apply H. apply E in K. tauto.
Qed.
Lemma subnet_off g sp a b : c_max g = 0 -> net_for (c_max g) (c_spaces g) a -> net_for (c_max g) (c_spaces g) b ->
  exists r, subnet_of_c g sp a b = Ret r /\ supernet_of_c g sp b a = Ret r /\ (r = true <-> subset V6 a b).
Proof.
  intros G A B. destruct (subnet_for g sp a b A B) as (r & E & F & H). exists r. split; [exact E|]. split; [exact F|]. rewrite H.
  assert (S : scopes_allow sp a b).
  { unfold scopes_allow. rewrite (scopes_off g (n_addr a) (n_addr b) ltac:(lia) (proj1 A) (proj1 B)). pose proof (lex_irrefl (a_scope (n_addr b))). destruct sp; tauto. }
  tauto.
Qed.

(** Functions that do not look at scope ids. *)
Lemma from_address_for g a p strict x : addr_for (c_max g) (c_spaces g) a -> 0 <= p <= 128 ->
  from_address V6 a p strict = Ret x <-> network_of a p strict x.
Proof.
  intros (Hb & _) Hp. destruct a as [b s]. cbn [a_bytes] in Hb. rewrite network_made by assumption. unfold from_address, from_address_code.
  rewrite (from_prefix_of V6 p Hp). cbn [bind]. rewrite strict_scope by assumption. unfold made, raise_if.
  destruct (Z.eqb_spec (be_value b mod 2 ^ (128 - p)) 0) as [Z0|Z0]; [|destruct strict]; cbn [bind ec_eqb].
  - split; [intros H; apply ret_inj in H; subst x; auto|intros [_ ->]; reflexivity].
  - split; [discriminate|]. intros [K _]. exfalso. auto.
  - split; [intros H; apply ret_inj in H; subst x; split; [discriminate|reflexivity]|intros [_ ->]; reflexivity].
Qed.
Lemma blind n o a d np code : contains (without_scope n) (mk_addr (a_bytes a) []) = contains n a /\ overlaps (without_scope n) (without_scope o) = overlaps n o /\
  broadcast (without_scope n) = broadcast n /\ hostmask (without_scope n) = hostmask n /\ addresses_count V6 (without_scope n) = addresses_count V6 n /\
  (n_prefix n <> 0 -> supernet V6 (without_scope n) d np = supernet V6 n d np /\ supernet_code V6 (without_scope n) code d np = supernet_code V6 n code d np) /\
  (n_prefix n = 0 -> supernet V6 n d np = Ret n /\ supernet_code V6 n code d np = Ret (n, no_error)).
Proof.
  do 5 (split; [reflexivity|]). split; intros P.
  - assert (X : forall c, supernet_code V6 (without_scope n) c d np = supernet_code V6 n c d np).
    { intros c. unfold supernet_code. change (n_prefix (without_scope n)) with (n_prefix n). destruct (Z.eqb_spec (n_prefix n) 0) as [Q|_]; [contradiction|]. reflexivity. }
    split; [|apply X]. unfold supernet. rewrite X. reflexivity.
  - unfold supernet, supernet_code. rewrite P. split; reflexivity.
Qed.

(** The default setting is the model of the other theorems. *)
Lemma ops_default : (forall sp a b, subnet_of_c default_config sp a b = subnet_of sp V6 a b) /\
  (forall sp n, hosts_c default_config sp n = hosts sp V6 n) /\ (forall k a b, hosts_walk_c default_config k a b = hosts_walk V6 k a b) /\
  (forall sp n code d np, subnets_code_c default_config sp n code d np = subnets_code sp V6 n code d np) /\
  (forall k a b, subnets_walk_c default_config k a b = subnets_walk V6 k a b) /\
  (forall sp n o code, exclude_code_c default_config sp n o code = exclude_code sp V6 n o code) /\
  (forall sp k a b, exclude_walk_c default_config sp k a b = exclude_walk sp V6 k a b).
Proof.
  repeat split; try reflexivity.
Qed.
