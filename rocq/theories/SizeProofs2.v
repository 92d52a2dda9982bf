(** Hosts with another size_t: subnets. *)
From Verif Require Import Base Tac V4Model V6Model Uint128Model SpecInt SpecAddr AddressModel NetworkModel IterModel AnyModel SpecNet SpecIter SpecNoexcept NoexceptLemmas BufProofs NetText NetText2 NetText3 SpecLoose LooseProofs SizeModel SpecSize SizeProofs.

Lemma pow_bounds w : size_bits w -> 2 ^ 32 <= 2 ^ w <= 2 ^ 64.
Proof. intros [H K]. split; apply Z.pow_le_mono_r; lia. Qed.
Lemma size_args_ok w d np : size_bits w -> size_args w d np -> args_ok d np.
Proof. intros W [H K]. pose proof (pow_bounds w W). unfold args_ok, is_size. split; [lia|]. destruct np; [lia|exact I]. Qed.
Lemma subnets_code_same w sp v n c d np : size_bits w -> wf_net v n -> size_args w d np -> ~ overflows w v n d np ->
  subnets_code_z w sp v n c d np = subnets_code sp v n c d np.
Proof.
  intros W (_ & _ & _ & P & _) [Hd Hq] O. unfold subnets_code_z, subnets_code. pose proof (pow_bounds w W) as B.
  destruct (remove_scope v (n_addr n)) as [a| |]; cbn [bind]; try reflexivity. destruct (Z.eqb_spec (n_prefix n) (width v)) as [_|N]; [reflexivity|].
  assert (Eq : forall x, 0 <= x < 2 ^ w -> wsize w x = w64 x) by (intros x Hx; unfold wsize, w64; rewrite !Z.mod_small by lia; reflexivity).
  destruct np as [q|].
  - destruct (Z.ltb_spec q (n_prefix n)); [reflexivity|]. destruct (negb (d =? 1)); [reflexivity|]. cbv zeta. rewrite Eq by lia. reflexivity.
  - cbv zeta. rewrite Eq; [reflexivity|]. assert (~ 2 ^ w <= n_prefix n + d) by (intros K; apply O; split; [lia|auto]). lia.
Qed.
Lemma shr_far v x d d' : 129 <= d -> 129 <= d' -> ushr v x d = ushr v x d'.
Proof.
  intros H H'. unfold ushr. destruct v.
  - unfold shr32. destruct (Z.ltb_spec d 32), (Z.ltb_spec d' 32); try lia. rewrite !andb_false_r. reflexivity.
  - unfold u128_shr. destruct (Z.eqb_spec d 0), (Z.eqb_spec d' 0); try lia. destruct (Z.leb_spec d 128), (Z.leb_spec d' 128); try lia.
    destruct (Z.ltb_spec d 64), (Z.ltb_spec d' 64); try lia. rewrite !andb_false_r. reflexivity.
Qed.
Lemma make_far v na ba hm d d' q : 129 <= d -> 129 <= d' -> subnets_make v na ba hm d q = subnets_make v na ba hm d' q.
Proof.
  intros H H'. unfold subnets_make. destruct (addr_to_uint v na); cbn [bind]; try reflexivity. destruct (addr_to_uint v ba); cbn [bind]; try reflexivity.
  destruct (addr_from_uint v _); cbn [bind]; try reflexivity. destruct (addr_from_uint v _); cbn [bind]; try reflexivity.
  destruct (addr_to_uint v hm) as [h| |]; cbn [bind]; try reflexivity. rewrite (shr_far v h d d' H H'). reflexivity.
Qed.
Lemma width_128 v : 32 <= width v <= 128. Proof. destruct v; cbn; lia. Qed.
Lemma subnets_code_over w sp v n c d np : size_bits w -> wf_net v n -> 0 <= d < 2 ^ w -> overflows w v n d np ->
  subnets_code_z w sp v n c d np = subnets_code sp v n c (d + 2 ^ 64 - 2 ^ w) np.
Proof.
  intros W (_ & _ & _ & P & _) Hd (Hp & -> & O). unfold subnets_code_z, subnets_code. pose proof (pow_bounds w W) as B. pose proof (width_128 v) as B'.
  destruct (remove_scope v (n_addr n)) as [a| |]; cbn [bind]; try reflexivity. destruct (Z.eqb_spec (n_prefix n) (width v)) as [N|N]; [lia|]. cbv zeta.
  assert (E : wsize w (n_prefix n + d) = n_prefix n + d - 2 ^ w) by (unfold wsize; symmetry; apply (Z.mod_unique _ _ 1); [left; lia|lia]).
  assert (E' : w64 (n_prefix n + (d + 2 ^ 64 - 2 ^ w)) = n_prefix n + d - 2 ^ w) by (unfold w64; symmetry; apply (Z.mod_unique _ _ 1); [left; lia|lia]).
  rewrite E, E'. destruct (_ >? _); [reflexivity|]. rewrite (make_far v _ _ _ d (d + 2 ^ 64 - 2 ^ w)) by lia. reflexivity.
Qed.
Lemma subnets_same w sp v n d np : size_bits w -> wf_net v n -> size_args w d np -> ~ overflows w v n d np -> subnets_z w sp v n d np = subnets sp v n d np.
Proof. intros W N A O. unfold subnets_z, subnets. rewrite subnets_code_same by assumption. reflexivity. Qed.
Lemma subnets_over w sp v n d np : size_bits w -> wf_net v n -> 0 <= d < 2 ^ w -> overflows w v n d np ->
  subnets_z w sp v n d np = match v with V4 => UB BadShift | V6 => Err has_host_bits_set 0 end.
Proof.
  intros W N A O. unfold subnets_z. rewrite subnets_code_over by assumption. destruct O as (Hp & -> & O). pose proof (pow_bounds w W) as B.
  pose proof N as (_ & _ & _ & P & _).
  rewrite <- (subnets_overflow sp v n (d + 2 ^ 64 - 2 ^ w) N ltac:(unfold is_size; lia) Hp ltac:(lia)). reflexivity.
Qed.
Lemma subnets_code_throws w sp v n c d np : size_bits w -> wf_net v n -> size_args w d np ->
  (throws (subnets_code_z w sp v n c d np) <-> v = V6 /\ overflows w v n d np).
Proof.
  intros W N A. pose proof (pow_bounds w W) as B. pose proof N as (_ & _ & _ & P & _). pose proof (width_128 v) as B'.
  assert (Dec : overflows w v n d np \/ ~ overflows w v n d np).
  { unfold overflows. destruct (Z_lt_dec (n_prefix n) (width v)); [|right; tauto]. destruct np; [right; intros (_ & K & _); discriminate|].
    destruct (Z_le_dec (2 ^ w) (n_prefix n + d)); [left|right]; tauto. }
  destruct Dec as [O|O].
  - rewrite subnets_code_over by (try assumption; apply A). destruct O as (Hp & -> & O). destruct A as [A _].
    rewrite (subnets_throw sp v n c (d + 2 ^ 64 - 2 ^ w) None N) by (split; [unfold is_size; lia|exact I]). unfold wraps, overflows.
    split; intros (E & _ & _ & K); repeat split; try assumption; lia.
  - rewrite subnets_code_same by assumption. rewrite (subnets_throw sp v n c d np N (size_args_ok w d np W A)). split; [|intros (_ & K); contradiction].
    intros (E & Hp & -> & K). exfalso. apply O. split; [exact Hp|]. split; [reflexivity|lia].
Qed.
Lemma any_subnets_same w sp v n d np : size_bits w -> wf_net v n -> size_args w d np -> ~ overflows w v n d np -> any_subnets_z w sp (mk_an v n) d np = any_subnets sp (mk_an v n) d np.
Proof.
  intros W N A O. unfold any_subnets_z, any_subnets. destruct v; cbn [anet_is_v4 an_ver ver_eqb ver_num Z.eqb Pos.eqb an_net]; rewrite subnets_same by assumption; reflexivity.
Qed.
Lemma any_subnets_over w sp v n d np : size_bits w -> wf_net v n -> 0 <= d < 2 ^ w -> overflows w v n d np ->
  any_subnets_z w sp (mk_an v n) d np = match v with V4 => UB BadShift | V6 => Err has_host_bits_set 0 end.
Proof.
  intros W N A O. pose proof (subnets_over w sp v n d np W N A O) as E. unfold any_subnets_z. destruct v; cbn [anet_is_v4 an_ver ver_eqb ver_num Z.eqb Pos.eqb an_net]; rewrite E; reflexivity.
Qed.
Lemma halves_same w sp v n : size_bits w -> wf_net v n -> halves_z w sp v n = halves sp v n.
Proof.
  intros W N. unfold halves_z, halves. pose proof (pow_bounds w W) as B. pose proof N as (_ & _ & _ & P & _). pose proof (width_128 v) as B'.
  rewrite subnets_same; [reflexivity|exact W|exact N|split; [lia|exact I]|]. intros (_ & _ & K). lia.
Qed.

(** *** Round trip *)
Lemma round_trip_z w v n fmt strict : size_bits w -> wf_net v n -> exists s, net_to_string v n fmt = Ret s /\ net_parse_z w v (chars s) strict = Ret n.
Proof.
  intros W N. pose proof N as (Wa & _ & _ & Hp & _). destruct (net_text_ok v n fmt N) as (s & t & d & E & Es & Et & Ed).
  destruct (net_round_trip v n fmt strict N) as (s' & E' & P). rewrite E in E'. injection E' as <-. exists s. split; [exact E|].
  destruct (addr_text_ok v (n_addr n) fmt Wa) as (t' & Et' & _ & _ & S47 & Hl & _). rewrite Et in Et'. injection Et' as <-. subst s.
  apply numeral_dec in Ed. rewrite <- P. apply net_z; [exact W|]. apply (ra_number w v t d (n_prefix n) d); [split; [exact S47|rewrite longest_L; exact Hl]|exact Ed|].
  rewrite Z.mod_small; [exact Ed|]. pose proof (pow_bounds w W). pose proof (width_128 v). lia.
Qed.
