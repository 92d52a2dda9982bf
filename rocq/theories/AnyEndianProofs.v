(** Version-erased classes on a big-endian host: texts and integers. *)
From Coq Require Import String.
From Verif Require Import Base Tac TextProofs UnicodeModel FixedStringModel V4Model V6Model Uint128Model SpecInt Uint128Proofs Uint128Div2
  SpecText SpecAddr SpecStr SpecV4 SpecV6 StrProofs V4Proofs BufProofs BitProofs FixedStringProofs V4Lemmas V6Proofs V6Parse V6Grammar V6Full V6Lemmas UnicodeLemmas
  AddressModel SpecOrder AddressProofs NetworkModel SpecNet NetProofs NetProofs2 NetProofs3 NetLemmas IterModel SpecAny NetWitness LooseProofs NetText MaskProofs CodeProofs
  AnyModel AnyProofs HostModel SpecEndian EndianProofs EndianProofs2 EndianProofs3 EndianProofs4 EndianProofs5 EndianLemmas EndianProofs6 EndianProofs7 AnyHostModel SpecAnyEndian.
Close Scope string_scope.
Open Scope Z_scope.
Open Scope list_scope.

(** *** Little-endian hosts *)
Lemma le_ait_at v a k : ait_at_h true v a k = ait_at v a k. Proof. destruct v; reflexivity. Qed.
Lemma le_ait_sub v a k : ait_sub_h true v a k = ait_sub v a k. Proof. destruct v; reflexivity. Qed.
Lemma le_ait_base v a : ait_base_h true v a = ait_base v a. Proof. destruct v; reflexivity. Qed.
Lemma le_ait_reverse v a : ait_reverse_h true v a = ait_reverse v a. Proof. destruct v; reflexivity. Qed.
Lemma le_nit_at v a k : nit_at_h true v a k = nit_at v a k.
Proof. unfold nit_at_h, nit_at. rewrite le_ait_add. destruct (ait_add v (ni_it a) _); cbn [bind]; try reflexivity. apply le_from_address. Qed.
Lemma le_nit_sub v a k : nit_sub_h true v a k = nit_sub v a k.
Proof. unfold nit_sub_h, nit_sub. rewrite le_ait_sub. destruct (ait_sub v (ni_it a) _); cbn [bind]; try reflexivity. rewrite le_from_address. reflexivity. Qed.
Lemma le_nit_base v a : nit_base_h true v a = nit_base v a.
Proof. unfold nit_base_h, nit_base. cbv zeta. rewrite le_from. destruct (addr_from_uint v _); cbn [bind]; try reflexivity. rewrite le_from_address. reflexivity. Qed.
Lemma le_nit_reverse v a : nit_reverse_h true v a = nit_reverse v a.
Proof. unfold nit_reverse_h, nit_reverse. cbv zeta. rewrite le_from. destruct (addr_from_uint v _); cbn [bind]; try reflexivity. rewrite le_from_address. reflexivity. Qed.

Lemma any_little :
  (forall ts, any_parse_h true ts = any_parse ts) /\ (forall ts c, any_parse_code_h true ts c = any_parse_code ts c) /\
  (forall x, any_to_uint32_h true x = any_to_uint32 x) /\ (forall x, any_to_uint128_h true x = any_to_uint128 x) /\
  (forall ts s, anet_parse_h true ts s = anet_parse ts s) /\ (forall ts c s, anet_parse_code_h true ts c s = anet_parse_code ts c s) /\
  (forall x, anet_count_h true x = anet_count x) /\ (forall a p s, anet_from_address_h true a p s = anet_from_address a p s) /\
  (forall x d np, anet_supernet_h true x d np = anet_supernet x d np) /\ (forall sp x, any_hosts_h true sp x = any_hosts sp x) /\
  (forall sp x d np, any_subnets_h true sp x d np = any_subnets sp x d np).
Proof.
  split; [reflexivity|]. split; [reflexivity|]. split; [intros x; unfold any_to_uint32_h, any_to_uint32; rewrite !le_to; reflexivity|].
  split; [intros x; unfold any_to_uint128_h, any_to_uint128; rewrite !le_to; reflexivity|].
  split; [intros ts s; unfold anet_parse_h, anet_parse, net_parse_code_h, net_parse_raise_h, net_parse_code, net_parse; rewrite !le_net_parse; reflexivity|].
  split; [intros ts c s; unfold anet_parse_code_h, anet_parse_code, net_parse_code_h, net_parse_code; rewrite !le_net_parse; reflexivity|].
  split; [intros x; unfold anet_count_h, anet_count; rewrite !le_count; reflexivity|].
  split; [intros a p s; unfold anet_from_address_h, anet_from_address; rewrite !le_from_address; reflexivity|].
  split; [intros x d np; unfold anet_supernet_h, anet_supernet; rewrite !le_supernet; reflexivity|].
  split; [intros sp x; unfold any_hosts_h, any_hosts; rewrite !le_hosts; reflexivity|].
  intros sp x d np. unfold any_subnets_h, any_subnets. rewrite !le_subnets. reflexivity.
Qed.
Lemma any_iterators_little :
  (forall a n, aiter_add (host_ops_h true) a n = aiter_add host_ops a n) /\ (forall a n, aiter_sub (host_ops_h true) a n = aiter_sub host_ops a n) /\
  (forall a n, aiter_at (host_ops_h true) a n = aiter_at host_ops a n) /\ (forall a, aiter_base (host_ops_h true) a = aiter_base host_ops a) /\
  (forall a, aiter_reverse (host_ops_h true) a = aiter_reverse host_ops a) /\
  (forall a n, aiter_add (net_ops_h true) a n = aiter_add net_ops a n) /\ (forall a n, aiter_sub (net_ops_h true) a n = aiter_sub net_ops a n) /\
  (forall a n, aiter_at (net_ops_h true) a n = aiter_at net_ops a n) /\ (forall a, aiter_base (net_ops_h true) a = aiter_base net_ops a) /\
  (forall a, aiter_reverse (net_ops_h true) a = aiter_reverse net_ops a).
Proof.
  repeat split; intros; unfold aiter_add, aiter_sub, aiter_at, aiter_base, aiter_reverse; cbn [host_ops_h host_ops net_ops_h net_ops o_get o_add o_sub o_at o_base o_reverse];
  rewrite ?le_ait_add, ?le_ait_sub, ?le_ait_at, ?le_ait_base, ?le_ait_reverse, ?le_nit_add, ?le_nit_sub, ?le_nit_at, ?le_nit_base, ?le_nit_reverse; reflexivity.
Qed.

(** *** Texts of addresses *)
Lemma any_big_text ts : (forall s, ts = chars s -> ~ dotted_tail s) -> any_parse_h false ts = any_parse ts /\ forall c, any_parse_code_h false ts c = any_parse_code ts c.
Proof.
  intros H. unfold any_parse_h, any_parse_code_h, any_parse, any_parse_code, parse_code_h, addr_parse_code. rewrite (big_text6 ts H), (big_text4 ts). split; reflexivity.
Qed.
Lemma any_big_dotted s : dotted_tail s -> any_parse_h false (chars s) = rmap reversed_any (any_parse (chars s)) /\
  forall c, any_parse_code_h false (chars s) c = rmap (fun r => (if ec_eqb (snd r) no_error then reversed_any (fst r) else fst r, snd r)) (any_parse_code (chars s) c).
Proof.
  intros T. unfold any_parse_h, any_parse_code_h, any_parse, any_parse_code, parse_code_h, addr_parse_code. rewrite (big_text6_dotted s T), (big_text4 (chars s)).
  destruct (addr_parse V4 (chars s)) as [a|e x|u] eqn:E4; cbn [bind]; [split; reflexivity| |split; reflexivity].
  destruct (ec_eqb e no_error) eqn:Ee; [split; [reflexivity|]; intros c; cbn [rmap fst snd]; rewrite Ee; reflexivity|].
  destruct (addr_parse V6 (chars s)) as [b|e' x'|u'] eqn:E6; cbn [bind rmap]; (split; [reflexivity|]); intros c; try reflexivity.
  destruct (ec_eqb e' no_error) eqn:Ee'; cbn [rmap fst snd]; rewrite Ee'; reflexivity.
Qed.

(** *** Integers *)
Lemma any_big_to x : wf_addr (aa_ver x) (aa_addr x) ->
  any_to_uint128_h false x = Ret (be_value (a_bytes (aa_addr (mirror_any x)))) /\ any_to_uint32_h false x = Ret (be_value (a_bytes (aa_addr (mirror_any x))) mod 2 ^ 32).
Proof.
  destruct x as [v a]. cbn [aa_ver aa_addr mirror_any mirror_addr a_bytes]. intros W. unfold any_to_uint128_h, any_to_uint32_h. cbn [aa_ver aa_addr].
  pose proof (val_range v _ (mirror_addr_ok v a W)) as R. unfold val in R. cbn [mirror_addr a_bytes] in R.
  destruct v; cbn [ver_eqb ver_num Z.eqb Pos.eqb width] in *; rewrite (big_to _ a W); cbn [bind]; set (n := be_value _) in *; clearbody n; (split; [|]); try reflexivity.
  - f_equal. rewrite Z.mod_small by exact R. reflexivity.
  - f_equal. apply low32. exact R.
Qed.
Lemma any_big_round v n : 0 <= n < 2 ^ width v -> exists x, any_from_uint_h false v n = Ret x /\ aa_ver x = v /\ wf_addr v (aa_addr x) /\
  any_to_uint128_h false x = Ret n /\ (v = V4 -> any_to_uint32_h false x = Ret n).
Proof.
  intros H. unfold any_from_uint_h. rewrite (be_from_of v n H). cbn [bind]. eexists. split; [reflexivity|]. cbn [aa_ver aa_addr]. split; [reflexivity|].
  pose proof (addr_of_wf v n H) as W. pose proof (mirror_addr_ok v _ W) as W'. split; [exact W'|].
  destruct (any_big_to (mk_aa v (mirror_addr v (addr_of v n))) W') as [E1 E2]. rewrite E1, E2. unfold mirror_any. cbn [aa_ver aa_addr].
  rewrite (mirror_addr_twice v _ W). change (be_value (a_bytes (addr_of v n))) with (val (addr_of v n)). rewrite (addr_of_val v n H).
  split; [reflexivity|]. intros ->. rewrite Z.mod_small by exact H. reflexivity.
Qed.

(** *** Texts of networks *)
Lemma split_parts_in M ts : 0 < M ->
  (exists e x, net_split M ts (repeat 0 (Z.to_nat (M + 1))) 0 false [] = Err e x) \/
  exists pre mt, net_split M ts (repeat 0 (Z.to_nat (M + 1))) 0 false [] = Ret (buf (M + 1) pre, mt) /\ zlen pre <= M + 1 /\
    (forall c, In c pre -> In (Ch c) ts) /\ (forall t, In t mt -> In t ts).
Proof.
  intros HM. destruct (toks_slash ts) as (pre & r & -> & N & H). rewrite buf_nil. change 0 with (zlen (@nil Z)) at 1 2.
  rewrite (split_prefix M HM) by (auto; cbn; lia). change (zlen (@nil Z)) with 0. cbn [app].
  assert (I : forall c, In c pre -> In (Ch c) (chars pre ++ r)) by (intros c Hc; apply in_app_iff; left; apply in_map; exact Hc).
  destruct (Z.leb_spec (0 + zlen pre) M) as [Hl|Hl].
  2:{ right. do 2 eexists. split; [reflexivity|]. split; [unfold zlen; rewrite firstn_length; lia|]. split; [|intros t []].
      intros c Hc. apply I. rewrite <- (firstn_skipn (Z.to_nat (M + 1)) pre). apply in_app_iff. left. exact Hc. }
  destruct H as [->|[(e & x & r' & ->)|(r' & ->)]].
  - right. exists pre, []. cbn [net_split]. split; [reflexivity|]. split; [lia|]. split; [exact I|intros t []].
  - left. cbn [net_split]. eauto.
  - cbn [net_split]. cbn [Z.eqb Pos.eqb andb]. destruct (Z.eqb_spec (zlen r') 0) as [Z0|Z0]; [left; eauto|].
    cbn [bind negb]. destruct (Z.gtb_spec (zlen pre) M); [lia|].
    destruct (split_suffix M r' (buf (M + 1) pre) (zlen pre) r' ltac:(lia)) as [(m & -> & Nm & ->)|[K (e & x & ->)]]; [|left; eauto].
    right. exists pre, (chars m). split; [reflexivity|]. split; [lia|]. split; [exact I|]. intros t Ht. apply in_app_iff. right. right. exact Ht.
Qed.
Lemma no_dot_mask ts : ~ In (Ch 46) ts -> parse_netmask_h false V4 ts = rmap mirrored (parse_netmask V4 ts).
Proof.
  intros N. destruct (netmask_digits ts 0) as [[[|] p]|e x|u] eqn:E.
  - exact (be_mask_digits ts p E).
  - unfold parse_netmask_h, parse_netmask, v4_parse_netmask. rewrite E. cbn [bind]. destruct (v4_from_string ts) as [b| |] eqn:Eb; try reflexivity.
    exfalso. destruct (v4_tokens_only ts b Eb) as [s ->]. apply (no_dot_bad s b); [|exact Eb]. intros K. apply N. apply in_map. exact K.
  - unfold parse_netmask_h, parse_netmask, v4_parse_netmask. rewrite E. reflexivity.
  - unfold parse_netmask_h, parse_netmask, v4_parse_netmask. rewrite E. reflexivity.
Qed.
Lemma no_dot_net4 ts strict : ~ In (Ch 46) ts -> net_parse_h false V4 ts strict = net_parse_res V4 ts strict.
Proof.
  intros N. unfold net_parse_h, net_parse_res. change (max_string_len V4) with (L V4).
  destruct (split_parts_in (L V4) ts (L_pos V4)) as [(e & x & ->)|(pre & mt & -> & Hl & I & Im)]; [reflexivity|]. cbn [bind].
  rewrite (no_dot_mask mt) by (intros K; exact (N (Im _ K))). destruct (parse_netmask V4 mt) as [[nm p]|e x|u]; cbn [bind rmap mirrored fst snd]; try reflexivity.
  rewrite array_buf, parse_buf by exact Hl. change (parse_h false V4) with (addr_parse V4).
  destruct (addr_parse V4 (chars (text_of V4 pre))) as [a| |] eqn:Ea; cbn [bind]; try reflexivity. exfalso.
  cbn [addr_parse] in Ea. destruct (v4_from_string (chars (text_of V4 pre))) as [b| |] eqn:Eb; try discriminate.
  apply no_dot_bad in Eb; [exact Eb|]. intros K. apply text_of_in in K. exact (N (I _ K)).
Qed.
Lemma no_colon_net6 ts strict : ~ In (Ch 58) ts -> net_parse_h false V6 ts strict = net_parse_res V6 ts strict.
Proof.
  intros N. unfold net_parse_h, net_parse_res. change (max_string_len V6) with (L V6).
  destruct (split_cases (L V6) ts (L_pos V6)) as [(e & x & ->)|(pre & mt & -> & Hl & I & _)]; [reflexivity|]. cbn [bind].
  change (parse_netmask_h false V6 mt) with (parse_netmask V6 mt). destruct (parse_netmask V6 mt) as [[nm p]| |]; cbn [bind]; try reflexivity.
  rewrite array_buf, parse_buf by exact Hl. rewrite big_text6; [reflexivity|]. intros s Es (p' & q & r & -> & _). apply chars_inj in Es.
  apply N, I, (text_of_in V6). rewrite Es. apply in_app_iff. right. left. reflexivity.
Qed.
Lemma anet_big_text ts strict : ~ In (Ch 46) ts \/ (~ In (Ch 47) ts /\ ~ In (Ch 58) ts) ->
  anet_parse_h false ts strict = anet_parse ts strict /\ forall c, anet_parse_code_h false ts c strict = anet_parse_code ts c strict.
Proof.
  intros H. assert (E : net_parse_h false V4 ts strict = net_parse_res V4 ts strict /\ net_parse_h false V6 ts strict = net_parse_res V6 ts strict).
  { destruct H as [H|[H1 H2]]; [split; [apply no_dot_net4|apply be_net6]; exact H|split; [apply be_net4_plain|apply no_colon_net6]; assumption]. }
  destruct E as [E4 E6]. unfold anet_parse_h, anet_parse, anet_parse_code_h, anet_parse_code, net_parse_code_h, net_parse_raise_h, net_parse_code, net_parse. rewrite E4, E6. split; reflexivity.
Qed.
