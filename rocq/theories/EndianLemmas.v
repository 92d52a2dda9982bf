(** Big-endian hosts: the statements of C74. *)
From Coq Require Import String.
From Verif Require Import Base Tac TextProofs UnicodeModel FixedStringModel V4Model V6Model Uint128Model SpecInt Uint128Proofs Uint128Div2
  SpecText SpecAddr SpecStr SpecV4 SpecV6 StrProofs V4Proofs BufProofs BitProofs FixedStringProofs V4Lemmas V6Proofs V6Parse V6Grammar V6Full V6Lemmas
  AddressModel SpecOrder AddressProofs NetworkModel SpecNet NetProofs NetProofs2 NetProofs3 NetLemmas IterModel SpecAny NetWitness LooseProofs NetText MaskProofs CodeProofs
  HostModel SpecEndian EndianProofs EndianProofs2 EndianProofs3 EndianProofs4 EndianProofs5.
Open Scope string_scope.
Open Scope Z_scope.
Open Scope list_scope.

Lemma host_little :
  (forall v a, to_uint_h true v a = addr_to_uint v a) /\ (forall v n, from_uint_h true v n = addr_from_uint v n) /\
  (forall v ts, parse_h true v ts = addr_parse v ts) /\ (forall v a p s, from_address_h true v a p s = from_address v a p s) /\
  (forall v ts s, net_parse_h true v ts s = net_parse_res v ts s) /\ (forall v n, addresses_count_h true v n = addresses_count v n) /\
  (forall v n d np, supernet_h true v n d np = supernet v n d np) /\ (forall sp v n, hosts_h true sp v n = hosts sp v n) /\
  (forall v s k, hosts_at_h true v s k = hosts_at v s k).
Proof.
  split; [exact le_to|]. split; [exact le_from|]. split; [exact le_parse|]. split; [exact le_from_address|]. split; [exact le_net_parse|].
  split; [exact le_count|]. split; [exact le_supernet|]. split; [exact le_hosts|exact le_hosts_at].
Qed.
Lemma big_to v a : wf_addr v a -> to_uint_h false v a = Ret (be_value (mirror v (a_bytes a))).
Proof. exact (be_to_val v a). Qed.
Lemma big_from v n : 0 <= n < 2 ^ width v ->
  exists bs, from_uint_h false v n = Ret (mk_addr (mirror v bs) []) /\ bytes_ok v bs /\ be_value bs = n.
Proof.
  intros H. rewrite (be_from_of v n H). exists (a_bytes (addr_of v n)). pose proof (addr_of_wf v n H) as W.
  split; [unfold mirror_addr; rewrite (addr_of_scope v n H); reflexivity|]. split; [apply W|]. change (val (addr_of v n) = n). apply addr_of_val. exact H.
Qed.
Lemma big_round v a n : wf_addr v a -> a_scope a = [] -> 0 <= n < 2 ^ width v ->
  (exists m, to_uint_h false v a = Ret m /\ from_uint_h false v m = Ret a) /\ exists b, from_uint_h false v n = Ret b /\ to_uint_h false v b = Ret n.
Proof.
  intros W Hs H. split; [exact (be_round v a W Hs)|]. rewrite (be_from_of v n H). eexists. split; [reflexivity|]. pose proof (addr_of_wf v n H) as W'.
  rewrite (be_to_val v _ (mirror_addr_ok v _ W')), (mirror_addr_twice v _ W'). f_equal. apply addr_of_val. exact H.
Qed.
Lemma big_to_refuted : exists a, wf_addr V4 a /\ to_uint_h false V4 a <> to_uint_h true V4 a.
Proof. exists (addr_at V4 "127.0.0.1"). split; [apply addr_at_wf; reflexivity|]. vm_compute. discriminate. Qed.

Lemma big_text4 ts : parse_h false V4 ts = addr_parse V4 ts.
Proof. reflexivity. Qed.
Lemma big_text6 ts : (forall s, ts = chars s -> ~ dotted_tail s) -> parse_h false V6 ts = addr_parse V6 ts.
Proof.
  intros H. destruct (toks_split ts) as [[s ->]|(p & e & v & r & ->)]; cbn [parse_h addr_parse].
  - rewrite v6_no_tail by (apply H; reflexivity). reflexivity.
  - rewrite v6_bad_le. reflexivity.
Qed.
Lemma big_text6_dotted s : dotted_tail s -> parse_h false V6 (chars s) = rmap reversed_tail_addr (addr_parse V6 (chars s)).
Proof. intros T. cbn [parse_h addr_parse]. rewrite (v6_tail s T). destruct (v6_from_string true (chars s)) as [[b t]| |]; reflexivity. Qed.

Lemma big_from_address4 a p s : wf_addr V4 a -> 0 <= p <= 32 ->
  from_address_h false V4 a p s = rmap (mirror_net V4) (from_address V4 (mirror_addr V4 a) p s).
Proof. exact (be_from_address4 a p s). Qed.
Lemma big_from_address6 a p s : from_address_h false V6 a p s = from_address V6 a p s.
Proof. rewrite <- (le_from_address V6). reflexivity. Qed.
Lemma big_net4 q q' bs d d' strict : dotted_quad q bs -> dotted_quad q' (rev bs) -> mask_mirror d d' ->
  net_parse_h false V4 (chars (q ++ 47 :: d)) strict = rmap (mirror_net V4) (net_parse_res V4 (chars (q' ++ 47 :: d')) strict).
Proof. exact (be_net4 q q' bs d d' strict). Qed.
Lemma big_net4_plain ts strict : ~ In (Ch 47) ts -> net_parse_h false V4 ts strict = net_parse_res V4 ts strict.
Proof. exact (be_net4_plain ts strict). Qed.
Lemma big_net6 ts strict : ~ In (Ch 46) ts -> net_parse_h false V6 ts strict = net_parse_res V6 ts strict.
Proof. exact (be_net6 ts strict). Qed.
Lemma big_net_refuted : exists s, net_parse_res V4 (chars s) true = Ret (net_at V4 "10.0.0.0/8") /\
  net_parse_h false V4 (chars s) true = Err has_host_bits_set 0.
Proof. exists (str "10.0.0.0/8"). split; vm_compute; reflexivity. Qed.

Lemma big_count v n : wf_net v n -> addresses_count_h false v n = Ret ((be_value (mirror v (a_bytes (hostmask n))) + 1) mod 2 ^ width v).
Proof. exact (be_count_exact v n). Qed.
Lemma big_count6 n : wf_net V6 n -> (addresses_count_h false V6 n = Ret (size V6 n mod 2 ^ 128) <-> n_prefix n = 0 \/ n_prefix n = 64 \/ n_prefix n = 128).
Proof. intros W. pose proof (be_count6 n W) as K. rewrite (count_spec V6 n W) in K. exact K. Qed.
Lemma big_count4 a p s n : wf_addr V4 a -> 1 <= p <= 32 -> from_address_h false V4 a p s = Ret n -> addresses_count_h false V4 n = Ret (2 ^ (32 - p)).
Proof.
  intros W Hp. rewrite (be_from_address4 a p s W) by lia. destruct (from_address V4 (mirror_addr V4 a) p s) as [m| |] eqn:Em; cbn [rmap]; try discriminate.
  intros K. apply ret_inj in K. subst n. apply from_address_wf in Em as [Wm Pm]; [|cbn; lia|apply mirror_addr_ok; exact W].
  assert (B : bytes_net V4 m) by (split; apply Wm). rewrite (be_count V4 _ (mirror_bytes_net V4 m B)), (mirror_net_twice V4 m B).
  rewrite (count_ok V4 m Wm) by lia. unfold size. rewrite Pm. reflexivity.
Qed.
Lemma big_supernet4 n d np : bytes_net V4 n -> 0 <= d -> 0 <= n_prefix n <= 32 -> (forall q, np = Some q -> 0 <= q) ->
  supernet_h false V4 n d np = rmap (mirror_net V4) (supernet V4 (mirror_net V4 n) d np).
Proof. exact (be_supernet4 n d np). Qed.
Lemma big_hosts sp v n k : bytes_net v n -> exists s t, hosts_h false sp v n = Ret s /\ hosts sp v (mirror_net v n) = Ret t /\
  hosts_size v s = hosts_size v t /\ hosts_at_h false v s k = rmap (mirror_addr v) (hosts_at v t k).
Proof. exact (be_hosts_at sp v n k). Qed.
Lemma big_supernet6_refuted : exists n m, wf_net V6 n /\ supernet V6 n 16 None = Ret m /\ supernet_h false V6 n 16 None = Err has_host_bits_set 0.
Proof. exists (net_at V6 "2001:db8::/32"). eexists. split; [wfn|]. split; vm_compute; reflexivity. Qed.
Lemma big_hosts_refuted : exists n s a, wf_net V6 n /\ hosts_h false true V6 n = Ret s /\ hosts_at_h false V6 s 0 = Ret a /\ contains n a = false.
Proof.
  exists (net_at V6 "2001:db8::/120"). eexists. exists (addr_at V6 "2001:db8:0:0:100::"). split; [wfn|]. split; [vm_compute; reflexivity|].
  split; vm_compute; reflexivity.
Qed.
