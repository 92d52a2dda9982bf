(** Integer values and networks on a big-endian host. *)
From Verif Require Import Base Tac TextProofs UnicodeModel FixedStringModel V4Model V6Model Uint128Model SpecInt Uint128Proofs Uint128Div2
  SpecText SpecAddr SpecStr SpecV6 StrProofs V4Proofs BufProofs BitProofs FixedStringProofs V4Lemmas V6Proofs V6Full V6Lemmas
  AddressModel SpecOrder AddressProofs NetworkModel SpecNet NetProofs NetProofs2 IterModel SpecAny ErrProofs HostModel SpecEndian.

Lemma mirror_ok v bs : bytes_ok v bs -> bytes_ok v (mirror v bs).
Proof.
  destruct v; [|exact (host_ok false bs)]. intros H. destruct (bytes4 bs H) as (a & b & c & d & -> & A & B & C & D).
  cbn [mirror rev app]. apply bytes4_ok; assumption.
Qed.
Lemma mirror_twice v bs : bytes_ok v bs -> mirror v (mirror v bs) = bs.
Proof. destruct v; [intros _; apply rev_involutive|exact (host_host false bs)]. Qed.
Lemma mirror_addr_ok v a : wf_addr v a -> wf_addr v (mirror_addr v a).
Proof. intros [B S0]. split; [apply mirror_ok; exact B|exact S0]. Qed.
Lemma mirror_addr_twice v a : wf_addr v a -> mirror_addr v (mirror_addr v a) = a.
Proof. intros [B _]. destruct a as [b s]. unfold mirror_addr. cbn [a_bytes a_scope] in *. rewrite mirror_twice by exact B. reflexivity. Qed.

(** Little-endian hosts: the functions of the other files. *)
Lemma le_to v a : to_uint_h true v a = addr_to_uint v a. Proof. destruct v; reflexivity. Qed.
Lemma le_from v n : from_uint_h true v n = addr_from_uint v n. Proof. destruct v; reflexivity. Qed.
Lemma le_parse v ts : parse_h true v ts = addr_parse v ts. Proof. destruct v; reflexivity. Qed.
Lemma le_prefix v p : ip_from_prefix_h true v p = ip_from_prefix v p. Proof. destruct v; reflexivity. Qed.
Lemma le_strict v a m s : strict_netmask_h true v a m s = strict_netmask v a m s. Proof. destruct v; reflexivity. Qed.
Lemma le_mask v ts : parse_netmask_h true v ts = parse_netmask v ts. Proof. destruct v; reflexivity. Qed.
Lemma le_net_parse v ts s : net_parse_h true v ts s = net_parse_res v ts s. Proof. destruct v; reflexivity. Qed.
Lemma le_from_address v a p s : from_address_h true v a p s = from_address v a p s.
Proof.
  unfold from_address_h, from_address, from_address_code. rewrite le_prefix. destruct (ip_from_prefix v p) as [m| |]; cbn [bind]; try reflexivity.
  rewrite le_strict. pose proof (strict_real v a m s) as R. destruct (strict_netmask v a m s) as [x|e x|u]; cbn [bind]; try reflexivity.
  unfold raise_if. destruct e; try reflexivity. cbn in R. congruence.
Qed.
Lemma le_count v n : addresses_count_h true v n = addresses_count v n.
Proof. destruct v; reflexivity. Qed.
Lemma le_supernet v n d np : supernet_h true v n d np = supernet v n d np.
Proof.
  unfold supernet_h, supernet, supernet_code. destruct (n_prefix n =? 0); [reflexivity|].
  assert (G : forall diff, (if diff >? n_prefix n then Err invalid_prefixlen_diff 0
     else let new_prefix := n_prefix n - diff in
          a <- to_uint_h true v (n_addr n) ;; m <- to_uint_h true v (n_mask n) ;; s <- ushl v m diff ;;
          address <- from_uint_h true v (uand v a s) ;; from_address_h true v address new_prefix true) =
    '(result, code) <- (if diff >? n_prefix n then Ret (net_default v, invalid_prefixlen_diff)
     else let new_prefix := n_prefix n - diff in
          a <- addr_to_uint v (n_addr n) ;; m <- addr_to_uint v (n_mask n) ;; s <- ushl v m diff ;;
          address <- addr_from_uint v (uand v a s) ;; r <- from_address v address new_prefix true ;; Ret (r, no_error)) ;; raise_if result code 0).
  { intros diff. destruct (diff >? n_prefix n); [reflexivity|]. cbv zeta. rewrite le_to.
    destruct (addr_to_uint v (n_addr n)); cbn [bind]; try reflexivity. rewrite le_to. destruct (addr_to_uint v (n_mask n)); cbn [bind]; try reflexivity.
    destruct (ushl v _ diff); cbn [bind]; try reflexivity. match goal with |- bind (from_uint_h true v ?x) _ = _ => rewrite (le_from v x); destruct (addr_from_uint v x) end; cbn [bind]; try reflexivity.
    rewrite le_from_address. destruct (from_address v _ _ true); reflexivity. }
  destruct np as [q|]; [|apply G]. destruct (q >? n_prefix n); [reflexivity|]. destruct (negb (d =? 1)); [reflexivity|apply G].
Qed.
Lemma le_ait v a c : ait_make_h true v a c = ait_make v a c. Proof. destruct v; reflexivity. Qed.
Lemma le_hosts sp v n : hosts_h true sp v n = hosts sp v n. Proof. destruct v; reflexivity. Qed.
Lemma le_hosts_at v s k : hosts_at_h true v s k = hosts_at v s k. Proof. destruct v; reflexivity. Qed.

(** *** Big-endian hosts: integers *)
Lemma be_to v a : bytes_ok v (a_bytes a) -> to_uint_h false v a = addr_to_uint v (mirror_addr v a).
Proof.
  intros B. destruct v; cbn [to_uint_h addr_to_uint mirror_addr mirror a_bytes].
  - destruct (bytes4 _ B) as (x & y & z & w & -> & X & Y & Z0 & W). cbn [rev app]. rewrite !v4_to_uint_pack by assumption. reflexivity.
  - destruct (v6_to_uint_host false _ B) as (u & -> & U & E). destruct (v6_to_uint_ok _ (host_ok false _ B)) as (u' & E' & U' & V).
    cbn [host] in E', V, E. rewrite E'. cbn [bind]. congruence.
Qed.
Lemma be_from v n : 0 <= n < 2 ^ width v -> from_uint_h false v n = rmap (mirror_addr v) (addr_from_uint v n).
Proof.
  intros H. destruct v; cbn [from_uint_h addr_from_uint width] in *.
  - destruct (unpack4 n H) as (a & b & c & d & A & B & C & D & ->). rewrite !v4_from_uint_pack by assumption. reflexivity.
  - destruct (v6_from_uint_host false (of_Z n) (of_Z_wf n)) as (b & -> & B & E). destruct (v6_from_uint_ok (of_Z n) (of_Z_wf n)) as (b' & -> & B' & E').
    cbn [bind rmap]. unfold mirror_addr. cbn [a_bytes a_scope]. do 2 f_equal.
    assert (b' = host false b) as -> by (apply (be_value_inj V6); [exact B'|apply host_ok; exact B|congruence]).
    symmetry. apply (host_host false). exact B.
Qed.
Lemma be_to_val v a : wf_addr v a -> to_uint_h false v a = Ret (val (mirror_addr v a)).
Proof. intros W. rewrite be_to by apply W. apply to_uint_val, mirror_addr_ok, W. Qed.
Lemma be_from_of v n : 0 <= n < 2 ^ width v -> from_uint_h false v n = Ret (mirror_addr v (addr_of v n)).
Proof. intros H. rewrite be_from, from_uint_of by exact H. reflexivity. Qed.
Lemma be_round v a : wf_addr v a -> a_scope a = [] -> exists n, to_uint_h false v a = Ret n /\ from_uint_h false v n = Ret a.
Proof.
  intros W Hs. pose proof (mirror_addr_ok v a W) as W'. exists (val (mirror_addr v a)). split; [apply be_to_val, W|].
  rewrite be_from_of by (apply val_range; exact W'). rewrite addr_of_eq by (try exact W'; exact Hs). rewrite mirror_addr_twice by exact W. reflexivity.
Qed.

(** *** IPv4 networks *)
Lemma be_prefix4 p : 0 <= p <= 32 -> ip_from_prefix_h false V4 p = rmap (mirror_addr V4) (ip_from_prefix V4 p).
Proof.
  intros H. assert (C : forallb (fun p => match ip_from_prefix_h false V4 p, ip_from_prefix V4 p with
    | Ret a, Ret b => list_eqb (a_bytes a) (rev (a_bytes b)) && (zlen (a_scope a) =? 0) && (zlen (a_scope b) =? 0) | _, _ => false end) (upto 33) = true) by (vm_compute; reflexivity).
  rewrite forallb_forall in C. specialize (C p (in_upto 33 p ltac:(lia))).
  destruct (ip_from_prefix_h false V4 p) as [[a s]| |]; try discriminate. destruct (ip_from_prefix V4 p) as [[b t]| |]; try discriminate.
  cbn [a_bytes a_scope] in C. apply andb_true_iff in C as [C Ct]. apply andb_true_iff in C as [C Cs].
  assert (s = []) as -> by (destruct s; [reflexivity|rewrite zlen_cons in Cs; pose proof (zlen_nonneg s); lia]).
  assert (t = []) as -> by (destruct t; [reflexivity|rewrite zlen_cons in Ct; pose proof (zlen_nonneg t); lia]).
  cbn [rmap]. unfold mirror_addr. cbn [a_bytes a_scope mirror]. do 2 f_equal. revert C. generalize (rev b). clear.
  induction a as [|x a IH]; intros [|y b] C; cbn in C; try discriminate; [reflexivity|]. apply andb_true_iff in C as [C1 C2].
  f_equal; [lia|auto].
Qed.
Lemma be_strict4 a m s : wf_addr V4 a -> wf_addr V4 m ->
  strict_netmask_h false V4 a m s = rmap (mirror_addr V4) (strict_netmask V4 (mirror_addr V4 a) (mirror_addr V4 m) s).
Proof.
  intros Wa Wm. pose proof (mirror_addr_ok _ _ Wa) as Wa'. pose proof (mirror_addr_ok _ _ Wm) as Wm'.
  unfold strict_netmask_h, strict_netmask, v4_strict_netmask.
  change (v4_to_uint false (a_bytes a)) with (to_uint_h false V4 a). change (v4_to_uint false (a_bytes m)) with (to_uint_h false V4 m).
  change (v4_to_uint true (a_bytes (mirror_addr V4 a))) with (addr_to_uint V4 (mirror_addr V4 a)).
  change (v4_to_uint true (a_bytes (mirror_addr V4 m))) with (addr_to_uint V4 (mirror_addr V4 m)).
  rewrite (be_to_val V4 a Wa), (be_to_val V4 m Wm), (to_uint_val V4 _ Wa'), (to_uint_val V4 _ Wm'). cbn [bind].
  set (x := val (mirror_addr V4 a)) in *. set (y := val (mirror_addr V4 m)) in *.
  assert (X : 0 <= x < 2 ^ 32) by (apply (val_range V4); exact Wa'). assert (Y : 0 <= y < 2 ^ 32) by (apply (val_range V4); exact Wm').
  destruct (negb (Z.land x y =? x)).
  - destruct s; [reflexivity|]. cbn [bind rmap]. pose proof (be_from V4 (Z.land x y)) as K. cbn [from_uint_h addr_from_uint rmap width] in K.
    apply K. apply land_lt; lia.
  - cbn [bind rmap]. do 2 f_equal. destruct a as [b t]. destruct Wa as [_ Ht]. cbn [a_scope] in Ht. subst t.
    unfold mirror_addr. cbn [a_bytes a_scope mirror]. rewrite rev_involutive. reflexivity.
Qed.
Lemma be_from_address4 a p s : wf_addr V4 a -> 0 <= p <= 32 ->
  from_address_h false V4 a p s = rmap (mirror_net V4) (from_address V4 (mirror_addr V4 a) p s).
Proof.
  intros W H. rewrite <- le_from_address. unfold from_address_h. rewrite (be_prefix4 p H), (le_prefix V4 p).
  rewrite (from_prefix_of V4 p H). cbn [bind rmap]. pose proof (mask_of_wf V4 p H) as Wm.
  rewrite be_strict4 by (try apply mirror_addr_ok; assumption). rewrite (mirror_addr_twice V4 (mask_of V4 p)) by exact Wm. change (strict_netmask_h true V4) with (strict_netmask V4).
  destruct (strict_netmask V4 (mirror_addr V4 a) (mask_of V4 p) s); reflexivity.
Qed.

(** Mirrored networks. *)
Lemma or_bytes_rev : forall a b, length a = length b -> or_bytes (rev a) (rev b) = rev (or_bytes a b).
Proof.
  induction a as [|x a IH]; intros [|y b] L; try discriminate; [reflexivity|]. cbn [rev or_bytes]. cbn [length] in L.
  rewrite or_bytes_app by (rewrite !rev_length; lia). rewrite IH by lia. reflexivity.
Qed.
Lemma mirror_map v f bs : mirror v (map f bs) = map f (mirror v bs).
Proof. destruct v; cbn [mirror]; [symmetry; apply map_rev|]. rewrite map_app, !map_rev, firstn_map, skipn_map. reflexivity. Qed.
Lemma or_bytes_first : forall k a b, firstn k (or_bytes a b) = or_bytes (firstn k a) (firstn k b).
Proof. induction k as [|k IH]; intros [|x a] [|y b]; cbn; try reflexivity. rewrite IH. reflexivity. Qed.
Lemma or_bytes_skip : forall k a b, length a = length b -> skipn k (or_bytes a b) = or_bytes (skipn k a) (skipn k b).
Proof. induction k as [|k IH]; intros [|x a] [|y b] L; cbn in *; try reflexivity; try discriminate. apply IH. lia. Qed.
Lemma mirror_or v a b : length a = length b -> mirror v (or_bytes a b) = or_bytes (mirror v a) (mirror v b).
Proof.
  intros L. destruct v; cbn [mirror]; [symmetry; apply or_bytes_rev, L|].
  rewrite or_bytes_first, or_bytes_skip by exact L. rewrite <- !or_bytes_rev by (rewrite ?firstn_length, ?skipn_length; lia).
  rewrite or_bytes_app by (rewrite !rev_length, !firstn_length; lia). reflexivity.
Qed.
Lemma mirror_broadcast v n : bytes_net v n -> broadcast (mirror_net v n) = mk_addr (mirror v (a_bytes (broadcast n))) [].
Proof.
  intros [[[La _] _] [[Lm _] _]]. unfold broadcast, hostmask, mirror_net. cbn [n_addr n_mask mirror_addr a_bytes a_scope].
  rewrite <- mirror_map, <- mirror_or by (rewrite map_length; lia). reflexivity.
Qed.
Lemma not_bytes_ok v b : bytes_ok v b -> bytes_ok v (map (fun b => w8 (Z.lxor b 0xFF)) b).
Proof.
  intros [L F]. split; [rewrite map_length; exact L|]. apply Forall_forall. intros x Hx. apply in_map_iff in Hx as (y & <- & Hy).
  rewrite Forall_forall in F. specialize (F y Hy). rewrite xor_byte by exact F. unfold is_byte in *. lia.
Qed.
Lemma broadcast_wf v n : bytes_net v n -> wf_addr v (broadcast n).
Proof.
  intros [[[La _] _] [Bm _]]. apply empty_scope. unfold hostmask. cbn [a_bytes]. apply not_bytes_ok in Bm as [Lm Fm]. split; [|apply or_bytes_ok].
  rewrite or_bytes_length; [exact La|congruence].
Qed.
Lemma mirror_bytes_net v n : bytes_net v n -> bytes_net v (mirror_net v n).
Proof. intros [A B]. split; apply mirror_addr_ok; assumption. Qed.
Lemma mirror_net_twice v n : bytes_net v n -> mirror_net v (mirror_net v n) = n.
Proof. intros [A B]. destruct n as [a m p]. unfold mirror_net. cbn [n_addr n_mask n_prefix] in *. rewrite !mirror_addr_twice by assumption. reflexivity. Qed.
Lemma be_broadcast v n : bytes_net v n -> mirror_addr v (broadcast n) = broadcast (mirror_net v n).
Proof. intros B. rewrite mirror_broadcast by exact B. reflexivity. Qed.

Lemma be_count v n : bytes_net v n -> addresses_count_h false v n = addresses_count v (mirror_net v n).
Proof.
  intros B. unfold addresses_count_h, addresses_count. rewrite (be_to v (broadcast n)) by apply broadcast_wf, B. rewrite (be_to v (n_addr n)) by apply B.
  rewrite (be_broadcast v n B). reflexivity.
Qed.
Lemma be_supernet4 n d np : bytes_net V4 n -> 0 <= d -> 0 <= n_prefix n <= 32 -> (forall q, np = Some q -> 0 <= q) ->
  supernet_h false V4 n d np = rmap (mirror_net V4) (supernet V4 (mirror_net V4 n) d np).
Proof.
  intros B Hd Hp Hq. rewrite <- le_supernet. unfold supernet_h. cbn [mirror_net n_prefix]. destruct (n_prefix n =? 0).
  { cbn [rmap]. rewrite mirror_net_twice by exact B. reflexivity. }
  pose proof (mirror_bytes_net _ _ B) as B'. destruct B as [Wa Wm]. destruct B' as [Wa' Wm']. cbn [mirror_net n_addr n_mask] in Wa', Wm'.
  assert (G : forall diff, 0 <= diff -> (if diff >? n_prefix n then Err invalid_prefixlen_diff 0
     else let new_prefix := n_prefix n - diff in
          a <- to_uint_h false V4 (n_addr n) ;; m <- to_uint_h false V4 (n_mask n) ;; s <- ushl V4 m diff ;;
          address <- from_uint_h false V4 (uand V4 a s) ;; from_address_h false V4 address new_prefix true) =
    rmap (mirror_net V4) (if diff >? n_prefix n then Err invalid_prefixlen_diff 0
     else let new_prefix := n_prefix n - diff in
          a <- to_uint_h true V4 (mirror_addr V4 (n_addr n)) ;; m <- to_uint_h true V4 (mirror_addr V4 (n_mask n)) ;; s <- ushl V4 m diff ;;
          address <- from_uint_h true V4 (uand V4 a s) ;; from_address_h true V4 address new_prefix true)).
  { intros diff H. destruct (Z.gtb_spec diff (n_prefix n)); [reflexivity|]. cbv zeta.
    rewrite (be_to V4 _ (proj1 Wa)), (be_to V4 _ (proj1 Wm)). change (to_uint_h true V4) with (addr_to_uint V4).
    rewrite (to_uint_val V4 _ Wa'), (to_uint_val V4 _ Wm'). cbn [bind].
    set (x := val (mirror_addr V4 (n_addr n))) in *. set (y := val (mirror_addr V4 (n_mask n))) in *.
    assert (X : 0 <= x < 2 ^ 32) by (apply (val_range V4); exact Wa'). assert (Y : 0 <= y < 2 ^ 32) by (apply (val_range V4); exact Wm').
    destruct (Z.eq_dec diff 32) as [->|N].
    { change 32 with (width V4). rewrite ushl_width. reflexivity. }
    rewrite (ushl_ok V4 y diff Y) by (cbn [width]; lia). cbn [bind]. change (from_uint_h true V4) with (addr_from_uint V4).
    assert (R : 0 <= (y * 2 ^ diff) mod 2 ^ width V4 < 2 ^ width V4) by (apply Z.mod_pos_bound; reflexivity).
    rewrite (uand_ok V4 x _ X R). assert (K : 0 <= Z.land x ((y * 2 ^ diff) mod 2 ^ width V4) < 2 ^ width V4).
    { cbn [width] in *. apply land_lt; lia. }
    rewrite (be_from V4 _ K), (from_uint_of V4 _ K). cbn [bind rmap].
    pose proof (addr_of_wf V4 _ K) as WK.
    rewrite be_from_address4 by (try apply mirror_addr_ok; auto; lia). rewrite (mirror_addr_twice V4 _ WK). rewrite (le_from_address V4). reflexivity. }
  destruct np as [q|]; [|apply G; exact Hd]. destruct (Z.gtb_spec q (n_prefix n)); [reflexivity|]. destruct (negb (d =? 1)); [reflexivity|apply G; lia].
Qed.
