(** Property theorems C72: hash values tell similar objects apart, in 64 bits
    ([true]) and 32 bits ([false]); they do not identify an object.  SpecHash:
    [one_apart], lists that differ in one place; [fnv_1a_64], [fnv_1a_32], the
    published functions. *)
From Coq Require Import String.
From Verif Require Import Base SpecAddr SpecStr FixedStringModel FixedStringProofs SpecInt Uint128Model AddressModel SpecOrder NetworkModel SpecNet AnyModel SpecAny NetWitness SpecHash HashProofs.

(** Addresses that differ in one byte ... *)
Theorem C72_bytes : forall is64 v a b x y, wf_addr v a -> wf_addr v b -> a_scope a = a_scope b -> one_apart (a_bytes a) (a_bytes b) ->
  addr_hash is64 v a = Ret x -> addr_hash is64 v b = Ret y -> x <> y.
Proof. exact addr_apart. Qed.
Print Assumptions C72_bytes.
Theorem C72_any_bytes : forall is64 v a b x y, wf_addr v a -> wf_addr v b -> a_scope a = a_scope b -> one_apart (a_bytes a) (a_bytes b) ->
  any_hash is64 (mk_aa v a) = Ret x -> any_hash is64 (mk_aa v b) = Ret y -> x <> y.
Proof. exact any_apart. Qed.
Print Assumptions C72_any_bytes.
(** ... for instance any two addresses of the same /24 or /120 ... *)
Theorem C72_block : forall is64 v a b x y, wf_addr v a -> wf_addr v b -> a_scope a = a_scope b -> val a / 256 = val b / 256 -> a <> b ->
  addr_hash is64 v a = Ret x -> addr_hash is64 v b = Ret y -> x <> y.
Proof. exact block_apart. Qed.
Print Assumptions C72_block.
(** ... and addresses whose scope ids differ in one character. *)
Theorem C72_scope : forall is64 a b x y, wf_addr V6 a -> wf_addr V6 b -> val a = val b -> one_apart (a_scope a) (a_scope b) ->
  addr_hash is64 V6 a = Ret x -> addr_hash is64 V6 b = Ret y -> x <> y.
Proof. exact scope_apart. Qed.
Print Assumptions C72_scope.
Example C72_bytes_ex : forall is64, exists x y, addr_hash is64 V4 (addr_at V4 "10.0.0.1") = Ret x /\ addr_hash is64 V4 (addr_at V4 "10.0.7.1") = Ret y /\
  one_apart (a_bytes (addr_at V4 "10.0.0.1")) (a_bytes (addr_at V4 "10.0.7.1")) /\ x <> y.
Proof.
  intros []; (do 2 eexists; split; [vm_compute; reflexivity|]; split; [vm_compute; reflexivity|]; split; [exists [10; 0], 0, 7, [1]; repeat split; vm_compute; congruence|vm_compute; discriminate]).
Qed.

(** IPv4 in 64 bits: also all addresses that agree in their last two bytes.  That no two IPv4 addresses at all collide in 64 bits holds by an exhaustive search outside the prover, and is not proved here. *)
Theorem C72_v4_partial : forall a b x y, wf_addr V4 a -> wf_addr V4 b -> val a mod 2 ^ 16 = val b mod 2 ^ 16 -> a <> b ->
  addr_hash true V4 a = Ret x -> addr_hash true V4 b = Ret y -> x <> y.
Proof. exact v4_halves. Qed.
Print Assumptions C72_v4_partial.
Example C72_v4_ex : exists x y, addr_hash true V4 (addr_at V4 "10.1.0.1") = Ret x /\ addr_hash true V4 (addr_at V4 "192.168.0.1") = Ret y /\
  val (addr_at V4 "10.1.0.1") mod 2 ^ 16 = val (addr_at V4 "192.168.0.1") mod 2 ^ 16 /\ x <> y.
Proof. do 2 eexists. split; [vm_compute; reflexivity|]. split; [vm_compute; reflexivity|]. split; [vm_compute; reflexivity|vm_compute; discriminate]. Qed.

(** Networks of the same length whose addresses differ in one byte, and networks with the same address and different lengths. *)
Theorem C72_networks : forall is64 v n m x y, wf_net v n -> wf_net v m -> n_prefix n = n_prefix m -> a_scope (n_addr n) = a_scope (n_addr m) -> one_apart (a_bytes (n_addr n)) (a_bytes (n_addr m)) ->
  net_hash is64 v n = Ret x -> net_hash is64 v m = Ret y -> x <> y.
Proof. exact net_apart. Qed.
Print Assumptions C72_networks.
Theorem C72_prefix : forall is64 v n m x y, wf_net v n -> wf_net v m -> n_addr n = n_addr m -> n_prefix n <> n_prefix m ->
  net_hash is64 v n = Ret x -> net_hash is64 v m = Ret y -> x <> y.
Proof. exact prefix_apart. Qed.
Print Assumptions C72_prefix.
Theorem C72_any_prefix : forall is64 v n m x y, wf_net v n -> wf_net v m -> n_addr n = n_addr m -> n_prefix n <> n_prefix m ->
  anet_hash is64 (mk_an v n) = Ret x -> anet_hash is64 (mk_an v m) = Ret y -> x <> y.
Proof. exact anet_apart. Qed.
Print Assumptions C72_any_prefix.
Example C72_prefix_ex : exists x y, net_hash true V6 (net_at V6 "2001:db8::/32") = Ret x /\ net_hash true V6 (net_at V6 "2001:db8::/33") = Ret y /\ x <> y.
Proof. do 2 eexists. split; [vm_compute; reflexivity|]. split; [vm_compute; reflexivity|]. vm_compute. discriminate. Qed.

(** 128-bit numbers with the same upper or the same lower half, in 64 bits. *)
Theorem C72_integers : forall a b, wf128 a -> wf128 b -> a <> b -> up a = up b \/ lo a = lo b -> u128_hash 64 a <> u128_hash 64 b.
Proof. exact u128_apart. Qed.
Print Assumptions C72_integers.
Example C72_integers_ex : u128_hash 64 (mk128 1 2) <> u128_hash 64 (mk128 1 3) /\ u128_hash 64 (mk128 1 2) <> u128_hash 64 (mk128 7 2).
Proof. split; vm_compute; discriminate. Qed.

(** Strings that differ in one character. *)
Theorem C72_strings : forall n m f g is64 x y, wf_fs (S n) f -> wf_fs (S m) g -> Forall is_char (fs_chars f) -> Forall is_char (fs_chars g) -> one_apart (fs_chars f) (fs_chars g) ->
  fs_hash is64 f = Ret x -> fs_hash is64 g = Ret y -> x <> y.
Proof. exact fs_apart. Qed.
Print Assumptions C72_strings.
(** The hash of a fixed_string is FNV-1a if the characters are ASCII, *)
Theorem C72_fnv : forall n f, wf_fs (S n) f -> Forall (fun c => 0 <= c < 128) (fs_chars f) ->
  fs_hash true f = Ret (fnv_1a_64 (map octet (fs_chars f))) /\ fs_hash false f = Ret (fnv_1a_32 (map octet (fs_chars f))).
Proof. exact fs_fnv. Qed.
Print Assumptions C72_fnv.
(** but not otherwise: the characters are sign-extended to all bits. *)
Theorem C72_fnv_refuted : exists f, wf_fs 1 f /\ Forall is_char (fs_chars f) /\ fs_hash true f <> Ret (fnv_1a_64 (map octet (fs_chars f))) /\
  fs_hash false f <> Ret (fnv_1a_32 (map octet (fs_chars f))).
Proof. exact fs_fnv_wrong. Qed.
Print Assumptions C72_fnv_refuted.
Example C72_fnv_ex : fs_hash true (mkfs 1 [97]) = Ret 0xaf63dc4c8601ec8c /\ fs_hash false (mkfs 1 [97]) = Ret 0xe40c292c.
Proof. split; vm_compute; reflexivity. Qed.

(** Different objects with the same hash: 'a hash value that can be used to uniquely identify the IP address' is not true. *)
Theorem C72_v6_refuted : forall is64, exists a b h, wf_addr V6 a /\ wf_addr V6 b /\ a <> b /\ addr_hash is64 V6 a = Ret h /\ addr_hash is64 V6 b = Ret h.
Proof. exact v6_collide. Qed.
Print Assumptions C72_v6_refuted.
Theorem C72_v4_refuted : exists a b h, wf_addr V4 a /\ wf_addr V4 b /\ a <> b /\ addr_hash false V4 a = Ret h /\ addr_hash false V4 b = Ret h.
Proof. exact v4_collide. Qed.
Print Assumptions C72_v4_refuted.
Theorem C72_networks_refuted : forall is64, exists n m h, wf_net V6 n /\ wf_net V6 m /\ n <> m /\ net_hash is64 V6 n = Ret h /\ net_hash is64 V6 m = Ret h.
Proof. exact net_collide. Qed.
Print Assumptions C72_networks_refuted.
Theorem C72_integers_refuted : exists a b, wf128 a /\ wf128 b /\ a <> b /\ u128_hash 64 a = u128_hash 64 b.
Proof. exact u128_collide. Qed.
Print Assumptions C72_integers_refuted.
