(** Addresses and networks under any setting of the scope-id macros: specification. *)
From Verif Require Import Base SpecAddr SpecStr SpecV6 SpecLoose SpecConfig SpecOrder AddressModel NetworkModel SpecNet.

(** Addresses that exist when scope ids have at most [n] characters. *)
Definition addr_for (n : Z) (spaces : bool) (a : addr) : Prop :=
  bytes_ok V6 (a_bytes a) /\ scope_id_of n spaces (a_scope a) /\ Forall is_char (a_scope a).
(** Networks: as SpecNet.wf_net for such addresses. *)
Definition net_for (n : Z) (spaces : bool) (x : net) : Prop :=
  addr_for n spaces (n_addr x) /\ bytes_ok V6 (a_bytes (n_mask x)) /\ a_scope (n_mask x) = [] /\
  0 <= n_prefix x <= 128 /\
  val (n_mask x) = 2 ^ 128 - 2 ^ (128 - n_prefix x) /\ val (n_addr x) mod 2 ^ (128 - n_prefix x) = 0.
(** The address text and the prefix length a network text is read as, when the
    parser keeps [n] characters of the address (SpecLoose.net_loose for n = 57). *)
Definition net_loose_for (n : Z) (s t : list Z) (p : Z) : Prop :=
  (~ In 47 (firstn (Z.to_nat (n + 1)) s) /\ before_nul (firstn (Z.to_nat n) s) t /\ p = 128) \/
  (exists r m, s = r ++ 47 :: m /\ ~ In 47 r /\ zlen r <= n /\ before_nul r t /\ loose_mask V6 m p).
(** The network of the address [a] and the prefix length [p]: the block that
    contains it; the scope id stays only when the address begins the block,
    which the strict form demands. *)
Definition network_of (a : addr) (p : Z) (strict : bool) (x : net) : Prop :=
  (strict = true -> val a mod 2 ^ (128 - p) = 0) /\ n_prefix x = p /\
  bytes_ok V6 (a_bytes (n_addr x)) /\ val (n_addr x) = val a - val a mod 2 ^ (128 - p) /\
  a_scope (n_addr x) = (if val a mod 2 ^ (128 - p) =? 0 then a_scope a else []) /\
  bytes_ok V6 (a_bytes (n_mask x)) /\ a_scope (n_mask x) = [] /\ val (n_mask x) = 2 ^ 128 - 2 ^ (128 - p).
