(** Network operations under any setting of the scope-id macros: specification. *)
From Verif Require Import Base AddressModel NetworkModel.

(** The same network without the scope id of its address. *)
Definition without_scope (n : net) : net :=
  mk_net (mk_addr (a_bytes (n_addr n)) []) (n_mask n) (n_prefix n).
