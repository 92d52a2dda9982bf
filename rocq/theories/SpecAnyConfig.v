(** ip_address and ip_network under any setting of the scope-id macros: specification. *)
From Verif Require Import Base SpecAddr SpecOrder SpecNet SpecNetConfig SpecNetOpsConfig AddressModel NetworkModel AnyModel.

(** Those that exist when scope ids have at most [n] characters. *)
Definition any_for (n : Z) (spaces : bool) (x : aaddr) : Prop :=
  match aa_ver x with V4 => wf_addr V4 (aa_addr x) | V6 => addr_for n spaces (aa_addr x) end.
Definition anet_for (n : Z) (spaces : bool) (x : anet) : Prop :=
  match an_ver x with V4 => wf_net V4 (an_net x) | V6 => net_for n spaces (an_net x) end.
(** The same network without the scope id of its address. *)
Definition anet_without (x : anet) : anet := mk_an (an_ver x) (without_scope (an_net x)).
