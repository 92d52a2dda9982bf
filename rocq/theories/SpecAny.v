(** Independent specification of version-erased addresses and networks. *)
From Verif Require Import Base SpecAddr SpecV4 SpecV6 SpecOrder SpecNet AddressModel NetworkModel IterModel AnyModel.

(** Those that can exist. *)
Definition wf_any (x : aaddr) : Prop := wf_addr (aa_ver x) (aa_addr x).
Definition wf_anet (x : anet) : Prop := wf_net (an_ver x) (an_net x).
(** IPv4 before IPv6, then the order of the version. *)
Definition any_before (x y : aaddr) : Prop :=
  (aa_ver x = V4 /\ aa_ver y = V6) \/ (aa_ver x = aa_ver y /\ addr_before (aa_addr x) (aa_addr y)).
Definition anet_before (x y : anet) : Prop :=
  (an_ver x = V4 /\ an_ver y = V6) \/ (an_ver x = an_ver y /\ net_before (an_net x) (an_net y)).
(** The addresses of a version-erased network. *)
Definition any_member (x : anet) (a : aaddr) : Prop := an_ver x = aa_ver a /\ in_net (an_ver x) (an_net x) (val (aa_addr a)).
(** The token list holds no reader error called "no error". *)
Definition tok_genuine (t : tok) : Prop := match t with Bad e _ => e <> no_error | _ => True end.
(** The texts of version-erased addresses. *)
Definition any_text (s : list Z) (x : aaddr) : Prop :=
  (aa_ver x = V4 /\ dotted_quad s (a_bytes (aa_addr x)) /\ a_scope (aa_addr x) = []) \/
  (aa_ver x = V6 /\ ~ refused s /\ exists gs, v6_scoped s gs (a_scope (aa_addr x)) /\ a_bytes (aa_addr x) = group_bytes gs).
(** Results seen through a function. *)
Definition rmap {A B} (f : A -> B) (r : res A) : res B := match r with Ret a => Ret (f a) | Err e x => Err e x | UB u => UB u end.
