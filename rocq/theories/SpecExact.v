(** What the comparisons do with scope ids: specification. *)
From Verif Require Import Base SpecAddr SpecStr SpecV6 AddressModel SpecOrder NetworkModel SpecNet AnyModel.

(** Smaller by the number or by the scope id (not an order). *)
Definition either_before (a b : addr) : Prop := val a < val b \/ lex_lt (a_scope a) (a_scope b).
Definition net_either_before (a b : net) : Prop :=
  either_before (n_addr a) (n_addr b) \/ (n_addr a = n_addr b /\ n_prefix a < n_prefix b).
Definition any_either_before (x y : aaddr) : Prop :=
  (aa_ver x = V4 /\ aa_ver y = V6) \/ (aa_ver x = aa_ver y /\ either_before (aa_addr x) (aa_addr y)).
Definition anet_either_before (x y : anet) : Prop :=
  (an_ver x = V4 /\ an_ver y = V6) \/ (an_ver x = an_ver y /\ net_either_before (an_net x) (an_net y)).
(** The scope ids under which [a] can be a subnet of [b]: with the C++20
    operators they matter only for networks with the same first address. *)
Definition scopes_allow (sp : bool) (a b : net) : Prop :=
  if sp then ~ (first a = first b /\ lex_lt (a_scope (n_addr a)) (a_scope (n_addr b)))
  else ~ lex_lt (a_scope (n_addr a)) (a_scope (n_addr b)).
