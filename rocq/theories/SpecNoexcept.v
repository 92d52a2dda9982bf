(** Exceptions inside functions declared noexcept. *)
From Verif Require Import Base AddressModel NetworkModel IterModel AnyModel SpecNet SpecIter.

(** An exception comes out: of the library ([Err]) or the std::out_of_range of the
    exclusion's ++ ([UB AssertFailed], see IterModel). In a function declared
    noexcept (config.hpp 86-95) that is std::terminate. *)
Definition throws {A} (r : res A) : Prop := (exists e x, r = Err e x) \/ r = UB AssertFailed.
(** A normal return. *)
Definition returns {A} (r : res A) : Prop := exists a, r = Ret a.

(** The new prefix length overflows size_t. *)
Definition wraps (v : ver) (n : net) (d : Z) (np : option Z) : Prop := n_prefix n < width v /\ np = None /\ 2 ^ 64 <= n_prefix n + d.

(** The iterators a program can hold that made them from sequences of subnets by
    any operations. *)
Inductive subnets_iter (sp : bool) (v : ver) : nit -> Prop :=
| si_default : subnets_iter sp v (nit_default v)
| si_begin n d np s : wf_net v n -> args_ok d np -> subnets sp v n d np = Ret s -> subnets_iter sp v (s_begin s)
| si_end n d np s : wf_net v n -> args_ok d np -> subnets sp v n d np = Ret s -> subnets_iter sp v (s_end s)
| si_add it k it' : subnets_iter sp v it -> nit_add v it k = Ret it' -> subnets_iter sp v it'
| si_sub it k it' : subnets_iter sp v it -> nit_sub v it k = Ret it' -> subnets_iter sp v it'
| si_base it it' : subnets_iter sp v it -> nit_base v it = Ret it' -> subnets_iter sp v it'
| si_reverse it it' : subnets_iter sp v it -> nit_reverse v it = Ret it' -> subnets_iter sp v it'.
(** The same for the iterators independent of the version; a number of steps is a
    uint128_t. *)
Inductive asubnets_iter (sp : bool) : aiter nit anet -> Prop :=
| as_default : asubnets_iter sp net_aiter_default
| as_begin v n d np s : wf_net v n -> args_ok d np -> any_subnets sp (mk_an v n) d np = Ret s -> asubnets_iter sp (q_begin s)
| as_end v n d np s : wf_net v n -> args_ok d np -> any_subnets sp (mk_an v n) d np = Ret s -> asubnets_iter sp (q_end s)
| as_add it k it' : asubnets_iter sp it -> 0 <= k < 2 ^ 128 -> aiter_add net_ops it k = Ret it' -> asubnets_iter sp it'
| as_sub it k it' : asubnets_iter sp it -> 0 <= k < 2 ^ 128 -> aiter_sub net_ops it k = Ret it' -> asubnets_iter sp it'
| as_base it it' : asubnets_iter sp it -> aiter_base net_ops it = Ret it' -> asubnets_iter sp it'
| as_reverse it it' : asubnets_iter sp it -> aiter_reverse net_ops it = Ret it' -> asubnets_iter sp it'.
(** And for exclusions, which only go forward. *)
Inductive exclude_iter (sp : bool) (v : ver) : xit -> Prop :=
| xi_default : exclude_iter sp v (xit_default v)
| xi_begin n o s : wf_net v n -> wf_net v o -> address_exclude sp v n o = Ret s -> exclude_iter sp v (e_begin s)
| xi_end n o s : wf_net v n -> wf_net v o -> address_exclude sp v n o = Ret s -> exclude_iter sp v (e_end s)
| xi_next it it' : exclude_iter sp v it -> xit_next sp v it = Ret it' -> exclude_iter sp v it'.
Inductive aexclude_iter (sp : bool) : axit -> Prop :=
| ax_is_default : aexclude_iter sp axit_default
| ax_begin v n v' o s : wf_net v n -> wf_net v' o -> any_exclude sp (mk_an v n) (mk_an v' o) = Ret s -> aexclude_iter sp (ae_begin s)
| ax_end v n v' o s : wf_net v n -> wf_net v' o -> any_exclude sp (mk_an v n) (mk_an v' o) = Ret s -> aexclude_iter sp (ae_end s)
| ax_next it it' : aexclude_iter sp it -> axit_next sp it = Ret it' -> aexclude_iter sp it'.
