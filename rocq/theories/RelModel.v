(** The six relational operators of every class, in C++20 (rewritten from <=>)
    and before, and the members that exchange networks.  Models: include/ipaddress/
    fixed-string.hpp 519-629, ipv6-address.hpp 171-237, ip-address-base.hpp 672-754,
    ip-network-base.hpp 653-659 and 1153-1240, ip-any-address.hpp 1247-1338,
    ip-any-network.hpp 675-694, 850-854 and 1221-1312, ip-address-iterator.hpp 703-785,
    ip-network-iterator.hpp 317-399 and 577-655, ip-any-iterator.hpp 328-416. *)
From Verif Require Import Base FixedStringModel AddressModel NetworkModel IterModel AnyModel Uint128OpsModel ScopeModel.

(** What each class writes itself: ==, <=> and, before C++20, <. *)
Record rels (A : Type) := mk_rels { r_eqb : A -> A -> res bool; r_cmp : A -> A -> res comparison; r_ltb : A -> A -> res bool }.
Arguments mk_rels {A}. Arguments r_eqb {A}. Arguments r_cmp {A}. Arguments r_ltb {A}.
(** The six operators.  With [sp] the compiler rewrites [a < b] to [(a <=> b) < 0]
    and so on; without it every class defines [>] as [b < a], [<=] as [!(b < a)]
    and [>=] as [!(a < b)] (fixed-string.hpp 594-629, ipv6-address.hpp 215-237,
    ip-address-base.hpp 726-754, ip-network-base.hpp 1214-1240, ip-any-address.hpp 1312-1338,
    ip-any-network.hpp 1286-1312, ip-address-iterator.hpp 759-785, ip-network-iterator.hpp 373-399 and
    629-655, ip-any-iterator.hpp 390-416).  [!=] is [!(a == b)] everywhere. *)
Definition rel_op {A} (r : rels A) (sp : bool) (op : cop) (a b : A) : res bool :=
  match op with
  | CEq => r_eqb r a b
  | CNe => e <- r_eqb r a b ;; Ret (negb e)
  | CLt => if sp then c <- r_cmp r a b ;; Ret (match c with Lt => true | _ => false end) else r_ltb r a b
  | CGt => if sp then c <- r_cmp r a b ;; Ret (match c with Gt => true | _ => false end) else r_ltb r b a
  | CLe => if sp then c <- r_cmp r a b ;; Ret (match c with Gt => false | _ => true end) else l <- r_ltb r b a ;; Ret (negb l)
  | CGe => if sp then c <- r_cmp r a b ;; Ret (match c with Lt => false | _ => true end) else l <- r_ltb r a b ;; Ret (negb l)
  end.

(** fixed-string.hpp 519-581. *)
Definition string_rels : rels fstr := mk_rels fs_eqb fs_cmp fs_ltb.
(** ipv6-address.hpp 171-207. *)
Definition scope_rels : rels scope := mk_rels scope_eqb scope_cmp3 scope_ltb.
(** ip-address-base.hpp 672-715. *)
Definition addr_rels (v : ver) : rels addr := mk_rels (addr_eqb v) (addr_cmp v) (addr_ltb v).
(** ip-network-base.hpp 1153-1204. *)
Definition net_rels (v : ver) : rels net := mk_rels (net_eqb v) (net_cmp v) (net_ltb v).
(** ip-any-address.hpp 1247-1302. *)
Definition any_rels : rels aaddr := mk_rels any_eqb any_cmp any_ltb.
(** ip-any-network.hpp 1221-1276. *)
Definition anet_rels : rels anet := mk_rels anet_eqb anet_cmp anet_ltb.
(** ip-address-iterator.hpp 703-749. *)
Definition ait_rels (v : ver) : rels ait := mk_rels (ait_eqb v) (ait_cmp v) (ait_ltb v).
(** ip-network-iterator.hpp 317-363. *)
Definition nit_rels (v : ver) : rels nit := mk_rels (nit_eqb v) (nit_cmp v) (nit_ltb v).
(** ip-network-iterator.hpp 577-619. *)
Definition xit_rels (v : ver) : rels xit := mk_rels (xit_eqb v) (xit_cmp v) (xit_ltb v).
(** The same class template over ip_network. *)
Definition axit_rels : rels axit :=
  mk_rels axit_eqb (fun a b => anet_cmp (ax_current b) (ax_current a)) (fun a b => anet_ltb (ax_current b) (ax_current a)).
(** ip-any-iterator.hpp 328-380. *)
Definition aiter_rels {I E} (o : iops I E) : rels (aiter I E) := mk_rels (aiter_eqb o) (aiter_cmp o) (aiter_ltb o).

(** swap of two networks, ip-network-base.hpp 653-659, and of two version-erased
    ones, ip-any-network.hpp 850-854. *)
Definition net_swap (a b : net) : res (net * net) :=
  '(x, y) <- addr_swap (n_addr a) (n_addr b) ;;
  '(m, k) <- addr_swap (n_mask a) (n_mask b) ;;
  let tmp := n_prefix a in Ret (mk_net x m (n_prefix b), mk_net y k tmp).
Definition anet_swap (x y : anet) : anet * anet := let tmp := x in let x := y in let y := tmp in (x, y).
(** v4() and v6() of a version-erased network, ip-any-network.hpp 675-694. *)
Definition anet_v4 (x : anet) : option net := if ver_eqb (an_ver x) V4 then Some (an_net x) else None.
Definition anet_v6 (x : anet) : option net := if ver_eqb (an_ver x) V6 then Some (an_net x) else None.
