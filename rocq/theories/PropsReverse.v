(** Property theorems C66: ip_reverse_iterator.  [mirrors o wf r it]: [r] is the
    reverse iterator made of the well-formed iterator [it], which is its base();
    [reverse_laws], [reverse_distances], [compares]: SpecReverse. *)
From Coq Require Import String.
From Verif Require Import Base SpecAddr AddressModel NetworkModel IterModel AnyModel SpecNet SpecIter NetProofs3 NetLemmas NetWitness IterLemmas ReverseModel SpecReverse ReverseProofs ReverseProofs2.

(** ** C66: reverse iterators mirror the iterators they are made of *)
(** Making and unmaking, moves by ++, --, +, - in all forms, and what is read. *)
Theorem C66_hosts : forall v, reverse_laws (host_bops v) (wf_ait v) is_i64 (is_u v).
Proof. exact host_laws. Qed.
Print Assumptions C66_hosts.
Theorem C66_subnets : forall v, reverse_laws (net_bops v) (wf_nit v) is_i64 (is_u v).
Proof. exact subnet_laws. Qed.
Print Assumptions C66_subnets.
Theorem C66_any_hosts : reverse_laws (any_bops host_ops) (wf_aiter host_ops wf_ait) is_i64 is_u128.
Proof. exact any_host_laws. Qed.
Print Assumptions C66_any_hosts.
Theorem C66_any_subnets : reverse_laws (any_bops net_ops) (wf_aiter net_ops wf_nit) is_i64 is_u128.
Proof. exact any_subnet_laws. Qed.
Print Assumptions C66_any_subnets.
(** The postfix forms and n + it of the iterators themselves. *)
Theorem C66_hosts_forward : forall v, forward_laws (host_bops v) (wf_ait v) is_i64 (is_u v).
Proof. exact host_fwd. Qed.
Print Assumptions C66_hosts_forward.
Theorem C66_subnets_forward : forall v, forward_laws (net_bops v) (wf_nit v) is_i64 (is_u v).
Proof. exact subnet_fwd. Qed.
Print Assumptions C66_subnets_forward.
Theorem C66_any_hosts_forward : forward_laws (any_bops host_ops) (wf_aiter host_ops wf_ait) is_i64 is_u128.
Proof. exact any_host_fwd. Qed.
Print Assumptions C66_any_hosts_forward.
Theorem C66_any_subnets_forward : forward_laws (any_bops net_ops) (wf_aiter net_ops wf_nit) is_i64 is_u128.
Proof. exact any_subnet_fwd. Qed.
Print Assumptions C66_any_subnets_forward.
(** it + n and n + it agree, and - n leads back. *)
Theorem C66_there_and_back : (forall v it n, wf_ait v it -> is_i64 n -> exists x, b_plus (host_bops v) it n = Ret x /\ plus_it (host_bops v) n it = Ret x /\ b_minus (host_bops v) x n = Ret it) /\
  (forall v it n, wf_nit v it -> is_i64 n -> exists x, b_plus (net_bops v) it n = Ret x /\ plus_it (net_bops v) n it = Ret x /\ b_minus (net_bops v) x n = Ret it) /\
  (forall it n, wf_aiter host_ops wf_ait it -> is_i64 n -> exists x, b_plus (any_bops host_ops) it n = Ret x /\ plus_it (any_bops host_ops) n it = Ret x /\ b_minus (any_bops host_ops) x n = Ret it) /\
  (forall it n, wf_aiter net_ops wf_nit it -> is_i64 n -> exists x, b_plus (any_bops net_ops) it n = Ret x /\ plus_it (any_bops net_ops) n it = Ret x /\ b_minus (any_bops net_ops) x n = Ret it).
Proof. exact forward_undo. Qed.
Print Assumptions C66_there_and_back.
Example C66_forward_ex : let it := match ait_make V4 (addr_at V4 "10.0.0.4") 0 with Ret it => it | _ => ait_default V4 end in
  let it5 := match ait_make V4 (addr_at V4 "10.0.0.5") 0 with Ret it => it | _ => ait_default V4 end in
  wf_ait V4 it /\ post_inc (host_bops V4) it = Ret (it, it5) /\ post_dec (host_bops V4) it5 = Ret (it5, it) /\ plus_it (host_bops V4) 1 it = Ret it5.
Proof.
  cbv zeta. split; [split; [apply addr_at_wf; reflexivity|]; split; [reflexivity|]; split; [reflexivity|]; left; reflexivity|]. split; [vm_compute; reflexivity|]. split; vm_compute; reflexivity.
Qed.

(** Differences, == and !=. *)
Theorem C66_hosts_distance : forall v, reverse_distances (host_bops v) (wf_ait v) (fun _ _ => True).
Proof. exact host_distances. Qed.
Print Assumptions C66_hosts_distance.
Theorem C66_subnets_distance : forall v, reverse_distances (net_bops v) (wf_nit v) same_prefix.
Proof. exact subnet_distances. Qed.
Print Assumptions C66_subnets_distance.
Theorem C66_any_hosts_distance : reverse_distances (any_bops host_ops) (wf_aiter host_ops wf_ait) (fun _ _ => True).
Proof. exact any_host_distances. Qed.
Print Assumptions C66_any_hosts_distance.
Theorem C66_any_subnets_distance : reverse_distances (any_bops net_ops) (wf_aiter net_ops wf_nit) same_prefix_any.
Proof. exact any_subnet_distances. Qed.
Print Assumptions C66_any_subnets_distance.
(** The order, exactly: reversed unless exactly one base is at position 0. *)
Theorem C66_hosts_order : forall v r s a b, mirrors (host_bops v) (wf_ait v) r a -> mirrors (host_bops v) (wf_ait v) s b -> compares (host_bops v) r s (rev_cmp (ait_pos v a) (ait_pos v b)).
Proof. exact host_order. Qed.
Print Assumptions C66_hosts_order.
Theorem C66_subnets_order : forall v r s a b, mirrors (net_bops v) (wf_nit v) r a -> mirrors (net_bops v) (wf_nit v) s b -> same_prefix a b ->
  compares (net_bops v) r s (if ni_prefix a =? 0 then nit_pos v b ?= nit_pos v a else rev_cmp (nit_pos v a) (nit_pos v b)).
Proof. exact subnet_order. Qed.
Print Assumptions C66_subnets_order.
Theorem C66_order_reversed : forall pa pb, 0 < pa -> 0 < pb -> rev_cmp pa pb = (pb ?= pa).
Proof. exact rev_cmp_positive. Qed.
Print Assumptions C66_order_reversed.
Theorem C66_any_hosts_order : forall r s a b, mirrors (any_bops host_ops) (wf_aiter host_ops wf_ait) r a -> mirrors (any_bops host_ops) (wf_aiter host_ops wf_ait) s b ->
  (ai_ver a = ai_ver b -> compares (any_bops host_ops) r s (rev_cmp (ait_pos (ai_ver a) (ai_it a)) (ait_pos (ai_ver b) (ai_it b)))) /\
  (ai_ver a <> ai_ver b -> rit_cmp (any_bops host_ops) r s = Ret (ver_num (ai_ver b) ?= ver_num (ai_ver a)) /\ rit_ltb (any_bops host_ops) r s = Ret false).
Proof. exact any_host_order. Qed.
Print Assumptions C66_any_hosts_order.
Theorem C66_any_subnets_order : forall r s a b, mirrors (any_bops net_ops) (wf_aiter net_ops wf_nit) r a -> mirrors (any_bops net_ops) (wf_aiter net_ops wf_nit) s b ->
  (ai_ver a = ai_ver b -> same_prefix (ai_it a) (ai_it b) -> compares (any_bops net_ops) r s
     (if ni_prefix (ai_it a) =? 0 then nit_pos (ai_ver b) (ai_it b) ?= nit_pos (ai_ver a) (ai_it a) else rev_cmp (nit_pos (ai_ver a) (ai_it a)) (nit_pos (ai_ver b) (ai_it b)))) /\
  (ai_ver a <> ai_ver b -> rit_cmp (any_bops net_ops) r s = Ret (ver_num (ai_ver b) ?= ver_num (ai_ver a)) /\ rit_ltb (any_bops net_ops) r s = Ret false).
Proof. exact any_subnet_order. Qed.
Print Assumptions C66_any_subnets_order.
(** rbegin() is not before rend() when the sequence begins at 0. *)
Theorem C66_hosts_order_refuted : exists n s rb re r1 r2, wf_net V4 n /\ hosts true V4 n = Ret s /\ rit_make (host_bops V4) (h_end s) = Ret rb /\ rit_make (host_bops V4) (h_begin s) = Ret re /\
  rit_next (host_bops V4) rb = Ret r1 /\ rit_next (host_bops V4) r1 = Ret r2 /\ rit_eqb (host_bops V4) r2 re = Ret true /\
  rit_cmp (host_bops V4) rb re = Ret Gt /\ rit_ltb (host_bops V4) rb re = Ret false /\ rit_ltb (host_bops V4) re rb = Ret true.
Proof. exact host_order_bad. Qed.
Print Assumptions C66_hosts_order_refuted.
Theorem C66_subnets_order_refuted : exists n s rb re r1 r2, wf_net V6 n /\ subnets true V6 n 1 None = Ret s /\ rit_make (net_bops V6) (s_end s) = Ret rb /\ rit_make (net_bops V6) (s_begin s) = Ret re /\
  rit_next (net_bops V6) rb = Ret r1 /\ rit_next (net_bops V6) r1 = Ret r2 /\ rit_eqb (net_bops V6) r2 re = Ret true /\
  rit_cmp (net_bops V6) rb re = Ret Gt /\ rit_ltb (net_bops V6) rb re = Ret false /\ rit_ltb (net_bops V6) re rb = Ret true.
Proof. exact subnet_order_bad. Qed.
Print Assumptions C66_subnets_order_refuted.
Definition ex_it (t : string) : ait := match ait_make V4 (addr_at V4 t) 0 with Ret it => it | _ => ait_default V4 end.
Definition ex_held : ait := ex_it "10.0.0.4".
Example C66_ex : mirrors (host_bops V4) (wf_ait V4) (mk_rit ex_held) (ex_it "10.0.0.5") /\
  rit_get (host_bops V4) (mk_rit ex_held) = addr_at V4 "10.0.0.4" /\
  rit_plus (host_bops V4) (mk_rit ex_held) 2 = Ret (mk_rit (ex_it "10.0.0.2")) /\ rit_index (host_bops V4) (mk_rit ex_held) (-1) = Ret (addr_at V4 "10.0.0.5") /\
  rit_postinc (host_bops V4) (mk_rit ex_held) = Ret (mk_rit ex_held, mk_rit (ex_it "10.0.0.3")) /\
  rit_cmp (host_bops V4) (mk_rit ex_held) (mk_rit (ex_it "10.0.0.2")) = Ret Lt /\ rit_diff (host_bops V4) (mk_rit (ex_it "10.0.0.2")) (mk_rit ex_held) = 2 /\
  (exists it, wf_aiter host_ops wf_ait it /\ ai_ver it = V4 /\ exists r, rit_make (any_bops host_ops) it = Ret r).
Proof.
  assert (W : wf_ait V4 (ex_it "10.0.0.5")) by (split; [apply addr_at_wf; reflexivity|]; split; [reflexivity|]; split; [reflexivity|]; left; reflexivity).
  split; [split; [exact W|]; split; vm_compute; reflexivity|]. do 6 (split; [vm_compute; reflexivity|]).
  exists (aiter_make host_ops V4 (ex_it "10.0.0.5")). split; [exists V4, (ex_it "10.0.0.5"); split; [exact W|reflexivity]|]. split; [reflexivity|].
  exists (mk_rit (aiter_make host_ops V4 ex_held)). vm_compute. reflexivity.
Qed.
