(** Property theorems C91: network operations in builds with both
    IPADDRESS_NO_EXCEPTIONS and any setting of the scope-id macros.  [silent d t s]:
    where the function of the build with exceptions throws, this one returns [d],
    and otherwise it does the same. *)
From Coq Require Import String.
From Verif Require Import Base V4Model V6Model SpecInt SpecIter SpecAddr SpecStr SpecOrder AddressModel NetworkModel SpecNet NetProofs2 IterModel AnyModel SpecAny NetWitness
  ConfigModel SpecConfig ConfigProofs NetConfigModel SpecNetConfig NetConfigProofs3 NetOpsConfigModel SpecNetOpsConfig AnyConfigModel SpecAnyConfig
  NoThrowModel SpecNoThrow QuietOpsModel QuietOpsProofs QuietOpsProofs2.
Close Scope string_scope.

(** subnets: the empty sequence instead of an exception; the loop over the sequence visits the same networks. *)
Theorem C91_subnets : forall g sp n d np, cfg_ok g -> net_for (c_max g) (c_spaces g) n -> args_ok d np -> (np = None -> n_prefix n + d < 2 ^ 64) ->
  silent (subnets_default V6) (subnets_c g sp n d np) (q_subnets g sp n d np) /\
  forall s k l, subnets_c g sp n d np = Ret s -> subnets_walk_c g k (s_begin s) (s_end s) = Ret l -> q_subnets_walk g k (s_begin s) (s_end s) = Ret l.
Proof. exact q_subnets_all. Qed.
Print Assumptions C91_subnets.
(** address_exclude. *)
Theorem C91_exclude : forall g sp n o, cfg_ok g -> net_for (c_max g) (c_spaces g) n -> net_for (c_max g) (c_spaces g) o ->
  silent (exclude_default V6) (address_exclude_c g sp n o) (q_exclude g sp n o) /\
  forall s k l, address_exclude_c g sp n o = Ret s -> exclude_walk_c g sp k (e_begin s) (e_end s) = Ret l -> q_exclude_walk g sp k (e_begin s) (e_end s) = Ret l.
Proof. exact q_exclude_all. Qed.
Print Assumptions C91_exclude.
(** ip_network. *)
Theorem C91_any_subnets : forall g sp x d np, cfg_ok g -> anet_for (c_max g) (c_spaces g) x -> args_ok d np -> (np = None -> n_prefix (an_net x) + d < 2 ^ 64) ->
  silent (aseq_make net_ops (an_ver x) (nit_default (an_ver x)) (nit_default (an_ver x))) (any_subnets_c g sp x d np) (q_any_subnets g sp x d np) /\
  forall s k l, any_subnets_c g sp x d np = Ret s -> aseq_walk (net_ops_c g) k (q_begin s) (q_end s) = Ret l -> q_aseq_walk g k (q_begin s) (q_end s) = Ret l.
Proof. exact q_any_subnets_all. Qed.
Print Assumptions C91_any_subnets.
Theorem C91_any_exclude : forall g sp x o, cfg_ok g -> anet_for (c_max g) (c_spaces g) x -> anet_for (c_max g) (c_spaces g) o ->
  silent aexclude_default (any_exclude_c g sp x o) (q_any_exclude g sp x o) /\
  forall s k l, any_exclude_c g sp x o = Ret s -> aexclude_walk_c g sp k (ae_begin s) (ae_end s) = Ret l -> q_aexclude_walk g sp k (ae_begin s) (ae_end s) = Ret l.
Proof. exact q_any_exclude_all. Qed.
Print Assumptions C91_any_exclude.
(** The overloads with an error code do what they do in builds with exceptions. *)
Theorem C91_codes : forall g sp n o code d np, cfg_ok g -> net_for (c_max g) (c_spaces g) n -> net_for (c_max g) (c_spaces g) o ->
  (forall r, subnets_code_c g sp n code d np = Ret r -> q_subnets_code g sp n code d np = Ret r) /\
  (forall r, exclude_code_c g sp n o code = Ret r -> q_exclude_code g sp n o code = Ret r).
Proof. exact q_codes. Qed.
Print Assumptions C91_codes.
Theorem C91_any_codes : forall g sp x o code, cfg_ok g -> anet_for (c_max g) (c_spaces g) x -> anet_for (c_max g) (c_spaces g) o ->
  forall r, any_exclude_code_c g sp x o code = Ret r -> q_any_exclude_code g sp x o code = Ret r.
Proof. exact q_any_codes. Qed.
Print Assumptions C91_any_codes.
(** Loops over what is returned instead of an exception visit nothing. *)
Theorem C91_empty : forall g sp v k, q_subnets_walk g k (s_begin (subnets_default V6)) (s_end (subnets_default V6)) = Ret [] /\
  q_aseq_walk g k (q_begin (aseq_make net_ops v (nit_default v) (nit_default v))) (q_end (aseq_make net_ops v (nit_default v) (nit_default v))) = Ret [] /\
  q_exclude_walk g sp k (e_begin (exclude_default V6)) (e_end (exclude_default V6)) = Ret [] /\
  q_aexclude_walk g sp k (ae_begin aexclude_default) (ae_end aexclude_default) = Ret [].
Proof. exact q_empty. Qed.
Print Assumptions C91_empty.
(** All of it is what the default setting does with the networks without their scope ids (C71). *)
Theorem C91_default_subnets : forall g sp n d np, cfg_ok g -> net_for (c_max g) (c_spaces g) n ->
  q_subnets g sp n d np = nx_subnets sp V6 (without_scope n) d np.
Proof. exact q_subnets_same. Qed.
Print Assumptions C91_default_subnets.
Theorem C91_default_exclude : forall g sp n o, cfg_ok g -> net_for (c_max g) (c_spaces g) n -> net_for (c_max g) (c_spaces g) o ->
  q_exclude g sp n o = nx_exclude sp V6 (without_scope n) (without_scope o).
Proof. exact q_exclude_same. Qed.
Print Assumptions C91_default_exclude.
Theorem C91_default_any_subnets : forall g sp x d np, cfg_ok g -> anet_for (c_max g) (c_spaces g) x -> q_any_subnets g sp x d np = nx_any_subnets sp (anet_without x) d np.
Proof. exact q_any_subnets_same. Qed.
Print Assumptions C91_default_any_subnets.
Theorem C91_default_any_exclude : forall g sp x o, cfg_ok g -> anet_for (c_max g) (c_spaces g) x -> anet_for (c_max g) (c_spaces g) o ->
  q_any_exclude g sp x o = nx_any_exclude sp (anet_without x) (anet_without o).
Proof. exact q_any_exclude_same. Qed.
Print Assumptions C91_default_any_exclude.
(** The iterator of exclusion constructed for a network that is not inside: the build with exceptions throws std::out_of_range, here it never moves and a loop over it does not end. *)
Theorem C91_stuck : forall g sp n o k, cfg_ok g -> net_for (c_max g) (c_spaces g) n -> net_for (c_max g) (c_spaces g) o ->
  ~ subset V6 o n -> 0 < n_prefix n < 128 ->
  xit_make_c g sp (without_scope n) (without_scope o) = UB AssertFailed /\
  exists it, q_xit_make g sp (without_scope n) (without_scope o) = Ret it /\ x_current it = without_scope n /\ q_xit_next g sp it = Ret it /\
    q_exclude_walk g sp k it (xit_default V6) = UB OutOfFuel.
Proof. exact q_stuck. Qed.
Print Assumptions C91_stuck.
Example C91_exclude_ex : let g := mk_cfg 20 false in let a := net_from g (str "2001:db8::%abcdefghijklmnopqrst/32") in let b := net_from g (str "2001:db8:8000::%x/34") in let c := net_from g (str "2001:db9::/34") in
  cfg_ok g /\ net_for (c_max g) (c_spaces g) a /\ net_for (c_max g) (c_spaces g) b /\ net_for (c_max g) (c_spaces g) c /\
  (exists s l, q_exclude g true a b = Ret s /\ q_exclude_walk g true 5 (e_begin s) (e_end s) = Ret l /\
    map (fun n => net_to_string_c g n compressed) l = [Ret (str "2001:db8::/33"); Ret (str "2001:db8:c000::/34")]) /\
  address_exclude_c g true a c = Err not_contained_network 0 /\ q_exclude g true a c = Ret (exclude_default V6).
Proof.
  assert (C : cfg_ok (mk_cfg 20 false)) by (unfold cfg_ok; cbn; lia). cbv zeta.
  destruct (net_from_ok _ (str "2001:db8::%abcdefghijklmnopqrst/32") C) as [_ A]; [vm_compute; reflexivity..|].
  destruct (net_from_ok _ (str "2001:db8:8000::%x/34") C) as [_ B]; [vm_compute; reflexivity..|].
  destruct (net_from_ok _ (str "2001:db9::/34") C) as [_ D]; [vm_compute; reflexivity..|].
  split; [exact C|]. split; [exact A|]. split; [exact B|]. split; [exact D|].
  split; [eexists; eexists|]. { split; [vm_compute; reflexivity|]. split; [vm_compute; reflexivity|]. vm_compute; reflexivity. } split; [vm_compute; reflexivity|]. vm_compute; reflexivity.
Qed.
Example C91_subnets_ex : let g := mk_cfg 3 true in let a := net_from g (str "2001:db8::%a b/32") in
  net_for (c_max g) (c_spaces g) a /\ args_ok 1 (Some 33) /\ args_ok 2 (Some 33) /\
  (exists s l, q_subnets g false a 1 (Some 33) = Ret s /\ q_subnets_walk g 3 (s_begin s) (s_end s) = Ret l /\
    map (fun n => net_to_string_c g n compressed) l = [Ret (str "2001:db8::/33"); Ret (str "2001:db8:8000::/33")]) /\
  subnets_c g false a 2 (Some 33) = Err cannot_set_prefixlen_diff_and_new_prefix 0 /\ q_subnets g false a 2 (Some 33) = Ret (subnets_default V6).
Proof.
  assert (C : cfg_ok (mk_cfg 3 true)) by (unfold cfg_ok; cbn; lia). cbv zeta.
  destruct (net_from_ok _ (str "2001:db8::%a b/32") C) as [_ A]; [vm_compute; reflexivity..|].
  split; [exact A|]. split; [split; unfold is_size; lia|]. split; [split; unfold is_size; lia|].
  split; [eexists; eexists|]. { split; [vm_compute; reflexivity|]. split; [vm_compute; reflexivity|]. vm_compute; reflexivity. } split; [vm_compute; reflexivity|]. vm_compute; reflexivity.
Qed.
Example C91_stuck_ex : let g := mk_cfg 0 false in let n := net_from g (str "2001:db8::/32") in let o := net_from g (str "2001:db9::/34") in
  net_for (c_max g) (c_spaces g) n /\ net_for (c_max g) (c_spaces g) o /\ ~ subset V6 o n /\ xit_make_c g true n o = UB AssertFailed /\
  exists it, q_xit_make g true n o = Ret it /\ q_xit_next g true it = Ret it.
Proof.
  assert (C : cfg_ok (mk_cfg 0 false)) by (unfold cfg_ok; cbn; lia). cbv zeta.
  destruct (net_from_ok _ (str "2001:db8::/32") C) as [_ A]; [vm_compute; reflexivity..|].
  destruct (net_from_ok _ (str "2001:db9::/34") C) as [_ B]; [vm_compute; reflexivity..|].
  split; [exact A|]. split; [exact B|]. split.
  - intros S. assert (K : first (net_from (mk_cfg 0 false) (str "2001:db8::/32")) <= val (n_addr (net_from (mk_cfg 0 false) (str "2001:db9::/34"))) < first (net_from (mk_cfg 0 false) (str "2001:db8::/32")) + size V6 (net_from (mk_cfg 0 false) (str "2001:db8::/32"))).
    { apply S. split; [apply Z.le_refl|]. vm_compute. reflexivity. }
    vm_compute in K. destruct K as [_ K]. discriminate K.
  - split; [vm_compute; reflexivity|]. eexists. split; [vm_compute; reflexivity|]. vm_compute; reflexivity.
Qed.

