(** Concrete networks used in the examples and refutations. *)
From Coq Require Import String Ascii.
From Verif Require Import Base V4Model V6Model AddressModel SpecText SpecAddr SpecStr SpecV4 SpecV6 SpecOrder NetworkModel SpecNet
  V4Proofs V6Full MaskProofs AddressProofs NetProofs NetProofs2 NetProofs3 NetText NetText2 ErrProofs NetText3 NetLemmas.

(** Character codes of a string literal. *)
Definition str (s : string) : list Z := map (fun a => Z.of_N (N_of_ascii a)) (list_ascii_of_string s).
Arguments str s%string.
Definition net_at (v : ver) (s : string) : net := match net_parse v (chars (str s)) true with Ret n => n | _ => net_default v end.
Arguments net_at v s%string.
Definition addr_at (v : ver) (s : string) : addr := match addr_parse v (chars (str s)) with Ret a => a | _ => addr_default v end.
Arguments addr_at v s%string.

Lemma tok_char_chars s : Forall is_char s -> Forall tok_char (chars s).
Proof. intros H. unfold chars. rewrite Forall_map. exact H. Qed.
Definition is_charb (c : Z) : bool := (-128 <=? c) && (c <? 128).
Lemma net_at_wf v s : forallb is_charb (str s) = true -> wf_net v (net_at v s).
Proof.
  intros H. unfold net_at. destruct (net_parse v (chars (str s)) true) eqn:E; try apply net_default_wf. eapply net_parse_wf; [|exact E].
  apply tok_char_chars. rewrite forallb_forall in H. apply Forall_forall. intros x Hx. apply H in Hx. unfold is_charb, is_char in *. lia.
Qed.
Lemma addr_at_wf v s : forallb is_charb (str s) = true -> forallb (fun c => negb (c =? 0)) (str s) = true -> wf_addr v (addr_at v s).
Proof.
  intros H N. unfold addr_at. destruct (addr_parse v (chars (str s))) eqn:E; try apply addr_default_wf. eapply addr_parse_wf; [| |exact E].
  - intros K. rewrite forallb_forall in N. apply N in K. discriminate.
  - rewrite forallb_forall in H. apply Forall_forall. intros x Hx. apply H in Hx. unfold is_charb, is_char in *. lia.
Qed.
Ltac wfn := lazymatch goal with |- wf_net _ _ => apply net_at_wf; reflexivity | |- wf_addr _ _ => apply addr_at_wf; reflexivity end.

(** *** Refutations *)
Lemma prefix_33 : exists v a p, wf_addr v a /\ width v < p /\ exists u, from_address v a p true = UB u.
Proof.
  exists V4, (addr_default V4), 33. split; [apply addr_default_wf|]. split; [cbn; lia|]. apply prefix_too_long. cbn. lia.
Qed.
Lemma count_0 : exists v n, wf_net v n /\ addresses_count v n <> Ret (size v n).
Proof. exists V4, (net_at V4 "0.0.0.0/0"). split; [wfn|]. vm_compute. discriminate. Qed.
Lemma supernet_all : exists v n d, wf_net v n /\ 0 <= d <= n_prefix n /\ supernet v n d None = UB BadShift.
Proof. exists V4, (net_at V4 "1.2.3.4/32"), 32. split; [wfn|]. split; [vm_compute; split; discriminate|reflexivity]. Qed.
Lemma supernet_all6 : exists n, wf_net V6 n /\ supernet V6 n 1 (Some 0) = UB BadShift.
Proof. exists (net_at V6 "2001:db8::1/128"). split; [wfn|reflexivity]. Qed.
Lemma mask_2_64 : exists v s n, ~ (exists p, mask_text v s p) /\
  net_parse v (chars (str "0.0.0.0/" ++ s)) true = Ret n.
Proof.
  exists V4, (str "18446744073709551616"), (net_at V4 "0.0.0.0/0"). split; [|reflexivity].
  assert (D : dec_text (str "18446744073709551616") (2 ^ 64)).
  { apply dec_text_iff. split; [discriminate|]. split; [|reflexivity]. vm_compute. repeat (apply Forall_cons; [split; discriminate|]). apply Forall_nil. }
  intros [p [[D' H]|(_ & q & Q & _)]].
  - apply dec_text_iff in D as (_ & _ & D). apply dec_text_iff in D' as (_ & _ & D'). rewrite <- D in D'. subst p. cbn in H. lia.
  - apply dec_text_iff in D as (_ & D & _). exact (quad_not_digits _ _ Q D).
Qed.
Lemma mask_zero_ub : exists t, mask_text V4 t 0 /\ net_parse V4 (chars (str "1.2.3.4/" ++ t)) true = UB BadShift.
Proof.
  exists (str "0.0.0.0"). split; [|reflexivity]. right. split; [reflexivity|]. exists [0; 0; 0; 0]. split.
  - apply v4_accept_iff. reflexivity.
  - left. split; [lia|reflexivity].
Qed.
Lemma garbage : exists s strict n, net_parse V4 (chars s) strict = Ret n /\
  (forall t p a, net_text V4 s t p -> addr_parse V4 (chars t) <> Ret a).
Proof.
  exists (str "255.255.255.255garbage/0"), true, (net_at V4 "255.255.255.255/32"). split; [reflexivity|].
  intros t p a [[<- _]|(m & E & M)] A; [discriminate|].
  assert (N : ~ In 47 t).
  { apply (no_slash V4 t a); [|exact A]. intros K. assert (In 0 (t ++ 47 :: m)) as K2 by (apply in_app_iff; left; exact K). rewrite <- E in K2.
    vm_compute in K2. repeat (destruct K2 as [K2|K2]; [discriminate|]). exact K2. }
  change (str "255.255.255.255garbage/0") with (str "255.255.255.255garbage" ++ 47 :: str "0") in E.
  apply sep_unique in E as [<- _]; [discriminate A| |exact N]. vm_compute. intros K. repeat (destruct K as [K|K]; [discriminate|]). exact K.
Qed.
Lemma garbage6 : exists s strict n, net_parse V6 (chars s) strict = Ret n /\ s = str "1111:2222:3333:4444:5555:6666:123.123.123.123%abcdefghijklmnop/64" /\
  n_prefix n = 128 /\ a_scope (n_addr n) = str "abcdefghijk".
Proof.
  eexists _, true, _. split; [|split; [reflexivity|]]; [reflexivity|]. split; reflexivity.
Qed.
Lemma nul_net : exists t u m n, t ++ u <> t /\ In 0 u /\ net_parse V4 (chars (t ++ u ++ m)) true = Ret n /\ net_parse V4 (chars (t ++ m)) true = Ret n.
Proof.
  exists (str "1.2.3.0"), (0 :: str "junk"), (str "/24"), (net_at V4 "1.2.3.0/24"). split; [discriminate|]. split; [left; reflexivity|]. split; reflexivity.
Qed.
Lemma net_less_wrong : exists a b, wf_net V6 a /\ wf_net V6 b /\ net_ltb V6 a b = Ret true /\ net_ltb V6 b a = Ret true.
Proof. exists (net_at V6 "::1%b"), (net_at V6 "::2%a"). split; [wfn|]. split; [wfn|]. split; reflexivity. Qed.
(** subnet_of compares scope ids: "fe80::%a/64" does not contain itself with
    another scope, and its broadcast address has no scope. *)
Lemma subnet_scope_wrong : exists a b, wf_net V6 a /\ wf_net V6 b /\ subset V6 a b /\ subnet_of true V6 a b = Ret false.
Proof.
  exists (net_at V6 "fe80::1/128"), (net_at V6 "fe80::1%a/128"). split; [wfn|]. split; [wfn|]. split; [|reflexivity]. intros x H. exact H.
Qed.
