(** Property theorems C82: texts as keys.  Which texts sort like the objects they
    denote, how long they are, and that different objects have different texts
    ([lex_lt]: SpecStr, [addr_before]: SpecOrder, [net_before]: SpecNet,
    [wasteful]: SpecKeys). *)
From Coq Require Import String.
From Verif Require Import Base UnicodeModel V4Model V6Model SpecText SpecV6 SpecAddr SpecStr SpecOrder AddressModel NetworkModel SpecNet NetWitness StrProofs
  SpecKeys KeyProofs KeyProofs2.
Close Scope string_scope.

(** The full texts of IPv6 addresses, with or without scope id, sort exactly like the addresses. *)
Theorem C82_full_order : forall a b s t, wf_addr V6 a -> wf_addr V6 b -> addr_to_string V6 a full = Ret s -> addr_to_string V6 b full = Ret t ->
  (lex_lt s t <-> addr_before a b).
Proof. exact full_key. Qed.
Print Assumptions C82_full_order.
(** So do the full texts of unscoped IPv6 networks with different addresses. *)
Theorem C82_network_order : forall n m s t, wf_net V6 n -> wf_net V6 m -> unscoped n -> unscoped m -> n_addr n <> n_addr m ->
  net_to_string V6 n full = Ret s -> net_to_string V6 m full = Ret t -> (lex_lt s t <-> net_before n m).
Proof. exact net_key. Qed.
Print Assumptions C82_network_order.
(** IPv4 texts, other IPv6 texts, and texts of networks with the same address do not. *)
Theorem C82_v4_order : forall fmt, exists a b s t, wf_addr V4 a /\ wf_addr V4 b /\ addr_to_string V4 a fmt = Ret s /\ addr_to_string V4 b fmt = Ret t /\ addr_before a b /\ lex_lt t s.
Proof. exact v4_unsorted. Qed.
Print Assumptions C82_v4_order.
Theorem C82_v6_order : forall fmt, fmt <> full -> exists a b s t, wf_addr V6 a /\ wf_addr V6 b /\ addr_to_string V6 a fmt = Ret s /\ addr_to_string V6 b fmt = Ret t /\ addr_before a b /\ lex_lt t s.
Proof. exact v6_unsorted. Qed.
Print Assumptions C82_v6_order.
Theorem C82_prefix_order : forall v fmt, exists n m s t, wf_net v n /\ wf_net v m /\ net_to_string v n fmt = Ret s /\ net_to_string v m fmt = Ret t /\ net_before n m /\ lex_lt t s.
Proof. exact net_unsorted. Qed.
Print Assumptions C82_prefix_order.
Example C82_order_ex : let a := addr_at V6 "9::" in let b := addr_at V6 "10::%x" in wf_addr V6 a /\ wf_addr V6 b /\ addr_before a b /\
  addr_to_string V6 a full = Ret (str "0009:0000:0000:0000:0000:0000:0000:0000") /\
  addr_to_string V6 b full = Ret (str "0010:0000:0000:0000:0000:0000:0000:0000%x") /\
  let n := net_at V6 "9::/16" in let m := net_at V6 "10::/12" in wf_net V6 n /\ wf_net V6 m /\ unscoped n /\ unscoped m /\ n_addr n <> n_addr m.
Proof.
  split; [apply addr_at_wf; reflexivity|]. split; [apply addr_at_wf; reflexivity|]. split; [left; vm_compute; reflexivity|].
  split; [vm_compute; reflexivity|]. split; [vm_compute; reflexivity|]. split; [apply net_at_wf; reflexivity|]. split; [apply net_at_wf; reflexivity|].
  split; [vm_compute; reflexivity|]. split; [vm_compute; reflexivity|]. vm_compute. discriminate.
Qed.

(** Lengths: a full text has 39 characters and its scope id; no compact text is longer, no compressed text is longer than the compact one. *)
Theorem C82_lengths : forall bs sc, bytes_ok V6 bs -> storable sc ->
  exists f c z, v6_to_string bs sc full = Ret f /\ v6_to_string bs sc compact = Ret c /\ v6_to_string bs sc compressed = Ret z /\
    zlen f = 39 + zlen (scope_suffix sc) /\ 15 + zlen (scope_suffix sc) <= zlen c <= zlen f /\ 2 + zlen (scope_suffix sc) <= zlen z <= zlen c.
Proof. exact text_lengths. Qed.
Print Assumptions C82_lengths.
(** No text the parser accepts for the address is shorter than the compressed text by more than one character. *)
Theorem C82_near_shortest : forall bs sc s t, bytes_ok V6 bs -> storable sc -> v6_to_string bs sc compressed = Ret t ->
  no_nul s -> v6_from_string true (chars s) = Ret (bs, sc) -> zlen t <= zlen s + 1.
Proof. exact compressed_near. Qed.
Print Assumptions C82_near_shortest.
(** And exactly when one is shorter. *)
Theorem C82_shortest : forall gs sc t, length gs = 8%nat -> Forall is_group gs -> storable sc -> v6_to_string (group_bytes gs) sc compressed = Ret t ->
  ((exists s, no_nul s /\ v6_from_string true (chars s) = Ret (group_bytes gs, sc) /\ zlen s < zlen t) <-> wasteful gs).
Proof. exact compressed_shortest. Qed.
Print Assumptions C82_shortest.
Example C82_shortest_ex : (* 1:0:2:3:4:5:6:7 and 0:0:1:0:0:1:1:1 have texts shorter than the compressed one, 1:0:0:2:0:0:3:0 has not *)
  wasteful [1; 0; 2; 3; 4; 5; 6; 7] /\ wasteful [0; 0; 1; 0; 0; 1; 1; 1] /\ ~ wasteful [1; 0; 0; 2; 0; 0; 3; 0] /\
  v6_from_string true (chars (str "1::2:3:4:5:6:7")) = Ret (group_bytes [1; 0; 2; 3; 4; 5; 6; 7], []) /\
  v6_to_string (group_bytes [1; 0; 2; 3; 4; 5; 6; 7]) [] compressed = Ret (str "1:0:2:3:4:5:6:7") /\
  v6_from_string true (chars (str "0:0:1::1:1:1")) = Ret (group_bytes [0; 0; 1; 0; 0; 1; 1; 1], []) /\
  v6_to_string (group_bytes [0; 0; 1; 0; 0; 1; 1; 1]) [] compressed = Ret (str "::1:0:0:1:1:1").
Proof.
  split; [apply wasteful_by; reflexivity|]. split; [apply wasteful_by; reflexivity|].
  split; [intros W; apply wasteful_by in W; discriminate|]. repeat split; vm_compute; reflexivity.
Qed.

(** Different addresses, of the same or of different versions, have different texts, whatever the formats. *)
Theorem C82_address_texts : forall v v' a b f g s, wf_addr v a -> wf_addr v' b -> addr_to_string v a f = Ret s -> addr_to_string v' b g = Ret s -> v = v' /\ a = b.
Proof. exact addr_distinct. Qed.
Print Assumptions C82_address_texts.
(** So have different networks; *)
Theorem C82_network_texts : forall v v' n m f g s, wf_net v n -> wf_net v' m -> net_to_string v n f = Ret s -> net_to_string v' m g = Ret s -> v = v' /\ n = m.
Proof. exact net_distinct. Qed.
Print Assumptions C82_network_texts.
(** and no address shares a text with a network. *)
Theorem C82_kinds : forall v v' a n f g s, wf_addr v a -> wf_net v' n -> addr_to_string v a f = Ret s -> net_to_string v' n g <> Ret s.
Proof. exact addr_net_distinct. Qed.
Print Assumptions C82_kinds.
Example C82_texts_ex : wf_addr V4 (addr_at V4 "1.2.3.4") /\ wf_addr V6 (addr_at V6 "::1.2.3.4%eth0") /\ wf_net V6 (net_at V6 "fe80::%eth0/64") /\
  addr_to_string V4 (addr_at V4 "1.2.3.4") full = Ret (str "1.2.3.4") /\ addr_to_string V6 (addr_at V6 "::1.2.3.4%eth0") compressed = Ret (str "::102:304%eth0") /\
  net_to_string V6 (net_at V6 "fe80::%eth0/64") compressed = Ret (str "fe80::%eth0/64").
Proof.
  split; [apply addr_at_wf; reflexivity|]. split; [apply addr_at_wf; reflexivity|]. split; [apply net_at_wf; reflexivity|]. repeat split; vm_compute; reflexivity.
Qed.

