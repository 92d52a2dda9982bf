(** The overloads with an error code against the throwing ones. *)
From Verif Require Import Base Tac UnicodeModel FixedStringModel V4Model V6Model AddressModel NetworkModel IterModel AnyModel CodeModel SpecCode ErrProofs CodeProofs CodeProofs2.

Lemma agree_ok {A} (a : A) (t : res A) : t = Ret a -> agree (Ret (a, no_error)) t.
Proof. intros ->. split; [reflexivity|]. intros H. contradiction H. reflexivity. Qed.
Lemma agree_bad {A} (a : A) e x (t : res A) : e <> no_error -> t = Err e x -> agree (Ret (a, e)) t.
Proof. intros E ->. split; [contradiction|]. intros _. exists x. reflexivity. Qed.

(** *** Addresses *)
Lemma parse_throw_eq v ts : Forall tok_real ts -> parse_throw v ts = addr_parse v ts.
Proof.
  intros H. unfold parse_throw. cbv zeta. pose proof (string_sim0 v ts no_error H) as G. pose proof (addr_parse_real v ts H) as R.
  destruct (addr_parse v ts) as [a|e x|u]; cbn [outcome real] in *.
  - destruct G as (x & ->). reflexivity.
  - rewrite G. cbn [bind]. rewrite (ok_no _ R). reflexivity.
  - rewrite G. reflexivity.
Qed.
Lemma parse_st_eq v ts code code' : Forall tok_real ts -> parse_st v ts code = addr_parse_code v ts code'.
Proof.
  intros H. unfold parse_st, addr_parse_code. cbv zeta. pose proof (string_sim0 v ts no_error H) as G.
  destruct (addr_parse v ts) as [a|e x|u]; cbn [outcome] in *; [destruct G as (x & ->)|rewrite G|rewrite G]; reflexivity.
Qed.
Lemma parse_agree v ts code : Forall tok_real ts -> agree (parse_st v ts code) (parse_throw v ts).
Proof.
  intros H. rewrite parse_throw_eq, (parse_st_eq v ts code code) by exact H. unfold addr_parse_code.
  pose proof (addr_parse_real v ts H) as R. destruct (addr_parse v ts) as [a|e x|u]; cbn [real] in R;
    [apply agree_ok|apply agree_bad with x; [exact R|]|]; reflexivity.
Qed.
Lemma parse_array_agree v next n data code : reader_real next -> agree (parse_array_st v next n data code) (parse_array_throw v next n data).
Proof.
  intros R. unfold parse_array_st, parse_array_throw. pose proof (fs_make_sim next n data code R) as F.
  destruct (fs_make next n data) as [f|e x|u]; cbn [fs_outcome bind] in *.
  - rewrite F. cbn [bind]. rewrite ok_ok. apply parse_agree. apply chars_real.
  - destruct F as (E & f & ->). cbn [bind]. rewrite (ok_no _ E). apply agree_bad with x; [exact E|reflexivity].
  - rewrite F. reflexivity.
Qed.
Lemma fs_make_st_any next n data c1 c2 : fs_make_st next n data c1 = fs_make_st next n data c2.
Proof. unfold fs_make_st. destruct n; reflexivity. Qed.
Lemma parse_array_any v next n data c1 c2 : parse_array_st v next n data c1 = parse_array_st v next n data c2.
Proof. unfold parse_array_st. rewrite (fs_make_st_any next n data c1 c2). destruct (fs_make_st _ _ _ _) as [[f c]| |]; reflexivity. Qed.
(** The array overload on the buffer of the network parser. *)
Lemma parse_array_eq v address code : match addr_parse_array v address with
  | Ret a => parse_array_st v char_next (Z.to_nat (max_string_len v)) address code = Ret (a, no_error)
  | Err e _ => e <> no_error /\ parse_array_st v char_next (Z.to_nat (max_string_len v)) address code = Ret (addr_default v, e)
  | UB u => parse_array_st v char_next (Z.to_nat (max_string_len v)) address code = UB u end.
Proof.
  unfold addr_parse_array, parse_array_st. generalize (Z.to_nat (max_string_len v)) as n. intros n.
  pose proof (fs_make_sim char_next n address code char_reader_real) as F.
  destruct (fs_make char_next n address) as [f|e x|u]; cbn [fs_outcome bind] in *.
  - rewrite F. cbn [bind]. rewrite ok_ok. rewrite (parse_st_eq v _ no_error no_error) by apply chars_real. unfold addr_parse_code.
    pose proof (addr_parse_real v (chars (fs_chars f)) (chars_real _)) as R. destruct (addr_parse v (chars (fs_chars f))); cbn [real] in R; [reflexivity|split; [exact R|reflexivity]|reflexivity].
  - destruct F as (E & f & ->). cbn [bind]. rewrite (ok_no _ E). split; [exact E|reflexivity].
  - rewrite F. reflexivity.
Qed.

(** *** Scope ids *)
Lemma change_loop_sim : forall ts i str es, Forall tok_real ts -> match set_scope_loop ts i str with
  | Ret s => change_loop_st ts i str no_error 0 es = Ret (Some s, no_error, 0)
  | Err e x => e <> no_error /\ change_loop_st ts i str no_error 0 es = Ret (None, e, x)
  | UB u => change_loop_st ts i str no_error 0 es = UB u end.
Proof.
  induction ts as [|[c|e x] ts IH]; intros i str es H; cbn [set_scope_loop change_loop_st next_st]; [reflexivity| |].
  - inversion H as [|? ? _ H']. subst. rewrite ok_ok. cbn [negb]. destruct (is_invalid_scope_id_symbol c); [split; [discriminate|reflexivity]|].
    quietly (wr str i c) (quiet_wr str i c). apply IH. exact H'.
  - inversion H as [|? ? T _]. subst. cbn in T. rewrite (ok_no _ T). split; [exact T|reflexivity].
Qed.
Lemma change_sim old n ts code : Forall tok_real ts -> match v6_set_scope n ts with
  | Ret s => change_st old n ts code 0 = Ret (s, no_error, 0)
  | Err e x => e <> no_error /\ change_st old n ts code 0 = Ret (old, e, x)
  | UB u => change_st old n ts code 0 = UB u end.
Proof.
  intros H. unfold v6_set_scope, change_st. destruct (n >? scope_max); [split; [discriminate|reflexivity]|]. cbv zeta.
  pose proof (change_loop_sim ts 0 (repeat 0 17) 0 H) as G. destruct (set_scope_loop ts 0 (repeat 0 17)) as [s|e x|u]; cbn [bind].
  - rewrite G. cbn [bind]. pose proof (fs_make_sim char_next 16 s no_error char_reader_real) as F.
    pose proof (fs_fill_quiet 16 s 16 0 0 (fs_empty 16)) as Q. change (fs_fill 16 char_next s 16 0 0 (fs_empty 16)) with (fs_make char_next 16 s) in Q.
    destruct (fs_make char_next 16 s) as [f| |]; cbn [fs_outcome bind] in *; [|contradiction|rewrite F; reflexivity].
    rewrite F. cbn [bind]. rewrite ok_ok. reflexivity.
  - destruct G as (E & ->). split; [exact E|reflexivity].
  - rewrite G. reflexivity.
Qed.
Lemma set_scope_agree a n ts code : Forall tok_real ts ->
  agree (set_scope_st a n ts code) (set_scope_throw a n ts) /\
  (forall a' c, set_scope_st a n ts code = Ret (a', c) -> c <> no_error -> a' = a).
Proof.
  intros H. unfold set_scope_st, set_scope_throw. cbv zeta.
  pose proof (change_sim (a_scope a) n ts code H) as G. pose proof (change_sim (a_scope a) n ts no_error H) as G'.
  destruct (v6_set_scope n ts) as [s|e x|u].
  - rewrite G, G'. cbn [bind]. split; [apply agree_ok; reflexivity|]. intros a' c E. injection E as <- <-. intros K. contradiction K. reflexivity.
  - destruct G as (E & ->). destruct G' as (_ & ->). cbn [bind]. rewrite (ok_no _ E). split; [apply agree_bad with x; [exact E|reflexivity]|].
    intros a' c EE _. injection EE as <- _. destruct a; reflexivity.
  - rewrite G, G'. cbn [bind]. split; [reflexivity|discriminate].
Qed.
Lemma set_scope_any a n ts c1 c2 : set_scope_st a n ts c1 = set_scope_st a n ts c2.
Proof. unfold set_scope_st, change_st. destruct (n >? scope_max); reflexivity. Qed.
Lemma set_scope_array_any a next n data c1 c2 : set_scope_array_st a next n data c1 = set_scope_array_st a next n data c2.
Proof.
  unfold set_scope_array_st. rewrite (fs_make_st_any next n data c1 c2). destruct (fs_make_st _ _ _ _) as [[f c]| |]; reflexivity.
Qed.

(** *** Networks *)
Lemma net_split_sim M : forall ts a s h nm, Forall tok_real ts -> match net_split M ts a s h nm with
  | Ret (a', nm') => net_split_st M ts a s h nm no_error 0 = Ret (Some (a', nm'), no_error, 0)
  | Err e x => e <> no_error /\ net_split_st M ts a s h nm no_error 0 = Ret (None, e, x)
  | UB u => net_split_st M ts a s h nm no_error 0 = UB u end.
Proof.
  induction ts as [|[c|e x] ts IH]; intros a s h nm H; cbn [net_split net_split_st next_st].
  - reflexivity.
  - inversion H as [|? ? _ H']. subst. rewrite ok_ok. cbn [negb].
    destruct ((c =? 47) && h); [split; [discriminate|]; reflexivity|].
    destruct ((c =? 47) && (zlen ts =? 0)); [split; [discriminate|]; reflexivity|]. cbv zeta.
    destruct (negb (if c =? 47 then true else h)).
    + quietly (wr a s c) (quiet_wr a s c). destruct (s + 1 >? M); [reflexivity|]. apply IH. exact H'.
    + cbn [bind]. destruct (s >? M); [reflexivity|]. apply IH. exact H'.
  - inversion H as [|? ? T _]. subst. cbn in T. rewrite (ok_no _ T). split; [exact T|]. reflexivity.
Qed.
(** What [code_value] holds after a network has been read. *)
Definition net_value (v : ver) (ts : list tok) : Z :=
  match net_split (max_string_len v) ts (repeat 0 (Z.to_nat (max_string_len v + 1))) 0 false [] with
  | Ret (_, nm) => mask_value v nm | _ => 0 end.
Lemma net_string_sim v ts strict code : Forall tok_real ts -> weak (net_default v) (net_value v ts) (net_parse_res v ts strict) (net_string_st v ts strict code 0).
Proof.
  intros H. unfold net_parse_res, net_string_st, net_value. cbv zeta.
  generalize (repeat 0 (Z.to_nat (max_string_len v + 1))) as buf. intros buf.
  pose proof (net_split_sim (max_string_len v) ts buf 0 false [] H) as G.
  destruct (net_split (max_string_len v) ts buf 0 false []) as [[address nm]|e x|u] eqn:ES; cbn [bind].
  2:{ destruct G as (E & ->). cbn [bind weak]. split; [exact E|]. reflexivity. }
  2:{ rewrite G. reflexivity. }
  rewrite G. clear G. cbn [bind]. apply split_mask_real in ES; [|exact H|constructor].
  pose proof (mask_sim v nm ES) as G. destruct (parse_netmask v nm) as [[m p]|e x|u]; cbn [weak bind] in *.
  2:{ destruct G as (E & ->). cbn [bind]. rewrite (ok_no _ E). split; [exact E|]. reflexivity. }
  2:{ rewrite G. reflexivity. }
  rewrite G. clear G. cbn [bind]. rewrite ok_ok. cbn [negb].
  pose proof (parse_array_eq v address no_error) as G. destruct (addr_parse_array v address) as [a|e x|u]; cbn [bind with_value].
  2:{ destruct G as (E & ->). cbn [bind]. rewrite (ok_no _ E). split; [exact E|]. reflexivity. }
  2:{ rewrite G. reflexivity. }
  rewrite G. cbn [bind]. rewrite ok_ok. cbn [negb].
  pose proof (strict_sim v a m strict) as T. destruct (strict_netmask v a m strict) as [b|e x|u]; cbn [bind with_value].
  - rewrite T. cbn [bind]. rewrite ok_ok. reflexivity.
  - destruct T as (-> & ->). cbn [bind]. split; [discriminate|]. reflexivity.
  - rewrite T. reflexivity.
Qed.
Lemma net_parse_throw_eq v ts strict : Forall tok_real ts -> net_parse_throw v ts strict = net_parse v ts strict.
Proof.
  intros H. unfold net_parse_throw. cbv zeta. rewrite net_parse_is_res by exact H.
  pose proof (net_string_sim v ts strict no_error H) as G. destruct (net_parse_res v ts strict) as [n|e x|u]; cbn [weak] in G.
  - rewrite G. reflexivity.
  - destruct G as (E & ->). cbn [bind]. rewrite (ok_no _ E). reflexivity.
  - rewrite G. reflexivity.
Qed.
Lemma net_parse_st_eq v ts strict code code' : Forall tok_real ts -> net_parse_st v ts strict code = net_parse_code v ts code' strict.
Proof.
  intros H. unfold net_parse_st, net_parse_code. pose proof (net_string_sim v ts strict code H) as G.
  destruct (net_parse_res v ts strict) as [n|e x|u]; cbn [weak] in G; [rewrite G|destruct G as (E & ->)|rewrite G]; reflexivity.
Qed.
Lemma net_parse_agree v ts strict code : Forall tok_real ts -> agree (net_parse_st v ts strict code) (net_parse_throw v ts strict).
Proof.
  intros H. unfold net_parse_st, net_parse_throw. cbv zeta. pose proof (net_string_sim v ts strict code H) as G. pose proof (net_string_sim v ts strict no_error H) as G'.
  destruct (net_parse_res v ts strict) as [n|e x|u]; cbn [weak] in G, G'.
  - rewrite G, G'. apply agree_ok. reflexivity.
  - destruct G as (E & ->), G' as (_ & ->). cbn [bind]. rewrite (ok_no _ E). apply agree_bad with x; [exact E|reflexivity].
  - rewrite G, G'. reflexivity.
Qed.
Lemma net_parse_any v ts strict c1 c2 : net_parse_st v ts strict c1 = net_parse_st v ts strict c2.
Proof. reflexivity. Qed.
Lemma net_array_agree v next n data strict code : reader_real next -> agree (net_array_st v next n data strict code) (net_array_throw v next n data strict).
Proof.
  intros R. unfold net_array_st, net_array_throw. pose proof (fs_make_sim next n data code R) as F.
  destruct (fs_make next n data) as [f|e x|u]; cbn [fs_outcome bind] in *.
  - rewrite F. cbn [bind]. rewrite ok_ok. apply net_parse_agree. apply chars_real.
  - destruct F as (E & f & ->). cbn [bind]. rewrite (ok_no _ E). apply agree_bad with x; [exact E|reflexivity].
  - rewrite F. reflexivity.
Qed.
Lemma net_array_any v next n data strict c1 c2 : net_array_st v next n data strict c1 = net_array_st v next n data strict c2.
Proof. unfold net_array_st. rewrite (fs_make_st_any next n data c1 c2). destruct (fs_make_st _ _ _ _) as [[f c]| |]; reflexivity. Qed.

(** *** from_address and supernet *)
Lemma ip_from_prefix_quiet v p : quiet (ip_from_prefix v p).
Proof. unfold ip_from_prefix. destruct v; (apply quiet_bind; [first [apply v4_from_prefix_quiet|apply v6_from_prefix_quiet]|intros; exact I]). Qed.
Lemma from_address_st_eq v a p strict code code' : from_address_st v a p strict code = from_address_code v a code' p strict.
Proof.
  unfold from_address_st, from_address_code. cbv zeta. quietly (ip_from_prefix v p) (ip_from_prefix_quiet v p).
  pose proof (strict_sim v a a0 strict) as T. destruct (strict_netmask v a a0 strict) as [b|e x|u]; [rewrite T|destruct T as (-> & ->)|rewrite T]; reflexivity.
Qed.
Lemma from_address_throw_eq v a p strict : from_address_throw v a p strict = from_address v a p strict.
Proof.
  unfold from_address_throw, from_address. cbv zeta. rewrite (from_address_st_eq v a p strict no_error no_error).
  destruct (from_address_code v a no_error p strict) as [[r c]| |]; cbn [bind]; [|reflexivity|reflexivity].
  unfold raise_if. fold (ok c). destruct (ok c); reflexivity.
Qed.
Lemma from_address_agree v a p strict code : agree (from_address_st v a p strict code) (from_address_throw v a p strict).
Proof.
  unfold from_address_throw. cbv zeta. rewrite (from_address_st_eq v a p strict no_error no_error), (from_address_st_eq v a p strict code no_error).
  destruct (from_address_code v a no_error p strict) as [[r c]| |] eqn:E; cbn [bind]; [|reflexivity|reflexivity].
  destruct (ok c) eqn:O; cbn [negb].
  - apply ok_yes in O. subst c. apply agree_ok. reflexivity.
  - apply agree_bad with 0; [|reflexivity]. intros ->. discriminate.
Qed.
Lemma supernet_st_eq v n d np code code' : supernet_st v n d np code = supernet_code v n code' d np.
Proof.
  unfold supernet_st, supernet_code. cbv zeta. destruct (n_prefix n =? 0); [reflexivity|].
  assert (F : forall k, (if k >? n_prefix n then Ret (net_default v, invalid_prefixlen_diff) else
      a <- addr_to_uint v (n_addr n) ;; m <- addr_to_uint v (n_mask n) ;; s <- ushl v m k ;; address <- addr_from_uint v (uand v a s) ;;
      r <- from_address_throw v address (n_prefix n - k) true ;; Ret (r, no_error)) =
    (if k >? n_prefix n then Ret (net_default v, invalid_prefixlen_diff) else
      a <- addr_to_uint v (n_addr n) ;; m <- addr_to_uint v (n_mask n) ;; s <- ushl v m k ;; address <- addr_from_uint v (uand v a s) ;;
      r <- from_address v address (n_prefix n - k) true ;; Ret (r, no_error))).
  { intros k. destruct (k >? n_prefix n); [reflexivity|]. destruct (addr_to_uint v (n_addr n)); cbn [bind]; [|reflexivity|reflexivity].
    destruct (addr_to_uint v (n_mask n)); cbn [bind]; [|reflexivity|reflexivity]. destruct (ushl v _ k); cbn [bind]; [|reflexivity|reflexivity].
    destruct (addr_from_uint v _); cbn [bind]; [|reflexivity|reflexivity]. rewrite from_address_throw_eq. reflexivity. }
  destruct np as [k|]; [|apply F]. destruct (k >? n_prefix n); [reflexivity|]. destruct (negb (d =? 1)); [reflexivity|apply F].
Qed.
Lemma raise_agree {A} (o : res (A * ec)) (t : res A) : t = ('(r, c) <- o ;; if negb (ok c) then Err c 0 else Ret r) -> agree o t.
Proof.
  intros ->. destruct o as [[r c]| |]; cbn [bind]; [|reflexivity|reflexivity]. destruct (ok c) eqn:O; cbn [negb].
  - apply ok_yes in O. subst c. apply agree_ok. reflexivity.
  - apply agree_bad with 0; [|reflexivity]. intros ->. discriminate.
Qed.
Lemma supernet_agree v n d np code : agree (supernet_st v n d np code) (supernet_throw v n d np).
Proof. apply raise_agree. unfold supernet_throw. cbv zeta. rewrite !(supernet_st_eq v n d np _ no_error). reflexivity. Qed.
Lemma supernet_throw_eq v n d np : supernet_throw v n d np = supernet v n d np.
Proof.
  unfold supernet_throw, supernet. cbv zeta. rewrite (supernet_st_eq v n d np no_error no_error).
  destruct (supernet_code v n no_error d np) as [[r c]| |]; cbn [bind]; [|reflexivity|reflexivity]. unfold raise_if. fold (ok c). destruct (ok c); reflexivity.
Qed.

(** *** subnets and address_exclude: the code is only written on an error *)
Definition keeps {A} (F : ec -> res (A * ec)) : Prop :=
  forall code, match F no_error with
  | Ret (a, e) => F code = Ret (a, if ok e then code else e)
  | Err e x => F code = Err e x
  | UB u => F code = UB u
  end.
Lemma subnets_keeps sp v n d np : keeps (fun code => subnets_code sp v n code d np).
Proof.
  intros code. unfold subnets_code. destruct (remove_scope v (n_addr n)); cbn [bind]; [|reflexivity|reflexivity].
  destruct (n_prefix n =? width v). { destruct (subnets_single _ _ _ _); reflexivity. }
  match goal with |- context [match ?m with inl _ => _ | inr _ => _ end] => destruct m as [e|k] eqn:E end.
  - destruct (ok e) eqn:O; [|reflexivity]. apply ok_yes in O. subst e. destruct np as [q|]; [|discriminate]. destruct (q <? _); [discriminate|]. destruct (negb _); discriminate.
  - cbv zeta. destruct (_ >? width v); [reflexivity|]. destruct (subnets_make _ _ _ _ _ _); reflexivity.
Qed.
Lemma exclude_keeps sp v n m : keeps (exclude_code sp v n m).
Proof.
  intros code. unfold exclude_code. destruct (remove_scope_net v n); cbn [bind]; [|reflexivity|reflexivity]. destruct (remove_scope_net v m); cbn [bind]; [|reflexivity|reflexivity].
  destruct (subnet_of _ _ _ _); cbn [bind]; [|reflexivity|reflexivity]. destruct (negb _); [reflexivity|].
  destruct (net_eqb _ _ _) as [[]| |]; cbn [bind]; [reflexivity| |reflexivity|reflexivity]. destruct (xit_make _ _ _ _); reflexivity.
Qed.
Lemma raise_if_agree {A} (o : res (A * ec)) : agree o ('(r, c) <- o ;; raise_if r c 0).
Proof. apply raise_agree. destruct o as [[r c]| |]; cbn [bind]; [|reflexivity|reflexivity]. unfold raise_if. fold (ok c). destruct (ok c); reflexivity. Qed.
Lemma subnets_agree sp v n d np : agree (subnets_code sp v n no_error d np) (subnets sp v n d np).
Proof. apply raise_if_agree. Qed.
Lemma exclude_agree sp v n m : agree (exclude_code sp v n m no_error) (address_exclude sp v n m).
Proof. apply raise_if_agree. Qed.
Lemma any_exclude_agree sp x y code : agree (any_exclude_code sp x y code) (any_exclude sp x y).
Proof. exact (raise_if_agree (any_exclude_code sp x y no_error)). Qed.

(** *** Version-erased objects *)
Lemma any_parse_st_eq ts code code' : Forall tok_real ts -> any_parse_st ts code = any_parse_code ts code'.
Proof.
  intros H. unfold any_parse_st, any_parse_code. cbv zeta. rewrite (parse_st_eq V4 ts no_error no_error H).
  destruct (addr_parse_code V4 ts no_error) as [[a c]| |]; cbn [bind]; [|reflexivity|reflexivity]. unfold ok. destruct (ec_eqb c no_error); [reflexivity|].
  rewrite (parse_st_eq V6 ts c c H). reflexivity.
Qed.
Lemma any_parse_throw_eq ts : Forall tok_real ts -> any_parse_throw ts = any_parse ts.
Proof.
  intros H. unfold any_parse_throw, any_parse. cbv zeta. rewrite (parse_st_eq V4 ts no_error no_error H).
  destruct (addr_parse_code V4 ts no_error) as [[a c]| |]; cbn [bind]; [|reflexivity|reflexivity]. unfold ok. destruct (ec_eqb c no_error); [reflexivity|].
  rewrite parse_throw_eq by exact H. reflexivity.
Qed.
Lemma agree_map {A B} (f : A -> B) (d : B) (o : res (A * ec)) (t : res A) : agree o t ->
  agree ('(a, c) <- o ;; if ok c then Ret (f a, c) else Ret (d, c)) (a <- t ;; Ret (f a)).
Proof.
  destruct o as [[a c]|e x|u]; cbn [agree bind]; [|intros ->; reflexivity|intros ->; reflexivity]. intros [H1 H2]. destruct (ok c) eqn:O.
  - apply ok_yes in O. subst c. rewrite H1 by reflexivity. apply agree_ok. reflexivity.
  - assert (E : c <> no_error) by (intros ->; discriminate). destruct (H2 E) as (x & ->). apply agree_bad with x; [exact E|reflexivity].
Qed.
Lemma any_parse_agree ts code : Forall tok_real ts -> agree (any_parse_st ts code) (any_parse_throw ts).
Proof.
  intros H. unfold any_parse_st, any_parse_throw. cbv zeta.
  destruct (parse_st V4 ts no_error) as [[a c]| |]; cbn [bind]; [|reflexivity|reflexivity]. destruct (ok c) eqn:O.
  - apply ok_yes in O. subst c. apply agree_ok. reflexivity.
  - apply agree_map. apply parse_agree. exact H.
Qed.
Lemma anet_parse_agree ts strict code : Forall tok_real ts -> agree (anet_parse_st ts strict code) (anet_parse_throw ts strict).
Proof.
  intros H. unfold anet_parse_st, anet_parse_throw. cbv zeta.
  destruct (net_parse_st V4 ts strict no_error) as [[a c]| |]; cbn [bind]; [|reflexivity|reflexivity]. destruct (ok c) eqn:O.
  - apply ok_yes in O. subst c. apply agree_ok. reflexivity.
  - apply agree_map. apply net_parse_agree. exact H.
Qed.
Lemma anet_parse_st_eq ts strict code code' : Forall tok_real ts -> anet_parse_st ts strict code = anet_parse_code ts code' strict.
Proof.
  intros H. unfold anet_parse_st, anet_parse_code. cbv zeta. rewrite (net_parse_st_eq V4 ts strict no_error no_error H).
  destruct (net_parse_code V4 ts no_error strict) as [[a c]| |]; cbn [bind]; [|reflexivity|reflexivity]. unfold ok. destruct (ec_eqb c no_error); [reflexivity|].
  rewrite (net_parse_st_eq V6 ts strict c c H). reflexivity.
Qed.
Lemma anet_parse_throw_eq ts strict : Forall tok_real ts -> anet_parse_throw ts strict = anet_parse ts strict.
Proof.
  intros H. unfold anet_parse_throw, anet_parse. cbv zeta. rewrite (net_parse_st_eq V4 ts strict no_error no_error H).
  destruct (net_parse_code V4 ts no_error strict) as [[a c]| |]; cbn [bind]; [|reflexivity|reflexivity]. unfold ok. destruct (ec_eqb c no_error); [reflexivity|].
  rewrite net_parse_throw_eq by exact H. reflexivity.
Qed.
Lemma any_set_scope_agree x n ts : Forall tok_real ts -> agree (any_set_scope_st x n ts no_error) (any_set_scope_throw x n ts).
Proof.
  intros H. unfold any_set_scope_st, any_set_scope_throw. destruct (ver_eqb (aa_ver x) V6); [|apply agree_ok; reflexivity].
  destruct (set_scope_agree (aa_addr x) n ts no_error H) as [G _].
  destruct (set_scope_st (aa_addr x) n ts no_error) as [[a c]|e y|u]; cbn [agree bind] in *; [|rewrite G; reflexivity|rewrite G; reflexivity].
  destruct G as [G1 G2]. destruct (ok c) eqn:O.
  - apply ok_yes in O. subst c. rewrite G1 by reflexivity. apply agree_ok. reflexivity.
  - assert (E : c <> no_error) by (intros ->; discriminate). destruct (G2 E) as (y & ->). apply agree_bad with y; [exact E|reflexivity].
Qed.
