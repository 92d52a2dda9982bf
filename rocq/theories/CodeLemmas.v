(** Lemmas in the form used by the property theorems (C54). *)
From Coq Require Import String.
From Verif Require Import Base Tac UnicodeModel FixedStringModel V4Model V6Model AddressModel NetworkModel IterModel AnyModel SpecAny CodeModel SpecCode ErrProofs CodeProofs CodeProofs2 CodeProofs3
  SpecNet SpecAddr SpecOrder NetWitness NetProofs NetProofs2 IterLemmas.

Lemma readers : reader_genuine char_next /\ reader_genuine utf8_next /\ reader_genuine utf16_next /\ reader_genuine utf32_next /\
  (forall next s ts, reader_genuine next -> tokens next s = Ret ts -> Forall tok_genuine ts).
Proof.
  split; [apply reader_is_genuine, char_reader_real|]. split; [apply reader_is_genuine, utf8_reader_real|].
  split; [apply reader_is_genuine, utf16_reader_real|]. split; [apply reader_is_genuine, utf32_reader_real|].
  intros next s ts R. apply tokens_real, genuine_reader, R.
Qed.
Lemma addr_code_default v ts code : on_error (addr_default v) (addr_parse_code v ts code).
Proof.
  intros a c. unfold addr_parse_code. destruct (addr_parse v ts); intros E K; [|injection E as <- _; reflexivity|discriminate].
  injection E as _ <-. contradiction K. reflexivity.
Qed.
Lemma parse_overloads v ts code : Forall tok_genuine ts ->
  agree (parse_st v ts code) (parse_throw v ts) /\ on_error (addr_default v) (parse_st v ts code) /\ blind (parse_st v ts).
Proof.
  intros H. split; [apply parse_agree; exact H|]. split; [|intros c c'; rewrite !(parse_st_eq v ts _ no_error) by exact H; reflexivity].
  rewrite (parse_st_eq v ts code code H). apply addr_code_default.
Qed.
Lemma parse_array_overloads v next n data code : reader_genuine next ->
  agree (parse_array_st v next n data code) (parse_array_throw v next n data) /\ on_error (addr_default v) (parse_array_st v next n data code) /\ blind (parse_array_st v next n data).
Proof.
  intros R. split; [apply parse_array_agree, genuine_reader, R|]. split; [|intros c c'; apply parse_array_any].
  intros a c. unfold parse_array_st. destruct (fs_make_st next n data code) as [[f k]| |]; cbn [bind]; [|discriminate|discriminate].
  destruct (ok k); [|intros E _; injection E as <- _; reflexivity]. rewrite (parse_st_eq v _ k k (chars_real _)). apply addr_code_default.
Qed.
Lemma scope_overloads a n ts code : Forall tok_genuine ts ->
  agree (set_scope_st a n ts code) (set_scope_throw a n ts) /\ on_error a (set_scope_st a n ts code) /\ blind (set_scope_st a n ts).
Proof.
  intros H. destruct (set_scope_agree a n ts code H) as [G1 G2]. split; [exact G1|]. split; [exact G2|]. intros c c'. apply set_scope_any.
Qed.
Lemma scope_array_overloads a next n data code : reader_genuine next ->
  agree (set_scope_array_st a next n data code) (set_scope_array_throw a next n data) /\ on_error a (set_scope_array_st a next n data code) /\
  blind (set_scope_array_st a next n data).
Proof.
  intros R. unfold set_scope_array_st at 1 2, set_scope_array_throw. pose proof (fs_make_sim next n data code (genuine_reader _ R)) as F.
  destruct (fs_make next n data) as [f|e x|u]; cbn [fs_outcome bind] in *.
  - rewrite F. cbn [bind]. rewrite ok_ok. destruct (set_scope_agree a (fs_size f) (chars (fs_chars f)) no_error (chars_real _)) as [G1 G2].
    split; [exact G1|]. split; [exact G2|]. intros c c'. apply set_scope_array_any.
  - destruct F as (E & f & ->). cbn [bind]. rewrite (ok_no _ E). split; [apply agree_bad with x; [exact E|reflexivity]|].
    split; [intros b c EE _; injection EE as <- _; reflexivity|]. intros c c'. apply set_scope_array_any.
  - rewrite F. split; [reflexivity|]. split; [intros b c; discriminate|]. intros c c'. apply set_scope_array_any.
Qed.
Lemma net_code_default v ts code strict : on_error (net_default v) (net_parse_code v ts code strict).
Proof.
  intros a c. unfold net_parse_code. destruct (net_parse_res v ts strict); intros E K; [|injection E as <- _; reflexivity|discriminate].
  injection E as _ <-. contradiction K. reflexivity.
Qed.
Lemma net_parse_overloads v ts strict code : Forall tok_genuine ts ->
  agree (net_parse_st v ts strict code) (net_parse_throw v ts strict) /\ on_error (net_default v) (net_parse_st v ts strict code) /\ blind (net_parse_st v ts strict).
Proof.
  intros H. split; [apply net_parse_agree; exact H|]. split; [|intros c c'; rewrite !(net_parse_st_eq v ts strict _ no_error) by exact H; reflexivity].
  rewrite (net_parse_st_eq v ts strict code code H). apply net_code_default.
Qed.
Lemma net_array_overloads v next n data strict code : reader_genuine next ->
  agree (net_array_st v next n data strict code) (net_array_throw v next n data strict) /\ on_error (net_default v) (net_array_st v next n data strict code) /\
  blind (net_array_st v next n data strict).
Proof.
  intros R. split; [apply net_array_agree, genuine_reader, R|]. split; [|intros c c'; apply net_array_any].
  intros a c. unfold net_array_st. destruct (fs_make_st next n data code) as [[f k]| |]; cbn [bind]; [|discriminate|discriminate].
  destruct (ok k); [|intros E _; injection E as <- _; reflexivity]. rewrite (net_parse_st_eq v _ strict k k (chars_real _)). apply net_code_default.
Qed.
Lemma from_address_overloads v a p strict code :
  agree (from_address_st v a p strict code) (from_address_throw v a p strict) /\ on_error (net_default v) (from_address_st v a p strict code) /\
  blind (from_address_st v a p strict).
Proof.
  split; [apply from_address_agree|]. split; [|intros c c'; rewrite !(from_address_st_eq v a p strict _ no_error); reflexivity].
  intros n c. rewrite (from_address_st_eq v a p strict code code). unfold from_address_code.
  pose proof (ip_from_prefix_quiet v p) as Q. destruct (ip_from_prefix v p) as [m| |]; cbn [bind]; [|contradiction|discriminate].
  destruct (strict_netmask v a m strict); intros E K; [|injection E as <- _; reflexivity|discriminate]. injection E as _ <-. contradiction K. reflexivity.
Qed.
Lemma supernet_overloads v n d np code :
  agree (supernet_st v n d np code) (supernet_throw v n d np) /\ on_error (net_default v) (supernet_st v n d np code) /\ blind (supernet_st v n d np).
Proof.
  split; [apply supernet_agree|]. split; [|intros c c'; rewrite !(supernet_st_eq v n d np _ no_error); reflexivity].
  intros r c. rewrite (supernet_st_eq v n d np code code). unfold supernet_code. destruct (n_prefix n =? 0); [intros E K; injection E as _ <-; contradiction K; reflexivity|].
  match goal with |- context [match ?m with inl _ => _ | inr _ => _ end] => destruct m as [e|k] end; [intros E _; injection E as <- _; reflexivity|].
  destruct (k >? n_prefix n); [intros E _; injection E as <- _; reflexivity|]. cbv zeta.
  destruct (addr_to_uint v (n_addr n)); cbn [bind]; [|discriminate|discriminate].
  destruct (addr_to_uint v (n_mask n)); cbn [bind]; [|discriminate|discriminate]. destruct (ushl v _ k); cbn [bind]; [|discriminate|discriminate].
  destruct (addr_from_uint v _); cbn [bind]; [|discriminate|discriminate]. destruct (from_address v _ _ _); cbn [bind]; [|discriminate|discriminate].
  intros E K; injection E as _ <-; contradiction K; reflexivity.
Qed.
(** Passing a code other than no_error to subnets or address_exclude. *)
Lemma subnets_overloads sp v n d np :
  agree (subnets_code sp v n no_error d np) (subnets sp v n d np) /\
  forall code, match subnets_code sp v n no_error d np with
    | Ret (s, no_error) => subnets_code sp v n code d np = Ret (s, code)
    | r => subnets_code sp v n code d np = r end.
Proof.
  split; [apply subnets_agree|]. intros code. pose proof (subnets_keeps sp v n d np code) as G. cbv beta in G.
  destruct (subnets_code sp v n no_error d np) as [[s e]| |]; [|exact G|exact G]. destruct e; exact G.
Qed.
Lemma exclude_overloads sp v n m :
  agree (exclude_code sp v n m no_error) (address_exclude sp v n m) /\
  forall code, match exclude_code sp v n m no_error with
    | Ret (s, no_error) => exclude_code sp v n m code = Ret (s, code)
    | r => exclude_code sp v n m code = r end.
Proof.
  split; [apply exclude_agree|]. intros code. pose proof (exclude_keeps sp v n m code) as G.
  destruct (exclude_code sp v n m no_error) as [[s e]| |]; [|exact G|exact G]. destruct e; exact G.
Qed.
Lemma subnets_stale : exists v n s code, wf_net v n /\ code <> no_error /\ subnets true v n 1 None = Ret s /\ subnets_code true v n code 1 None = Ret (s, code).
Proof.
  exists V4, (net_at V4 "10.0.0.0/8"). eexists. exists not_contained_network. split; [wfn|]. split; [discriminate|]. split; vm_compute; reflexivity.
Qed.
Lemma exclude_stale : exists v n m s code, wf_net v n /\ wf_net v m /\ code <> no_error /\
  address_exclude true v n m = Ret s /\ exclude_code true v n m code = Ret (s, code).
Proof.
  exists V4, (net_at V4 "10.0.0.0/8"), (net_at V4 "10.1.0.0/16"). eexists. exists not_contained_network. split; [wfn|]. split; [wfn|]. split; [discriminate|].
  split; vm_compute; reflexivity.
Qed.
Lemma any_parse_overloads ts code : Forall tok_genuine ts ->
  agree (any_parse_st ts code) (any_parse_throw ts) /\ on_error aa_default (any_parse_st ts code) /\ blind (any_parse_st ts).
Proof.
  intros H. split; [apply any_parse_agree; exact H|]. split; [|intros c c'; rewrite !(any_parse_st_eq ts _ no_error) by exact H; reflexivity].
  intros a c. unfold any_parse_st. cbv zeta. destruct (parse_st V4 ts no_error) as [[x k]| |]; cbn [bind]; [|discriminate|discriminate].
  destruct (ok k) eqn:O; [intros E K; injection E as _ <-; apply ok_yes in O; contradiction|].
  destruct (parse_st V6 ts k) as [[y j]| |]; cbn [bind]; [|discriminate|discriminate].
  destruct (ok j) eqn:O2; intros E K; [injection E as _ <-; apply ok_yes in O2; contradiction|injection E as <- _; reflexivity].
Qed.
Lemma anet_parse_overloads ts strict code : Forall tok_genuine ts ->
  agree (anet_parse_st ts strict code) (anet_parse_throw ts strict) /\ on_error an_default (anet_parse_st ts strict code) /\ blind (anet_parse_st ts strict).
Proof.
  intros H. split; [apply anet_parse_agree; exact H|]. split; [|intros c c'; rewrite !(anet_parse_st_eq ts strict _ no_error) by exact H; reflexivity].
  intros a c. unfold anet_parse_st. cbv zeta. destruct (net_parse_st V4 ts strict no_error) as [[x k]| |]; cbn [bind]; [|discriminate|discriminate].
  destruct (ok k) eqn:O; [intros E K; injection E as _ <-; apply ok_yes in O; contradiction|].
  destruct (net_parse_st V6 ts strict k) as [[y j]| |]; cbn [bind]; [|discriminate|discriminate].
  destruct (ok j) eqn:O2; intros E K; [injection E as _ <-; apply ok_yes in O2; contradiction|injection E as <- _; reflexivity].
Qed.
Lemma any_exclude_overloads sp x y code : agree (any_exclude_code sp x y code) (any_exclude sp x y) /\ blind (any_exclude_code sp x y).
Proof. split; [apply any_exclude_agree|]. intros c c'. reflexivity. Qed.
Lemma agree_bind {A B} (f : A -> B) (o : res (A * ec)) (t : res A) : agree o t ->
  agree ('(a, code) <- o ;; Ret (f a, code)) (a <- t ;; Ret (f a)).
Proof.
  destruct o as [[a c]|e x|u]; cbn [agree bind]; intros H; [|subst t; reflexivity..]. destruct H as [H1 H2].
  split; intros Hc; [rewrite (H1 Hc); reflexivity|]. destruct (H2 Hc) as (x & ->). exists x. reflexivity.
Qed.
(** Version-erased networks. *)
Lemma any_subnets_overloads sp x d np : agree (any_subnets_code sp x no_error d np) (any_subnets sp x d np) /\
  forall code, match any_subnets_code sp x no_error d np with
    | Ret (s, no_error) => any_subnets_code sp x code d np = Ret (s, code)
    | r => any_subnets_code sp x code d np = r end.
Proof.
  unfold any_subnets_code, any_subnets. destruct (anet_is_v4 x).
  - destruct (subnets_overloads sp V4 (an_net x) d np) as [A K].
    split; [exact (agree_bind (fun s => aseq_make net_ops V4 (s_begin s) (s_end s)) _ _ A)|].
    intros code. specialize (K code). destruct (subnets_code sp V4 (an_net x) no_error d np) as [[s c]| |]; [destruct c|..]; cbn [bind]; rewrite K; reflexivity.
  - destruct (subnets_overloads sp V6 (an_net x) d np) as [A K].
    split; [exact (agree_bind (fun s => aseq_make net_ops V6 (s_begin s) (s_end s)) _ _ A)|].
    intros code. specialize (K code). destruct (subnets_code sp V6 (an_net x) no_error d np) as [[s c]| |]; [destruct c|..]; cbn [bind]; rewrite K; reflexivity.
Qed.
Lemma any_scope_overloads x n ts : Forall tok_genuine ts ->
  agree (any_set_scope_st x n ts no_error) (any_set_scope_throw x n ts) /\
  (aa_ver x = V6 -> blind (any_set_scope_st x n ts)) /\ (aa_ver x = V4 -> forall code, any_set_scope_st x n ts code = Ret (x, code)).
Proof.
  intros H. split; [apply any_set_scope_agree; exact H|]. unfold any_set_scope_st. split; intros ->.
  - intros c c'. change (ver_eqb V6 V6) with true. cbv iota. rewrite (set_scope_any (aa_addr x) n ts c c'). reflexivity.
  - reflexivity.
Qed.
Lemma any_scope_stale : exists x code, wf_any x /\ code <> no_error /\
  any_set_scope_throw x 1 (chars (str "a")) = Ret x /\ any_set_scope_st x 1 (chars (str "a")) code = Ret (x, code).
Proof. exists (mk_aa V4 (addr_at V4 "10.0.0.1")), invalid_scope_id. split; [apply addr_at_wf; reflexivity|]. split; [discriminate|]. split; reflexivity. Qed.
(** The parsers of the other files. *)
Lemma parsers_address v ts code : Forall tok_genuine ts -> parse_throw v ts = addr_parse v ts /\ parse_st v ts code = addr_parse_code v ts code.
Proof. intros H. split; [apply parse_throw_eq; exact H|apply parse_st_eq; exact H]. Qed.
Lemma parsers_network v ts strict code : Forall tok_genuine ts ->
  net_parse_throw v ts strict = net_parse v ts strict /\ net_parse_st v ts strict code = net_parse_code v ts code strict.
Proof. intros H. split; [apply net_parse_throw_eq; exact H|apply net_parse_st_eq; exact H]. Qed.
Lemma makers_network v a n p strict d np code :
  from_address_throw v a p strict = from_address v a p strict /\ from_address_st v a p strict code = from_address_code v a code p strict /\
  supernet_throw v n d np = supernet v n d np /\ supernet_st v n d np code = supernet_code v n code d np.
Proof. split; [apply from_address_throw_eq|]. split; [apply from_address_st_eq|]. split; [apply supernet_throw_eq|apply supernet_st_eq]. Qed.
Lemma on_error_bind {A B} (f : A -> B) (d : A) (o : res (A * ec)) : on_error d o -> on_error (f d) ('(a, code) <- o ;; Ret (f a, code)).
Proof.
  intros H b code E Hc. destruct o as [[a c]|e x|u]; cbn [bind] in E; try discriminate. injection E as <- <-. rewrite (H a c eq_refl Hc). reflexivity.
Qed.
Lemma any_from_address_overloads a p strict code :
  agree (anet_from_address_code a code p strict) (anet_from_address a p strict) /\
  on_error (mk_an (aa_ver a) (net_default (aa_ver a))) (anet_from_address_code a code p strict) /\ blind (fun c => anet_from_address_code a c p strict).
Proof.
  destruct a as [v a]. assert (E : forall c, anet_from_address_code (mk_aa v a) c p strict = ('(n, code) <- from_address_st v a p strict c ;; Ret (mk_an v n, code))).
  { intros c. rewrite (from_address_st_eq v a p strict c c). destruct v; reflexivity. }
  assert (E' : anet_from_address (mk_aa v a) p strict = (n <- from_address_throw v a p strict ;; Ret (mk_an v n))).
  { rewrite from_address_throw_eq. destruct v; reflexivity. }
  destruct (from_address_overloads v a p strict code) as (A & O & B). rewrite E, E'. cbn [aa_ver].
  split; [exact (agree_bind (mk_an v) _ _ A)|]. split; [exact (on_error_bind (mk_an v) _ _ O)|]. intros c c'. rewrite !E, (B c c'). reflexivity.
Qed.
Lemma any_supernet_overloads x d np code :
  agree (anet_supernet_code x code d np) (anet_supernet x d np) /\
  on_error (mk_an (an_ver x) (net_default (an_ver x))) (anet_supernet_code x code d np) /\ blind (fun c => anet_supernet_code x c d np).
Proof.
  destruct x as [v n]. assert (E : forall c, anet_supernet_code (mk_an v n) c d np = ('(n, code) <- supernet_st v n d np c ;; Ret (mk_an v n, code))).
  { intros c. rewrite (supernet_st_eq v n d np c c). destruct v; reflexivity. }
  assert (E' : anet_supernet (mk_an v n) d np = (n <- supernet_throw v n d np ;; Ret (mk_an v n))).
  { rewrite supernet_throw_eq. destruct v; reflexivity. }
  destruct (supernet_overloads v n d np code) as (A & O & B). rewrite E, E'. cbn [an_ver].
  split; [exact (agree_bind (mk_an v) _ _ A)|]. split; [exact (on_error_bind (mk_an v) _ _ O)|]. intros c c'. rewrite !E, (B c c'). reflexivity.
Qed.
Lemma parsers_any ts strict code : Forall tok_genuine ts -> any_parse_throw ts = any_parse ts /\ any_parse_st ts code = any_parse_code ts code /\
  anet_parse_throw ts strict = anet_parse ts strict /\ anet_parse_st ts strict code = anet_parse_code ts code strict.
Proof. intros H. split; [apply any_parse_throw_eq; exact H|]. split; [apply any_parse_st_eq; exact H|]. split; [apply anet_parse_throw_eq; exact H|apply anet_parse_st_eq; exact H]. Qed.
Lemma setters_scope a n ts code : Forall tok_genuine ts -> match addr_set_scope a code n ts with
  | Ret (b, e, _) => set_scope_st a n ts code = Ret (b, e) | Err e x => False | UB u => set_scope_st a n ts code = UB u end.
Proof.
  intros H. unfold addr_set_scope, set_scope_st. pose proof (change_sim (a_scope a) n ts code H) as G.
  destruct (v6_set_scope n ts); [rewrite G; reflexivity|destruct G as (_ & ->); destruct a; reflexivity|rewrite G; reflexivity].
Qed.
