(** Exceptions of the parsers. *)
From Coq Require Import String.
From Verif Require Import Base Tac UnicodeModel FixedStringModel V4Model V6Model AddressModel NetworkModel IterModel AnyModel CodeModel SpecCode CodeProofs CodeProofs3 CodeLemmas
  SpecNet SpecAddr SpecOrder NetProofs2 NetProofs3 NetLemmas NetText NetText3 IterProofs5 StreamModel SpecStream StreamProofs ErrorModel SpecError RaiseProofs RaiseProofs2 RaiseProofs3 RaiseProofs4 ErrProofs2.
From Verif Require ErrProofs.
From Verif Require Import SpecAny CodeProofs2 SpecIter IterProofs4.

Lemma tame_quoting e : parse_code e -> e <> no_error /\ class_of e XParse /\ (e = empty_address \/ is_quoting e = true).
Proof.
  intros H. split; [intros ->; exact H|]. split; [|destruct e; vm_compute in H |- *; try contradiction; auto].
  pose proof (cls_ok e) as C. destruct e; vm_compute in H; try contradiction; exact C.
Qed.
Definition tok_text (t : tok) : Prop := match t with Bad e _ => e = unexpected_symbol \/ e = wrong_encoding_sequence | _ => True end.
Definition reader_text (next : reader) : Prop :=
  forall data n it, match next data n it with Ret (t, _) => tok_text t | Err _ _ => False | UB _ => True end.
Lemma char_text : reader_text char_next.
Proof. intros data n it. unfold char_next. destruct (rd data it) eqn:E; cbn [bind]; [exact I|exact (rd_no_err _ _ _ _ E)|exact I]. Qed.
Lemma utf32_text : reader_text utf32_next.
Proof.
  intros data n it. unfold utf32_next. destruct (rd data it) eqn:E; cbn [bind]; [|exact (rd_no_err _ _ _ _ E)|exact I].
  destruct (_ >? 127); cbn; auto.
Qed.
Lemma utf8_text : reader_text utf8_next.
Proof.
  intros s e it. pose proof (utf8_reader_real s e it) as R. revert R. unfold utf8_next. destruct (rd s it) as [b| |]; cbn [bind]; [|auto..].
  match goal with |- match bind ?m _ with _ => _ end -> _ => destruct m as [[[v c] it']| |]; cbn [bind]; [|auto..] end.
  intros _. cbv zeta. destruct (negb c); [cbn; auto|]. destruct (v >? 127); cbn; auto.
Qed.
Lemma utf16_text : reader_text utf16_next.
Proof.
  intros s e it. pose proof (utf16_reader_real s e it) as R. revert R. unfold utf16_next. destruct (rd s it) as [b| |]; cbn [bind]; [|auto..].
  match goal with |- match bind ?m _ with _ => _ end -> _ => destruct m as [[[v c] it']| |]; cbn [bind]; [|auto..] end.
  intros _. cbv zeta. destruct (negb c); [cbn; auto|]. destruct (v >? 127); cbn; auto.
Qed.
Lemma reader_T_text T : reader_text (reader_of T).
Proof. destruct T; first [exact char_text|exact utf8_text|exact utf16_text|exact utf32_text]. Qed.
Lemma reader_T_real T : reader_real (reader_of T).
Proof. destruct T; first [exact char_reader_real|exact utf8_reader_real|exact utf16_reader_real|exact utf32_reader_real]. Qed.
Lemma tokens_text next s ts : reader_text next -> tokens next s = Ret ts -> Forall tok_text ts.
Proof.
  intros R. unfold tokens. generalize (Datatypes.length s) at 1. intros k. generalize 0 as it. revert ts. induction k as [|k IH]; intros ts it; cbn [tokens_from].
  - destruct (_ <? _); [discriminate|]. intros E. injection E as <-. constructor.
  - destruct (_ <? _); [|intros E; injection E as <-; constructor].
    pose proof (R s (zlen s) it) as T. destruct (next s (zlen s) it) as [[t it']| |]; cbn [bind]; [|discriminate|discriminate].
    destruct (tokens_from k next s it') as [ts'| |] eqn:E; cbn [bind]; [|discriminate|discriminate].
    intros F. injection F as <-. constructor; [exact T|]. eapply IH. exact E.
Qed.
Lemma text_tame ts : Forall tok_text ts -> Forall tok_tame ts.
Proof. apply Forall_impl. intros [c|e x]; [auto|]. cbn. intros [->| ->]; exact I. Qed.
Lemma tokens_tame next s ts : reader_text next -> tokens next s = Ret ts -> Forall tok_tame ts.
Proof. intros R E. eapply text_tame, tokens_text; eassumption. Qed.
Lemma tame_real ts : Forall tok_tame ts -> Forall ErrProofs.tok_real ts.
Proof. apply Forall_impl. intros [c|e x] H; [exact I|]. cbn in *. intros ->. exact H. Qed.

(** The throwing parsers. *)
Lemma parse_throw_tame v ts : Forall tok_tame ts -> tame (parse_throw v ts).
Proof. intros H. destruct (parsers_address v ts no_error (tame_real ts H)) as [-> _]. apply addr_parse_tame, H. Qed.
Lemma net_throw_tame v ts strict : Forall tok_tame ts -> tame (net_parse_throw v ts strict).
Proof.
  intros H. destruct (parsers_network v ts strict no_error (tame_real ts H)) as [-> _].
  rewrite ErrProofs.net_parse_is_res by (apply tame_real, H). apply net_parse_tame, H.
Qed.
Definition silent {A} (r : res A) : Prop := match r with Err _ _ => False | _ => True end.
Lemma parse_st_silent v ts code : Forall tok_tame ts -> silent (parse_st v ts code).
Proof. intros H. destruct (parsers_address v ts code (tame_real ts H)) as [_ ->]. unfold addr_parse_code. destruct (addr_parse v ts); exact I. Qed.
Lemma net_st_silent v ts strict code : Forall tok_tame ts -> silent (net_parse_st v ts strict code).
Proof. intros H. destruct (parsers_network v ts strict code (tame_real ts H)) as [_ ->]. unfold net_parse_code. destruct (net_parse_res v ts strict); exact I. Qed.
Lemma any_throw_tame ts : Forall tok_tame ts -> tame (any_parse_throw ts).
Proof.
  intros H. unfold any_parse_throw. pose proof (parse_st_silent V4 ts no_error H) as Q. destruct (parse_st V4 ts no_error) as [[a c]| |]; cbn [bind]; [|destruct Q|exact I].
  destruct (ok c); [exact I|]. apply tame_bind; [apply parse_throw_tame, H|]. intros ? _. exact I.
Qed.
Lemma anet_throw_tame ts strict : Forall tok_tame ts -> tame (anet_parse_throw ts strict).
Proof.
  intros H. unfold anet_parse_throw. pose proof (net_st_silent V4 ts strict no_error H) as Q. destruct (net_parse_st V4 ts strict no_error) as [[a c]| |]; cbn [bind]; [|destruct Q|exact I].
  destruct (ok c); [exact I|]. apply tame_bind; [apply net_throw_tame, H|]. intros ? _. exact I.
Qed.
Lemma any_st_silent ts code : Forall tok_tame ts -> silent (any_parse_st ts code).
Proof.
  intros H. unfold any_parse_st. pose proof (parse_st_silent V4 ts no_error H) as Q. destruct (parse_st V4 ts no_error) as [[a c]| |]; cbn [bind]; [|destruct Q|exact I].
  destruct (ok c); [exact I|]. pose proof (parse_st_silent V6 ts c H) as Q6. destruct (parse_st V6 ts c) as [[b d]| |]; cbn [bind]; [|destruct Q6|exact I]. destruct (ok d); exact I.
Qed.
Lemma anet_st_silent ts strict code : Forall tok_tame ts -> silent (anet_parse_st ts strict code).
Proof.
  intros H. unfold anet_parse_st. pose proof (net_st_silent V4 ts strict no_error H) as Q. destruct (net_parse_st V4 ts strict no_error) as [[a c]| |]; cbn [bind]; [|destruct Q|exact I].
  destruct (ok c); [exact I|]. pose proof (net_st_silent V6 ts strict c H) as Q6. destruct (net_parse_st V6 ts strict c) as [[b d]| |]; cbn [bind]; [|destruct Q6|exact I]. destruct (ok d); exact I.
Qed.
Lemma raising_agree {A} T s (o : res (A * ec)) (t : res A) : Forall (unit_ok T) s -> silent o -> tame t -> agree o t -> throws_as XParse o (raising T s t).
Proof.
  intros U Q M G. destruct o as [[a c]| |u]; cbn in Q, G |- *; [|destruct Q|].
  - destruct G as [G1 G2]. split; [intros N; rewrite (G1 N); reflexivity|]. intros N. destruct (G2 N) as (x & E). rewrite E in M |- *. cbn in M |- *.
    destruct (raise_total T c x s U) as (k & w & R & K). rewrite R. cbn [bind]. exists w. destruct (tame_quoting c M) as (_ & K' & _).
    replace XParse with k; [reflexivity|]. destruct K as [K1 K2], K' as [K1' K2']. destruct k; try reflexivity.
    + exfalso. apply N, K2. reflexivity.
    + exfalso. assert (XParse = XLogic) as F; [apply K1', K1; reflexivity|discriminate F].
  - rewrite G. reflexivity.
Qed.
Lemma throws_map {A B} k (g : A -> B) (o : res (A * ec)) (t : res (A + exn)) : throws_as k o t ->
  throws_as k (rmap (fun '(a, e) => (g a, e)) o) (rmap (fun x => match x with inl a => inl (g a) | inr e => inr e end) t).
Proof.
  destruct o as [[a e]| |u]; cbn; [|auto|intros ->; reflexivity]. intros [H1 H2]. split; [intros N; rewrite (H1 N); reflexivity|].
  intros N. destruct (H2 N) as (w & ->). exists w. reflexivity.
Qed.
Lemma obj_throws T k strict s code : Forall (unit_ok T) s -> throws_as XParse (obj_code T k strict s code) (obj_throw T k strict s).
Proof.
  intros U. unfold obj_code, obj_throw, addr_parse_x, net_parse_x, any_parse_x, anet_parse_x. pose proof (tokens_tame (reader_of T) s) as HT.
  pose proof (fun e x => tokens_no_err (reader_of T) s e x (reader_T_real T)) as HE.
  destruct (tokens (reader_of T) s) as [ts|e x|u]; [|exfalso; eapply HE; reflexivity|destruct k; reflexivity].
  specialize (HT ts (reader_T_text T) eq_refl). pose proof (tame_real ts HT) as HR. cbn [bind].
  destruct k; apply throws_map, raising_agree; try exact U.
  - apply parse_st_silent, HT.
  - apply parse_throw_tame, HT.
  - apply (parse_overloads v ts code HR).
  - apply net_st_silent, HT.
  - apply net_throw_tame, HT.
  - apply (net_parse_overloads v ts strict code HR).
  - apply any_st_silent, HT.
  - apply any_throw_tame, HT.
  - apply (any_parse_overloads ts code HR).
  - apply anet_st_silent, HT.
  - apply anet_throw_tame, HT.
  - apply (anet_parse_overloads ts strict code HR).
Qed.

(** ** The message *)
Lemma units_of T s t : shows T s t -> Forall (unit_ok T) s.
Proof. intros (cs & p & ds & tp & Hc & -> & _). apply encode_units, Hc. Qed.
Lemma raising_message {A} T s (t : res A) x d : tame t -> shows T s d -> raising T s t = Ret (inr x) ->
  x_class x = XParse /\ (x_code x = empty_address \/ exists pre post, x_what x = pre ++ d ++ post).
Proof.
  intros M Hd. destruct t as [a|e v|u]; cbn [raising]; try discriminate. cbn [tame] in M. destruct (tame_quoting e M) as (_ & _ & [->|Q]).
  - destruct (raise_total T empty_address v s (units_of T s d Hd)) as (k & w & R & K). rewrite R. cbn [bind]. intros E. injection E as <-. cbn.
    split; [|left; reflexivity]. rewrite raise_fixed in R by reflexivity. destruct (error_text s (zlen s)); try discriminate R. injection R as <- _. reflexivity.
  - apply quoting_dec in Q. destruct (shows_raise e Q) as (pre & post & F). rewrite (F T v s d Hd). cbn [bind]. intros E. injection E as <-. cbn.
    split; [reflexivity|]. right. exists (pre v), post. reflexivity.
Qed.
Lemma rmap_inr {A B} (g : A -> B) (r : res (A + exn)) x : rmap (fun x => match x with inl a => inl (g a) | inr e => inr e end) r = Ret (inr x) -> r = Ret (inr x).
Proof. destruct r as [[a|e]| |]; cbn; try discriminate. intros E. injection E as ->. reflexivity. Qed.
Lemma obj_message T k strict s x d : shows T s d -> obj_throw T k strict s = Ret (inr x) ->
  x_class x = XParse /\ (x_code x = empty_address \/ exists pre post, x_what x = pre ++ d ++ post).
Proof.
  intros Hd. unfold obj_throw, addr_parse_x, net_parse_x, any_parse_x, anet_parse_x. pose proof (tokens_tame (reader_of T) s) as HT.
  destruct (tokens (reader_of T) s) as [ts|e y|u]; [|destruct k; discriminate..].
  specialize (HT ts (reader_T_text T) eq_refl). cbn [bind].
  destruct k; intros E; apply rmap_inr in E; eapply raising_message; try exact E; try exact Hd.
  - apply parse_throw_tame, HT.
  - apply net_throw_tame, HT.
  - apply any_throw_tame, HT.
  - apply anet_throw_tame, HT.
Qed.
(** An empty text and no other is reported as an empty address. *)
Lemma next_ok_code t c e : snd (fst (next_st t c e)) = match t with Ch _ => no_error | Bad f _ => f end.
Proof. destruct t; reflexivity. Qed.

(** ** set_scope_id *)
Definition scope_code (e : ec) : Prop := e = unexpected_symbol \/ e = wrong_encoding_sequence \/ e = invalid_scope_id \/ e = scope_id_is_too_long.
Lemma change_loop_codes ts : Forall tok_text ts -> forall i str code ix es, code = no_error \/ scope_code code ->
  match change_loop_st ts i str code ix es with Ret (_, c, _) => c = no_error \/ scope_code c | Err _ _ => False | UB _ => True end.
Proof.
  induction 1 as [|t ts Ht H IH]; intros i str code ix es C; cbn [change_loop_st]; [exact C|].
  assert (C' : snd (fst (next_st t code es)) = no_error \/ scope_code (snd (fst (next_st t code es)))) by (rewrite next_ok_code; unfold scope_code; destruct t; cbn in Ht; tauto).
  destruct (next_st t code es) as [[c code'] es']. cbn [fst snd] in C'. destruct (negb (ok code')); [exact C'|].
  destruct (is_invalid_scope_id_symbol c); [unfold scope_code; auto|]. pose proof (tame_wr str i c) as Q.
  unfold wr in *. destruct (_ <? _); [exact I|]. destruct (upd _ _ _); [|exact I]. apply IH, C'.
Qed.
Lemma set_scope_codes a n ts : Forall tok_text ts -> match set_scope_throw a n ts with Err e _ => scope_code e | _ => True end.
Proof.
  intros H. unfold set_scope_throw, change_st. destruct (n >? scope_max); [unfold scope_code; cbn; auto|].
  pose proof (change_loop_codes ts H 0 (repeat 0 17) no_error 0 0 (or_introl eq_refl)) as L. cbv zeta.
  destruct (change_loop_st ts 0 (repeat 0 17) no_error 0 0) as [[[[str|] c] ix]| |]; cbn [bind]; [| |destruct L|exact I].
  - pose proof (fs_make_sim char_next 16 str c char_reader_real) as F. pose proof (fs_fill_quiet 16 str 16 0 0 (fs_empty 16)) as G.
    change (fs_fill 16 char_next str 16 0 0 (fs_empty 16)) with (fs_make char_next 16 str) in G.
    destruct (fs_make char_next 16 str) as [f|e x|u]; cbn [fs_outcome] in F; [rewrite F; exact I|destruct G|rewrite F; exact I].
  - unfold ok, ec_eqb. destruct (ec_eq_dec c no_error); [exact I|]. destruct L as [L|L]; [contradiction|exact L].
Qed.
Lemma scope_message T a s x d : shows T s d -> set_scope_x T a s = Ret (inr x) ->
  x_class x = XParse /\ exists pre post, x_what x = pre ++ d ++ post.
Proof.
  intros Hd. unfold set_scope_x. pose proof (tokens_text (reader_of T) s) as HT.
  destruct (tokens (reader_of T) s) as [ts|e y|u]; [|discriminate..].
  specialize (HT ts (reader_T_text T) eq_refl). cbn [bind]. pose proof (set_scope_codes a (zlen s) ts HT) as C.
  destruct (set_scope_throw a (zlen s) ts) as [b|e v|u]; cbn [raising]; try discriminate.
  assert (Q : quoting e) by (apply quoting_dec; destruct C as [->|[->|[->| ->]]]; reflexivity).
  destruct (shows_raise e Q) as (pre & post & F). rewrite (F T v s d Hd). cbn [bind]. intros E. injection E as <-. cbn.
  split; [reflexivity|]. exists (pre v), post. reflexivity.
Qed.

(** ** Functions of networks *)
Lemma from_address_message v a p strict x : 0 <= p <= width v -> wf_addr v a -> from_address_x v a p strict = Ret (inr x) ->
  exists s, addr_to_string v a compressed = Ret s /\ x = mk_exn XParse has_host_bits_set (lit "has host bits set in address " ++ s).
Proof.
  intros Hp W. unfold from_address_x. rewrite from_address_throw_eq, from_address_spec by assumption.
  destruct (_ =? 0); [discriminate|]. destruct strict; [|discriminate]. destruct (addr_text_ok v a compressed W) as (s & E & Hc & Hn & _ & Hl & _).
  rewrite E. cbn [bind]. assert (S : shows TChar s s).
  { assert (Hs : Forall (symbol_ok TChar) s) by (rewrite Forall_forall in *; intros y Hy; split; [apply Hc, Hy|intros ->; exact (Hn Hy)]).
    assert (En : encode TChar s = s) by (clear; induction s; cbn; [reflexivity|]; f_equal; exact IHs).
    exists s, s, [], s. split; [exact Hs|]. split; [symmetry; exact En|]. split; [constructor; rewrite En; destruct v; cbn in Hl; lia|].
    split; [|rewrite app_nil_r; reflexivity]. clear. induction s as [|y s IH]; [constructor|]. change (y :: s) with ([y] ++ s) at 2. constructor; [reflexivity|exact IH]. }
  rewrite (shows_at has_host_bits_set TChar 0 s s eq_refl S). cbn [bind before after]. rewrite app_nil_r. intros E'. apply ret_inj in E'.
  exists s. split; [reflexivity|]. congruence.
Qed.
Lemma raising_logic {A} e : logic_code e -> exists w, raising TChar [] (Err e 0 : res A) = Ret (inr (mk_exn XLogic e w)).
Proof.
  intros L. cbn [raising]. destruct (raise_total TChar e 0 [] (Forall_nil _)) as (k & w & R & [K _]). rewrite R. exists w.
  replace k with XLogic by (symmetry; apply K, L). reflexivity.
Qed.
Lemma supernet_message v n d np x : wf_net v n -> 0 <= d -> (forall q, np = Some q -> 0 <= q) -> supernet_x v n d np = Ret (inr x) ->
  x_class x = XLogic /\ supernet v n d np = Err (x_code x) 0.
Proof.
  intros W Hd Hq. unfold supernet_x. destruct (makers_network v (n_addr n) n 0 true d np no_error) as (_ & _ & -> & _). rewrite supernet_spec by assumption.
  destruct (_ =? 0); [discriminate|]. unfold super_diff.
  assert (G : forall (e : ec), logic_code e -> raising TChar [] (Err e 0 : res net) = Ret (inr x) -> x_class x = XLogic /\ (Err e 0 : res net) = Err (x_code x) 0).
  { intros e L R. destruct (@raising_logic net e L) as (w & R'). rewrite R' in R. injection R as <-. split; reflexivity. }
  destruct np as [q|].
  - destruct (q >? _); [apply G; exact I|]. destruct (negb _); [apply G; exact I|].
    repeat match goal with |- context [if ?b then _ else _] => destruct b end; try discriminate; apply G; exact I.
  - repeat match goal with |- context [if ?b then _ else _] => destruct b end; try discriminate; apply G; exact I.
Qed.
Lemma exclude_message sp v n o : wf_net v n -> wf_net v o -> ~ subset v o n -> exists w, exclude_x sp v n o = Ret (inr (mk_exn XLogic not_contained_network w)).
Proof. intros Wn Wo H. unfold exclude_x. rewrite exclude_not by assumption. apply raising_logic. exact I. Qed.
Lemma subnets_message sp v n d np x : wf_net v n -> args_ok d np -> (np = None -> n_prefix n + d < 2 ^ 64) -> subnets_x sp v n d np = Ret (inr x) ->
  x_class x = XLogic /\ subnets sp v n d np = Err (x_code x) 0.
Proof.
  intros W A Hd. unfold subnets_x.
  assert (G : forall (e : ec), logic_code e -> raising TChar [] (Err e 0 : res subnets_seq) = Ret (inr x) -> x_class x = XLogic /\ (Err e 0 : res subnets_seq) = Err (x_code x) 0).
  { intros e L R. destruct (@raising_logic subnets_seq e L) as (w & R'). rewrite R' in R. injection R as <-. split; reflexivity. }
  destruct (Z_lt_dec (n_prefix n) (width v)) as [K|K].
  - pose proof (subnets_checks sp v n d np W A K Hd) as C. unfold asked_diff in C. destruct np as [q|]; cbv beta iota in C;
      repeat match type of C with context [if ?b then _ else _] => destruct b end;
      try (destruct C as (s & ->); intros R; discriminate R); rewrite C; try (intros R; discriminate R); apply G; exact I.
  - destruct (subnets_single_any sp v n d np W A) as (s & -> & _); [destruct W; lia|]. intros R. discriminate R.
Qed.
