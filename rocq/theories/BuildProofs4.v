(** Proofs about the exceptions of arrays, literals and scope ids in every build. *)
From Coq Require Import String.
From Verif Require Import Base Tac UnicodeModel FixedStringModel V4Model V6Model AddressModel SpecText SpecAddr SpecStr SpecOrder NetworkModel SpecNet SpecAny
  ClassifyModel ClassifyProofs HostModel AnyModel CodeModel SpecCode StreamModel SpecStream StreamProofs ErrorModel SpecError RaiseProofs RaiseProofs2 RaiseProofs3 RaiseProofs4 ErrProofs2 LiteralModel SpecLiteral LiteralProofs NoThrowModel SpecNoThrow Utf8Model SpecUtf8
  InnerProofs CharUtf8Proofs ConfigModel ConfigProofs NetConfigModel NetConfigProofs MacroModel SpecMacro MacroProofs MacroProofs2 MacroProofs3 MacroProofs4 MacroProofs5 BuildModel SpecBuild BuildProofs BuildProofs2.
From Verif Require RaiseProofs5 RaiseProofs6 CodeProofs ErrProofs FixedStringProofs.
Import ListNotations.
Close Scope string_scope.
Open Scope list_scope.

Lemma parse_class b T c v s : Forall (unit_ok T) s -> parse_code c -> exists w, raise_error_b b T c v s (zlen s) = Ret (mk_exn XParse c w).
Proof.
  intros U M. destruct (b_class b T c v s U) as (k & w & R & K). exists w. rewrite R. destruct (RaiseProofs5.tame_quoting c M) as (N & K' & _).
  replace XParse with k; [reflexivity|]. destruct K as [K1 K2], K' as [K1' K2']. destruct k; try reflexivity.
  - exfalso. apply N, K2. reflexivity.
  - exfalso. assert (XParse = XLogic) as F; [apply K1', K1; reflexivity|discriminate F].
Qed.
Lemma coded_throws {A} b T s (d : A) r : Forall (unit_ok T) s -> tame r -> throws_as XParse (coded d r) (raising_b b T s r).
Proof.
  intros U M. destruct r as [a|e x|u]; cbn [coded raising_b throws_as tame] in *; [split; [reflexivity|intros N; contradiction N; reflexivity]| |reflexivity].
  destruct (parse_class b T e x s U M) as (w & R). split; [intros ->; destruct M|]. intros _. exists w. rewrite R. reflexivity.
Qed.
Lemma fs_fill_text next k : RaiseProofs5.reader_text next -> forall data n it i f, tame (fs_fill k next data n it i f).
Proof.
  intros R. induction k as [|k IH]; intros data n it i f; cbn [fs_fill]; [exact I|]. pose proof (R data n it) as X.
  destruct (next data n it) as [[[c|e x] it']| |]; cbn [bind] in *; [|destruct X as [->| ->]; exact I|destruct X|exact I].
  pose proof (tame_wr (fs_data f) i c) as W. destruct (wr (fs_data f) i c) as [d| |]; cbn [bind]; [|exact W|exact I]. destruct (c =? 0); [exact I|apply IH].
Qed.
Lemma fs_make_text b T n data : tame (fs_make (reader_b b T) n data).
Proof. unfold fs_make. apply fs_fill_text, reader_text_b. Qed.
Lemma made_chars b T n data f : Forall (unit_ok T) data -> fs_make (reader_b b T) n data = Ret f -> Forall is_char (fs_chars f).
Proof.
  intros U E. destruct (b_utf8 b) eqn:B.
  - pose proof (reader_b_make b T n data f (units_ok b T data U) E) as H. eapply Forall_impl; [|exact H]. intros c Hc. specialize (Hc B). unfold is_ascii, is_char in *. lia.
  - assert (R : reader_b b T = reader_of T) by (destruct T; try reflexivity; cbn; unfold inner_b; rewrite B; reflexivity). rewrite R in E.
    pose proof (RaiseProofs6.fs_fill_facts T n data (Z.of_nat n) 0 0 (fs_empty n) U) as F.
    change (fs_fill n (reader_of T) data (Z.of_nat n) 0 0 (fs_empty n)) with (fs_make (reader_of T) n data) in F. rewrite E in F.
    unfold fs_chars. apply RaiseProofs6.firstn_forall. apply F. unfold fs_empty. cbn [fs_data]. apply Forall_forall. intros x Hx. apply repeat_spec in Hx. subst. unfold is_char. lia.
Qed.
Lemma array_core {A} b T n data (d : A) (g : fstr -> res A) h : Forall (unit_ok T) data -> (forall f, tame (g f)) ->
  (forall f, fs_make (reader_b b T) n data = Ret f -> h f = raising_b b TChar (fs_chars f) (g f)) ->
  throws_as XParse (coded d (f <- fs_make (reader_b b T) n data ;; g f)) (array_x_b b T n data h).
Proof.
  intros U M H. unfold array_x_b. pose proof (fs_make_text b T n data) as X. pose proof (made_chars b T n data) as C.
  destruct (fs_make (reader_b b T) n data) as [f|e x|u]; cbn [bind raising_b].
  - rewrite (H f eq_refl). apply coded_throws; [exact (C f U eq_refl)|apply M].
  - cbn [coded throws_as tame] in *. destruct (parse_class b T e x (firstn n data)) as (w & R); [apply RaiseProofs6.firstn_forall; exact U|exact X|].
    split; [intros ->; destruct X|]. intros _. exists w. rewrite R. reflexivity.
  - reflexivity.
Qed.
Lemma addr_in_tame b v ts : Forall tok_tame ts -> tame (addr_in b v ts).
Proof. destruct v; [apply addr_parse_tame|apply addr_c_tame]. Qed.
Lemma net_in_tame b v ts strict : Forall tok_tame ts -> tame (net_in b v ts strict).
Proof. destruct v; [apply net_default_tame|apply net_c_tame]. Qed.
Lemma b_array_throws b T v data code : Forall (unit_ok T) data ->
  throws_as XParse (parse_array_code_b b v (reader_b b T) (cap data) data code) (addr_array_x_b (throwing b) T v data).
Proof.
  intros U. rewrite parse_array_code_b_eq; [|apply reader_b_real|intros f; apply reader_b_make, units_ok, U]. unfold addr_array_x_b.
  apply (array_core (throwing b) T (cap data) data (addr_default v) (fun f => addr_in b v (chars (fs_chars f)))); [exact U|intros f; apply addr_in_tame, chars_tame|].
  intros f E. pose proof (reader_b_make (throwing b) T (cap data) data f (units_ok _ _ _ U) E) as F. rewrite (tokens_b _ _ F). cbn [bind].
  rewrite parse_b_eq; [reflexivity|apply fits_chars, F|apply ErrProofs.chars_real].
Qed.
Lemma b_net_array_throws b T v strict data code : Forall (unit_ok T) data ->
  throws_as XParse (net_array_code_b b v (reader_b b T) (cap data) data strict code) (net_array_x_b (throwing b) T v strict data).
Proof.
  intros U. rewrite net_array_code_b_eq; [|apply reader_b_real|intros f; apply reader_b_make, units_ok, U]. unfold net_array_x_b.
  apply (array_core (throwing b) T (cap data) data (net_default v) (fun f => net_in b v (chars (fs_chars f)) strict)); [exact U|intros f; apply net_in_tame, chars_tame|].
  intros f E. pose proof (reader_b_make (throwing b) T (cap data) data f (units_ok _ _ _ U) E) as F. rewrite (tokens_b _ _ F). cbn [bind].
  rewrite net_parse_b_eq; [reflexivity|apply fits_chars, F|apply ErrProofs.chars_real].
Qed.

(** ** Literals *)
Lemma b_long_literal b T v s : Forall (unit_ok T) s -> zlen s > max_len_b b v -> exists w, addr_literal_x_b b T v s = Ret (inr (mk_exn XParse string_is_too_long w)) /\
  forall t, shows_in b T s t -> exists pre post, w = pre ++ t ++ post.
Proof.
  intros U L. unfold addr_literal_x_b. destruct (Z.gtb_spec (zlen s) (max_len_b b v)); [|lia]. destruct (parse_class b T string_is_too_long 0 s U I) as (w & R).
  exists w. rewrite R. split; [reflexivity|]. intros t Ht. assert (Q : quoting string_is_too_long) by (apply quoting_dec; reflexivity).
  destruct (b_quotes _ Q) as (pre & post & F). rewrite (F b T 0 s t Ht) in R. exists (pre 0), post. congruence.
Qed.

(** ** Scope ids *)
Lemma set_loop_tame g : forall ts i str, Forall tok_tame ts -> tame (set_scope_loop_c g ts i str).
Proof. induction ts as [|[c|e x] ts IH]; intros i str H; cbn [set_scope_loop_c]; rl. Qed.
Lemma set_core_tame g n ts : Forall tok_tame ts -> tame (set_core g n ts).
Proof.
  intros H. unfold set_core. destruct (n >? c_max g); [exact I|]. apply tame_bind; [apply set_loop_tame, H|]. intros ? _. apply tame_bind; [apply fs_make_tame|]. intros ? _. exact I.
Qed.
Lemma b_set_scope_eq b T a s : set_scope_x_b b T a s = raising_b b T s (scope_set_b b T a s).
Proof. unfold set_scope_x_b, scope_set_b. pose proof (tokens_b_quiet b T s) as Q. destruct (tokens (reader_b b T) s); cbn [bind]; [reflexivity|contradiction|reflexivity]. Qed.
Lemma scope_set_tame b T a s : 0 < c_max (b_cfg b) <= 64 -> Forall (unit_ok T) s -> tame (scope_set_b b T a s).
Proof.
  intros P U. rewrite scope_set_eq by (try (apply units_ok; exact U); lia). pose proof (fun ts => RaiseProofs5.tokens_tame (reader_b b T) s ts (reader_text_b b T)) as HT.
  pose proof (tokens_b_quiet b T s) as Q. destruct (tokens (reader_b b T) s) as [ts| |]; cbn [bind]; [|contradiction|exact I].
  pose proof (set_core_tame (b_cfg b) (zlen s) ts (HT ts eq_refl)) as M. unfold hush. destruct (b_throws b); destruct (set_core (b_cfg b) (zlen s) ts); try exact I. exact M.
Qed.
Lemma b_scope_throws b T a s code : 0 < c_max (b_cfg b) <= 64 -> Forall (unit_ok T) s ->
  throws_as XParse (scope_set_code_b b T a s code) (set_scope_x_b (throwing b) T a s).
Proof.
  intros P U. rewrite b_set_scope_eq. pose proof (b_scope_codes b T a s code P U) as C. pose proof (scope_set_tame (throwing b) T a s P U) as M.
  destruct (scope_set_b (throwing b) T a s) as [o|e x|u].
  - rewrite C. cbn. split; [reflexivity|intros N; contradiction N; reflexivity].
  - destruct C as [N C]. rewrite C. cbn [throws_as raising_b tame] in *. split; [intros E; contradiction|]. intros _.
    destruct (parse_class (throwing b) T e x s U M) as (w & R). exists w. rewrite R. reflexivity.
  - rewrite C. reflexivity.
Qed.
Lemma b_scope_message b T a s x d : 0 < c_max (b_cfg b) <= 64 -> Forall (unit_ok T) s -> shows_in b T s d -> set_scope_x_b b T a s = Ret (inr x) ->
  x_class x = XParse /\ (x_code x = empty_address \/ exists pre post, x_what x = pre ++ d ++ post).
Proof.
  intros P U Hd. rewrite b_set_scope_eq, raising_eq. intros E. apply shows_in_eq in Hd. eapply RaiseProofs5.raising_message; [|exact Hd|exact E]. apply scope_set_tame; assumption.
Qed.

(** ** Builds without exceptions *)
Lemma b_quiet_strings b T k strict s : Forall (unit_ok T) s -> match b_string_of (throwing b) T k strict s with
  | Ret o => b_throw_of (quietly b) T k strict s = Ret (inl o)
  | Err _ _ => b_throw_of (quietly b) T k strict s = Ret (inl (nothing k))
  | UB u => b_throw_of (quietly b) T k strict s = UB u end.
Proof.
  intros U. rewrite b_throw_eq. pose proof (b_silent_strings b T k strict s U) as H. unfold silent in H. destruct (b_string_of (throwing b) T k strict s); rewrite H; reflexivity.
Qed.

(** ** The tables *)
Definition fines (v : ver) : bool := forallb (fine v) (table_texts v).
Lemma fines_ok v : fines v = true. Proof. destruct v; vm_compute; reflexivity. Qed.
Lemma b_tables b v s : possible b -> In s (table_texts v) -> exists n, entry_b b v s = Ret n /\ net_parse v (chars (codes s)) true = Ret n.
Proof.
  intros Hb H. pose proof (fines_ok v) as F. unfold fines in F. rewrite forallb_forall in F. specialize (F s H). pose proof F as G. rewrite (entry_fine b v s Hb F).
  exists (entry v s). split; [reflexivity|]. unfold fine in G. apply andb_prop in G as [G _]. apply andb_prop in G as [G _]. apply andb_prop in G as [G _]. apply andb_prop in G as [G _].
  unfold entry. unfold parses in G. destruct (net_parse v (chars (codes s)) true); [reflexivity|discriminate..].
Qed.
(** ** The tables of a big-endian host *)
Definition big_survivors : list string := ["0.0.0.0/8"; "192.0.0.0/29"; "192.0.0.170/31"; "255.255.255.255/32"]%string.
Definition big_okb (s : string) : bool :=
  match entry_h true V4 s with Ret _ => true | _ => false end &&
  match entry_h false V4 s with Err has_host_bits_set 0 => true | _ => existsb (String.eqb s) big_survivors end.
Lemma big_tables4 s : In s (table_texts V4) -> (exists n, entry_h true V4 s = Ret n) /\
  (entry_h false V4 s = Err has_host_bits_set 0 \/ In s ["0.0.0.0/8"; "192.0.0.0/29"; "192.0.0.170/31"; "255.255.255.255/32"]%string).
Proof.
  intros H. assert (F : forallb big_okb (table_texts V4) = true) by (vm_compute; reflexivity). rewrite forallb_forall in F. specialize (F s H). unfold big_okb in F. apply andb_prop in F as [F1 F2]. split.
  - destruct (entry_h true V4 s) as [n| |]; [eexists; reflexivity|discriminate..].
  - assert (D : existsb (String.eqb s) big_survivors = true -> In s big_survivors).
    { intros E. apply existsb_exists in E as (x & Hx & E). apply String.eqb_eq in E. subst. exact Hx. }
    destruct (entry_h false V4 s) as [n|e x|u]; [right; apply D, F2| |right; apply D, F2]. destruct e; try (right; apply D, F2). destruct x; [left; reflexivity|right; apply D, F2..].
Qed.
Lemma big_tables6 s : In s (table_texts V6) -> exists n, entry_h true V6 s = Ret n /\ entry_h false V6 s = Ret n.
Proof.
  intros H. repeat (destruct H as [<-|H]; [eexists; split; vm_compute; reflexivity|]). destruct H.
Qed.
Lemma big_refuted : exists s, In s (private_texts V4) /\ (exists n, entry_h true V4 s = Ret n) /\ entry_h false V4 s = Err has_host_bits_set 0.
Proof. exists "10.0.0.0/8"%string. split; [cbn; tauto|]. split; [eexists; vm_compute; reflexivity|vm_compute; reflexivity]. Qed.
Lemma raise_default T c v s : raise_error_b (mk_build default_config false true) T c v s (zlen s) = raise_error T c v s (zlen s).
Proof. rewrite raise_eq. destruct T; reflexivity. Qed.
(** ** Messages of arrays *)
Lemma array_ascii {A} b T data s (h : fstr -> res (A + exn)) : c_string (cap data) data s -> Forall is_ascii s -> array_x_b b T (cap data) data h = h (filled (cap data) s).
Proof. intros HC HA. unfold array_x_b. rewrite (make_plain_b b T _ _ s HC HA). reflexivity. Qed.
Lemma b_array_x b T v strict data s : c_string (cap data) data s -> Forall is_ascii s ->
  addr_array_x_b b T v data = addr_parse_x_b b TChar v s /\ net_array_x_b b T v strict data = net_parse_x_b b TChar v s strict.
Proof.
  intros HC HA. unfold addr_array_x_b, net_array_x_b. rewrite !(array_ascii b T data s) by assumption. apply FixedStringProofs.c_string_len in HC. rewrite filled_chars by (unfold zlen; lia). split; reflexivity.
Qed.
Lemma fill_codes b T k : forall data n it i f e x, fs_fill k (reader_b b T) data n it i f = Err e x -> e = unexpected_symbol \/ e = wrong_encoding_sequence.
Proof.
  induction k as [|k IH]; intros data n it i f e x; cbn [fs_fill]; [discriminate|].
  pose proof (reader_text_b b T data n it) as X. destruct (reader_b b T data n it) as [[[c|e' x'] it']| |]; cbn [bind]; [|intros E; assert (e' = e) by congruence; subst; exact X|destruct X|discriminate].
  destruct (wr (fs_data f) i c) as [d|e'' x''|] eqn:EW; cbn [bind]; [|exfalso; revert EW; unfold wr; destruct (_ <? _); [discriminate|]; destruct (upd _ _ _); discriminate|discriminate].
  destruct (c =? 0); [discriminate|]. apply IH.
Qed.
Lemma b_array_bad b T v strict data e x t : Forall (unit_ok T) data -> fs_make (reader_b b T) (cap data) data = Err e x -> shows_in b T (firstn (cap data) data) t ->
  exists w, addr_array_x_b b T v data = Ret (inr (mk_exn XParse e w)) /\ net_array_x_b b T v strict data = Ret (inr (mk_exn XParse e w)) /\
    (e = unexpected_symbol \/ e = wrong_encoding_sequence) /\ exists pre post, w = pre ++ t ++ post.
Proof.
  intros U E Ht. unfold addr_array_x_b, net_array_x_b, array_x_b. rewrite E. cbn [raising_b].
  assert (TX : e = unexpected_symbol \/ e = wrong_encoding_sequence).
  { unfold fs_make in E. apply (fill_codes b T _ _ _ _ _ _ _ _ E). }
  assert (Q : quoting e) by (destruct TX as [->| ->]; apply quoting_dec; reflexivity). destruct (b_quotes e Q) as (pre & post & F). rewrite (F b T x _ t Ht). cbn [bind].
  eexists. split; [reflexivity|]. split; [reflexivity|]. split; [exact TX|]. exists (pre x), post. reflexivity.
Qed.
Lemma b_literal_x b T v s : Forall is_ascii s -> ~ In 0 s -> zlen s <= max_len_b b v -> addr_literal_x_b b T v s = addr_parse_x_b b TChar v s.
Proof.
  intros HA H0 HL. unfold addr_literal_x_b. destruct (Z.gtb_spec (zlen s) (max_len_b b v)); [lia|]. set (k := Z.to_nat (max_len_b b v + 1 - zlen s)).
  assert (K : (1 <= k)%nat) by (unfold k; lia). clearbody k. apply (b_array_x b T v true); [|exact HA]. unfold cap. rewrite app_length, repeat_length. split; [exact H0|].
  exists (repeat 0 k). split; [reflexivity|]. destruct k as [|[|k]]; [lia|left; lia|right]. split; [lia|]. eexists. reflexivity.
Qed.
