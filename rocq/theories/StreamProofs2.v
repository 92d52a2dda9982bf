(** Text in every character type: what reads back. *)
From Verif Require Import Base Tac TextProofs UnicodeModel FixedStringModel V4Model V6Model Uint128Model SpecInt Uint128Proofs Uint128Div2
  SpecText SpecAddr SpecStr SpecV4 SpecV6 StrProofs Utf8Proofs V4Proofs BufProofs BitProofs FixedStringProofs V4Lemmas V6Proofs V6Grammar V6Parse V6Full V6Format V6Lemmas
  AddressModel SpecOrder AddressProofs NetworkModel SpecNet NetProofs NetProofs2 NetProofs3 MaskProofs NetText NetText2 ErrProofs NetText3
  AnyModel SpecAny AnyProofs NetWitness CodeModel SpecCode CodeProofs StreamModel SpecStream StreamProofs.

Definition tok_ascii (t : tok) : Prop := match t with Ch c => is_ascii c | Bad _ _ => True end.
Definition ascii_reader (ok : Z -> Prop) (next : reader) : Prop :=
  forall s it, Forall ok s -> 0 <= it < zlen s -> exists t it', next s (zlen s) it = Ret (t, it') /\ it < it' /\ tok_ascii t.
Lemma strict_is_ascii ok next : strict_reader ok next -> ascii_reader ok next.
Proof.
  intros R s it F H. destruct (rd_some s it) as (x & E & _); [lia|]. destruct (R s (zlen s) it x H eq_refl F E) as [[A K]|[N (e & v & it' & I & K & _)]].
  - exists (Ch x), (it + 1). split; [exact K|]. split; [lia|exact A].
  - exists (Bad e v), it'. split; [exact K|]. split; [exact I|exact Logic.I].
Qed.
Lemma utf32_ascii ok : ascii_reader ok utf32_next.
Proof.
  intros s it F H. destruct (rd_some s it) as (x & E & _); [lia|]. unfold utf32_next. rewrite E. cbn [bind].
  pose proof (Z.mod_pos_bound x (2 ^ 32) ltac:(lia)) as B. unfold w32. destruct (Z.gtb_spec (x mod 2 ^ 32) 127); eexists _, _; (split; [reflexivity|]); (split; [lia|]).
  - exact I.
  - unfold tok_ascii, is_ascii. lia.
Qed.
Lemma lax_seq_ascii seq c : lax_seq seq c -> is_ascii c.
Proof.
  destruct 1 as [c H|l t c [->| ->] C ->|x v t c Hi Hv C ->|x y v t c _ Hi Hv C ->]; [exact H|..]; unfold inner, is_ascii, cont in *; lia.
Qed.
Lemma utf8_ascii : ascii_reader is_u8 utf8_next.
Proof.
  intros s it F H. rewrite utf8_next_ok by assumption. set (r := skipn (Z.to_nat it) s).
  assert (N : r <> []). { subst r. intros E. apply (f_equal (@length Z)) in E. rewrite skipn_length in E. unfold zlen in H. cbn [length] in E. lia. }
  assert (Fr : Forall is_u8 r). { rewrite <- (firstn_skipn (Z.to_nat it) s) in F. apply Forall_app in F. apply F. }
  pose proof (next8_pos r N) as P. destruct (next8 r) as [t n] eqn:E. exists t, (it + n). split; [reflexivity|]. cbn [snd] in P. split; [lia|].
  destruct t as [c|e v]; [|exact I]. destruct (next8_sound r c n Fr N E) as (seq & r' & _ & S0 & _). exact (lax_seq_ascii _ _ S0).
Qed.
Lemma ascii_T T : T <> TChar -> ascii_reader (unit_ok T) (reader_of T).
Proof.
  intros N. destruct T; [contradiction|exact utf8_ascii|exact (strict_is_ascii _ _ utf16_strict)|exact (utf32_ascii _)|exact (utf32_ascii _)].
Qed.
Lemma ascii_tokens ok next s : ascii_reader ok next -> Forall ok s -> exists ts, tokens next s = Ret ts /\ Forall tok_ascii ts.
Proof.
  intros R F. unfold tokens. assert (G : forall k it, 0 <= it -> zlen s - it <= Z.of_nat k -> exists ts, tokens_from k next s it = Ret ts /\ Forall tok_ascii ts).
  { induction k as [|k IH]; intros it H0 H; cbn [tokens_from].
    - destruct (Z.ltb_spec it (zlen s)); [lia|]. exists []. auto.
    - destruct (Z.ltb_spec it (zlen s)) as [K|K]; [|exists []; auto]. destruct (R s it F ltac:(lia)) as (t & it' & -> & I & A). cbn [bind].
      destruct (IH it' ltac:(lia) ltac:(lia)) as (ts & -> & B). cbn [bind]. exists (t :: ts). auto. }
  apply G; unfold zlen; lia.
Qed.
Lemma ascii_chars ts t r : Forall tok_ascii ts -> ts = chars t ++ r -> Forall is_ascii t.
Proof.
  intros H ->. apply Forall_app in H as [H _]. clear r. induction t as [|c t IH]; [constructor|]. cbn in H. inversion H; subst. constructor; [assumption|apply IH; assumption].
Qed.
Lemma cut_forall P s : Forall P s -> Forall P (cut s).
Proof. induction 1 as [|c s H _ IH]; [constructor|]. cbn [cut]. destruct (c =? 0); constructor; assumption. Qed.
Lemma addr_scope_ascii v ts a : Forall tok_ascii ts -> addr_parse v ts = Ret a -> Forall is_ascii (a_scope a).
Proof.
  intros F H. destruct v; cbn [addr_parse] in H.
  - destruct (v4_from_string ts); try discriminate. apply ret_inj in H. subst a. constructor.
  - destruct (v6_from_string true ts) as [[b t]| |] eqn:E; try discriminate. apply ret_inj in H. subst a. cbn [a_scope].
    destruct (v6_tokens_only ts _ E) as [s ->]. assert (A : Forall is_ascii s) by (apply (ascii_chars _ s []) in F; [exact F|symmetry; apply app_nil_r]).
    apply v6_accept_raw in E as [(_ & -> & _)|(x & u & -> & _ & _ & -> & _)]; [constructor|]. apply cut_forall. apply Forall_app in A as [_ A]. inversion A. assumption.
Qed.
Lemma text_of_forall P v pre : Forall P pre -> Forall P (text_of v pre).
Proof. intros H. unfold text_of. apply cut_forall. rewrite <- (firstn_skipn (Z.to_nat (L v)) pre) in H. apply Forall_app in H. apply H. Qed.
Lemma chars_ascii s : Forall is_ascii s -> Forall tok_ascii (chars s).
Proof. induction 1; constructor; assumption. Qed.
Lemma ascii_char s : Forall is_ascii s -> Forall is_char s.
Proof. intros H. eapply Forall_impl; [|exact H]. unfold is_ascii, is_char. intros; lia. Qed.
Lemma net_scope_ascii v ts strict n : Forall tok_ascii ts -> net_parse_res v ts strict = Ret n -> Forall is_ascii (a_scope (n_addr n)).
Proof.
  intros F H. assert (G : forall pre r m, ts = chars pre ++ r -> finish v pre m strict = Ret n -> Forall is_ascii (a_scope (n_addr n))).
  { intros pre r m E K. pose proof (ascii_chars _ _ _ F E) as A. destruct (finish_spec v pre m strict (ascii_char _ A)) as [(p & a & Hp & _ & P & W & Q)|[(e & x & Q & _)|[Q _]]]; rewrite Q in K; try discriminate.
    assert (Sa : Forall is_ascii (a_scope a)) by (eapply addr_scope_ascii; [|exact P]; apply chars_ascii, text_of_forall, A).
    destruct (_ =? 0); [apply ret_inj in K; subst n; exact Sa|]. destruct strict; [discriminate|]. apply ret_inj in K. subst n. cbn [net_of n_addr].
    rewrite addr_of_scope; [constructor|]. apply clear_range; [exact Hp|]. apply val_range. exact W. }
  destruct (net_parse_split v ts strict) as [(pre & r & Et & _ & _ & E)|[(pre & Et & _ & _ & E)|[(pre & m & Et & _ & _ & _ & _ & E)|[(e & x & E) _]]]]; rewrite E in H; try discriminate.
  - exact (G pre r [] Et H).
  - apply (G pre [] []); [rewrite app_nil_r; exact Et|exact H].
  - apply (G pre (chars (47 :: m)) (chars m)); [rewrite Et, chars_app'; reflexivity|exact H].
Qed.
Lemma rmap_inv {A B} (f : A -> B) r b : rmap f r = Ret b -> exists a, r = Ret a /\ b = f a.
Proof. destruct r; cbn [rmap]; try discriminate. intros H. apply ret_inj in H. eauto. Qed.
Lemma tok_ascii_char ts : Forall tok_ascii ts -> Forall tok_char ts.
Proof. intros H. eapply Forall_impl; [|exact H]. intros [c|e x]; unfold tok_ascii, tok_char, is_ascii, is_char; intros; [lia|exact I]. Qed.
Lemma text_scope_ascii T k strict s o : T <> TChar -> Forall (unit_ok T) s -> obj_parse T k strict s = Ret o -> kind_of o = k /\ Forall is_ascii (scope_of o).
Proof.
  intros N F. destruct (ascii_tokens _ _ s (ascii_T T N) F) as (ts & E & A). pose proof (tokens_real _ _ _ (char_reader_T T) E) as G.
  unfold obj_parse, addr_parse_text, net_parse_text, any_parse_text, anet_parse_text. rewrite E. cbn [bind]. intros H.
  destruct k as [v|v| |]; apply rmap_inv in H as (x & H & ->); cbn [kind_of scope_of]; (split; [reflexivity|]).
  - exact (addr_scope_ascii _ _ _ A H).
  - rewrite net_parse_is_res in H by exact G. exact (net_scope_ascii _ _ _ _ A H).
  - destruct (any_parse_spec ts G) as (P4 & P6 & _). destruct x as [[|] a]; [apply P4 in H|apply P6 in H]; exact (addr_scope_ascii _ _ _ A H).
  - destruct (anet_parse_spec ts strict G (tok_ascii_char ts A)) as (P4 & P6 & _). destruct x as [[|] n]; [apply P4 in H|apply P6 in H]; rewrite net_parse_is_res in H by exact G; exact (net_scope_ascii _ _ _ _ A H).
Qed.

(** *** to_wstring and the others *)
Lemma obj_text_eq T o fmt s : obj_string o fmt = Ret s -> obj_text T o fmt = Ret (convert T s).
Proof.
  destruct o as [v a|v n|x|x]; cbn [obj_string obj_text]; unfold addr_to_text, net_to_text, any_to_text, anet_to_text, any_to_string, anet_to_string.
  - intros ->. reflexivity.
  - intros ->. reflexivity.
  - destruct (ver_eqb _ _); unfold addr_to_text; intros ->; reflexivity.
  - destruct (anet_is_v4 x); unfold net_to_text; intros ->; reflexivity.
Qed.
Lemma obj_parse_ascii T k strict s : Forall is_ascii s -> obj_parse T k strict s = obj_read k strict s.
Proof.
  intros H. rewrite obj_read_eq. unfold obj_parse, addr_parse_text, net_parse_text, any_parse_text, anet_parse_text. rewrite tokens_ascii by exact H. reflexivity.
Qed.
Lemma conv_ok T c : is_char c -> unit_ok T (conv T c).
Proof.
  unfold is_char. intros H. destruct T; cbn [conv unit_ok]; unfold is_char, is_u8, is_u16, is_u32, w8, w16, w32; try lia; apply Z.mod_pos_bound; lia.
Qed.
Lemma convert_ok T s : Forall is_char s -> Forall (unit_ok T) (convert T s).
Proof. intros H. apply Forall_map. eapply Forall_impl; [|exact H]. apply conv_ok. Qed.
Lemma kase_ascii up t : Forall is_ascii t -> Forall is_ascii (kase up t).
Proof.
  intros H. destruct up; [|exact H]. apply Forall_map. eapply Forall_impl; [|exact H]. unfold is_ascii, upper. intros c Hc.
  destruct (Z.leb_spec 97 c), (Z.leb_spec c 122); cbn [andb]; lia.
Qed.
(** The word written, whether or not in upper case, reads back. *)
Lemma shape_reads T o s t q up strict : shape o s t q -> readable T o -> convert T (kase up t ++ q) = kase up t ++ q /\
  obj_parse T (kind_of o) strict (kase up t ++ q) = Ret o.
Proof.
  intros (_ & _ & At & _ & _ & _ & _ & Aq & P) [->|R].
  - split; [apply convert_char|apply P].
  - assert (A : Forall is_ascii (kase up t ++ q)) by (apply Forall_app; split; [apply kase_ascii; exact At|exact (Aq R)]).
    split; [apply convert_ascii; exact A|]. rewrite obj_parse_ascii by exact A. apply P.
Qed.
Lemma obj_round_trip T o fmt strict : wf_obj o -> readable T o ->
  exists s, obj_string o fmt = Ret s /\ obj_text T o fmt = Ret s /\ obj_parse T (kind_of o) strict s = Ret o.
Proof.
  intros W R. destruct (obj_shape o fmt W) as (s & t & q & E & S0). exists s. split; [exact E|]. rewrite (obj_text_eq T o fmt s E).
  destruct (shape_reads T o s t q false strict S0 R) as [C P]. cbn [kase] in *. destruct S0 as (-> & _). rewrite C. auto.
Qed.
Lemma shape_is_char o s t q : shape o s t q -> Forall is_char s.
Proof. intros (-> & _ & At & _ & _ & _ & Cq & _). apply Forall_app. split; [apply ascii_char; exact At|exact Cq]. Qed.
Lemma text_reads_iff T o fmt strict : wf_obj o -> T <> TChar ->
  exists s, obj_text T o fmt = Ret s /\ Forall (unit_ok T) s /\ (obj_parse T (kind_of o) strict s = Ret o <-> Forall is_ascii (scope_of o)).
Proof.
  intros W N. destruct (obj_shape o fmt W) as (s & t & q & E & S0). exists (convert T s). rewrite (obj_text_eq T o fmt s E). split; [reflexivity|].
  pose proof (convert_ok T s (shape_is_char o s t q S0)) as U. split; [exact U|]. split.
  - intros P. apply (text_scope_ascii T (kind_of o) strict (convert T s) o N U P).
  - intros A. destruct (shape_reads T o s t q false strict S0 (or_intror A)) as [C P]. cbn [kase] in *. destruct S0 as (-> & _). rewrite C. exact P.
Qed.
