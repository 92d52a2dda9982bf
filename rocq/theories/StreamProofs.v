(** Text in every character type, and the stream operators. *)
From Verif Require Import Base Tac TextProofs UnicodeModel FixedStringModel V4Model V6Model Uint128Model SpecInt Uint128Proofs Uint128Div2
  SpecText SpecAddr SpecStr SpecV4 SpecV6 StrProofs Utf8Proofs V4Proofs BufProofs BitProofs FixedStringProofs V4Lemmas V6Proofs V6Grammar V6Parse V6Full V6Format V6Lemmas
  AddressModel SpecOrder AddressProofs NetworkModel SpecNet NetProofs NetProofs2 NetProofs3 MaskProofs NetText NetText2 ErrProofs NetText3
  AnyModel SpecAny AnyProofs NetWitness CodeModel SpecCode CodeProofs StreamModel SpecStream.

(** *** Tokens *)
Lemma char_reader_T T : reader_real (reader_of T).
Proof. destruct T; [apply char_reader_real|apply utf8_reader_real|apply utf16_reader_real|apply utf32_reader_real|apply utf32_reader_real]. Qed.
Lemma tokens_no_err next s e x : reader_real next -> tokens next s <> Err e x.
Proof.
  intros R. unfold tokens. generalize (length s) at 1. intros k. generalize 0 as it. induction k as [|k IH]; intros it; cbn [tokens_from].
  - destruct (_ <? _); discriminate.
  - destruct (_ <? _); [|discriminate]. pose proof (R s (zlen s) it) as T. destruct (next s (zlen s) it) as [[t it']| |]; cbn [bind]; [|destruct T|discriminate].
    specialize (IH it'). destruct (tokens_from k next s it') as [ts'| |]; cbn [bind]; [discriminate|exact IH|discriminate].
Qed.
Lemma strict_ascii ok next s : strict_reader ok next -> (forall c, is_ascii c -> ok c) -> Forall is_ascii s -> tokens next s = Ret (chars s).
Proof.
  intros R K H. destruct (strict_tokens ok next s R) as (ts & E & [[_ ->]|(p & x & q & e & v & rest & -> & _ & N & _)]); [eapply Forall_impl; [exact K|exact H]|exact E|].
  apply Forall_app in H as [_ H]. inversion H. contradiction.
Qed.
Lemma tokens_ascii T s : Forall is_ascii s -> tokens (reader_of T) s = Ret (chars s).
Proof.
  intros H. destruct T; cbn [reader_of].
  - apply char_tokens.
  - assert (U : Forall is_u8 s) by (eapply Forall_impl; [|exact H]; unfold is_ascii, is_u8; intros; lia).
    destruct (utf8_tokens s U) as (ts & E & K). rewrite E. f_equal. apply K. apply lax_ascii. exact H.
  - apply (strict_ascii is_u16); [apply utf16_strict| |exact H]. unfold is_ascii, is_u16. intros; lia.
  - apply (strict_ascii is_u32); [apply utf32_strict| |exact H]. unfold is_ascii, is_u32. intros; lia.
  - apply (strict_ascii is_u32); [apply utf32_strict| |exact H]. unfold is_ascii, is_u32. intros; lia.
Qed.
Lemma convert_ascii T s : Forall is_ascii s -> convert T s = s.
Proof.
  unfold convert. induction 1 as [|c s H _ IH]; [reflexivity|]. cbn [map]. rewrite IH. f_equal.
  unfold is_ascii in H. destruct T; cbn [conv]; unfold w8, w16, w32; try reflexivity; apply Z.mod_small; lia.
Qed.
Lemma convert_char s : convert TChar s = s.
Proof. unfold convert. apply map_id. Qed.

(** *** Upper case *)
Lemma upper_idem c : upper (upper c) = upper c.
Proof. unfold upper. destruct (Z.leb_spec 97 c), (Z.leb_spec c 122); cbn [andb]; repeat (match goal with |- context [?a <=? ?b] => destruct (Z.leb_spec a b) end; cbn [andb]); lia. Qed.
Lemma upper_low c : c < 97 -> upper c = c.
Proof. unfold upper. intros H. destruct (Z.leb_spec 97 c); [lia|reflexivity]. Qed.
Lemma map_upper_low s : Forall (fun c => c < 97) s -> map upper s = s.
Proof. induction 1 as [|c s H _ IH]; [reflexivity|]. cbn [map]. rewrite IH, upper_low by exact H. reflexivity. Qed.
Lemma hex_char_upper c d : hex_char c d -> hex_char (upper c) d.
Proof.
  unfold hex_char, upper. intros [[H ->]|[H [->| ->]]].
  - destruct (Z.leb_spec 97 (48 + d)); cbn [andb]; [lia|]. left. lia.
  - destruct (Z.leb_spec 97 (97 + (d - 10))); [|lia]. destruct (Z.leb_spec (97 + (d - 10)) 122); [|lia]. cbn [andb]. right. lia.
  - destruct (Z.leb_spec 97 (65 + (d - 10))); cbn [andb]; [lia|]. right. lia.
Qed.
Lemma hex_group_upper s v : hex_group s v -> hex_group (map upper s) v.
Proof.
  intros (L & ds & F & E). split; [unfold zlen; rewrite map_length; exact L|]. exists ds. split; [|exact E].
  clear -F. induction F as [|c d s ds H _ IH]; cbn [map]; constructor; [apply hex_char_upper; exact H|exact IH].
Qed.
Lemma join_upper ts : map upper (join ts) = join (map (map upper) ts).
Proof.
  induction ts as [|t [|u ts] IH]; [reflexivity|reflexivity|]. cbn [join map] in IH |- *. rewrite map_app. cbn [map]. rewrite IH. reflexivity.
Qed.
Lemma groups_upper ts vs : Forall2 hex_group ts vs -> Forall2 hex_group (map (map upper) ts) vs.
Proof. induction 1; cbn [map]; constructor; [apply hex_group_upper; assumption|assumption]. Qed.
Lemma quad_low s bs : dotted_quad s bs -> Forall (fun c => c < 97) s.
Proof.
  intros (sa & sb & sc & sd & a & b & c & d & [(da & A & _) _] & [(db & B & _) _] & [(dc & C & _) _] & [(dd & D & _) _] & -> & _).
  assert (K : forall s ds, digits_of 10 s ds -> Forall (fun c => c < 97) s).
  { induction 1 as [|x y l l' H _ IH]; constructor; [destruct H as [? [[? ->]|[? ->]]]; lia|exact IH]. }
  repeat (apply Forall_app; split; [eapply K; eassumption|]; constructor; [lia|]). eapply K; eassumption.
Qed.
Lemma groups_text_upper s vs : groups_text s vs -> groups_text (map upper s) vs.
Proof. intros (ts & F & ->). exists (map (map upper) ts). split; [apply groups_upper; exact F|apply join_upper]. Qed.
Lemma tail_text_upper s vs : tail_text s vs -> tail_text (map upper s) vs.
Proof.
  intros [H|(ts & vs' & q & a & b & c & d & F & Q & -> & ->)]; [left; apply groups_text_upper; exact H|]. right.
  exists (map (map upper) ts), vs', q, a, b, c, d. split; [apply groups_upper; exact F|]. split; [exact Q|]. split; [|reflexivity].
  rewrite join_upper, map_app. cbn [map]. rewrite (map_upper_low q) by (eapply quad_low; exact Q). reflexivity.
Qed.
Lemma v6_text_upper s gs : v6_text s gs -> v6_text (map upper s) gs.
Proof.
  intros [L [H|(h & l & hv & n & lv & G & T & N & -> & E)]]; split; try exact L; [left; apply tail_text_upper; exact H|]. right.
  exists (map upper h), (map upper l), hv, n, lv. split; [apply groups_text_upper; exact G|]. split; [apply tail_text_upper; exact T|]. split; [exact N|].
  split; [|exact E]. rewrite !map_app. reflexivity.
Qed.
Lemma map_upper_no c s : ~ In c s -> ~ (65 <= c <= 90) -> ~ In c (map upper s).
Proof.
  intros N R K. apply in_map_iff in K as (x & E & Hx). unfold upper in E. destruct (Z.leb_spec 97 x), (Z.leb_spec x 122); cbn [andb] in E; try (subst; contradiction). lia.
Qed.

(** *** The shape of the texts *)
(** [t] before the scope, [q] after. *)
Definition kase (up : bool) (t : list Z) : list Z := if up then map upper t else t.
Lemma addr_char_facts c : addr_char c -> is_ascii c /\ c <> 37 /\ ~ blank c /\ c <> 47 /\ c <> 0 /\ is_char c.
Proof. unfold addr_char, is_ascii, blank, is_char. lia. Qed.
Lemma addr_char_upper c : addr_char c -> addr_char (upper c).
Proof. unfold addr_char, upper. intros H. destruct (Z.leb_spec 97 c), (Z.leb_spec c 122); cbn [andb]; lia. Qed.
Lemma kase_chars up t : Forall addr_char t -> Forall addr_char (kase up t).
Proof. intros H. destruct up; [|exact H]. apply Forall_map. eapply Forall_impl; [|exact H]. exact addr_char_upper. Qed.
Lemma kase_len up t : zlen (kase up t) = zlen t.
Proof. destruct up; [|reflexivity]. unfold zlen. cbn [kase]. rewrite map_length. reflexivity. Qed.

Lemma addr_shape v a fmt : wf_addr v a -> exists t, addr_to_string v a fmt = Ret (t ++ scope_suffix (a_scope a)) /\ Forall addr_char t /\ t <> [] /\
  zlen (t ++ scope_suffix (a_scope a)) <= L v /\ forall up, addr_parse v (chars (kase up t ++ scope_suffix (a_scope a))) = Ret a.
Proof.
  intros W. pose proof W as [Hb Hs]. destruct (addr_text_ok v a fmt W) as (s & E & _ & _ & _ & Hl & P). destruct a as [b sc]. cbn [a_bytes a_scope] in *.
  destruct v; cbn [addr_to_string a_bytes a_scope addr_parse] in *.
  - subst sc. destruct (v4_format_ok b Hb) as (s' & E' & Q & _). rewrite E in E'. apply ret_inj in E'. subst s'.
    exists s. cbn [scope_suffix]. rewrite app_nil_r. split; [exact E|]. split; [exact (quad_addr s b Q)|]. split.
    { intros ->. destruct Q as ([|? ?] & ? & ? & ? & ? & ? & ? & ? & _ & _ & _ & _ & K & _); discriminate. }
    split; [exact Hl|]. intros [|]; cbn [kase]; rewrite app_nil_r; [|exact P]. rewrite map_upper_low by (eapply quad_low; exact Q). exact P.
  - destruct Hs as [Hs Hc].
    assert (zlen sc <= 16) as Hl16 by (destruct Hs as [->|[[H _] _]]; [cbn; lia|lia]).
    destruct (bytes16 b Hb) as (gs & L8 & HF & ->). destruct (v6_to_string_ok gs sc fmt L8 HF Hl16) as (t & Ht & E').
    rewrite E in E'. apply ret_inj in E'. subst s. destruct (fmt_v6_text fmt gs t L8 HF Ht) as [Tx N46].
    exists t. split; [exact E|]. split; [exact (text_chars t gs Tx)|]. split.
    { intros ->. apply v6_head in Tx. destruct Tx as (? & ? & K & _). destruct x; discriminate. }
    split; [exact Hl|]. intros [|]; cbn [kase]; [|exact P].
    pose proof (v6_text_upper t gs Tx) as Tu. assert (Nu : ~ In 46 (map upper t)) by (apply map_upper_no; [exact N46|lia]).
    assert (R : v6_from_string true (chars (map upper t ++ scope_suffix sc)) = Ret (group_bytes gs, sc)).
    { apply v6_accept_raw.
      assert (Nt : no_nul (map upper t)) by (unfold no_nul; eapply text_not; [exact Tu|unfold addr_char; lia]).
      assert (Hr : raw (map upper t) gs). { apply raw_iff; [exact Nt|]. split; [exact Tu|]. intros C. apply long_quad_dot in C. contradiction. }
      assert (N37 : ~ In 37 (map upper t)) by (eapply text_not; [exact Tu|unfold addr_char; lia]).
      destruct Hs as [->|[Hsc Hn]].
      - left. cbn [scope_suffix]. rewrite app_nil_r. split; [exact N37|]. split; [reflexivity|]. exists gs. auto.
      - right. destruct sc as [|c sc]; [destruct Hsc as [C _]; cbn in C; lia|]. exists (map upper t), (c :: sc). split; [reflexivity|].
        split; [exact N37|]. split; [apply scope_okb_iff; assumption|]. split; [symmetry; apply cut_id; assumption|]. exists gs. auto. }
    rewrite R. reflexivity.
Qed.
Lemma suffix_facts v a : wf_addr v a -> let q := scope_suffix (a_scope a) in
  Forall is_char q /\ no_nul q /\ ~ In 47 q /\ Forall (fun c => ~ blank c) q /\ (Forall is_ascii (a_scope a) -> Forall is_ascii q) /\ (q = [] \/ exists r, q = 37 :: r).
Proof.
  intros [_ H] q. subst q. destruct v; [rewrite H; repeat split; try constructor; try (intros []); reflexivity|]. destruct H as [[->|[[_ F] Nz]] Hc].
  { repeat split; try constructor; try (intros []); reflexivity. }
  unfold scope_suffix. destruct (a_scope a) as [|c0 s0]; [repeat split; try constructor; try (intros []); reflexivity|].
  split; [constructor; [unfold is_char; lia|exact Hc]|]. split; [intros [K|K]; [discriminate|exact (Nz K)]|]. rewrite Forall_forall in F.
  split; [intros [K|K]; [discriminate|]; apply F in K; unfold scope_char in K; lia|]. split.
  { constructor; [unfold blank; lia|]. apply Forall_forall. intros c K. apply F in K. unfold scope_char, blank in *. lia. }
  split; [intros K; constructor; [unfold is_ascii; lia|exact K]|]. right. eauto.
Qed.
Lemma net_parse_of v n strict t : wf_net v n -> Forall is_char t -> no_nul t -> ~ In 47 t -> zlen t <= L v -> addr_parse v (chars t) = Ret (n_addr n) ->
  forall d, numeral 10 d (n_prefix n) -> net_parse v (chars (t ++ 47 :: d)) strict = Ret n.
Proof.
  intros W C N S47 Hl P d Ed. pose proof W as (Wa & _ & _ & Hp & _). apply numeral_dec in Ed. destruct (dec_no_slash d _ Ed) as (Cd & Nd & Sd).
  rewrite net_parse_is_res by apply chars_real. apply net_parse_iff.
  - apply Forall_app. split; [exact C|]. constructor; [unfold is_char; lia|exact Cd].
  - intros K. apply in_app_iff in K as [K|[K|K]]; [exact (N K)|discriminate|exact (Nd K)].
  - apply slash_fits; assumption.
  - exists t, (n_prefix n), (n_addr n). split; [|split; [exact P|apply net_same; exact W]].
    right. exists d. split; [apply Ed|]. split; [reflexivity|]. right. left. exists d, (n_prefix n).
    split; [reflexivity|]. split; [exact Ed|]. rewrite Z.mod_small; [|destruct v; cbn [width] in Hp; lia]. split; [reflexivity|apply Hp].
Qed.
Lemma net_shape v n fmt : wf_net v n -> exists t d, net_to_string v n fmt = Ret (t ++ scope_suffix (a_scope (n_addr n)) ++ 47 :: d) /\ Forall addr_char t /\ t <> [] /\
  Forall is_dec_digit d /\ forall up strict, net_parse v (chars (kase up t ++ scope_suffix (a_scope (n_addr n)) ++ 47 :: d)) strict = Ret n.
Proof.
  intros W. pose proof W as (Wa & _). destruct (net_text_ok v n fmt W) as (s & t' & d & E & Es & Et & Ed).
  destruct (addr_shape v (n_addr n) fmt Wa) as (t & Et' & C & N & Hl & P). rewrite Et in Et'. apply ret_inj in Et'. subst t' s. exists t, d.
  rewrite <- app_assoc in E. split; [exact E|]. split; [exact C|]. split; [exact N|]. split.
  { apply numeral_dec, dec_text_iff in Ed. tauto. }
  intros up strict. rewrite app_assoc. destruct (suffix_facts v (n_addr n) Wa) as (Q1 & Q2 & Q3 & _). pose proof (kase_chars up t C) as Cu. apply addr_chars_ok in Cu as (K1 & K2 & K3).
  apply net_parse_of; [exact W|apply Forall_app; auto| | | |apply P|exact Ed].
  - intros K. apply in_app_iff in K as [K|K]; auto.
  - intros K. apply in_app_iff in K as [K|K]; auto.
  - unfold zlen in *. rewrite app_length in *. pose proof (kase_len up t) as KL. unfold zlen in KL. lia.
Qed.

Definition obj_read (k : kind) (strict : bool) (s : list Z) : res obj := obj_parse TChar k strict s.
Lemma obj_read_eq k strict s : obj_read k strict s =
  match k with KAddr v => rmap (OAddr v) (addr_parse v (chars s)) | KNet v => rmap (ONet v) (net_parse v (chars s) strict)
  | KAny => rmap OAny (any_parse (chars s)) | KAnyNet => rmap OAnyNet (anet_parse (chars s) strict) end.
Proof. destruct k; unfold obj_read, obj_parse, addr_parse_text, net_parse_text, any_parse_text, anet_parse_text; cbn [reader_of]; rewrite char_tokens; reflexivity. Qed.

Definition shape (o : obj) (s t q : list Z) : Prop :=
  s = t ++ q /\ t <> [] /\ Forall is_ascii t /\ ~ In 37 t /\ (q = [] \/ exists r, q = 37 :: r) /\ Forall (fun c => ~ blank c) (t ++ q) /\
  Forall is_char q /\ (Forall is_ascii (scope_of o) -> Forall is_ascii q) /\
  forall up strict, obj_read (kind_of o) strict (kase up t ++ q) = Ret o.

Lemma addr_facts t : Forall addr_char t -> Forall is_ascii t /\ ~ In 37 t /\ Forall (fun c => ~ blank c) t.
Proof.
  intros C. rewrite Forall_forall in C. split; [apply Forall_forall; intros c K; apply C, addr_char_facts in K; tauto|].
  split; [intros K; apply C, addr_char_facts in K; tauto|]. apply Forall_forall; intros c K; apply C, addr_char_facts in K; tauto.
Qed.
Lemma dec_facts d : Forall is_dec_digit d -> Forall is_ascii d /\ ~ In 37 d /\ Forall (fun c => ~ blank c) d /\ Forall is_char d /\ map upper d = d.
Proof.
  intros C. split; [eapply Forall_impl; [|exact C]; unfold is_dec_digit, is_ascii; intros; lia|].
  split; [intros K; rewrite Forall_forall in C; apply C in K; unfold is_dec_digit in K; lia|].
  split; [eapply Forall_impl; [|exact C]; unfold is_dec_digit, blank; intros; lia|].
  split; [eapply Forall_impl; [|exact C]; unfold is_dec_digit, is_char; intros; lia|].
  apply map_upper_low. eapply Forall_impl; [|exact C]; unfold is_dec_digit; intros; lia.
Qed.
Lemma addr_obj_shape o v a s fmt : wf_addr v a -> scope_of o = a_scope a -> addr_to_string v a fmt = Ret s ->
  (forall u strict, addr_parse v (chars u) = Ret a -> obj_read (kind_of o) strict u = Ret o) -> exists t q, shape o s t q.
Proof.
  intros W Sc E R. destruct (addr_shape v a fmt W) as (t & Et & C & N & _ & P). rewrite E in Et. apply ret_inj in Et. subst s.
  destruct (suffix_facts v a W) as (Q1 & Q2 & Q3 & Q4 & Q5 & Q6). destruct (addr_facts t C) as (A1 & A2 & A3).
  exists t, (scope_suffix (a_scope a)). unfold shape. rewrite Sc. split; [reflexivity|]. split; [exact N|]. split; [exact A1|]. split; [exact A2|]. split; [exact Q6|].
  split; [apply Forall_app; auto|]. split; [exact Q1|]. split; [exact Q5|]. intros up strict. apply R, P.
Qed.
Lemma net_obj_shape o v n s fmt : wf_net v n -> scope_of o = a_scope (n_addr n) -> net_to_string v n fmt = Ret s ->
  (forall u strict, Forall is_char u -> net_parse v (chars u) strict = Ret n -> obj_read (kind_of o) strict u = Ret o) -> exists t q, shape o s t q.
Proof.
  intros W Sc E R. destruct (net_shape v n fmt W) as (t & d & Et & C & N & D & P). rewrite E in Et. apply ret_inj in Et. subst s.
  destruct (suffix_facts v (n_addr n) (proj1 W)) as (Q1 & Q2 & Q3 & Q4 & Q5 & Q6). destruct (addr_facts t C) as (A1 & A2 & A3).
  destruct (dec_facts d D) as (D1 & D2 & D3 & D4 & D5).
  assert (CH : forall up, Forall is_char (kase up t ++ scope_suffix (a_scope (n_addr n)) ++ 47 :: d)).
  { intros up. pose proof (kase_chars up t C) as K. apply addr_chars_ok in K as (K & _). apply Forall_app. split; [exact K|]. apply Forall_app. split; [exact Q1|].
    constructor; [unfold is_char; lia|exact D4]. }
  destruct Q6 as [Q6|[r Q6]].
  - rewrite Q6 in *. cbn [app] in *. exists (t ++ 47 :: d), []. unfold shape. rewrite Sc, app_nil_r. split; [reflexivity|].
    split; [destruct t; discriminate|]. split; [apply Forall_app; split; [exact A1|constructor; [unfold is_ascii; lia|exact D1]]|].
    split; [intros K; apply in_app_iff in K as [K|[K|K]]; [auto|discriminate|auto]|]. split; [left; reflexivity|].
    split; [apply Forall_app; split; [exact A3|constructor; [unfold blank; lia|exact D3]]|]. split; [constructor|]. split; [constructor|].
    intros up strict. rewrite app_nil_r. assert (X : kase up (t ++ 47 :: d) = kase up t ++ 47 :: d).
    { destruct up; cbn [kase]; [|reflexivity]. rewrite map_app. cbn [map]. rewrite D5. reflexivity. }
    rewrite X. apply R; [apply CH|apply P].
  - exists t, (scope_suffix (a_scope (n_addr n)) ++ 47 :: d). unfold shape. rewrite Sc. split; [reflexivity|]. split; [exact N|]. split; [exact A1|]. split; [exact A2|].
    split; [right; rewrite Q6; cbn [app]; eauto|]. split; [apply Forall_app; split; [exact A3|]; apply Forall_app; split; [exact Q4|constructor; [unfold blank; lia|exact D3]]|].
    split; [apply Forall_app; split; [exact Q1|constructor; [unfold is_char; lia|exact D4]]|].
    split; [intros K; apply Forall_app; split; [exact (Q5 K)|constructor; [unfold is_ascii; lia|exact D1]]|].
    intros up strict. apply R; [apply CH|apply P].
Qed.
Lemma obj_shape o fmt : wf_obj o -> exists s t q, obj_string o fmt = Ret s /\ shape o s t q.
Proof.
  destruct o as [v a|v n|[v a]|[v n]]; cbn [wf_obj obj_string]; intros W.
  - destruct (addr_shape v a fmt W) as (t & E & _). eexists. edestruct (addr_obj_shape (OAddr v a) v a _ fmt W eq_refl E) as (t' & q & K); [|eauto].
    intros u strict P. rewrite obj_read_eq. cbn [kind_of]. rewrite P. reflexivity.
  - destruct (net_shape v n fmt W) as (t & d & E & _). eexists. edestruct (net_obj_shape (ONet v n) v n _ fmt W eq_refl E) as (t' & q & K); [|eauto].
    intros u strict _ P. rewrite obj_read_eq. cbn [kind_of]. rewrite P. reflexivity.
  - unfold wf_any in W. cbn [aa_ver aa_addr] in W. destruct (addr_shape v a fmt W) as (t & E & _).
    assert (E2 : any_to_string (mk_aa v a) fmt = Ret (t ++ scope_suffix (a_scope a))) by (destruct v; exact E).
    eexists. edestruct (addr_obj_shape (OAny (mk_aa v a)) v a _ fmt W eq_refl E) as (t' & q & K); [|exists t', q; split; [exact E2|exact K]].
    intros u strict P. rewrite obj_read_eq. cbn [kind_of]. destruct (any_parse_spec (chars u) (genuine_chars u)) as (P4 & P6 & _).
    destruct v; [apply P4 in P|apply P6 in P]; rewrite P; reflexivity.
  - unfold wf_anet in W. cbn [an_ver an_net] in W. destruct (net_shape v n fmt W) as (t & d & E & _).
    assert (E2 : anet_to_string (mk_an v n) fmt = Ret (t ++ scope_suffix (a_scope (n_addr n)) ++ 47 :: d)) by (destruct v; exact E).
    eexists. edestruct (net_obj_shape (OAnyNet (mk_an v n)) v n _ fmt W eq_refl E) as (t' & q & K); [|exists t', q; split; [exact E2|exact K]].
    intros u strict C P. rewrite obj_read_eq. cbn [kind_of]. destruct (anet_parse_spec (chars u) strict (genuine_chars u) (tok_char_chars u C)) as (P4 & P6 & _).
    destruct v; [apply P4 in P|apply P6 in P]; rewrite P; reflexivity.
Qed.
