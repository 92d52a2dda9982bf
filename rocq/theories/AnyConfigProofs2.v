(** The texts of objects under every setting of the scope-id macros. *)
From Coq Require Import String.
From Verif Require Import Base Tac TextProofs UnicodeModel FixedStringModel V4Model V6Model Uint128Model SpecInt Uint128Proofs Uint128Div2 Uint128OpsModel
  SpecText SpecAddr SpecStr SpecV4 SpecV6 StrProofs V4Proofs BufProofs BitProofs FixedStringProofs V4Lemmas V6Proofs V6Parse V6Grammar V6Full V6Format V6Lemmas
  AddressModel SpecOrder AddressProofs NetworkModel SpecNet NetProofs NetProofs2 NetProofs3 MaskProofs ErrProofs NetText NetText2 NetText3
  SpecLoose LooseProofs SpecExact HashProofs IterModel AnyModel SpecAny AnyProofs ExactProofs RelModel SpecRel RelProofs
  ConfigModel SpecConfig ConfigProofs NetConfigModel SpecNetConfig NetConfigProofs NetConfigProofs2 NetConfigProofs3
  StreamModel SpecStream StreamProofs StreamProofs2 MacroModel SpecMacro MacroProofs3 NetOpsConfigModel SpecNetOpsConfig NetOpsConfigProofs NetOpsConfigProofs2 AnyConfigModel SpecAnyConfig AnyConfigProofs.
Close Scope string_scope.

(** An address text: [t] in either case, then the scope id. *)
Lemma addr_shape_c g a fmt : cfg_ok g -> addr_for (c_max g) (c_spaces g) a ->
  exists t, addr_to_string_c g a fmt = Ret (t ++ scope_suffix (a_scope a)) /\ Forall addr_char t /\ t <> [] /\
  zlen (t ++ scope_suffix (a_scope a)) <= 41 + c_max g /\ forall up, v6_from_string_c g true (chars (kase up t ++ scope_suffix (a_scope a))) = Ret (a_bytes a, a_scope a).
Proof.
  intros C W. rewrite to_string_c by assumption. destruct W as (Hb & (Ls & Ns & Fs) & Hc). destruct a as [b sc]. cbn [a_bytes a_scope] in *.
  destruct (bytes16 b Hb) as (gs & L8 & HF & ->). destruct (c_to_string g gs sc fmt L8 HF Ls) as (t & Ht & E & Hl).
  destruct (fmt_v6_text fmt gs t L8 HF Ht) as [Tx N46]. exists t. split; [exact E|]. split; [exact (text_chars t gs Tx)|]. split.
  { intros ->. apply v6_head in Tx. destruct Tx as (? & ? & K & _). destruct x; discriminate. }
  split; [exact Hl|].
  assert (G : forall u, v6_text u gs -> ~ In 46 u -> v6_from_string_c g true (chars (u ++ scope_suffix sc)) = Ret (group_bytes gs, sc)).
  { intros u Tu Nu. assert (Nt : no_nul u) by (unfold no_nul; eapply text_not; [exact Tu|unfold addr_char; lia]).
    assert (R : v6_loose u gs). { apply raw_loose, raw_iff; [exact Nt|]. split; [exact Tu|]. intros K. apply long_quad_dot in K. contradiction. }
    assert (N37 : ~ In 37 u) by (eapply text_not; [exact Tu|unfold addr_char; lia]).
    apply c_exact; [exact C|]. exists gs. split; [|reflexivity]. destruct sc as [|c sc].
    - left. cbn [scope_suffix]. rewrite app_nil_r. auto.
    - right. exists u, (c :: sc). cbn [scope_suffix]. do 5 (split; [auto|]). split; [split; [exact Ns|left; reflexivity]|discriminate]. }
  intros [|]; cbn [kase]; apply G; auto; [apply v6_text_upper; exact Tx|apply map_upper_no; [exact N46|lia]].
Qed.
Lemma suffix_c g a : addr_for (c_max g) (c_spaces g) a -> let q := scope_suffix (a_scope a) in
  Forall is_char q /\ no_nul q /\ ~ In 47 q /\ (Forall (fun c => ~ blank c) (a_scope a) -> Forall (fun c => ~ blank c) q) /\ (Forall is_ascii (a_scope a) -> Forall is_ascii q) /\ (q = [] \/ exists r, q = 37 :: r).
Proof.
  intros (_ & (_ & Nz & F) & Hc) q. subst q. unfold scope_suffix. destruct (a_scope a) as [|c0 s0]; [repeat split; try constructor; try (intros []); reflexivity|].
  split; [constructor; [unfold is_char; lia|exact Hc]|]. split; [intros [K|K]; [discriminate|exact (Nz K)]|]. rewrite Forall_forall in F.
  split; [intros [K|K]; [discriminate|]; apply F in K; unfold scope_char_of in K; lia|]. split; [intros K; constructor; [unfold blank; lia|exact K]|].
  split; [intros K; constructor; [unfold is_ascii; lia|exact K]|]. right. eauto.
Qed.
Lemma net_shape_c g n fmt : cfg_ok g -> net_for (c_max g) (c_spaces g) n ->
  exists t d, net_to_string_c g n fmt = Ret (t ++ scope_suffix (a_scope (n_addr n)) ++ 47 :: d) /\ Forall addr_char t /\ t <> [] /\
  Forall is_dec_digit d /\ forall up strict, net_parse_c g (chars (kase up t ++ scope_suffix (a_scope (n_addr n)) ++ 47 :: d)) strict = Ret n.
Proof.
  intros C W. pose proof W as (Wa & Bm & Sm & Hp & Vm & Va). destruct (addr_shape_c g (n_addr n) fmt C Wa) as (t & Et & Ct & Nt & Hl & P).
  destruct (prefix_digits V6 (n_prefix n) Hp) as (d & Ed & Hd). exists t, d. split; [unfold net_to_string_c; rewrite Et, Ed; cbn [bind]; rewrite <- app_assoc; reflexivity|].
  split; [exact Ct|]. split; [exact Nt|]. apply numeral_dec in Hd. split; [apply dec_text_iff in Hd; tauto|].
  intros up strict. rewrite app_assoc. destruct (suffix_c g (n_addr n) Wa) as (Q1 & Q2 & Q3 & _). pose proof (kase_chars up t Ct) as Cu. apply addr_chars_ok in Cu as (K1 & K2 & K3).
  apply net_c_exact; [exact C|]. exists (kase up t ++ scope_suffix (a_scope (n_addr n))), (n_prefix n), (a_bytes (n_addr n)), (a_scope (n_addr n)).
  split; [right|split; [apply P|]].
  - eexists _, d. split; [reflexivity|]. split; [intros K; apply in_app_iff in K; tauto|].
    split; [unfold zlen in *; rewrite app_length in *; pose proof (kase_len up t) as KL; unfold zlen in KL; lia|].
    split; [split; [intros K; apply in_app_iff in K as [K|K]; auto|left; reflexivity]|].
    left. exists (n_prefix n). split; [exact Hd|]. rewrite Z.mod_small by lia. split; [reflexivity|]. cbn [width]. lia.
  - destruct Wa as (Hb & _). assert (K : mk_addr (a_bytes (n_addr n)) (a_scope (n_addr n)) = n_addr n) by (apply addr_ext; reflexivity).
    rewrite K. unfold network_of. rewrite Va, Z.sub_0_r. change (0 =? 0) with true. cbv iota.
    split; [reflexivity|]. split; [reflexivity|]. split; [exact Hb|]. split; [reflexivity|]. split; [reflexivity|]. auto.
Qed.
Lemma net_chars_c g n up t d : net_for (c_max g) (c_spaces g) n -> Forall addr_char t -> Forall is_dec_digit d -> Forall is_char (kase up t ++ scope_suffix (a_scope (n_addr n)) ++ 47 :: d).
Proof.
  intros W C D. destruct (suffix_c g (n_addr n) (proj1 W)) as (Q1 & _). destruct (dec_facts d D) as (_ & _ & _ & D4 & _).
  pose proof (kase_chars up t C) as K. apply addr_chars_ok in K as (K & _). apply Forall_app. split; [exact K|]. apply Forall_app. split; [exact Q1|]. constructor; [unfold is_char; lia|exact D4].
Qed.
Lemma anet_round_trip_c b x fmt strict : cfg_ok (b_cfg b) -> anet_for (c_max (b_cfg b)) (c_spaces (b_cfg b)) x ->
  exists s, anet_to_string_c (b_cfg b) x fmt = Ret s /\ b_string_of (in_bytes (throwing b)) TChar KAnyNet strict s = Ret (OAnyNet x).
Proof.
  intros C. destruct x as [[|] n]; unfold anet_for, anet_to_string_c, anet_is_v4; cbn [an_ver an_net ver_eqb ver_num Z.eqb Pos.eqb]; intros W.
  - destruct (net_shape V4 n fmt W) as (t & d & E & Ct & _ & D & P). eexists. split; [exact E|].
    rewrite plain_strings. cbn [read_by]. specialize (P false strict). cbn [kase] in P. rewrite P. reflexivity.
  - destruct (net_shape_c _ n fmt C W) as (t & d & E & Ct & _ & D & P). eexists. split; [exact E|].
    apply (anet_text_c b _ strict C (net_chars_c _ n false t d W Ct D)). exact (P false strict).
Qed.
