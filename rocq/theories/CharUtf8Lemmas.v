(** More about builds that read [char] as UTF-8. *)
From Verif Require Import Base Tac SpecStr SpecText SpecAny SpecCode StrProofs ErrProofs Utf8Proofs RaiseProofs6 Uint128Model UnicodeModel UnicodeLemmas FixedStringModel FixedStringProofs V4Model V6Model V6Full
  AddressModel NetworkModel AnyModel CodeModel CodeProofs CodeProofs2 CodeProofs3 StreamModel SpecStream LiteralModel SpecLiteral LiteralProofs LiteralProofs2 ScopeModel SpecNoThrow StreamProofs3 Utf8Model SpecUtf8 InnerProofs CharUtf8Proofs NetWitness.

(** ** ASCII texts *)
Lemma plain_string k strict s : Forall is_ascii s -> u_string_of TChar k strict s = string_of TChar k strict s.
Proof.
  intros H. rewrite char_string, !string_throw. change (bytes_of s) with (octets s). cbn [reader_of]. rewrite <- (tokens_octets s), (tokens_same _ utf8c_same _ H), char_tokens. reflexivity.
Qed.
Lemma plain_coded k strict s code : Forall is_ascii s -> u_coded_of TChar k strict s code = coded_of TChar k strict s code.
Proof.
  intros H. rewrite char_coded. unfold coded_of. change (bytes_of s) with (octets s). cbn [reader_of]. rewrite <- (tokens_octets s), (tokens_same _ utf8c_same _ H), char_tokens. reflexivity.
Qed.
Lemma plain_array k strict data : Forall is_ascii data -> u_array_of TChar k strict data = array_of TChar k strict data.
Proof.
  intros H. rewrite char_array, !array_throw. change (bytes_of data) with (octets data). cbn [reader_of]. rewrite cap_octets, <- make_octets, (make_same _ utf8c_same _ _ H). reflexivity.
Qed.
Lemma plain_literal k s : Forall is_ascii s -> u_literal_of TChar k s = literal_of TChar k s.
Proof.
  intros H. rewrite u_literal_array_of, literal_array_of. unfold literal. destruct (zlen s >? longest k); [reflexivity|].
  apply plain_array. apply Forall_app. split; [exact H|apply zeros_a].
Qed.
Lemma plain_template k strict data : Forall is_ascii data -> u_template_of TChar k strict data = template_of TChar k strict data.
Proof.
  intros H. rewrite char_template. change (bytes_of data) with (octets data). unfold template_of, addr_template, net_template, any_template, anet_template. cbn [reader_of].
  rewrite cap_octets, <- make_octets, (make_same _ utf8c_same _ _ H). reflexivity.
Qed.
Lemma plain_scope a s : Forall is_ascii s -> scope_set_i utf8c_next TChar a s = scope_set TChar a s.
Proof.
  intros H. rewrite char_scope. unfold scope_set. cbn [reader_of]. change (bytes_of s) with (octets s).
  rewrite octets_zlen, <- tokens_octets, (tokens_same _ utf8c_same _ H), char_tokens. reflexivity.
Qed.

(** ** What is accepted *)
Lemma throw_chars k strict ts o : is_net k = false -> throw_of k strict ts = Ret o -> Forall tok_real ts -> exists p, ts = chars p.
Proof.
  intros HK H HR. destruct k as [v|v| |]; cbn in HK; try discriminate; cbn [throw_of] in H.
  - rewrite (parse_throw_eq v ts HR) in H. unfold addr_parse in H. destruct v.
    + destruct (v4_from_string ts) as [b| |] eqn:E; try discriminate H. exact (v4_tokens_only ts b E).
    + destruct (v6_from_string true ts) as [b| |] eqn:E; try discriminate H. exact (v6_tokens_only ts b E).
  - destruct (any_parse_throw ts) as [x| |] eqn:E; try discriminate H. rewrite (any_parse_throw_eq ts HR) in E. unfold any_parse in E.
    unfold addr_parse_code, addr_parse in E. destruct (v4_from_string ts) as [b| |] eqn:E4; [exact (v4_tokens_only ts b E4)| |discriminate E].
    pose proof (v4_real ts HR) as Q. rewrite E4 in Q. cbn in Q. cbn [bind] in E. destruct (ec_eqb e no_error) eqn:EE; [destruct e; discriminate EE || congruence|].
    destruct (v6_from_string true ts) as [b| |] eqn:E6; cbn [bind] in E; try discriminate E. exact (v6_tokens_only ts b E6).
Qed.
Lemma accepted k strict s o : is_net k = false -> (u_string_of TChar k strict s = Ret o <-> exists p, lax_utf8 (bytes_of s) p /\ string_of TChar k strict p = Ret o).
Proof.
  intros HK. rewrite char_string, string_throw. change (bytes_of s) with (octets s). cbn [reader_of].
  destruct (utf8_tokens (octets s) (octets_u8 s)) as (ts & HT & HP). rewrite HT. cbn [bind]. split.
  - intros H. destruct (throw_chars k strict ts o HK H (tokens_real _ _ _ utf8_reader_real HT)) as [p ->]. exists p.
    split; [apply HP; reflexivity|]. rewrite string_throw. cbn [reader_of]. rewrite char_tokens. exact H.
  - intros (p & HL & H). apply HP in HL. subst. rewrite string_throw in H. cbn [reader_of] in H. rewrite char_tokens in H. exact H.
Qed.

(** ** Scope ids *)
Lemma v6_scope_a ts code v b s code' v' : Forall tok_a ts -> v6_string_st ts code v = Ret (b, s, code', v') -> Forall is_ascii s.
Proof.
  intros HT H. unfold v6_string_st in H. destruct ts as [|t ts]; [inversion H; constructor|].
  bind_in H. destruct a as [[[ei id] c1] v1]. apply scope_loop_a in E; [|exact HT|apply zeros_a]. cbn [fst snd] in E.
  destruct (negb (ok c1)); [inversion H; constructor|]. bind_in H. destruct a as [[ps c2] v2]. destruct (negb (ok c2)); [inversion H; constructor|].
  bind_in H. destruct a as [[[hi lo] sk] c3]. destruct (negb (ok c3)); [inversion H; constructor|].
  bind_in H. destruct a as [bs c4]. destruct (negb (ok c4)); [inversion H; constructor|].
  bind_in H. destruct (negb (a =? 0)); [|inversion H; constructor].
  bind_in H. destruct a0 as [f c5]. inversion H; subst. apply chars_a. exact (fs_make_st_a _ _ _ _ _ _ _ char_to_ascii E E4).
Qed.
Lemma string_scope_a v ts code x a code' x' : Forall tok_a ts -> string_st v ts code x = Ret (a, code', x') -> Forall is_ascii (a_scope a).
Proof.
  intros HT H. unfold string_st in H. destruct v; bind_in H.
  - destruct a0 as [[b c] y]. inversion H; subst. constructor.
  - destruct a0 as [[[b s] c] y]. inversion H; subst. exact (v6_scope_a _ _ _ _ _ _ _ HT E).
Qed.
Lemma parse_scope_a v ts code a code' : Forall tok_a ts -> parse_st v ts code = Ret (a, code') -> Forall is_ascii (a_scope a).
Proof. intros HT H. unfold parse_st in H. bind_in H. destruct a0 as [[b c] y]. inversion H; subst. exact (string_scope_a _ _ _ _ _ _ _ HT E). Qed.
Lemma throw_scope_a v ts a : Forall tok_a ts -> parse_throw v ts = Ret a -> Forall is_ascii (a_scope a).
Proof.
  intros HT H. unfold parse_throw in H. bind_in H. destruct a0 as [[b c] y]. destruct (negb (ok c)); [discriminate H|]. inversion H; subst.
  exact (string_scope_a _ _ _ _ _ _ _ HT E).
Qed.
Lemma strict_scope_a v a m strict code r code' : Forall is_ascii (a_scope a) -> strict_st v a m strict code = Ret (r, code') -> Forall is_ascii (a_scope r).
Proof.
  intros HA H. unfold strict_st in H. destruct v; bind_in H.
  - destruct a0 as [b c]. inversion H; subst. constructor.
  - destruct a0 as [[b s] c]. inversion H; subst. cbn [a_scope]. unfold v6_strict_st in E. bind_in E.
    destruct (negb (list_eqb a0 (a_bytes a))); [destruct strict|]; inversion E; subst; [constructor|constructor|exact HA].
Qed.
Lemma default_scope_a v : Forall is_ascii (a_scope (addr_default v)).
Proof. destruct v; constructor. Qed.
Lemma net_scope_a v ts strict code x n code' x' : Forall tok_a ts -> net_string_st v ts strict code x = Ret (n, code', x') -> Forall is_ascii (a_scope (n_addr n)).
Proof.
  intros HT H. unfold net_string_st in H. bind_in H. destruct a as [[st c1] x1]. apply net_split_a in E; [|exact HT|apply zeros_a].
  assert (HD : Forall is_ascii (a_scope (n_addr (net_default v)))) by apply default_scope_a.
  destruct st as [[ad nm]|]; [|inversion H; subst; exact HD]. bind_in H. destruct a as [[[m p] c2] x2].
  destruct (negb (ok c2)); [inversion H; subst; exact HD|]. bind_in H. destruct a as [r c3].
  destruct (negb (ok c3)); [inversion H; subst; exact HD|]. bind_in H. destruct a as [r' c4].
  destruct (negb (ok c4)); [inversion H; subst; exact HD|]. inversion H; subst. cbn [n_addr].
  apply strict_scope_a in E2; [exact E2|].
  unfold parse_array_st in E1. bind_in E1. destruct a as [f c5]. apply (fs_make_st_a _ _ _ _ _ _ _ char_to_ascii E), chars_a, toks_a in E3.
  destruct (ok c5); [exact (parse_scope_a _ _ _ _ _ E3 E1)|]. inversion E1; subst. apply default_scope_a.
Qed.
Lemma net_parse_scope_a v ts strict code n code' : Forall tok_a ts -> net_parse_st v ts strict code = Ret (n, code') -> Forall is_ascii (a_scope (n_addr n)).
Proof. intros HT H. unfold net_parse_st in H. bind_in H. destruct a as [[b c] y]. inversion H; subst. exact (net_scope_a _ _ _ _ _ _ _ _ HT E). Qed.
Lemma net_throw_scope_a v ts strict n : Forall tok_a ts -> net_parse_throw v ts strict = Ret n -> Forall is_ascii (a_scope (n_addr n)).
Proof.
  intros HT H. unfold net_parse_throw in H. bind_in H. destruct a as [[b c] y]. destruct (negb (ok c)); [discriminate H|]. inversion H; subst.
  exact (net_scope_a _ _ _ _ _ _ _ _ HT E).
Qed.
Lemma throw_of_scope_a k strict ts o : Forall tok_a ts -> throw_of k strict ts = Ret o -> Forall is_ascii (scope_of o).
Proof.
  intros HT H. destruct k; cbn [throw_of] in H.
  - destruct (parse_throw v ts) eqn:E; try discriminate H. inversion H; subst. exact (throw_scope_a _ _ _ HT E).
  - destruct (net_parse_throw v ts strict) eqn:E; try discriminate H. inversion H; subst. exact (net_throw_scope_a _ _ _ _ HT E).
  - destruct (any_parse_throw ts) as [x| |] eqn:E; try discriminate H. inversion H; subst. unfold any_parse_throw in E. bind_in E. destruct a as [a c].
    destruct (ok c); [inversion E; subst; exact (parse_scope_a _ _ _ _ _ HT E0)|]. bind_in E. inversion E; subst. exact (throw_scope_a _ _ _ HT E1).
  - destruct (anet_parse_throw ts strict) as [x| |] eqn:E; try discriminate H. inversion H; subst. unfold anet_parse_throw in E. bind_in E. destruct a as [a c].
    destruct (ok c); [inversion E; subst; exact (net_parse_scope_a _ _ _ _ _ _ HT E0)|]. bind_in E. inversion E; subst. exact (net_throw_scope_a _ _ _ _ HT E1).
Qed.
Lemma wide_scope T k strict s o : T <> TChar -> Forall (unit_ok T) s -> string_of T k strict s = Ret o -> Forall is_ascii (scope_of o).
Proof.
  intros HT HS H. rewrite string_throw in H. bind_in H. exact (throw_of_scope_a _ _ _ _ (tokens_a _ _ _ _ (others_to_ascii T HT) HS E) H).
Qed.
Lemma scope_ascii T k strict s o : Forall (unit_ok T) s -> u_string_of T k strict s = Ret o -> Forall is_ascii (scope_of o).
Proof.
  intros HS H. destruct T; try (rewrite other_string in H by (congruence || assumption); eapply wide_scope; [|exact HS|exact H]; congruence).
  rewrite char_string in H. eapply (wide_scope TChar8); [congruence|exact (octets_u8 s)|exact H].
Qed.
Lemma array_ascii k strict data o : u_array_of TChar k strict data = Ret o -> Forall is_ascii (scope_of o).
Proof.
  intros H. rewrite char_array, array_throw in H. bind_in H. apply (fs_make_a _ _ _ _ _ (others_to_ascii TChar8 ltac:(congruence)) (octets_u8 data)) in E.
  apply (throw_of_scope_a _ _ _ _ (toks_a _ (chars_a _ E)) H).
Qed.
Lemma change_none : forall ts i str code index e c x, change_loop_st ts i str code index e = Ret (None, c, x) -> ok c = false.
Proof.
  induction ts as [|t ts IH]; intros i str code index e c x H; cbn [change_loop_st] in H; [discriminate H|].
  destruct (next_st t code e) as [[d e1] x1]. destruct (ok e1) eqn:OE; cbn [negb] in H; [|inversion H; subst; exact OE].
  destruct (is_invalid_scope_id_symbol d); [inversion H; subst; reflexivity|]. bind_in H. exact (IH _ _ _ _ _ _ _ H).
Qed.
Lemma set_scope_a a n ts b : Forall tok_a ts -> set_scope_throw a n ts = Ret b -> Forall is_ascii (a_scope b).
Proof.
  intros HT H. unfold set_scope_throw in H. bind_in H. destruct a0 as [[s c] i]. destruct (ok c) eqn:OC; cbn [negb] in H; [|discriminate H]. inversion H; subst.
  cbn [a_scope]. unfold change_st in E. destruct (n >? scope_max); [inversion E; subst; discriminate OC|]. bind_in E. destruct a0 as [[str c1] i1].
  pose proof E0 as E1. apply change_loop_a in E0; [|exact HT|apply zeros_a]. destruct str as [str|].
  - bind_in E. destruct a0 as [f c2]. inversion E; subst. rewrite OC. apply chars_a. exact (fs_make_st_a _ _ _ _ _ _ _ char_to_ascii E0 E2).
  - inversion E; subst. apply change_none in E1. congruence.
Qed.
Lemma setter_ascii a s b : scope_set_i utf8c_next TChar a s = Ret b -> Forall is_ascii (a_scope b).
Proof.
  intros H. rewrite char_scope in H. unfold scope_set in H. bind_in H.
  exact (set_scope_a _ _ _ _ (tokens_a _ _ _ _ (others_to_ascii TChar8 ltac:(congruence)) (octets_u8 s) E) H).
Qed.

(** ** The copies with the usual reader are the default build *)
Lemma d_array data code : v4_array_i char_next data code = v4_array_st data code.
Proof. unfold v4_array_i, v4_array_st. destruct (fs_make_st char_next 16 data code) as [[f c]| |]; cbn [bind]; try reflexivity. rewrite char_tokens. reflexivity. Qed.
Lemma d_parts : forall ps, make_parts_i char_next ps = make_parts ps.
Proof. reflexivity. Qed.
Lemma d_split ts pc e : split_parts_i char_next ts pc e = split_parts_st ts pc e.
Proof.
  unfold split_parts_i, split_parts_st. destruct (split_loop_st _ _ _ _ _ _ _ _ _) as [[[st e1] pc1]| |]; cbn [bind]; try reflexivity.
  destruct st as [[[ps l] s]|]; [|reflexivity]. destruct (pc1 >? 8); [reflexivity|]. destruct (has_dot (Z.to_nat s) 0 l) as [d| |]; cbn [bind]; try reflexivity.
  rewrite d_array. reflexivity.
Qed.
Lemma d_string v ts code x : string_i char_next v ts code x = string_st v ts code x.
Proof.
  destruct v; [reflexivity|]. unfold string_i, string_st, v6_string_i, v6_string_st. destruct ts as [|t ts]; [reflexivity|].
  destruct (split_scope_st (t :: ts) code x) as [[[[ei id] c1] v1]| |]; cbn [bind]; try reflexivity. rewrite d_split. reflexivity.
Qed.
Lemma d_parse v ts code : parse_i char_next v ts code = parse_st v ts code.
Proof. unfold parse_i, parse_st. rewrite d_string. reflexivity. Qed.
Lemma d_throw v ts : parse_throw_i char_next v ts = parse_throw v ts.
Proof. unfold parse_throw_i, parse_throw. rewrite d_string. reflexivity. Qed.
Lemma d_parse_array v next n data code : parse_array_i char_next v next n data code = parse_array_st v next n data code.
Proof.
  unfold parse_array_i, parse_array_st. destruct (fs_make_st next n data code) as [[f c]| |]; cbn [bind]; try reflexivity. rewrite char_tokens. cbn [bind]. rewrite d_parse. reflexivity.
Qed.
Lemma d_array_throw v next n data : parse_array_throw_i char_next v next n data = parse_array_throw v next n data.
Proof.
  unfold parse_array_throw_i, parse_array_throw. destruct (fs_make next n data) as [f| |]; cbn [bind]; try reflexivity. rewrite char_tokens. cbn [bind]. apply d_throw.
Qed.
Lemma d_net v ts strict code x : net_string_i char_next v ts strict code x = net_string_st v ts strict code x.
Proof.
  unfold net_string_i, net_string_st. destruct (net_split_st _ _ _ _ _ _ _ _) as [[[st c1] x1]| |]; cbn [bind]; try reflexivity.
  destruct st as [[a nm]|]; [|reflexivity]. destruct (mask_st v nm c1 x1) as [[[[m p] c2] x2]| |]; cbn [bind]; try reflexivity. rewrite d_parse_array. reflexivity.
Qed.
Lemma d_net_parse v ts strict code : net_parse_i char_next v ts strict code = net_parse_st v ts strict code.
Proof. unfold net_parse_i, net_parse_st. rewrite d_net. reflexivity. Qed.
Lemma d_net_throw v ts strict : net_parse_throw_i char_next v ts strict = net_parse_throw v ts strict.
Proof. unfold net_parse_throw_i, net_parse_throw. rewrite d_net. reflexivity. Qed.
Lemma reader_same T : reader_i char_next T = reader_of T.
Proof. destruct T; reflexivity. Qed.
Lemma d_strings T v strict s : addr_string_i char_next T v s = addr_string T v s /\ net_string_t_i char_next T v strict s = net_string T v strict s /\
  any_string_i char_next T s = any_string T s /\ anet_string_i char_next T strict s = anet_string T strict s.
Proof.
  unfold addr_string_i, net_string_t_i, any_string_i, anet_string_i, addr_string, net_string, any_string, anet_string. rewrite reader_same.
  destruct (tokens (reader_of T) s) as [ts| |]; cbn [bind]; try (repeat split; reflexivity).
  rewrite d_throw, d_net_throw. unfold any_parse_throw_i, anet_parse_throw_i, any_parse_throw, anet_parse_throw. rewrite d_parse, d_throw, d_net_parse, d_net_throw. repeat split; reflexivity.
Qed.
Lemma d_net_array v next n data strict code : net_array_i char_next v next n data strict code = net_array_st v next n data strict code.
Proof.
  unfold net_array_i, net_array_st. destruct (fs_make_st next n data code) as [[f c]| |]; cbn [bind]; try reflexivity. rewrite char_tokens. cbn [bind]. rewrite d_net_parse. reflexivity.
Qed.
Lemma d_net_array_throw v next n data strict : net_array_throw_i char_next v next n data strict = net_array_throw v next n data strict.
Proof.
  unfold net_array_throw_i, net_array_throw. destruct (fs_make next n data) as [f| |]; cbn [bind]; try reflexivity. rewrite char_tokens. cbn [bind]. apply d_net_throw.
Qed.
Lemma d_arrays T v strict data : addr_array_i char_next T v data = addr_array T v data /\ net_array_t_i char_next T v strict data = net_array T v strict data /\
  any_array_i char_next T data = any_array T data /\ anet_array_i char_next T strict data = anet_array T strict data.
Proof.
  unfold any_array_i, anet_array_i, addr_array_i, net_array_t_i, any_array, anet_array, addr_array, net_array. rewrite reader_same, !d_array_throw, !d_net_array_throw, d_parse_array, d_net_array.
  repeat split; reflexivity.
Qed.
Lemma d_change r n ts code i : change_i char_next r n ts code i = change_st r n ts code i.
Proof. reflexivity. Qed.
Lemma d_scopes T a s data : scope_set_i char_next T a s = scope_set T a s /\ scope_set_array_i char_next T a data = scope_set_array T a data.
Proof.
  unfold scope_set_i, scope_set, scope_set_array_i, scope_set_array, set_scope_array_throw. rewrite reader_same. split; [reflexivity|].
  destruct (fs_make (reader_of T) (cap data) data); cbn [bind]; try reflexivity. rewrite char_tokens. reflexivity.
Qed.

(** ** Witnesses *)
Lemma overlong_char : exists s o, Forall is_char s /\ ~ Forall is_ascii s /\ u_string_of TChar (KAddr V4) true s = Ret o.
Proof.
  exists [-64; -79; 46; 50; 46; 51; 46; 52], (OAddr V4 (mk_addr [1; 2; 3; 4] [])).
  split; [repeat (constructor; [split; vm_compute; congruence|]); constructor|]. split; [|vm_compute; reflexivity].
  intros H. inversion H as [|? ? HA _]. unfold is_ascii in HA. lia.
Qed.
Lemma builds_differ : exists s o, Forall is_char s /\ string_of TChar (KAddr V6) true s = Ret o /\ u_string_of TChar (KAddr V6) true s = Err unexpected_symbol 233.
Proof.
  exists [58; 58; 49; 37; -61; -87], (OAddr V6 (mk_addr [0;0;0;0;0;0;0;0;0;0;0;0;0;0;0;1] [-61; -87])).
  split; [repeat (constructor; [split; vm_compute; congruence|]); constructor|]. split; vm_compute; reflexivity.
Qed.

(** ** Streams and numbers *)
Lemma skip_forall (P : Z -> Prop) : forall s, Forall P s -> Forall P (skip_spaces s).
Proof. induction s as [|c s IH]; intros H; cbn [skip_spaces]; [constructor|]. inversion H; subst. destruct (is_space c); [apply IH; assumption|exact H]. Qed.
Lemma word_forall (P : Z -> Prop) : forall s l w r e, Forall P s -> take_word s l = (w, r, e) -> Forall P w.
Proof.
  induction s as [|c s IH]; intros l w r e H HW.
  - destruct l as [[|l]|]; cbn [take_word] in HW; inversion HW; constructor.
  - inversion H; subst. assert (HC : (let '(w, r, e) := take_word s (option_map pred l) in (c :: w, r, e)) = (w, r, e) -> Forall P w).
    { destruct (take_word s (option_map pred l)) as [[w1 r1] e1] eqn:E. intros HE. inversion HE; subst. constructor; [assumption|]. exact (IH _ _ _ _ H3 E). }
    destruct l as [[|l]|]; cbn [take_word] in HW; [inversion HW; constructor| |]; destruct (is_space c); (inversion HW; constructor) || exact (HC HW).
Qed.
Lemma read_forall (P : Z -> Prop) i w i' : Forall P (i_in i) -> is_read i = (w, i') -> Forall P w.
Proof.
  intros H HW. unfold is_read in HW. destruct (i_eof i || i_fail i); [inversion HW; constructor|].
  set (s := if i_skipws i then skip_spaces (i_in i) else i_in i) in HW.
  assert (HS : Forall P s) by (unfold s; destruct (i_skipws i); [apply skip_forall|]; exact H). clearbody s.
  destruct (i_skipws i && _); [inversion HW; constructor|].
  destruct (take_word s _) as [[w1 r] e] eqn:E. inversion HW; subst. exact (word_forall P _ _ _ _ _ HS E).
Qed.
(** What extraction does with the word it reads. *)
Definition got_with (T : chtype) (k : kind) (coded : chtype -> kind -> bool -> list Z -> ec -> res (obj * ec)) (i : istr) : res (obj * istr) :=
  let '(w, i') := is_read (strictly k i) in
  '(o, c) <- coded T k (i_strict i =? 0) w no_error ;; Ret (o, if ok c then i' else i_set_fail i').
Lemma u_get_got T k i : u_get T k i = got_with T k u_coded_of i.
Proof.
  unfold u_get, got_with, u_coded_of, addr_get_i, net_get_i, any_get_i, anet_get_i, get_with_i, strictly.
  destruct k as [v|v| |]; cbn [is_net]; (destruct (is_read _) as [w i']; destruct (tokens (reader_i utf8c_next T) w) as [ts| |]; cbn [bind]; try reflexivity);
    [destruct (parse_i utf8c_next v ts no_error) as [[a c]| |]|destruct (net_parse_i utf8c_next v ts (i_strict i =? 0) no_error) as [[a c]| |]
    |destruct (any_parse_i utf8c_next ts no_error) as [[a c]| |]|destruct (anet_parse_i utf8c_next ts (i_strict i =? 0) no_error) as [[a c]| |]]; reflexivity.
Qed.
Lemma get_got T k i : obj_get T k i = got_with T k coded_of i.
Proof.
  unfold obj_get, got_with, coded_of, addr_get, net_get, any_get, anet_get, get_with, strictly.
  destruct k as [v|v| |]; cbn [is_net]; (destruct (is_read _) as [w i']; destruct (tokens (reader_of T) w) as [ts| |] eqn:E; cbn [bind]; try reflexivity;
    apply (tokens_real _ _ _ (real T)) in E);
    [rewrite (parse_st_eq v ts no_error no_error E)|rewrite (net_parse_st_eq v ts (i_strict i =? 0) no_error no_error E)
    |rewrite (any_parse_st_eq ts no_error no_error E)|rewrite (anet_parse_st_eq ts (i_strict i =? 0) no_error no_error E)];
    [destruct (addr_parse_code v ts no_error) as [[a c]| |]|destruct (net_parse_code v ts no_error (i_strict i =? 0)) as [[a c]| |]
    |destruct (any_parse_code ts no_error) as [[a c]| |]|destruct (anet_parse_code ts no_error (i_strict i =? 0)) as [[a c]| |]]; reflexivity.
Qed.
Lemma strictly_in k i : i_in (strictly k i) = i_in i.
Proof. unfold strictly, i_set_strict. destruct (is_net k); reflexivity. Qed.
Lemma plain_get k i : Forall is_ascii (i_in i) -> u_get TChar k i = obj_get TChar k i.
Proof.
  intros H. rewrite u_get_got, get_got. unfold got_with. rewrite <- (strictly_in k i) in H. destruct (is_read (strictly k i)) as [w i'] eqn:E.
  rewrite plain_coded by exact (read_forall _ _ _ _ H E). reflexivity.
Qed.
Lemma other_get T k i : T <> TChar -> Forall (unit_ok T) (i_in i) -> u_get T k i = obj_get T k i.
Proof.
  intros HT H. rewrite u_get_got, get_got. unfold got_with. rewrite <- (strictly_in k i) in H. destruct (is_read (strictly k i)) as [w i'] eqn:E.
  rewrite other_coded; [reflexivity|exact HT|exact (read_forall _ _ _ _ H E)].
Qed.
Lemma char_get k i w i' : took (strictly k i) w i' -> u_get TChar k i =
  ('(o, c) <- coded_of TChar8 k (i_strict i =? 0) (bytes_of w) no_error ;; Ret (o, if ok c then i' else i_set_fail i')).
Proof. intros H. apply took_read in H. rewrite u_get_got. unfold got_with. rewrite H, char_coded. reflexivity. Qed.
Lemma char_u128 f s : u128_from_text_i utf8c_next TChar f s = u128_from_text TChar8 f (bytes_of s).
Proof. unfold u128_from_text_i, u128_from_text. cbn [reader_i reader_of]. rewrite tokens_octets. reflexivity. Qed.
Lemma plain_u128 f s : Forall is_ascii s -> u128_from_text_i utf8c_next TChar f s = u128_from_text TChar f s.
Proof. intros H. unfold u128_from_text_i, u128_from_text. cbn [reader_i reader_of]. rewrite (tokens_same _ utf8c_same _ H), char_tokens. reflexivity. Qed.
Lemma plain_u128_get x i : Forall is_ascii (i_in i) -> u128_get_i utf8c_next TChar x i = u128_get TChar x i.
Proof.
  intros H. unfold u128_get_i, u128_get. destruct (is_read i) as [w i'] eqn:E. cbn [reader_i reader_of].
  rewrite (tokens_same _ utf8c_same _ (read_forall _ _ _ _ H E)), char_tokens. reflexivity.
Qed.
