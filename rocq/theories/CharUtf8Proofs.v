(** Builds that read [char] as UTF-8. *)
From Verif Require Import Base Tac SpecStr SpecText SpecAny StrProofs Utf8Proofs RaiseProofs6 Uint128Model UnicodeModel FixedStringModel FixedStringProofs V4Model V6Model AddressModel NetworkModel
  AnyModel CodeModel StreamModel SpecStream LiteralModel SpecLiteral ScopeModel SpecNoThrow Utf8Model SpecUtf8 InnerProofs.

Lemma octets_id s : Forall is_ascii s -> octets s = s.
Proof.
  induction 1 as [|c s H HS IH]; [reflexivity|]. unfold octets in *. cbn [map]. rewrite IH. f_equal. unfold is_ascii in H. apply Z.mod_small. lia.
Qed.
Lemma octets_u8 s : Forall is_u8 (octets s).
Proof. unfold octets. apply Forall_map. apply Forall_forall. intros c _. unfold is_u8. apply Z.mod_pos_bound. lia. Qed.
Lemma octets_len s : length (octets s) = length s.
Proof. apply map_length. Qed.
Lemma octets_zlen s : zlen (octets s) = zlen s.
Proof. unfold zlen. rewrite octets_len. reflexivity. Qed.
Lemma code_point_ascii c : is_ascii c -> utf8_code_point c = Some (c, 1).
Proof.
  intros H. rewrite code_point_ok by (unfold is_ascii, is_u8 in *; lia). unfold cp, is_ascii in *.
  destruct (c <? 0x80) eqn:E; [reflexivity|lia].
Qed.
Lemma utf8c_same data n it : Forall is_ascii data -> utf8c_next data n it = char_next data n it.
Proof.
  intros H. unfold utf8c_next. rewrite octets_id by exact H. unfold utf8_next, char_next. destruct (rd data it) as [c| |] eqn:E; cbn [bind]; try reflexivity.
  apply (rd_ok _ _ _ _ H) in E. rewrite code_point_ascii by exact E. cbn [bind Z.eqb Pos.eqb negb].
  unfold is_ascii in E. destruct (c >? 127) eqn:G; [lia|reflexivity].
Qed.

Lemma lor_nn a b : 0 <= a -> 0 <= b -> 0 <= Z.lor a b.
Proof. intros. apply Z.lor_nonneg. auto. Qed.
Lemma w32_nn a : 0 <= w32 a.
Proof. unfold w32. apply Z.mod_pos_bound. reflexivity. Qed.
Lemma land_nn a b : 0 <= b -> 0 <= Z.land a b.
Proof. intros. apply Z.land_nonneg. auto. Qed.
Lemma trailing_nn s e it t c it' : utf8_trailing s e it = Ret (t, c, it') -> 0 <= t.
Proof.
  unfold utf8_trailing. destruct (it + 1 >=? e); [intros H; inversion H; lia|]. destruct (rd s (it + 1)); cbn [bind]; try discriminate.
  destruct (Z.land a 0xC0 =? 0x80); intros H; inversion H; subst; [apply land_nn; lia|lia].
Qed.
Lemma push_nn v t : 0 <= t -> 0 <= utf8_push v t.
Proof. intros. unfold utf8_push. apply lor_nn; [apply w32_nn|assumption]. Qed.
Lemma utf8_to_ascii : to_ascii is_u8 utf8_next.
Proof.
  intros data n it t it' HD H. unfold utf8_next in H. bind_in H. apply (rd_ok _ _ _ _ HD) in E. bind_in H. destruct a0 as [[v c] it1].
  assert (HV : c = true -> 0 <= v).
  { clear H. intros ->. destruct (utf8_code_point a) as [[v0 k]|] eqn:EC.
    - destruct (k =? 1) eqn:K1.
      + inversion E0; subst. revert EC. unfold utf8_code_point, is_u8 in *. repeat match goal with |- context [if ?b then _ else _] => destruct b end;
          intros EC; inversion EC; subst; lia.
      + destruct (k =? 2); [|destruct (k =? 3)].
        * bind_in E0. destruct a0 as [[t1 c1] i1]. apply trailing_nn in E1. inversion E0; subst. apply push_nn. exact E1.
        * bind_in E0. destruct a0 as [[t1 c1] i1]. bind_in E0. destruct a0 as [[t2 c2] i2]. apply trailing_nn in E2. inversion E0; subst. apply push_nn. exact E2.
        * bind_in E0. destruct a0 as [[t1 c1] i1]. bind_in E0. destruct a0 as [[t2 c2] i2]. bind_in E0. destruct a0 as [[t3 c3] i3]. apply trailing_nn in E3.
          inversion E0; subst. apply push_nn. exact E3.
    - inversion E0. }
  destruct c; cbn [negb] in H; [|inversion H; exact I]. specialize (HV eq_refl). destruct (v >? 127) eqn:G; inversion H; [exact I|]. cbn. unfold is_ascii. lia.
Qed.
Lemma utf8c_to_ascii : to_ascii (fun _ => True) utf8c_next.
Proof. intros data n it t it' _ H. exact (utf8_to_ascii _ _ _ _ _ (octets_u8 data) H). Qed.
Lemma utf16_to_ascii : to_ascii is_u16 utf16_next.
Proof.
  intros data n it t it' HD H. unfold utf16_next in H. bind_in H. apply (rd_ok _ _ _ _ HD) in E. bind_in H. destruct a0 as [[v c] it1].
  assert (HV : c = true -> 0 <= v).
  { clear H. intros ->. destruct (Z.land a 0xFC00 =? 0xD800); [|inversion E0; subst; unfold is_u16 in E; lia].
    destruct (it + 1 >=? n); [inversion E0|]. bind_in E0. destruct (Z.land a0 0xFC00 =? 0xDC00); inversion E0; subst. apply w32_nn. }
  destruct c; cbn [negb] in H; [|inversion H; exact I]. specialize (HV eq_refl). destruct (v >? 127) eqn:G; inversion H; [exact I|]. cbn. unfold is_ascii. lia.
Qed.
Lemma utf32_to_ascii P : to_ascii P utf32_next.
Proof.
  intros data n it t it' HD H. unfold utf32_next in H. bind_in H. pose proof (w32_nn a). destruct (w32 a >? 127) eqn:G; inversion H; [exact I|].
  cbn. unfold is_ascii. lia.
Qed.
Lemma others_to_ascii T : T <> TChar -> to_ascii (unit_ok T) (reader_of T).
Proof. intros H. destruct T; [congruence|exact utf8_to_ascii|exact utf16_to_ascii|apply utf32_to_ascii|apply utf32_to_ascii]. Qed.

(** ** The two readers of bytes *)
Lemma tokens_octets s : tokens utf8c_next s = tokens utf8_next (octets s).
Proof.
  unfold tokens. rewrite octets_len. generalize (length s) 0. induction n as [|k IH]; intros it; cbn [tokens_from]; rewrite octets_zlen; destruct (it <? zlen s); try reflexivity.
  unfold utf8c_next at 1. destruct (utf8_next (octets s) (zlen s) it) as [[t it']| |]; cbn [bind]; try reflexivity. rewrite IH. reflexivity.
Qed.
Lemma fill_octets : forall k data n it i f, fs_fill k utf8c_next data n it i f = fs_fill k utf8_next (octets data) n it i f.
Proof.
  induction k as [|k IH]; intros data n it i f; cbn [fs_fill]; [reflexivity|]. unfold utf8c_next at 1.
  destruct (utf8_next (octets data) n it) as [[t it']| |]; cbn [bind]; try reflexivity. destruct t as [c|]; [|reflexivity].
  destruct (wr (fs_data f) i c); cbn [bind]; try reflexivity. destruct (c =? 0); [reflexivity|]. apply IH.
Qed.
Lemma make_octets n data : fs_make utf8c_next n data = fs_make utf8_next n (octets data).
Proof. apply fill_octets. Qed.
Lemma fill_st_octets : forall k data n it i f code e, fs_fill_st k utf8c_next data n it i f code e = fs_fill_st k utf8_next (octets data) n it i f code e.
Proof.
  induction k as [|k IH]; intros data n it i f code e; cbn [fs_fill_st]; [reflexivity|]. unfold utf8c_next at 1.
  destruct (utf8_next (octets data) n it) as [[t it']| |]; cbn [bind]; try reflexivity. destruct (next_st t code e) as [[c code1] e1].
  destruct (wr (fs_data f) i c); cbn [bind]; try reflexivity. destruct ((c =? 0) || negb (ok code1)); [reflexivity|]. apply IH.
Qed.
Lemma make_st_octets n data code : fs_make_st utf8c_next n data code = fs_make_st utf8_next n (octets data) code.
Proof. unfold fs_make_st. destruct n; [reflexivity|]. apply fill_st_octets. Qed.
Lemma cap_octets data : cap (octets data) = cap data.
Proof. unfold cap. rewrite octets_len. reflexivity. Qed.

(** ** Texts of any type whose reader delivers ASCII characters *)
Section Texts.
Context (T : chtype) (P : Z -> Prop).
Hypothesis HN : to_ascii P (reader_i utf8c_next T).
Notation rT := (reader_i utf8c_next T).
Lemma u_string k strict s : Forall P s -> u_string_of T k strict s = (ts <- tokens rT s ;;
  match k with
  | KAddr v => rmap (OAddr v) (parse_throw v ts) | KNet v => rmap (ONet v) (net_parse_throw v ts strict)
  | KAny => rmap OAny (any_parse_throw ts) | KAnyNet => rmap OAnyNet (anet_parse_throw ts strict)
  end).
Proof.
  intros HS. unfold u_string_of, addr_string_i, net_string_t_i, any_string_i, anet_string_i.
  destruct (tokens rT s) as [ts| |] eqn:E; cbn [bind]; [|destruct k; reflexivity|destruct k; reflexivity].
  apply (tokens_a P _ _ _ HN HS) in E.
  destruct k; [rewrite (parse_throw_same _ utf8c_same _ _ E)|rewrite (net_parse_throw_same _ utf8c_same _ _ _ E)|rewrite (any_throw_same _ utf8c_same _ E)
    |rewrite (anet_throw_same _ utf8c_same _ _ E)]; reflexivity.
Qed.
Lemma u_coded k strict s code : Forall P s -> u_coded_of T k strict s code = (ts <- tokens rT s ;;
  match k with
  | KAddr v => rmap (fun r => (OAddr v (fst r), snd r)) (parse_st v ts code) | KNet v => rmap (fun r => (ONet v (fst r), snd r)) (net_parse_st v ts strict code)
  | KAny => rmap (fun r => (OAny (fst r), snd r)) (any_parse_st ts code) | KAnyNet => rmap (fun r => (OAnyNet (fst r), snd r)) (anet_parse_st ts strict code)
  end).
Proof.
  intros HS. unfold u_coded_of. destruct (tokens rT s) as [ts| |] eqn:E; cbn [bind]; try reflexivity. apply (tokens_a P _ _ _ HN HS) in E.
  destruct k; [rewrite (parse_same _ utf8c_same _ _ _ E)|rewrite (net_parse_same _ utf8c_same _ _ _ _ E)|rewrite (any_parse_same _ utf8c_same _ _ E)
    |rewrite (anet_parse_same _ utf8c_same _ _ _ E)]; reflexivity.
Qed.
Lemma u_array k strict data : Forall P data -> u_array_of T k strict data =
  match k with
  | KAddr v => rmap (OAddr v) (parse_array_throw v rT (cap data) data)
  | KNet v => rmap (ONet v) (net_array_throw v rT (cap data) data strict)
  | KAny => rmap OAny ('(a, code) <- parse_array_st V4 rT (cap data) data no_error ;;
      if ok code then Ret (mk_aa V4 a) else a <- parse_array_throw V6 rT (cap data) data ;; Ret (mk_aa V6 a))
  | KAnyNet => rmap OAnyNet ('(n, code) <- net_array_st V4 rT (cap data) data strict no_error ;;
      if ok code then Ret (mk_an V4 n) else n <- net_array_throw V6 rT (cap data) data strict ;; Ret (mk_an V6 n))
  end.
Proof.
  intros HS. unfold u_array_of, any_array_i, anet_array_i, addr_array_i, net_array_t_i.
  destruct k; [rewrite (parse_array_throw_same _ utf8c_same P _ HN _ _ _ HS)|rewrite (net_array_throw_same _ utf8c_same P _ HN _ _ _ _ HS)
    |rewrite (parse_array_same _ utf8c_same P _ HN _ _ _ _ HS), (parse_array_throw_same _ utf8c_same P _ HN _ _ _ HS)
    |rewrite (net_array_same _ utf8c_same P _ HN _ _ _ _ _ HS), (net_array_throw_same _ utf8c_same P _ HN _ _ _ _ HS)]; reflexivity.
Qed.
Lemma u_template k strict data : Forall P data -> u_template_of T k strict data = (str <- fs_make rT (cap data) data ;;
  match k with
  | KAddr v => rmap (OAddr v) (addr_fixed v str) | KNet v => rmap (ONet v) (net_fixed v strict str)
  | KAny => rmap OAny (ip <- copy_fixed str ;; '(a, code) <- parse_array_st V4 char_next (cap ip) ip no_error ;;
      if ok code then Ret (mk_aa V4 a) else a <- addr_fixed V6 str ;; Ret (mk_aa V6 a))
  | KAnyNet => rmap OAnyNet (ip <- copy_fixed str ;; '(n, code) <- net_array_st V4 char_next (cap ip) ip strict no_error ;;
      if ok code then Ret (mk_an V4 n) else n <- net_fixed V6 strict str ;; Ret (mk_an V6 n))
  end).
Proof.
  intros HS. unfold u_template_of, addr_template_i, net_template_i, any_template_i, anet_template_i.
  destruct (fs_make rT (cap data) data) as [f| |] eqn:E; cbn [bind]; [|destruct k; reflexivity|destruct k; reflexivity].
  apply (fs_make_a P _ _ _ _ HN HS) in E.
  destruct k; [rewrite (addr_fixed_same _ utf8c_same _ _ E)|rewrite (net_fixed_same _ utf8c_same _ _ _ E)
    |rewrite (addr_fixed_same _ utf8c_same _ _ E)|rewrite (net_fixed_same _ utf8c_same _ _ _ E)]; try reflexivity;
    (destruct (copy_fixed f) as [ip| |] eqn:EC; cbn [bind]; try reflexivity; apply (copy_fixed_a _ _ E) in EC).
  - rewrite (inner_array _ utf8c_same _ _ _ _ EC). reflexivity.
  - rewrite (inner_net_array _ utf8c_same _ _ _ _ _ EC). reflexivity.
Qed.
Lemma u_scope a s : Forall P s -> scope_set_i utf8c_next T a s = (ts <- tokens rT s ;; set_scope_throw a (zlen s) ts).
Proof.
  intros HS. unfold scope_set_i. destruct (tokens rT s) as [ts| |] eqn:E; cbn [bind]; try reflexivity. apply (tokens_a P _ _ _ HN HS) in E.
  apply (set_scope_throw_same _ utf8c_same _ _ _ E).
Qed.
Lemma u_scope_code a s code : Forall P s -> scope_set_code_i utf8c_next T a s code = (ts <- tokens rT s ;; set_scope_st a (zlen s) ts code).
Proof.
  intros HS. unfold scope_set_code_i. destruct (tokens rT s) as [ts| |] eqn:E; cbn [bind]; try reflexivity. apply (tokens_a P _ _ _ HN HS) in E.
  apply (set_scope_same _ utf8c_same _ _ _ _ E).
Qed.
Lemma u_scope_array a data : Forall P data -> scope_set_array_i utf8c_next T a data = set_scope_array_throw a rT (cap data) data.
Proof.
  intros HS. unfold scope_set_array_i, set_scope_array_throw. destruct (fs_make rT (cap data) data) as [f| |] eqn:E; cbn [bind]; try reflexivity.
  apply (fs_make_a P _ _ _ _ HN HS), chars_a in E. rewrite (tokens_same _ utf8c_same _ E). cbn [bind].
  apply (set_scope_throw_same _ utf8c_same). apply toks_a. exact E.
Qed.
Lemma u_scope_array_code a data code : Forall P data -> scope_set_array_code_i utf8c_next T a data code = set_scope_array_st a rT (cap data) data code.
Proof.
  intros HS. unfold scope_set_array_code_i, set_scope_array_st. destruct (fs_make_st rT (cap data) data code) as [[f c]| |] eqn:E; cbn [bind]; try reflexivity.
  apply (fs_make_st_a P _ _ _ _ _ _ HN HS), chars_a in E. rewrite (tokens_same _ utf8c_same _ E). cbn [bind].
  rewrite (set_scope_same _ utf8c_same) by (apply toks_a; exact E). reflexivity.
Qed.
End Texts.

Lemma any_units (s : list Z) : Forall (fun _ => True) s.
Proof. apply Forall_forall. intros. exact I. Qed.

(** ** Texts of [char] *)
Lemma char_string k strict s : u_string_of TChar k strict s = string_of TChar8 k strict (bytes_of s).
Proof.
  rewrite (u_string TChar _ utf8c_to_ascii k strict s (any_units s)). cbn [reader_i]. rewrite tokens_octets.
  unfold string_of, addr_string, net_string, any_string, anet_string. cbn [reader_of]. change (bytes_of s) with (octets s).
  destruct (tokens utf8_next (octets s)) as [ts| |]; cbn [bind]; destruct k; reflexivity.
Qed.
Lemma char_coded k strict s code : u_coded_of TChar k strict s code = coded_of TChar8 k strict (bytes_of s) code.
Proof.
  rewrite (u_coded TChar _ utf8c_to_ascii k strict s code (any_units s)). cbn [reader_i]. rewrite tokens_octets. reflexivity.
Qed.
Lemma array_octets v data : parse_array_throw v utf8c_next (cap data) data = addr_array TChar8 v (octets data).
Proof. unfold addr_array, parse_array_throw. rewrite cap_octets, make_octets. reflexivity. Qed.
Lemma array_st_octets v data code : parse_array_st v utf8c_next (cap data) data code = parse_array_st v utf8_next (cap (octets data)) (octets data) code.
Proof. unfold parse_array_st. rewrite cap_octets, make_st_octets. reflexivity. Qed.
Lemma net_array_octets v strict data : net_array_throw v utf8c_next (cap data) data strict = net_array TChar8 v strict (octets data).
Proof. unfold net_array, net_array_throw. rewrite cap_octets, make_octets. reflexivity. Qed.
Lemma net_array_st_octets v strict data code : net_array_st v utf8c_next (cap data) data strict code = net_array_st v utf8_next (cap (octets data)) (octets data) strict code.
Proof. unfold net_array_st. rewrite cap_octets, make_st_octets. reflexivity. Qed.
Lemma char_array k strict data : u_array_of TChar k strict data = array_of TChar8 k strict (bytes_of data).
Proof.
  rewrite (u_array TChar _ utf8c_to_ascii k strict data (any_units data)). cbn [reader_i]. change (bytes_of data) with (octets data).
  destruct k; cbn [array_of]; rewrite ?array_octets, ?net_array_octets; [reflexivity|reflexivity| |].
  - rewrite array_st_octets. reflexivity.
  - rewrite net_array_st_octets. reflexivity.
Qed.
Lemma char_template k strict data : u_template_of TChar k strict data = template_of TChar8 k strict (bytes_of data).
Proof.
  rewrite (u_template TChar _ utf8c_to_ascii k strict data (any_units data)). cbn [reader_i]. rewrite make_octets. change (bytes_of data) with (octets data).
  rewrite <- cap_octets. unfold template_of, addr_template, net_template, any_template, anet_template. cbn [reader_of].
  destruct (fs_make utf8_next (cap (octets data)) (octets data)); cbn [bind]; destruct k; reflexivity.
Qed.
Lemma octets_pad s n : octets (s ++ repeat 0 n) = octets s ++ repeat 0 n.
Proof. unfold octets. rewrite map_app. f_equal. induction n as [|n IH]; cbn [repeat map]; [reflexivity|]. rewrite IH. reflexivity. Qed.
Lemma literal_array_of T k s : literal_of T k s = literal (longest k) (array_of T k true) s.
Proof.
  unfold literal_of, addr_literal_t, net_literal_t, any_literal_t, anet_literal_t, literal.
  destruct k as [[]|[]| |]; cbn [longest array_of];
  match goal with |- context [zlen s >? ?a] => match goal with |- context [if zlen s >? a then _ else _] => let v := eval vm_compute in a in change a with v end end;
  match goal with |- context [zlen s >? ?a] => destruct (zlen s >? a); reflexivity end.
Qed.
Lemma u_literal_array_of T k s : u_literal_of T k s = literal (longest k) (u_array_of T k true) s.
Proof.
  unfold u_literal_of, addr_literal_i, net_literal_i, any_literal_i, anet_literal_i, literal.
  destruct k as [[]|[]| |]; cbn [longest u_array_of];
  match goal with |- context [zlen s >? ?a] => match goal with |- context [if zlen s >? a then _ else _] => let v := eval vm_compute in a in change a with v end end;
  match goal with |- context [zlen s >? ?a] => destruct (zlen s >? a); reflexivity end.
Qed.
Lemma char_literal k s : u_literal_of TChar k s = literal_of TChar8 k (bytes_of s).
Proof.
  rewrite u_literal_array_of, literal_array_of. unfold literal. change (bytes_of s) with (octets s). rewrite octets_zlen.
  destruct (zlen s >? longest k); [reflexivity|]. rewrite char_array. change bytes_of with octets. rewrite octets_pad. reflexivity.
Qed.
Lemma char_scope a s : scope_set_i utf8c_next TChar a s = scope_set TChar8 a (bytes_of s).
Proof.
  rewrite (u_scope TChar _ utf8c_to_ascii a s (any_units s)). cbn [reader_i]. rewrite tokens_octets. unfold scope_set. cbn [reader_of].
  change (bytes_of s) with (octets s). rewrite octets_zlen. reflexivity.
Qed.
Lemma char_scope_code a s code : scope_set_code_i utf8c_next TChar a s code = scope_set_code TChar8 a (bytes_of s) code.
Proof.
  rewrite (u_scope_code TChar _ utf8c_to_ascii a s code (any_units s)). cbn [reader_i]. rewrite tokens_octets. unfold scope_set_code. cbn [reader_of].
  change (bytes_of s) with (octets s). rewrite octets_zlen. reflexivity.
Qed.
Lemma char_scope_array a data : scope_set_array_i utf8c_next TChar a data = scope_set_array TChar8 a (bytes_of data).
Proof.
  rewrite (u_scope_array TChar _ utf8c_to_ascii a data (any_units data)). cbn [reader_i]. unfold scope_set_array, set_scope_array_throw. cbn [reader_of].
  change (bytes_of data) with (octets data). rewrite cap_octets, make_octets. reflexivity.
Qed.
Lemma char_scope_array_code a data code : scope_set_array_code_i utf8c_next TChar a data code = scope_set_array_code TChar8 a (bytes_of data) code.
Proof.
  rewrite (u_scope_array_code TChar _ utf8c_to_ascii a data code (any_units data)). cbn [reader_i]. unfold scope_set_array_code, set_scope_array_st. cbn [reader_of].
  change (bytes_of data) with (octets data). rewrite cap_octets, make_st_octets. reflexivity.
Qed.

(** ** Texts of the other types *)
Lemma other_reader T : T <> TChar -> reader_i utf8c_next T = reader_of T.
Proof. intros H. destruct T; [congruence|reflexivity..]. Qed.
Lemma other_ascii T : T <> TChar -> to_ascii (unit_ok T) (reader_i utf8c_next T).
Proof. intros H. rewrite (other_reader T H). apply others_to_ascii. exact H. Qed.
Lemma other_string T k strict s : T <> TChar -> Forall (unit_ok T) s -> u_string_of T k strict s = string_of T k strict s.
Proof.
  intros H HS. rewrite (u_string T _ (other_ascii T H) k strict s HS), (other_reader T H).
  unfold string_of, addr_string, net_string, any_string, anet_string. destruct (tokens (reader_of T) s); cbn [bind]; destruct k; reflexivity.
Qed.
Lemma other_coded T k strict s code : T <> TChar -> Forall (unit_ok T) s -> u_coded_of T k strict s code = coded_of T k strict s code.
Proof. intros H HS. rewrite (u_coded T _ (other_ascii T H) k strict s code HS), (other_reader T H). reflexivity. Qed.
Lemma other_array T k strict data : T <> TChar -> Forall (unit_ok T) data -> u_array_of T k strict data = array_of T k strict data.
Proof. intros H HS. rewrite (u_array T _ (other_ascii T H) k strict data HS), (other_reader T H). destruct k; reflexivity. Qed.
Lemma other_template T k strict data : T <> TChar -> Forall (unit_ok T) data -> u_template_of T k strict data = template_of T k strict data.
Proof.
  intros H HS. rewrite (u_template T _ (other_ascii T H) k strict data HS), (other_reader T H).
  unfold template_of, addr_template, net_template, any_template, anet_template.
  destruct (fs_make (reader_of T) (cap data) data); cbn [bind]; destruct k; reflexivity.
Qed.
Lemma unit_zero T : unit_ok T 0.
Proof. destruct T; cbn; unfold is_char, is_u8, is_u16, is_u32; lia. Qed.
Lemma other_literal T k s : T <> TChar -> Forall (unit_ok T) s -> u_literal_of T k s = literal_of T k s.
Proof.
  intros H HS. rewrite u_literal_array_of, literal_array_of. unfold literal. destruct (zlen s >? longest k); [reflexivity|].
  apply other_array; [exact H|]. apply Forall_app. split; [exact HS|]. apply Forall_forall. intros x HX. apply repeat_spec in HX. subst. apply unit_zero.
Qed.
Lemma other_scope T a s : T <> TChar -> Forall (unit_ok T) s -> scope_set_i utf8c_next T a s = scope_set T a s.
Proof. intros H HS. rewrite (u_scope T _ (other_ascii T H) a s HS), (other_reader T H). reflexivity. Qed.
Lemma other_scope_array T a s : T <> TChar -> Forall (unit_ok T) s -> scope_set_array_i utf8c_next T a s = scope_set_array T a s.
Proof. intros H HS. rewrite (u_scope_array T _ (other_ascii T H) a s HS), (other_reader T H). reflexivity. Qed.
