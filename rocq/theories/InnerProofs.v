(** Readers of [char] that agree on ASCII texts give the same parsers. *)
From Verif Require Import Base Tac SpecStr SpecText SpecAny StrProofs RaiseProofs6 Uint128Model UnicodeModel FixedStringModel FixedStringProofs V4Model V6Model AddressModel NetworkModel
  AnyModel CodeModel StreamModel SpecStream LiteralModel ScopeModel Utf8Model.

Definition tok_a (t : tok) : Prop := match t with Ch c => is_ascii c | Bad _ _ => True end.
(** Readers that deliver ASCII characters from texts with [P] units. *)
Definition to_ascii (P : Z -> Prop) (next : reader) : Prop :=
  forall data n it t it', Forall P data -> next data n it = Ret (t, it') -> tok_a t.

Lemma ascii0 : is_ascii 0. Proof. unfold is_ascii. lia. Qed.
Lemma zeros_a n : Forall is_ascii (repeat 0 n).
Proof. apply Forall_forall. intros x H. apply repeat_spec in H. subst. exact ascii0. Qed.
Lemma next_st_a t code e c code' e' : tok_a t -> next_st t code e = (c, code', e') -> is_ascii c.
Proof. unfold next_st. destruct t; intros H HE; inversion HE; subst; [exact H|exact ascii0]. Qed.
Lemma chars_a f : Forall is_ascii (fs_data f) -> Forall is_ascii (fs_chars f).
Proof. intros H. unfold fs_chars. rewrite <- (firstn_skipn (Z.to_nat (fs_length f)) (fs_data f)) in H. apply Forall_app in H. tauto. Qed.
Lemma toks_a s : Forall is_ascii s -> Forall tok_a (chars s).
Proof. unfold chars. intros H. apply Forall_map. exact H. Qed.

Ltac bind_in H :=
  match type of H with
  | bind ?x _ = Ret _ => let E := fresh "E" in destruct x eqn:E; cbn [bind] in H; [|discriminate H|discriminate H]
  end.

(** What the constructor of fixed_string leaves in the array. *)
Lemma fs_fill_st_a P next : to_ascii P next -> forall k data n it i f code e f' code', Forall P data -> Forall is_ascii (fs_data f) ->
  fs_fill_st k next data n it i f code e = Ret (f', code') -> Forall is_ascii (fs_data f').
Proof.
  intros HN. induction k as [|k IH]; intros data n it i f code e f' code' HD HF H; cbn [fs_fill_st] in H.
  - inversion H; subst. exact HF.
  - bind_in H. destruct a as [t it']. apply (HN _ _ _ _ _ HD) in E.
    destruct (next_st t code e) as [[c code1] e1] eqn:ES. apply (next_st_a _ _ _ _ _ _ E) in ES.
    bind_in H. apply (wr_forall _ _ _ _ _ HF ES) in E0.
    destruct ((c =? 0) || negb (ok code1)); [inversion H; subst; exact E0|].
    eapply (IH data n it' (i + 1) (mkfs (fs_length f + 1) a)); [exact HD|exact E0|exact H].
Qed.
Lemma fs_make_st_a P next n data code f code' : to_ascii P next -> Forall P data -> fs_make_st next n data code = Ret (f, code') -> Forall is_ascii (fs_data f).
Proof.
  intros HN HD H. unfold fs_make_st in H. destruct n.
  - inversion H; subst. apply zeros_a.
  - eapply (fs_fill_st_a P next HN); [exact HD| |exact H]. apply zeros_a.
Qed.
Lemma fs_fill_a P next : to_ascii P next -> forall k data n it i f f', Forall P data -> Forall is_ascii (fs_data f) ->
  fs_fill k next data n it i f = Ret f' -> Forall is_ascii (fs_data f').
Proof.
  intros HN. induction k as [|k IH]; intros data n it i f f' HD HF H; cbn [fs_fill] in H.
  - inversion H; subst. exact HF.
  - bind_in H. destruct a as [t it']. apply (HN _ _ _ _ _ HD) in E. destruct t as [c|]; [|discriminate H].
    bind_in H. apply (wr_forall _ _ _ _ _ HF E) in E0.
    destruct (c =? 0); [inversion H; subst; exact E0|].
    eapply (IH data n it' (i + 1) (mkfs (fs_length f + 1) a)); [exact HD|exact E0|exact H].
Qed.
Lemma fs_make_a P next n data f : to_ascii P next -> Forall P data -> fs_make next n data = Ret f -> Forall is_ascii (fs_data f).
Proof. intros HN HD H. eapply (fs_fill_a P next HN); [exact HD| |exact H]. apply zeros_a. Qed.
Lemma tokens_from_a P next s : to_ascii P next -> Forall P s -> forall k it ts, tokens_from k next s it = Ret ts -> Forall tok_a ts.
Proof.
  intros HN HD. induction k as [|k IH]; intros it ts H; cbn [tokens_from] in H; destruct (it <? zlen s); try discriminate H;
    try (inversion H; constructor).
  bind_in H. destruct a as [t it']. bind_in H. inversion H; subst. constructor; [exact (HN _ _ _ _ _ HD E)|exact (IH _ _ E0)].
Qed.
Lemma tokens_a P next s ts : to_ascii P next -> Forall P s -> tokens next s = Ret ts -> Forall tok_a ts.
Proof. intros HN HD H. exact (tokens_from_a P next s HN HD _ _ _ H). Qed.

(** The buffers. *)
Lemma hex_a : Forall is_ascii hex_digits.
Proof. repeat (constructor; [split; vm_compute; congruence|]). constructor. Qed.
Lemma to_hex_a : forall k value i j p p', Forall is_ascii p -> to_hex_loop k value i j p = Ret p' -> Forall is_ascii p'.
Proof.
  induction k as [|k IH]; intros value i j p p' HP H; cbn [to_hex_loop] in H; [inversion H; subst; exact HP|].
  bind_in H. apply (rd_ok _ _ _ _ hex_a) in E. bind_in H. apply (wr_forall _ _ _ _ _ HP E) in E0. bind_in H.
  apply (wr_forall _ _ _ _ _ E0 ascii0) in E1. exact (IH _ _ _ _ _ E1 H).
Qed.
Lemma copy_part_a l ps n ps' : Forall is_ascii l -> Forall (Forall is_ascii) ps -> copy_part l ps n = Ret ps' -> Forall (Forall is_ascii) ps'.
Proof.
  intros HL HP H. unfold copy_part in H. bind_in H. apply (rd_ok _ _ _ _ HP) in E.
  do 4 (bind_in H; match goal with K : rd l _ = Ret _ |- _ => apply (rd_ok _ _ _ _ HL) in K end; bind_in H;
        match goal with K : wr ?p _ ?c = Ret _, A : Forall is_ascii ?p, B : is_ascii ?c |- _ => apply (wr_forall _ _ _ _ _ A B) in K end).
  eapply wr_forall; [exact HP| |exact H]. assumption.
Qed.
Lemma split_loop_a : forall ts ps l pc s pv h e x r e' pc', Forall tok_a ts -> Forall (Forall is_ascii) ps -> Forall is_ascii l ->
  split_loop_st ts ps l pc s pv h e x = Ret (r, e', pc') -> match r with Some (ps', l', _) => Forall (Forall is_ascii) ps' /\ Forall is_ascii l' | None => True end.
Proof.
  induction ts as [|t ts IH]; intros ps l pc s pv h e x r e' pc' HT HP HL H; cbn [split_loop_st] in H.
  - inversion H; subst. tauto.
  - inversion HT; subst. destruct (next_st t e x) as [[c e1] x1] eqn:ES. apply (next_st_a _ _ _ _ _ _ H2) in ES.
    destruct (negb (ok e1)); [inversion H; exact I|].
    destruct (pc >? 8); [inversion H; exact I|]. destruct (negb (c =? 58)).
    + destruct (s >? 15); [inversion H; exact I|]. bind_in H. apply (wr_forall _ _ _ _ _ HL ES) in E. bind_in H.
      apply (wr_forall _ _ _ _ _ E ascii0) in E0. eapply IH; [exact H3|exact HP|exact E0|exact H].
    + destruct (s >? 4); [inversion H; exact I|]. bind_in H. apply (copy_part_a _ _ _ _ HL HP) in E. bind_in H.
      apply (wr_forall _ _ _ _ _ HL ascii0) in E0. eapply IH; [exact H3|exact E|exact E0|exact H].
Qed.
Lemma scope_loop_a : forall ts pos ei sc id i e v r, Forall tok_a ts -> Forall is_ascii id ->
  scope_loop_st ts pos ei sc id i e v = Ret r -> Forall is_ascii (snd (fst (fst r))).
Proof.
  induction ts as [|t ts IH]; intros pos ei sc id i e v r HT HI H; cbn [scope_loop_st] in H.
  - bind_in H. destruct (sc && _); inversion H; subst; exact HI.
  - inversion HT; subst. destruct (next_st t e v) as [[c e1] x1] eqn:ES. apply (next_st_a _ _ _ _ _ _ H2) in ES.
    destruct (negb (ok e1)); [inversion H; subst; exact HI|].
    destruct (negb sc && negb (c =? 37)); [eapply IH; [exact H3|exact HI|exact H]|].
    destruct sc; [|eapply IH; [exact H3|exact HI|exact H]].
    destruct (i >? scope_max - 1); [inversion H; subst; exact HI|]. destruct (is_invalid_scope_id_symbol c); [inversion H; subst; exact HI|].
    bind_in H. apply (wr_forall _ _ _ _ _ HI ES) in E. eapply IH; [exact H3|exact E|exact H].
Qed.
Lemma change_loop_a : forall ts i str code index e r code' index', Forall tok_a ts -> Forall is_ascii str ->
  change_loop_st ts i str code index e = Ret (r, code', index') -> match r with Some s => Forall is_ascii s | None => True end.
Proof.
  induction ts as [|t ts IH]; intros i str code index e r code' index' HT HI H; cbn [change_loop_st] in H.
  - inversion H; subst. exact HI.
  - inversion HT; subst. destruct (next_st t code e) as [[c e1] x1] eqn:ES. apply (next_st_a _ _ _ _ _ _ H2) in ES.
    destruct (negb (ok e1)); [inversion H; exact I|]. destruct (is_invalid_scope_id_symbol c); [inversion H; exact I|].
    bind_in H. apply (wr_forall _ _ _ _ _ HI ES) in E. eapply IH; [exact H3|exact E|exact H].
Qed.
Lemma net_split_a m : forall ts a s h nm code v r code' v', Forall tok_a ts -> Forall is_ascii a ->
  net_split_st m ts a s h nm code v = Ret (r, code', v') -> match r with Some (a', _) => Forall is_ascii a' | None => True end.
Proof.
  induction ts as [|t ts IH]; intros a s h nm code v r code' v' HT HI H; cbn [net_split_st] in H.
  - inversion H; subst. exact HI.
  - inversion HT; subst. destruct (next_st t code v) as [[c e1] x1] eqn:ES. apply (next_st_a _ _ _ _ _ _ H2) in ES.
    destruct (negb (ok e1)); [inversion H; exact I|]. destruct ((c =? 47) && h); [inversion H; exact I|].
    destruct ((c =? 47) && (zlen ts =? 0)); [inversion H; exact I|].
    bind_in H. destruct a0 as [a1 s1].
    assert (HA : Forall is_ascii a1).
    { destruct (negb (if c =? 47 then true else h)); [|inversion E; subst; exact HI]. bind_in E. inversion E; subst.
      exact (wr_forall _ _ _ _ _ HI ES E0). }
    destruct (s1 >? m); [inversion H; subst; exact HA|]. eapply IH; [exact H3|exact HA|exact H].
Qed.

(** ** A reader that agrees with another on ASCII texts *)
Section Same.
Context (inner : reader).
Hypothesis same : forall data n it, Forall is_ascii data -> inner data n it = char_next data n it.

Lemma fill_st_same : forall k data n it i f code e, Forall is_ascii data ->
  fs_fill_st k inner data n it i f code e = fs_fill_st k char_next data n it i f code e.
Proof.
  induction k as [|k IH]; intros data n it i f code e HD; cbn [fs_fill_st]; [reflexivity|]. rewrite same by exact HD.
  destruct (char_next data n it) as [[t it']| |]; cbn [bind]; try reflexivity. destruct (next_st t code e) as [[c code1] e1].
  destruct (wr (fs_data f) i c); cbn [bind]; try reflexivity. destruct ((c =? 0) || negb (ok code1)); [reflexivity|]. apply IH. exact HD.
Qed.
Lemma make_st_same n data code : Forall is_ascii data -> fs_make_st inner n data code = fs_make_st char_next n data code.
Proof. intros HD. unfold fs_make_st. destruct n; [reflexivity|]. apply fill_st_same. exact HD. Qed.
Lemma fill_same : forall k data n it i f, Forall is_ascii data -> fs_fill k inner data n it i f = fs_fill k char_next data n it i f.
Proof.
  induction k as [|k IH]; intros data n it i f HD; cbn [fs_fill]; [reflexivity|]. rewrite same by exact HD.
  destruct (char_next data n it) as [[t it']| |]; cbn [bind]; try reflexivity. destruct t as [c|]; [|reflexivity].
  destruct (wr (fs_data f) i c); cbn [bind]; try reflexivity. destruct (c =? 0); [reflexivity|]. apply IH. exact HD.
Qed.
Lemma make_same n data : Forall is_ascii data -> fs_make inner n data = fs_make char_next n data.
Proof. intros HD. apply fill_same. exact HD. Qed.
Lemma tokens_same s : Forall is_ascii s -> tokens inner s = Ret (chars s).
Proof.
  intros HD. rewrite <- char_tokens. unfold tokens. generalize (length s) 0.
  induction n as [|k IH]; intros it; cbn [tokens_from]; destruct (it <? zlen s); try reflexivity. rewrite same by exact HD.
  destruct (char_next s (zlen s) it) as [[t it']| |]; cbn [bind]; try reflexivity. rewrite IH. reflexivity.
Qed.
Lemma char_to_ascii : to_ascii is_ascii char_next.
Proof. intros data n it t it' HD H. unfold char_next in H. bind_in H. inversion H; subst. exact (rd_ok _ _ _ _ HD E). Qed.

Lemma v4_array_same data code : Forall is_ascii data -> v4_array_i inner data code = v4_array_st data code.
Proof.
  intros HD. unfold v4_array_i, v4_array_st. rewrite make_st_same by exact HD.
  destruct (fs_make_st char_next 16 data code) as [[f code']| |] eqn:E; cbn [bind]; try reflexivity.
  rewrite tokens_same by (apply chars_a; exact (fs_make_st_a _ _ _ _ _ _ _ char_to_ascii HD E)). reflexivity.
Qed.
Lemma make_parts_same : forall ps, Forall (Forall is_ascii) ps -> make_parts_i inner ps = make_parts ps.
Proof.
  induction ps as [|p ps IH]; intros H; [reflexivity|]. inversion H; subst. cbn [make_parts_i make_parts]. rewrite make_same by assumption.
  destruct (fs_make char_next 4 p); cbn [bind]; try reflexivity. rewrite IH by assumption. reflexivity.
Qed.
Lemma nine_a : Forall (Forall is_ascii) (repeat (repeat 0 5) 9).
Proof. apply Forall_forall. intros x H. apply repeat_spec in H. subst. apply zeros_a. Qed.
Lemma split_parts_same ts pc e : Forall tok_a ts -> split_parts_i inner ts pc e = split_parts_st ts pc e.
Proof.
  intros HT. unfold split_parts_i, split_parts_st.
  destruct (split_loop_st ts (repeat (repeat 0 5) 9) (repeat 0 17) 0 0 0 false e 0) as [[[st e1] pc1]| |] eqn:E; cbn [bind]; try reflexivity.
  apply split_loop_a in E; [|exact HT|exact nine_a|apply zeros_a]. destruct st as [[[ps l] s]|]; [|reflexivity]. destruct E as [HP HL].
  destruct (pc1 >? 8); [reflexivity|]. destruct (has_dot (Z.to_nat s) 0 l) as [d| |]; cbn [bind]; try reflexivity. destruct d.
  - destruct (pc1 + 1 >=? 8); [reflexivity|]. rewrite v4_array_same by exact HL.
    destruct (v4_array_st l e1) as [[b e2]| |]; cbn [bind]; try reflexivity. destruct (v4_to_uint true b) as [n| |]; cbn [bind]; try reflexivity.
    destruct (negb (ok e2)); [reflexivity|].
    destruct (rd ps pc1) as [p| |] eqn:E1; cbn [bind]; try reflexivity. apply (rd_ok _ _ _ _ HP) in E1.
    destruct (to_hex _ p) as [p1| |] eqn:E2; cbn [bind]; try reflexivity. apply to_hex_a in E2; [|exact E1].
    destruct (wr ps pc1 p1) as [ps1| |] eqn:E3; cbn [bind]; try reflexivity. apply (wr_forall _ _ _ _ _ HP E2) in E3.
    destruct (rd ps1 (pc1 + 1)) as [p2| |] eqn:E4; cbn [bind]; try reflexivity. apply (rd_ok _ _ _ _ E3) in E4.
    destruct (to_hex _ p2) as [p3| |] eqn:E5; cbn [bind]; try reflexivity. apply to_hex_a in E5; [|exact E4].
    destruct (wr ps1 (pc1 + 1) p3) as [ps2| |] eqn:E6; cbn [bind]; try reflexivity. apply (wr_forall _ _ _ _ _ E3 E5) in E6.
    destruct (pc1 + 1 + 1 <? 3); [reflexivity|]. rewrite make_parts_same by exact E6. reflexivity.
  - destruct (s >? 4); [reflexivity|]. destruct (copy_part l ps pc1) as [ps1| |] eqn:E1; cbn [bind]; try reflexivity.
    apply copy_part_a in E1; [|exact HL|exact HP]. destruct (pc1 + 1 <? 3); [reflexivity|]. rewrite make_parts_same by exact E1. reflexivity.
Qed.
Lemma firstn_a n (ts : list tok) : Forall tok_a ts -> Forall tok_a (firstn n ts).
Proof. intros H. rewrite <- (firstn_skipn n ts) in H. apply Forall_app in H. tauto. Qed.
Lemma v6_string_same ts code v : Forall tok_a ts -> v6_string_i inner ts code v = v6_string_st ts code v.
Proof.
  intros HT. unfold v6_string_i, v6_string_st. destruct ts as [|t ts]; [reflexivity|].
  destruct (split_scope_st (t :: ts) code v) as [[[[ei id] code1] v1]| |] eqn:E; cbn [bind]; try reflexivity.
  apply scope_loop_a in E; [|exact HT|apply zeros_a]. cbn [fst snd] in E. destruct (negb (ok code1)); [reflexivity|].
  rewrite split_parts_same by (apply firstn_a; exact HT).
  destruct (split_parts_st _ v1 code1) as [[[ps code2] v2]| |]; cbn [bind]; try reflexivity. destruct (negb (ok code2)); [reflexivity|].
  destruct (bound_st ps v2 code2) as [[[[hi lo] sk] code3]| |]; cbn [bind]; try reflexivity. destruct (negb (ok code3)); [reflexivity|].
  destruct (parse_parts_st ps v2 hi lo sk code3) as [[b code4]| |]; cbn [bind]; try reflexivity. destruct (negb (ok code4)); [reflexivity|].
  destruct (rd id 0) as [s0| |]; cbn [bind]; try reflexivity. destruct (negb (s0 =? 0)); [|reflexivity]. rewrite make_st_same by exact E. reflexivity.
Qed.
Lemma string_same v ts code x : Forall tok_a ts -> string_i inner v ts code x = string_st v ts code x.
Proof. intros HT. destruct v; [reflexivity|]. unfold string_i, string_st. rewrite v6_string_same by exact HT. reflexivity. Qed.
Lemma parse_same v ts code : Forall tok_a ts -> parse_i inner v ts code = parse_st v ts code.
Proof. intros HT. unfold parse_i, parse_st. rewrite string_same by exact HT. reflexivity. Qed.
Lemma parse_throw_same v ts : Forall tok_a ts -> parse_throw_i inner v ts = parse_throw v ts.
Proof. intros HT. unfold parse_throw_i, parse_throw. rewrite string_same by exact HT. reflexivity. Qed.

(** Functions of an array, whose reader delivers ASCII characters. *)
Section Array.
Context (P : Z -> Prop) (next : reader).
Hypothesis HN : to_ascii P next.
Lemma parse_array_same v n data code : Forall P data -> parse_array_i inner v next n data code = parse_array_st v next n data code.
Proof.
  intros HD. unfold parse_array_i, parse_array_st. destruct (fs_make_st next n data code) as [[f code']| |] eqn:E; cbn [bind]; try reflexivity.
  apply (fs_make_st_a P _ _ _ _ _ _ HN HD) in E. apply chars_a in E. rewrite tokens_same by exact E. cbn [bind].
  rewrite parse_same by (apply toks_a; exact E). reflexivity.
Qed.
Lemma parse_array_throw_same v n data : Forall P data -> parse_array_throw_i inner v next n data = parse_array_throw v next n data.
Proof.
  intros HD. unfold parse_array_throw_i, parse_array_throw. destruct (fs_make next n data) as [f| |] eqn:E; cbn [bind]; try reflexivity.
  apply (fs_make_a P _ _ _ _ HN HD) in E. apply chars_a in E. rewrite tokens_same by exact E. cbn [bind].
  apply parse_throw_same. apply toks_a. exact E.
Qed.
End Array.

Lemma change_same r n ts code i : Forall tok_a ts -> change_i inner r n ts code i = change_st r n ts code i.
Proof.
  intros HT. unfold change_i, change_st. destruct (n >? scope_max); [reflexivity|].
  destruct (change_loop_st ts 0 (repeat 0 17) no_error 0 0) as [[[str code1] i1]| |] eqn:E; cbn [bind]; try reflexivity.
  apply change_loop_a in E; [|exact HT|apply zeros_a]. destruct str as [str|]; [|reflexivity]. rewrite make_st_same by exact E. reflexivity.
Qed.
Lemma set_scope_same a n ts code : Forall tok_a ts -> set_scope_i inner a n ts code = set_scope_st a n ts code.
Proof. intros HT. unfold set_scope_i, set_scope_st. rewrite change_same by exact HT. reflexivity. Qed.
Lemma set_scope_throw_same a n ts : Forall tok_a ts -> set_scope_throw_i inner a n ts = set_scope_throw a n ts.
Proof. intros HT. unfold set_scope_throw_i, set_scope_throw. rewrite change_same by exact HT. reflexivity. Qed.

Lemma net_string_same v ts strict code x : Forall tok_a ts -> net_string_i inner v ts strict code x = net_string_st v ts strict code x.
Proof.
  intros HT. unfold net_string_i, net_string_st.
  destruct (net_split_st _ ts _ 0 false [] no_error x) as [[[st code1] x1]| |] eqn:E; cbn [bind]; try reflexivity.
  apply net_split_a in E; [|exact HT|apply zeros_a]. destruct st as [[a nm]|]; [|reflexivity].
  destruct (mask_st v nm code1 x1) as [[[[m p] code2] x2]| |]; cbn [bind]; try reflexivity. destruct (negb (ok code2)); [reflexivity|].
  assert (HA : parse_array_i inner v inner (Z.to_nat (max_string_len v)) a code2 = parse_array_st v char_next (Z.to_nat (max_string_len v)) a code2).
  { rewrite <- (parse_array_same is_ascii char_next char_to_ascii v _ a code2 E). unfold parse_array_i. rewrite make_st_same by exact E. reflexivity. }
  rewrite HA. reflexivity.
Qed.
Lemma net_parse_same v ts strict code : Forall tok_a ts -> net_parse_i inner v ts strict code = net_parse_st v ts strict code.
Proof. intros HT. unfold net_parse_i, net_parse_st. rewrite net_string_same by exact HT. reflexivity. Qed.
Lemma net_parse_throw_same v ts strict : Forall tok_a ts -> net_parse_throw_i inner v ts strict = net_parse_throw v ts strict.
Proof. intros HT. unfold net_parse_throw_i, net_parse_throw. rewrite net_string_same by exact HT. reflexivity. Qed.
Lemma any_parse_same ts code : Forall tok_a ts -> any_parse_i inner ts code = any_parse_st ts code.
Proof. intros HT. unfold any_parse_i, any_parse_st. rewrite !parse_same by exact HT. destruct (parse_st V4 ts no_error) as [[a c]| |]; cbn [bind]; try reflexivity.
  destruct (ok c); [reflexivity|]. rewrite parse_same by exact HT. reflexivity. Qed.
Lemma any_throw_same ts : Forall tok_a ts -> any_parse_throw_i inner ts = any_parse_throw ts.
Proof. intros HT. unfold any_parse_throw_i, any_parse_throw. rewrite parse_same, parse_throw_same by exact HT. reflexivity. Qed.
Lemma anet_parse_same ts strict code : Forall tok_a ts -> anet_parse_i inner ts strict code = anet_parse_st ts strict code.
Proof. intros HT. unfold anet_parse_i, anet_parse_st. rewrite !net_parse_same by exact HT. destruct (net_parse_st V4 ts strict no_error) as [[a c]| |]; cbn [bind]; try reflexivity.
  destruct (ok c); [reflexivity|]. rewrite net_parse_same by exact HT. reflexivity. Qed.
Lemma anet_throw_same ts strict : Forall tok_a ts -> anet_parse_throw_i inner ts strict = anet_parse_throw ts strict.
Proof. intros HT. unfold anet_parse_throw_i, anet_parse_throw. rewrite net_parse_same, net_parse_throw_same by exact HT. reflexivity. Qed.

Section Array2.
Context (P : Z -> Prop) (next : reader).
Hypothesis HN : to_ascii P next.
Lemma net_array_same v n data strict code : Forall P data -> net_array_i inner v next n data strict code = net_array_st v next n data strict code.
Proof.
  intros HD. unfold net_array_i, net_array_st. destruct (fs_make_st next n data code) as [[f code']| |] eqn:E; cbn [bind]; try reflexivity.
  apply (fs_make_st_a P _ _ _ _ _ _ HN HD) in E. apply chars_a in E. rewrite tokens_same by exact E. cbn [bind].
  rewrite net_parse_same by (apply toks_a; exact E). reflexivity.
Qed.
Lemma net_array_throw_same v n data strict : Forall P data -> net_array_throw_i inner v next n data strict = net_array_throw v next n data strict.
Proof.
  intros HD. unfold net_array_throw_i, net_array_throw. destruct (fs_make next n data) as [f| |] eqn:E; cbn [bind]; try reflexivity.
  apply (fs_make_a P _ _ _ _ HN HD) in E. apply chars_a in E. rewrite tokens_same by exact E. cbn [bind].
  apply net_parse_throw_same. apply toks_a. exact E.
Qed.
End Array2.

Lemma copy_loop_a f : Forall is_ascii (fs_data f) -> forall k i ip ip', Forall is_ascii ip -> copy_loop k f i ip = Ret ip' -> Forall is_ascii ip'.
Proof.
  intros HF. induction k as [|k IH]; intros i ip ip' HI H; cbn [copy_loop] in H; [inversion H; subst; exact HI|].
  bind_in H. apply (rd_ok _ _ _ _ HF) in E. bind_in H. apply (wr_forall _ _ _ _ _ HI E) in E0. exact (IH _ _ _ E0 H).
Qed.
Lemma copy_fixed_a f ip : Forall is_ascii (fs_data f) -> copy_fixed f = Ret ip -> Forall is_ascii ip.
Proof. intros HF H. eapply copy_loop_a; [exact HF| |exact H]. apply zeros_a. Qed.
Lemma addr_fixed_same v f : Forall is_ascii (fs_data f) -> addr_fixed_i inner v f = addr_fixed v f.
Proof.
  intros H. apply chars_a in H. unfold addr_fixed_i, addr_fixed. rewrite tokens_same by exact H. cbn [bind].
  rewrite string_same by (apply toks_a; exact H). reflexivity.
Qed.
Lemma net_fixed_same v strict f : Forall is_ascii (fs_data f) -> net_fixed_i inner v strict f = net_fixed v strict f.
Proof.
  intros H. apply chars_a in H. unfold net_fixed_i, net_fixed. rewrite tokens_same by exact H. cbn [bind].
  rewrite net_string_same by (apply toks_a; exact H). reflexivity.
Qed.
Lemma inner_array v n data code : Forall is_ascii data -> parse_array_i inner v inner n data code = parse_array_st v char_next n data code.
Proof.
  intros HD. rewrite <- (parse_array_same is_ascii char_next char_to_ascii v n data code HD). unfold parse_array_i. rewrite make_st_same by exact HD. reflexivity.
Qed.
Lemma inner_net_array v n data strict code : Forall is_ascii data -> net_array_i inner v inner n data strict code = net_array_st v char_next n data strict code.
Proof.
  intros HD. rewrite <- (net_array_same is_ascii char_next char_to_ascii v n data strict code HD). unfold net_array_i. rewrite make_st_same by exact HD. reflexivity.
Qed.
End Same.
