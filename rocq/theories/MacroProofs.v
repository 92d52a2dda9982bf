(** Builds with several macros set: the parsers read the decoded text as C68 and
    C81 describe. *)
From Verif Require Import Base Tac SpecStr SpecText SpecAny Uint128Model StrProofs RaiseProofs6 UnicodeModel FixedStringModel FixedStringProofs V4Model V6Model AddressModel NetworkModel
  AnyModel CodeModel StreamModel SpecStream LiteralModel SpecLiteral ScopeModel NoThrowModel SpecNoThrow Utf8Model SpecUtf8 ErrProofs CodeProofs CodeProofs2 CodeProofs3 InnerProofs
  ConfigModel ConfigProofs NetConfigModel NetConfigProofs MacroModel.

Section Chars.
Context (A : Z -> Prop).
Hypothesis A0 : A 0.
Hypothesis Ahex : Forall A hex_digits.
Definition tok_A (t : tok) : Prop := match t with Ch c => A c | Bad _ _ => True end.
(** Readers that deliver ASCII characters from texts with [P] units. *)
Definition to_A (P : Z -> Prop) (next : reader) : Prop :=
  forall data n it t it', Forall P data -> next data n it = Ret (t, it') -> tok_A t.

Lemma zeros_A n : Forall A (repeat 0 n).
Proof. apply Forall_forall. intros x H. apply repeat_spec in H. subst. exact A0. Qed.
Lemma next_st_A t code e c code' e' : tok_A t -> next_st t code e = (c, code', e') -> A c.
Proof. unfold next_st. destruct t; intros H HE; inversion HE; subst; [exact H|exact A0]. Qed.
Lemma chars_A f : Forall A (fs_data f) -> Forall A (fs_chars f).
Proof. intros H. unfold fs_chars. rewrite <- (firstn_skipn (Z.to_nat (fs_length f)) (fs_data f)) in H. apply Forall_app in H. tauto. Qed.
Lemma toks_A s : Forall A s -> Forall tok_A (chars s).
Proof. unfold chars. intros H. apply Forall_map. exact H. Qed.


(** What the constructor of fixed_string leaves in the array. *)
Lemma fs_fill_st_A P next : to_A P next -> forall k data n it i f code e f' code', Forall P data -> Forall A (fs_data f) ->
  fs_fill_st k next data n it i f code e = Ret (f', code') -> Forall A (fs_data f').
Proof.
  intros HN. induction k as [|k IH]; intros data n it i f code e f' code' HD HF H; cbn [fs_fill_st] in H.
  - inversion H; subst. exact HF.
  - bind_in H. destruct a as [t it']. apply (HN _ _ _ _ _ HD) in E.
    destruct (next_st t code e) as [[c code1] e1] eqn:ES. apply (next_st_A _ _ _ _ _ _ E) in ES.
    bind_in H. apply (wr_forall _ _ _ _ _ HF ES) in E0.
    destruct ((c =? 0) || negb (ok code1)); [inversion H; subst; exact E0|].
    eapply (IH data n it' (i + 1) (mkfs (fs_length f + 1) a)); [exact HD|exact E0|exact H].
Qed.
Lemma fs_make_st_A P next n data code f code' : to_A P next -> Forall P data -> fs_make_st next n data code = Ret (f, code') -> Forall A (fs_data f).
Proof.
  intros HN HD H. unfold fs_make_st in H. destruct n.
  - inversion H; subst. apply zeros_A.
  - eapply (fs_fill_st_A P next HN); [exact HD| |exact H]. apply zeros_A.
Qed.
Lemma fs_fill_A P next : to_A P next -> forall k data n it i f f', Forall P data -> Forall A (fs_data f) ->
  fs_fill k next data n it i f = Ret f' -> Forall A (fs_data f').
Proof.
  intros HN. induction k as [|k IH]; intros data n it i f f' HD HF H; cbn [fs_fill] in H.
  - inversion H; subst. exact HF.
  - bind_in H. destruct a as [t it']. apply (HN _ _ _ _ _ HD) in E. destruct t as [c|]; [|discriminate H].
    bind_in H. apply (wr_forall _ _ _ _ _ HF E) in E0.
    destruct (c =? 0); [inversion H; subst; exact E0|].
    eapply (IH data n it' (i + 1) (mkfs (fs_length f + 1) a)); [exact HD|exact E0|exact H].
Qed.
Lemma fs_make_A P next n data f : to_A P next -> Forall P data -> fs_make next n data = Ret f -> Forall A (fs_data f).
Proof. intros HN HD H. eapply (fs_fill_A P next HN); [exact HD| |exact H]. apply zeros_A. Qed.
Lemma tokens_from_A P next s : to_A P next -> Forall P s -> forall k it ts, tokens_from k next s it = Ret ts -> Forall tok_A ts.
Proof.
  intros HN HD. induction k as [|k IH]; intros it ts H; cbn [tokens_from] in H; destruct (it <? zlen s); try discriminate H;
    try (inversion H; constructor).
  bind_in H. destruct a as [t it']. bind_in H. inversion H; subst. constructor; [exact (HN _ _ _ _ _ HD E)|exact (IH _ _ E0)].
Qed.
Lemma tokens_A P next s ts : to_A P next -> Forall P s -> tokens next s = Ret ts -> Forall tok_A ts.
Proof. intros HN HD H. exact (tokens_from_A P next s HN HD _ _ _ H). Qed.

(** The buffers. *)
Lemma to_hex_A : forall k value i j p p', Forall A p -> to_hex_loop k value i j p = Ret p' -> Forall A p'.
Proof.
  induction k as [|k IH]; intros value i j p p' HP H; cbn [to_hex_loop] in H; [inversion H; subst; exact HP|].
  bind_in H. apply (rd_ok _ _ _ _ Ahex) in E. bind_in H. apply (wr_forall _ _ _ _ _ HP E) in E0. bind_in H.
  apply (wr_forall _ _ _ _ _ E0 A0) in E1. exact (IH _ _ _ _ _ E1 H).
Qed.
Lemma copy_part_A l ps n ps' : Forall A l -> Forall (Forall A) ps -> copy_part l ps n = Ret ps' -> Forall (Forall A) ps'.
Proof.
  intros HL HP H. unfold copy_part in H. bind_in H. apply (rd_ok _ _ _ _ HP) in E.
  do 4 (bind_in H; match goal with K : rd l _ = Ret _ |- _ => apply (rd_ok _ _ _ _ HL) in K end; bind_in H;
        match goal with K : wr ?p _ ?c = Ret _, A : Forall A ?p, B : A ?c |- _ => apply (wr_forall _ _ _ _ _ A B) in K end).
  eapply wr_forall; [exact HP| |exact H]. assumption.
Qed.
Lemma split_loop_A : forall ts ps l pc s pv h e x r e' pc', Forall tok_A ts -> Forall (Forall A) ps -> Forall A l ->
  split_loop_st ts ps l pc s pv h e x = Ret (r, e', pc') -> match r with Some (ps', l', _) => Forall (Forall A) ps' /\ Forall A l' | None => True end.
Proof.
  induction ts as [|t ts IH]; intros ps l pc s pv h e x r e' pc' HT HP HL H; cbn [split_loop_st] in H.
  - inversion H; subst. tauto.
  - inversion HT; subst. destruct (next_st t e x) as [[c e1] x1] eqn:ES. apply (next_st_A _ _ _ _ _ _ H2) in ES.
    destruct (negb (ok e1)); [inversion H; exact I|].
    destruct (pc >? 8); [inversion H; exact I|]. destruct (negb (c =? 58)).
    + destruct (s >? 15); [inversion H; exact I|]. bind_in H. apply (wr_forall _ _ _ _ _ HL ES) in E. bind_in H.
      apply (wr_forall _ _ _ _ _ E A0) in E0. eapply IH; [exact H3|exact HP|exact E0|exact H].
    + destruct (s >? 4); [inversion H; exact I|]. bind_in H. apply (copy_part_A _ _ _ _ HL HP) in E. bind_in H.
      apply (wr_forall _ _ _ _ _ HL A0) in E0. eapply IH; [exact H3|exact E|exact E0|exact H].
Qed.
Lemma net_split_A m : forall ts a s h nm code v r code' v', Forall tok_A ts -> Forall A a ->
  net_split_st m ts a s h nm code v = Ret (r, code', v') -> match r with Some (a', _) => Forall A a' | None => True end.
Proof.
  induction ts as [|t ts IH]; intros a s h nm code v r code' v' HT HI H; cbn [net_split_st] in H.
  - inversion H; subst. exact HI.
  - inversion HT; subst. destruct (next_st t code v) as [[c e1] x1] eqn:ES. apply (next_st_A _ _ _ _ _ _ H2) in ES.
    destruct (negb (ok e1)); [inversion H; exact I|]. destruct ((c =? 47) && h); [inversion H; exact I|].
    destruct ((c =? 47) && (zlen ts =? 0)); [inversion H; exact I|].
    bind_in H. destruct a0 as [a1 s1].
    assert (HA : Forall A a1).
    { destruct (negb (if c =? 47 then true else h)); [|inversion E; subst; exact HI]. bind_in E. inversion E; subst.
      exact (wr_forall _ _ _ _ _ HI ES E0). }
    destruct (s1 >? m); [inversion H; subst; exact HA|]. eapply IH; [exact H3|exact HA|exact H].
Qed.

Section Same.
Context (b : build).
Notation g := (b_cfg b).
Notation inner := (inner_b b).
Hypothesis same : forall data n it, Forall A data -> inner data n it = char_next data n it.

Lemma scope_loop_A : forall ts pos ei sc id i e v r, Forall tok_A ts -> Forall A id ->
  scope_loop_b b ts pos ei sc id i e v = Ret r -> Forall A (snd (fst (fst r))).
Proof.
  induction ts as [|t ts IH]; intros pos ei sc id i e v r HT HI H; cbn [scope_loop_b] in H.
  - bind_in H. destruct (sc && _); inversion H; subst; exact HI.
  - inversion HT; subst. destruct (next_st t e v) as [[c e1] x1] eqn:ES. apply (next_st_A _ _ _ _ _ _ H2) in ES.
    destruct (negb (ok e1)); [inversion H; subst; exact HI|].
    destruct (negb sc && negb (c =? 37)); [eapply IH; [exact H3|exact HI|exact H]|].
    destruct sc; [|eapply IH; [exact H3|exact HI|exact H]].
    destruct (i >? c_max g - 1); [inversion H; subst; exact HI|]. destruct (invalid_symbol_c g c); [inversion H; subst; exact HI|].
    bind_in H. apply (wr_forall _ _ _ _ _ HI ES) in E. eapply IH; [exact H3|exact E|exact H].
Qed.
Lemma change_loop_A : forall ts i str code index e r code' index', Forall tok_A ts -> Forall A str ->
  change_loop_b b ts i str code index e = Ret (r, code', index') -> match r with Some s => Forall A s | None => True end.
Proof.
  induction ts as [|t ts IH]; intros i str code index e r code' index' HT HI H; cbn [change_loop_b] in H.
  - inversion H; subst. exact HI.
  - inversion HT; subst. destruct (next_st t code e) as [[c e1] x1] eqn:ES. apply (next_st_A _ _ _ _ _ _ H2) in ES.
    destruct (negb (ok e1)); [inversion H; exact I|]. destruct (invalid_symbol_c g c); [inversion H; exact I|].
    bind_in H. apply (wr_forall _ _ _ _ _ HI ES) in E. eapply IH; [exact H3|exact E|exact H].
Qed.

(** fixed_string and tokens of a [char] text. *)
Lemma fill_st_same_b : forall k data n it i f code e, Forall A data ->
  fs_fill_st k inner data n it i f code e = fs_fill_st k char_next data n it i f code e.
Proof.
  induction k as [|k IH]; intros data n it i f code e HD; cbn [fs_fill_st]; [reflexivity|]. rewrite same by exact HD.
  destruct (char_next data n it) as [[t it']| |]; cbn [bind]; try reflexivity. destruct (next_st t code e) as [[c code1] e1].
  destruct (wr (fs_data f) i c); cbn [bind]; try reflexivity. destruct ((c =? 0) || negb (ok code1)); [reflexivity|]. apply IH. exact HD.
Qed.
Lemma make_st_same_b n data code : Forall A data -> fs_make_st inner n data code = fs_make_st char_next n data code.
Proof. intros HD. unfold fs_make_st. destruct n; [reflexivity|]. apply fill_st_same_b. exact HD. Qed.
Lemma fill_same_b : forall k data n it i f, Forall A data -> fs_fill k inner data n it i f = fs_fill k char_next data n it i f.
Proof.
  induction k as [|k IH]; intros data n it i f HD; cbn [fs_fill]; [reflexivity|]. rewrite same by exact HD.
  destruct (char_next data n it) as [[t it']| |]; cbn [bind]; try reflexivity. destruct t as [c|]; [|reflexivity].
  destruct (wr (fs_data f) i c); cbn [bind]; try reflexivity. destruct (c =? 0); [reflexivity|]. apply IH. exact HD.
Qed.
Lemma nx_fill_same_b : forall k data n it i f, Forall A data -> nx_fs_fill k inner data n it i f = fs_fill k char_next data n it i f.
Proof.
  induction k as [|k IH]; intros data n it i f HD; cbn [nx_fs_fill fs_fill]; [reflexivity|]. rewrite same by exact HD. unfold char_next at 1 2.
  destruct (rd data it) as [c| |]; cbn [bind]; try reflexivity. change (nx_next (Ch c)) with c.
  destruct (wr (fs_data f) i c); cbn [bind]; try reflexivity. destruct (c =? 0); [reflexivity|]. apply IH. exact HD.
Qed.
Lemma make_same_b n data : Forall A data -> fs_make_b b inner n data = fs_make char_next n data.
Proof.
  intros HD. unfold fs_make_b. destruct (b_throws b); [apply fill_same_b; exact HD|]. unfold nx_fs_make. destruct n; [reflexivity|]. apply nx_fill_same_b. exact HD.
Qed.
Lemma tokens_same_b s : Forall A s -> tokens inner s = Ret (chars s).
Proof.
  intros HD. rewrite <- char_tokens. unfold tokens. generalize (length s) 0.
  induction n as [|k IH]; intros it; cbn [tokens_from]; destruct (it <? zlen s); try reflexivity. rewrite same by exact HD.
  destruct (char_next s (zlen s) it) as [[t it']| |]; cbn [bind]; try reflexivity. rewrite IH. reflexivity.
Qed.
Lemma char_to_A : to_A A char_next.
Proof. intros data n it t it' HD H. unfold char_next in H. bind_in H. inversion H; subst. exact (rd_ok _ _ _ _ HD E). Qed.

(** The parts of a text. *)
Lemma v4_array_same_b data code : Forall A data -> v4_array_i inner data code = v4_array_st data code.
Proof.
  intros HD. unfold v4_array_i, v4_array_st. rewrite make_st_same_b by exact HD.
  destruct (fs_make_st char_next 16 data code) as [[f code']| |] eqn:E; cbn [bind]; try reflexivity.
  rewrite tokens_same_b by (apply chars_A; exact (fs_make_st_A _ _ _ _ _ _ _ char_to_A HD E)). reflexivity.
Qed.
Lemma make_parts_same_b : forall ps, Forall (Forall A) ps -> make_parts_b b ps = make_parts ps.
Proof.
  induction ps as [|p ps IH]; intros H; [reflexivity|]. inversion H; subst. cbn [make_parts_b make_parts]. rewrite make_same_b by assumption.
  destruct (fs_make char_next 4 p); cbn [bind]; try reflexivity. rewrite IH by assumption. reflexivity.
Qed.
Lemma nine_A : Forall (Forall A) (repeat (repeat 0 5) 9).
Proof. apply Forall_forall. intros x H. apply repeat_spec in H. subst. apply zeros_A. Qed.
Lemma split_parts_same_b ts pc e : Forall tok_A ts -> split_parts_b b ts pc e = split_parts_st ts pc e.
Proof.
  intros HT. unfold split_parts_b, split_parts_st.
  destruct (split_loop_st ts (repeat (repeat 0 5) 9) (repeat 0 17) 0 0 0 false e 0) as [[[st e1] pc1]| |] eqn:E; cbn [bind]; try reflexivity.
  apply split_loop_A in E; [|exact HT|exact nine_A|apply zeros_A]. destruct st as [[[ps l] s]|]; [|reflexivity]. destruct E as [HP HL].
  destruct (pc1 >? 8); [reflexivity|]. destruct (has_dot (Z.to_nat s) 0 l) as [d| |]; cbn [bind]; try reflexivity. destruct d.
  - destruct (pc1 + 1 >=? 8); [reflexivity|]. rewrite v4_array_same_b by exact HL.
    destruct (v4_array_st l e1) as [[q e2]| |]; cbn [bind]; try reflexivity. destruct (v4_to_uint true q) as [n| |]; cbn [bind]; try reflexivity.
    destruct (negb (ok e2)); [reflexivity|].
    destruct (rd ps pc1) as [p| |] eqn:E1; cbn [bind]; try reflexivity. apply (rd_ok _ _ _ _ HP) in E1.
    destruct (to_hex _ p) as [p1| |] eqn:E2; cbn [bind]; try reflexivity. apply to_hex_A in E2; [|exact E1].
    destruct (wr ps pc1 p1) as [ps1| |] eqn:E3; cbn [bind]; try reflexivity. apply (wr_forall _ _ _ _ _ HP E2) in E3.
    destruct (rd ps1 (pc1 + 1)) as [p2| |] eqn:E4; cbn [bind]; try reflexivity. apply (rd_ok _ _ _ _ E3) in E4.
    destruct (to_hex _ p2) as [p3| |] eqn:E5; cbn [bind]; try reflexivity. apply to_hex_A in E5; [|exact E4].
    destruct (wr ps1 (pc1 + 1) p3) as [ps2| |] eqn:E6; cbn [bind]; try reflexivity. apply (wr_forall _ _ _ _ _ E3 E5) in E6.
    destruct (pc1 + 1 + 1 <? 3); [reflexivity|]. rewrite make_parts_same_b by exact E6. reflexivity.
  - destruct (s >? 4); [reflexivity|]. destruct (copy_part l ps pc1) as [ps1| |] eqn:E1; cbn [bind]; try reflexivity.
    apply copy_part_A in E1; [|exact HL|exact HP]. destruct (pc1 + 1 <? 3); [reflexivity|]. rewrite make_parts_same_b by exact E1. reflexivity.
Qed.
Lemma firstn_A n (ts : list tok) : Forall tok_A ts -> Forall tok_A (firstn n ts).
Proof. intros H. rewrite <- (firstn_skipn n ts) in H. apply Forall_app in H. tauto. Qed.

(** Scope ids. *)
Definition scope_end_c (r : Z * bool * list Z) : res (Z * list Z) :=
  let '(end_ip, scope, scope_id) := r in s0 <- rd scope_id 0 ;; if (scope : bool) && (s0 =? 0) then Err invalid_scope_id 0 else Ret (end_ip, scope_id).
Lemma scope_loop_sim_b : forall ts pos e sc sid i, Forall tok_real ts ->
  match bind (split_scope_loop_c g ts pos e sc sid i) scope_end_c with
  | Ret (e', s') => scope_loop_b b ts pos e sc sid i no_error 0 = Ret (e', s', no_error, 0)
  | Err c x => c <> no_error /\ exists a q, scope_loop_b b ts pos e sc sid i no_error 0 = Ret (a, q, c, x)
  | UB u => scope_loop_b b ts pos e sc sid i no_error 0 = UB u
  end.
Proof.
  induction ts as [|[c|er x] ts IH]; intros pos e sc sid i H; cbn [split_scope_loop_c scope_loop_b next_st bind scope_end_c].
  - pose proof (quiet_rd sid 0) as Q. destruct (rd sid 0) as [s0| |]; cbn [bind]; [|contradiction|reflexivity].
    destruct (sc && (s0 =? 0)); [|reflexivity]. split; [discriminate|]. do 2 eexists. reflexivity.
  - inversion H as [|? ? _ H']. subst. rewrite ok_ok. cbn [negb].
    destruct (negb sc && negb (c =? 37)); [apply IH; exact H'|]. destruct sc; [|apply IH; exact H'].
    destruct (i >? c_max g - 1); [cbn [bind]; split; [discriminate|]; do 2 eexists; reflexivity|].
    destruct (invalid_symbol_c g c); [cbn [bind]; split; [discriminate|]; do 2 eexists; reflexivity|].
    pose proof (quiet_wr sid i c) as Q. destruct (wr sid i c) as [s'| |]; cbn [bind]; [|contradiction|reflexivity]. apply IH. exact H'.
  - inversion H as [|? ? T _]. subst. cbn in T. rewrite (ok_no _ T). split; [exact T|]. do 2 eexists. reflexivity.
Qed.
Lemma char_make_sim n data : match fs_make char_next n data with
  | Ret f => fs_make_st char_next n data no_error = Ret (f, no_error) | Err _ _ => False | UB u => fs_make_st char_next n data no_error = UB u end.
Proof.
  pose proof (fs_make_sim char_next n data no_error char_reader_real) as F. pose proof (fs_fill_quiet n data (Z.of_nat n) 0 0 (fs_empty n)) as Q.
  change (fs_fill n char_next data (Z.of_nat n) 0 0 (fs_empty n)) with (fs_make char_next n data) in Q.
  destruct (fs_make char_next n data); cbn [fs_outcome] in *; [exact F|contradiction|exact F].
Qed.
Lemma v6_string_sim_b ts : Forall tok_A ts -> Forall tok_real ts -> outcome (repeat 0 16, []) (v6_from_string_c g true ts) (v6_string_b b ts no_error 0).
Proof.
  intros HA H. destruct ts as [|t ts]; [reflexivity|]. unfold v6_from_string_c, v6_string_b, split_scope_id_c. cbv zeta. remember (t :: ts) as l eqn:El. clear El t ts.
  pose proof (scope_loop_sim_b l 0 0 false (repeat 0 (Z.to_nat (c_max g + 1))) 0 H) as G. fold scope_end_c in *.
  change (bind (split_scope_loop_c g l 0 0 false (repeat 0 (Z.to_nat (c_max g + 1))) 0) _) with (bind (split_scope_loop_c g l 0 0 false (repeat 0 (Z.to_nat (c_max g + 1))) 0) scope_end_c) at 1.
  destruct (bind (split_scope_loop_c g l 0 0 false (repeat 0 (Z.to_nat (c_max g + 1))) 0) scope_end_c) as [[e sid]|c x|u]; cbn [bind].
  2:{ destruct G as (E & a & q & ->). cbn [bind]. rewrite (ok_no _ E). reflexivity. }
  2:{ rewrite G. reflexivity. }
  pose proof G as GA. apply scope_loop_A in GA; [|exact HA|apply zeros_A]. cbn [fst snd] in GA.
  rewrite G. cbn [bind]. rewrite ok_ok. cbn [negb]. clear G. rewrite split_parts_same_b by (apply firstn_A; exact HA).
  pose proof (split_parts_sim (firstn (Z.to_nat e) l) 0 (firstn_real _ _ H)) as G.
  destruct (split_parts true (firstn (Z.to_nat e) l)) as [[fs n]|c x|u] eqn:EP; cbn [bind].
  2:{ destruct G as (E & ->). cbn [bind]. rewrite (ok_no _ E). reflexivity. }
  2:{ rewrite G. reflexivity. }
  rewrite G. cbn [bind]. rewrite ok_ok. cbn [negb]. clear G. apply split_parts_count in EP.
  pose proof (bound_sim fs n) as G. destruct (get_parts_bound fs n) as [[[hi lo] sk]|c x|u] eqn:EB; cbn [bind].
  2:{ destruct G as (E & -> & ->). cbn [bind]. rewrite (ok_no _ E). reflexivity. }
  2:{ rewrite G. reflexivity. }
  rewrite G. cbn [bind]. rewrite ok_ok. cbn [negb]. clear G. apply bound_range in EB; [|exact EP]. destruct EB as (B1 & B2 & B3 & B4).
  pose proof (parse_parts_sim fs n hi lo sk B1 B2 B3 B4) as G. destruct (parse_parts fs n hi lo sk) as [q|c x|u]; cbn [bind].
  2:{ destruct G as (E & -> & ->). cbn [bind]. rewrite (ok_no _ E). reflexivity. }
  2:{ rewrite G. reflexivity. }
  rewrite G. cbn [bind]. rewrite ok_ok. cbn [negb]. clear G. destruct (c_max g >? 0); [|eexists; reflexivity].
  pose proof (quiet_rd sid 0) as Q. destruct (rd sid 0) as [s0| |]; cbn [bind]; [|contradiction|reflexivity]. destruct (negb (s0 =? 0)); [|eexists; reflexivity].
  rewrite make_st_same_b by exact GA. pose proof (char_make_sim (Z.to_nat (c_max g)) sid) as F.
  destruct (fs_make char_next (Z.to_nat (c_max g)) sid) as [f| |]; cbn [bind] in *; [|contradiction|rewrite F; reflexivity].
  rewrite F. cbn [bind]. eexists. reflexivity.
Qed.
End Same.
End Chars.
