(** Which codes the parsers report: those of the three lists below, or the code of an
    undecodable symbol of the text. *)
From Coq Require Import String.
From Verif Require Import Base UnicodeModel FixedStringModel V4Model V6Model AddressModel NetworkModel AnyModel NetWitness SpecCodes.
Close Scope string_scope.

Section From.
Variable P : ec -> Prop.
Hypothesis P4 : forall e, In e v4_codes -> P e.
Hypothesis P6 : forall e, In e v6_codes -> P e.
Hypothesis PN : forall e, In e slash_codes -> P e.
Hypothesis PM : P netmask_pattern_mixes_zeroes_and_ones.
Definition from {A} (r : res A) : Prop := match r with Err e _ => P e | _ => True end.
Definition tok_from (t : tok) : Prop := match t with Bad e _ => P e | _ => True end.
Ltac pc := solve [exact I | discriminate | apply P4; unfold v4_codes; cbn [In]; tauto | apply P6; unfold v6_codes; cbn [In]; tauto | apply PN; unfold slash_codes; cbn [In]; tauto | exact PM].

Lemma from_bind {A B} (m : res A) (k : A -> res B) : from m -> (forall a, m = Ret a -> from (k a)) -> from (bind m k).
Proof. destruct m; cbn; auto. Qed.
Lemma from_rd {A} (a : list A) i : from (rd a i).
Proof. unfold rd. destruct (_ <? _); [exact I|]. destruct (nth_error _ _); exact I. Qed.
Lemma from_wr {A} (a : list A) i x : from (wr a i x).
Proof. unfold wr. destruct (_ <? _); [exact I|]. destruct (upd _ _ _); exact I. Qed.
Lemma from_int32 x : from (int32 x).
Proof. unfold int32. destruct (_ && _); exact I. Qed.
Lemma from_assert b : from (assert b).
Proof. destruct b; exact I. Qed.
Ltac rl :=
  repeat first
    [ exact I
    | pc
    | assumption
    | apply from_rd | apply from_wr | apply from_int32 | apply from_assert
    | apply from_bind; [|intros ? _]
    | match goal with
      | |- context [match ?x with _ => _ end] => destruct x
      | H : Forall _ (_ :: _) |- _ => inversion_clear H
      | IH : context [from _] |- from _ => apply IH
      end ].

Lemma v4_loop_from : forall ts o f d oc i, Forall tok_from ts -> from (v4_parse_loop ts o f d oc i).
Proof. induction ts as [|[c|e x] ts IH]; intros o f d oc i H; cbn [v4_parse_loop]; rl. Qed.
Lemma v4_from ts : Forall tok_from ts -> from (v4_from_string ts).
Proof. intros H. unfold v4_from_string. destruct ts; [pc|]. apply v4_loop_from. exact H. Qed.
Lemma chars_from s : Forall tok_from (chars s).
Proof. unfold chars. apply Forall_map, Forall_forall. intros x _. exact I. Qed.
Lemma firstn_from n ts : Forall tok_from ts -> Forall tok_from (firstn n ts).
Proof. intros H. revert n. induction H; intros [|n]; cbn; constructor; auto. Qed.

Lemma fs_fill_char_from : forall k data n it i f, from (fs_fill k char_next data n it i f).
Proof.
  induction k as [|k IH]; intros data n it i f; cbn [fs_fill]; [exact I|]. unfold char_next.
  destruct (rd data it) as [c| |] eqn:E; cbn [bind]; [|pose proof (from_rd data it) as R; rewrite E in R; exact R|exact I].
  apply from_bind; [apply from_wr|]. intros d _. destruct (c =? 0); [exact I|apply IH].
Qed.
Lemma fs_make_from n data : from (fs_make char_next n data).
Proof. apply fs_fill_char_from. Qed.

Lemma split_scope_loop_from : forall ts pos e sc s i, Forall tok_from ts -> from (split_scope_loop ts pos e sc s i).
Proof. induction ts as [|[c|e x] ts IH]; intros pos en sc s i H; cbn [split_scope_loop]; rl. Qed.
Lemma split_scope_from ts : Forall tok_from ts -> from (split_scope_id ts).
Proof. intros H. unfold split_scope_id. apply from_bind; [apply split_scope_loop_from; exact H|]. intros ? _. rl. Qed.
Lemma copy_part_from l p n : from (copy_part l p n).
Proof. unfold copy_part. rl. Qed.
Lemma split_loop_from : forall ts p l pc s pr d, Forall tok_from ts -> from (split_loop ts p l pc s pr d).
Proof.
  induction ts as [|[c|e x] ts IH]; intros p l pc s pr d H; cbn [split_loop]; [exact I| |inversion H; assumption].
  inversion H as [|? ? _ H']. subst. destruct (pc >? 8); [destruct (if _ : bool then true else d); pc|].
  destruct (negb (c =? 58)).
  - destruct (s >? 15); [pc|]. apply from_bind; [apply from_wr|]. intros ? _. apply from_bind; [apply from_wr|]. intros ? _. apply IH. exact H'.
  - destruct (s >? 4); [pc|]. apply from_bind; [apply copy_part_from|]. intros ? _. apply from_bind; [apply from_wr|]. intros ? _. apply IH. exact H'.
Qed.
Lemma has_dot_from : forall k i l, from (has_dot k i l).
Proof. induction k as [|k IH]; intros i l; cbn [has_dot]; rl. Qed.
Lemma to_hex_from : forall k v i j r, from (to_hex_loop k v i j r).
Proof. induction k as [|k IH]; intros v i j r; cbn [to_hex_loop]; rl. Qed.
Lemma v4_uint_from le b : from (v4_to_uint le b).
Proof. unfold v4_to_uint. rl. Qed.
Lemma v4_array_from d : from (v4_parse_array d).
Proof. unfold v4_parse_array. apply from_bind; [apply fs_make_from|]. intros f _. apply v4_from, chars_from. Qed.
Lemma make_parts_from : forall ps, from (make_parts ps).
Proof. induction ps as [|p ps IH]; cbn [make_parts]; [exact I|]. apply from_bind; [apply fs_make_from|]. intros f _. rl. Qed.
Lemma split_parts_from le ts : Forall tok_from ts -> from (split_parts le ts).
Proof.
  intros H. unfold split_parts. apply from_bind; [apply split_loop_from; exact H|]. intros [[[ps lp] pc] sy] _.
  destruct (pc >? 8); [rl|]. apply from_bind; [apply has_dot_from|]. intros dot _. apply from_bind.
  - destruct dot.
    + destruct (pc + 1 >=? 8); [pc|]. pose proof (v4_array_from lp) as A. destruct (v4_parse_array lp); [|exact A|exact I].
      apply from_bind; [apply v4_uint_from|]. intros n _. unfold to_hex.
      repeat (apply from_bind; [first [apply from_rd|apply from_wr|apply to_hex_from]|intros ? _]). exact I.
    + destruct (sy >? 4); [pc|]. apply from_bind; [apply copy_part_from|]. intros ? _. exact I.
  - intros [ps' pc'] _. destruct (pc' <? 3); [pc|]. apply from_bind; [apply make_parts_from|]. intros ? _. exact I.
Qed.
Lemma part_empty_from p i : from (part_empty p i).
Proof. unfold part_empty. rl. Qed.
Lemma skip_loop_from : forall k i p pc s, from (skip_loop k i p pc s).
Proof.
  induction k as [|k IH]; intros i p pc s; cbn [skip_loop]; [exact I|]. apply from_bind; [apply part_empty_from|]. intros b _. rl.
Qed.
Lemma bound_from p pc : from (get_parts_bound p pc).
Proof.
  unfold get_parts_bound. apply from_bind; [apply skip_loop_from|]. intros sk _. destruct (negb (sk =? 0)).
  - repeat (apply from_bind; [first [apply part_empty_from|rl]|intros ? _]). rl.
  - destruct (negb (pc =? 8)); [pc|]. apply from_bind; [apply part_empty_from|]. intros e0 _. destruct e0; [pc|].
    apply from_bind; [apply part_empty_from|]. intros e1 _. rl.
Qed.
Lemma parse_part_from : forall cs n i v pc, from (parse_part_loop cs n i v pc).
Proof.
  induction cs as [|c cs IH]; intros n i v pc; cbn [parse_part_loop]; [exact I|]. apply from_bind; [unfold pow16; rl|]. intros pw _. rl.
Qed.
Lemma parts_loop_from : forall k i p pc ix r, from (parts_loop k i p pc ix r).
Proof.
  induction k as [|k IH]; intros i p pc ix r; cbn [parts_loop]; [exact I|]. apply from_bind; [apply from_rd|]. intros ? _.
  apply from_bind; [apply parse_part_from|]. intros ? _. rl.
Qed.
Lemma v6_from le ts : Forall tok_from ts -> from (v6_from_string le ts).
Proof.
  intros H. unfold v6_from_string. destruct ts as [|t ts]; [pc|]. apply from_bind; [apply split_scope_from; exact H|]. intros [e s] _.
  apply from_bind; [apply split_parts_from, firstn_from; exact H|]. intros [ps pc] _.
  apply from_bind; [apply bound_from|]. intros [[hi lo] sk] _. apply from_bind.
  - unfold parse_parts. apply from_bind; [apply parts_loop_from|]. intros [ix r] _. apply from_bind; [apply from_assert|]. intros _ _.
    apply from_bind; [apply parts_loop_from|]. intros [? ?] _. exact I.
  - intros b _. apply from_bind; [apply from_rd|]. intros s0 _. destruct (negb (s0 =? 0)); [|exact I].
    apply from_bind; [apply fs_make_from|]. intros ? _. exact I.
Qed.
Lemma array_from n data : from (fs_make char_next n data).
Proof. apply fs_make_from. Qed.

(** *** Netmasks *)
Lemma prefix_ip_from x : from (prefix_from_ip_uint32 x).
Proof.
  unfold prefix_from_ip_uint32, count_righthand_zero_bits. apply from_bind.
  - destruct (x =? 0); [exact I|]. apply from_bind; [|intros ? _; exact I]. generalize 0. generalize (Z.land (w32 (Z.lnot x)) (w32 (x - 1))).
    generalize 32%nat. induction n as [|n IH]; intros y z; cbn [popcount_loop]; destruct (y =? 0); try exact I. apply IH.
  - intros t _. unfold shr32, shl32. rl.
Qed.
Lemma v4_prefix_from le p : from (v4_from_prefix le p).
Proof. unfold v4_from_prefix, shr32. rl. Qed.
Lemma v6_prefix_from p : from (v6_from_prefix p).
Proof.
  unfold v6_from_prefix. apply from_bind.
  - generalize (repeat 0 16). generalize 0. generalize (Z.to_nat (Z.min (Z.shiftr p 3) 17)).
    induction n as [|n IH]; intros i l; cbn [prefix_ones]; [exact I|]. apply from_bind; [apply from_wr|]. intros ? _. apply IH.
  - intros b _. rl.
Qed.
Lemma v4_mask_from le ts : Forall tok_from ts -> from (v4_parse_netmask le ts).
Proof.
  intros H. unfold v4_parse_netmask. apply from_bind.
  + clear -H. generalize 0. induction ts as [|[c|e x] ts IH]; intros p; cbn [netmask_digits]; rl.
  + intros [b p] _. apply from_bind.
    * destruct b; [rl|]. destruct (v4_from_string ts); [|pc|exact I]. apply from_bind; [apply v4_uint_from|]. intros ip _.
      pose proof (prefix_ip_from ip) as Q. destruct (prefix_from_ip_uint32 ip); [exact I| |exact I].
      pose proof (prefix_ip_from (Z.lxor ip v4_all_ones)) as Q2. destruct (prefix_from_ip_uint32 (Z.lxor ip v4_all_ones)); [exact I|exact Q2|exact I].
    * intros q _. apply from_bind; [apply v4_prefix_from|]. intros ? _. exact I.
Qed.
Lemma v6_mask_from ts : Forall tok_from ts -> from (v6_parse_netmask ts).
Proof.
  intros H. unfold v6_parse_netmask. apply from_bind.
  + clear -H PN. generalize 0. induction ts as [|[c|e x] ts IH]; intros p; cbn [v6_netmask_digits]; rl.
  + intros p _. destruct (p >? 128); [pc|]. apply from_bind; [apply v6_prefix_from|]. intros ? _. exact I.
Qed.

(** *** Networks *)
Lemma net_split_from : forall ts M a s h nm, Forall tok_from ts -> from (net_split M ts a s h nm).
Proof.
  induction ts as [|[c|e x] ts IH]; intros M a s h nm H; cbn [net_split]; [exact I| |inversion H; assumption].
  inversion H as [|? ? _ H']. subst. destruct ((c =? 47) && h); [pc|]. destruct ((c =? 47) && (zlen ts =? 0)); [pc|].
  apply from_bind; [rl|]. intros [a' s'] _. destruct (s' >? M); [exact I|]. apply IH. exact H'.
Qed.
Lemma split_mask_from : forall ts M a s h nm a' nm', Forall tok_from ts -> Forall tok_from nm -> net_split M ts a s h nm = Ret (a', nm') -> Forall tok_from nm'.
Proof.
  induction ts as [|[c|e x] ts IH]; intros M a s h nm a' nm' H Hn E; cbn [net_split] in E; [congruence| |pc].
  inversion H as [|? ? _ H']. subst. destruct ((c =? 47) && h); [pc|]. destruct ((c =? 47) && (zlen ts =? 0)); [pc|].
  match type of E with bind ?m _ = _ => destruct m as [[a2 s2]| |] end; cbn [bind] in E; try pc.
  destruct (s2 >? M).
  - injection E as _ <-. destruct (c =? 47); assumption.
  - eapply IH; [exact H'| |exact E]. destruct (c =? 47); assumption.
Qed.
Lemma strict_from v a m s : from (strict_netmask v a m s).
Proof.
  unfold strict_netmask. destruct v.
  - unfold v4_strict_netmask. apply from_bind; [|intros ? _; exact I]. apply from_bind; [apply v4_uint_from|]. intros ? _.
    apply from_bind; [apply v4_uint_from|]. intros ? _. rl.
  - apply from_bind; [|intros [? ?] _; exact I]. unfold v6_strict_netmask.
    apply from_bind; [|intros b _; rl]. generalize (repeat 0 16). generalize 0. generalize 16%nat.
    induction n as [|n IH]; intros i l; cbn [and_loop]; rl.
Qed.
Lemma net_parse_from v ts strict : (forall m, Forall tok_from m -> from (parse_netmask v m)) -> (forall d, from (addr_parse_array v d)) ->
  Forall tok_from ts -> from (net_parse_res v ts strict).
Proof.
  intros HM HA H. unfold net_parse_res. apply from_bind; [apply net_split_from; exact H|]. intros [a m] E.
  apply from_bind; [apply HM; apply split_mask_from in E; [exact E|exact H|constructor]|]. intros [nm p] _.
  apply from_bind; [pose proof (HA a) as A; destruct (addr_parse_array v a); auto|]. intros ad _.
  apply from_bind; [pose proof (strict_from v ad nm strict) as A; destruct (strict_netmask v ad nm strict); auto|]. intros ? _. exact I.
Qed.
End From.

Definition among (l : list ec) (ts : list tok) (e : ec) : Prop := In e l \/ exists x, In (Bad e x) ts.
Lemma toks_among l ts : Forall (tok_from (among l ts)) ts.
Proof. apply Forall_forall. intros [c|e x] H; [exact I|]. right. exists x. exact H. Qed.
Lemma from_err {A} P (r : res A) e x : from P r -> r = Err e x -> P e.
Proof. intros H ->. exact H. Qed.
Lemma v4_in_v6 e : In e v4_codes -> In e v6_codes.
Proof. unfold v4_codes, v6_codes; cbn [In]. tauto. Qed.

Lemma v4_codes_ok ts e x : v4_from_string ts = Err e x -> In e v4_codes \/ exists y, In (Bad e y) ts.
Proof. apply (from_err (among v4_codes ts)). apply v4_from; [intros c; left; assumption|apply toks_among]. Qed.
Lemma v6_codes_ok ts e x : v6_from_string true ts = Err e x -> In e v6_codes \/ exists y, In (Bad e y) ts.
Proof.
  apply (from_err (among v6_codes ts)). apply v6_from; [intros c H; left; apply v4_in_v6; exact H|intros c; left; assumption|apply toks_among].
Qed.
Lemma addr_codes_gen (P : ec -> Prop) v ts : (forall e, In e (addr_codes v) -> P e) -> Forall (tok_from P) ts -> from P (addr_parse v ts).
Proof.
  intros HP H. destruct v; cbn [addr_parse addr_codes] in *.
  - apply from_bind; [apply v4_from; assumption|]. intros ? _. exact I.
  - apply from_bind; [apply v6_from; [intros e K; apply HP, v4_in_v6, K|assumption..]|]. intros [? ?] _. exact I.
Qed.
Lemma net_codes_ok v ts strict e x : net_parse_res v ts strict = Err e x -> In e (net_codes v) \/ exists y, In (Bad e y) ts.
Proof.
  apply (from_err (among (net_codes v) ts)). apply net_parse_from; [intros c H; left; unfold net_codes; rewrite !in_app_iff; tauto| | |apply toks_among].
  - intros m Hm. unfold parse_netmask. apply from_bind; [|intros [? ?] _; exact I]. destruct v.
    + apply v4_mask_from; [intros c H; left; unfold net_codes; rewrite !in_app_iff; tauto|left; unfold net_codes; rewrite !in_app_iff; cbn [In]; tauto|exact Hm].
    + apply v6_mask_from; [intros c H; left; unfold net_codes; rewrite !in_app_iff; tauto|exact Hm].
  - intros d. unfold addr_parse_array. apply from_bind; [apply fs_make_from|]. intros f _. apply addr_codes_gen; [intros c H; left; unfold net_codes; rewrite !in_app_iff; tauto|apply chars_from].
Qed.

(** *** Each code is reported for some text *)
Definition code_is {A} (e : ec) (r : res A) : bool := match r with Err c _ => ec_eqb c e | _ => false end.
Lemma all_reached {A} (f : list Z -> res A) (l : list ec) (ss : list (list Z)) :
  forallb (fun p => code_is (fst p) (f (snd p))) (combine l ss) = true -> List.length l = List.length ss -> forall e, In e l -> exists s x, f s = Err e x.
Proof.
  revert ss. induction l as [|c l IH]; intros [|s ss] H L e K; try discriminate; [contradiction|]. cbn [combine forallb fst snd] in H. apply andb_true_iff in H. destruct H as [H H'].
  destruct K as [<-|K].
  - exists s. unfold code_is in H. destruct (f s) as [|c' x|]; try discriminate. exists x. unfold ec_eqb in H. destruct (ec_eq_dec c' c); [subst; reflexivity|discriminate].
  - apply (IH ss); [exact H'|cbn in L; lia|exact K].
Qed.
Definition v4_bad : list (list Z) := [[]; str "1.2.3"; str "1..2.3"; str "01.2.3.4"; str "1.2.3333.4"; str "1.2.256.4"; str "1.2.x.4"].
Definition v6_bad : list (list Z) := [[]; str "1:2"; str "1:2:3:4:5:6:7:8:9:a"; str "12345::1"; str "::g"; str "1:2:3:4"; str ":1:2:3:4:5:6:7"; str "1:2:3:4:5:6:7:";
  str "1:2:3:4:5:6:7::8"; str "1::2::3"; str "fe80::%12345678901234567"; str "fe80::%"; str "::1.2.3"; str "::1..2.3"; str "::01.2.3.4"; str "::1.2.3333.4"; str "::1.2.256.4"; str "::1.2.x.4"].
Definition slash (s : list Z) : list Z := s ++ str "/8".
Definition bad_nets (v : ver) : list (list Z) := match v with
  | V4 => map slash v4_bad ++ [str "1.2.3.4/8/9"; str "1.2.3.4/"; str "1.2.3.4/33"; str "1.2.3.4/8"; str "1.2.3.4/255.0.255.0"]
  | V6 => map slash v6_bad ++ [str "::/8/9"; str "::/"; str "::/129"; str "::1/8"] end.
Lemma v4_codes_all e : In e v4_codes -> exists s x, v4_from_string (chars s) = Err e x.
Proof. apply (all_reached (fun s => v4_from_string (chars s)) v4_codes v4_bad); vm_compute; reflexivity. Qed.
Lemma v6_codes_all e : In e v6_codes -> exists s x, v6_from_string true (chars s) = Err e x.
Proof. apply (all_reached (fun s => v6_from_string true (chars s)) v6_codes v6_bad); vm_compute; reflexivity. Qed.
Lemma net_codes_all v e : In e (net_codes v) -> exists s x, net_parse_res v (chars s) true = Err e x.
Proof. destruct v; [apply (all_reached (fun s => net_parse_res V4 (chars s) true) _ (bad_nets V4))|apply (all_reached (fun s => net_parse_res V6 (chars s) true) _ (bad_nets V6))]; vm_compute; reflexivity. Qed.
