(** Errors reported by the parsers carry the code of a parse error. *)
From Verif Require Import Base UnicodeModel FixedStringModel V4Model V6Model AddressModel NetworkModel ErrorModel SpecError.

Definition parse_code (e : ec) : Prop :=
  match e with
  | no_error | invalid_version | invalid_prefixlen_diff | new_prefix_must_be_shorter | new_prefix_must_be_longer
  | cannot_set_prefixlen_diff_and_new_prefix | not_contained_network => False
  | _ => True
  end.
Definition tame {A} (r : res A) : Prop := match r with Err e _ => parse_code e | _ => True end.
Definition tok_tame (t : tok) : Prop := match t with Bad e _ => parse_code e | _ => True end.

Lemma tame_bind {A B} (m : res A) (k : A -> res B) : tame m -> (forall a, m = Ret a -> tame (k a)) -> tame (bind m k).
Proof. destruct m; cbn; auto. Qed.
Lemma tame_rd {A} (a : list A) i : tame (rd a i).
Proof. unfold rd. destruct (_ <? _); [exact I|]. destruct (nth_error _ _); exact I. Qed.
Lemma tame_wr {A} (a : list A) i x : tame (wr a i x).
Proof. unfold wr. destruct (_ <? _); [exact I|]. destruct (upd _ _ _); exact I. Qed.
Lemma tame_int32 x : tame (int32 x).
Proof. unfold int32. destruct (_ && _); exact I. Qed.
Lemma tame_assert b : tame (assert b).
Proof. destruct b; exact I. Qed.
Ltac rl :=
  repeat first
    [ exact I
    | (exact I || discriminate)
    | assumption
    | apply tame_rd | apply tame_wr | apply tame_int32 | apply tame_assert
    | apply tame_bind; [|intros ? _]
    | match goal with
      | |- context [match ?x with _ => _ end] => destruct x
      | H : Forall _ (_ :: _) |- _ => inversion_clear H
      | IH : context [tame _] |- tame _ => apply IH
      end ].

Lemma v4_loop_tame : forall ts o f d oc i, Forall tok_tame ts -> tame (v4_parse_loop ts o f d oc i).
Proof. induction ts as [|[c|e x] ts IH]; intros o f d oc i H; cbn [v4_parse_loop]; rl. Qed.
Lemma v4_tame ts : Forall tok_tame ts -> tame (v4_from_string ts).
Proof. intros H. unfold v4_from_string. destruct ts; [(exact I || discriminate)|]. apply v4_loop_tame. exact H. Qed.
Lemma chars_tame s : Forall tok_tame (chars s).
Proof. unfold chars. apply Forall_map, Forall_forall. intros x _. exact I. Qed.
Lemma firstn_tame n ts : Forall tok_tame ts -> Forall tok_tame (firstn n ts).
Proof. intros H. revert n. induction H; intros [|n]; cbn; constructor; auto. Qed.

Lemma fs_fill_char_tame : forall k data n it i f, tame (fs_fill k char_next data n it i f).
Proof.
  induction k as [|k IH]; intros data n it i f; cbn [fs_fill]; [exact I|]. unfold char_next.
  destruct (rd data it) as [c| |] eqn:E; cbn [bind]; [|pose proof (tame_rd data it) as R; rewrite E in R; exact R|exact I].
  apply tame_bind; [apply tame_wr|]. intros d _. destruct (c =? 0); [exact I|apply IH].
Qed.
Lemma fs_make_tame n data : tame (fs_make char_next n data).
Proof. apply fs_fill_char_tame. Qed.

Lemma split_scope_loop_tame : forall ts pos e sc s i, Forall tok_tame ts -> tame (split_scope_loop ts pos e sc s i).
Proof. induction ts as [|[c|e x] ts IH]; intros pos en sc s i H; cbn [split_scope_loop]; rl. Qed.
Lemma split_scope_tame ts : Forall tok_tame ts -> tame (split_scope_id ts).
Proof. intros H. unfold split_scope_id. apply tame_bind; [apply split_scope_loop_tame; exact H|]. intros ? _. rl. Qed.
Lemma copy_part_tame l p n : tame (copy_part l p n).
Proof. unfold copy_part. rl. Qed.
Lemma split_loop_tame : forall ts p l pc s pr d, Forall tok_tame ts -> tame (split_loop ts p l pc s pr d).
Proof.
  induction ts as [|[c|e x] ts IH]; intros p l pc s pr d H; cbn [split_loop]; [exact I| |inversion H; assumption].
  inversion H as [|? ? _ H']. subst. destruct (pc >? 8); [destruct (if _ : bool then true else d); (exact I || discriminate)|].
  destruct (negb (c =? 58)).
  - destruct (s >? 15); [(exact I || discriminate)|]. apply tame_bind; [apply tame_wr|]. intros ? _. apply tame_bind; [apply tame_wr|]. intros ? _. apply IH. exact H'.
  - destruct (s >? 4); [(exact I || discriminate)|]. apply tame_bind; [apply copy_part_tame|]. intros ? _. apply tame_bind; [apply tame_wr|]. intros ? _. apply IH. exact H'.
Qed.
Lemma has_dot_tame : forall k i l, tame (has_dot k i l).
Proof. induction k as [|k IH]; intros i l; cbn [has_dot]; rl. Qed.
Lemma to_hex_tame : forall k v i j r, tame (to_hex_loop k v i j r).
Proof. induction k as [|k IH]; intros v i j r; cbn [to_hex_loop]; rl. Qed.
Lemma v4_uint_tame le b : tame (v4_to_uint le b).
Proof. unfold v4_to_uint. rl. Qed.
Lemma v4_array_tame d : tame (v4_parse_array d).
Proof. unfold v4_parse_array. apply tame_bind; [apply fs_make_tame|]. intros f _. apply v4_tame, chars_tame. Qed.
Lemma make_parts_tame : forall ps, tame (make_parts ps).
Proof. induction ps as [|p ps IH]; cbn [make_parts]; [exact I|]. apply tame_bind; [apply fs_make_tame|]. intros f _. rl. Qed.
Lemma split_parts_tame le ts : Forall tok_tame ts -> tame (split_parts le ts).
Proof.
  intros H. unfold split_parts. apply tame_bind; [apply split_loop_tame; exact H|]. intros [[[ps lp] pc] sy] _.
  destruct (pc >? 8); [rl|]. apply tame_bind; [apply has_dot_tame|]. intros dot _. apply tame_bind.
  - destruct dot.
    + destruct (pc + 1 >=? 8); [(exact I || discriminate)|]. pose proof (v4_array_tame lp) as A. destruct (v4_parse_array lp); [|exact A|exact I].
      apply tame_bind; [apply v4_uint_tame|]. intros n _. unfold to_hex.
      repeat (apply tame_bind; [first [apply tame_rd|apply tame_wr|apply to_hex_tame]|intros ? _]). exact I.
    + destruct (sy >? 4); [(exact I || discriminate)|]. apply tame_bind; [apply copy_part_tame|]. intros ? _. exact I.
  - intros [ps' pc'] _. destruct (pc' <? 3); [(exact I || discriminate)|]. apply tame_bind; [apply make_parts_tame|]. intros ? _. exact I.
Qed.
Lemma part_empty_tame p i : tame (part_empty p i).
Proof. unfold part_empty. rl. Qed.
Lemma skip_loop_tame : forall k i p pc s, tame (skip_loop k i p pc s).
Proof.
  induction k as [|k IH]; intros i p pc s; cbn [skip_loop]; [exact I|]. apply tame_bind; [apply part_empty_tame|]. intros b _. rl.
Qed.
Lemma bound_tame p pc : tame (get_parts_bound p pc).
Proof.
  unfold get_parts_bound. apply tame_bind; [apply skip_loop_tame|]. intros sk _. destruct (negb (sk =? 0)).
  - repeat (apply tame_bind; [first [apply part_empty_tame|rl]|intros ? _]). rl.
  - destruct (negb (pc =? 8)); [(exact I || discriminate)|]. apply tame_bind; [apply part_empty_tame|]. intros e0 _. destruct e0; [(exact I || discriminate)|].
    apply tame_bind; [apply part_empty_tame|]. intros e1 _. rl.
Qed.
Lemma parse_part_tame : forall cs n i v pc, tame (parse_part_loop cs n i v pc).
Proof.
  induction cs as [|c cs IH]; intros n i v pc; cbn [parse_part_loop]; [exact I|]. apply tame_bind; [unfold pow16; rl|]. intros pw _. rl.
Qed.
Lemma parts_loop_tame : forall k i p pc ix r, tame (parts_loop k i p pc ix r).
Proof.
  induction k as [|k IH]; intros i p pc ix r; cbn [parts_loop]; [exact I|]. apply tame_bind; [apply tame_rd|]. intros ? _.
  apply tame_bind; [apply parse_part_tame|]. intros ? _. rl.
Qed.
Lemma v6_tame le ts : Forall tok_tame ts -> tame (v6_from_string le ts).
Proof.
  intros H. unfold v6_from_string. destruct ts as [|t ts]; [(exact I || discriminate)|]. apply tame_bind; [apply split_scope_tame; exact H|]. intros [e s] _.
  apply tame_bind; [apply split_parts_tame, firstn_tame; exact H|]. intros [ps pc] _.
  apply tame_bind; [apply bound_tame|]. intros [[hi lo] sk] _. apply tame_bind.
  - unfold parse_parts. apply tame_bind; [apply parts_loop_tame|]. intros [ix r] _. apply tame_bind; [apply tame_assert|]. intros _ _.
    apply tame_bind; [apply parts_loop_tame|]. intros [? ?] _. exact I.
  - intros b _. apply tame_bind; [apply tame_rd|]. intros s0 _. destruct (negb (s0 =? 0)); [|exact I].
    apply tame_bind; [apply fs_make_tame|]. intros ? _. exact I.
Qed.
Lemma addr_parse_tame v ts : Forall tok_tame ts -> tame (addr_parse v ts).
Proof.
  intros H. destruct v; cbn [addr_parse].
  - apply tame_bind; [apply v4_tame; exact H|]. intros ? _. exact I.
  - apply tame_bind; [apply v6_tame; exact H|]. intros [? ?] _. exact I.
Qed.
Lemma addr_array_tame v d : tame (addr_parse_array v d).
Proof. unfold addr_parse_array. apply tame_bind; [apply fs_make_tame|]. intros f _. apply addr_parse_tame, chars_tame. Qed.

(** *** Netmasks *)
Lemma prefix_ip_tame x : tame (prefix_from_ip_uint32 x).
Proof.
  unfold prefix_from_ip_uint32, count_righthand_zero_bits. apply tame_bind.
  - destruct (x =? 0); [exact I|]. apply tame_bind; [|intros ? _; exact I]. generalize 0. generalize (Z.land (w32 (Z.lnot x)) (w32 (x - 1))).
    generalize 32%nat. induction n as [|n IH]; intros y z; cbn [popcount_loop]; destruct (y =? 0); try exact I. apply IH.
  - intros t _. unfold shr32, shl32. rl.
Qed.
Lemma v4_prefix_tame le p : tame (v4_from_prefix le p).
Proof. unfold v4_from_prefix, shr32. rl. Qed.
Lemma v6_prefix_tame p : tame (v6_from_prefix p).
Proof.
  unfold v6_from_prefix. apply tame_bind.
  - generalize (repeat 0 16). generalize 0. generalize (Z.to_nat (Z.min (Z.shiftr p 3) 17)).
    induction n as [|n IH]; intros i l; cbn [prefix_ones]; [exact I|]. apply tame_bind; [apply tame_wr|]. intros ? _. apply IH.
  - intros b _. rl.
Qed.
Lemma parse_netmask_tame v ts : Forall tok_tame ts -> tame (parse_netmask v ts).
Proof.
  intros H. unfold parse_netmask. apply tame_bind; [|intros [? ?] _; exact I]. destruct v.
  - unfold v4_parse_netmask. apply tame_bind.
    + clear -H. generalize 0. induction ts as [|[c|e x] ts IH]; intros p; cbn [netmask_digits]; rl.
    + intros [b p] _. apply tame_bind.
      * destruct b; [rl|]. destruct (v4_from_string ts); try (exact I || discriminate). apply tame_bind; [apply v4_uint_tame|]. intros ip _.
        pose proof (prefix_ip_tame ip) as P. destruct (prefix_from_ip_uint32 ip); [exact I| |exact I].
        pose proof (prefix_ip_tame (Z.lxor ip v4_all_ones)) as P2. destruct (prefix_from_ip_uint32 (Z.lxor ip v4_all_ones)); [exact I|exact P2|exact I].
      * intros q _. apply tame_bind; [apply v4_prefix_tame|]. intros ? _. exact I.
  - unfold v6_parse_netmask. apply tame_bind.
    + clear -H. generalize 0. induction ts as [|[c|e x] ts IH]; intros p; cbn [v6_netmask_digits]; rl.
    + intros p _. destruct (p >? 128); [(exact I || discriminate)|]. apply tame_bind; [apply v6_prefix_tame|]. intros ? _. exact I.
Qed.

(** *** Networks *)
Lemma net_split_tame : forall ts M a s h nm, Forall tok_tame ts -> tame (net_split M ts a s h nm).
Proof.
  induction ts as [|[c|e x] ts IH]; intros M a s h nm H; cbn [net_split]; [exact I| |inversion H; assumption].
  inversion H as [|? ? _ H']. subst. destruct ((c =? 47) && h); [(exact I || discriminate)|]. destruct ((c =? 47) && (zlen ts =? 0)); [(exact I || discriminate)|].
  apply tame_bind; [rl|]. intros [a' s'] _. destruct (s' >? M); [exact I|]. apply IH. exact H'.
Qed.
Lemma split_mask_tame : forall ts M a s h nm a' nm', Forall tok_tame ts -> Forall tok_tame nm -> net_split M ts a s h nm = Ret (a', nm') -> Forall tok_tame nm'.
Proof.
  induction ts as [|[c|e x] ts IH]; intros M a s h nm a' nm' H Hn E; cbn [net_split] in E; [congruence| |(exact I || discriminate)].
  inversion H as [|? ? _ H']. subst. destruct ((c =? 47) && h); [(exact I || discriminate)|]. destruct ((c =? 47) && (zlen ts =? 0)); [(exact I || discriminate)|].
  match type of E with bind ?m _ = _ => destruct m as [[a2 s2]| |] end; cbn [bind] in E; try (exact I || discriminate).
  destruct (s2 >? M).
  - injection E as _ <-. destruct (c =? 47); assumption.
  - eapply IH; [exact H'| |exact E]. destruct (c =? 47); assumption.
Qed.
Lemma strict_tame v a m s : tame (strict_netmask v a m s).
Proof.
  unfold strict_netmask. destruct v.
  - unfold v4_strict_netmask. apply tame_bind; [|intros ? _; exact I]. apply tame_bind; [apply v4_uint_tame|]. intros ? _.
    apply tame_bind; [apply v4_uint_tame|]. intros ? _. rl.
  - apply tame_bind; [|intros [? ?] _; exact I]. unfold v6_strict_netmask.
    apply tame_bind; [|intros b _; rl]. generalize (repeat 0 16). generalize 0. generalize 16%nat.
    induction n as [|n IH]; intros i l; cbn [and_loop]; rl.
Qed.
Lemma net_parse_tame v ts strict : Forall tok_tame ts -> tame (net_parse_res v ts strict).
Proof.
  intros H. unfold net_parse_res. apply tame_bind; [apply net_split_tame; exact H|]. intros [a m] E.
  apply tame_bind; [apply parse_netmask_tame; apply split_mask_tame in E; [exact E|exact H|constructor]|]. intros [nm p] _.
  apply tame_bind; [pose proof (addr_array_tame v a) as A; destruct (addr_parse_array v a); auto|]. intros ad _.
  apply tame_bind; [pose proof (strict_tame v ad nm strict) as A; destruct (strict_netmask v ad nm strict); auto|]. intros ? _. exact I.
Qed.
