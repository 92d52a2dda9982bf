(** Errors reported by the parsers carry a code other than [no_error]. *)
From Verif Require Import Base UnicodeModel FixedStringModel V4Model V6Model AddressModel NetworkModel.

Definition real {A} (r : res A) : Prop := match r with Err e _ => e <> no_error | _ => True end.
Definition tok_real (t : tok) : Prop := match t with Bad e _ => e <> no_error | _ => True end.

Lemma real_bind {A B} (m : res A) (k : A -> res B) : real m -> (forall a, m = Ret a -> real (k a)) -> real (bind m k).
Proof. destruct m; cbn; auto. Qed.
Lemma real_rd {A} (a : list A) i : real (rd a i).
Proof. unfold rd. destruct (_ <? _); [exact I|]. destruct (nth_error _ _); exact I. Qed.
Lemma real_wr {A} (a : list A) i x : real (wr a i x).
Proof. unfold wr. destruct (_ <? _); [exact I|]. destruct (upd _ _ _); exact I. Qed.
Lemma real_int32 x : real (int32 x).
Proof. unfold int32. destruct (_ && _); exact I. Qed.
Lemma real_assert b : real (assert b).
Proof. destruct b; exact I. Qed.
Ltac rl :=
  repeat first
    [ exact I
    | discriminate
    | assumption
    | apply real_rd | apply real_wr | apply real_int32 | apply real_assert
    | apply real_bind; [|intros ? _]
    | match goal with
      | |- context [match ?x with _ => _ end] => destruct x
      | H : Forall _ (_ :: _) |- _ => inversion_clear H
      | IH : context [real _] |- real _ => apply IH
      end ].

Lemma v4_loop_real : forall ts o f d oc i, Forall tok_real ts -> real (v4_parse_loop ts o f d oc i).
Proof. induction ts as [|[c|e x] ts IH]; intros o f d oc i H; cbn [v4_parse_loop]; rl. Qed.
Lemma v4_real ts : Forall tok_real ts -> real (v4_from_string ts).
Proof. intros H. unfold v4_from_string. destruct ts; [discriminate|]. apply v4_loop_real. exact H. Qed.
Lemma chars_real s : Forall tok_real (chars s).
Proof. unfold chars. apply Forall_map, Forall_forall. intros x _. exact I. Qed.
Lemma firstn_real n ts : Forall tok_real ts -> Forall tok_real (firstn n ts).
Proof. intros H. revert n. induction H; intros [|n]; cbn; constructor; auto. Qed.

Lemma fs_fill_char_real : forall k data n it i f, real (fs_fill k char_next data n it i f).
Proof.
  induction k as [|k IH]; intros data n it i f; cbn [fs_fill]; [exact I|]. unfold char_next.
  destruct (rd data it) as [c| |] eqn:E; cbn [bind]; [|pose proof (real_rd data it) as R; rewrite E in R; exact R|exact I].
  apply real_bind; [apply real_wr|]. intros d _. destruct (c =? 0); [exact I|apply IH].
Qed.
Lemma fs_make_real n data : real (fs_make char_next n data).
Proof. apply fs_fill_char_real. Qed.

Lemma split_scope_loop_real : forall ts pos e sc s i, Forall tok_real ts -> real (split_scope_loop ts pos e sc s i).
Proof. induction ts as [|[c|e x] ts IH]; intros pos en sc s i H; cbn [split_scope_loop]; rl. Qed.
Lemma split_scope_real ts : Forall tok_real ts -> real (split_scope_id ts).
Proof. intros H. unfold split_scope_id. apply real_bind; [apply split_scope_loop_real; exact H|]. intros ? _. rl. Qed.
Lemma copy_part_real l p n : real (copy_part l p n).
Proof. unfold copy_part. rl. Qed.
Lemma split_loop_real : forall ts p l pc s pr d, Forall tok_real ts -> real (split_loop ts p l pc s pr d).
Proof.
  induction ts as [|[c|e x] ts IH]; intros p l pc s pr d H; cbn [split_loop]; [exact I| |inversion H; assumption].
  inversion H as [|? ? _ H']. subst. destruct (pc >? 8); [destruct (if _ : bool then true else d); discriminate|].
  destruct (negb (c =? 58)).
  - destruct (s >? 15); [discriminate|]. apply real_bind; [apply real_wr|]. intros ? _. apply real_bind; [apply real_wr|]. intros ? _. apply IH. exact H'.
  - destruct (s >? 4); [discriminate|]. apply real_bind; [apply copy_part_real|]. intros ? _. apply real_bind; [apply real_wr|]. intros ? _. apply IH. exact H'.
Qed.
Lemma has_dot_real : forall k i l, real (has_dot k i l).
Proof. induction k as [|k IH]; intros i l; cbn [has_dot]; rl. Qed.
Lemma to_hex_real : forall k v i j r, real (to_hex_loop k v i j r).
Proof. induction k as [|k IH]; intros v i j r; cbn [to_hex_loop]; rl. Qed.
Lemma v4_uint_real le b : real (v4_to_uint le b).
Proof. unfold v4_to_uint. rl. Qed.
Lemma v4_array_real d : real (v4_parse_array d).
Proof. unfold v4_parse_array. apply real_bind; [apply fs_make_real|]. intros f _. apply v4_real, chars_real. Qed.
Lemma make_parts_real : forall ps, real (make_parts ps).
Proof. induction ps as [|p ps IH]; cbn [make_parts]; [exact I|]. apply real_bind; [apply fs_make_real|]. intros f _. rl. Qed.
Lemma split_parts_real le ts : Forall tok_real ts -> real (split_parts le ts).
Proof.
  intros H. unfold split_parts. apply real_bind; [apply split_loop_real; exact H|]. intros [[[ps lp] pc] sy] _.
  destruct (pc >? 8); [rl|]. apply real_bind; [apply has_dot_real|]. intros dot _. apply real_bind.
  - destruct dot.
    + destruct (pc + 1 >=? 8); [discriminate|]. pose proof (v4_array_real lp) as A. destruct (v4_parse_array lp); [|exact A|exact I].
      apply real_bind; [apply v4_uint_real|]. intros n _. unfold to_hex.
      repeat (apply real_bind; [first [apply real_rd|apply real_wr|apply to_hex_real]|intros ? _]). exact I.
    + destruct (sy >? 4); [discriminate|]. apply real_bind; [apply copy_part_real|]. intros ? _. exact I.
  - intros [ps' pc'] _. destruct (pc' <? 3); [discriminate|]. apply real_bind; [apply make_parts_real|]. intros ? _. exact I.
Qed.
Lemma part_empty_real p i : real (part_empty p i).
Proof. unfold part_empty. rl. Qed.
Lemma skip_loop_real : forall k i p pc s, real (skip_loop k i p pc s).
Proof.
  induction k as [|k IH]; intros i p pc s; cbn [skip_loop]; [exact I|]. apply real_bind; [apply part_empty_real|]. intros b _. rl.
Qed.
Lemma bound_real p pc : real (get_parts_bound p pc).
Proof.
  unfold get_parts_bound. apply real_bind; [apply skip_loop_real|]. intros sk _. destruct (negb (sk =? 0)).
  - repeat (apply real_bind; [first [apply part_empty_real|rl]|intros ? _]). rl.
  - destruct (negb (pc =? 8)); [discriminate|]. apply real_bind; [apply part_empty_real|]. intros e0 _. destruct e0; [discriminate|].
    apply real_bind; [apply part_empty_real|]. intros e1 _. rl.
Qed.
Lemma parse_part_real : forall cs n i v pc, real (parse_part_loop cs n i v pc).
Proof.
  induction cs as [|c cs IH]; intros n i v pc; cbn [parse_part_loop]; [exact I|]. apply real_bind; [unfold pow16; rl|]. intros pw _. rl.
Qed.
Lemma parts_loop_real : forall k i p pc ix r, real (parts_loop k i p pc ix r).
Proof.
  induction k as [|k IH]; intros i p pc ix r; cbn [parts_loop]; [exact I|]. apply real_bind; [apply real_rd|]. intros ? _.
  apply real_bind; [apply parse_part_real|]. intros ? _. rl.
Qed.
Lemma v6_real le ts : Forall tok_real ts -> real (v6_from_string le ts).
Proof.
  intros H. unfold v6_from_string. destruct ts as [|t ts]; [discriminate|]. apply real_bind; [apply split_scope_real; exact H|]. intros [e s] _.
  apply real_bind; [apply split_parts_real, firstn_real; exact H|]. intros [ps pc] _.
  apply real_bind; [apply bound_real|]. intros [[hi lo] sk] _. apply real_bind.
  - unfold parse_parts. apply real_bind; [apply parts_loop_real|]. intros [ix r] _. apply real_bind; [apply real_assert|]. intros _ _.
    apply real_bind; [apply parts_loop_real|]. intros [? ?] _. exact I.
  - intros b _. apply real_bind; [apply real_rd|]. intros s0 _. destruct (negb (s0 =? 0)); [|exact I].
    apply real_bind; [apply fs_make_real|]. intros ? _. exact I.
Qed.
Lemma addr_parse_real v ts : Forall tok_real ts -> real (addr_parse v ts).
Proof.
  intros H. destruct v; cbn [addr_parse].
  - apply real_bind; [apply v4_real; exact H|]. intros ? _. exact I.
  - apply real_bind; [apply v6_real; exact H|]. intros [? ?] _. exact I.
Qed.
Lemma addr_array_real v d : real (addr_parse_array v d).
Proof. unfold addr_parse_array. apply real_bind; [apply fs_make_real|]. intros f _. apply addr_parse_real, chars_real. Qed.

(** *** Netmasks *)
Lemma prefix_ip_real x : real (prefix_from_ip_uint32 x).
Proof.
  unfold prefix_from_ip_uint32, count_righthand_zero_bits. apply real_bind.
  - destruct (x =? 0); [exact I|]. apply real_bind; [|intros ? _; exact I]. generalize 0. generalize (Z.land (w32 (Z.lnot x)) (w32 (x - 1))).
    generalize 32%nat. induction n as [|n IH]; intros y z; cbn [popcount_loop]; destruct (y =? 0); try exact I. apply IH.
  - intros t _. unfold shr32, shl32. rl.
Qed.
Lemma v4_prefix_real le p : real (v4_from_prefix le p).
Proof. unfold v4_from_prefix, shr32. rl. Qed.
Lemma v6_prefix_real p : real (v6_from_prefix p).
Proof.
  unfold v6_from_prefix. apply real_bind.
  - generalize (repeat 0 16). generalize 0. generalize (Z.to_nat (Z.min (Z.shiftr p 3) 17)).
    induction n as [|n IH]; intros i l; cbn [prefix_ones]; [exact I|]. apply real_bind; [apply real_wr|]. intros ? _. apply IH.
  - intros b _. rl.
Qed.
Lemma parse_netmask_real v ts : Forall tok_real ts -> real (parse_netmask v ts).
Proof.
  intros H. unfold parse_netmask. apply real_bind; [|intros [? ?] _; exact I]. destruct v.
  - unfold v4_parse_netmask. apply real_bind.
    + clear -H. generalize 0. induction ts as [|[c|e x] ts IH]; intros p; cbn [netmask_digits]; rl.
    + intros [b p] _. apply real_bind.
      * destruct b; [rl|]. destruct (v4_from_string ts); try discriminate; [|exact I]. apply real_bind; [apply v4_uint_real|]. intros ip _.
        pose proof (prefix_ip_real ip) as P. destruct (prefix_from_ip_uint32 ip); [exact I| |exact I].
        pose proof (prefix_ip_real (Z.lxor ip v4_all_ones)) as P2. destruct (prefix_from_ip_uint32 (Z.lxor ip v4_all_ones)); [exact I|exact P2|exact I].
      * intros q _. apply real_bind; [apply v4_prefix_real|]. intros ? _. exact I.
  - unfold v6_parse_netmask. apply real_bind.
    + clear -H. generalize 0. induction ts as [|[c|e x] ts IH]; intros p; cbn [v6_netmask_digits]; rl.
    + intros p _. destruct (p >? 128); [discriminate|]. apply real_bind; [apply v6_prefix_real|]. intros ? _. exact I.
Qed.

(** *** Networks *)
Lemma net_split_real : forall ts M a s h nm, Forall tok_real ts -> real (net_split M ts a s h nm).
Proof.
  induction ts as [|[c|e x] ts IH]; intros M a s h nm H; cbn [net_split]; [exact I| |inversion H; assumption].
  inversion H as [|? ? _ H']. subst. destruct ((c =? 47) && h); [discriminate|]. destruct ((c =? 47) && (zlen ts =? 0)); [discriminate|].
  apply real_bind; [rl|]. intros [a' s'] _. destruct (s' >? M); [exact I|]. apply IH. exact H'.
Qed.
Lemma split_mask_real : forall ts M a s h nm a' nm', Forall tok_real ts -> Forall tok_real nm -> net_split M ts a s h nm = Ret (a', nm') -> Forall tok_real nm'.
Proof.
  induction ts as [|[c|e x] ts IH]; intros M a s h nm a' nm' H Hn E; cbn [net_split] in E; [congruence| |discriminate].
  inversion H as [|? ? _ H']. subst. destruct ((c =? 47) && h); [discriminate|]. destruct ((c =? 47) && (zlen ts =? 0)); [discriminate|].
  match type of E with bind ?m _ = _ => destruct m as [[a2 s2]| |] end; cbn [bind] in E; try discriminate.
  destruct (s2 >? M).
  - injection E as _ <-. destruct (c =? 47); assumption.
  - eapply IH; [exact H'| |exact E]. destruct (c =? 47); assumption.
Qed.
Lemma strict_real v a m s : real (strict_netmask v a m s).
Proof.
  unfold strict_netmask. destruct v.
  - unfold v4_strict_netmask. apply real_bind; [|intros ? _; exact I]. apply real_bind; [apply v4_uint_real|]. intros ? _.
    apply real_bind; [apply v4_uint_real|]. intros ? _. rl.
  - apply real_bind; [|intros [? ?] _; exact I]. unfold v6_strict_netmask.
    apply real_bind; [|intros b _; rl]. generalize (repeat 0 16). generalize 0. generalize 16%nat.
    induction n as [|n IH]; intros i l; cbn [and_loop]; rl.
Qed.
Lemma net_parse_real v ts strict : Forall tok_real ts -> real (net_parse_res v ts strict).
Proof.
  intros H. unfold net_parse_res. apply real_bind; [apply net_split_real; exact H|]. intros [a m] E.
  apply real_bind; [apply parse_netmask_real; apply split_mask_real in E; [exact E|exact H|constructor]|]. intros [nm p] _.
  apply real_bind; [pose proof (addr_array_real v a) as A; destruct (addr_parse_array v a); auto|]. intros ad _.
  apply real_bind; [pose proof (strict_real v ad nm strict) as A; destruct (strict_netmask v ad nm strict); auto|]. intros ? _. exact I.
Qed.
Lemma net_parse_is_res v ts strict : Forall tok_real ts -> net_parse v ts strict = net_parse_res v ts strict.
Proof.
  intros H. pose proof (net_parse_real v ts strict H) as R. unfold net_parse. destruct (net_parse_res v ts strict) as [|e x|]; try reflexivity.
  unfold raise_if, ec_eqb. cbn in R. destruct (ec_eq_dec e no_error); [contradiction|reflexivity].
Qed.
