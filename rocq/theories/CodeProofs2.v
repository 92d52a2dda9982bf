(** The IPv6 parser of CodeModel. *)
From Verif Require Import Base Tac UnicodeModel FixedStringModel V4Model V6Model AddressModel NetworkModel CodeModel SpecCode ErrProofs CodeProofs.

(** *** Netmask and strictness *)
Lemma v6_digits_sim : forall ts p h, Forall tok_real ts ->
  match v6_netmask_digits ts p with
  | Ret q => v6_mask_digits_st ts p h no_error 0 = (Some (q, match ts with [] => h | _ => true end), no_error, 0)
  | Err e x => e <> no_error /\ v6_mask_digits_st ts p h no_error 0 = (None, e, x)
  | UB u => False
  end.
Proof.
  induction ts as [|[c|e x] ts IH]; intros p h H; cbn [v6_netmask_digits v6_mask_digits_st next_st].
  - reflexivity.
  - inversion H as [|? ? _ H']. subst. rewrite ok_ok. cbn [negb]. destruct (_ && _).
    + pose proof (IH (w64 (w64 (p * 10) + (c - 48))) true H') as G. destruct (v6_netmask_digits ts _) as [q| |]; [|exact G|exact G].
      rewrite G. destruct ts; reflexivity.
    + split; [discriminate|reflexivity].
  - inversion H as [|? ? T _]. subst. cbn in T. rewrite (ok_no _ T). split; [exact T|reflexivity].
Qed.
Lemma quiet_wr {A} (l : list A) i x : quiet (wr l i x).
Proof. destruct (wr l i x) eqn:E; [exact I|exact (wr_no_err _ _ _ _ _ E)|exact I]. Qed.
Lemma v6_from_prefix_quiet p : quiet (v6_from_prefix p).
Proof.
  unfold v6_from_prefix. apply quiet_bind.
  - generalize (Z.to_nat (Z.min (Z.shiftr p 3) 17)) as k, 0 as i, (repeat 0 16) as l. induction k as [|k IH]; intros i l; cbn [prefix_ones]; [exact I|].
    apply quiet_bind; [apply quiet_wr|]. intros l'. apply IH.
  - intros l. cbv zeta. destruct (_ >? 0); [apply quiet_wr|exact I].
Qed.
Lemma v6_mask_sim ts : Forall tok_real ts -> weak (repeat 0 16, 0) 0 (v6_parse_netmask ts) (v6_mask_st ts no_error 0).
Proof.
  intros H. unfold v6_parse_netmask, v6_mask_st.
  pose proof (v6_digits_sim ts 0 false H) as G. destruct (v6_netmask_digits ts 0) as [q|e x|u]; cbn [bind]; [| |contradiction].
  - rewrite G. destruct (q >? 128); [split; [discriminate|]; reflexivity|]. cbv zeta.
    replace (if match ts with [] => false | _ :: _ => true end then q else 128) with (match ts with [] => 128 | _ => q end) by (destruct ts; reflexivity).
    generalize (match ts with [] => 128 | _ => q end) as p. intros p. pose proof (v6_from_prefix_quiet p) as Q.
    destruct (v6_from_prefix p); cbn [bind weak]; [reflexivity|contradiction|reflexivity].
  - destruct G as [E ->]. cbn [weak]. split; [exact E|]. reflexivity.
Qed.
Lemma mask_sim v ts : Forall tok_real ts -> weak (addr_default v, 0) (mask_value v ts) (parse_netmask v ts) (mask_st v ts no_error 0).
Proof.
  intros H. unfold parse_netmask, mask_st. destruct v.
  - pose proof (v4_mask_sim ts no_error 0 H) as G. destruct (v4_parse_netmask true ts) as [[m p]| |]; cbn [weak bind] in *.
    + rewrite G. cbn [bind]. reflexivity.
    + destruct G as (E & ->). cbn [bind]. split; [exact E|]. reflexivity.
    + rewrite G. reflexivity.
  - pose proof (v6_mask_sim ts H) as G. destruct (v6_parse_netmask ts) as [[m p]| |]; cbn [weak bind] in *.
    + rewrite G. cbn [bind]. reflexivity.
    + destruct G as (E & ->). cbn [bind]. split; [exact E|]. reflexivity.
    + rewrite G. reflexivity.
Qed.
Lemma and_loop_quiet : forall k i a m b, quiet (and_loop k i a m b).
Proof.
  induction k as [|k IH]; intros i a m b; cbn [and_loop]; [exact I|].
  apply quiet_bind; [apply quiet_rd|]. intros x. apply quiet_bind; [apply quiet_rd|]. intros y. apply quiet_bind; [apply quiet_wr|]. intros b'. apply IH.
Qed.
Lemma strict_sim v a m strict : match strict_netmask v a m strict with
  | Ret x => strict_st v a m strict no_error = Ret (x, no_error)
  | Err e _ => e = has_host_bits_set /\ strict_st v a m strict no_error = Ret (addr_default v, e)
  | UB u => strict_st v a m strict no_error = UB u end.
Proof.
  unfold strict_netmask, strict_st. destruct v.
  - unfold v4_strict_netmask, v4_strict_st.
    pose proof (v4_to_uint_quiet true (a_bytes a)) as Q. destruct (v4_to_uint true (a_bytes a)) as [x| |]; cbn [bind]; [|contradiction|reflexivity].
    pose proof (v4_to_uint_quiet true (a_bytes m)) as Q'. destruct (v4_to_uint true (a_bytes m)) as [y| |]; cbn [bind]; [|contradiction|reflexivity].
    destruct (negb _); [destruct strict; [split; reflexivity|reflexivity]|reflexivity].
  - unfold v6_strict_netmask, v6_strict_st.
    pose proof (and_loop_quiet 16 0 (a_bytes a) (a_bytes m) (repeat 0 16)) as Q.
    destruct (and_loop 16 0 (a_bytes a) (a_bytes m) (repeat 0 16)) as [b| |]; cbn [bind]; [|contradiction|reflexivity].
    destruct (negb _); [destruct strict; [split; reflexivity|reflexivity]|reflexivity].
Qed.

(** *** split_scope_id *)
Definition scope_end (r : Z * bool * list Z) : res (Z * list Z) :=
  let '(end_ip, scope, scope_id) := r in
  s0 <- rd scope_id 0 ;; if (scope : bool) && (s0 =? 0) then Err invalid_scope_id 0 else Ret (end_ip, scope_id).
Lemma scope_loop_sim : forall ts pos e sc sid i, Forall tok_real ts ->
  match bind (split_scope_loop ts pos e sc sid i) scope_end with
  | Ret (e', s') => scope_loop_st ts pos e sc sid i no_error 0 = Ret (e', s', no_error, 0)
  | Err c x => c <> no_error /\ exists a b, scope_loop_st ts pos e sc sid i no_error 0 = Ret (a, b, c, x)
  | UB u => scope_loop_st ts pos e sc sid i no_error 0 = UB u
  end.
Proof.
  induction ts as [|[c|er x] ts IH]; intros pos e sc sid i H; cbn [split_scope_loop scope_loop_st next_st bind scope_end].
  - pose proof (quiet_rd sid 0) as Q. destruct (rd sid 0) as [s0| |]; cbn [bind]; [|contradiction|reflexivity].
    destruct (sc && (s0 =? 0)); [|reflexivity]. split; [discriminate|]. do 2 eexists. reflexivity.
  - inversion H as [|? ? _ H']. subst. rewrite ok_ok. cbn [negb].
    destruct (negb sc && negb (c =? 37)); [apply IH; exact H'|]. destruct sc; [|apply IH; exact H'].
    destruct (i >? scope_max - 1); [cbn [bind]; split; [discriminate|]; do 2 eexists; reflexivity|].
    destruct (is_invalid_scope_id_symbol c); [cbn [bind]; split; [discriminate|]; do 2 eexists; reflexivity|].
    pose proof (quiet_wr sid i c) as Q. destruct (wr sid i c) as [s'| |]; cbn [bind]; [|contradiction|reflexivity]. apply IH. exact H'.
  - inversion H as [|? ? T _]. subst. cbn in T. rewrite (ok_no _ T). split; [exact T|]. do 2 eexists. reflexivity.
Qed.
Lemma split_scope_sim t ts code value : Forall tok_real (t :: ts) ->
  match split_scope_id (t :: ts) with
  | Ret (e', s') => split_scope_st (t :: ts) code value = Ret (e', s', no_error, 0)
  | Err c x => c <> no_error /\ exists a b, split_scope_st (t :: ts) code value = Ret (a, b, c, x)
  | UB u => split_scope_st (t :: ts) code value = UB u
  end.
Proof.
  intros H. exact (scope_loop_sim (t :: ts) 0 0 false (repeat 0 17) 0 H).
Qed.

(** *** split_parts *)
Lemma copy_part_quiet l p n : quiet (copy_part l p n).
Proof. unfold copy_part. repeat (apply quiet_bind; [first [apply quiet_rd|apply quiet_wr]|]; intros ?). apply quiet_wr. Qed.
Lemma split_loop_sim : forall ts parts last pc sym pr d es, Forall tok_real ts ->
  match split_loop ts parts last pc sym pr d with
  | Ret (parts', last', pc', sym') => split_loop_st ts parts last pc sym pr d no_error es = Ret (Some (parts', last', sym'), no_error, pc')
  | Err c x => c <> no_error /\ split_loop_st ts parts last pc sym pr d no_error es = Ret (None, c, x)
  | UB u => split_loop_st ts parts last pc sym pr d no_error es = UB u
  end.
Proof.
  induction ts as [|[c|er x] ts IH]; intros parts last pc sym pr d es H; cbn [split_loop split_loop_st next_st].
  - reflexivity.
  - inversion H as [|? ? _ H']. subst. rewrite ok_ok. cbn [negb]. cbv zeta.
    destruct (pc >? 8); [split; [destruct (if _ : bool then true else d); discriminate|reflexivity]|].
    destruct (negb (c =? 58)).
    + destruct (sym >? 15); [split; [discriminate|reflexivity]|].
      pose proof (quiet_wr last sym c) as Q. destruct (wr last sym c) as [l1| |]; cbn [bind]; [|contradiction|reflexivity].
      pose proof (quiet_wr l1 (sym + 1) 0) as Q'. destruct (wr l1 (sym + 1) 0) as [l2| |]; cbn [bind]; [|contradiction|reflexivity].
      apply IH. exact H'.
    + destruct (sym >? 4); [split; [discriminate|reflexivity]|].
      pose proof (copy_part_quiet last parts pc) as Q. destruct (copy_part last parts pc) as [p1| |]; cbn [bind]; [|contradiction|reflexivity].
      pose proof (quiet_wr last 0 0) as Q'. destruct (wr last 0 0) as [l2| |]; cbn [bind]; [|contradiction|reflexivity].
      apply IH. exact H'.
  - inversion H as [|? ? T _]. subst. cbn in T. rewrite (ok_no _ T). split; [exact T|reflexivity].
Qed.
Lemma v4_array_sim data code : match v4_parse_array data with
  | Ret b => v4_array_st data code = Ret (b, no_error)
  | Err e _ => e <> no_error /\ v4_array_st data code = Ret ([0; 0; 0; 0], e)
  | UB u => v4_array_st data code = UB u end.
Proof.
  unfold v4_parse_array, v4_array_st. pose proof (fs_make_sim char_next 16 data code char_reader_real) as F.
  destruct (fs_make char_next 16 data) as [f|e x|u]; cbn [fs_outcome bind] in *.
  - rewrite F. cbn [bind]. rewrite ok_ok. cbv zeta. pose proof (v4_string_sim0 (chars (fs_chars f)) no_error (chars_real _)) as G.
    pose proof (v4_real (chars (fs_chars f)) (chars_real _)) as R.
    destruct (v4_from_string (chars (fs_chars f))) as [b|e x|u]; cbn [outcome real] in G, R.
    + destruct G as (x & ->). reflexivity.
    + rewrite G. split; [exact R|reflexivity].
    + rewrite G. reflexivity.
  - destruct F as (E & f & ->). cbn [bind]. rewrite (ok_no _ E). split; [exact E|reflexivity].
  - rewrite F. reflexivity.
Qed.
Lemma has_dot_quiet : forall k i l, quiet (has_dot k i l).
Proof. induction k as [|k IH]; intros i l; cbn [has_dot]; [exact I|]. apply quiet_bind; [apply quiet_rd|]. intros c. destruct (c =? 46); [exact I|apply IH]. Qed.
Lemma to_hex_quiet v r : quiet (to_hex v r).
Proof.
  unfold to_hex. generalize 4%nat as k, 0 as i, 12 as j. intros k. revert r. induction k as [|k IH]; intros r i j; cbn [to_hex_loop]; [exact I|].
  apply quiet_bind; [apply quiet_rd|]. intros d. apply quiet_bind; [apply quiet_wr|]. intros x. apply quiet_bind; [apply quiet_wr|]. intros y. apply IH.
Qed.
Lemma fs_fill_quiet : forall k data n it i f, quiet (fs_fill k char_next data n it i f).
Proof.
  induction k as [|k IH]; intros data n it i f; cbn [fs_fill]; [exact I|]. unfold char_next.
  pose proof (quiet_rd data it) as Q. destruct (rd data it) as [c| |]; cbn [bind]; [|exact Q|exact I].
  apply quiet_bind; [apply quiet_wr|]. intros d. destruct (c =? 0); [exact I|apply IH].
Qed.
Lemma make_parts_quiet : forall ps, quiet (make_parts ps).
Proof.
  induction ps as [|p ps IH]; cbn [make_parts]; [exact I|]. apply quiet_bind; [apply fs_fill_quiet|]. intros f. apply quiet_bind; [exact IH|]. intros; exact I.
Qed.
Lemma parts_end_sim parts pc : match (if pc <? 3 then Err least_3_parts pc else fs <- make_parts parts ;; Ret (fs, pc)) with
  | Ret (fs, pc') => (if pc <? 3 then Ret (repeat [] 9, least_3_parts, pc) else fs <- make_parts parts ;; Ret (fs, no_error, pc)) = Ret (fs, no_error, pc')
  | Err c x => c <> no_error /\ (if pc <? 3 then Ret (repeat [] 9, least_3_parts, pc) else fs <- make_parts parts ;; Ret (fs, no_error, pc)) = Ret (repeat [] 9, c, x)
  | UB u => (if pc <? 3 then Ret (repeat [] 9, least_3_parts, pc) else fs <- make_parts parts ;; Ret (fs, no_error, pc)) = UB u
  end.
Proof.
  destruct (pc <? 3); [split; [discriminate|reflexivity]|]. pose proof (make_parts_quiet parts) as Q.
  destruct (make_parts parts); cbn [bind]; [reflexivity|contradiction|reflexivity].
Qed.
Ltac quietly m Q := let K := fresh in pose proof Q as K; destruct m; cbn [bind]; [|contradiction|reflexivity]; clear K.
Lemma split_parts_sim ts pc : Forall tok_real ts ->
  match split_parts true ts with
  | Ret (fs, n) => split_parts_st ts pc no_error = Ret (fs, no_error, n)
  | Err c x => c <> no_error /\ split_parts_st ts pc no_error = Ret (repeat [] 9, c, x)
  | UB u => split_parts_st ts pc no_error = UB u
  end.
Proof.
  intros H. unfold split_parts, split_parts_st. cbv zeta.
  pose proof (split_loop_sim ts (repeat (repeat 0 5) 9) (repeat 0 17) 0 0 0 false 0 H) as G.
  destruct (split_loop ts (repeat (repeat 0 5) 9) (repeat 0 17) 0 0 0 false) as [[[[parts last] n] sym]|c x|u]; cbn [bind].
  2:{ destruct G as (E & ->). cbn [bind]. split; [exact E|reflexivity]. }
  2:{ rewrite G. reflexivity. }
  rewrite G. cbn [bind]. destruct (n >? 8).
  - quietly (rd parts 0) (quiet_rd parts 0). quietly (rd a 0) (quiet_rd a 0). quietly (rd parts 1) (quiet_rd parts 1).
    quietly (rd a1 0) (quiet_rd a1 0). quietly (rd last 0) (quiet_rd last 0).
    destruct (_ && _); [split; [discriminate|reflexivity]|]. destruct (a3 =? 0); split; (discriminate || reflexivity).
  - quietly (has_dot (Z.to_nat sym) 0 last) (has_dot_quiet (Z.to_nat sym) 0 last). destruct a.
    + destruct (n + 1 >=? 8); cbn [bind]; [split; [discriminate|reflexivity]|].
      pose proof (v4_array_sim last no_error) as V. destruct (v4_parse_array last) as [bytes|c x|u]; cbn [bind].
      * rewrite V. cbn [bind]. quietly (v4_to_uint true bytes) (v4_to_uint_quiet true bytes). rewrite ok_ok. cbn [negb].
        quietly (rd parts n) (quiet_rd parts n).
        match goal with |- context [to_hex ?z a0] => quietly (to_hex z a0) (to_hex_quiet z a0) end.
        quietly (wr parts n a1) (quiet_wr parts n a1). quietly (rd a2 (n + 1)) (quiet_rd a2 (n + 1)).
        match goal with |- context [to_hex ?z a3] => quietly (to_hex z a3) (to_hex_quiet z a3) end.
        quietly (wr a2 (n + 1) a4) (quiet_wr a2 (n + 1) a4). apply parts_end_sim.
      * destruct V as (E & ->). cbn [bind]. change (v4_to_uint true [0; 0; 0; 0]) with (@Ret Z 0). cbn [bind]. rewrite (ok_no _ E). split; [exact E|reflexivity].
      * rewrite V. reflexivity.
    + destruct (sym >? 4); cbn [bind]; [split; [discriminate|reflexivity]|].
      quietly (copy_part last parts n) (copy_part_quiet last parts n). apply parts_end_sim.
Qed.
(** Bounds on the number of parts. *)
Lemma split_parts_count le ts fs n : split_parts le ts = Ret (fs, n) -> 3 <= n <= 9.
Proof.
  unfold split_parts. destruct (split_loop _ _ _ _ _ _ _) as [[[[parts last] k] sym]| |]; cbn [bind]; [|discriminate|discriminate].
  destruct (k >? 8) eqn:E8.
  - repeat match goal with |- context [rd ?l ?i] => destruct (rd l i); cbn [bind]; [|discriminate|discriminate] end.
    destruct (_ && _); [discriminate|]. destruct (_ =? 0); discriminate.
  - destruct (has_dot _ _ _) as [[]| |]; cbn [bind]; [| |discriminate|discriminate].
    + destruct (k + 1 >=? 8) eqn:E1; cbn [bind]; [discriminate|]. destruct (v4_parse_array last); cbn [bind]; [|discriminate|discriminate].
      destruct (v4_to_uint _ _); cbn [bind]; [|discriminate|discriminate]. destruct (rd parts k); cbn [bind]; [|discriminate|discriminate].
      destruct (to_hex _ _); cbn [bind]; [|discriminate|discriminate]. destruct (wr parts k _); cbn [bind]; [|discriminate|discriminate].
      destruct (rd _ _); cbn [bind]; [|discriminate|discriminate]. destruct (to_hex _ _); cbn [bind]; [|discriminate|discriminate].
      destruct (wr _ (k + 1) _); cbn [bind]; [|discriminate|discriminate]. destruct (k + 1 + 1 <? 3) eqn:E3; [discriminate|].
      destruct (make_parts _); cbn [bind]; [|discriminate|discriminate]. intros E. injection E as _ <-. lia.
    + destruct (sym >? 4); cbn [bind]; [discriminate|]. destruct (copy_part _ _ _); cbn [bind]; [|discriminate|discriminate].
      destruct (k + 1 <? 3) eqn:E3; [discriminate|]. destruct (make_parts _); cbn [bind]; [|discriminate|discriminate]. intros E. injection E as _ <-. lia.
Qed.

(** *** get_parts_bound *)
Lemma part_empty_quiet p i : quiet (part_empty p i).
Proof. unfold part_empty. apply quiet_bind; [apply quiet_rd|]. intros; exact I. Qed.
Lemma skip_sim : forall k i parts pc skip, match skip_loop k i parts pc skip with
  | Ret s => skip_loop_st k i parts skip no_error = Ret (Some s, no_error)
  | Err c x => c <> no_error /\ x = pc /\ skip_loop_st k i parts skip no_error = Ret (None, c)
  | UB u => skip_loop_st k i parts skip no_error = UB u end.
Proof.
  induction k as [|k IH]; intros i parts pc skip; cbn [skip_loop skip_loop_st]; [reflexivity|].
  quietly (part_empty parts i) (part_empty_quiet parts i). destruct a; [|apply IH]. destruct (negb _); [|apply IH]. repeat split; discriminate.
Qed.
Lemma skip_range : forall k i parts pc skip s, skip_loop k i parts pc skip = Ret s -> s = skip \/ i <= s < i + Z.of_nat k.
Proof.
  induction k as [|k IH]; intros i parts pc skip s; cbn [skip_loop]; [intros E; injection E as <-; auto|].
  destruct (part_empty parts i) as [[]| |]; cbn [bind]; [| |discriminate|discriminate].
  - destruct (negb _); [discriminate|]. intros E. apply IH in E. lia.
  - intros E. apply IH in E. lia.
Qed.
Lemma bound_sim parts pc : match get_parts_bound parts pc with
  | Ret (hi, lo, sk) => bound_st parts pc no_error = Ret (hi, lo, sk, no_error)
  | Err c x => c <> no_error /\ x = pc /\ bound_st parts pc no_error = Ret (0, 0, 0, c)
  | UB u => bound_st parts pc no_error = UB u end.
Proof.
  unfold get_parts_bound, bound_st. cbv zeta.
  pose proof (skip_sim (Z.to_nat (pc - 1 - 1)) 1 parts pc 0) as G.
  destruct (skip_loop (Z.to_nat (pc - 1 - 1)) 1 parts pc 0) as [s|c x|u]; cbn [bind].
  2:{ destruct G as (E & -> & ->). repeat split; assumption. }
  2:{ rewrite G. reflexivity. }
  rewrite G. cbn [bind]. destruct (negb (s =? 0)).
  - assert (F : forall hi lo, match (if w64 (8 - w64 (hi + lo)) <? 1 then Err expected_at_most_7_other_parts_with_double_colon pc else Ret (hi, lo, w64 (8 - w64 (hi + lo)))) with
      | Ret (a, b, c) => (if w64 (8 - w64 (hi + lo)) <? 1 then Ret (0, 0, 0, expected_at_most_7_other_parts_with_double_colon) else Ret (hi, lo, w64 (8 - w64 (hi + lo)), no_error)) = Ret (a, b, c, no_error)
      | Err c x => c <> no_error /\ x = pc /\ (if w64 (8 - w64 (hi + lo)) <? 1 then Ret (0, 0, 0, expected_at_most_7_other_parts_with_double_colon) else Ret (hi, lo, w64 (8 - w64 (hi + lo)), no_error)) = Ret (0, 0, 0, c)
      | UB u => (if w64 (8 - w64 (hi + lo)) <? 1 then Ret (0, 0, 0, expected_at_most_7_other_parts_with_double_colon) else Ret (hi, lo, w64 (8 - w64 (hi + lo)), no_error)) = UB u end).
    { intros hi lo. destruct (_ <? 1); [repeat split; discriminate|reflexivity]. }
    quietly (part_empty parts 0) (part_empty_quiet parts 0). destruct a.
    + destruct (negb (w64 (s - 1) =? 0)); cbn [bind]; [repeat split; discriminate|].
      quietly (part_empty parts (pc - 1)) (part_empty_quiet parts (pc - 1)). destruct a; [|apply F].
      destruct (negb _); cbn [bind]; [repeat split; discriminate|apply F].
    + cbn [bind]. quietly (part_empty parts (pc - 1)) (part_empty_quiet parts (pc - 1)). destruct a; [|apply F].
      destruct (negb _); cbn [bind]; [repeat split; discriminate|apply F].
  - destruct (negb (pc =? 8)); [repeat split; discriminate|].
    quietly (part_empty parts 0) (part_empty_quiet parts 0). destruct a; [repeat split; discriminate|].
    quietly (part_empty parts (pc - 1)) (part_empty_quiet parts (pc - 1)). destruct a; [repeat split; discriminate|reflexivity].
Qed.
Lemma bound_range parts pc hi lo sk : 3 <= pc <= 9 -> get_parts_bound parts pc = Ret (hi, lo, sk) ->
  0 <= hi /\ 0 <= lo /\ 0 <= sk /\ hi + lo + sk <= 8.
Proof.
  intros P. unfold get_parts_bound. cbv zeta. destruct (skip_loop _ _ _ _ _) as [s| |] eqn:ES; cbn [bind]; [|discriminate|discriminate].
  apply skip_range in ES. destruct (negb (s =? 0)) eqn:E0.
  - assert (S1 : 1 <= s <= pc - 2) by lia. clear ES E0.
    assert (WL : w64 (pc - s - 1) = pc - s - 1) by (unfold w64; apply Z.mod_small; lia).
    assert (F : forall h l, 0 <= h -> 0 <= l -> h + l <= 8 ->
      (if w64 (8 - w64 (h + l)) <? 1 then Err expected_at_most_7_other_parts_with_double_colon pc else Ret (h, l, w64 (8 - w64 (h + l)))) = Ret (hi, lo, sk) ->
      0 <= hi /\ 0 <= lo /\ 0 <= sk /\ hi + lo + sk <= 8).
    { intros h l H1 H2 H3. unfold w64. rewrite (Z.mod_small (h + l)) by lia. rewrite Z.mod_small by lia.
      remember (8 - (h + l)) as q eqn:Eq. destruct (_ <? 1); [discriminate|]. intros E. injection E as E1 E2 E3. clear - H1 H2 H3 E1 E2 E3 Eq. lia. }
    destruct (part_empty parts 0) as [[]| |]; cbn [bind]; [| |discriminate|discriminate].
    + destruct (w64 (s - 1) =? 0) eqn:E1; cbn [negb bind]; [|discriminate]. apply Z.eqb_eq in E1. rewrite E1, WL.
      destruct (part_empty parts (pc - 1)) as [[]| |]; cbn [bind]; [| |discriminate|discriminate].
      * destruct (w64 (pc - s - 1 - 1) =? 0) eqn:E2; cbn [negb bind]; [|discriminate]. apply Z.eqb_eq in E2. rewrite E2. apply F; lia.
      * apply F; lia.
    + rewrite WL. destruct (part_empty parts (pc - 1)) as [[]| |]; cbn [bind]; [| |discriminate|discriminate].
      * destruct (w64 (pc - s - 1 - 1) =? 0) eqn:E2; cbn [negb bind]; [|discriminate]. apply Z.eqb_eq in E2. rewrite E2. apply F; lia.
      * apply F; lia.
  - destruct (pc =? 8) eqn:E8; cbn [negb]; [|discriminate].
    destruct (part_empty parts 0) as [[]| |]; cbn [bind]; [discriminate| |discriminate|discriminate].
    destruct (part_empty parts (pc - 1)) as [[]| |]; cbn [bind]; [discriminate| |discriminate|discriminate].
    intros E. injection E as <- <- <-. lia.
Qed.

(** *** parse_parts *)
Lemma part_sim : forall cs n i value pc, match parse_part_loop cs n i value pc with
  | Ret x => part_loop_st cs n i value no_error = Ret (x, no_error)
  | Err c x => c <> no_error /\ x = pc /\ part_loop_st cs n i value no_error = Ret (0, c)
  | UB u => part_loop_st cs n i value no_error = UB u end.
Proof.
  induction cs as [|c cs IH]; intros n i value pc; cbn [parse_part_loop part_loop_st]; [reflexivity|].
  assert (Q : quiet (pow16 (n - i - 1))) by (unfold pow16; repeat destruct (_ =? _); exact I).
  destruct (pow16 (n - i - 1)); cbn [bind]; [|contradiction|reflexivity].
  destruct (_ && _); [apply IH|]. destruct (_ && _); [apply IH|]. destruct (_ && _); [apply IH|]. repeat split; discriminate.
Qed.
Lemma parts_loop_sim : forall k i parts pc index result, 0 <= index -> index + 2 * Z.of_nat k <= zlen result ->
  match parts_loop k i parts pc index result with
  | Ret (ix, r) => ix = index + 2 * Z.of_nat k /\ zlen r = zlen result /\ parts_loop_st k i parts index result no_error = Ret (Some (ix, r), no_error)
  | Err c x => c <> no_error /\ x = pc /\ parts_loop_st k i parts index result no_error = Ret (None, c)
  | UB u => parts_loop_st k i parts index result no_error = UB u end.
Proof.
  induction k as [|k IH]; intros i parts pc index result H0 H1; cbn [parts_loop parts_loop_st]; [repeat split; lia|].
  quietly (rd parts i) (quiet_rd parts i). unfold parse_part.
  pose proof (part_sim a (zlen a) 0 0 pc) as P. destruct (parse_part_loop a (zlen a) 0 0 pc) as [x|c x|u]; cbn [bind].
  - rewrite P. cbn [bind]. destruct (wr_some result index (w8 (Z.shiftr x 8))) as (r1 & -> & L1); [lia|]. cbn [bind].
    destruct (wr_some r1 (index + 1) (w8 (Z.land x 255))) as (r2 & -> & L2); [lia|]. cbn [bind]. rewrite ok_ok. cbn [negb].
    pose proof (IH (i + 1) parts pc (index + 2) r2 ltac:(lia) ltac:(lia)) as G.
    destruct (parts_loop k (i + 1) parts pc (index + 2) r2) as [[ix r]| |]; [|exact G|exact G].
    destruct G as (-> & L & ->). repeat split; [lia|congruence].
  - destruct P as (E & -> & ->). cbn [bind]. destruct (wr_some result index (w8 (Z.shiftr 0 8))) as (r1 & -> & L1); [lia|]. cbn [bind].
    destruct (wr_some r1 (index + 1) (w8 (Z.land 0 255))) as (r2 & -> & L2); [lia|]. cbn [bind]. rewrite (ok_no _ E). repeat split. exact E.
  - rewrite P. reflexivity.
Qed.
Lemma parse_parts_sim parts pc hi lo sk : 0 <= hi -> 0 <= lo -> 0 <= sk -> hi + lo + sk <= 8 ->
  match parse_parts parts pc hi lo sk with
  | Ret b => parse_parts_st parts pc hi lo sk no_error = Ret (b, no_error)
  | Err c x => c <> no_error /\ x = pc /\ parse_parts_st parts pc hi lo sk no_error = Ret (repeat 0 16, c)
  | UB u => parse_parts_st parts pc hi lo sk no_error = UB u end.
Proof.
  intros H1 H2 H3 H4. unfold parse_parts, parse_parts_st.
  pose proof (parts_loop_sim (Z.to_nat hi) 0 parts pc 0 (repeat 0 16) ltac:(lia)) as G.
  assert (L16 : zlen (repeat 0 16) = 16) by reflexivity. rewrite L16 in G. specialize (G ltac:(lia)).
  destruct (parts_loop (Z.to_nat hi) 0 parts pc 0 (repeat 0 16)) as [[ix r]|c x|u]; cbn [bind].
  2:{ destruct G as (E & -> & ->). cbn [bind]. repeat split. exact E. }
  2:{ rewrite G. reflexivity. }
  destruct G as (-> & L & ->). cbn [bind]. cbv zeta.
  assert (I2 : w64 (0 + 2 * Z.of_nat (Z.to_nat hi) + w64 (Z.shiftl sk 1)) = 2 * hi + 2 * sk).
  { rewrite Z.shiftl_mul_pow2 by lia. unfold w64. rewrite (Z.mod_small (sk * 2 ^ 1)) by lia. rewrite Z.mod_small by lia. lia. }
  rewrite I2. destruct (assert (pc >? lo)) eqn:EA; cbn [bind]; [| |reflexivity].
  2:{ unfold assert in EA. destruct (pc >? lo); discriminate. }
  pose proof (parts_loop_sim (Z.to_nat lo) (pc - lo) parts pc (2 * hi + 2 * sk) r ltac:(lia) ltac:(lia)) as G.
  destruct (parts_loop (Z.to_nat lo) (pc - lo) parts pc (2 * hi + 2 * sk) r) as [[ix r']|c x|u]; cbn [bind].
  - destruct G as (_ & _ & ->). reflexivity.
  - destruct G as (E & -> & ->). repeat split. exact E.
  - rewrite G. reflexivity.
Qed.

(** *** ip_from_string *)
Lemma v6_string_sim ts code value : Forall tok_real ts ->
  match ts with
  | [] => v6_string_st ts code value = Ret (repeat 0 16, [], empty_address, value)
  | _ => outcome (repeat 0 16, []) (v6_from_string true ts) (v6_string_st ts code value)
  end.
Proof.
  intros H. destruct ts as [|t ts]; [reflexivity|]. unfold v6_from_string, v6_string_st. cbv zeta.
  pose proof (split_scope_sim t ts code value H) as G. remember (t :: ts) as l eqn:El. clear El t ts.
  destruct (split_scope_id l) as [[e sid]|c x|u]; cbn [bind].
  2:{ destruct G as (E & a & b & ->). cbn [bind]. rewrite (ok_no _ E). reflexivity. }
  2:{ rewrite G. reflexivity. }
  rewrite G. cbn [bind]. rewrite ok_ok. cbn [negb]. clear G.
  pose proof (split_parts_sim (firstn (Z.to_nat e) l) 0 (firstn_real _ _ H)) as G.
  destruct (split_parts true (firstn (Z.to_nat e) l)) as [[fs n]|c x|u] eqn:EP; cbn [bind].
  2:{ destruct G as (E & ->). cbn [bind]. rewrite (ok_no _ E). reflexivity. }
  2:{ rewrite G. reflexivity. }
  rewrite G. cbn [bind]. rewrite ok_ok. cbn [negb]. clear G. apply split_parts_count in EP.
  pose proof (bound_sim fs n) as G. destruct (get_parts_bound fs n) as [[[hi lo] sk]|c x|u] eqn:EB; cbn [bind].
  2:{ destruct G as (E & -> & ->). cbn [bind]. rewrite (ok_no _ E). reflexivity. }
  2:{ rewrite G. reflexivity. }
  rewrite G. cbn [bind]. rewrite ok_ok. cbn [negb]. clear G. apply bound_range in EB; [|exact EP]. destruct EB as (B1 & B2 & B3 & B4).
  pose proof (parse_parts_sim fs n hi lo sk B1 B2 B3 B4) as G. destruct (parse_parts fs n hi lo sk) as [b|c x|u]; cbn [bind].
  2:{ destruct G as (E & -> & ->). cbn [bind]. rewrite (ok_no _ E). reflexivity. }
  2:{ rewrite G. reflexivity. }
  rewrite G. cbn [bind]. rewrite ok_ok. cbn [negb]. clear G.
  quietly (rd sid 0) (quiet_rd sid 0). destruct (negb (a =? 0)); [|eexists; reflexivity].
  pose proof (fs_make_sim char_next 16 sid no_error char_reader_real) as F. pose proof (fs_fill_quiet 16 sid 16 0 0 (fs_empty 16)) as Q.
  change (fs_fill 16 char_next sid 16 0 0 (fs_empty 16)) with (fs_make char_next 16 sid) in Q.
  destruct (fs_make char_next 16 sid) as [f| |]; cbn [bind fs_outcome] in *; [|contradiction|rewrite F; reflexivity].
  rewrite F. cbn [bind]. eexists. reflexivity.
Qed.
Lemma string_sim v ts code value : Forall tok_real ts ->
  match ts with
  | [] => string_st v ts code value = Ret (addr_default v, empty_address, value)
  | _ => outcome (addr_default v) (addr_parse v ts) (string_st v ts code value)
  end.
Proof.
  intros H. destruct v; cbn [string_st addr_parse].
  - pose proof (v4_string_sim ts code value H) as G. destruct ts as [|t ts]; [rewrite G; reflexivity|].
    destruct (v4_from_string (t :: ts)); cbn [outcome bind] in *; [destruct G as (x & ->); eexists; reflexivity|rewrite G; reflexivity|rewrite G; reflexivity].
  - pose proof (v6_string_sim ts code value H) as G. destruct ts as [|t ts]; [rewrite G; reflexivity|].
    destruct (v6_from_string true (t :: ts)) as [[b s]| |]; cbn [outcome bind] in *; [destruct G as (x & ->); eexists; reflexivity|rewrite G; reflexivity|rewrite G; reflexivity].
Qed.
Lemma string_sim0 v ts code : Forall tok_real ts -> outcome (addr_default v) (addr_parse v ts) (string_st v ts code 0).
Proof. intros H. pose proof (string_sim v ts code 0 H) as G. destruct ts; [|exact G]. rewrite G. destruct v; reflexivity. Qed.
