(** The state-passing parsers of CodeModel compute the outcomes of the parsers
    of the other model files, whatever the code variable held before. *)
From Verif Require Import Base Tac UnicodeModel FixedStringModel V4Model V6Model AddressModel NetworkModel CodeModel SpecCode ErrProofs.

Lemma ok_ok : ok no_error = true.
Proof. reflexivity. Qed.
Lemma ok_no e : e <> no_error -> ok e = false.
Proof. intros H. unfold ok, ec_eqb. destruct (ec_eq_dec e no_error); [contradiction|reflexivity]. Qed.
Lemma ok_yes e : ok e = true -> e = no_error.
Proof. unfold ok, ec_eqb. destruct (ec_eq_dec e no_error); [auto|discriminate]. Qed.

(** [o] reports in its code what [r] has as its outcome; the detail agrees. *)
Definition outcome {A} (d : A) (r : res A) (o : res (A * ec * Z)) : Prop :=
  match r with
  | Ret a => exists x, o = Ret (a, no_error, x)
  | Err e x => o = Ret (d, e, x)
  | UB u => o = UB u
  end.

Ltac stp :=
  repeat first
    [ progress (rewrite ?ok_ok; cbn [negb bind outcome andb orb])
    | reflexivity
    | eexists; reflexivity ].

(** *** IPv4 *)
Lemma v4_loop_sim : forall ts o f d oc i es, Forall tok_real ts ->
  outcome [0; 0; 0; 0] (v4_parse_loop ts o f d oc i) (v4_loop_st ts o f d oc no_error i es).
Proof.
  induction ts as [|[c|e x] ts IH]; intros o f d oc i es H; cbn [v4_parse_loop v4_loop_st next_st].
  - destruct (negb (i =? 3)); [stp|]. destruct (d =? 0); [stp|]. destruct (oc >? 255); [stp|].
    destruct (wr o i _) eqn:E; [stp|pose proof (real_wr o i (Z.land oc 255)) as R; rewrite E in R|stp].
    unfold wr in E. destruct (_ <? _); [discriminate|]. destruct (upd _ _ _); discriminate.
  - inversion H as [|? ? _ H']. subst. rewrite ok_ok. cbn [negb].
    destruct (i >=? 4); [stp|]. destruct ((c >=? 48) && (c <=? 57)).
    + destruct ((d >? 0) && (f =? 48)); [stp|].
      unfold int32. destruct (_ && _); cbn [bind]; [|stp]. destruct (_ && _); cbn [bind]; [|stp].
      destruct (d + 1 >? 3); [stp|]. apply IH. exact H'.
    + destruct ((c =? 46) && (d >? 0)).
      * destruct (oc >? 255); [stp|]. unfold wr. destruct (_ <? _); cbn [bind]; [stp|].
        destruct (upd _ _ _); cbn [bind]; [|stp]. apply IH. exact H'.
      * destruct (c =? 46); stp.
  - inversion H as [|? ? T _]. subst. cbn in T. rewrite (ok_no _ T). stp.
Qed.
Lemma v4_string_sim ts code i : Forall tok_real ts ->
  match ts with
  | [] => v4_string_st ts code i = Ret ([0; 0; 0; 0], empty_address, i)
  | _ => outcome [0; 0; 0; 0] (v4_from_string ts) (v4_string_st ts code i)
  end.
Proof.
  intros H. destruct ts as [|t ts]; [reflexivity|]. unfold v4_from_string, v4_string_st. cbv zeta. apply v4_loop_sim. exact H.
Qed.
Lemma v4_string_sim0 ts code : Forall tok_real ts -> outcome [0; 0; 0; 0] (v4_from_string ts) (v4_string_st ts code 0).
Proof. intros H. pose proof (v4_string_sim ts code 0 H) as E. destruct ts; [|exact E]. rewrite E. reflexivity. Qed.

(** *** Fixed strings *)
Lemma wr_some {A} (l : list A) i x : 0 <= i < zlen l -> exists l', wr l i x = Ret l' /\ zlen l' = zlen l.
Proof.
  intros H. unfold wr, zlen in *. destruct (i <? 0) eqn:E; [lia|].
  assert (G : forall (l : list A) k, (k < length l)%nat -> exists l', upd l k x = Some l' /\ length l' = length l).
  { clear. induction l as [|y l IH]; intros k Hk; [cbn in Hk; lia|]. destruct k as [|k]; cbn [upd]; [eexists; split; reflexivity|].
    destruct (IH k) as (l' & -> & L); [cbn in Hk; lia|]. eexists. split; [reflexivity|]. cbn. congruence. }
  destruct (G l (Z.to_nat i)) as (l' & -> & L); [lia|]. exists l'. split; [reflexivity|]. congruence.
Qed.
(** Readers report real errors. *)
Definition reader_real (next : reader) : Prop :=
  forall data n it, match next data n it with Ret (t, _) => tok_real t | Err _ _ => False | UB _ => True end.
Lemma genuine_reader next : reader_genuine next -> reader_real next.
Proof. intros H data n it. specialize (H data n it). destruct (next data n it) as [[[c|e x] i]| |]; exact H. Qed.
Lemma reader_is_genuine next : reader_real next -> reader_genuine next.
Proof. intros H data n it. specialize (H data n it). destruct (next data n it) as [[[c|e x] i]| |]; exact H. Qed.
Definition fs_outcome (r : res fstr) (o : res (fstr * ec)) : Prop :=
  match r with
  | Ret f => o = Ret (f, no_error)
  | Err e _ => e <> no_error /\ exists f, o = Ret (f, e)
  | UB u => o = UB u
  end.
Lemma fs_fill_sim next : reader_real next -> forall k data n it i f code es, 0 <= i -> i + Z.of_nat k <= zlen (fs_data f) ->
  (k = 0%nat -> code = no_error) ->
  fs_outcome (fs_fill k next data n it i f) (fs_fill_st k next data n it i f code es).
Proof.
  intros R. induction k as [|k IH]; intros data n it i f code es Hi Hk Hc; cbn [fs_fill fs_fill_st].
  - rewrite Hc by reflexivity. reflexivity.
  - pose proof (R data n it) as T. destruct (next data n it) as [[[c|e x] it']| |]; cbn [bind]; [| |contradiction|reflexivity].
    + cbn [next_st]. rewrite ok_ok. cbn [negb]. rewrite orb_false_r.
      destruct (wr_some (fs_data f) i c) as (d & -> & L); [lia|]. cbn [bind].
      destruct (c =? 0); [reflexivity|]. apply IH; [lia|cbn [fs_data]; lia|reflexivity].
    + cbn in T. cbn [next_st]. rewrite (ok_no _ T). cbn [negb orb].
      destruct (wr_some (fs_data f) i 0) as (d & -> & L); [lia|]. cbn [bind fs_outcome]. split; [exact T|]. eexists. reflexivity.
Qed.
Lemma fs_make_sim next n data code : reader_real next -> fs_outcome (fs_make next n data) (fs_make_st next n data code).
Proof.
  intros R. unfold fs_make, fs_make_st. destruct n as [|n]; [reflexivity|].
  apply fs_fill_sim; [exact R|lia| |discriminate]. unfold zlen, fs_empty. cbn [fs_data]. rewrite repeat_length. lia.
Qed.
Lemma rd_no_err {A} (l : list A) i e x : rd l i <> Err e x.
Proof. unfold rd. destruct (_ <? _); [discriminate|]. destruct (nth_error _ _); discriminate. Qed.
Lemma wr_no_err {A} (l : list A) i y e x : wr l i y <> Err e x.
Proof. unfold wr. destruct (_ <? _); [discriminate|]. destruct (upd _ _ _); discriminate. Qed.
Lemma char_reader_real : reader_real char_next.
Proof. intros data n it. unfold char_next. destruct (rd data it) eqn:E; cbn [bind]; [exact I|exact (rd_no_err _ _ _ _ E)|exact I]. Qed.
Lemma utf32_reader_real : reader_real utf32_next.
Proof.
  intros data n it. unfold utf32_next. destruct (rd data it) eqn:E; cbn [bind]; [|exact (rd_no_err _ _ _ _ E)|exact I].
  destruct (_ >? 127); cbn; [discriminate|exact I].
Qed.
Definition quiet {A} (r : res A) : Prop := match r with Err _ _ => False | _ => True end.
Lemma quiet_bind {A B} (m : res A) (k : A -> res B) : quiet m -> (forall a, quiet (k a)) -> quiet (bind m k).
Proof. destruct m; cbn; auto. Qed.
Lemma quiet_rd {A} (l : list A) i : quiet (rd l i).
Proof. destruct (rd l i) eqn:E; [exact I|exact (rd_no_err _ _ _ _ E)|exact I]. Qed.
Lemma reader_last {A} (m : res A) (f : A -> bool * Z * Z) : quiet m ->
  match bind m (fun x => let '(correct, v, it) := f x in
     if negb correct then Ret (Bad wrong_encoding_sequence 0, it) else if v >? 127 then Ret (Bad unexpected_symbol v, it) else Ret (Ch v, it)) with
  | Ret (t, _) => tok_real t | Err _ _ => False | UB _ => True end.
Proof.
  destruct m as [a| |]; cbn [bind quiet]; [|auto|auto]. intros _. destruct (f a) as [[[] v] it]; cbn [negb]; [destruct (v >? 127); cbn; [discriminate|exact I]|discriminate].
Qed.
Lemma quiet_trail s e it : quiet (utf8_trailing s e it).
Proof. unfold utf8_trailing. cbv zeta. destruct (_ >=? _); [exact I|]. apply quiet_bind; [apply quiet_rd|]. intros b. destruct (_ =? _); exact I. Qed.
Lemma utf8_reader_real : reader_real utf8_next.
Proof.
  intros s e it. unfold utf8_next. pose proof (quiet_rd s it) as Q. destruct (rd s it) as [b| |]; cbn [bind]; [|exact Q|exact I]. clear Q.
  match goal with |- match bind ?m _ with _ => _ end => enough (Q : quiet m) end.
  - match goal with |- match bind ?m _ with _ => _ end => destruct m as [[[v c] it']| |]; cbn [bind]; [|exact Q|exact I] end.
    cbv zeta. destruct (negb c); [cbn; discriminate|]. destruct (v >? 127); cbn; [discriminate|exact I].
  - destruct (utf8_code_point b) as [[v n]|]; [|exact I].
    destruct (n =? 1); [exact I|]. destruct (n =? 2); [|destruct (n =? 3)];
      repeat (apply quiet_bind; [apply quiet_trail|]; intros [[? ?] ?]); exact I.
Qed.
Lemma utf16_reader_real : reader_real utf16_next.
Proof.
  intros s e it. unfold utf16_next. pose proof (quiet_rd s it) as Q. destruct (rd s it) as [b| |]; cbn [bind]; [|exact Q|exact I]. clear Q.
  match goal with |- match bind ?m _ with _ => _ end => enough (Q : quiet m) end.
  - match goal with |- match bind ?m _ with _ => _ end => destruct m as [[[v c] it']| |]; cbn [bind]; [|exact Q|exact I] end.
    cbv zeta. destruct (negb c); [cbn; discriminate|]. destruct (v >? 127); cbn; [discriminate|exact I].
  - destruct (_ =? _); [|exact I]. cbv zeta. destruct (_ >=? _); [exact I|]. apply quiet_bind; [apply quiet_rd|]. intros u. destruct (_ =? _); exact I.
Qed.
Lemma tokens_real next s ts : reader_real next -> tokens next s = Ret ts -> Forall tok_real ts.
Proof.
  intros R. unfold tokens. generalize (length s) at 1. intros k. generalize 0 as it. revert ts. induction k as [|k IH]; intros ts it; cbn [tokens_from].
  - destruct (_ <? _); [discriminate|]. intros E. injection E as <-. constructor.
  - destruct (_ <? _); [|intros E; injection E as <-; constructor].
    pose proof (R s (zlen s) it) as T. destruct (next s (zlen s) it) as [[t it']| |]; cbn [bind]; [|discriminate|discriminate].
    destruct (tokens_from k next s it') as [ts'| |] eqn:E; cbn [bind]; [|discriminate|discriminate].
    intros G. injection G as <-. constructor; [exact T|]. eapply IH. exact E.
Qed.

(** *** Netmasks *)
Definition weak {A} (d : A) (w : Z) (r : res A) (o : res (A * ec * Z)) : Prop :=
  match r with
  | Ret a => o = Ret (a, no_error, w)
  | Err e y => e <> no_error /\ o = Ret (d, e, y)
  | UB u => o = UB u
  end.
Lemma quiet_shift32 a n : quiet (shl32 a n) /\ quiet (shr32 a n).
Proof. unfold shl32, shr32. split; destruct (_ && _); exact I. Qed.
Lemma count_quiet n b : quiet (count_righthand_zero_bits n b).
Proof.
  unfold count_righthand_zero_bits. destruct (n =? 0); [exact I|]. cbv zeta. apply quiet_bind; [|intros; exact I].
  generalize 32%nat as k, (Z.land (w32 (Z.lnot n)) (w32 (n - 1))) as m, 0 as c.
  induction k as [|k IH]; intros m c; cbn [popcount_loop]; destruct (m =? 0); try exact I. apply IH.
Qed.
Lemma prefix_sim ip : match prefix_from_ip_uint32 ip with
  | Ret p => prefix_st ip no_error = Ret (p, no_error)
  | Err e _ => e = netmask_pattern_mixes_zeroes_and_ones /\ prefix_st ip no_error = Ret (0, e)
  | UB u => prefix_st ip no_error = UB u end.
Proof.
  unfold prefix_from_ip_uint32, prefix_st.
  pose proof (count_quiet ip 32) as Q. destruct (count_righthand_zero_bits ip 32) as [tz| |]; cbn [bind]; [|contradiction|reflexivity]. cbv zeta.
  match goal with |- context [bind ?m _] => assert (Q1 : quiet m) by (destruct (negb _); [apply quiet_shift32|exact I]); destruct m as [lead| |]; cbn [bind]; [|contradiction|reflexivity] end.
  match goal with |- context [shl32 1 ?n] => pose proof (proj1 (quiet_shift32 1 n)) as Q2; destruct (shl32 1 n) as [x| |]; cbn [bind]; [|contradiction|reflexivity] end.
  pose proof (proj1 (quiet_shift32 x 1)) as Q3. destruct (shl32 x 1) as [y| |]; cbn [bind]; [|contradiction|reflexivity].
  destruct (negb _); [split; reflexivity|reflexivity].
Qed.
Lemma v4_digits_sim : forall ts p h, Forall tok_real ts ->
  match netmask_digits ts p with
  | Ret (b, q) => v4_mask_digits_st ts p h no_error 0 = (Some (b, q, match ts with [] => h | _ => true end), no_error, 0)
  | Err e x => e <> no_error /\ v4_mask_digits_st ts p h no_error 0 = (None, e, x)
  | UB u => False
  end.
Proof.
  induction ts as [|[c|e x] ts IH]; intros p h H; cbn [netmask_digits v4_mask_digits_st next_st].
  - reflexivity.
  - inversion H as [|? ? _ H']. subst. rewrite ok_ok. cbn [negb]. destruct (_ && _).
    + pose proof (IH (w64 (w64 (p * 10) + (c - 48))) true H') as G. destruct (netmask_digits ts _) as [[b q]| |]; [|exact G|exact G].
      rewrite G. destruct ts; reflexivity.
    + reflexivity.
  - inversion H as [|? ? T _]. subst. cbn in T. rewrite (ok_no _ T). split; [exact T|reflexivity].
Qed.
Lemma v4_from_prefix_quiet le p : quiet (v4_from_prefix le p).
Proof.
  unfold v4_from_prefix. destruct (negb _); [|exact I]. apply quiet_bind; [apply quiet_shift32|]. intros x. apply quiet_bind; [apply quiet_shift32|]. intros; exact I.
Qed.
Lemma v4_to_uint_quiet le b : quiet (v4_to_uint le b).
Proof. unfold v4_to_uint. repeat (apply quiet_bind; [apply quiet_rd|]; intros ?). exact I. Qed.
Lemma v4_finish_sim (ts : list tok) p h value : (match ts with [] => h = false | _ => h = true end) ->
  weak ([0; 0; 0; 0], 0) value
    (netmask <- v4_from_prefix true (match ts with [] => 32 | _ => p end) ;; Ret (netmask, match ts with [] => 32 | _ => p end))
    (netmask <- v4_from_prefix true (if h : bool then p else 32) ;; Ret (netmask, if h : bool then p else 32, no_error, value)).
Proof.
  intros H. replace (if h then p else 32) with (match ts with [] => 32 | _ => p end) by (destruct ts; rewrite H; reflexivity).
  generalize (match ts with [] => 32 | _ => p end) as q. intros q. pose proof (v4_from_prefix_quiet true q) as Q.
  destruct (v4_from_prefix true q); cbn [bind weak]; [reflexivity|contradiction|reflexivity].
Qed.
Lemma v4_index ts : forall octets first digits octet index es b z,
  v4_loop_st ts octets first digits octet no_error index es = Ret (b, no_error, z) -> z = 3.
Proof.
  induction ts as [|[c|e x] ts IH]; intros octets first digits octet index es b z E; cbn [v4_loop_st next_st] in E.
  - destruct (Z.eqb_spec index 3); cbn [negb] in E; [|discriminate]. destruct (digits =? 0); [discriminate|]. destruct (octet >? 255); [discriminate|].
    destruct (wr octets index (Z.land octet 255)); cbn [bind] in E; try discriminate. injection E as _ <-. assumption.
  - rewrite ok_ok in E. cbn [negb] in E. destruct (index >=? 4); [discriminate|]. destruct ((c >=? 48) && (c <=? 57)).
    + destruct ((digits >? 0) && (first =? 48)); [discriminate|]. cbv zeta in E. destruct (int32 (octet * 10 + (c - 48))); cbn [bind] in E; try discriminate.
      destruct (int32 (digits + 1)) as [d| |]; cbn [bind] in E; try discriminate. destruct (d >? 3); [discriminate|]. exact (IH _ _ _ _ _ _ _ _ E).
    + destruct ((c =? 46) && (digits >? 0)).
      * destruct (octet >? 255); [discriminate|]. destruct (wr octets index (Z.land octet 255)); cbn [bind] in E; try discriminate. exact (IH _ _ _ _ _ _ _ _ E).
      * destruct (c =? 46); discriminate.
  - destruct (ok e) eqn:O; cbn [negb] in E; [|injection E as _ -> _; discriminate].
    unfold ok, ec_eqb in O. destruct (ec_eq_dec e no_error) as [->|]; [|discriminate]. clear O. destruct (index >=? 4); [discriminate|]. cbn [Z.geb Z.compare andb Z.eqb] in E. discriminate.
Qed.
Lemma v4_mask_sim ts code value : Forall tok_real ts -> weak ([0; 0; 0; 0], 0) (mask_value V4 ts) (v4_parse_netmask true ts) (v4_mask_st ts code value).
Proof.
  intros H. unfold v4_parse_netmask, v4_mask_st. cbv zeta.
  pose proof (v4_digits_sim ts 0 false H) as G. unfold mask_value. destruct (netmask_digits ts 0) as [[b q]|e x|u] eqn:ED; cbn [bind]; [| |contradiction].
  - rewrite G. clear G. destruct b.
    + destruct (q >? 32); cbn [bind]; [split; [discriminate|]; reflexivity|].
      apply v4_finish_sim. destruct ts; reflexivity.
    + destruct ts as [|t ts]; [discriminate|].
      pose proof (v4_string_sim (t :: ts) no_error 0 H) as G. cbv iota in G.
      pose proof (v4_real (t :: ts) H) as RV. destruct (v4_from_string (t :: ts)) as [bytes|e x|u]; cbn [outcome real] in G, RV.
      * destruct G as (z & G). rewrite G. assert (z = 3) as -> by exact (v4_index (t :: ts) _ _ _ _ _ _ _ _ G). cbn [bind]. pose proof (v4_to_uint_quiet true bytes) as Q.
        destruct (v4_to_uint true bytes) as [ip| |]; cbn [bind]; [|contradiction|reflexivity]. rewrite ok_ok. cbn [negb].
        pose proof (prefix_sim ip) as P. destruct (prefix_from_ip_uint32 ip) as [p|e x|u].
        -- rewrite P. cbn [bind]. rewrite ok_ok. cbn [negb]. exact (v4_finish_sim (t :: ts) p true 3 eq_refl).
        -- destruct P as [-> ->]. cbn [bind]. change (ok netmask_pattern_mixes_zeroes_and_ones) with false. cbn [negb].
           pose proof (prefix_sim (Z.lxor ip v4_all_ones)) as P. destruct (prefix_from_ip_uint32 (Z.lxor ip v4_all_ones)) as [p|e' x'|u].
           ++ rewrite P. cbn [bind]. rewrite ok_ok. cbn [negb]. exact (v4_finish_sim (t :: ts) p true 3 eq_refl).
           ++ destruct P as [-> ->]. cbn [bind]. change (ok netmask_pattern_mixes_zeroes_and_ones) with false. cbn [negb bind weak].
              split; [discriminate|]. reflexivity.
           ++ rewrite P. reflexivity.
        -- rewrite P. reflexivity.
      * rewrite G. cbn [bind]. change (v4_to_uint true [0; 0; 0; 0]) with (@Ret Z 0). cbn [bind].
        assert (RE : e <> no_error) by exact RV.
        rewrite (ok_no _ RE). cbn [negb weak]. split; [discriminate|]. reflexivity.
      * rewrite G. reflexivity.
  - destruct G as [E ->]. cbn [weak]. split; [exact E|]. reflexivity.
Qed.
