(** The IPv6 parser, in terms of the pieces between colons. *)
From Verif Require Import Base Tac SpecText TextProofs UnicodeModel FixedStringModel V4Model Uint128Model V6Model
  SpecV4 SpecV6 SpecAddr SpecStr V4Proofs BufProofs BitProofs StrProofs FixedStringProofs.

(** [outcome r o]: [r] returns the value [o] carries, or reports some error. *)
Definition outcome {A} (r : res A) (o : option A) : Prop :=
  match o with Some a => r = Ret a | None => exists e v, r = Err e v end.

Lemma outcome_ret {A} (a : A) : outcome (Ret a) (Some a). Proof. reflexivity. Qed.
Lemma outcome_err {A} e v : outcome (@Err A e v) None. Proof. exists e, v. reflexivity. Qed.
#[export] Hint Resolve outcome_ret outcome_err : core.

(** Text before the first NUL. *)
Fixpoint cut (s : list Z) : list Z :=
  match s with [] => [] | c :: s' => if c =? 0 then [] else c :: cut s' end.
Lemma cut_id s : ~ In 0 s -> cut s = s.
Proof.
  induction s as [|c s IH]; intros H; [reflexivity|]. cbn. destruct (Z.eqb_spec c 0); [subst; exfalso; apply H; left; reflexivity|].
  rewrite IH; [reflexivity|]. intros C. apply H. right. assumption.
Qed.
Lemma cut_no0 s : ~ In 0 (cut s).
Proof. induction s as [|c s IH]; cbn; [tauto|]. destruct (Z.eqb_spec c 0); cbn; [tauto|]. intros [|]; auto. Qed.
Lemma cut_len s : (length (cut s) <= length s)%nat.
Proof. induction s as [|c s IH]; cbn; [lia|]. destruct (c =? 0); cbn; lia. Qed.
Lemma cut_split s : cut s = s \/ exists r, s = cut s ++ 0 :: r.
Proof.
  induction s as [|c s IH]; cbn; [auto|]. destruct (Z.eqb_spec c 0) as [->|].
  - right. exists s. reflexivity.
  - destruct IH as [->|[r E]]; [auto|]. right. exists r. cbn. f_equal. assumption.
Qed.
(** A NUL-terminated array holding [s]. *)
Lemma c_string_cut n s r : (length s <= n)%nat -> c_string n (s ++ 0 :: r) (cut s).
Proof.
  intros Hl. split; [apply cut_no0|]. destruct (cut_split s) as [->|[r' E]].
  - exists (0 :: r). split; [reflexivity|]. destruct (Nat.eq_dec (length s) n); [left; assumption|right].
    split; [lia|eauto].
  - exists (0 :: r' ++ 0 :: r). split; [rewrite E at 1; rewrite <- app_assoc; reflexivity|right].
    apply (f_equal (@length Z)) in E. rewrite app_length in E. cbn in E. split; [lia|eauto].
Qed.

Lemma fs_make_cut n data s : (n <= length data)%nat -> c_string n data s ->
  exists f, fs_make char_next n data = Ret f /\ fs_chars f = s.
Proof.
  intros H Hc. destruct (fs_make_chars n data H) as (f & E & _ & Hs & _). exists f. split; [assumption|].
  eapply c_string_unique; eassumption.
Qed.

Lemma Forall2_length {A B} (R : A -> B -> Prop) l l' : Forall2 R l l' -> length l = length l'.
Proof. induction 1; cbn; congruence. Qed.

(** ** Scope id *)
Fixpoint scan_scope (s : list Z) (scope : bool) (a t : list Z) : option (bool * list Z * list Z) :=
  match s with
  | [] => Some (scope, a, t)
  | c :: s' =>
      if scope then
        if (zlen t >? 15) || is_invalid_scope_id_symbol c then None
        else scan_scope s' true a (t ++ [c])
      else if c =? 37 then scan_scope s' true a t
      else scan_scope s' false (a ++ [c]) t
  end.

Lemma split_scope_sim : forall s scope a t, (scope = false -> t = []) ->
  zlen t <= 16 ->
  outcome (split_scope_loop (chars s) (zlen a + (if scope : bool then 1 + zlen t else 0)) (zlen a) scope (buf 17 t) (zlen t))
    (match scan_scope s scope a t with
     | Some (b, a', t') => Some (zlen a', b, buf 17 t')
     | None => None
     end).
Proof.
  induction s as [|c s IH]; intros scope a t Ht Hl; cbn [chars map split_scope_loop scan_scope].
  - apply outcome_ret.
  - destruct scope; cbn [negb andb].
    + change (map Ch s) with (chars s). unfold scope_max.
      destruct (Z.gtb_spec (zlen t) (16 - 1)) as [G|G].
      { destruct (Z.gtb_spec (zlen t) 15); [|lia]. cbn [orb]. apply outcome_err. }
      destruct (Z.gtb_spec (zlen t) 15); [lia|]. cbn [orb].
      destruct (is_invalid_scope_id_symbol c); [apply outcome_err|].
      rewrite wr_buf by lia. cbn [bind].
      specialize (IH true a (t ++ [c]) ltac:(discriminate)). autorewrite with zl in IH.
      replace (zlen a + (1 + zlen t) + 1) with (zlen a + (1 + (zlen t + (0 + 1)))) by lia.
      replace (zlen t + 1) with (zlen t + (0 + 1)) by lia. apply IH. lia.
    + rewrite (Ht eq_refl). change (zlen (@nil Z)) with 0. change (map Ch s) with (chars s).
      destruct (Z.eqb_spec c 37); cbn [negb].
      * specialize (IH true a [] ltac:(discriminate)). change (zlen (@nil Z)) with 0 in IH.
        replace (zlen a + 0 + 1) with (zlen a + (1 + 0)) by lia. apply IH. lia.
      * specialize (IH false (a ++ [c]) [] ltac:(reflexivity)). change (zlen (@nil Z)) with 0 in IH.
        autorewrite with zl in IH. replace (zlen a + 0 + 1) with (zlen a + (0 + 1) + 0) by lia.
        replace (zlen a + (0 + 1) + 0) with (zlen a + (0 + 1)) at 2 by lia. apply IH. lia.
Qed.

Lemma hd_buf t : rd (buf 17 t) 0 = Ret (hd 0 t).
Proof. destruct t; reflexivity. Qed.

Lemma split_scope_ok s :
  outcome (split_scope_id (chars s))
    (match scan_scope s false [] [] with
     | Some (b, a, t) => if b && (hd 0 t =? 0) then None else Some (zlen a, buf 17 t)
     | None => None
     end).
Proof.
  unfold split_scope_id. change (repeat 0 17) with (buf 17 []).
  pose proof (split_scope_sim s false [] [] ltac:(reflexivity) ltac:(cbn; lia)) as H.
  change (zlen (@nil Z)) with 0 in H. cbn iota in H. change (0 + 0) with 0 in H.
  destruct (scan_scope s false [] []) as [[[b a] t]|]; cbn [outcome] in H.
  - rewrite H. cbn [bind]. rewrite hd_buf. cbn [bind]. destruct (b && (hd 0 t =? 0)); auto.
  - destruct H as (e & v & ->). apply outcome_err.
Qed.

Lemma scan_scope_true : forall s a t r, scan_scope s true a t = r ->
  r = if (forallb (fun c => negb (is_invalid_scope_id_symbol c)) s) && (zlen t + zlen s <=? 16) || (match s with [] => true | _ => false end)
      then Some (true, a, t ++ s) else None.
Proof.
  induction s as [|c s IH]; intros a t r <-; cbn [scan_scope forallb].
  - rewrite app_nil_r, orb_true_r. reflexivity.
  - rewrite (IH a (t ++ [c]) _ eq_refl). autorewrite with zl. pose proof (zlen_nonneg s). rewrite orb_false_r.
    destruct (Z.gtb_spec (zlen t) 15); cbn [orb].
    + destruct (Z.leb_spec (zlen t + (zlen s + 1)) 16); [lia|]. rewrite andb_false_r. reflexivity.
    + destruct (is_invalid_scope_id_symbol c); [reflexivity|]. cbn [negb andb].
      rewrite <- app_assoc. cbn [app].
      replace (zlen t + (zlen s + 1)) with (zlen t + (0 + 1) + zlen s) by lia.
      destruct (forallb _ s && (zlen t + (0 + 1) + zlen s <=? 16)) eqn:E; [reflexivity|].
      destruct s as [|x s]; [|reflexivity].
      exfalso. cbn in E. change (zlen (@nil Z)) with 0 in E. lia.
Qed.

(** The scan splits at the first '%'. *)
Lemma scan_scope_false : forall s a0, ~ In 37 s -> scan_scope s false a0 [] = Some (false, a0 ++ s, []).
Proof.
  induction s as [|c s IH]; intros a0 H; cbn [scan_scope]; [rewrite app_nil_r; reflexivity|].
  destruct (Z.eqb_spec c 37); [subst; exfalso; apply H; left; reflexivity|].
  rewrite IH, <- app_assoc; [reflexivity|]. intros C; apply H; right; assumption.
Qed.
Lemma scan_scope_sep : forall a t a0, ~ In 37 a ->
  scan_scope (a ++ 37 :: t) false a0 [] =
  if (forallb (fun c => negb (is_invalid_scope_id_symbol c)) t) && (zlen t <=? 16)
  then Some (true, a0 ++ a, t) else None.
Proof.
  induction a as [|c a IH]; intros t a0 H; cbn [app scan_scope].
  - change (37 =? 37) with true. cbn iota. rewrite (scan_scope_true t a0 [] _ eq_refl), app_nil_r.
    change (zlen (@nil Z)) with 0. rewrite Z.add_0_l. cbn [app].
    destruct t; [reflexivity|]. rewrite orb_false_r. reflexivity.
  - destruct (Z.eqb_spec c 37); [subst; exfalso; apply H; left; reflexivity|].
    rewrite IH, <- app_assoc; [reflexivity|]. intros C; apply H; right; assumption.
Qed.
Lemma split_first (c : Z) s : ~ In c s \/ exists a t, s = a ++ c :: t /\ ~ In c a.
Proof.
  induction s as [|x s IH]; [left; intros []|].
  destruct (Z.eq_dec x c) as [->|N]; [right; exists [], s; auto|].
  destruct IH as [H|(a & t & -> & H)]; [left|right]; [|exists (x :: a), t; split; [reflexivity|]]; intros [|]; auto.
Qed.

(** ** Splitting at colons *)
Fixpoint scan (s : list Z) (done : list (list Z)) (cur : list Z) : option (list (list Z) * list Z) :=
  match s with
  | [] => Some (done, cur)
  | c :: s' =>
      if zlen done >? 8 then None
      else if c =? 58 then if zlen cur >? 4 then None else scan s' (done ++ [cur]) []
      else if zlen cur >? 15 then None else scan s' done (cur ++ [c])
  end.

(** A five-character array holding the piece [p]. *)
Definition holds (b p : list Z) : Prop := length b = 5%nat /\ c_string 4 b (cut p).
Definition arr_ok (parts : list (list Z)) (done : list (list Z)) : Prop :=
  exists bs, parts = bs ++ repeat (repeat 0 5) (9 - length done) /\ Forall2 holds bs done.
Definition last_ok (last cur : list Z) : Prop :=
  length last = 17%nat /\ exists j, last = cur ++ 0 :: j.

Lemma arr_ok_init : arr_ok (repeat (repeat 0 5) 9) [].
Proof. exists []. split; [reflexivity|constructor]. Qed.
Lemma last_ok_init : last_ok (repeat 0 17) [].
Proof. split; [reflexivity|exists (repeat 0 16); reflexivity]. Qed.

Lemma firstn_c_string l p : last_ok l p -> (length p <= 4)%nat ->
  holds (firstn 4 l ++ [0]) p.
Proof.
  intros [Hl [j ->]] Hp. unfold holds.
  assert (length (firstn 4 (p ++ 0 :: j) ++ [0]) = 5%nat) as L
    by (rewrite app_length, firstn_length, Hl; reflexivity).
  split; [assumption|].
  assert (exists r, firstn 4 (p ++ 0 :: j) ++ [0] = p ++ 0 :: r) as [r ->].
  { rewrite firstn_app, firstn_all2 by lia. destruct (4 - length p)%nat eqn:E; cbn [firstn].
    - exists []. rewrite app_nil_r. reflexivity.
    - eexists. rewrite <- app_assoc. reflexivity. }
  apply c_string_cut. assumption.
Qed.

Lemma copy_part_ok parts last done cur : arr_ok parts done -> last_ok last cur -> (length done <= 8)%nat ->
  (length cur <= 4)%nat -> exists parts', copy_part last parts (zlen done) = Ret parts' /\ arr_ok parts' (done ++ [cur]).
Proof.
  intros (bs & -> & Hf) HL Hd Hc. pose proof (Forall2_length _ _ _ Hf) as Hlen.
  replace (9 - length done)%nat with (S (9 - length (done ++ [cur])))
    by (rewrite app_length; cbn [length]; lia).
  change (repeat (repeat 0 5) (S ?n)) with (repeat 0 5 :: repeat (repeat 0 5) n).
  unfold copy_part. assert (zlen done = zlen bs) as -> by (unfold zlen; lia).
  rewrite rd_mid by reflexivity. cbn [bind].
  pose proof (firstn_c_string last cur HL Hc) as Hh. destruct HL as [L _].
  destruct last as [|l0 [|l1 [|l2 [|l3 last]]]]; try discriminate L.
  change (rd (l0 :: l1 :: l2 :: l3 :: last) 0) with (Ret l0).
  change (rd (l0 :: l1 :: l2 :: l3 :: last) 1) with (Ret l1).
  change (rd (l0 :: l1 :: l2 :: l3 :: last) 2) with (Ret l2).
  change (rd (l0 :: l1 :: l2 :: l3 :: last) 3) with (Ret l3).
  cbn [bind].
  change (wr (repeat 0 5) 0 l0) with (Ret [l0; 0; 0; 0; 0]). cbn [bind].
  change (wr [l0; 0; 0; 0; 0] 1 l1) with (Ret [l0; l1; 0; 0; 0]). cbn [bind].
  change (wr [l0; l1; 0; 0; 0] 2 l2) with (Ret [l0; l1; l2; 0; 0]). cbn [bind].
  change (wr [l0; l1; l2; 0; 0] 3 l3) with (Ret [l0; l1; l2; l3; 0]). cbn [bind].
  rewrite wr_mid by reflexivity. eexists. split; [reflexivity|].
  exists (bs ++ [[l0; l1; l2; l3; 0]]). split.
  - rewrite <- app_assoc. reflexivity.
  - apply Forall2_app; [assumption|]. constructor; [assumption|constructor].
Qed.

Lemma split_loop_sim : forall s done cur parts last prev dc,
  arr_ok parts done -> last_ok last cur -> (length done <= 9)%nat ->
  match scan s done cur with
  | Some (d, c) => exists p l, split_loop (chars s) parts last (zlen done) (zlen cur) prev dc = Ret (p, l, zlen d, zlen c)
                     /\ arr_ok p d /\ last_ok l c /\ (length d <= 9)%nat
  | None => exists e v, split_loop (chars s) parts last (zlen done) (zlen cur) prev dc = Err e v
  end.
Proof.
  induction s as [|c s IH]; intros done cur parts last prev dc HA HL Hd; cbn [scan chars map split_loop].
  - exists parts, last. auto.
  - change (map Ch s) with (chars s). cbv zeta.
    destruct (Z.gtb_spec (zlen done) 8); [eauto|].
    destruct (Z.eqb_spec c 58); cbn [negb].
    + destruct (Z.gtb_spec (zlen cur) 4); [eauto|]. unfold zlen in *.
      destruct (copy_part_ok parts last done cur HA HL ltac:(lia) ltac:(lia)) as (parts' & E & HA').
      unfold zlen in E. rewrite E. cbn [bind].
      destruct HL as [L [j ->]].
      assert (exists l', wr (cur ++ 0 :: j) 0 0 = Ret l' /\ last_ok l' []) as (l' & -> & HL').
      { destruct cur as [|x cur]; cbn [app].
        - exists (0 :: j). split; [reflexivity|]. split; [assumption|]. exists j. reflexivity.
        - exists (0 :: cur ++ 0 :: j). split; [apply (wr_mid [] _ x); reflexivity|]. split; [assumption|]. eexists. reflexivity. }
      cbn [bind]. specialize (IH (done ++ [cur]) [] parts' l' c (if negb dc && true && (prev =? 58) then true else dc) HA' HL').
      rewrite app_length in IH. cbn [length] in IH.
      replace (w32 (Z.of_nat (length done) + 1)) with (Z.of_nat (length done + 1))
        by (unfold w32; rewrite Z.mod_small; lia).
      apply IH. lia.
    + destruct (Z.gtb_spec (zlen cur) 15); [eauto|].
      destruct HL as [L [j ->]]. rewrite wr_mid by reflexivity. cbn [bind].
      assert (exists x j', j = x :: j') as (x & j' & ->).
      { destruct j; [|eauto]. rewrite app_length in L. unfold zlen in *. cbn in L. lia. }
      replace (cur ++ c :: x :: j') with ((cur ++ [c]) ++ x :: j') by (rewrite <- app_assoc; reflexivity).
      replace (zlen cur + 1) with (zlen (cur ++ [c])) by (autorewrite with zl; lia).
      rewrite wr_mid by reflexivity. cbn [bind]. apply IH; [assumption| |assumption].
      split; [|eauto]. rewrite <- L, !app_length. cbn [length]. lia.
Qed.

Lemma scan_bound : forall s done cur d c, scan s done cur = Some (d, c) ->
  (length done <= 9)%nat -> zlen cur <= 16 -> zlen c <= 16 /\ (length d <= 9)%nat.
Proof.
  induction s as [|x s IH]; intros done cur d c E Hd Hc; cbn [scan] in E.
  - inversion E; subst. auto.
  - destruct (Z.gtb_spec (zlen done) 8); [discriminate|].
    destruct (x =? 58).
    + destruct (Z.gtb_spec (zlen cur) 4); [discriminate|]. eapply IH; [eassumption| |cbn; lia].
      unfold zlen in *. rewrite app_length. cbn [length]. lia.
    + destruct (Z.gtb_spec (zlen cur) 15); [discriminate|]. eapply IH; [eassumption|assumption|].
      autorewrite with zl. lia.
Qed.

Lemma has_dot_ok : forall cur i pre j last, last = pre ++ cur ++ j -> i = zlen pre ->
  has_dot (length cur) i last = Ret (existsb (fun c => c =? 46) cur).
Proof.
  induction cur as [|c cur IH]; intros i pre j last -> ->; [reflexivity|].
  cbn [length has_dot app existsb]. rewrite rd_mid by reflexivity. cbn [bind].
  destruct (c =? 46); [reflexivity|]. cbn [orb].
  apply (IH _ (pre ++ [c]) j); [rewrite <- app_assoc; reflexivity|autorewrite with zl; lia].
Qed.

Lemma v4_parse_array_ok l cur : last_ok l cur -> (length cur <= 16)%nat ->
  v4_parse_array l = v4_from_string (chars (cut cur)).
Proof.
  intros [L [j ->]] H. unfold v4_parse_array.
  destruct (fs_make_cut 16 (cur ++ 0 :: j) (cut cur)) as (f & -> & <-); [lia|apply c_string_cut; assumption|].
  reflexivity.
Qed.

Definition hexc (d : Z) : Z := if d <? 10 then d + 48 else d + 87.
Definition hex4 (v : Z) : list Z := [hexc (v / 4096); hexc (v / 256 mod 16); hexc (v / 16 mod 16); hexc (v mod 16)].

Lemma rd_hex d : 0 <= d < 16 -> rd hex_digits d = Ret (hexc d).
Proof.
  intros H. pose proof (in_upto 16 d ltac:(lia)) as I. revert d I H.
  assert (forallb (fun d => match rd hex_digits d with Ret c => c =? hexc d | _ => false end) (upto 16) = true) as F by reflexivity.
  intros d I _. rewrite forallb_forall in F. specialize (F d I). destruct (rd hex_digits d); try discriminate.
  apply Z.eqb_eq in F. subst. reflexivity.
Qed.

Lemma to_hex_ok v : 0 <= v < 65536 -> to_hex v [0; 0; 0; 0; 0] = Ret (hex4 v ++ [0]).
Proof.
  intros H. unfold to_hex. cbn [to_hex_loop].
  assert (forall x, Z.land x 15 = x mod 16) as LA by (intros; change 15 with (Z.ones 4); apply Z.land_ones; lia).
  rewrite !LA, !shr_div by lia.
  replace (v / 2 ^ 12 mod 16) with (v / 4096) by (change (2 ^ 12) with 4096; lia).
  change (2 ^ (12 - 4)) with 256. change (2 ^ (12 - 4 - 4)) with 16.
  replace (v / 2 ^ (12 - 4 - 4 - 4)) with v by (change (2 ^ (12 - 4 - 4 - 4)) with 1; lia).
  rewrite !rd_hex by lia. reflexivity.
Qed.

Lemma hexc_not0 d : 0 <= d < 16 -> hexc d <> 0.
Proof. unfold hexc. destruct (Z.ltb_spec d 10); lia. Qed.

Lemma holds_hex v : 0 <= v < 65536 -> holds (hex4 v ++ [0]) (hex4 v) /\ cut (hex4 v) = hex4 v.
Proof.
  intros H. split; [|apply cut_id].
  - split; [reflexivity|]. apply c_string_cut. cbn. lia.
  - unfold hex4. intros [C|[C|[C|[C|[]]]]]; apply hexc_not0 in C; try lia; contradiction.
Qed.

Lemma make_parts_app a b : make_parts (a ++ b) = x <- make_parts a ;; y <- make_parts b ;; Ret (x ++ y).
Proof.
  induction a as [|p a IH]; cbn [app make_parts bind].
  - destruct (make_parts b); reflexivity.
  - destruct (fs_make char_next 4 p); cbn [bind]; try reflexivity. rewrite IH.
    destruct (make_parts a); cbn [bind]; try reflexivity. destruct (make_parts b); reflexivity.
Qed.

Lemma make_parts_ok parts done : arr_ok parts done -> (length done <= 9)%nat ->
  make_parts parts = Ret (map cut done ++ repeat [] (9 - length done)).
Proof.
  intros (bs & -> & HF) H. rewrite make_parts_app.
  assert (make_parts bs = Ret (map cut done)) as ->.
  { induction HF as [|b p bs done [Hl Hh] HF IH]; [reflexivity|]. cbn [make_parts map].
    destruct (fs_make_cut 4 b (cut p)) as (f & -> & E); [lia|assumption|]. cbn [bind].
    rewrite IH by (cbn in H; lia). cbn [bind]. rewrite E. reflexivity. }
  cbn [bind]. assert (forall n, make_parts (repeat (repeat 0 5) n) = Ret (repeat [] n)) as ->; [|reflexivity].
  induction n as [|n IH]; [reflexivity|]. change (repeat (repeat 0 5) (S n)) with (repeat 0 5 :: repeat (repeat 0 5) n).
  cbn [make_parts]. destruct (fs_make_cut 4 (repeat 0 5) []) as (f & -> & E).
  - cbn; lia.
  - apply (c_string_cut 4 [] (repeat 0 4)). cbn; lia.
  - cbn [bind]. rewrite IH. cbn [bind]. rewrite E. reflexivity.
Qed.

(** Writing a hextet over the first unused array. *)
Lemma put_hex_ok parts done v : arr_ok parts done -> (length done <= 8)%nat -> 0 <= v < 65536 ->
  exists p, rd parts (zlen done) = Ret p /\ to_hex v p = Ret (hex4 v ++ [0]) /\
  exists parts', wr parts (zlen done) (hex4 v ++ [0]) = Ret parts' /\ arr_ok parts' (done ++ [hex4 v]).
Proof.
  intros (bs & -> & Hf) Hd Hv. pose proof (Forall2_length _ _ _ Hf) as Hlen.
  replace (9 - length done)%nat with (S (9 - length (done ++ [hex4 v])))
    by (rewrite app_length; cbn [length]; lia).
  change (repeat (repeat 0 5) (S ?n)) with (repeat 0 5 :: repeat (repeat 0 5) n).
  exists (repeat 0 5). rewrite rd_mid by (unfold zlen; lia).
  split; [reflexivity|]. split; [apply to_hex_ok; assumption|].
  rewrite wr_mid by (unfold zlen; lia). eexists. split; [reflexivity|].
  exists (bs ++ [hex4 v ++ [0]]). split; [rewrite <- app_assoc; reflexivity|].
  apply Forall2_app; [assumption|]. constructor; [apply holds_hex; assumption|constructor].
Qed.

(** The parts as strings: the pieces up to their first NUL, a dotted quad
    replaced by two hextets. *)
Definition abs_last (d : list (list Z)) (c : list Z) : option (list (list Z)) :=
  if existsb (fun c => c =? 46) c then
    if zlen d + 1 >=? 8 then None
    else match v4_from_string (chars (cut c)) with
         | Ret [a; b; x; y] => Some (d ++ [hex4 (a * 256 + b); hex4 (x * 256 + y)])
         | _ => None
         end
  else if zlen c >? 4 then None else Some (d ++ [c]).
Definition abs_parts (s : list Z) : option (list (list Z)) :=
  match scan s [] [] with
  | None => None
  | Some (d, c) =>
      if zlen d >? 8 then None
      else match abs_last d c with
           | None => None
           | Some ps => if zlen ps <? 3 then None else Some (map cut ps)
           end
  end.

Lemma quad_hextets a b c d : is_byte a -> is_byte b -> is_byte c -> is_byte d ->
  Z.land (Z.shiftr (pack4 a b c d) 16) 0xFFFF = a * 256 + b /\ Z.land (pack4 a b c d) 0xFFFF = c * 256 + d.
Proof.
  unfold is_byte. intros. change 65535 with (Z.ones 16). rewrite !Z.land_ones, shr_div by lia.
  unfold pack4. pows. split; lia.
Qed.

Lemma dotted_bytes s bs : dotted_quad s bs -> exists a b c d, bs = [a; b; c; d] /\ is_byte a /\ is_byte b /\ is_byte c /\ is_byte d.
Proof.
  intros (sa & sb & sc & sd & a & b & c & d & Ha & Hb & Hc & Hd & _ & ->).
  apply octet_cur_ok in Ha, Hb, Hc, Hd. exists a, b, c, d. unfold is_byte. intuition lia.
Qed.

Lemma split_parts_ok s :
  match abs_parts s with
  | Some ps => split_parts true (chars s) = Ret (ps ++ repeat [] (9 - length ps), zlen ps) /\ 3 <= zlen ps <= 9
  | None => exists e v, split_parts true (chars s) = Err e v
  end.
Proof.
  unfold split_parts, abs_parts.
  pose proof (split_loop_sim s [] [] (repeat (repeat 0 5) 9) (repeat 0 17) 0 false arr_ok_init last_ok_init ltac:(cbn; lia)) as H.
  change (zlen (@nil (list Z))) with 0 in H. change (zlen (@nil Z)) with 0 in H.
  destruct (scan s [] []) as [[d c]|] eqn:ES.
  2:{ destruct H as (e & v & ->). cbn [bind]. eauto. }
  destruct (scan_bound s [] [] d c ES ltac:(cbn; lia) ltac:(cbn; lia)) as [Hc _].
  destruct H as (p & l & -> & HA & HL & Hd). cbn [bind].
  destruct (Z.gtb_spec (zlen d) 8) as [G|G].
  - assert (length d = 9%nat) as L9 by (unfold zlen in G; lia).
    destruct HA as (bs & -> & HF). pose proof (Forall2_length _ _ _ HF) as E. rewrite L9 in *.
    destruct HL as [Ll _].
    destruct bs as [|b0 [|b1 bs]]; try discriminate E. 
    inversion HF as [|? ? ? ? [H0 _] HF1]; subst. inversion HF1 as [|? ? ? ? [H1 _] _]; subst.
    destruct b0 as [|x0 b0]; [discriminate|]. destruct b1 as [|x1 b1]; [discriminate|].
    destruct l as [|yy l]; [discriminate|]. cbn [app].
    change (rd ((x0 :: b0) :: ?r) 0) with (@Ret (list Z) (x0 :: b0)). cbn [bind].
    change (rd (x0 :: b0) 0) with (Ret x0). cbn [bind].
    change (rd (?q :: (x1 :: b1) :: ?r) 1) with (@Ret (list Z) (x1 :: b1)). cbn [bind].
    change (rd (x1 :: b1) 0) with (Ret x1). cbn [bind].
    change (rd (yy :: l) 0) with (Ret yy). cbn [bind].
    destruct (x0 =? 0), (negb (x1 =? 0)), (yy =? 0); cbn [andb]; eauto.
  - rewrite to_nat_zlen. destruct HL as [Ll [j EL]].
    rewrite (has_dot_ok c 0 [] (0 :: j) l) by (assumption || reflexivity). cbn [bind].
    unfold abs_last. destruct (existsb (fun c => c =? 46) c).
    + destruct (Z.geb_spec (zlen d + 1) 8) as [G8|G8]; [cbn [bind]; eauto|].
      rewrite (v4_parse_array_ok l c (conj Ll (ex_intro _ j EL)) ltac:(unfold zlen in Hc; lia)).
      pose proof (v4_defined (chars (cut c))) as HD.
      destruct (v4_from_string (chars (cut c))) as [bs|e v|u] eqn:EV; [|cbn [bind]; eauto|contradiction].
      apply v4_accept_iff, dotted_bytes in EV. destruct EV as (a & b & x & y & -> & Ba & Bb & Bx & By).
      rewrite v4_to_uint_pack by assumption. cbn [bind].
      destruct (quad_hextets a b x y Ba Bb Bx By) as [-> ->].
      assert (0 <= a * 256 + b < 65536 /\ 0 <= x * 256 + y < 65536) as [V1 V2] by (unfold is_byte in *; lia).
      assert (length d <= 6)%nat by (unfold zlen in *; lia).
      destruct (put_hex_ok p d _ HA ltac:(lia) V1) as (q & -> & E & p' & E' & HA'). cbn [bind].
      rewrite E. cbn [bind]. rewrite E'. cbn [bind]. clear E E' q.
      replace (zlen d + 1) with (zlen (d ++ [hex4 (a * 256 + b)])) by (autorewrite with zl; lia).
      destruct (put_hex_ok p' _ _ HA' ltac:(rewrite app_length; cbn [length]; lia) V2) as (q & -> & E & p'' & E' & HA''). cbn [bind].
      rewrite E. cbn [bind]. rewrite E'. cbn [bind]. clear E E' q.
      rewrite <- app_assoc in HA''. cbn [app] in HA''.
      replace (zlen (d ++ [hex4 (a * 256 + b)]) + 1) with (zlen (d ++ [hex4 (a * 256 + b); hex4 (x * 256 + y)]))
        by (autorewrite with zl; lia).
      set (ps := d ++ [_; _]) in *.
      assert (length ps <= 9)%nat by (unfold ps; rewrite app_length; cbn [length]; lia).
      destruct (Z.ltb_spec (zlen ps) 3); [eauto|].
      rewrite (make_parts_ok p'' ps) by assumption. cbn [bind].
      unfold zlen in *. rewrite map_length. split; [reflexivity|lia].
    + destruct (Z.gtb_spec (zlen c) 4); [cbn [bind]; eauto|].
      destruct (copy_part_ok p l d c HA ltac:(split; eauto) ltac:(unfold zlen in *; lia) ltac:(unfold zlen in *; lia)) as (p' & -> & HA').
      cbn [bind]. replace (zlen d + 1) with (zlen (d ++ [c])) by (autorewrite with zl; lia).
      set (ps := d ++ [c]) in *.
      assert (length ps <= 9)%nat by (unfold ps; rewrite app_length; cbn [length]; unfold zlen in *; lia).
      destruct (Z.ltb_spec (zlen ps) 3); [eauto|].
      rewrite (make_parts_ok p' ps) by assumption. cbn [bind].
      unfold zlen in *. rewrite map_length. split; [reflexivity|lia].
Qed.
