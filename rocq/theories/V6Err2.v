(** The errors of the IPv6 parser: what is wrong with the fields. *)
From Verif Require Import Base Tac SpecText TextProofs UnicodeModel FixedStringModel V4Model Uint128Model V6Model
  SpecV4 SpecV6 SpecV6Err SpecAddr SpecStr V4Proofs BufProofs BitProofs StrProofs FixedStringProofs V6Proofs V6Parse V6Grammar V6Full
  V6Format V6Lemmas V6Err.
From Verif Require EndianProofs4.

Lemma existsb_dot f : existsb (fun c => c =? 46) f = true <-> In 46 f.
Proof.
  rewrite existsb_exists. split.
  - intros (x & I & E). apply Z.eqb_eq in E. subst. exact I.
  - intros I. exists 46. auto.
Qed.
Lemma existsb_dot_false f : existsb (fun c => c =? 46) f = false <-> ~ In 46 f.
Proof. rewrite <- existsb_dot. destruct (existsb _ f); split; congruence. Qed.

(** ** Fields *)
Lemma fields_ex s : exists fs, fields s fs.
Proof.
  assert (H : forall n s, (length s <= n)%nat -> exists fs, fields s fs).
  { induction n as [|n IH]; intros u Hu.
    - destruct u; [|cbn in Hu; lia]. exists [[]]. split; [discriminate|]. split; [reflexivity|]. constructor; [intros []|constructor].
    - destruct (split_first 58 u) as [N|(a & t & -> & N)].
      + exists [u]. split; [discriminate|]. split; [reflexivity|]. constructor; [exact N|constructor].
      + rewrite app_length in Hu. cbn [length] in Hu. destruct (IH t ltac:(lia)) as (fs & Nf & -> & F).
        exists (a :: fs). split; [discriminate|]. split; [symmetry; apply join_cons; exact Nf|]. constructor; assumption. }
  apply (H (length s)). lia.
Qed.
Lemma fields_no0 s fs : fields s fs -> no_nul s -> Forall (fun f => ~ In 0 f) fs.
Proof. intros (_ & -> & _) N. apply Forall_forall. intros f I C. apply N. eapply join_in; eassumption. Qed.

(** ** Splitting *)
Definition scanL (done fs : list (list Z)) : res (list (list Z) * list Z) :=
  match fs with [] => UB AssertFailed | f :: fs' => scanF done f fs' end.
Lemma scanL_app : forall p done q, Forall short p -> zlen done + zlen p <= 9 -> q <> [] -> scanL done (p ++ q) = scanL (done ++ p) q.
Proof.
  induction p as [|f p IH]; intros done q Hp Hl Hq; cbn [app]; [rewrite app_nil_r; reflexivity|].
  inversion Hp as [|? ? Hf Hp']; subst. autorewrite with zl in Hl. pose proof (zlen_nonneg p).
  assert (N : p ++ q <> []) by (destruct p; [exact Hq|discriminate]).
  cbn [scanL]. destruct (p ++ q) as [|g r] eqn:E; [contradiction|]. cbn [scanF].
  destruct (Z.gtb_spec (zlen done) 8); [lia|]. unfold short in Hf. destruct (Z.gtb_spec (zlen f) 4); [lia|].
  change (scanF (done ++ [f]) g r) with (scanL (done ++ [f]) (g :: r)). rewrite <- E.
  rewrite IH by (try assumption; autorewrite with zl; lia). rewrite <- app_assoc. reflexivity.
Qed.
Lemma shorts fs : fs <> [] -> exists p q, fs = p ++ q /\ Forall short p /\ q <> [] /\ zlen p <= 9 /\
  (zlen p = 9 \/ (exists f r, q = f :: r /\ ~ short f) \/ exists f, q = [f]).
Proof.
  assert (H : forall fs k, fs <> [] -> 0 <= k <= 9 -> exists p q, fs = p ++ q /\ Forall short p /\ q <> [] /\ k + zlen p <= 9 /\
    (k + zlen p = 9 \/ (exists f r, q = f :: r /\ ~ short f) \/ exists f, q = [f])).
  { clear fs. induction fs as [|f fs IH]; intros k Nf Hk; [contradiction|].
    destruct (Z.eq_dec k 9) as [->|Nk].
    { exists [], (f :: fs). split; [reflexivity|]. split; [constructor|]. split; [discriminate|]. change (zlen (@nil (list Z))) with 0.
      split; [lia|]. left. lia. }
    destruct (Z_le_gt_dec (zlen f) 4) as [Sf|Sf].
    2:{ exists [], (f :: fs). split; [reflexivity|]. split; [constructor|]. split; [discriminate|]. change (zlen (@nil (list Z))) with 0.
        split; [lia|]. right. left. exists f, fs. split; [reflexivity|]. unfold short. lia. }
    destruct fs as [|g fs].
    { exists [], [f]. split; [reflexivity|]. split; [constructor|]. split; [discriminate|]. change (zlen (@nil (list Z))) with 0.
      split; [lia|]. right. right. exists f. reflexivity. }
    destruct (IH (k + 1) ltac:(discriminate) ltac:(lia)) as (p & q & E & Hp & Hq & Hl & Hc).
    exists (f :: p), q. rewrite E. split; [reflexivity|]. split; [constructor; assumption|]. split; [exact Hq|]. autorewrite with zl.
    split; [lia|]. destruct Hc as [Hc|Hc]; [left; lia|right; exact Hc]. }
  intros N. destruct (H fs 0 N ltac:(lia)) as (p & q & E & Hp & Hq & Hl & Hc). exists p, q. rewrite Z.add_0_l in *. auto.
Qed.

Lemma gapb_in p : gapb p = true <-> In [] (tl p).
Proof.
  unfold gapb. rewrite existsb_exists. split.
  - intros (x & I & E). apply zlen0_nil in E. subst. exact I.
  - intros I. exists []. auto.
Qed.

(** What stops the splitting. *)
Lemma scan_nine p q : zlen p = 9 -> q <> [] -> q <> [[]] -> 
  (adjacent p q /\ scanL p q = Err expected_at_most_7_other_parts_with_double_colon 9) \/
  (~ adjacent p q /\ scanL p q = Err most_8_colons_permitted 9).
Proof.
  intros H9 Nq N1. destruct q as [|f r]; [contradiction|]. cbn [scanL].
  assert (A : adjacent p (f :: r) <-> gapb p || (zlen f =? 0) = true).
  { unfold adjacent. rewrite orb_true_iff, gapb_in, zlen0_nil. split; (intros [I|I]; [left; exact I|right]).
    - destruct I as (r' & [= -> _]). reflexivity.
    - subst f. exists r. reflexivity. }
  destruct r as [|g r]; cbn [scanF]; rewrite H9; change (9 >? 8) with true; cbn iota.
  - assert (F : (zlen f =? 0) = false) by (destruct (zlen f =? 0) eqn:F; [apply zlen0_nil in F; subst; contradiction|reflexivity]).
    rewrite F in *. rewrite orb_false_r in A. destruct (gapb p); [left|right]; (split; [|reflexivity]); rewrite A; congruence.
  - destruct (gapb p || (zlen f =? 0)); [left|right]; (split; [|reflexivity]); rewrite A; congruence.
Qed.
Lemma scan_long p f q : zlen p <= 8 -> ~ short f -> (q <> [] \/ zlen f > 16) -> scanL p (f :: q) = Err part_is_more_4_chars (zlen p).
Proof.
  unfold short. intros Hp Hf Hq. cbn [scanL]. destruct q as [|g q]; cbn [scanF]; (destruct (Z.gtb_spec (zlen p) 8); [lia|]).
  - destruct Hq; [contradiction|]. destruct (Z.gtb_spec (zlen f) 16); [reflexivity|lia].
  - destruct (Z.gtb_spec (zlen f) 4); [reflexivity|lia].
Qed.
Lemma scan_last p f : zlen p <= 8 -> zlen f <= 16 -> scanL p [f] = Ret (p, f).
Proof.
  intros Hp Hf. cbn [scanL scanF]. destruct (Z.gtb_spec (zlen p) 8); [lia|]. destruct (Z.gtb_spec (zlen f) 16); [lia|reflexivity].
Qed.

Definition partsL (fs : list (list Z)) : res (list (list Z)) :=
  '(d, c) <- scanL [] fs ;;
  if zlen d >? 8 then
    if (zlen (nth 0 d []) =? 0) && negb (zlen (nth 1 d []) =? 0)
    then Err leading_colon_only_permitted_as_part_of_double_colon (zlen d)
    else Err trailing_colon_only_permitted_as_part_of_double_colon (zlen d)
  else
    ps <- lastR d c ;;
    if zlen ps <? 3 then Err least_3_parts (zlen ps) else Ret ps.

Lemma partsL_app p q : Forall short p -> zlen p <= 9 -> q <> [] -> partsL (p ++ q) =
  '(d, c) <- scanL p q ;;
  if zlen d >? 8 then
    if (zlen (nth 0 d []) =? 0) && negb (zlen (nth 1 d []) =? 0)
    then Err leading_colon_only_permitted_as_part_of_double_colon (zlen d)
    else Err trailing_colon_only_permitted_as_part_of_double_colon (zlen d)
  else
    ps <- lastR d c ;;
    if zlen ps <? 3 then Err least_3_parts (zlen ps) else Ret ps.
Proof. intros Hp Hl Hq. unfold partsL. rewrite scanL_app by (try assumption; exact Hl). reflexivity. Qed.

Definition few (ps : list (list Z)) : res (list (list Z)) := if zlen ps <? 3 then Err least_3_parts (zlen ps) else Ret ps.
Lemma parts_last p f : Forall short p -> zlen p <= 8 -> zlen f <= 16 -> partsL (p ++ [f]) = bind (lastR p f) few.
Proof.
  intros Hp Hl Hf. rewrite partsL_app by (try assumption; try discriminate; lia). rewrite scan_last by assumption. cbn [bind].
  destruct (Z.gtb_spec (zlen p) 8); [lia|]. reflexivity.
Qed.
Lemma parts_nine p : Forall short p -> zlen p = 9 -> partsL (p ++ [[]]) =
  if (zlen (nth 0 p []) =? 0) && negb (zlen (nth 1 p []) =? 0)
  then Err leading_colon_only_permitted_as_part_of_double_colon 9
  else Err trailing_colon_only_permitted_as_part_of_double_colon 9.
Proof.
  intros Hp H9. rewrite partsL_app by (try assumption; try discriminate; lia). cbn [scanL scanF]. rewrite H9.
  change (9 >? 8) with true. cbn iota. cbn [bind]. change (zlen (@nil Z) =? 0) with true. cbn iota. cbn [bind].
  rewrite H9. reflexivity.
Qed.
Lemma parts_stop p q e v : Forall short p -> zlen p <= 9 -> q <> [] -> scanL p q = Err e v -> partsL (p ++ q) = Err e v.
Proof. intros Hp Hl Hq E. rewrite partsL_app by assumption. rewrite E. reflexivity. Qed.

Lemma last_plain p f : ~ In 46 f -> short f -> lastR p f = Ret (p ++ [f]).
Proof.
  intros N Hf. unfold lastR. apply existsb_dot_false in N. rewrite N. unfold short in Hf. destruct (Z.gtb_spec (zlen f) 4); [lia|reflexivity].
Qed.
Lemma last_long p f : ~ In 46 f -> ~ short f -> lastR p f = Err part_is_more_4_chars (zlen p).
Proof.
  intros N Hf. unfold lastR. apply existsb_dot_false in N. rewrite N. unfold short in Hf. destruct (Z.gtb_spec (zlen f) 4); [reflexivity|lia].
Qed.
Lemma last_late p f : In 46 f -> 7 <= zlen p -> lastR p f = Err most_8_colons_permitted (zlen p).
Proof. intros N Hp. unfold lastR. apply existsb_dot in N. rewrite N. destruct (Z.geb_spec (zlen p + 1) 8); [reflexivity|lia]. Qed.
Lemma last_bad p f e i : In 46 f -> ~ In 0 f -> zlen p <= 6 -> v4_error (chars f) e i -> lastR p f = Err e (zlen p).
Proof.
  intros N N0 Hp E. unfold lastR. apply existsb_dot in N. rewrite N. destruct (Z.geb_spec (zlen p + 1) 8); [lia|].
  apply v4_rejects in E. rewrite cut_id by exact N0. rewrite E. reflexivity.
Qed.
Lemma last_quad p f a b c d : zlen p <= 6 -> dotted_quad f [a; b; c; d] ->
  lastR p f = Ret (p ++ [hex4 (a * 256 + b); hex4 (c * 256 + d)]) /\ is_group (a * 256 + b) /\ is_group (c * 256 + d) /\ zlen f <= 16.
Proof.
  intros Hp Q. destruct (quad_chars f _ Q) as (Fc & Lf & I46). unfold lastR. apply existsb_dot in I46. rewrite I46.
  destruct (Z.geb_spec (zlen p + 1) 8); [lia|].
  rewrite cut_id. 2:{ apply (quad_not f _ 0 Q). lia. }
  pose proof (proj2 (v4_accept_iff f [a; b; c; d]) Q) as A.
  destruct (dotted_bytes f _ Q) as (a' & b' & c' & d' & E & Ba & Bb & Bc & Bd). injection E as <- <- <- <-.
  rewrite A.
  split; [reflexivity|]. unfold is_group, is_byte in *. lia.
Qed.

(** ** The phases *)
Lemma parts_of_run fs ps : parts_of fs ps -> partsL fs = few ps /\ zlen ps <= 9 /\ Forall (fun p => zlen p <= 4) ps.
Proof.
  intros H. destruct H as [p f Hp Hf Hl N|p f a b c d g h Hp Hl Q Hg Hh].
  - rewrite parts_last by (try assumption; unfold short in Hf; lia). rewrite last_plain by assumption. split; [reflexivity|].
    split; [autorewrite with zl; lia|]. apply Forall_app. split; [exact Hp|]. constructor; [exact Hf|constructor].
  - destruct (last_quad p f a b c d Hl Q) as (E & G1 & G2 & Lf).
    rewrite parts_last by (try assumption; lia). rewrite E.
    rewrite (padded_unique g _ _ Hg (hex4_padded _ G1)), (padded_unique h _ _ Hh (hex4_padded _ G2)).
    split; [reflexivity|]. split; [autorewrite with zl; lia|]. apply Forall_app. split; [exact Hp|].
    constructor; [cbn; lia|]. constructor; [cbn; lia|constructor].
Qed.

Lemma parts_phase fs : fs <> [] -> Forall (fun f => ~ In 0 f) fs ->
  (exists ps, parts_of fs ps) \/ (exists e x, partsL fs = Err e x /\ v6_defect fs e x).
Proof.
  intros Nf N0. destruct (shorts fs Nf) as (p & q & E & Hp & Hq & Hl & Hc).
  destruct (Z.eq_dec (zlen p) 9) as [H9|H9].
  - destruct (list_eq_dec (list_eq_dec Z.eq_dec) q [[]]) as [->|N1].
    + right. rewrite E, parts_nine by assumption.
      destruct p as [|p0 [|p1 p]]; [cbn in H9; lia|cbn in H9; lia|]. cbn [nth].
      destruct (zlen p0 =? 0) eqn:E0; cbn [andb].
      * apply zlen0_nil in E0. subst p0. destruct (zlen p1 =? 0) eqn:E1; cbn [negb].
        -- apply zlen0_nil in E1. subst p1. do 2 eexists. split; [reflexivity|].
           eapply vd_ninth_trailing; [reflexivity|assumption..|]. intros f r [= <- _]. reflexivity.
        -- do 2 eexists. split; [reflexivity|]. eapply vd_ninth_leading; [reflexivity|assumption..|reflexivity|].
           intros ->. discriminate E1.
      * do 2 eexists. split; [reflexivity|]. eapply vd_ninth_trailing; [reflexivity|assumption..|].
        intros f r [= -> _ _]. discriminate E0.
    + right. rewrite E. destruct (scan_nine p q H9 Hq N1) as [[A S]|[A S]].
      * do 2 eexists. split; [apply parts_stop; eassumption|]. eapply vd_colons_gap; (reflexivity || eassumption).
      * do 2 eexists. split; [apply parts_stop; eassumption|]. eapply vd_colons; (reflexivity || eassumption).
  - assert (H8 : zlen p <= 8) by lia. clear Hl.
    assert (T : exists f r, q = f :: r /\ (r <> [] -> ~ short f)).
    { destruct Hc as [Hc|[(f & r & -> & S)|(f & ->)]]; [lia| |]; [exists f, r|exists f, []]; (split; [reflexivity|]); [auto|contradiction]. }
    destruct T as (f & r & -> & Sf). clear Hc Hq.
    destruct r as [|g r].
    2:{ right. rewrite E. do 2 eexists. split.
        - apply parts_stop; [assumption|lia|discriminate|]. apply scan_long; [assumption|apply Sf; discriminate|left; discriminate].
        - eapply vd_long; [reflexivity|assumption..|apply Sf; discriminate|left; discriminate]. }
    clear Sf. destruct (Z_le_gt_dec (zlen f) 16) as [L16|G16].
    2:{ right. rewrite E. assert (~ short f) by (unfold short; lia). do 2 eexists. split.
        - apply parts_stop; [assumption|lia|discriminate|]. apply scan_long; [assumption..|right; assumption].
        - eapply vd_long; [reflexivity|assumption..|right; left; assumption]. }
    destruct (in_dec Z.eq_dec 46 f) as [I46|N46].
    + destruct (Z_le_gt_dec (zlen p) 6) as [L6|G6].
      * assert (Nf0 : ~ In 0 f). { rewrite E in N0. apply Forall_app in N0 as [_ N0]. inversion N0; assumption. }
        destruct (v4_from_string (chars f)) as [bs|e i|u] eqn:EV.
        -- left. apply v4_accept_iff in EV. destruct (dotted_bytes f _ EV) as (a & b & c & d & -> & _).
           destruct (last_quad p f a b c d L6 EV) as (_ & G1 & G2 & _).
           eexists. rewrite E. eapply po_quad; [assumption..|eassumption|apply hex4_padded; assumption|apply hex4_padded; assumption].
        -- right. apply v4_reject_iff in EV. rewrite E. do 2 eexists. split.
           ++ rewrite parts_last by assumption. rewrite (last_bad p f e i) by assumption. reflexivity.
           ++ eapply vd_quad; (reflexivity || eassumption).
        -- pose proof (v4_defined (chars f)) as D. rewrite EV in D. contradiction.
      * right. rewrite E. do 2 eexists. split.
        -- rewrite parts_last by assumption. rewrite last_late by (assumption || lia). reflexivity.
        -- eapply vd_quad_late; [reflexivity|assumption|lia|assumption..].
    + destruct (Z_le_gt_dec (zlen f) 4) as [L4|G4].
      * left. exists fs. rewrite E. apply po_plain; assumption.
      * right. assert (~ short f) by (unfold short; lia). rewrite E. do 2 eexists. split.
        -- rewrite parts_last by assumption. rewrite last_long by assumption. reflexivity.
        -- eapply vd_long; [reflexivity|assumption..|right; right; assumption].
Qed.

(** Defects before the parts are complete are reported. *)
Lemma defect_phase fs e x : Forall (fun f => ~ In 0 f) fs -> v6_defect fs e x ->
  partsL fs = Err e x \/ exists ps, parts_of fs ps /\ x = zlen ps /\ parts_defect ps e.
Proof.
  intros N0 H. destruct H as [p f q E Hp Hl Sf Hq|p q E Hp H9 Nq N1 A|p q E Hp H9 N1 A Nq|p f r E Hp H9 Ep Nf|p E Hp H9 A|p f E Hp Hl Lf I|p f e i E Hp Hl Lf I V|ps e Po Pd];
    try (left; rewrite E).
  - destruct q as [|g q].
    + destruct (Z_le_gt_dec (zlen f) 16) as [L16|G16].
      * destruct Hq as [Hq|[Hq|Hq]]; [contradiction|lia|]. rewrite parts_last by assumption. rewrite last_long by assumption. reflexivity.
      * apply parts_stop; [assumption|lia|discriminate|]. apply scan_long; [assumption..|right; assumption].
    + apply parts_stop; [assumption|lia|discriminate|]. apply scan_long; [assumption..|left; discriminate].
  - destruct (scan_nine p q H9 Nq N1) as [[A' S]|[A' S]]; [contradiction|]. apply parts_stop; [assumption|lia|assumption..].
  - destruct (scan_nine p q H9 Nq N1) as [[A' S]|[A' S]]; [|contradiction]. apply parts_stop; [assumption|lia|assumption..].
  - rewrite parts_nine by assumption. rewrite Ep. cbn [nth]. change (zlen (@nil Z) =? 0) with true. cbn [andb].
    destruct (zlen f =? 0) eqn:E1; [apply zlen0_nil in E1; contradiction|reflexivity].
  - rewrite parts_nine by assumption. destruct p as [|p0 [|p1 p]]; [cbn in H9; lia|cbn in H9; lia|]. cbn [nth].
    destruct (zlen p0 =? 0) eqn:E0; cbn [andb]; [|reflexivity]. apply zlen0_nil in E0. subst p0.
    rewrite (A p1 p eq_refl). reflexivity.
  - rewrite parts_last by (assumption || lia). rewrite last_late by (assumption || lia). reflexivity.
  - rewrite parts_last by (assumption || lia). rewrite (last_bad p f e i); [reflexivity|assumption| |assumption..].
    rewrite E in N0. apply Forall_app in N0 as [_ N0]. inversion N0; assumption.
  - right. exists ps. auto.
Qed.

(** ** Well-formed parts *)
Lemma written_app a b : written (a ++ b) = written a + written b.
Proof. unfold written. rewrite filter_app. autorewrite with zl. reflexivity. Qed.
Lemma written_cons p a : written (p :: a) = (if zlen p =? 0 then 0 else 1) + written a.
Proof. unfold written. cbn [filter]. destruct (zlen p =? 0); cbn [negb]; autorewrite with zl; lia. Qed.
Lemma written_full a : ~ In [] a -> written a = zlen a.
Proof.
  induction a as [|p a IH]; intros N; [reflexivity|]. rewrite written_cons. autorewrite with zl. rewrite IH.
  - destruct (zlen p =? 0) eqn:E; [apply zlen0_nil in E; subst; exfalso; apply N; left; reflexivity|lia].
  - intros C. apply N. right. exact C.
Qed.
Lemma written_nil : written [] = 0. Proof. reflexivity. Qed.

Lemma gap_shape ps : one_gap ps -> exists h l, ~ In [] h /\ ~ In [] l /\ ps = or1 h ++ [] :: or1 l /\ written ps = zlen h + zlen l.
Proof.
  intros (a & x & y & b & -> & Nx & Ny & Ha & Hb).
  assert (L : exists l, ~ In [] l /\ y ++ [b] = or1 l /\ written (y ++ [b]) = zlen l).
  { destruct b as [|c b].
    - rewrite (Hb eq_refl). exists []. split; [intros []|]. split; reflexivity.
    - exists (y ++ [c :: b]). assert (N : ~ In [] (y ++ [c :: b])).
      { intros C. apply in_app_or in C as [C|[C|[]]]; [contradiction|discriminate]. }
      split; [exact N|]. split; [destruct y; reflexivity|apply written_full; exact N]. }
  destruct L as (l & Nl & El & Wl).
  assert (H : exists h, ~ In [] h /\ a :: x = or1 h /\ written (a :: x) = zlen h).
  { destruct a as [|c a].
    - rewrite (Ha eq_refl). exists []. split; [intros []|]. split; reflexivity.
    - exists ((c :: a) :: x). assert (N : ~ In [] ((c :: a) :: x)) by (intros [C|C]; [discriminate|contradiction]).
      split; [exact N|]. split; [reflexivity|apply written_full; exact N]. }
  destruct H as (h & Nh & Eh & Wh). exists h, l. split; [exact Nh|]. split; [exact Nl|].
  split; [rewrite <- Eh, <- El; reflexivity|].
  change (a :: x ++ [] :: y ++ [b]) with ((a :: x) ++ [] :: (y ++ [b])).
  rewrite written_app, Wh, written_cons, Wl. change (zlen (@nil Z) =? 0) with true. cbn iota. lia.
Qed.
Lemma or1_first h : ~ In [] h -> exists a x, or1 h = a :: x /\ ~ In [] x /\ (a = [] -> x = []).
Proof.
  intros N. destruct h as [|a x]; [exists [], []; repeat split; auto|]. exists a, x. split; [reflexivity|]. split.
  - intros C. apply N. right. exact C.
  - intros ->. exfalso. apply N. left. reflexivity.
Qed.
Lemma or1_last l : ~ In [] l -> exists y b, or1 l = y ++ [b] /\ ~ In [] y /\ (b = [] -> y = []).
Proof.
  intros N. destruct l as [|b y _] using rev_ind; [exists [], []; repeat split; auto|]. exists y, b. split; [destruct y; reflexivity|]. split.
  - intros C. apply N, in_or_app. left. exact C.
  - intros ->. exfalso. apply N, in_or_app. right. left. reflexivity.
Qed.
Lemma shape_gap h l : ~ In [] h -> ~ In [] l -> one_gap (or1 h ++ [] :: or1 l) /\ written (or1 h ++ [] :: or1 l) = zlen h + zlen l.
Proof.
  intros Nh Nl. split.
  - destruct (or1_first h Nh) as (a & x & -> & Nx & Ha). destruct (or1_last l Nl) as (y & b & -> & Ny & Hb).
    exists a, x, y, b. auto.
  - rewrite written_app, written_cons. change (zlen (@nil Z) =? 0) with true. cbn iota.
    assert (W : forall k, ~ In [] k -> written (or1 k) = zlen k).
    { intros k Nk. destruct k as [|u k]; [reflexivity|]. apply written_full. exact Nk. }
    rewrite !W by assumption. lia.
Qed.
Lemma well_formed_shape ps : well_formed ps <-> exists h l sk, shape ps h l sk.
Proof.
  split.
  - intros [[H8 N]|[G W]].
    + exists ps, [], 0. apply sh_full; [unfold zlen in H8; lia|exact N].
    + destruct (gap_shape ps G) as (h & l & Nh & Nl & -> & E). exists h, l, (8 - zlen h - zlen l).
      apply sh_dc; [assumption..|]. unfold zlen in *. lia.
  - intros (h & l & sk & S). inversion S as [ps' L N|h' l' Nh Nl L]; subst.
    + left. split; [unfold zlen; lia|assumption].
    + right. destruct (shape_gap h l Nh Nl) as [G W]. split; [exact G|]. rewrite W. unfold zlen. lia.
Qed.

(** ** Values *)
Lemma hex_part p : zlen p <= 4 -> p <> [] -> (exists v, hex_group p v) \/ exists c, In c p /\ forall d, ~ hex_char c d.
Proof.
  intros Hl Hn.
  assert (H : (exists ds, Forall2 hex_char p ds) \/ exists c, In c p /\ forall d, ~ hex_char c d).
  { clear. induction p as [|c p IH]; [left; exists []; constructor|].
    assert (C : (exists d, hex_char c d) \/ forall d, ~ hex_char c d).
    { unfold hex_char.
      destruct (Z_le_gt_dec 48 c); [|right; intros; lia].
      destruct (Z_le_gt_dec c 57); [left; exists (c - 48); lia|].
      destruct (Z_le_gt_dec 65 c); [|right; intros; lia].
      destruct (Z_le_gt_dec c 70); [left; exists (c - 55); lia|].
      destruct (Z_le_gt_dec 97 c); [|right; intros; lia].
      destruct (Z_le_gt_dec c 102); [left; exists (c - 87); lia|right; intros; lia]. }
    destruct C as [[d Hd]|C]; [|right; exists c; split; [left; reflexivity|exact C]].
    destruct IH as [[ds F]|(c' & I & C)]; [left; exists (d :: ds); constructor; assumption|right; exists c'; split; [right; exact I|exact C]]. }
  destruct H as [[ds F]|H]; [left|right; exact H]. exists (horner 16 0 ds). split; [|eauto].
  destruct p; [contradiction|]. autorewrite with zl in *. pose proof (zlen_nonneg p). lia.
Qed.
Lemma hex_parts l : ~ In [] l -> Forall (fun p => zlen p <= 4) l ->
  (exists vs, Forall2 hex_group l vs) \/ exists p c, In p l /\ In c p /\ forall d, ~ hex_char c d.
Proof.
  induction l as [|p l IH]; intros N F; [left; exists []; constructor|]. inversion F as [|? ? F1 F2]; subst.
  destruct (hex_part p F1) as [[v Hv]|(c & I & C)].
  - intros ->. apply N. left. reflexivity.
  - destruct IH as [[vs H]|(q & c & I & J & C)]; [intros C; apply N; right; exact C|exact F2| |].
    + left. exists (v :: vs). constructor; assumption.
    + right. exists q, c. split; [right; exact I|]. split; [exact J|exact C].
  - right. exists p, c. split; [left; reflexivity|]. split; [exact I|exact C].
Qed.
Lemma group_none h l sk : ~ In [] h -> ~ In [] l -> Forall (fun p => zlen p <= 4) h -> Forall (fun p => zlen p <= 4) l ->
  group_values h l sk = None -> exists p c, (In p h \/ In p l) /\ In c p /\ forall d, ~ hex_char c d.
Proof.
  intros Nh Nl Fh Fl E. unfold group_values in E.
  destruct (hex_parts h Nh Fh) as [[vh Hh]|(p & c & I & J & C)]; [|exists p, c; auto].
  destruct (hex_parts l Nl Fl) as [[vl Hv]|(p & c & I & J & C)]; [|exists p, c; auto].
  apply (values_groups h vh Nh Fh) in Hh. apply (values_groups l vl Nl Fl) in Hv. rewrite Hh, Hv in E. discriminate.
Qed.
Lemma group_some h l sk gs p c : ~ In [] h -> ~ In [] l -> Forall (fun p => zlen p <= 4) h -> Forall (fun p => zlen p <= 4) l ->
  group_values h l sk = Some gs -> In p h \/ In p l -> In c p -> exists d, hex_char c d.
Proof.
  intros Nh Nl Fh Fl E I J. unfold group_values in E.
  destruct (seqo partval h) as [vh|] eqn:Eh; [|discriminate]. destruct (seqo partval l) as [vl|] eqn:El; [|discriminate].
  apply (values_groups h vh Nh Fh) in Eh. apply (values_groups l vl Nl Fl) in El.
  assert (G : exists v, hex_group p v).
  { assert (A : forall k vk, Forall2 hex_group k vk -> In p k -> exists v, hex_group p v).
    { induction 1 as [|q v k vk Hq _ IH]; [intros []|]. intros [->|I']; [eauto|auto]. }
    destruct I as [I|I]; [exact (A h vh Eh I)|exact (A l vl El I)]. }
  destruct G as (v & _ & ds & F & _). clear -F J. induction F as [|a d p ds Ha _ IH]; [destruct J|].
  destruct J as [->|J]; [eauto|auto].
Qed.

Lemma abs_skip_two : forall m i, 0 < i -> abs_skip m i 0 = None <-> exists x y z, m = x ++ [] :: y ++ [] :: z.
Proof.
  induction m as [|p m IH]; intros i Hi; cbn [abs_skip].
  - split; [discriminate|]. intros (x & y & z & E). destruct x; discriminate.
  - destruct (zlen p =? 0) eqn:Ep.
    + apply zlen0_nil in Ep. subst p. cbn [negb Z.eqb]. rewrite abs_skip_some by lia. split.
      * destruct (existsb _ m) eqn:Ex; [|discriminate]. intros _. apply existsb_exists in Ex as (q & I & Eq). apply zlen0_nil in Eq. subst q.
        apply in_split in I as (y & z & ->). exists [], y, z. reflexivity.
      * intros (x & y & z & E). destruct (existsb _ m) eqn:Ex; [reflexivity|]. exfalso. apply existsb_empty in Ex. apply Ex.
        destruct x as [|u x]; [injection E as E|injection E as _ E]; rewrite E; apply in_or_app; right; left; reflexivity.
    + rewrite IH by lia. split; intros (x & y & z & E).
      * exists (p :: x), y, z. rewrite E. reflexivity.
      * destruct x as [|u x]; injection E as E0 E; [rewrite E0 in Ep; discriminate Ep|]. exists x, y, z. exact E.
Qed.
