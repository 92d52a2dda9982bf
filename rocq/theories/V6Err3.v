(** The errors of the IPv6 parser: parts, scope ids, whole texts. *)
From Verif Require Import Base Tac SpecText TextProofs UnicodeModel FixedStringModel V4Model Uint128Model V6Model
  SpecV4 SpecV6 SpecV6Err SpecAddr SpecStr V4Proofs BufProofs BitProofs StrProofs FixedStringProofs V6Proofs V6Parse V6Grammar V6Full
  V6Format V6Lemmas V6Err V6Err2.
From Verif Require EndianProofs4.

(** ** Bounds *)
Lemma ends_inj {A} (a b a' b' : A) m m' : a :: m ++ [b] = a' :: m' ++ [b'] -> a = a' /\ m = m' /\ b = b'.
Proof. intros E. injection E as -> E. apply app_inj_tail in E as [-> ->]. auto. Qed.
Lemma gap_inner (x y : list (list Z)) (b : list Z) : x ++ [] :: y ++ [b] = (x ++ [] :: y) ++ [b].
Proof. rewrite <- app_assoc. reflexivity. Qed.
Lemma gaps_inner (x y z : list (list Z)) (b : list Z) : x ++ [] :: y ++ [] :: z ++ [b] = (x ++ [] :: y ++ [] :: z) ++ [b].
Proof. rewrite <- app_assoc. cbn [app]. rewrite <- app_assoc. reflexivity. Qed.

Definition first_code (e : ec) : bool := match e with part_has_invalid_symbol => false | _ => true end.

Lemma bound_defect a m b e x : 1 <= zlen m <= 7 ->
  boundR a m b = Err e x <-> x = zlen m + 2 /\ e <> part_has_invalid_symbol /\ parts_defect (a :: m ++ [b]) e.
Proof.
  intros Hm. assert (L : zlen (a :: m ++ [b]) = zlen m + 2) by (autorewrite with zl; lia).
  assert (A0 : (zlen a =? 0) = true <-> a = []) by apply zlen0_nil.
  assert (B0 : (zlen b =? 0) = true <-> b = []) by apply zlen0_nil.
  unfold boundR. split.
  - destruct (abs_skip m 1 0) as [k|] eqn:Es.
    2:{ intros [= <- <-]. split; [reflexivity|]. split; [discriminate|]. apply abs_skip_two in Es as (u & y & z & ->); [|lia].
        eapply pd_two_gaps. rewrite gaps_inner. reflexivity. }
    apply abs_skip_inv in Es; [|lia]. destruct Es as [[-> N]|(u & y & -> & Nu & Ny & -> & Nk)].
    + change (0 =? 0) with true. cbn iota. destruct (Z.eqb_spec (zlen m) 6) as [E6|E6]; cbn [negb].
      * destruct (zlen a =? 0).
        { intros [= <- <-]. split; [reflexivity|]. split; [discriminate|]. eapply pd_leading_8; [|exact N|lia]. rewrite (proj1 A0 eq_refl). reflexivity. }
        destruct (zlen b =? 0); [|discriminate].
        intros [= <- <-]. split; [reflexivity|]. split; [discriminate|]. rewrite (proj1 B0 eq_refl) in *. eapply pd_trailing_8; [reflexivity| |exact N|lia].
        intros Ca. apply A0 in Ca. discriminate.
      * intros [= <- <-]. split; [reflexivity|]. split; [discriminate|]. eapply pd_not_8; [reflexivity|exact N|lia|lia].
    + autorewrite with zl in *. rewrite <- gap_inner in *. pose proof (zlen_nonneg u). pose proof (zlen_nonneg y).
      destruct (Z.eqb_spec (1 + zlen u) 0) as [|_]; [lia|].
      assert (U0 : zlen u = 0 <-> u = []) by (split; [apply zlen_0|intros ->; reflexivity]).
      assert (Y0 : zlen y = 0 <-> y = []) by (split; [apply zlen_0|intros ->; reflexivity]).
      assert (G : (a = [] -> u = []) -> (b = [] -> y = []) -> one_gap (a :: u ++ [] :: y ++ [b])) by (intros; exists a, u, y, b; auto).
      assert (W : written (a :: u ++ [] :: y ++ [b]) = (if zlen a =? 0 then 0 else 1) + zlen u + zlen y + (if zlen b =? 0 then 0 else 1)).
      { rewrite written_cons, written_app, written_cons, written_app, written_cons, written_nil, !written_full by assumption.
        change (zlen (@nil Z) =? 0) with true. cbn iota. lia. }
      destruct (zlen a =? 0) eqn:Ea; cbn [andb].
      * pose proof (proj1 A0 eq_refl) as Ea'. rewrite Ea' in *. clear A0 Ea'.
        destruct (Z.eqb_spec (1 + zlen u - 1) 0) as [Eu|Eu]; cbn [negb].
        2:{ intros [= <- <-]. split; [reflexivity|]. split; [discriminate|]. eapply pd_leading; [reflexivity|assumption..|]. intros Cu. apply U0 in Cu. lia. }
        destruct (zlen b =? 0) eqn:Eb; cbn [andb].
        -- pose proof (proj1 B0 eq_refl) as Eb'. rewrite Eb' in *. clear B0 Eb'.
           destruct (Z.eqb_spec (zlen u + (zlen y + 1) + 2 - (1 + zlen u) - 2) 0) as [Ey|Ey]; cbn [negb].
           2:{ intros [= <- <-]. split; [reflexivity|]. split; [discriminate|]. eapply pd_trailing; [reflexivity|assumption..| |].
               - intros _. apply U0. lia.
               - intros Cy. apply Y0 in Cy. lia. }
           destruct (Z.ltb_spec (8 - (1 + zlen u - 1 + (zlen u + (zlen y + 1) + 2 - (1 + zlen u) - 2))) 1); [|discriminate].
           intros [= <- <-]. split; [reflexivity|]. split; [discriminate|]. apply pd_crowded; [apply G; intros _; [apply U0|apply Y0]; lia|lia].
        -- destruct (Z.ltb_spec (8 - (1 + zlen u - 1 + (zlen u + (zlen y + 1) + 2 - (1 + zlen u) - 1))) 1); [|discriminate].
           intros [= <- <-]. split; [reflexivity|]. split; [discriminate|]. apply pd_crowded; [apply G; [intros _; apply U0; lia|]|lia].
           intros Cb. apply B0 in Cb. discriminate.
      * assert (Na : a <> []) by (intros Ca; apply A0 in Ca; discriminate).
        destruct (zlen b =? 0) eqn:Eb; cbn [andb].
        -- pose proof (proj1 B0 eq_refl) as Eb'. rewrite Eb' in *. clear B0 Eb'.
           destruct (Z.eqb_spec (zlen u + (zlen y + 1) + 2 - (1 + zlen u) - 2) 0) as [Ey|Ey]; cbn [negb].
           2:{ intros [= <- <-]. split; [reflexivity|]. split; [discriminate|]. eapply pd_trailing; [reflexivity|assumption..| |].
               - intros Ca. contradiction.
               - intros Cy. apply Y0 in Cy. lia. }
           destruct (Z.ltb_spec (8 - (1 + zlen u + (zlen u + (zlen y + 1) + 2 - (1 + zlen u) - 2))) 1); [|discriminate].
           intros [= <- <-]. split; [reflexivity|]. split; [discriminate|]. apply pd_crowded; [apply G; [contradiction|intros _; apply Y0; lia]|lia].
        -- destruct (Z.ltb_spec (8 - (1 + zlen u + (zlen u + (zlen y + 1) + 2 - (1 + zlen u) - 1))) 1); [|discriminate].
           intros [= <- <-]. split; [reflexivity|]. split; [discriminate|]. apply pd_crowded; [apply G; [contradiction|]|lia].
           intros Cb. apply B0 in Cb. discriminate.
  - intros (-> & Ns & D). inversion D as [F|a' u y z b' E|u y b' E Nu Ny Hu|a' u y E Nu Ny Ha Hy|G W|a' m' b' E N H3 H8|m' b' E N H8|a' m' E Ha N H8|p c WF Ip Ic NH]; subst.
    + lia.
    + rewrite gaps_inner in E. apply ends_inj in E as (<- & -> & <-).
      rewrite (proj2 (abs_skip_two _ 1 ltac:(lia))) by eauto. reflexivity.
    + rewrite gap_inner in E. apply ends_inj in E as (-> & -> & <-). rewrite abs_skip_one by (assumption || lia).
      pose proof (zlen_nonneg u). destruct (Z.eqb_spec (1 + zlen u) 0); [lia|]. change (zlen (@nil Z) =? 0) with true. cbn [andb].
      destruct (Z.eqb_spec (1 + zlen u - 1) 0) as [C|_]; [|reflexivity]. exfalso. apply Hu, zlen_0. lia.
    + rewrite gap_inner in E. apply ends_inj in E as (<- & -> & ->). rewrite abs_skip_one by (assumption || lia).
      pose proof (zlen_nonneg u). destruct (Z.eqb_spec (1 + zlen u) 0); [lia|]. change (zlen (@nil Z) =? 0) with true. cbn [andb].
      destruct (Z.eqb_spec (zlen (u ++ [] :: y) + 2 - (1 + zlen u) - 2) 0) as [C|_].
      { exfalso. apply Hy, zlen_0. autorewrite with zl in C. lia. }
      destruct (zlen a =? 0); cbn [andb negb]; [|reflexivity]. rewrite (Ha (proj1 A0 eq_refl)). reflexivity.
    + destruct G as (a' & u & y & b' & E & Nu & Ny & Ha & Hb). rewrite E in W. rewrite gap_inner in E. apply ends_inj in E as (<- & -> & <-).
      rewrite abs_skip_one by (assumption || lia). pose proof (zlen_nonneg u). pose proof (zlen_nonneg y). destruct (Z.eqb_spec (1 + zlen u) 0); [lia|].
      rewrite written_cons, written_app, written_cons, written_app, written_cons, written_nil, !written_full in W by assumption.
      change (zlen (@nil Z) =? 0) with true in W. cbn iota in W. autorewrite with zl.
      destruct (zlen a =? 0); cbn [andb].
      * rewrite (Ha (proj1 A0 eq_refl)) in *. change (zlen (@nil (list Z))) with 0 in *. change (1 + 0 - 1 =? 0) with true. cbn [negb].
        destruct (zlen b =? 0); cbn [andb].
        -- rewrite (Hb (proj1 B0 eq_refl)) in W. cbn in W. lia.
        -- destruct (Z.ltb_spec (8 - (1 + 0 - 1 + (0 + (zlen y + 1) + 2 - (1 + 0) - 1))) 1); [reflexivity|lia].
      * destruct (zlen b =? 0); cbn [andb].
        -- rewrite (Hb (proj1 B0 eq_refl)) in *. change (zlen (@nil (list Z))) with 0 in *.
           destruct (Z.eqb_spec (zlen u + (0 + 1) + 2 - (1 + zlen u) - 2) 0); [|lia]. cbn [negb].
           destruct (Z.ltb_spec (8 - (1 + zlen u + (zlen u + (0 + 1) + 2 - (1 + zlen u) - 2))) 1); [reflexivity|lia].
        -- destruct (Z.ltb_spec (8 - (1 + zlen u + (zlen u + (zlen y + 1) + 2 - (1 + zlen u) - 1))) 1); [reflexivity|lia].
    + apply ends_inj in E as (<- & <- & <-). rewrite abs_skip_none by (assumption || lia). change (0 =? 0) with true. cbn iota.
      destruct (Z.eqb_spec (zlen m) 6); [lia|reflexivity].
    + apply ends_inj in E as (-> & <- & <-). rewrite abs_skip_none by (assumption || lia). change (0 =? 0) with true. cbn iota.
      destruct (Z.eqb_spec (zlen m) 6); [reflexivity|lia].
    + apply ends_inj in E as (<- & <- & ->). rewrite abs_skip_none by (assumption || lia). change (0 =? 0) with true. cbn iota.
      destruct (Z.eqb_spec (zlen m) 6); [|lia]. cbn [negb]. destruct (zlen a =? 0); [destruct (Ha (proj1 A0 eq_refl))|reflexivity].
    + contradiction.
Qed.

(** ** Parts *)
Definition addr2 (ps : list (list Z)) : res (list Z) :=
  '(hi, lo, sk) <- get_parts_bound (ps ++ repeat [] (9 - length ps)) (zlen ps) ;;
  parse_parts (ps ++ repeat [] (9 - length ps)) (zlen ps) hi lo sk.
Lemma shape_in ps h l sk p : shape ps h l sk -> In p ps -> p = [] \/ In p h \/ In p l.
Proof.
  intros S I. inversion S; subst; [auto|]. apply in_app_or in I as [I|[I|I]]; [|auto|].
  - destruct h; [destruct I as [<-|[]]; auto|auto].
  - destruct l; [destruct I as [<-|[]]; auto|auto].
Qed.
Lemma shape_full ps h l sk : shape ps h l sk -> ~ In [] h /\ ~ In [] l.
Proof. intros S. inversion S; subst; auto. Qed.
Lemma shape_back ps h l sk p : shape ps h l sk -> In p h \/ In p l -> In p ps.
Proof.
  intros S I. inversion S; subst; [destruct I as [I|[]]; exact I|]. apply in_or_app. destruct I as [I|I].
  - left. destruct h; [destruct I|exact I].
  - right. right. destruct l; [destruct I|exact I].
Qed.
Lemma addr2_defect ps e x : 3 <= zlen ps <= 9 -> Forall (fun p => zlen p <= 4) ps ->
  addr2 ps = Err e x <-> x = zlen ps /\ parts_defect ps e.
Proof.
  intros Hn F4. unfold addr2. set (rest := repeat [] (9 - length ps)).
  assert (B : get_parts_bound (ps ++ rest) (zlen ps) = Err e x <-> x = zlen ps /\ e <> part_has_invalid_symbol /\ parts_defect ps e).
  { destruct (list_ends ps ltac:(lia)) as (a & m & b & E). clearbody rest. subst ps. autorewrite with zl in Hn.
    replace ((a :: m ++ [b]) ++ rest) with (a :: m ++ b :: rest) by (cbn [app]; rewrite <- app_assoc; reflexivity).
    replace (zlen (a :: m ++ [b])) with (zlen m + 2) by (autorewrite with zl; lia).
    rewrite boundR_ok by lia. apply bound_defect. lia. }
  destruct (bound_ok ps _ Hn eq_refl) as [(h & l & sk & Hs & E)|[(e' & v' & E) No]]; fold rest in E; rewrite E in B |- *; cbn [bind].
  - destruct (shape_sub _ _ _ _ _ Hs F4) as [Fh Fl]. destruct (shape_full _ _ _ _ Hs) as [Nh Nl].
    pose proof (parse_parts_ok ps h l sk rest _ Hs Fh Fl eq_refl) as PP. split.
    + intros K. pose proof (EndianProofs4.parts_err _ _ _ _ _ _ _ K) as [-> ->]. split; [reflexivity|].
      destruct (group_values h l sk) as [gs|] eqn:Eg; cbn [option_map outcome] in PP; [congruence|].
      destruct (group_none h l sk Nh Nl Fh Fl Eg) as (p & c & I & J & C).
      eapply pd_symbol; [apply well_formed_shape; eauto|eapply shape_back; eassumption|exact J|exact C].
    + intros [-> D]. assert (De : {e = part_has_invalid_symbol} + {e <> part_has_invalid_symbol}) by decide equality.
      destruct De as [->|Ne].
      2:{ exfalso. destruct B as [_ B]. specialize (B (conj eq_refl (conj Ne D))). discriminate. }
      inversion D as [| | | | | | | |p c WF Ip Ic NH]; subst.
      destruct (group_values h l sk) as [gs|] eqn:Eg; cbn [option_map outcome] in PP.
      * exfalso. destruct (shape_in _ _ _ _ p Hs Ip) as [->|I]; [destruct Ic|].
        destruct (group_some h l sk gs p c Nh Nl Fh Fl Eg I Ic) as [d Hd]. exact (NH d Hd).
      * destruct PP as (e & v & PE). pose proof (EndianProofs4.parts_err _ _ _ _ _ _ _ PE) as [-> ->]. exact PE.
  - transitivity (@Err (Z * Z * Z) e' v' = Err e x); [split; intros [= -> ->]; reflexivity|]. rewrite B. split; [tauto|]. intros [-> D]. split; [reflexivity|]. split; [|exact D]. intros ->.
    inversion D as [| | | | | | | |p c WF Ip Ic NH]; subst. apply well_formed_shape in WF as (h & l & sk & Hs). exact (No _ _ _ Hs).
Qed.

Theorem v6_addr_defect s fs e x : fields s fs -> no_nul s -> v6_addr s = Err e x <-> v6_defect fs e x.
Proof.
  intros Hf N. pose proof (fields_no0 s fs Hf N) as N0. destruct Hf as (Nf & -> & N58).
  assert (P : match partsL fs with
              | Ret ps => split_parts true (chars (join fs)) = Ret (ps ++ repeat [] (9 - length ps), zlen ps) /\ 3 <= zlen ps <= 9
              | Err e v => split_parts true (chars (join fs)) = Err e v
              | UB _ => False end).
  { destruct fs as [|f fs]; [contradiction|]. exact (split_partsR f fs N58 N0). }
  assert (A : v6_addr (join fs) = match partsL fs with Ret ps => addr2 ps | Err e v => Err e v | UB u => UB u end).
  { unfold v6_addr. destruct (partsL fs) as [ps|e' v'|]; [|rewrite P; reflexivity|contradiction]. destruct P as [-> _]. reflexivity. }
  assert (R : forall ps, parts_of fs ps -> v6_addr (join fs) = Err e x <-> x = zlen ps /\ parts_defect ps e).
  { intros ps Po. destruct (parts_of_run fs ps Po) as (E & L9 & F4). rewrite A, E. unfold few. unfold few in E.
    destruct (Z.ltb_spec (zlen ps) 3).
    - split; [intros [= <- <-]; split; [reflexivity|apply pd_few; assumption]|].
      intros [-> D]. pose proof (zlen_nonneg ps).
      inversion D as [F|a u y z b E'|u y b E' Nu Ny Hu|a u y E' Nu Ny Ha Hy|G W|a m b E' Nm H3 H8|m b E' Nm H8|a m E' Ha Nm H8|p c WF Ip Ic NH]; subst;
        try reflexivity; try lia; exfalso.
      + autorewrite with zl in *. pose proof (zlen_nonneg u). pose proof (zlen_nonneg y). pose proof (zlen_nonneg z). lia.
      + autorewrite with zl in *. pose proof (zlen_nonneg u). pose proof (zlen_nonneg y). lia.
      + autorewrite with zl in *. pose proof (zlen_nonneg u). pose proof (zlen_nonneg y). lia.
      + destruct G as (a & u & y & b & -> & _). autorewrite with zl in *. pose proof (zlen_nonneg u). pose proof (zlen_nonneg y). lia.
      + destruct WF as [[? _]|[(a & u & y & b & -> & _) _]]; [lia|]. autorewrite with zl in *. pose proof (zlen_nonneg u). pose proof (zlen_nonneg y). lia.
    - apply addr2_defect; [lia|exact F4]. }
  split.
  - intros E. destruct (parts_phase fs Nf N0) as [(ps & Po)|(e' & x' & E' & D)].
    + destruct (proj1 (R ps Po) E) as [Ex D]. rewrite Ex. eapply vd_parts; eassumption.
    + rewrite A, E' in E. injection E as <- <-. exact D.
  - intros D. destruct (defect_phase fs e x N0 D) as [E|(ps & Po & Ex & Pd)].
    + rewrite A, E. reflexivity.
    + apply (R ps Po). auto.
Qed.

(** ** Scope ids *)
Fixpoint scopeR (t u : list Z) : res (list Z) :=
  match t with
  | [] => Ret u
  | c :: t' => if zlen u >? 15 then Err scope_id_is_too_long 0
               else if is_invalid_scope_id_symbol c then Err invalid_scope_id 0 else scopeR t' (u ++ [c])
  end.
Lemma scope_loopR : forall t u pos e, zlen u <= 16 ->
  split_scope_loop (chars t) pos e true (buf 17 u) (zlen u) =
  match scopeR t u with Ret u' => Ret (e, true, buf 17 u') | Err c v => Err c v | UB k => UB k end.
Proof.
  induction t as [|c t IH]; intros u pos e Hu; cbn [chars map split_scope_loop scopeR]; [reflexivity|].
  cbn [negb andb]. change (map Ch t) with (chars t). unfold scope_max. change (16 - 1) with 15.
  destruct (Z.gtb_spec (zlen u) 15); [reflexivity|]. destruct (is_invalid_scope_id_symbol c); [reflexivity|].
  rewrite wr_buf by lia. cbn [bind]. replace (zlen u + 1) with (zlen (u ++ [c])) by (autorewrite with zl; lia).
  apply IH. autorewrite with zl. lia.
Qed.
Lemma scope_skip : forall a ts pos e b, ~ In 37 a ->
  split_scope_loop (chars a ++ ts) pos e false b 0 = split_scope_loop ts (pos + zlen a) (if nilb a then e else pos + zlen a) false b 0.
Proof.
  induction a as [|c a IH]; intros ts pos e b N; cbn [chars map app split_scope_loop nilb].
  - change (zlen (@nil Z)) with 0. rewrite Z.add_0_r. reflexivity.
  - change (map Ch a) with (chars a). destruct (Z.eqb_spec c 37) as [->|_]; [exfalso; apply N; left; reflexivity|]. cbn [negb andb].
    rewrite IH by (intros C; apply N; right; exact C). autorewrite with zl.
    replace (pos + 1 + zlen a) with (pos + (zlen a + 1)) by lia. f_equal.
    destruct a; [cbn [nilb]; autorewrite with zl; lia|reflexivity].
Qed.
Lemma scope_splitR a t : ~ In 37 a -> split_scope_id (chars (a ++ 37 :: t)) =
  match scopeR t [] with Ret u => if hd 0 u =? 0 then Err invalid_scope_id 0 else Ret (zlen a, buf 17 u) | Err c v => Err c v | UB k => UB k end.
Proof.
  intros N. unfold split_scope_id. rewrite chars_app, scope_skip by exact N. cbn [chars map split_scope_loop].
  change (37 =? 37) with true. cbn [negb andb]. change (map Ch t) with (chars t).
  change (repeat 0 17) with (buf 17 []). change 0 with (zlen (@nil Z)) at 5. rewrite scope_loopR by (cbn; lia).
  destruct (scopeR t []) as [u|e v|k]; cbn [bind]; [|reflexivity..]. rewrite hd_buf. cbn [bind andb].
  destruct (hd 0 u =? 0); [reflexivity|]. destruct a; reflexivity.
Qed.

Lemma scopeR_app : forall p u t, Forall scope_char p -> zlen u + zlen p <= 16 -> scopeR (p ++ t) u = scopeR t (u ++ p).
Proof.
  induction p as [|c p IH]; intros u t F L; cbn [app scopeR]; [rewrite app_nil_r; reflexivity|].
  inversion F as [|? ? Fc Fp]; subst. autorewrite with zl in L. pose proof (zlen_nonneg p).
  destruct (Z.gtb_spec (zlen u) 15); [lia|].
  assert (E : is_invalid_scope_id_symbol c = false).
  { apply scope_char_iff. exact Fc. }
  rewrite E, IH by (try assumption; autorewrite with zl; lia). rewrite <- app_assoc. reflexivity.
Qed.
Lemma scope_cases : forall t p, Forall scope_char p -> zlen p <= 16 ->
  (Forall scope_char t /\ zlen p + zlen t <= 16) \/ exists u q, p ++ t = u ++ q /\ q <> [] /\ Forall scope_char u /\
     (zlen u = 16 \/ zlen u <= 15 /\ exists c r, q = c :: r /\ ~ scope_char c).
Proof.
  induction t as [|c t IH]; intros p Fp Lp.
  - left. split; [constructor|]. autorewrite with zl. lia.
  - destruct (Z_le_gt_dec (zlen p) 15) as [L|G].
    2:{ right. exists p, (c :: t). split; [reflexivity|]. split; [discriminate|]. split; [exact Fp|]. left. lia. }
    destruct (is_invalid_scope_id_symbol c) eqn:E.
    + right. exists p, (c :: t). split; [reflexivity|]. split; [discriminate|]. split; [exact Fp|]. right. split; [exact L|].
      exists c, t. split; [reflexivity|]. intros S. apply scope_char_iff in S. congruence.
    + apply scope_char_iff in E. destruct (IH (p ++ [c])) as [[F Lt]|(u & q & Eq & Nq & Fu & H)].
      * apply Forall_app. split; [exact Fp|]. constructor; [exact E|constructor].
      * autorewrite with zl. lia.
      * left. autorewrite with zl in *. split; [constructor; assumption|lia].
      * right. exists u, q. split; [rewrite <- Eq, <- app_assoc; reflexivity|]. auto.
Qed.
Lemma scope_stop u q : Forall scope_char u -> q <> [] -> 
  (zlen u = 16 -> scopeR (u ++ q) [] = Err scope_id_is_too_long 0) /\
  (zlen u <= 15 -> (exists c r, q = c :: r /\ ~ scope_char c) -> scopeR (u ++ q) [] = Err invalid_scope_id 0).
Proof.
  intros F N. split.
  - intros L. rewrite scopeR_app by (try assumption; cbn; lia). destruct q as [|c q]; [contradiction|]. cbn [app scopeR].
    destruct (Z.gtb_spec (zlen u) 15); [reflexivity|lia].
  - intros L (c & r & -> & C). rewrite scopeR_app by (try assumption; cbn; lia). cbn [app scopeR].
    destruct (Z.gtb_spec (zlen u) 15); [lia|]. destruct (is_invalid_scope_id_symbol c) eqn:E; [reflexivity|].
    apply scope_char_iff in E. contradiction.
Qed.
Lemma scope_phase t : no_nul t ->
  (scope_text t /\ forall a, ~ In 37 a -> split_scope_id (chars (a ++ 37 :: t)) = Ret (zlen a, buf 17 t)) \/
  exists e, scope_defect t e /\ forall a, ~ In 37 a -> split_scope_id (chars (a ++ 37 :: t)) = Err e 0.
Proof.
  intros N0. destruct (scope_cases t [] ltac:(constructor) ltac:(cbn; lia)) as [[F L]|(u & q & E & Nq & Fu & H)].
  - change (zlen (@nil Z)) with 0 in L. destruct t as [|c t].
    + right. exists invalid_scope_id. split; [constructor|]. intros a N. rewrite scope_splitR by exact N. reflexivity.
    + left. split; [split; [autorewrite with zl in *; pose proof (zlen_nonneg t); lia|exact F]|].
      intros a N. rewrite scope_splitR by exact N. rewrite <- (app_nil_r (c :: t)) at 1. rewrite scopeR_app by (try assumption; cbn; lia).
      cbn [app scopeR hd]. destruct (Z.eqb_spec c 0) as [->|_]; [exfalso; apply N0; left; reflexivity|reflexivity].
  - cbn [app] in E. subst t. destruct (scope_stop u q Fu Nq) as [S1 S2]. destruct H as [H|[L H]].
    + right. exists scope_id_is_too_long. split; [apply sd_long; assumption|]. intros a N. rewrite scope_splitR, S1 by assumption. reflexivity.
    + right. exists invalid_scope_id. split; [destruct H as (c & r & -> & C); apply sd_symbol; assumption|].
      intros a N. rewrite scope_splitR, S2 by assumption. reflexivity.
Qed.
Lemma scope_defect_run a t e : ~ In 37 a -> scope_defect t e -> split_scope_id (chars (a ++ 37 :: t)) = Err e 0.
Proof.
  intros N D. rewrite scope_splitR by exact N. destruct D as [|p c q F L C|p q F L Nq].
  - reflexivity.
  - destruct (scope_stop p (c :: q) F ltac:(discriminate)) as [_ S]. rewrite S; eauto.
  - destruct (scope_stop p q F Nq) as [S _]. rewrite S; auto.
Qed.

(** ** Whole texts *)
Lemma v6_plain_eq s : ~ In 37 s -> s <> [] -> 
  v6_from_string true (chars s) = match v6_addr s with Ret b => Ret (b, []) | Err e v => Err e v | UB u => UB u end.
Proof.
  intros H N. rewrite v6_from_string_cons by (apply chars_nil; exact N).
  pose proof (split_scope_ok s) as Sc. rewrite scan_scope_false in Sc by assumption. cbn [app andb outcome] in Sc.
  rewrite Sc. cbn [bind]. rewrite v6_from_string_addr.
  2:{ rewrite <- (app_nil_r s) at 2. rewrite firstn_chars. reflexivity. }
  destruct (v6_addr s); cbn [bind]; [|reflexivity..]. rewrite hd_buf. reflexivity.
Qed.
Lemma v6_scoped_err a t e x : ~ In 37 a -> scope_text t -> no_nul t ->
  v6_from_string true (chars (a ++ 37 :: t)) = Err e x <-> v6_addr a = Err e x.
Proof.
  intros H St N0. rewrite v6_from_string_cons by (apply chars_nil; destruct a; discriminate).
  destruct (scope_phase t N0) as [[_ E]|(e' & D & E)].
  2:{ exfalso. destruct D as [|p c q F L C|p q F L Nq]; destruct St as [Lt Ft].
      - cbn in Lt. lia.
      - apply Forall_app in Ft as [_ Ft]. inversion Ft; contradiction.
      - autorewrite with zl in Lt. destruct q; [contradiction|]. autorewrite with zl in Lt. pose proof (zlen_nonneg q). lia. }
  rewrite E by exact H. cbn [bind]. rewrite v6_from_string_addr by (rewrite firstn_chars; reflexivity).
  destruct (v6_addr a) as [b|e' v'|]; cbn [bind]; [|split; intros [= -> ->]; reflexivity|split; discriminate].
  split; [|discriminate]. rewrite hd_buf. cbn [bind]. destruct (negb (hd 0 t =? 0)); [|discriminate].
  destruct (fs_make_chars 16 (buf 17 t)) as (f & Ef & _).
  - destruct St as [Lt _]. pose proof (zlen_buf 17 t ltac:(lia)). unfold zlen in *. lia.
  - rewrite Ef. discriminate.
Qed.

Lemma v6_errors s e x : no_nul s -> v6_from_string true (chars s) = Err e x <-> v6_error s e x.
Proof.
  intros N. split.
  - intros E. destruct s as [|c s']; [injection E as <- <-; constructor|]. set (s := c :: s') in *.
    destruct (split_first 37 s) as [H|(a & t & Es & H)].
    + rewrite v6_plain_eq in E by (assumption || discriminate). destruct (fields_ex s) as (fs & Hf).
      destruct (v6_addr s) as [b|e' v'|] eqn:Ea; try discriminate. injection E as -> ->.
      eapply v6e_plain; [discriminate|exact H|exact Hf|]. apply (v6_addr_defect s fs e x Hf N). exact Ea.
    + clearbody s. subst s. assert (Na : no_nul a) by (intros C; apply N, in_or_app; left; exact C).
      assert (Nt : no_nul t) by (intros C; apply N, in_or_app; right; right; exact C).
      destruct (scope_phase t Nt) as [[St _]|(e' & D & Ee)].
      * apply (v6_scoped_err a t e x H St Nt) in E. destruct (fields_ex a) as (fs & Hf).
        eapply v6e_scoped; [exact H|exact St|exact Hf|]. apply (v6_addr_defect a fs e x Hf Na). exact E.
      * rewrite v6_from_string_cons in E by (apply chars_nil; destruct a; discriminate). rewrite Ee in E by exact H. injection E as <- <-.
        apply v6e_scope; assumption.
  - intros H. destruct H as [|s fs e x Ns H37 Hf D|a t e H37 D|a t fs e x H37 St Hf D].
    + reflexivity.
    + rewrite v6_plain_eq by assumption. apply (v6_addr_defect s fs e x Hf N) in D. rewrite D. reflexivity.
    + rewrite v6_from_string_cons by (apply chars_nil; destruct a; discriminate). rewrite (scope_defect_run a t e H37 D). reflexivity.
    + assert (Na : no_nul a) by (intros C; apply N, in_or_app; left; exact C).
      assert (Nt : no_nul t) by (intros C; apply N, in_or_app; right; right; exact C).
      apply (v6_scoped_err a t e x H37 St Nt). apply (v6_addr_defect a fs e x Hf Na). exact D.
Qed.
