(** IPv6 texts on a big-endian host. *)
From Verif Require Import Base Tac TextProofs UnicodeModel FixedStringModel V4Model V6Model Uint128Model SpecInt Uint128Proofs Uint128Div2
  SpecText SpecAddr SpecStr SpecV4 SpecV6 StrProofs V4Proofs BufProofs BitProofs FixedStringProofs V4Lemmas V6Proofs V6Parse V6Grammar V6Full V6Lemmas
  AddressModel SpecOrder AddressProofs NetworkModel SpecNet SpecAny LooseProofs CodeProofs HostModel SpecEndian EndianProofs EndianProofs3.

(** Bounds: only the emptiness of the parts matters. *)
Lemma rd_map {A B} (f : A -> B) l i : rd (map f l) i = rmap f (rd l i).
Proof. unfold rd. destruct (i <? 0); [reflexivity|]. rewrite nth_error_map. destruct (nth_error l (Z.to_nat i)); reflexivity. Qed.
Definition blank (ps : list (list Z)) : list bool := map (fun p => zlen p =? 0) ps.
Lemma part_empty_blank ps i : part_empty ps i = rd (blank ps) i.
Proof. unfold part_empty, blank. rewrite rd_map. destruct (rd ps i); reflexivity. Qed.
Lemma skip_blank ps qs : blank ps = blank qs -> forall k i pc sk, skip_loop k i ps pc sk = skip_loop k i qs pc sk.
Proof.
  intros H. induction k as [|k IH]; intros i pc sk; cbn [skip_loop]; [reflexivity|]. rewrite !part_empty_blank, H.
  destruct (rd (blank qs) i) as [[|]| |]; cbn [bind]; try reflexivity; [destruct (negb (sk =? 0)); auto|auto].
Qed.
Lemma bound_blank ps qs n : blank ps = blank qs -> get_parts_bound ps n = get_parts_bound qs n.
Proof. intros H. unfold get_parts_bound. rewrite (skip_blank ps qs H). rewrite !part_empty_blank, H. reflexivity. Qed.
Lemma both_blank a b x y a' b' x' y' : blank (both a b x y) = blank (both a' b' x' y').
Proof. reflexivity. Qed.

(** Errors of the digits carry the number of parts. *)
Lemma part_err : forall cs n i v pc e w, parse_part_loop cs n i v pc = Err e w -> e = part_has_invalid_symbol /\ w = pc.
Proof.
  induction cs as [|c cs IH]; intros n i v pc e w; cbn [parse_part_loop]; [discriminate|].
  unfold pow16. destruct (n - i - 1 =? 0), (n - i - 1 =? 1), (n - i - 1 =? 2), (n - i - 1 =? 3); cbn [bind]; try discriminate;
    (destruct (_ && _); [apply IH|]; destruct (_ && _); [apply IH|]; destruct (_ && _); [apply IH|]; intros K; injection K as <- <-; auto).
Qed.
Lemma loop_err : forall k i ps pc ix r e w, parts_loop k i ps pc ix r = Err e w -> e = part_has_invalid_symbol /\ w = pc.
Proof.
  induction k as [|k IH]; intros i ps pc ix r e w; cbn [parts_loop]; [discriminate|].
  unfold rd at 1. destruct (i <? 0); [discriminate|]. destruct (nth_error ps (Z.to_nat i)) as [p|]; [|discriminate]. cbn [bind].
  destruct (parse_part p pc) as [x|? ?|] eqn:E; cbn [bind]; [| |discriminate].
  - destruct (wr r ix _) as [r1|? ?|] eqn:W1; cbn [bind]; [|exfalso; revert W1; apply wr_no_err|discriminate].
    destruct (wr r1 (ix + 1) _) as [r2|? ?|] eqn:W2; cbn [bind]; [|exfalso; revert W2; apply wr_no_err|discriminate]. apply IH.
  - intros K. injection K as <- <-. unfold parse_part in E. apply part_err in E. exact E.
Qed.
Lemma parts_err ps pc hi lo sk e w : parse_parts ps pc hi lo sk = Err e w -> e = part_has_invalid_symbol /\ w = pc.
Proof.
  unfold parse_parts. destruct (parts_loop _ 0 ps pc 0 _) as [[ix r]|? ?|] eqn:E; cbn [bind]; [| |discriminate].
  2:{ intros K. injection K as <- <-. apply loop_err in E. exact E. }
  destruct (pc >? lo); cbn [assert bind]; [|discriminate].
  destruct (parts_loop _ _ ps pc _ r) as [[ix' r']|? ?|] eqn:E'; cbn [bind]; [discriminate| |discriminate].
  intros K. injection K as <- <-. apply loop_err in E'. exact E'.
Qed.

(** The values: a shape ending in the two groups of the quad. *)
Lemma shape_tail A P Q P' Q' h l sk : P <> [] -> Q <> [] -> P' <> [] -> Q' <> [] -> shape (A ++ [P; Q]) h l sk ->
  exists x, (h = x ++ [P; Q] /\ l = [] /\ sk = 0 /\ shape (A ++ [P'; Q']) (x ++ [P'; Q']) [] 0 /\ x = A) \/
            (l = x ++ [P; Q] /\ shape (A ++ [P'; Q']) h (x ++ [P'; Q']) sk).
Proof.
  intros HP HQ HP' HQ' S0. inversion S0 as [ps L N E1 E2 E3 E4|h' l' Nh Nl L E1 E2 E3 E4]; subst.
  - exists A. left. split; [reflexivity|]. split; [reflexivity|]. split; [reflexivity|]. split; [|reflexivity]. constructor.
    + rewrite app_length in *. exact L.
    + intros K. apply in_app_iff in K as [K|[K|[K|[]]]]; [|congruence|congruence]. apply N, in_app_iff. left. exact K.
  - (* the last two parts belong to l *)
    destruct l as [|q1 l] using rev_ind; [|clear IHl].
    { exfalso. cbn [or1] in E1. assert (K : last (or1 h ++ [[]; []]) [] = last (A ++ [P; Q]) []) by (rewrite E1; reflexivity).
      replace (or1 h ++ [[]; []]) with ((or1 h ++ [[]]) ++ [[]]) in K by (rewrite <- app_assoc; reflexivity).
      replace (A ++ [P; Q]) with ((A ++ [P]) ++ [Q]) in K by (rewrite <- app_assoc; reflexivity). rewrite !last_last in K. congruence. }
    assert (Eo : or1 (l ++ [q1]) = l ++ [q1]) by (destruct l; reflexivity). rewrite Eo in E1.
    replace (or1 h ++ [] :: l ++ [q1]) with ((or1 h ++ [] :: l) ++ [q1]) in E1 by (rewrite <- app_assoc; reflexivity).
    replace (A ++ [P; Q]) with ((A ++ [P]) ++ [Q]) in E1 by (rewrite <- app_assoc; reflexivity).
    apply app_inj_tail in E1 as [E1 ->].
    destruct l as [|q2 l] using rev_ind; [|clear IHl].
    { exfalso. apply app_inj_tail in E1 as [_ E1]. congruence. }
    replace (or1 h ++ [] :: l ++ [q2]) with ((or1 h ++ [] :: l) ++ [q2]) in E1 by (rewrite <- app_assoc; reflexivity).
    apply app_inj_tail in E1 as [<- ->].
    exists l. right. split; [rewrite <- app_assoc; reflexivity|].
    replace ((or1 h ++ [] :: l) ++ [P'; Q']) with (or1 h ++ [] :: or1 (l ++ [P'; Q'])).
    2:{ assert (or1 (l ++ [P'; Q']) = l ++ [P'; Q']) as -> by (destruct l; reflexivity). rewrite <- app_assoc. reflexivity. }
    replace (zlen ((l ++ [P]) ++ [Q])) with (zlen (l ++ [P'; Q'])) by (autorewrite with zl; lia).
    constructor; [exact Nh| |].
    + intros K. apply in_app_iff in K as [K|[K|[K|[]]]]; [|congruence|congruence]. apply Nl. rewrite !in_app_iff. auto.
    + rewrite !app_length in *. cbn [length] in *. lia.
Qed.

Lemma both_bytes a b x y : is_byte a -> is_byte b -> is_byte x -> is_byte y -> group_bytes [a * 256 + b; x * 256 + y] = [a; b; x; y].
Proof. unfold is_byte. intros. cbn [group_bytes flat_map app]. repeat f_equal; lia. Qed.
Lemma tail_bytes g a b x y : zlen g = 6 -> is_byte a -> is_byte b -> is_byte x -> is_byte y ->
  reversed_tail (group_bytes (g ++ [a * 256 + b; x * 256 + y])) = group_bytes (g ++ [y * 256 + x; b * 256 + a]).
Proof.
  intros L A B X Y. rewrite !group_bytes_app, !both_bytes by assumption. unfold reversed_tail.
  assert (length (group_bytes g) = 12%nat) as L' by (pose proof (zlen_group_bytes g); unfold zlen in *; lia).
  rewrite firstn_app, skipn_app, L', Nat.sub_diag, firstn_all2, skipn_all2 by lia. cbn [firstn skipn rev app]. rewrite app_nil_r. reflexivity.
Qed.
Lemma values_tail A P Q P' Q' h l sk : P <> [] -> Q <> [] -> P' <> [] -> Q' <> [] -> shape (A ++ [P; Q]) h l sk ->
  exists h' l', shape (A ++ [P'; Q']) h' l' sk /\ zlen h' = zlen h /\ zlen l' = zlen l /\
  forall v w v' w', partval P = Some v -> partval Q = Some w -> partval P' = Some v' -> partval Q' = Some w' ->
  (group_values h l sk = None /\ group_values h' l' sk = None) \/
  exists g, zlen g = 6 /\ group_values h l sk = Some (g ++ [v; w]) /\ group_values h' l' sk = Some (g ++ [v'; w']).
Proof.
  intros HP HQ HP' HQ' S0. destruct (shape_tail A P Q P' Q' h l sk HP HQ HP' HQ' S0) as (x & [(-> & -> & -> & S1 & ->)|(-> & S1)]).
  - exists (A ++ [P'; Q']), []. split; [exact S1|]. split; [autorewrite with zl; reflexivity|]. split; [reflexivity|].
    intros v w v' w' V W V' W'. unfold group_values. rewrite !seqo_app. cbn [seqo]. rewrite V, W, V', W'.
    destruct (seqo partval A) as [g|] eqn:Eg; [|left; auto]. right. exists g. apply seqo_len in Eg.
    pose proof (shape_parts _ _ _ _ [] S0) as (H1 & H2 & _). autorewrite with zl in H2. split; [unfold zlen in *; cbn in H2; lia|].
    cbn [Z.to_nat repeat app]. rewrite !app_nil_r. auto.
  - exists h, (x ++ [P'; Q']). split; [exact S1|]. split; [reflexivity|]. split; [autorewrite with zl; reflexivity|].
    intros v w v' w' V W V' W'. unfold group_values. rewrite !seqo_app. cbn [seqo]. rewrite V, W, V', W'.
    destruct (seqo partval h) as [gh|] eqn:Eh; [|left; auto]. destruct (seqo partval x) as [g|] eqn:Eg; [|left; auto].
    right. exists (gh ++ repeat 0 (Z.to_nat sk) ++ g). apply seqo_len in Eg, Eh.
    pose proof (shape_parts _ _ _ _ [] S0) as (H1 & H2 & _). autorewrite with zl in H2. split.
    + autorewrite with zl. rewrite zlen_repeat. unfold zlen in *. lia.
    + rewrite <- !app_assoc. auto.
Qed.
Definition tail_dot (a : list Z) : Prop := exists p q, a = p ++ 58 :: q /\ ~ In 58 q /\ In 46 q.
Lemma dot_in c : existsb (fun x => x =? 46) c = true <-> In 46 c.
Proof. rewrite existsb_exists. split; [intros (x & H & E); apply Z.eqb_eq in E; subst; exact H|intros H; exists 46; auto]. Qed.
Lemma flat_end d : d <> [] -> exists p, flat d = p ++ [58].
Proof. intros H. destruct d as [|p d _] using rev_ind; [contradiction|]. rewrite flat_snoc. exists (flat d ++ p). rewrite <- app_assoc. reflexivity. Qed.
Lemma last_colon (p q p' q' : list Z) : p ++ 58 :: q = p' ++ 58 :: q' -> ~ In 58 q -> ~ In 58 q' -> q = q'.
Proof.
  intros E N N'. assert (K : rev q ++ 58 :: rev p = rev q' ++ 58 :: rev p').
  { pose proof (f_equal (@rev Z) E) as K. rewrite !rev_app_distr in K. cbn [rev] in K. rewrite <- !app_assoc in K. exact K. }
  apply (sep_unique 58) in K as [K _]; [|rewrite <- in_rev; assumption..]. rewrite <- (rev_involutive q), K. apply rev_involutive.
Qed.
Lemma addr_rel s : (tail_dot s -> addr_h false s = rmap reversed_tail (addr_h true s)) /\ (~ tail_dot s -> addr_h false s = addr_h true s).
Proof.
  destruct (split_rel s) as [[E N]|(d & c & a & b & x & y & Es & Dc & Ba & Bb & Bx & By & Ld & E1 & E2)].
  - assert (Q : addr_h false s = addr_h true s) by (unfold addr_h; rewrite E; reflexivity). split; [|auto]. intros (p & q & -> & N58 & D46).
    rewrite Q. unfold addr_h. destruct (split_parts true _) as [r|? ?|]; [|reflexivity..]. exfalso.
    destruct (N r eq_refl) as (d & c & Es & Nc). destruct (scan_pieces _ _ _ Es) as (Ej & _ & Hc & _).
    destruct d as [|d0 d]. { cbn in Ej. apply Hc. rewrite <- Ej. apply in_app_iff. right. left. reflexivity. }
    destruct (flat_end (d0 :: d) ltac:(discriminate)) as (p' & Ep). rewrite Ep, <- app_assoc in Ej. cbn [app] in Ej.
    apply last_colon in Ej; [|assumption..]. subst c. apply dot_in in D46. congruence.
  - destruct (scan_pieces _ _ _ Es) as (Ej & Fd & Hc & _). split.
    2:{ intros N. exfalso. apply N. destruct (flat_end d) as (p' & Ep); [destruct d; [cbn in Ld; lia|discriminate]|]. exists p', c.
        rewrite Ej, Ep, <- app_assoc. split; [reflexivity|]. split; [exact Hc|apply dot_in, Dc]. }
    intros _. unfold addr_h. rewrite E1, E2. cbn [bind]. clear E1 E2.
    set (A := map cut d) in *. assert (LA : (1 <= length A <= 6)%nat) by (unfold A; rewrite map_length; exact Ld).
    assert (FA : Forall (fun p => zlen p <= 4) A).
    { unfold A. apply Forall_forall. intros z Hz. apply in_map_iff in Hz as (w & <- & Hw). rewrite Forall_forall in Fd. apply cut_le4. apply Fd, Hw. }
    set (ps := A ++ both a b x y). set (ps' := A ++ both y x b a).
    assert (Eb : blank ps = blank ps') by (unfold blank, ps, ps'; rewrite !map_app; reflexivity).
    assert (Lp : length ps = length ps') by (unfold ps, ps'; rewrite !app_length; reflexivity).
    assert (Zp : zlen ps = zlen ps') by (unfold zlen; rewrite Lp; reflexivity).
    assert (G : get_parts_bound (ps' ++ repeat [] (9 - length ps)) (zlen ps) = get_parts_bound (ps ++ repeat [] (9 - length ps)) (zlen ps)).
    { apply bound_blank. unfold blank in *. rewrite !map_app. congruence. }
    rewrite G. assert (B39 : 3 <= zlen ps <= 9) by (unfold ps, zlen; rewrite app_length; cbn [both length]; lia).
    destruct (bound_ok ps _ B39 eq_refl) as [(h & l & sk & Hs & Eg)|[(e & v & ->) _]]; [|reflexivity]. rewrite Eg. cbn [bind].
    assert (Le : forall v, zlen (hex4 v) <= 4) by (intros v; cbn; lia).
    assert (F4 : Forall (fun p => zlen p <= 4) ps) by (apply Forall_app; split; [exact FA|repeat constructor; apply Le]).
    assert (F4' : Forall (fun p => zlen p <= 4) ps') by (apply Forall_app; split; [exact FA|repeat constructor; apply Le]).
    destruct (values_tail A (hex4 (a * 256 + b)) (hex4 (x * 256 + y)) (hex4 (y * 256 + x)) (hex4 (b * 256 + a)) h l sk) as (h' & l' & Hs' & Zh & Zl & V); try discriminate; [exact Hs|].
    unfold is_byte in *.
    specialize (V _ _ _ _ (partval_group _ _ (hex4_group (a * 256 + b) ltac:(lia))) (partval_group _ _ (hex4_group (x * 256 + y) ltac:(lia)))
                  (partval_group _ _ (hex4_group (y * 256 + x) ltac:(lia))) (partval_group _ _ (hex4_group (b * 256 + a) ltac:(lia)))).
    destruct (shape_sub _ _ _ _ _ Hs F4) as [Fh Fl]. destruct (shape_sub _ _ _ _ _ Hs' F4') as [Fh' Fl'].
    pose proof (parse_parts_ok ps h l sk (repeat [] (9 - length ps)) _ Hs Fh Fl eq_refl) as P1.
    pose proof (parse_parts_ok ps' h' l' sk (repeat [] (9 - length ps)) _ Hs' Fh' Fl' eq_refl) as P2.
    rewrite Zh, Zl, <- Zp in P2. destruct V as [[V1 V2]|(g & Lg & V1 & V2)]; rewrite V1 in P1; rewrite V2 in P2; cbn [option_map outcome] in P1, P2.
    + destruct P1 as (e1 & v1 & P1). destruct P2 as (e2 & v2 & P2). rewrite P1, P2. cbn [rmap].
      apply parts_err in P1 as [-> ->]. apply parts_err in P2 as [-> ->]. reflexivity.
    + rewrite P1, P2. cbn [rmap]. f_equal. symmetry. apply tail_bytes; unfold is_byte; assumption.
Qed.
