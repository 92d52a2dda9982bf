(** The IPv6 parser against the RFC 4291 grammar. *)
From Verif Require Import Base Tac SpecText TextProofs UnicodeModel FixedStringModel V4Model V6Model
  SpecV4 SpecV6 SpecAddr SpecStr V4Proofs BufProofs BitProofs StrProofs FixedStringProofs V6Proofs V6Parse.

(** Pieces each followed by a colon. *)
Definition flat (d : list (list Z)) : list Z := flat_map (fun p => p ++ [58]) d.
Lemma flat_snoc d p : flat (d ++ [p]) = flat d ++ p ++ [58].
Proof. unfold flat. rewrite flat_map_app. cbn. rewrite app_nil_r. reflexivity. Qed.

Definition piece (p : list Z) : Prop := ~ In 58 p /\ zlen p <= 4.

Lemma scan_sound : forall s done cur d c, scan s done cur = Some (d, c) ->
  Forall piece done -> ~ In 58 cur ->
  flat d ++ c = flat done ++ cur ++ s /\ Forall piece d /\ ~ In 58 c.
Proof.
  induction s as [|x s IH]; intros done cur d c E Hd Hc; cbn [scan] in E.
  - inversion E; subst. rewrite app_nil_r. auto.
  - destruct (zlen done >? 8); [discriminate|]. destruct (Z.eqb_spec x 58) as [->|Nx].
    + destruct (Z.gtb_spec (zlen cur) 4); [discriminate|]. apply IH in E; [|apply Forall_app; split; [assumption|]|intros []].
      * destruct E as (E & H1 & H2). rewrite E, flat_snoc, <- !app_assoc. auto.
      * constructor; [split; [assumption|lia]|constructor].
    + destruct (Z.gtb_spec (zlen cur) 15); [discriminate|]. apply IH in E; [|assumption|].
      * destruct E as (E & H1 & H2). rewrite E, <- !app_assoc. auto.
      * rewrite in_app_iff. cbn. intuition congruence.
Qed.

Lemma scan_piece : forall p done cur s, ~ In 58 p -> zlen cur + zlen p <= 16 -> (length done <= 8)%nat ->
  scan (p ++ s) done cur = scan s done (cur ++ p).
Proof.
  induction p as [|x p IH]; intros done cur s Hp Hl Hd; cbn [app scan]; [rewrite app_nil_r; reflexivity|].
  autorewrite with zl in Hl. pose proof (zlen_nonneg p).
  destruct (Z.gtb_spec (zlen done) 8) as [C|_]; [unfold zlen in C; lia|].
  destruct (Z.eqb_spec x 58); [subst; exfalso; apply Hp; left; reflexivity|].
  destruct (Z.gtb_spec (zlen cur) 15); [lia|].
  rewrite IH; [rewrite <- app_assoc; reflexivity| |autorewrite with zl; lia|assumption].
  intros C; apply Hp; right; assumption.
Qed.
Lemma scan_flat : forall d done s, Forall piece d -> (length done + length d <= 9)%nat ->
  scan (flat d ++ s) done [] = scan s (done ++ d) [].
Proof.
  induction d as [|p d IH]; intros done s Hd Hl; [rewrite app_nil_r; reflexivity|].
  inversion Hd as [|? ? [Hp Hp4] Hd']; subst. cbn [length] in Hl.
  change (flat (p :: d)) with ((p ++ [58]) ++ flat d). rewrite <- !app_assoc.
  rewrite scan_piece by (autorewrite with zl; lia || assumption). cbn [app scan].
  destruct (Z.gtb_spec (zlen done) 8) as [C|_]; [unfold zlen in C; lia|].
  change (58 =? 58) with true. cbn iota. destruct (Z.gtb_spec (zlen p) 4); [lia|].
  rewrite IH; [rewrite <- app_assoc; reflexivity|assumption|rewrite app_length; cbn [length]; lia].
Qed.
Lemma scan_complete d c : Forall piece d -> ~ In 58 c -> (length d <= 8)%nat -> zlen c <= 16 ->
  scan (flat d ++ c) [] [] = Some (d, c).
Proof.
  intros Hd Hc Hl Hc16. rewrite scan_flat by (cbn; assumption || lia). cbn [app].
  rewrite <- (app_nil_r c) at 1. rewrite scan_piece by (autorewrite with zl; assumption || lia). reflexivity.
Qed.

Lemma join_flat d c : join (d ++ [c]) = flat d ++ c.
Proof.
  induction d as [|p d IH]; [reflexivity|]. cbn [app]. change (flat (p :: d)) with ((p ++ [58]) ++ flat d).
  rewrite <- !app_assoc, <- IH. destruct (d ++ [c]) eqn:E; [destruct d; discriminate|]. reflexivity.
Qed.
Lemma join_cons p ps : ps <> [] -> join (p :: ps) = p ++ 58 :: join ps.
Proof. destruct ps; [contradiction|reflexivity]. Qed.
Lemma join_app a b : a <> [] -> b <> [] -> join (a ++ b) = join a ++ 58 :: join b.
Proof.
  intros Ha Hb. induction a as [|p a IH]; [contradiction|]. destruct a as [|q a].
  - cbn [app]. rewrite join_cons by assumption. reflexivity.
  - cbn [app]. rewrite (join_cons p (q :: a ++ b)), (join_cons p (q :: a)) by discriminate. change (q :: a ++ b) with ((q :: a) ++ b). rewrite IH by discriminate.
    rewrite <- app_assoc. reflexivity.
Qed.
Lemma join_or1 h : join (or1 h) = join h.
Proof. destruct h; reflexivity. Qed.
Lemma or1_ne h : or1 h <> []. Proof. destruct h; discriminate. Qed.
Lemma join_dc h l : join (or1 h ++ [] :: or1 l) = join h ++ [58; 58] ++ join l.
Proof.
  rewrite join_app by (apply or1_ne || discriminate). rewrite join_cons by apply or1_ne. rewrite !join_or1. reflexivity.
Qed.

(** The parts of an accepted text, before the grammar. *)
Definition v6_addr (s : list Z) : res (list Z) :=
  '(parts, parts_count) <- split_parts true (chars s) ;;
  '(hi, lo, skipped) <- get_parts_bound parts parts_count ;;
  parse_parts parts parts_count hi lo skipped.

Definition raw (s : list Z) (gs : list Z) : Prop :=
  exists ps h l sk, abs_parts s = Some ps /\ shape ps h l sk /\ group_values h l sk = Some gs.

Lemma cut_le4 p : zlen p <= 4 -> zlen (cut p) <= 4.
Proof. unfold zlen. pose proof (cut_len p). lia. Qed.
Lemma abs_parts_le4 s ps : abs_parts s = Some ps -> Forall (fun p => zlen p <= 4) ps.
Proof.
  unfold abs_parts. destruct (scan s [] []) as [[d c]|] eqn:E; [|discriminate].
  apply scan_sound in E; [|constructor|intros []]. destruct E as (_ & Hd & Hc).
  destruct (zlen d >? 8); [discriminate|].
  assert (Forall (fun p => zlen p <= 4) d) as Hd4 by (eapply Forall_impl; [|exact Hd]; intros p [_ H]; exact H).
  unfold abs_last. destruct (existsb _ c).
  - destruct (zlen d + 1 >=? 8); [discriminate|].
    destruct (v4_from_string (chars (cut c))) as [[|a [|b [|x [|y [|]]]]]| |]; try discriminate.
    destruct (zlen _ <? 3); [discriminate|]. intros [= <-].
    apply Forall_map, Forall_app. split; [|repeat constructor; apply cut_le4; cbn; lia].
    eapply Forall_impl; [|exact Hd4]. intros p. apply cut_le4.
  - destruct (Z.gtb_spec (zlen c) 4); [discriminate|].
    destruct (zlen _ <? 3); [discriminate|]. intros [= <-].
    apply Forall_map, Forall_app. split; [|repeat constructor; apply cut_le4; lia].
    eapply Forall_impl; [|exact Hd4]. intros p. apply cut_le4.
Qed.

Lemma shape_sub ps h l sk (P : list Z -> Prop) : shape ps h l sk -> Forall P ps -> Forall P h /\ Forall P l.
Proof.
  intros H F. destruct H as [ps _ _|h l _ _ _]; [split; [assumption|constructor]|].
  apply Forall_app in F as [F1 F2]. inversion F2; subst. split.
  - destruct h; [constructor|assumption].
  - destruct l; [constructor|assumption].
Qed.

Lemma shape_det ps h l sk h' l' sk' : 3 <= zlen ps -> shape ps h l sk -> shape ps h' l' sk' -> h = h' /\ l = l' /\ sk = sk'.
Proof.
  intros Hp A B. destruct (list_ends ps ltac:(lia)) as (a & m & b & E). subst ps.
  pose proof (shape_bound _ _ _ _ _ _ A) as EA. pose proof (shape_bound _ _ _ _ _ _ B) as EB.
  rewrite EA in EB. apply some3_inv in EB as (E1 & E2 & ->).
  assert (T : forall x y x' y' : list (list Z), x ++ y = x' ++ y' -> zlen x = zlen x' -> x = x' /\ y = y').
  { induction x as [|u x IH]; intros y [|u' x'] y' Eq L; cbn in Eq; autorewrite with zl in L;
      try (pose proof (zlen_nonneg x); lia); try (pose proof (zlen_nonneg x'); lia); auto.
    injection Eq as -> Eq. apply IH in Eq; [|lia]. destruct Eq as [-> ->]. auto. }
  destruct (shape_parts _ _ _ _ [] A) as (_ & _ & _ & (y & Ey) & (x & z & Ez & Ex)).
  destruct (shape_parts _ _ _ _ [] B) as (_ & _ & _ & (y' & Ey') & (x' & z' & Ez' & Ex')).
  split; [|split; [|reflexivity]].
  - rewrite Ey in Ey'. apply T in Ey'; [tauto|assumption].
  - destruct l as [|p l]; [apply eq_sym, zlen_0; rewrite <- E2; reflexivity|].
    destruct l' as [|p' l']; [apply zlen_0; rewrite E2; reflexivity|].
    specialize (Ex ltac:(discriminate)). specialize (Ex' ltac:(discriminate)).
    rewrite Ez in Ez'. apply T in Ez' as [_ Ez']; [|lia]. apply T in Ez' as [-> _]; [reflexivity|assumption].
Qed.

Lemma v6_addr_outcome s :
  (exists gs, raw s gs /\ v6_addr s = Ret (group_bytes gs)) \/
  ((exists e v, v6_addr s = Err e v) /\ forall gs, ~ raw s gs).
Proof.
  unfold v6_addr, raw. pose proof (split_parts_ok s) as P. destruct (abs_parts s) as [ps|] eqn:Ep.
  2:{ destruct P as (e & v & ->). right. split; [cbn [bind]; eauto|]. intros gs (ps & h & l & sk & C & _). discriminate. }
  destruct P as [-> Hn]. cbn [bind].
  destruct (bound_ok ps _ Hn eq_refl) as [(h & l & sk & Hs & ->)|[(e & v & ->) No]]; cbn [bind].
  2:{ right. split; [eauto|]. intros gs (ps' & h & l & sk & [= <-] & Hs & _). exact (No _ _ _ Hs). }
  destruct (shape_sub _ _ _ _ _ Hs (abs_parts_le4 _ _ Ep)) as [Fh Fl].
  pose proof (parse_parts_ok ps h l sk (repeat [] (9 - length ps)) _ Hs Fh Fl eq_refl) as PP.
  destruct (group_values h l sk) as [gs|] eqn:Eg; cbn [option_map outcome] in PP.
  - left. exists gs. split; [|assumption]. exists ps, h, l, sk. auto.
  - right. split; [assumption|]. intros gs (ps' & h' & l' & sk' & [= <-] & Hs' & Eg').
    destruct (shape_det ps h l sk h' l' sk' ltac:(lia) Hs Hs') as (<- & <- & <-). congruence.
Qed.

(** ** Grammar *)
Lemma hexc_char d : 0 <= d < 16 -> hex_char (hexc d) d.
Proof. unfold hexc, hex_char. intros. destruct (Z.ltb_spec d 10); lia. Qed.
Lemma hex4_group v : 0 <= v < 65536 -> hex_group (hex4 v) v.
Proof.
  intros H. split; [cbn; lia|]. exists [v / 4096; v / 256 mod 16; v / 16 mod 16; v mod 16]. split.
  - unfold hex4. repeat (apply Forall2_cons; [apply hexc_char; lia|]). apply Forall2_nil.
  - cbn [horner]. lia.
Qed.
Lemma hex_group_unique p v v' : hex_group p v -> hex_group p v' -> v = v'.
Proof. intros A B. apply partval_group in A, B. congruence. Qed.

Lemma values_groups l vs : ~ In [] l -> Forall (fun p => zlen p <= 4) l -> seqo partval l = Some vs <-> Forall2 hex_group l vs.
Proof.
  revert vs. induction l as [|p l IH]; intros vs Hn Hl; cbn [seqo].
  - split; [intros [= <-]; constructor|intros F; inversion F; reflexivity].
  - inversion Hl as [|? ? H4 Hl']; subst.
    assert (p <> []) as Np by (intros ->; apply Hn; left; reflexivity).
    assert (~ In [] l) as Hn' by (intros C; apply Hn; right; assumption). split.
    + destruct (partval p) as [v|] eqn:E; [|discriminate]. destruct (seqo partval l) as [vl|]; [|discriminate].
      intros [= <-]. constructor; [apply partval_iff; assumption|apply IH; auto].
    + intros F. inversion F as [|? v ? vl Hv HF]; subst. apply partval_group in Hv. apply IH in HF; [|assumption..].
      rewrite Hv, HF. reflexivity.
Qed.

Lemma map_cut_id d : no_nul (flat d) -> map cut d = d.
Proof.
  induction d as [|p d IH]; intros H; [reflexivity|]. change (flat (p :: d)) with ((p ++ [58]) ++ flat d) in H.
  unfold no_nul in H. rewrite !in_app_iff in H. cbn [map]. rewrite IH, cut_id by tauto. reflexivity.
Qed.
Lemma map_cut_groups l vs : Forall2 hex_group l vs -> map cut l = l.
Proof.
  induction 1 as [|p v l vs [_ (ds & F & _)] _ IH]; [reflexivity|]. cbn [map]. rewrite IH. f_equal.
  apply cut_id. clear -F. induction F as [|c d s ds Hc _ IH]; [intros []|]. intros [C|C]; [|auto].
  unfold hex_char in Hc. lia.
Qed.

Lemma some_inj {A} (a b : A) : Some a = Some b -> a = b.
Proof. congruence. Qed.

Lemma raw_text s gs : no_nul s -> raw s gs -> v6_text s gs.
Proof.
  intros Hn (ps & h & l & sk & Ea & Hs & Hg). pose proof (abs_parts_le4 _ _ Ea) as H4.
  destruct (shape_sub _ _ _ _ _ Hs H4) as [Fh Fl].
  destruct (shape_parts _ _ _ _ [] Hs) as (Hsk & Hsum & _).
  assert (Lg : length gs = 8%nat).
  { unfold group_values in Hg. destruct (seqo partval h) eqn:E1; [|discriminate]. destruct (seqo partval l) eqn:E2; [|discriminate].
    inversion Hg; subst. apply seqo_len in E1, E2. rewrite !app_length, repeat_length. unfold zlen in *. lia. }
  split; [assumption|].
  revert Ea. unfold abs_parts. destruct (scan s [] []) as [[d c]|] eqn:E; [|discriminate].
  apply scan_sound in E; [|constructor|intros []]. cbn [flat flat_map app] in E. destruct E as (E & Hd & Hc).
  destruct (zlen d >? 8); [discriminate|]. rewrite <- E in Hn.
  assert (no_nul (flat d) /\ no_nul c) as [Nd Nc] by (unfold no_nul in *; rewrite in_app_iff in Hn; tauto).
  rewrite <- join_flat in E. unfold abs_last. rewrite (cut_id c) by assumption. destruct (existsb _ c).
  - (* dotted quad *)
    destruct (zlen d + 1 >=? 8); [discriminate|].
    destruct (v4_from_string (chars c)) as [[|a [|b [|x [|y [|]]]]]| |] eqn:EV; try discriminate.
    apply v4_accept_iff in EV. destruct (dotted_bytes _ _ EV) as (? & ? & ? & ? & [= <- <- <- <-] & Ba & Bb & Bx & By).
    destruct (zlen _ <? 3); [discriminate|]. intros [= <-]. rewrite map_app, (map_cut_id d) in * by assumption.
    set (v1 := a * 256 + b) in *. set (v2 := x * 256 + y) in *.
    assert (0 <= v1 < 65536 /\ 0 <= v2 < 65536) as [V1 V2] by (unfold v1, v2, is_byte in *; lia).
    cbn [map] in *. rewrite (proj2 (holds_hex v1 V1)), (proj2 (holds_hex v2 V2)) in *.
    pose proof (hex4_group v1 V1) as G1. pose proof (hex4_group v2 V2) as G2.
    unfold group_values in Hg. inversion Hs as [? L8 Hne E1 E2 E3 E4|h' l' Hh Hl Hlen E1 E2 E3 E4]; subst.
    + (* eight parts *)
      left. right. cbn [seqo] in Hg. rewrite seqo_app in Hg. cbn [seqo] in Hg.
      rewrite (partval_group _ _ G1), (partval_group _ _ G2) in Hg.
      destruct (seqo partval d) as [vd|] eqn:Ed; [|discriminate]. apply some_inj in Hg. subst gs. cbn [Z.to_nat repeat]. rewrite !app_nil_r.
      exists d, vd, c, a, b, x, y. split; [|auto]. apply values_groups; [| |assumption].
      * intros C. apply Hne. apply in_app_iff. auto.
      * apply Forall_app in H4. tauto.
    + (* with a double colon: the list after it ends with the two hextets *)
      right. destruct (or1_last l Hl) as (z & m & El & Hm & Cl). rewrite El in E1.
      replace (d ++ [hex4 v1; hex4 v2]) with ((d ++ [hex4 v1]) ++ [hex4 v2]) in E1 by (rewrite <- app_assoc; reflexivity).
      rewrite app_comm_cons, app_assoc in E1. apply app_inj_tail in E1 as [E1 Ez].
      destruct Cl as [(_ & C & _)|[-> Nz]]; [subst z; discriminate|]. subst z.
      destruct m as [|u m _] using rev_ind.
      { apply app_inj_tail in E1 as [_ C]. discriminate. }
      rewrite app_comm_cons, app_assoc in E1. apply app_inj_tail in E1 as [E1 Eu]. subst u.
      destruct (seqo partval h) as [vh|] eqn:Eh; [|discriminate].
      rewrite !seqo_app in Hg. cbn [seqo] in Hg. rewrite (partval_group _ _ G1), (partval_group _ _ G2) in Hg.
      destruct (seqo partval m) as [vm|] eqn:Em; [|discriminate]. apply some_inj in Hg. subst gs.
      exists (join h), (join (m ++ [c])), vh, (Z.to_nat (8 - zlen h - zlen ((m ++ [hex4 v1]) ++ [hex4 v2]))), (vm ++ [v1; v2]).
      split; [|split; [|split; [|split]]].
      * exists h. split; [|reflexivity]. apply values_groups; assumption.
      * right. exists m, vm, c, a, b, x, y. split; [|auto].
        apply Forall_app in Fl as [Fl _]. apply Forall_app in Fl as [Fl _].
        apply values_groups; [|assumption..]. intros C. apply Hm. apply in_app_iff. auto.
      * unfold zlen. rewrite !app_length in *. cbn [length] in *. lia.
      * rewrite <- E1, <- app_assoc. cbn [app]. 
        replace (m ++ [c]) with (or1 (m ++ [c])) at 1 by (destruct m; reflexivity).
        rewrite join_dc. reflexivity.
      * rewrite <- !app_assoc. reflexivity.
  - destruct (zlen c >? 4); [discriminate|]. destruct (zlen _ <? 3); [discriminate|]. intros [= <-].
    assert (map cut (d ++ [c]) = d ++ [c]) as Em by (rewrite map_app, map_cut_id by assumption; cbn; rewrite cut_id by assumption; reflexivity).
    rewrite Em in *. clear Em. unfold group_values in Hg.
    destruct (seqo partval h) as [vh|] eqn:Eh; [|discriminate]. destruct (seqo partval l) as [vl|] eqn:El; [|discriminate].
    apply some_inj in Hg. subst gs. inversion Hs as [? L8 Hne E1 E2 E3 E4|h' l' Hh Hl Hlen E1 E2 E3 E4]; subst.
    + left. left. cbn [seqo] in El. injection El as <-. cbn. rewrite app_nil_r. exists (d ++ [c]). split; [|reflexivity].
      apply values_groups; assumption.
    + right. exists (join h), (join l), vh, (Z.to_nat (8 - zlen h - zlen l)), vl.
      split; [exists h; split; [apply values_groups; assumption|reflexivity]|].
      split; [left; exists l; split; [apply values_groups; assumption|reflexivity]|].
      split; [unfold zlen; lia|]. split; [|reflexivity]. rewrite <- join_dc, E1. reflexivity.
Qed.

(** ** Completeness *)
Definition hoe (p : list Z) : Prop := p = [] \/ exists v, hex_group p v.
Lemma hex_group_chars p v : hex_group p v -> Forall (fun c => 48 <= c <= 57 \/ 65 <= c <= 70 \/ 97 <= c <= 102) p.
Proof.
  intros [_ (ds & F & _)]. induction F as [|c d s ds Hc _ IH]; constructor; [|assumption]. unfold hex_char in Hc. lia.
Qed.
Lemma hoe_chars p : hoe p -> Forall (fun c => 48 <= c <= 57 \/ 65 <= c <= 70 \/ 97 <= c <= 102) p.
Proof. intros [->|[v H]]; [constructor|eapply hex_group_chars; eassumption]. Qed.
Lemma hoe_not p c : hoe p -> c < 48 \/ 57 < c < 65 \/ 102 < c -> ~ In c p.
Proof. intros H Hc I. apply hoe_chars in H. rewrite Forall_forall in H. apply H in I. lia. Qed.
Lemma hoe_piece p : hoe p -> piece p.
Proof.
  intros H. split; [apply hoe_not; [assumption|lia]|]. destruct H as [->|[v H]]; [cbn; lia|]. apply hex_group_ne in H. tauto.
Qed.
Lemma hoe_cut p : hoe p -> cut p = p.
Proof. intros H. apply cut_id, hoe_not; [assumption|lia]. Qed.
Lemma no_dot p : ~ In 46 p -> existsb (fun c => c =? 46) p = false.
Proof.
  intros H. destruct (existsb _ p) eqn:E; [|reflexivity]. apply existsb_exists in E as (x & I & E). apply Z.eqb_eq in E. subst. contradiction.
Qed.
Lemma map_cut_hoe d : Forall hoe d -> map cut d = d.
Proof. induction 1 as [|p d H _ IH]; [reflexivity|]. cbn. rewrite IH, hoe_cut by assumption. reflexivity. Qed.

Lemma abs_parts_hex ps : Forall hoe ps -> 3 <= zlen ps <= 9 -> abs_parts (join ps) = Some ps.
Proof.
  intros H Hl. destruct ps as [|c d _] using rev_ind; [cbn in Hl; lia|].
  apply Forall_app in H as [Hd Hc]. inversion Hc as [|? ? Hc' _]; subst. clear Hc.
  autorewrite with zl in Hl. rewrite join_flat. unfold abs_parts.
  destruct (hoe_piece c Hc') as [C58 C4].
  rewrite scan_complete; [|eapply Forall_impl; [apply hoe_piece|exact Hd]|assumption|unfold zlen in Hl; lia|lia].
  destruct (Z.gtb_spec (zlen d) 8); [lia|]. unfold abs_last.
  rewrite no_dot by (apply hoe_not; [assumption|lia]). destruct (Z.gtb_spec (zlen c) 4); [lia|].
  autorewrite with zl. destruct (Z.ltb_spec (zlen d + (0 + 1)) 3); [lia|].
  rewrite map_cut_hoe; [reflexivity|]. apply Forall_app. split; [assumption|]. constructor; [assumption|constructor].
Qed.

Lemma octet_chars s x : octet_text s x -> Forall is_dec_digit s /\ zlen s <= 3.
Proof. intros H. apply octet_cur_ok in H as (H & _). unfold cur_ok in H. tauto. Qed.
Lemma quad_chars q bs : dotted_quad q bs -> Forall (fun c => is_dec_digit c \/ c = 46) q /\ zlen q <= 15 /\ In 46 q.
Proof.
  intros (sa & sb & sc & sd & a & b & c & d & Ha & Hb & Hc & Hd & -> & _).
  apply octet_chars in Ha, Hb, Hc, Hd. destruct Ha as [Ha La], Hb as [Hb Lb], Hc as [Hc Lc], Hd as [Hd Ld].
  assert (I : forall s, Forall is_dec_digit s -> Forall (fun c => is_dec_digit c \/ c = 46) s)
    by (intros s; apply Forall_impl; auto).
  split; [|split; [autorewrite with zl; lia|apply in_app_iff; right; left; reflexivity]].
  repeat (apply Forall_app; split; [auto|apply Forall_cons; [auto|]]). auto.
Qed.
Lemma quad_not q bs c : dotted_quad q bs -> c < 46 \/ 57 < c -> ~ In c q.
Proof. intros H Hc I. apply quad_chars in H as [H _]. rewrite Forall_forall in H. apply H in I. unfold is_dec_digit in I. lia. Qed.

Lemma abs_parts_quad d q a b x y : Forall hoe d -> 1 <= zlen d <= 6 -> dotted_quad q [a; b; x; y] ->
  abs_parts (join (d ++ [q])) = Some (d ++ [hex4 (a * 256 + b); hex4 (x * 256 + y)]).
Proof.
  intros Hd Hl Hq. destruct (quad_chars q _ Hq) as (_ & L & I46). rewrite join_flat. unfold abs_parts.
  rewrite scan_complete; [|eapply Forall_impl; [apply hoe_piece|exact Hd]|apply (quad_not q _ 58 Hq); lia|unfold zlen in Hl; lia|lia].
  destruct (Z.gtb_spec (zlen d) 8); [lia|]. unfold abs_last.
  assert (existsb (fun c => c =? 46) q = true) as -> by (apply existsb_exists; exists 46; auto).
  destruct (Z.geb_spec (zlen d + 1) 8); [lia|]. rewrite cut_id by (apply (quad_not q _ 0 Hq); lia).
  destruct (dotted_bytes _ _ Hq) as (? & ? & ? & ? & [= <- <- <- <-] & Ba & Bb & Bx & By).
  rewrite (v4_accepts _ _ Hq). autorewrite with zl. destruct (Z.ltb_spec (zlen d + (0 + 1 + 1)) 3); [lia|].
  rewrite map_app, map_cut_hoe by assumption. unfold is_byte in *. cbn [map].
  rewrite (proj2 (holds_hex (a * 256 + b) ltac:(lia))), (proj2 (holds_hex (x * 256 + y) ltac:(lia))). reflexivity.
Qed.

Lemma groups_hoe ts vs : Forall2 hex_group ts vs -> Forall hoe ts /\ ~ In [] ts /\ seqo partval ts = Some vs.
Proof.
  induction 1 as [|p v ts vs H _ (I1 & I2 & I3)]; [auto|]. split; [constructor; [right; eauto|assumption]|]. split.
  - intros [->|C]; [apply hex_group_ne in H; tauto|contradiction].
  - cbn [seqo]. rewrite (partval_group _ _ H), I3. reflexivity.
Qed.
Lemma or1_hoe h : Forall hoe h -> Forall hoe (or1 h).
Proof. intros H. destruct h; [constructor; [left; reflexivity|constructor]|assumption]. Qed.

Lemma text_raw s gs : v6_text s gs -> ~ long_quad s -> raw s gs.
Proof.
  intros [L8 [[(ts & HF & ->)|(ts & vs & q & a & b & c & d & HF & Hq & -> & ->)]
             |(hs & ls & hv & n & lv & (h & HFh & ->) & [(l & HFl & ->)|(l & vs & q & a & b & c & d & HFl & Hq & -> & ->)] & Hn & -> & ->)]] NL.
  - (* eight groups *)
    destruct (groups_hoe _ _ HF) as (H1 & H2 & H3). pose proof (Forall2_length _ _ _ HF) as E.
    exists ts, ts, [], 0. split; [apply abs_parts_hex; [assumption|unfold zlen; lia]|].
    split; [constructor; [lia|assumption]|]. unfold group_values. rewrite H3. cbn. rewrite app_nil_r. reflexivity.
  - (* six groups and a quad *)
    destruct (groups_hoe _ _ HF) as (H1 & H2 & H3). pose proof (Forall2_length _ _ _ HF) as E.
    rewrite app_length in L8. cbn [length] in L8.
    destruct (dotted_bytes _ _ Hq) as (? & ? & ? & ? & [= <- <- <- <-] & Ba & Bb & Bx & By). unfold is_byte in *.
    pose proof (hex4_group (a * 256 + b) ltac:(lia)) as G1. pose proof (hex4_group (c * 256 + d) ltac:(lia)) as G2.
    exists (ts ++ [hex4 (a * 256 + b); hex4 (c * 256 + d)]), (ts ++ [hex4 (a * 256 + b); hex4 (c * 256 + d)]), [], 0.
    split; [apply abs_parts_quad; [assumption|unfold zlen; lia|assumption]|].
    split; [constructor; [rewrite app_length; cbn [length]; lia|]|].
    + intros C. apply in_app_iff in C as [C|[C|[C|[]]]]; [contradiction|discriminate|discriminate].
    + unfold group_values. rewrite seqo_app, H3. cbn [seqo]. rewrite (partval_group _ _ G1), (partval_group _ _ G2).
      cbn [Z.to_nat repeat]. rewrite !app_nil_r. reflexivity.
  - (* groups around a double colon *)
    destruct (groups_hoe _ _ HFh) as (H1 & H2 & H3). destruct (groups_hoe _ _ HFl) as (H1' & H2' & H3').
    pose proof (Forall2_length _ _ _ HFh) as E. pose proof (Forall2_length _ _ _ HFl) as E'.
    rewrite !app_length, repeat_length in L8.
    exists (or1 h ++ [] :: or1 l), h, l, (8 - zlen h - zlen l). rewrite <- join_dc.
    split; [apply abs_parts_hex|split; [constructor; [assumption..|lia]|]].
    + apply Forall_app. split; [apply or1_hoe; assumption|]. constructor; [left; reflexivity|apply or1_hoe; assumption].
    + unfold zlen. rewrite app_length. cbn [length]. destruct h; destruct l; cbn [or1 length] in *; lia.
    + unfold group_values. rewrite H3, H3'. do 4 f_equal. unfold zlen. lia.
  - (* ... ending with a quad *)
    destruct (groups_hoe _ _ HFh) as (H1 & H2 & H3). destruct (groups_hoe _ _ HFl) as (H1' & H2' & H3').
    pose proof (Forall2_length _ _ _ HFh) as E. pose proof (Forall2_length _ _ _ HFl) as E'.
    rewrite !app_length, repeat_length in L8. cbn [length] in L8.
    destruct (dotted_bytes _ _ Hq) as (? & ? & ? & ? & [= <- <- <- <-] & Ba & Bb & Bx & By). unfold is_byte in *.
    pose proof (hex4_group (a * 256 + b) ltac:(lia)) as G1. pose proof (hex4_group (c * 256 + d) ltac:(lia)) as G2.
    set (l' := l ++ [hex4 (a * 256 + b); hex4 (c * 256 + d)]).
    assert (~ In [] l') as Nl'.
    { intros C. apply in_app_iff in C as [C|[C|[C|[]]]]; [contradiction|discriminate|discriminate]. }
    assert (length l' = length l + 2)%nat as Ll' by (unfold l'; rewrite app_length; reflexivity).
    assert (or1 l' = l') as Eo by (unfold l'; destruct l; reflexivity).
    exists (or1 h ++ [] :: or1 l'), h, l', (8 - zlen h - zlen l').
    split; [|split; [constructor; [assumption..|lia]|]].
    + replace (join (l ++ [q])) with (join (or1 (l ++ [q]))) by (destruct l; reflexivity). rewrite join_or1, <- join_dc.
      assert (or1 (l ++ [q]) = l ++ [q]) as -> by (destruct l; reflexivity).
      rewrite app_comm_cons, app_assoc. rewrite (abs_parts_quad _ q a b c d).
      * rewrite Eo. unfold l'. rewrite app_comm_cons, app_assoc. reflexivity.
      * apply Forall_app. split; [apply or1_hoe; assumption|]. constructor; [left; reflexivity|assumption].
      * unfold zlen. rewrite app_length. cbn [length]. destruct h as [|p h]; cbn [or1 length] in *; [|lia].
        assert (length l <> 5)%nat; [|lia]. intros L5. apply NL. exists l, vs, q, a, b, c, d. auto.
      * assumption.
    + unfold group_values, l'. rewrite seqo_app, H3, H3'. cbn [seqo].
      rewrite (partval_group _ _ G1), (partval_group _ _ G2). do 4 f_equal. fold l'. unfold zlen. lia.
Qed.
