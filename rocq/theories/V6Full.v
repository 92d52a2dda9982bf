(** The whole IPv6 parser. *)
From Verif Require Import Base Tac SpecText TextProofs UnicodeModel FixedStringModel V4Model V6Model
  SpecV4 SpecV6 SpecAddr SpecStr V4Proofs BufProofs BitProofs StrProofs Utf8Proofs FixedStringProofs V6Proofs V6Parse V6Grammar.

Definition scope_okb (t : list Z) : bool :=
  (forallb (fun c => negb (is_invalid_scope_id_symbol c)) t) && (zlen t <=? 16) && negb (hd 0 t =? 0).

Lemma firstn_chars a b : firstn (Z.to_nat (zlen a)) (chars (a ++ b)) = chars a.
Proof.
  rewrite to_nat_zlen, chars_app, firstn_app.
  assert (length (chars a) = length a) as E by apply map_length. rewrite E, Nat.sub_diag. cbn [firstn].
  rewrite app_nil_r. apply firstn_all2. lia.
Qed.

Lemma v6_from_string_cons ts : ts <> [] -> v6_from_string true ts =
  ('(end_ip, scope_id) <- split_scope_id ts ;;
   '(parts, parts_count) <- split_parts true (firstn (Z.to_nat end_ip) ts) ;;
   '(hi, lo, skipped) <- get_parts_bound parts parts_count ;;
   bytes <- parse_parts parts parts_count hi lo skipped ;;
   s0 <- rd scope_id 0 ;;
   if negb (s0 =? 0) then
     f <- fs_make char_next 16 scope_id ;; Ret (bytes, fs_chars f)
   else Ret (bytes, [])).
Proof. destruct ts; [contradiction|reflexivity]. Qed.

Lemma v6_from_string_addr ts a sc : 
  split_parts true (firstn (Z.to_nat (zlen a)) ts) = split_parts true (chars a) ->
  ('(parts, parts_count) <- split_parts true (firstn (Z.to_nat (zlen a)) ts) ;;
   '(hi, lo, skipped) <- get_parts_bound parts parts_count ;;
   bytes <- parse_parts parts parts_count hi lo skipped ;;
   s0 <- rd sc 0 ;;
   if negb (s0 =? 0) then
     f <- fs_make char_next 16 sc ;; Ret (bytes, fs_chars f)
   else Ret (bytes, [])) =
  (bytes <- v6_addr a ;; 
   s0 <- rd sc 0 ;;
   if negb (s0 =? 0) then
     f <- fs_make char_next 16 sc ;; Ret (bytes, fs_chars f)
   else Ret (bytes, [])).
Proof.
  intros ->. unfold v6_addr. destruct (split_parts true (chars a)) as [[p n]| |]; cbn [bind]; try reflexivity.
  destruct (get_parts_bound p n) as [[[hi lo] sk]| |]; cbn [bind]; try reflexivity.
Qed.

Lemma chars_nil s : s <> [] -> chars s <> [].
Proof. destruct s; [contradiction|discriminate]. Qed.

Lemma v6_empty_raw gs : ~ raw [] gs.
Proof. intros (ps & h & l & sk & C & _). discriminate. Qed.

(** No '%'. *)
Lemma v6_plain s : ~ In 37 s -> 
  outcome (v6_from_string true (chars s)) (match v6_addr s with Ret b => Some (b, []) | _ => None end).
Proof.
  intros H. destruct s as [|c s']; [exists empty_address, 0; reflexivity|]. set (s := c :: s') in *.
  rewrite v6_from_string_cons by (apply chars_nil; discriminate).
  pose proof (split_scope_ok s) as Sc. rewrite scan_scope_false in Sc by assumption. cbn [app andb outcome] in Sc.
  rewrite Sc. cbn [bind]. rewrite v6_from_string_addr.
  2:{ rewrite <- (app_nil_r s) at 2. rewrite firstn_chars. reflexivity. }
  destruct (v6_addr_outcome s) as [(gs & _ & ->)|[(e & v & ->) _]]; [|apply outcome_err].
  cbn [bind]. rewrite hd_buf. cbn [bind hd negb Z.eqb]. apply outcome_ret.
Qed.
(** With '%'. *)
Lemma v6_percent a t : ~ In 37 a ->
  outcome (v6_from_string true (chars (a ++ 37 :: t)))
    (if scope_okb t then match v6_addr a with Ret b => Some (b, cut t) | _ => None end else None).
Proof.
  intros H. rewrite v6_from_string_cons by (apply chars_nil; destruct a; discriminate).
  pose proof (split_scope_ok (a ++ 37 :: t)) as Sc. rewrite scan_scope_sep in Sc by assumption. unfold scope_okb.
  destruct (forallb (fun c => negb (is_invalid_scope_id_symbol c)) t && (zlen t <=? 16)) eqn:Et; cbn [andb app] in Sc |- *.
  2:{ destruct Sc as (e & v & ->). apply outcome_err. }
  destruct (Z.eqb_spec (hd 0 t) 0) as [E0|E0]; cbn [negb].
  { destruct Sc as (e & v & ->). apply outcome_err. }
  cbn [outcome] in Sc. rewrite Sc. cbn [bind]. rewrite v6_from_string_addr by (rewrite firstn_chars; reflexivity).
  destruct (v6_addr_outcome a) as [(gs & _ & ->)|[(e & v & ->) _]]; [|apply outcome_err].
  cbn [bind]. rewrite hd_buf. cbn [bind]. destruct (Z.eqb_spec (hd 0 t) 0); [contradiction|]. cbn [negb].
  assert (zlen t <= 16) as Lt by lia.
  destruct (fs_make_cut 16 (buf 17 t) (cut t)) as (f & -> & Ef).
  - pose proof (zlen_buf 17 t ltac:(lia)). unfold zlen in *. lia.
  - unfold buf. replace (Z.to_nat 17 - length t)%nat with (S (16 - length t))%nat by (unfold zlen in *; lia).
    cbn [repeat]. apply c_string_cut. unfold zlen in *. lia.
  - cbn [bind]. rewrite Ef. apply outcome_ret.
Qed.

Lemma outcome_defined {A} (r : res A) o : outcome r o -> is_defined r.
Proof. destruct o; cbn; [intros ->; exact I|intros (e & v & ->); exact I]. Qed.
Lemma outcome_iff {A} (r : res A) o x : outcome r o -> (r = Ret x <-> o = Some x).
Proof. destruct o; cbn; [intros ->|intros (e & v & ->)]; split; congruence. Qed.

(** Tokens with an encoding error are an error. *)
Lemma split_scope_bad : forall p rest e v scope pos end_ip t, zlen t <= 16 ->
  exists e' v', split_scope_loop (chars p ++ Bad e v :: rest) pos end_ip scope (buf 17 t) (zlen t) = Err e' v'.
Proof.
  induction p as [|c p IH]; intros rest e v scope pos end_ip t Ht; cbn [chars map app split_scope_loop]; [eauto|].
  change (map Ch p) with (chars p). destruct scope; cbn [negb andb].
  - unfold scope_max. destruct (Z.gtb_spec (zlen t) (16 - 1)); [eauto|].
    destruct (is_invalid_scope_id_symbol c); [eauto|]. rewrite wr_buf by lia. cbn [bind].
    replace (zlen t + 1) with (zlen (t ++ [c])) by (autorewrite with zl; lia). apply IH. autorewrite with zl. lia.
  - destruct (c =? 37); cbn [negb]; apply IH; assumption.
Qed.
Lemma toks_split ts : (exists s, ts = chars s) \/ exists p e v rest, ts = chars p ++ Bad e v :: rest.
Proof.
  induction ts as [|[c|e v] ts IH].
  - left. exists []. reflexivity.
  - destruct IH as [[s ->]|(p & e & v & r & ->)]; [left; exists (c :: s); reflexivity|right; exists (c :: p), e, v, r; reflexivity].
  - right. exists [], e, v, ts. reflexivity.
Qed.
Lemma v6_bad p e v rest : exists e' v', v6_from_string true (chars p ++ Bad e v :: rest) = Err e' v'.
Proof.
  rewrite v6_from_string_cons by (destruct p; discriminate). unfold split_scope_id.
  destruct (split_scope_bad p rest e v false 0 0 [] ltac:(cbn; lia)) as (e' & v' & E).
  change (buf 17 []) with (repeat 0 17) in E. change (zlen (@nil Z)) with 0 in E. rewrite E. cbn [bind]. eauto.
Qed.

Lemma v6_defined ts : is_defined (v6_from_string true ts).
Proof.
  destruct (toks_split ts) as [[s ->]|(p & e & v & r & ->)].
  - destruct (split_first 37 s) as [H|(a & t & -> & H)].
    + eapply outcome_defined, v6_plain. assumption.
    + eapply outcome_defined, v6_percent. assumption.
  - destruct (v6_bad p e v r) as (e' & v' & ->). exact I.
Qed.
Lemma v6_tokens_only ts x : v6_from_string true ts = Ret x -> exists s, ts = chars s.
Proof.
  intros H. destruct (toks_split ts) as [?|(p & e & v & r & ->)]; [assumption|].
  destruct (v6_bad p e v r) as (e' & v' & E). congruence.
Qed.

Lemma v6_addr_iff a b : v6_addr a = Ret b <-> exists gs, raw a gs /\ b = group_bytes gs.
Proof.
  destruct (v6_addr_outcome a) as [(gs & Hr & ->)|[(e & v & ->) No]].
  - split; [intros [= <-]; eauto|]. intros (gs' & Hr' & ->). do 2 f_equal.
    destruct Hr as (ps & h & l & sk & E1 & E2 & E3), Hr' as (ps' & h' & l' & sk' & E1' & E2' & E3').
    rewrite E1 in E1'. injection E1' as <-. pose proof (split_parts_ok a) as P. rewrite E1 in P.
    destruct (shape_det ps h l sk h' l' sk' ltac:(lia) E2 E2') as (<- & <- & <-). congruence.
  - split; [discriminate|]. intros (gs & Hr & _). destruct (No gs Hr).
Qed.

Lemma sep_unique (c : Z) : forall a u a' u', a ++ c :: u = a' ++ c :: u' -> ~ In c a -> ~ In c a' -> a = a' /\ u = u'.
Proof.
  induction a as [|x a IH]; intros u [|x' a'] u' E H H'; cbn in E.
  - injection E as ->. auto.
  - injection E as -> _. exfalso. apply H'. left. reflexivity.
  - injection E as -> _. exfalso. apply H. left. reflexivity.
  - injection E as -> E. destruct (IH u a' u' E) as [-> ->]; auto; intros C; [apply H|apply H']; right; assumption.
Qed.

(** Everything the parser accepts, NULs included. *)
Lemma v6_accept_raw s b t : v6_from_string true (chars s) = Ret (b, t) <->
  (~ In 37 s /\ t = [] /\ exists gs, raw s gs /\ b = group_bytes gs) \/
  (exists a u, s = a ++ 37 :: u /\ ~ In 37 a /\ scope_okb u = true /\ t = cut u /\ exists gs, raw a gs /\ b = group_bytes gs).
Proof.
  destruct (split_first 37 s) as [H|(a & u & -> & H)].
  - rewrite (outcome_iff _ _ (b, t) (v6_plain s H)). split.
    + destruct (v6_addr s) as [b'| |] eqn:E; try discriminate. intros [= <- <-]. left. apply v6_addr_iff in E. auto.
    + intros [(_ & -> & G)|(a & u & -> & _)].
      * apply v6_addr_iff in G. rewrite G. reflexivity.
      * exfalso. apply H. apply in_app_iff. right. left. reflexivity.
  - rewrite (outcome_iff _ _ (b, t) (v6_percent a u H)). split.
    + destruct (scope_okb u) eqn:Eu; [|discriminate]. destruct (v6_addr a) as [b'| |] eqn:E; try discriminate.
      intros [= <- <-]. right. exists a, u. apply v6_addr_iff in E. auto 6.
    + intros [(C & _)|(a' & u' & E & H' & Hu & -> & G)].
      * exfalso. apply C. apply in_app_iff. right. left. reflexivity.
      * assert (a = a' /\ u = u') as [<- <-].
        { apply (sep_unique 37); assumption. }
        rewrite Hu. apply v6_addr_iff in G. rewrite G. reflexivity.
Qed.

Lemma scope_char_iff c : is_invalid_scope_id_symbol c = false <-> scope_char c.
Proof. unfold is_invalid_scope_id_symbol, scope_char. lia. Qed.
Lemma scope_okb_iff t : no_nul t -> scope_okb t = true <-> scope_text t.
Proof.
  intros Hn. unfold scope_okb, scope_text.
  assert (forallb (fun c => negb (is_invalid_scope_id_symbol c)) t = true <-> Forall scope_char t) as F.
  { rewrite forallb_forall, Forall_forall. split; intros H x Hx; apply H in Hx.
    - apply scope_char_iff. destruct (is_invalid_scope_id_symbol x); [discriminate|reflexivity].
    - apply scope_char_iff in Hx. rewrite Hx. reflexivity. }
  assert (negb (hd 0 t =? 0) = true <-> 1 <= zlen t) as F1.
  { destruct t as [|c t]; [cbn; split; [discriminate|lia]|]. cbn [hd]. autorewrite with zl. pose proof (zlen_nonneg t).
    destruct (Z.eqb_spec c 0) as [->|]; [exfalso; apply Hn; left; reflexivity|]. cbn. split; intros; lia. }
  rewrite !andb_true_iff, F, F1, Z.leb_le. tauto.
Qed.

(** Characters of address texts. *)
Lemma join_chars (P : Z -> Prop) ts : P 58 -> Forall (Forall P) ts -> Forall P (join ts).
Proof.
  intros H F. induction F as [|p ts Hp HF IH]; [constructor|]. destruct ts; [assumption|].
  rewrite join_cons by discriminate. apply Forall_app. split; [assumption|]. constructor; assumption.
Qed.
Definition addr_char (c : Z) : Prop := 48 <= c <= 58 \/ 65 <= c <= 70 \/ 97 <= c <= 102 \/ c = 46.
Lemma groups_chars ts vs : Forall2 hex_group ts vs -> Forall (Forall addr_char) ts.
Proof.
  induction 1 as [|p v ts vs H _ IH]; constructor; [|assumption].
  apply hex_group_chars in H. eapply Forall_impl; [|exact H]. unfold addr_char. intros; lia.
Qed.
Lemma quad_addr q bs : dotted_quad q bs -> Forall addr_char q.
Proof. intros H. apply quad_chars in H as [H _]. eapply Forall_impl; [|exact H]. unfold addr_char, is_dec_digit. intros; lia. Qed.
Lemma tail_chars s vs : tail_text s vs -> Forall addr_char s.
Proof.
  intros [(ts & F & ->)|(ts & vs' & q & a & b & c & d & F & Q & -> & _)]; apply join_chars; try (unfold addr_char; lia).
  - eapply groups_chars; eassumption.
  - apply Forall_app. split; [eapply groups_chars; eassumption|]. constructor; [eapply quad_addr; eassumption|constructor].
Qed.
Lemma text_chars s gs : v6_text s gs -> Forall addr_char s.
Proof.
  intros [_ [H|(h & l & hv & n & lv & (ts & F & ->) & Hl & _ & -> & _)]]; [eapply tail_chars; eassumption|].
  apply Forall_app. split; [apply join_chars; [unfold addr_char; lia|eapply groups_chars; eassumption]|].
  cbn [app]. do 2 (constructor; [unfold addr_char; lia|]). eapply tail_chars; eassumption.
Qed.
Lemma text_not s gs c : v6_text s gs -> ~ addr_char c -> ~ In c s.
Proof. intros H N I. apply text_chars in H. rewrite Forall_forall in H. auto. Qed.

Lemma raw_iff s gs : no_nul s -> raw s gs <-> v6_text s gs /\ ~ long_quad s.
Proof.
  intros Hn. split.
  - intros H. split; [apply raw_text; assumption|].
    intros (ts & vs & q & a & b & c & d & L5 & HF & Hq & ->).
    destruct H as (ps & h & l & sk & Ea & _). revert Ea. unfold abs_parts.
    destruct (groups_hoe _ _ HF) as (H1 & _ & _). destruct (quad_chars q _ Hq) as (_ & L & I46).
    replace ([58; 58] ++ join (ts ++ [q])) with (flat ([] :: [] :: ts) ++ q)
      by (rewrite join_flat; reflexivity).
    rewrite scan_complete; [| |apply (quad_not q _ 58 Hq); lia|cbn [length]; lia|lia].
    2:{ do 2 (constructor; [split; [intros []|cbn; lia]|]). eapply Forall_impl; [apply hoe_piece|exact H1]. }
    destruct (Z.gtb_spec (zlen ([] :: [] :: ts)) 8) as [G|G]; [discriminate|]. unfold abs_last.
    assert (existsb (fun c => c =? 46) q = true) as -> by (apply existsb_exists; exists 46; auto).
    destruct (Z.geb_spec (zlen ([] :: [] :: ts) + 1) 8) as [G8|G8]; [discriminate|].
    unfold zlen in G8. cbn [length] in G8. lia.
  - intros [H N]. apply text_raw; assumption.
Qed.

(** The one refused form, with its scope. *)
Lemma v6_accept_iff s b t : no_nul s ->
  v6_from_string true (chars s) = Ret (b, t) <->
  exists gs, v6_scoped s gs t /\ b = group_bytes gs /\ ~ refused s.
Proof.
  intros Hn. rewrite v6_accept_raw. split.
  - intros [(H37 & -> & gs & Hr & ->)|(a & u & -> & H37 & Hu & -> & gs & Hr & ->)]; exists gs.
    + apply raw_iff in Hr; [|assumption]. split; [left; tauto|]. split; [reflexivity|].
      intros [C|(a & t & -> & _)]; [tauto|]. apply H37. apply in_app_iff. right. left. reflexivity.
    + assert (no_nul a /\ no_nul u) as [Na Nu].
      { unfold no_nul in *. rewrite in_app_iff in Hn. cbn in Hn. tauto. }
      apply raw_iff in Hr; [|assumption]. apply scope_okb_iff in Hu; [|assumption].
      rewrite cut_id by assumption. split; [right; exists a; tauto|]. split; [reflexivity|].
      assert (A : forall x, long_quad x -> ~ In 37 x /\ Forall addr_char x).
      { intros x (ts & vs & q & y1 & y2 & y3 & y4 & _ & F & Q & ->).
        assert (Forall addr_char ([58; 58] ++ join (ts ++ [q]))) as FA.
        { cbn [app]. do 2 (constructor; [unfold addr_char; lia|]). apply join_chars; [unfold addr_char; lia|].
          apply Forall_app. split; [eapply groups_chars; eassumption|]. constructor; [eapply quad_addr; eassumption|constructor]. }
        split; [|assumption]. intros C. rewrite Forall_forall in FA. apply FA in C. unfold addr_char in C. lia. }
      intros [C|(a' & t & E & C)].
      * apply A in C as [C _]. apply C. apply in_app_iff. right. left. reflexivity.
      * pose proof (A _ C) as [C37 _]. assert (a = a') as <-; [|tauto].
        apply (sep_unique 37) in E; [tauto|assumption..].
  - intros (gs & [[Ht ->]|(a & -> & Ht & Hs)] & -> & Nr).
    + left. split; [eapply text_not; [eassumption|unfold addr_char; lia]|]. split; [reflexivity|]. exists gs. split; [|reflexivity].
      apply raw_iff; [assumption|]. split; [assumption|]. intros C. apply Nr. left. assumption.
    + right. assert (no_nul a /\ no_nul t) as [Na Nt].
      { unfold no_nul in *. rewrite in_app_iff in Hn. cbn in Hn. tauto. }
      exists a, t. split; [reflexivity|]. split; [eapply text_not; [eassumption|unfold addr_char; lia]|].
      split; [apply scope_okb_iff; assumption|]. split; [symmetry; apply cut_id; assumption|]. exists gs. split; [|reflexivity].
      apply raw_iff; [assumption|]. split; [assumption|]. intros C. apply Nr. right. exists a, t. auto.
Qed.
