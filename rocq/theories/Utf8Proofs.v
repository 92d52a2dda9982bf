(** What the UTF-8 reader accepts, exactly. *)
From Verif Require Import Base Tac UnicodeModel V4Proofs BufProofs SpecStr StrProofs.

Definition bytes256 : list Z := map Z.of_nat (seq 0 256).
Lemma in_bytes b : is_u8 b -> In b bytes256.
Proof. unfold is_u8. intros. apply in_map_iff. exists (Z.to_nat b). rewrite in_seq. lia. Qed.
Lemma all_bytes (P : Z -> bool) : forallb P bytes256 = true -> forall b, is_u8 b -> P b = true.
Proof. intros H b Hb. rewrite forallb_forall in H. apply H, in_bytes, Hb. Qed.

Definition cp (b : Z) : option (Z * Z) :=
  if b <? 0x80 then Some (b, 1) else if b <? 0xC0 then None
  else if b <? 0xE0 then Some (b - 0xC0, 2) else if b <? 0xF0 then Some (b - 0xE0, 3)
  else if b <? 0xF8 then Some (b - 0xF0, 4) else None.
Lemma code_point_ok b : is_u8 b -> utf8_code_point b = cp b.
Proof.
  intros Hb.
  pose (eqo (x y : option (Z * Z)) := match x, y with
    | None, None => true | Some (a, b), Some (c, d) => (a =? c) && (b =? d) | _, _ => false end).
  assert (H : eqo (utf8_code_point b) (cp b) = true).
  { revert b Hb. apply (all_bytes (fun b => eqo (utf8_code_point b) (cp b))). vm_compute. reflexivity. }
  destruct (utf8_code_point b) as [[x y]|], (cp b) as [[u v]|]; cbn in H; try discriminate; [|reflexivity].
  do 2 f_equal; lia.
Qed.

Definition trail (b : Z) : Z * bool := if (0x80 <=? b) && (b <? 0xC0) then (b - 0x80, true) else (0, false).
Lemma trail_ok b : is_u8 b ->
  (if Z.land b 0xC0 =? 0x80 then (Z.land b 0x3F, true) else (0, false)) = trail b.
Proof.
  intros Hb.
  assert (H : (fun b => let x := if Z.land b 0xC0 =? 0x80 then (Z.land b 0x3F, true) else (0, false) in
                        (fst x =? fst (trail b)) && Bool.eqb (snd x) (snd (trail b))) b = true).
  { revert b Hb. apply all_bytes. vm_compute. reflexivity. }
  cbn beta zeta in H. destruct (trail b) as [u v]. destruct (Z.land b 0xC0 =? 0x80); cbn [fst snd] in H.
  all: destruct v; cbn [Bool.eqb] in H; rewrite ?andb_false_r, ?andb_true_r in H; try discriminate.
  all: apply Z.eqb_eq in H; rewrite H; reflexivity.
Qed.

(** One step over the remaining bytes. *)
Definition tr (o : option Z) : Z * bool := match o with None => (0, false) | Some b => trail b end.
Definition next8 (r : list Z) : tok * Z :=
  match r with
  | [] => (Bad no_error 0, 0)
  | b :: r =>
      let fin v (ok : bool) := if negb ok then Bad wrong_encoding_sequence 0
                      else if v >? 127 then Bad unexpected_symbol v else Ch v in
      match cp b with
      | None => (fin 0 false, 1)
      | Some (v, n) =>
          if n =? 1 then (fin v true, 1)
          else if n =? 2 then let (t, c) := tr (nth_error r 0) in (fin (v * 64 + t) c, 2)
          else if n =? 3 then
            let (t1, c1) := tr (nth_error r 0) in let (t2, c2) := tr (nth_error r 1) in
            (fin ((v * 64 + t1) * 64 + t2) c2, 3)
          else
            let (t1, c1) := tr (nth_error r 0) in let (t2, c2) := tr (nth_error r 1) in
            let (t3, c3) := tr (nth_error r 2) in
            (fin (((v * 64 + t1) * 64 + t2) * 64 + t3) c3, 4)
      end
  end.

Lemma trail_range b : 0 <= fst (trail b) < 64.
Proof. unfold trail. destruct ((_ <=? _) && _) eqn:E; cbn [fst]; lia. Qed.
Lemma tr_range o : 0 <= fst (tr o) < 64.
Proof. destruct o; [apply trail_range|cbn; lia]. Qed.
Lemma push_ok v t : 0 <= v < 2 ^ 20 -> 0 <= t < 64 -> utf8_push v t = v * 64 + t.
Proof.
  intros Hv Ht. unfold utf8_push, w32. change (2 ^ 20) with 1048576 in Hv. rewrite shl_mul by lia. rewrite Z.mod_small by (pows; change (2 ^ 6) with 64; lia).
  apply (lor_add v t 6); [lia|]. change (2 ^ 6) with 64. lia.
Qed.

Lemma skipn_nth_error {A} (s : list A) i j : nth_error (skipn i s) j = nth_error s (i + j).
Proof. revert s. induction i as [|i IH]; intros [|x s]; cbn; [destruct j; reflexivity..|destruct j; reflexivity|apply IH]. Qed.

Lemma trailing_ok s it : Forall is_u8 s -> 0 <= it ->
  utf8_trailing s (zlen s) it = let (t, c) := tr (nth_error s (Z.to_nat (it + 1))) in Ret (t, c, it + 1).
Proof.
  intros Hs Hit. unfold utf8_trailing. destruct (Z.geb_spec (it + 1) (zlen s)).
  - replace (nth_error s (Z.to_nat (it + 1))) with (@None Z); [reflexivity|].
    symmetry. apply nth_error_None. unfold zlen in *. lia.
  - destruct (rd_some s (it + 1)) as (x & E & E'); [lia|]. rewrite E, E'. cbn [bind tr].
    rewrite <- trail_ok by (eapply rd_ok; eassumption).
    destruct (Z.land x 0xC0 =? 0x80); reflexivity.
Qed.

Lemma utf8_next_ok s it : Forall is_u8 s -> 0 <= it < zlen s ->
  utf8_next s (zlen s) it = let (t, n) := next8 (skipn (Z.to_nat it) s) in Ret (t, it + n).
Proof.
  intros Hs Hit. unfold utf8_next. destruct (rd_some s it) as (x & E & E'); [lia|].
  rewrite E. cbn [bind]. pose proof (rd_ok _ _ _ _ Hs E) as Hx. rewrite code_point_ok by assumption.
  rewrite (skipn_nth s _ x E'). unfold next8. unfold is_u8 in Hx.
  rewrite !skipn_nth_error.
  destruct (cp x) as [[v n]|] eqn:EC.
  2:{ cbn [bind negb]. reflexivity. }
  assert (V : 0 <= v < 128 /\ (n <> 1 -> v < 32)).
  { unfold cp in EC. revert EC.
    destruct (Z.ltb_spec x 0x80); [intros [= <- <-]; lia|]. destruct (Z.ltb_spec x 0xC0); [discriminate|].
    destruct (Z.ltb_spec x 0xE0); [intros [= <- <-]; lia|]. destruct (Z.ltb_spec x 0xF0); [intros [= <- <-]; lia|].
    destruct (Z.ltb_spec x 0xF8); [intros [= <- <-]; lia|discriminate]. }
  destruct (Z.eqb_spec n 1).
  { cbn [bind negb]. destruct (v >? 127); reflexivity. }
  destruct V as [V0 V]. specialize (V n0).
  destruct (Z.eqb_spec n 2).
  { rewrite trailing_ok by (auto; lia). replace (Z.to_nat (it + 1)) with (S (Z.to_nat it) + 0)%nat by lia.
    pose proof (tr_range (nth_error s (S (Z.to_nat it) + 0))) as R1. destruct (tr (nth_error s (S (Z.to_nat it) + 0))) as [t1 c1].
    cbn [bind fst] in *. rewrite push_ok by (change (2 ^ 20) with 1048576; lia).
    destruct c1; cbn [negb]; [destruct (v * 64 + t1 >? 127)|]; do 2 f_equal; lia. }
  destruct (Z.eqb_spec n 3).
  { rewrite trailing_ok by (auto; lia). replace (Z.to_nat (it + 1)) with (S (Z.to_nat it) + 0)%nat by lia.
    pose proof (tr_range (nth_error s (S (Z.to_nat it) + 0))) as R1. destruct (tr (nth_error s (S (Z.to_nat it) + 0))) as [t1 c1].
    cbn [bind fst] in *.
    rewrite trailing_ok by (auto; lia). replace (Z.to_nat (it + 1 + 1)) with (S (Z.to_nat it) + 1)%nat by lia.
    pose proof (tr_range (nth_error s (S (Z.to_nat it) + 1))) as R2. destruct (tr (nth_error s (S (Z.to_nat it) + 1))) as [t2 c2].
    cbn [bind fst] in *. rewrite !push_ok by (try rewrite push_ok; change (2 ^ 20) with 1048576; lia).
    destruct c2; cbn [negb]; [destruct ((v * 64 + t1) * 64 + t2 >? 127)|]; do 2 f_equal; lia. }
  rewrite trailing_ok by (auto; lia). replace (Z.to_nat (it + 1)) with (S (Z.to_nat it) + 0)%nat by lia.
  pose proof (tr_range (nth_error s (S (Z.to_nat it) + 0))) as R1. destruct (tr (nth_error s (S (Z.to_nat it) + 0))) as [t1 c1].
  cbn [bind fst] in *.
  rewrite trailing_ok by (auto; lia). replace (Z.to_nat (it + 1 + 1)) with (S (Z.to_nat it) + 1)%nat by lia.
  pose proof (tr_range (nth_error s (S (Z.to_nat it) + 1))) as R2. destruct (tr (nth_error s (S (Z.to_nat it) + 1))) as [t2 c2].
  cbn [bind fst] in *.
  rewrite trailing_ok by (auto; lia). replace (Z.to_nat (it + 1 + 1 + 1)) with (S (Z.to_nat it) + 2)%nat by lia.
  pose proof (tr_range (nth_error s (S (Z.to_nat it) + 2))) as R3. destruct (tr (nth_error s (S (Z.to_nat it) + 2))) as [t3 c3].
  cbn [bind fst] in *.
  rewrite (push_ok v t1) by (change (2 ^ 20) with 1048576; lia).
  rewrite (push_ok _ t2) by (change (2 ^ 20) with 1048576; lia).
  rewrite (push_ok _ t3) by (change (2 ^ 20) with 1048576; lia).
  destruct c3; cbn [negb]; [destruct (((v * 64 + t1) * 64 + t2) * 64 + t3 >? 127)|]; do 2 f_equal; lia.
Qed.

Lemma next8_pos r : r <> [] -> 1 <= snd (next8 r).
Proof.
  destruct r as [|b r]; [congruence|intros _]. unfold next8. destruct (cp b) as [[v n]|]; [|cbn; lia].
  destruct (n =? 1); [cbn; lia|]. destruct (n =? 2); [destruct (tr _); cbn; lia|].
  destruct (n =? 3); [destruct (tr (nth_error r 0)), (tr (nth_error r 1)); cbn; lia|].
  destruct (tr (nth_error r 0)), (tr (nth_error r 1)), (tr (nth_error r 2)); cbn; lia.
Qed.

Lemma tr_true o t : tr o = (t, true) -> exists b, o = Some b /\ cont b /\ t = b - 0x80.
Proof.
  destruct o as [b|]; cbn; [|discriminate]. unfold trail, cont. destruct ((_ <=? _) && _) eqn:E; [|discriminate].
  intros [= <-]. exists b. split; [reflexivity|]. lia.
Qed.
Lemma trail_inner b : is_u8 b -> inner b (fst (trail b)).
Proof. unfold trail, inner, cont. destruct ((_ <=? _) && _) eqn:E; cbn [fst]; lia. Qed.
Lemma inner_trail b v : inner b v -> fst (trail b) = v.
Proof. unfold trail, inner, cont. destruct ((_ <=? _) && _) eqn:E; cbn [fst]; lia. Qed.
Lemma cont_trail b : cont b -> trail b = (b - 0x80, true).
Proof. unfold trail, cont. destruct ((_ <=? _) && _) eqn:E; [reflexivity|lia]. Qed.

Lemma next8_sound r c n : Forall is_u8 r -> r <> [] -> next8 r = (Ch c, n) ->
  exists seq r', r = seq ++ r' /\ lax_seq seq c /\ n = zlen seq.
Proof.
  destruct r as [|b r]; [congruence|]. intros HF _. inversion HF as [|? ? Hb Hr]; subst. unfold next8, cp.
  unfold is_u8 in Hb.
  destruct (Z.ltb_spec b 0x80).
  { cbn [Z.eqb Pos.eqb negb]. destruct (Z.gtb_spec b 127); intros [= <- <-].
    exists [b], r. repeat split. constructor. unfold is_ascii; lia. }
  destruct (Z.ltb_spec b 0xC0); [discriminate|].
  destruct (Z.ltb_spec b 0xE0).
  { cbn [Z.eqb Pos.eqb]. destruct (tr (nth_error r 0)) as [t c1] eqn:E1. destruct c1; cbn [negb]; [|discriminate].
    destruct (Z.gtb_spec ((b - 0xC0) * 64 + t) 127); [discriminate|]. intros [= <- <-].
    apply tr_true in E1 as (x & Ex & Hx & ->). destruct r as [|y r]; [discriminate|]. cbn in Ex. injection Ex as ->.
    exists [b; x], r. split; [reflexivity|]. split; [|reflexivity]. constructor; [unfold cont in *; lia|assumption|reflexivity]. }
  destruct (Z.ltb_spec b 0xF0).
  { cbn [Z.eqb Pos.eqb]. destruct (tr (nth_error r 0)) as [t1 c1] eqn:E1. destruct (tr (nth_error r 1)) as [t2 c2] eqn:E2.
    destruct c2; cbn [negb]; [|discriminate].
    destruct (Z.gtb_spec (((b - 0xE0) * 64 + t1) * 64 + t2) 127); [discriminate|]. intros [= <- <-].
    apply tr_true in E2 as (x & Ex & Hx & ->). destruct r as [|y [|z r]]; try discriminate. cbn in Ex, E1. injection Ex as ->.
    pose proof (trail_inner y ltac:(inversion Hr; assumption)) as I. pose proof (trail_range y) as R. rewrite E1 in I, R. cbn [fst] in I, R.
    unfold cont in Hx. assert (b = 0xE0) by lia. subst b.
    exists [0xE0; y; x], r. split; [reflexivity|]. split; [|reflexivity].
    apply lax3 with t1; auto; unfold cont; lia. }
  destruct (Z.ltb_spec b 0xF8); [|discriminate].
  cbn [Z.eqb Pos.eqb]. destruct (tr (nth_error r 0)) as [t1 c1] eqn:E1. destruct (tr (nth_error r 1)) as [t2 c2] eqn:E2.
  destruct (tr (nth_error r 2)) as [t3 c3] eqn:E3.
  destruct c3; cbn [negb]; [|discriminate].
  destruct (Z.gtb_spec ((((b - 0xF0) * 64 + t1) * 64 + t2) * 64 + t3) 127); [discriminate|]. intros [= <- <-].
  apply tr_true in E3 as (x & Ex & Hx & ->). destruct r as [|y [|z [|w r]]]; try discriminate. cbn in Ex, E1, E2. injection Ex as ->.
  inversion Hr as [|? ? Hy Hr1]; subst. inversion Hr1 as [|? ? Hz Hr2]; subst.
  pose proof (trail_inner y Hy) as I1. pose proof (trail_range y) as R1. rewrite E1 in I1, R1. cbn [fst] in I1, R1.
  pose proof (trail_inner z Hz) as I2. pose proof (trail_range z) as R2. rewrite E2 in I2, R2. cbn [fst] in I2, R2.
  unfold cont in Hx. assert (b = 0xF0) by lia. assert (t1 = 0) by lia. subst b t1.
  exists [0xF0; y; z; x], r. split; [reflexivity|]. split; [|reflexivity].
  apply lax4 with t2; auto; unfold cont; lia.
Qed.

Lemma next8_complete seq c r : lax_seq seq c -> next8 (seq ++ r) = (Ch c, zlen seq).
Proof.
  intros H. destruct H as [c Hc|l t c Hl Ht ->|x v t c Hx Hv Ht ->|x y v t c Hx Hy Hv Ht ->].
  - cbn [app]. unfold next8, cp, is_ascii in *. destruct (Z.ltb_spec c 0x80); [|lia]. cbn [Z.eqb Pos.eqb negb].
    destruct (Z.gtb_spec c 127); [lia|reflexivity].
  - assert (E : next8 ([l; t] ++ r) = let (t', c) := trail t in
      ((if negb c then Bad wrong_encoding_sequence 0
        else if (l - 0xC0) * 64 + t' >? 127 then Bad unexpected_symbol ((l - 0xC0) * 64 + t') else Ch ((l - 0xC0) * 64 + t')), 2)).
    { destruct Hl as [->| ->]; reflexivity. }
    rewrite E, cont_trail by assumption. cbn [negb]. unfold cont in Ht.
    destruct (Z.gtb_spec ((l - 0xC0) * 64 + (t - 0x80)) 127); [lia|reflexivity].
  - cbn [app]. unfold next8. change (cp 0xE0) with (Some (0, 3)). cbn [Z.eqb Pos.eqb nth_error tr].
    rewrite (cont_trail t) by assumption. apply inner_trail in Hx. destruct (trail x) as [u c1]. cbn [fst] in Hx. subst u.
    cbn [negb]. unfold cont in Ht. replace ((0 * 64 + v) * 64 + (t - 128)) with (v * 64 + (t - 128)) by lia.
    destruct (Z.gtb_spec (v * 64 + (t - 0x80)) 127); [lia|reflexivity].
  - cbn [app]. unfold next8. change (cp 0xF0) with (Some (0, 4)). cbn [Z.eqb Pos.eqb nth_error tr].
    rewrite (cont_trail t) by assumption. apply inner_trail in Hx. destruct (trail x) as [u c1]. cbn [fst] in Hx. subst u.
    apply inner_trail in Hy. destruct (trail y) as [u c2]. cbn [fst] in Hy. subst u.
    cbn [negb]. unfold cont in Ht. replace (((0 * 64 + 0) * 64 + v) * 64 + (t - 128)) with (v * 64 + (t - 128)) by lia.
    destruct (Z.gtb_spec (v * 64 + (t - 0x80)) 127); [lia|reflexivity].
Qed.

Lemma lax_seq_len seq c : lax_seq seq c -> 1 <= zlen seq.
Proof. destruct 1; cbn; lia. Qed.

Lemma utf8_tokens_from s : Forall is_u8 s -> forall k it, 0 <= it -> (Z.to_nat (zlen s - it) <= k)%nat ->
  exists ts, tokens_from k utf8_next s it = Ret ts /\
    forall p, ts = chars p <-> lax_utf8 (skipn (Z.to_nat it) s) p.
Proof.
  intros Hs. induction k as [|k IH]; intros it Hit Hk; cbn [tokens_from].
  - destruct (Z.ltb_spec it (zlen s)); [lia|]. exists []. split; [reflexivity|].
    rewrite skipn_all2 by (unfold zlen in *; lia). intros p. split.
    + destruct p; [constructor|discriminate].
    + intros H'; inversion H' as [|seq c s' p' HL HP E]; [reflexivity|]. apply lax_seq_len in HL. destruct seq; [cbn in HL; lia|discriminate].
  - destruct (Z.ltb_spec it (zlen s)).
    2:{ exists []. split; [reflexivity|].
        rewrite skipn_all2 by (unfold zlen in *; lia). intros p. split.
        + destruct p; [constructor|discriminate].
        + intros H'; inversion H' as [|seq c s' p' HL HP E]; [reflexivity|]. apply lax_seq_len in HL. destruct seq; [cbn in HL; lia|discriminate]. }
    rewrite utf8_next_ok by (auto; lia).
    assert (Hne : skipn (Z.to_nat it) s <> []).
    { intros E. apply (f_equal (@length Z)) in E. rewrite skipn_length in E. cbn in E. unfold zlen in *. lia. }
    assert (HF : Forall is_u8 (skipn (Z.to_nat it) s)).
    { rewrite <- (firstn_skipn (Z.to_nat it) s) in Hs. apply Forall_app in Hs. tauto. }
    pose proof (next8_pos _ Hne) as Hpos. destruct (next8 (skipn (Z.to_nat it) s)) as [t n] eqn:EN. cbn [snd] in Hpos. cbn [bind].
    destruct (IH (it + n) ltac:(lia) ltac:(lia)) as (ts & -> & HT). cbn [bind].
    exists (t :: ts). split; [reflexivity|].
    assert (SK : forall seq r, skipn (Z.to_nat it) s = seq ++ r -> n = zlen seq -> skipn (Z.to_nat (it + n)) s = r).
    { intros seq r E ->. replace (Z.to_nat (it + zlen seq)) with (length seq + Z.to_nat it)%nat by (unfold zlen; lia).
      rewrite <- (firstn_skipn (Z.to_nat it) s) at 1. rewrite E.
      assert (L : length (firstn (Z.to_nat it) s) = Z.to_nat it) by (rewrite firstn_length; unfold zlen in *; lia).
      rewrite app_assoc, skipn_app. rewrite skipn_all2 by (rewrite app_length; lia).
      rewrite app_length, L. replace (length seq + Z.to_nat it - (Z.to_nat it + length seq))%nat with 0%nat by lia. reflexivity. }
    intros p. split.
    + destruct p as [|c p]; [discriminate|]. intros [= -> Ets].
      destruct (next8_sound _ _ _ HF Hne EN) as (seq & r & E & HL & En). rewrite E. constructor; [assumption|].
      rewrite <- (SK seq r E En). apply HT. assumption.
    + intros H'. inversion H' as [E|seq c s' p' HL HP E]; subst; [congruence|].
      symmetry in E. pose proof (next8_complete seq c s' HL) as EC. rewrite <- E, EN in EC. injection EC as -> En.
      cbn [chars map]. f_equal. apply HT. rewrite (SK seq s' E En). assumption.
Qed.

Lemma utf8_tokens s : Forall is_u8 s ->
  exists ts, tokens utf8_next s = Ret ts /\ forall p, ts = chars p <-> lax_utf8 s p.
Proof. intros H. apply (utf8_tokens_from s H (length s) 0); unfold zlen; lia. Qed.

Lemma utf8_parse {A} (f : list tok -> res A) :
  (forall ts a, f ts = Ret a -> exists s, ts = chars s) ->
  forall s, Forall is_u8 s -> forall a,
  (ts <- tokens utf8_next s ;; f ts) = Ret a <-> exists p, lax_utf8 s p /\ f (chars p) = Ret a.
Proof.
  intros Hf s Hs a. destruct (utf8_tokens s Hs) as (ts & -> & HT). cbn [bind]. split.
  - intros H. destruct (Hf _ _ H) as [p ->]. exists p. split; [apply HT; reflexivity|assumption].
  - intros (p & HL & H). apply HT in HL. subst. assumption.
Qed.

Lemma lax_ascii : forall s, Forall is_ascii s -> lax_utf8 s s.
Proof.
  induction s as [|c s IH]; intros H; [constructor|]. inversion H; subst.
  apply (lu_cons [c] c s s); [constructor; assumption|auto].
Qed.
Lemma lax_ascii_inv : forall s p, lax_utf8 s p -> Forall is_ascii s -> p = s.
Proof.
  induction 1 as [|seq c s p HL HP IH]; intros HA; [reflexivity|]. apply Forall_app in HA as [H1 H2].
  rewrite (IH H2). destruct HL as [c Hc|l t c Hl Ht|x v t c Hx Hv Ht|x y v t c Hx Hy Hv Ht]; [reflexivity|..];
    inversion H1 as [|? ? HA _]; unfold is_ascii in HA; lia.
Qed.
