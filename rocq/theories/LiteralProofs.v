(** Lemmas about arrays, literals and templates. *)
From Verif Require Import Base Tac UnicodeModel FixedStringModel V4Model V6Model AddressModel NetworkModel AnyModel CodeModel StreamModel
  SpecStr SpecAny SpecCode SpecStream StrProofs Utf8Proofs V4Proofs BufProofs FixedStringProofs CodeProofs CodeProofs3 StreamProofs
  LiteralModel SpecLiteral.

(** *** One step of a reader inside a longer array *)
Lemma ascii_land x m : is_ascii x -> Z.land 127 m = 0 -> Z.land x m = 0.
Proof.
  intros H M. unfold is_ascii in H. rewrite <- (Z.mod_small x (2 ^ 7)) by lia. rewrite <- Z.land_ones by lia.
  change (Z.ones 7) with 127. rewrite <- Z.land_assoc, M. apply Z.land_0_r.
Qed.
Lemma step_ascii T data e it x : rd data it = Ret x -> plain T [x] -> reader_of T data e it = Ret (Ch x, it + 1).
Proof.
  intros E [->|H]; [cbn [reader_of]; unfold char_next; rewrite E; reflexivity|].
  assert (A : is_ascii x) by (inversion H; assumption). clear H. pose proof A as A'. unfold is_ascii in A'.
  assert (G : (x >? 127) = false) by (destruct (Z.gtb_spec x 127); [lia|reflexivity]).
  destruct T; cbn [reader_of].
  - unfold char_next. rewrite E. reflexivity.
  - unfold utf8_next. rewrite E. cbn [bind]. unfold utf8_code_point. rewrite (ascii_land x 0x80 A eq_refl).
    cbn [Z.eqb Pos.eqb bind negb]. rewrite G. reflexivity.
  - unfold utf16_next. rewrite E. cbn [bind]. rewrite (ascii_land x 0xFC00 A eq_refl). cbn [Z.eqb bind negb]. rewrite G. reflexivity.
  - unfold utf32_next. rewrite E. cbn [bind]. unfold w32. rewrite Z.mod_small by lia. cbv zeta. rewrite G. reflexivity.
  - unfold utf32_next. rewrite E. cbn [bind]. unfold w32. rewrite Z.mod_small by lia. cbv zeta. rewrite G. reflexivity.
Qed.
Lemma rd_firstn {A} n (l : list A) i : i < Z.of_nat n -> rd (firstn n l) i = rd l i.
Proof.
  intros H. unfold rd. destruct (Z.ltb_spec i 0); [reflexivity|]. replace (nth_error (firstn n l) (Z.to_nat i)) with (nth_error l (Z.to_nat i)); [reflexivity|].
  assert (K : (Z.to_nat i < n)%nat) by lia. revert K. generalize (Z.to_nat i) as j. clear. revert l.
  induction n as [|n IH]; intros l j K; [lia|]. destruct l as [|y l]; [reflexivity|]. destruct j as [|j]; [reflexivity|]. cbn. apply IH. lia.
Qed.
Lemma trail_firstn n s it : utf8_trailing (firstn n s) (Z.of_nat n) it = utf8_trailing s (Z.of_nat n) it.
Proof. unfold utf8_trailing. cbv zeta. destruct (Z.geb_spec (it + 1) (Z.of_nat n)); [reflexivity|]. rewrite rd_firstn by lia. reflexivity. Qed.
Lemma bind_ext {A B} (m : res A) (f g : A -> res B) : (forall a, f a = g a) -> bind m f = bind m g.
Proof. intros H. destruct m; cbn; auto. Qed.
(** A reader that has not reached [end] looks at nothing from there on. *)
Lemma reader_firstn T n s it : it < Z.of_nat n -> reader_of T (firstn n s) (Z.of_nat n) it = reader_of T s (Z.of_nat n) it.
Proof.
  intros H. destruct T; cbn [reader_of]; unfold char_next, utf8_next, utf16_next, utf32_next; rewrite rd_firstn by exact H; try reflexivity.
  - apply bind_ext. intros b. destruct (utf8_code_point b) as [[v k]|]; [|reflexivity].
    destruct (k =? 1); [reflexivity|]. destruct (k =? 2); [rewrite trail_firstn; reflexivity|].
    rewrite trail_firstn. 
    destruct (k =? 3); f_equal; apply bind_ext; intros [[t1 c1] i1]; rewrite trail_firstn; [reflexivity|];
      apply bind_ext; intros [[t2 c2] i2]; rewrite trail_firstn; reflexivity.
  - apply bind_ext. intros u. destruct (_ =? _); [|reflexivity]. cbv zeta. destruct (Z.geb_spec (it + 1) (Z.of_nat n)); [reflexivity|].
    rewrite rd_firstn by lia. reflexivity.
Qed.
Lemma next8_bad r er v n : r <> [] -> next8 r = (Bad er v, n) -> encoding_error er.
Proof.
  unfold encoding_error. destruct r as [|b r]; [congruence|intros _]. unfold next8.
  assert (F : forall (x : Z) (ok : bool) (m : Z), (if negb ok then Bad wrong_encoding_sequence 0 else if x >? 127 then Bad unexpected_symbol x else Ch x, m) = (Bad er v, n) ->
    er = unexpected_symbol \/ er = wrong_encoding_sequence).
  { intros x [] m; cbn [negb]; [destruct (x >? 127)|]; intros [= <- _ _]; auto. }
  cbv zeta. destruct (cp b) as [[w k]|]; [|apply F].
  destruct (k =? 1); [apply F|]. destruct (tr (nth_error r 0)). destruct (k =? 2); [apply F|]. destruct (tr (nth_error r 1)).
  destruct (k =? 3); [apply F|]. destruct (tr (nth_error r 2)). apply F.
Qed.
(** A unit that is not ASCII. *)
Lemma step_other T n data it x : T <> TChar -> rd data it = Ret x -> 0 <= it < Z.of_nat n -> (n <= length data)%nat ->
  Forall (unit_ok T) data -> ~ is_ascii x ->
  exists t it', reader_of T data (Z.of_nat n) it = Ret (t, it') /\ it < it' /\
    ((exists er v, t = Bad er v /\ encoding_error er) \/ T = TChar8 /\ (exists c, t = Ch c) /\ it' <= Z.of_nat n).
Proof.
  intros NT E Hi He U A. rewrite <- reader_firstn by lia. rewrite <- (rd_firstn n) in E by lia.
  assert (L : zlen (firstn n data) = Z.of_nat n) by (unfold zlen; rewrite firstn_length; lia).
  assert (U' : Forall (unit_ok T) (firstn n data)) by (rewrite <- (firstn_skipn n data) in U; apply Forall_app in U; apply U). clear U.
  revert E L U'. generalize (firstn n data) as s. intros s E L U. rewrite <- L in *. clear L He data n.
  destruct T; cbn [reader_of unit_ok] in *; [congruence| | | |].
  - rewrite utf8_next_ok by assumption.
    assert (N : skipn (Z.to_nat it) s <> []).
    { intros K. apply (f_equal (@List.length Z)) in K. rewrite skipn_length in K. cbn in K. unfold zlen in *. lia. }
    pose proof (next8_pos _ N) as P. destruct (next8 (skipn (Z.to_nat it) s)) as [t m] eqn:K. cbn [snd] in P.
    exists t, (it + m). split; [reflexivity|]. split; [lia|]. destruct t as [c|er v].
    + right. split; [reflexivity|]. split; [eauto|].
      apply next8_sound in K as (seq & r' & K & _ & ->); [|rewrite <- (firstn_skipn (Z.to_nat it) s) in U; apply Forall_app in U; apply U|exact N].
      apply (f_equal (@List.length Z)) in K. rewrite skipn_length, app_length in K. unfold zlen in *. lia.
    + left. exists er, v. split; [reflexivity|]. exact (next8_bad _ _ _ _ N K).
  - destruct (utf16_strict s (zlen s) it x Hi eq_refl U E) as [[C _]|(_ & er & v & it' & Hlt & -> & He)]; [contradiction|].
    eexists _, _. split; [reflexivity|]. split; [exact Hlt|left]. eexists _, _. split; [reflexivity|exact He].
  - destruct (utf32_strict s (zlen s) it x Hi eq_refl U E) as [[C _]|(_ & er & v & it' & Hlt & -> & He)]; [contradiction|].
    eexists _, _. split; [reflexivity|]. split; [exact Hlt|left]. eexists _, _. split; [reflexivity|exact He].
  - pose proof (rd_ok _ _ _ _ U E) as B. cbn [unit_ok] in B. unfold utf32_next. rewrite E. cbn [bind]. cbv zeta.
    unfold is_ascii in A. assert (W : w32 x > 127).
    { unfold w32. change (2 ^ 31) with 2147483648 in B. change (2 ^ 32) with 4294967296. destruct (Z.ltb_spec x 0); [|rewrite Z.mod_small; lia].
      rewrite <- (Z_mod_plus_full x 1 4294967296), Z.mod_small; lia. }
    destruct (Z.gtb_spec (w32 x) 127); [|lia]. eexists _, _. split; [reflexivity|]. split; [lia|left]. eexists _, _. split; [reflexivity|left; reflexivity].
Qed.

(** *** fixed_string *)
Definition filled (n : nat) (s : list Z) : fstr := mkfs (zlen s) (buf (Z.of_nat n) s).
Lemma filled_chars n s : zlen s <= Z.of_nat n -> fs_chars (filled n s) = s.
Proof.
  intros H. unfold fs_chars, filled. cbn [fs_length fs_data]. rewrite buf_nat. unfold zlen. rewrite Nat2Z.id, firstn_app, firstn_all, Nat.sub_diag.
  cbn [firstn]. apply app_nil_r.
Qed.
(** Whatever the reader, the characters kept contain no NUL. *)
Lemma fs_fill_form next data n (P : Z -> Prop) : (forall it c it', next data (Z.of_nat n) it = Ret (Ch c, it') -> P c) ->
  forall k it pre f, zlen pre + Z.of_nat k = Z.of_nat n -> ~ In 0 pre -> Forall P pre ->
  fs_fill k next data (Z.of_nat n) it (zlen pre) (filled n pre) = Ret f -> exists s, f = filled n s /\ ~ In 0 s /\ zlen s <= Z.of_nat n /\ Forall P s.
Proof.
  intros HP. induction k as [|k IH]; intros it pre f Hn H0 HF; cbn [fs_fill].
  - intros [= <-]. exists pre. split; [reflexivity|]. split; [exact H0|]. split; [lia|exact HF].
  - destruct (next data (Z.of_nat n) it) as [[[c|e v] it']| |] eqn:E; cbn [bind]; [|discriminate|discriminate|discriminate].
    unfold filled at 1. cbn [fs_data]. rewrite wr_buf by lia. cbn [bind]. destruct (Z.eqb_spec c 0) as [->|Hc].
    + intros [= <-]. exists pre. rewrite buf_zero by lia. split; [reflexivity|]. split; [exact H0|]. split; [lia|exact HF].
    + intros H. apply (IH it' (pre ++ [c]) f).
      * autorewrite with zl. lia.
      * rewrite in_app_iff. intros [|[|[]]]; [contradiction|congruence].
      * apply Forall_app. split; [exact HF|]. constructor; [exact (HP _ _ _ E)|constructor].
      * rewrite <- H. unfold filled. cbn [fs_length]. autorewrite with zl. do 2 f_equal; lia.
Qed.
Lemma fs_empty_filled n : fs_empty n = filled n [].
Proof. unfold fs_empty, filled. rewrite buf_nat. cbn [app length]. rewrite Nat.sub_0_r. reflexivity. Qed.
Lemma fs_make_form' next n data f (P : Z -> Prop) : (forall it c it', next data (Z.of_nat n) it = Ret (Ch c, it') -> P c) ->
  fs_make next n data = Ret f -> exists s, f = filled n s /\ ~ In 0 s /\ zlen s <= Z.of_nat n /\ Forall P s.
Proof. intros HP. unfold fs_make. rewrite fs_empty_filled. apply (fs_fill_form next data n P HP n 0 []); [reflexivity|intros []|constructor]. Qed.
Lemma fs_make_form next n data f : fs_make next n data = Ret f -> exists s, f = filled n s /\ ~ In 0 s /\ zlen s <= Z.of_nat n.
Proof. intros H. apply (fs_make_form' next n data f (fun _ => True)) in H as (s & E & H0 & L & _); [eauto|auto]. Qed.
(** The wide readers return ASCII characters only. *)
Lemma reader_ascii T data e it c it' : T <> TChar -> Forall (unit_ok T) data -> reader_of T data e it = Ret (Ch c, it') -> is_ascii c.
Proof.
  intros NT U H. unfold is_ascii.
  assert (R32 : utf32_next data e it = Ret (Ch c, it') -> 0 <= c < 128).
  { unfold utf32_next. destruct (rd data it) as [u| |]; cbn [bind]; [|discriminate|discriminate]. cbv zeta.
    pose proof (Z.mod_pos_bound u (2 ^ 32) eq_refl) as B. fold (w32 u) in B. destruct (Z.gtb_spec (w32 u) 127); intros [= <- _]; lia. }
  destruct T; [congruence| | |exact (R32 H)|exact (R32 H)]; cbn [reader_of unit_ok] in *; clear R32 NT.
  - assert (F : forall v (k : bool) j, 0 <= v -> (if negb k then Ret (Bad wrong_encoding_sequence 0, j) else if v >? 127 then Ret (Bad unexpected_symbol v, j) else Ret (Ch v, j)) = Ret (Ch c, it') -> 0 <= c < 128).
    { intros v [] j Hv; cbn [negb]; [|discriminate]. destruct (Z.gtb_spec v 127); intros [= <- _]; lia. }
    assert (P : forall v t, 0 <= t -> 0 <= utf8_push v t).
    { intros v t Ht. unfold utf8_push. apply Z.lor_nonneg. split; [apply Z.mod_pos_bound; reflexivity|exact Ht]. }
    assert (N : forall i t k j, utf8_trailing data e i = Ret (t, k, j) -> 0 <= t).
    { intros i t k j. unfold utf8_trailing. cbv zeta. destruct (_ >=? _); [intros [= <- _ _]; lia|].
      destruct (rd data (i + 1)); cbn [bind]; [|discriminate|discriminate]. destruct (_ =? _); intros [= <- _ _]; [|lia].
      apply Z.land_nonneg. right. lia. }
    revert H. unfold utf8_next. destruct (rd data it) as [b| |] eqn:E; cbn [bind]; [|discriminate|discriminate].
    pose proof (rd_ok _ _ _ _ U E) as B. cbn [unit_ok] in B. rewrite code_point_ok by exact B. unfold is_u8 in B.
    destruct (cp b) as [[v n]|] eqn:C; [|cbn [bind]; cbv zeta; apply (F 0 false); lia].
    destruct (n =? 1); [cbn [bind]; cbv zeta; apply F; revert C; unfold cp; repeat match goal with |- context [?x <? ?y] => destruct (Z.ltb_spec x y) end; try discriminate; intros [= <- _]; lia|].
    destruct (n =? 2); [|destruct (n =? 3)].
    + destruct (utf8_trailing data e it) as [[[t1 c1] i1]| |] eqn:T1; cbn [bind]; [|discriminate|discriminate]. cbv zeta. apply F, P. eapply N; eassumption.
    + destruct (utf8_trailing data e it) as [[[t1 c1] i1]| |] eqn:T1; cbn [bind]; [|discriminate|discriminate].
      destruct (utf8_trailing data e i1) as [[[t2 c2] i2]| |] eqn:T2; cbn [bind]; [|discriminate|discriminate]. cbv zeta. apply F, P. eapply N; eassumption.
    + destruct (utf8_trailing data e it) as [[[t1 c1] i1]| |] eqn:T1; cbn [bind]; [|discriminate|discriminate].
      destruct (utf8_trailing data e i1) as [[[t2 c2] i2]| |] eqn:T2; cbn [bind]; [|discriminate|discriminate].
      destruct (utf8_trailing data e i2) as [[[t3 c3] i3]| |] eqn:T3; cbn [bind]; [|discriminate|discriminate]. cbv zeta. apply F, P. eapply N; eassumption.
  - revert H. unfold utf16_next. destruct (rd data it) as [u| |] eqn:E; cbn [bind]; [|discriminate|discriminate].
    pose proof (rd_ok _ _ _ _ U E) as B. cbn [unit_ok] in B. unfold is_u16 in B.
    destruct (_ =? _); [cbv zeta; destruct (_ >=? _); [discriminate|]|].
    + destruct (rd data (it + 1)) as [u2| |]; cbn [bind]; [|discriminate|discriminate]. destruct (_ =? _); cbn [bind negb]; [|discriminate].
      match goal with |- context [w32 ?x] => pose proof (Z.mod_pos_bound x (2 ^ 32) eq_refl) as W; fold (w32 x) in W; revert W; generalize (w32 x) end.
      intros w W. destruct (Z.gtb_spec w 127); intros [= <- _]; lia.
    + cbn [bind negb]. cbv zeta. destruct (Z.gtb_spec u 127); intros [= <- _]; lia.
Qed.

(** Texts of characters. *)
Lemma plain_cons T c s : plain T (c :: s) -> plain T [c] /\ plain T s.
Proof. intros [->|H]; [split; left; reflexivity|]. inversion H. split; right; [constructor; [assumption|constructor]|assumption]. Qed.
Lemma plain_zero T : plain T [0].
Proof. right. constructor; [unfold is_ascii; lia|constructor]. Qed.
Lemma fs_fill_plain T data n : forall s k pre rest, data = pre ++ s ++ rest -> zlen pre + Z.of_nat k = Z.of_nat n -> plain T s -> ~ In 0 s ->
  (length s = k \/ (length s < k)%nat /\ exists r, rest = 0 :: r) ->
  fs_fill k (reader_of T) data (Z.of_nat n) (zlen pre) (zlen pre) (filled n pre) = Ret (filled n (pre ++ s)).
Proof.
  induction s as [|c s IH]; intros k pre rest -> Hn HP H0 Hl.
  - rewrite app_nil_r. destruct Hl as [<-|[Hk [r ->]]]; [reflexivity|]. destruct k as [|k]; [cbn in Hk; lia|]. cbn [fs_fill app].
    rewrite (step_ascii T _ _ _ 0); [|apply rd_mid; reflexivity|apply plain_zero]. cbn [bind].
    unfold filled at 1. cbn [fs_data]. rewrite wr_buf by lia. cbn [bind]. change (0 =? 0) with true. cbn iota.
    rewrite buf_zero by lia. reflexivity.
  - apply plain_cons in HP as [Hc HP]. destruct k as [|k]; [cbn [length] in Hl; lia|]. cbn [fs_fill].
    rewrite (step_ascii T _ _ _ c); [|cbn [app]; apply rd_mid; reflexivity|exact Hc]. cbn [bind].
    unfold filled at 1. cbn [fs_data]. rewrite wr_buf by lia. cbn [bind].
    destruct (Z.eqb_spec c 0) as [->|_]; [exfalso; apply H0; left; reflexivity|].
    specialize (IH k (pre ++ [c]) rest). rewrite <- app_assoc in IH. cbn [app] in IH.
    replace (pre ++ c :: s) with ((pre ++ [c]) ++ s) by (rewrite <- app_assoc; reflexivity).
    rewrite <- IH.
    + autorewrite with zl. unfold filled. cbn [fs_length]. autorewrite with zl. f_equal; try lia.
    + reflexivity.
    + autorewrite with zl. lia.
    + exact HP.
    + intros K. apply H0. right. exact K.
    + cbn [length] in Hl. destruct Hl as [Hl|[Hl K]]; [left; lia|right; split; [lia|exact K]].
Qed.
Lemma fs_make_plain T n data s : c_string n data s -> plain T s -> fs_make (reader_of T) n data = Ret (filled n s).
Proof.
  intros (H0 & rest & -> & Hl) HP. unfold fs_make. rewrite fs_empty_filled.
  apply (fs_fill_plain T _ n s n [] rest); [reflexivity|reflexivity|exact HP|exact H0|exact Hl].
Qed.
(** The first unit above 127 is an error. *)
Lemma fs_fill_bad T data n x : wide T -> Forall (unit_ok T) data -> (n <= length data)%nat -> ~ is_ascii x ->
  forall s k pre rest, data = pre ++ s ++ x :: rest -> zlen pre + Z.of_nat k = Z.of_nat n -> Forall is_ascii s -> ~ In 0 s ->
  (length s < k)%nat ->
  exists e v, fs_fill k (reader_of T) data (Z.of_nat n) (zlen pre) (zlen pre) (filled n pre) = Err e v /\ encoding_error e.
Proof.
  intros W U L A. assert (NT : T <> TChar) by (destruct W as [->|[->| ->]]; discriminate).
  induction s as [|c s IH]; intros k pre rest E Hn HP H0 Hl; (destruct k as [|k]; [cbn [length] in Hl; lia|]); cbn [fs_fill].
  - destruct (step_other T n data (zlen pre) x NT) as (t & it' & -> & _ & [(er & v & -> & K)|(-> & _)]).
    + rewrite E. cbn [app]. apply rd_mid. reflexivity.
    + unfold zlen in *. lia.
    + exact L.
    + exact U.
    + exact A.
    + cbn [bind]. eexists _, _. split; [reflexivity|exact K].
    + destruct W as [W|[W|W]]; discriminate W.
  - inversion HP as [|? ? Hc HP']. subst x0 l.
    rewrite (step_ascii T _ _ _ c); [|rewrite E; cbn [app]; apply rd_mid; reflexivity|right; constructor; [exact Hc|constructor]]. cbn [bind].
    unfold filled at 1. cbn [fs_data]. rewrite wr_buf by lia. cbn [bind].
    destruct (Z.eqb_spec c 0) as [->|_]; [exfalso; apply H0; left; reflexivity|].
    destruct (IH k (pre ++ [c]) rest) as (e & v & Q & K).
    + rewrite E. rewrite <- app_assoc. reflexivity.
    + autorewrite with zl. lia.
    + exact HP'.
    + intros K. apply H0. right. exact K.
    + cbn [length] in Hl. lia.
    + exists e, v. split; [|exact K]. rewrite <- Q. autorewrite with zl. unfold filled. cbn [fs_length]. autorewrite with zl. f_equal; try lia.
Qed.
Lemma first_bad : forall s, ~ Forall is_ascii s -> exists p x q, s = p ++ x :: q /\ Forall is_ascii p /\ ~ is_ascii x.
Proof.
  induction s as [|c s IH]; intros H; [destruct H; constructor|].
  assert (D : is_ascii c \/ ~ is_ascii c) by (unfold is_ascii; lia). destruct D as [D|D].
  - destruct IH as (p & x & q & -> & Hp & Hx); [intros K; apply H; constructor; assumption|].
    exists (c :: p), x, q. split; [reflexivity|]. split; [constructor; assumption|exact Hx].
  - exists [], c, s. split; [reflexivity|]. split; [constructor|exact D].
Qed.
Lemma fs_make_bad T n data s : wide T -> Forall (unit_ok T) data -> (n <= length data)%nat -> c_string n data s -> ~ Forall is_ascii s ->
  exists e v, fs_make (reader_of T) n data = Err e v /\ encoding_error e.
Proof.
  intros W U LD HC HB. pose proof (c_string_len _ _ _ HC) as L. destruct HC as (H0 & rest & E & Hl).
  destruct (first_bad s HB) as (p & x & q & -> & Hp & Hx).
  unfold fs_make. rewrite fs_empty_filled.
  apply (fs_fill_bad T data n x W U LD Hx p n [] (q ++ rest)); [rewrite E, <- app_assoc; reflexivity|reflexivity|exact Hp| |].
  - intros K. apply H0. apply in_or_app. left. exact K.
  - rewrite app_length in L. cbn [length] in L. lia.
Qed.

(** A terminated array is not read beyond its end. *)
Lemma fs_fill_safe T d n : Forall (unit_ok T) d -> length d = n -> forall k it i f, 0 <= it -> 0 <= i -> i + Z.of_nat k <= zlen (fs_data f) ->
  it <= Z.of_nat n -> i <= it -> forall u, fs_fill k (reader_of T) (d ++ [0]) (Z.of_nat n) it i f <> UB u.
Proof.
  intros U L. induction k as [|k IH]; intros it i f Hit Hi Hf He Hle u; cbn [fs_fill]; [discriminate|].
  assert (W : forall c, exists d', wr (fs_data f) i c = Ret d' /\ zlen d' = zlen (fs_data f)).
  { intros c. destruct (wr_some (fs_data f) i c) as (d' & E & L'); [lia|]. exists d'. split; [exact E|exact L']. }
  assert (N : forall c it', it' <= Z.of_nat n -> it < it' -> 
    (d0 <- wr (fs_data f) i c ;; (if c =? 0 then Ret (mkfs (fs_length f) d0)
       else fs_fill k (reader_of T) (d ++ [0]) (Z.of_nat n) it' (i + 1) (mkfs (fs_length f + 1) d0))) <> UB u).
  { intros c it' H1 H2. destruct (W c) as (d' & -> & L'). cbn [bind]. destruct (c =? 0); [discriminate|].
    apply IH; [lia|lia|cbn [fs_data]; lia|lia|lia]. }
  destruct (Z.eq_dec it (Z.of_nat n)) as [E|E].
  - rewrite (step_ascii T _ _ _ 0); [|apply rd_mid; unfold zlen; lia|apply plain_zero]. cbn [bind].
    destruct (W 0) as (d' & -> & _). discriminate.
  - destruct (rd_some d it) as (x & Ex & _); [unfold zlen; lia|].
    assert (Ex' : rd (d ++ [0]) it = Ret x).
    { rewrite <- Ex. rewrite <- (rd_firstn n) by lia. rewrite <- L, firstn_app, firstn_all, Nat.sub_diag, app_nil_r. reflexivity. }
    assert (D : plain T [x] \/ T <> TChar /\ ~ is_ascii x).
    { destruct T; [left; left; reflexivity|..]; (assert (D : is_ascii x \/ ~ is_ascii x) by (unfold is_ascii; lia));
        (destruct D; [left; right; constructor; [assumption|constructor]|right; split; [discriminate|assumption]]). }
    destruct D as [D|[NT A]].
    + rewrite (step_ascii T _ _ _ x Ex' D). cbn [bind]. apply N; lia.
    + destruct (step_other T n (d ++ [0]) it x NT Ex') as (t & it' & -> & Hlt & [(er & v & -> & _)|(-> & (c & ->) & K)]).
      * lia.
      * rewrite app_length. lia.
      * apply Forall_app. split; [exact U|]. constructor; [|constructor]. destruct T; cbn [unit_ok]; unfold is_char, is_u8, is_u16, is_u32; lia.
      * exact A.
      * discriminate.
      * cbn [bind]. apply N; lia.
Qed.
Lemma fs_make_safe T d u : Forall (unit_ok T) d -> fs_make (reader_of T) (length d) (d ++ [0]) <> UB u.
Proof.
  intros U. unfold fs_make. apply fs_fill_safe; [exact U|reflexivity|lia|lia| |lia|lia].
  unfold fs_empty, zlen. cbn [fs_data]. rewrite repeat_length. lia.
Qed.
