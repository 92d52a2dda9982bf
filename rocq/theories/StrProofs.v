(** Readers and bounded strings. *)
From Verif Require Import Base Tac UnicodeModel FixedStringModel V4Proofs BufProofs SpecStr.

(** ** Lexicographic order *)
Lemma lex_lt_nil_cons y b : lex_lt [] (y :: b).
Proof. exists []. left. exists y, b. auto. Qed.
Lemma lex_lt_cons x a b : lex_lt a b -> lex_lt (x :: a) (x :: b).
Proof.
  intros (p & [(y & b' & -> & ->)|(u & v & a' & b' & -> & -> & H)]); exists (x :: p).
  - left. exists y, b'. auto.
  - right. exists u, v, a', b'. auto.
Qed.
Lemma lex_lt_head x y a b : x < y -> lex_lt (x :: a) (y :: b).
Proof. intros. exists []. right. exists x, y, a, b. auto. Qed.
Lemma lex_lt_inv a b : lex_lt a b ->
  match a, b with
  | _, [] => False
  | [], _ :: _ => True
  | x :: a', y :: b' => x < y \/ (x = y /\ lex_lt a' b')
  end.
Proof.
  intros (p & [(y & b' & -> & ->)|(u & v & a' & b' & -> & -> & H)]); destruct p as [|z p]; cbn; auto.
  - right. split; [reflexivity|]. exists p. left. eauto.
  - right. split; [reflexivity|]. exists p. right. exists u, v, a', b'. auto.
Qed.
Lemma lex_irrefl a : ~ lex_lt a a.
Proof. induction a as [|x a IH]; intros H; apply lex_lt_inv in H; [contradiction|]. destruct H as [|[_ H]]; [lia|auto]. Qed.
Lemma lex_trans : forall a b c, lex_lt a b -> lex_lt b c -> lex_lt a c.
Proof.
  induction a as [|x a IH]; intros [|y b] [|z c] H1 H2; apply lex_lt_inv in H1; apply lex_lt_inv in H2; try contradiction.
  - apply lex_lt_nil_cons.
  - destruct H1 as [H1|[-> H1]], H2 as [H2|[-> H2]]; try (apply lex_lt_head; lia).
    apply lex_lt_cons. eauto.
Qed.
Lemma lex_total : forall a b, lex_lt a b \/ a = b \/ lex_lt b a.
Proof.
  induction a as [|x a IH]; intros [|y b]; auto using lex_lt_nil_cons.
  destruct (Z.lt_trichotomy x y) as [|[->|]]; auto using lex_lt_head.
  destruct (IH b) as [|[->|]]; auto using lex_lt_cons.
Qed.

(** ** Token streams *)
Definition ascii_or_bad (s : list Z) (ts : list tok) : Prop :=
  exists p rest, ts = chars p ++ rest /\ Forall is_ascii p /\
    (rest = [] \/ exists e v rest', rest = Bad e v :: rest' /\ (e = unexpected_symbol \/ e = wrong_encoding_sequence)).

Lemma rd_some {A} (s : list A) i : 0 <= i < zlen s -> exists x, rd s i = Ret x /\ nth_error s (Z.to_nat i) = Some x.
Proof.
  intros H. unfold rd. destruct (Z.ltb_spec i 0); [lia|].
  destruct (nth_error s (Z.to_nat i)) eqn:E; [eauto|].
  apply nth_error_None in E. unfold zlen in H. lia.
Qed.
Lemma skipn_nth {A} (s : list A) i x : nth_error s i = Some x -> skipn i s = x :: skipn (S i) s.
Proof.
  revert i. induction s as [|y s IH]; intros [|i] H; cbn in H; try discriminate.
  - injection H as ->. reflexivity.
  - cbn [skipn]. rewrite (IH i H). reflexivity.
Qed.

(** The char reader: every byte is a character. *)
Lemma char_tokens_from : forall s k it, 0 <= it -> (Z.to_nat (zlen s - it) <= k)%nat ->
  tokens_from k char_next s it = Ret (chars (skipn (Z.to_nat it) s)).
Proof.
  intros s. induction k as [|k IH]; intros it Hit Hk; cbn [tokens_from].
  - destruct (Z.ltb_spec it (zlen s)); [lia|]. rewrite skipn_all2 by (unfold zlen in *; lia). reflexivity.
  - destruct (Z.ltb_spec it (zlen s)).
    + destruct (rd_some s it) as (x & E & E'); [lia|]. unfold char_next at 1. rewrite E. cbn [bind].
      rewrite IH by lia. cbn [bind]. rewrite (skipn_nth s _ x E'). cbn [chars map].
      replace (Z.to_nat (it + 1)) with (S (Z.to_nat it)) by lia. reflexivity.
    + rewrite skipn_all2 by (unfold zlen in *; lia). reflexivity.
Qed.
Lemma char_tokens s : tokens char_next s = Ret (chars s).
Proof. unfold tokens. rewrite char_tokens_from by (unfold zlen; lia). reflexivity. Qed.

(** A reader that maps an ASCII unit to itself, advances, and otherwise fails. *)
Definition strict_reader (ok : Z -> Prop) (next : reader) : Prop :=
  forall s e it x, 0 <= it < e -> e = zlen s -> Forall ok s -> rd s it = Ret x ->
    (is_ascii x /\ next s e it = Ret (Ch x, it + 1)) \/
    (~ is_ascii x /\ exists er v it', it < it' /\ next s e it = Ret (Bad er v, it') /\
       (er = unexpected_symbol \/ er = wrong_encoding_sequence)).

Lemma strict_tokens_from ok next : strict_reader ok next -> forall s, Forall ok s -> forall k it, 0 <= it ->
  (Z.to_nat (zlen s - it) <= k)%nat ->
  exists ts, tokens_from k next s it = Ret ts /\
    ((Forall is_ascii (skipn (Z.to_nat it) s) /\ ts = chars (skipn (Z.to_nat it) s)) \/
     (exists p x q e v rest, skipn (Z.to_nat it) s = p ++ x :: q /\ Forall is_ascii p /\ ~ is_ascii x /\
        ts = chars p ++ Bad e v :: rest /\ (e = unexpected_symbol \/ e = wrong_encoding_sequence))).
Proof.
  intros HS s Hs. induction k as [|k IH]; intros it Hit Hk; cbn [tokens_from].
  - destruct (Z.ltb_spec it (zlen s)); [lia|]. exists []. split; [reflexivity|left].
    rewrite skipn_all2 by (unfold zlen in *; lia). split; [constructor|reflexivity].
  - destruct (Z.ltb_spec it (zlen s)).
    2:{ exists []. split; [reflexivity|left].
        rewrite skipn_all2 by (unfold zlen in *; lia). split; [constructor|reflexivity]. }
    destruct (rd_some s it) as (x & E & E'); [lia|].
    destruct (HS s (zlen s) it x ltac:(lia) eq_refl Hs E) as [(Hx & ->)|(Hx & er & v & it' & Hlt & -> & He)]; cbn [bind].
    + destruct (IH (it + 1) ltac:(lia) ltac:(lia)) as (ts & -> & HT). cbn [bind].
      exists (Ch x :: ts). split; [reflexivity|]. rewrite (skipn_nth s _ x E').
      replace (Z.to_nat (it + 1)) with (S (Z.to_nat it)) in HT by lia.
      destruct HT as [(HA & ->)|(p & y & q & e & v & rest & E1 & Hp & Hy & -> & He)].
      * left. split; [constructor; assumption|reflexivity].
      * right. exists (x :: p), y, q, e, v, rest. rewrite E1. repeat split; auto.
    + destruct (IH it' ltac:(lia) ltac:(lia)) as (ts & -> & _). cbn [bind].
      exists (Bad er v :: ts). split; [reflexivity|right].
      exists [], x, (skipn (S (Z.to_nat it)) s), er, v, ts. rewrite (skipn_nth s _ x E'). repeat split; auto.
Qed.

Lemma strict_tokens ok next s : strict_reader ok next -> Forall ok s ->
  exists ts, tokens next s = Ret ts /\
    ((Forall is_ascii s /\ ts = chars s) \/
     (exists p x q e v rest, s = p ++ x :: q /\ Forall is_ascii p /\ ~ is_ascii x /\
        ts = chars p ++ Bad e v :: rest /\ (e = unexpected_symbol \/ e = wrong_encoding_sequence))).
Proof.
  intros HS Hs. apply (strict_tokens_from ok next HS s Hs (length s) 0); unfold zlen; lia.
Qed.

Lemma chars_bad p e v rest s : chars p ++ Bad e v :: rest <> chars s.
Proof. revert s. induction p as [|x p IH]; intros [|y s] H; inversion H. eapply IH; eassumption. Qed.

(** Consequence for any parser which accepts only [Bad]-free token lists. *)
Lemma strict_parse {A} ok next (f : list tok -> res A) : strict_reader ok next ->
  (forall ts a, f ts = Ret a -> exists s, ts = chars s) ->
  forall s, Forall ok s -> forall a,
  (ts <- tokens next s ;; f ts) = Ret a <-> Forall is_ascii s /\ f (chars s) = Ret a.
Proof.
  intros HS Hf s Hs a. destruct (strict_tokens ok next s HS Hs) as (ts & -> & HT). cbn [bind].
  destruct HT as [(HA & ->)|(p & x & q & e & v & rest & -> & Hp & Hx & -> & He)].
  - tauto.
  - split.
    + intros H. apply Hf in H as [s' E]. exfalso. eapply chars_bad; eassumption.
    + intros [H _]. apply Forall_app in H as [_ H]. inversion H; contradiction.
Qed.

Lemma rd_ok {A} (P : A -> Prop) s i x : Forall P s -> rd s i = Ret x -> P x.
Proof.
  intros HF. unfold rd. destruct (i <? 0); [discriminate|]. destruct (nth_error s (Z.to_nat i)) eqn:E; [|discriminate].
  intros [= <-]. eapply Forall_forall; [exact HF|]. eapply nth_error_In; eassumption.
Qed.

Lemma utf32_strict : strict_reader is_u32 utf32_next.
Proof.
  intros s e it x Hit -> Hs E. unfold utf32_next. rewrite E. cbn [bind].
  pose proof (rd_ok _ _ _ _ Hs E) as Hx. unfold is_u32, is_ascii in *. unfold w32. rewrite Z.mod_small by lia.
  destruct (Z.gtb_spec x 127).
  - right. split; [lia|]. exists unexpected_symbol, x, (it + 1). split; [lia|]. auto.
  - left. split; [lia|reflexivity].
Qed.

Lemma utf16_strict : strict_reader is_u16 utf16_next.
Proof.
  intros s e it x Hit -> Hs E. unfold utf16_next. rewrite E. cbn [bind].
  pose proof (rd_ok _ _ _ _ Hs E) as Hx. unfold is_u16, is_ascii in *.
  assert (B : 0 <= x < 128 -> Z.land x 0xFC00 = 0).
  { intros Hr. rewrite <- (Z.mod_small x (2 ^ 7)), <- Z.land_ones, <- Z.land_assoc by lia. apply Z.land_0_r. }
  destruct (Z.eqb_spec (Z.land x 0xFC00) 0xD800) as [ES|ES].
  - right. split; [intros Hr; rewrite B in ES by assumption; discriminate|].
    destruct (Z.geb_spec (it + 1) (zlen s)).
    + cbn [bind negb]. exists wrong_encoding_sequence, 0, (it + 1 + 1). split; [lia|]. auto.
    + destruct (rd_some s (it + 1)) as (u2 & -> & _); [lia|]. cbn [bind].
      destruct (Z.land u2 0xFC00 =? 0xDC00).
      * cbn [bind negb].
        assert (R : 0 <= Z.lor (Z.shiftl (Z.land x 0x3FF) 10) (Z.land u2 0x3FF) < 2 ^ 20).
        { assert (L : forall z, 0 <= Z.land z 0x3FF < 2 ^ 10).
          { intros z. change 0x3FF with (Z.ones 10). rewrite Z.land_ones by lia. apply Z.mod_pos_bound. reflexivity. }
          rewrite shl_mul by lia. pose proof (L x). pose proof (L u2). rewrite lor_add by lia.
          change (2 ^ 20) with 1048576. change (2 ^ 10) with 1024 in *. lia. }
        unfold w32. rewrite Z.mod_small by (change (2 ^ 20) with 1048576 in R; pows; lia).
        destruct (Z.gtb_spec (Z.lor (Z.shiftl (Z.land x 0x3FF) 10) (Z.land u2 0x3FF) + 0x10000) 127) as [|]; [|lia].
        eexists _, _, (it + 1 + 1). split; [lia|]. split; [reflexivity|auto].
      * cbn [bind negb]. exists wrong_encoding_sequence, 0, (it + 1 + 1). split; [lia|]. auto.
  - cbn [bind negb]. destruct (Z.gtb_spec x 127).
    + right. split; [lia|]. exists unexpected_symbol, x, (it + 1). split; [lia|]. auto.
    + left. split; [lia|reflexivity].
Qed.
