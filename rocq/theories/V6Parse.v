(** The IPv6 parser after splitting: group bounds, values, and the grammar. *)
From Verif Require Import Base Tac SpecText TextProofs UnicodeModel FixedStringModel V4Model V6Model
  SpecV4 SpecV6 SpecAddr SpecStr V4Proofs BufProofs BitProofs StrProofs FixedStringProofs V6Proofs.

(** ** get_parts_bound *)
Definition or1 (h : list (list Z)) : list (list Z) := match h with [] => [[]] | _ => h end.
Inductive shape : list (list Z) -> list (list Z) -> list (list Z) -> Z -> Prop :=
| sh_full ps : length ps = 8%nat -> ~ In [] ps -> shape ps ps [] 0
| sh_dc h l : ~ In [] h -> ~ In [] l -> (length h + length l <= 7)%nat ->
    shape (or1 h ++ [] :: or1 l) h l (8 - zlen h - zlen l).

Fixpoint abs_skip (inner : list (list Z)) (i skip : Z) : option Z :=
  match inner with
  | [] => Some skip
  | p :: r => if zlen p =? 0 then if negb (skip =? 0) then None else abs_skip r (i + 1) i
              else abs_skip r (i + 1) skip
  end.
Lemma part_empty_mid pre p post i : i = zlen pre -> part_empty (pre ++ p :: post) i = Ret (zlen p =? 0).
Proof. intros ->. unfold part_empty. rewrite rd_mid by reflexivity. reflexivity. Qed.
Lemma skip_loop_sim : forall inner pre post i n skip arr, arr = pre ++ inner ++ post -> i = zlen pre ->
  outcome (skip_loop (length inner) i arr n skip) (abs_skip inner i skip).
Proof.
  induction inner as [|p r IH]; intros pre post i n skip arr -> ->; cbn [length skip_loop abs_skip app]; [apply outcome_ret|].
  rewrite part_empty_mid by reflexivity. cbn [bind].
  assert (A : forall sk, outcome (skip_loop (length r) (zlen pre + 1) (pre ++ p :: r ++ post) n sk) (abs_skip r (zlen pre + 1) sk)).
  { intros sk. apply (IH (pre ++ [p]) post); [rewrite <- app_assoc; reflexivity|autorewrite with zl; lia]. }
  destruct (zlen p =? 0); [|apply A]. destruct (negb (skip =? 0)); [apply outcome_err|apply A].
Qed.

Lemma zlen0_nil {A} (p : list A) : (zlen p =? 0) = true <-> p = [].
Proof. rewrite Z.eqb_eq. split; [apply zlen_0|intros ->; reflexivity]. Qed.

Lemma abs_skip_some : forall r i skip, 0 < i -> skip <> 0 ->
  abs_skip r i skip = if existsb (fun p => zlen p =? 0) r then None else Some skip.
Proof.
  induction r as [|p r IH]; intros i skip Hi Hs; cbn [abs_skip existsb]; [reflexivity|].
  destruct (zlen p =? 0); cbn [orb].
  - destruct (Z.eqb_spec skip 0); [contradiction|reflexivity].
  - apply IH; lia.
Qed.
Lemma existsb_empty r : existsb (fun p : list Z => zlen p =? 0) r = false <-> ~ In [] r.
Proof.
  split.
  - intros H C. assert (existsb (fun p : list Z => zlen p =? 0) r = true) by (apply existsb_exists; exists []; auto). congruence.
  - intros H. destruct (existsb _ r) eqn:E; [|reflexivity]. exfalso. apply H. apply existsb_exists in E as (p & I & E).
    apply zlen0_nil in E. subst. assumption.
Qed.

Lemma abs_skip_none : forall r i, 0 < i -> ~ In [] r -> abs_skip r i 0 = Some 0.
Proof.
  induction r as [|p r IH]; intros i Hi H; cbn [abs_skip]; [reflexivity|].
  destruct (zlen p =? 0) eqn:E; [apply zlen0_nil in E; subst; exfalso; apply H; left; reflexivity|].
  apply IH; [lia|]. intros C; apply H; right; assumption.
Qed.
Lemma abs_skip_one : forall a b i, 0 < i -> ~ In [] a -> ~ In [] b -> abs_skip (a ++ [] :: b) i 0 = Some (i + zlen a).
Proof.
  induction a as [|p a IH]; intros b i Hi Ha Hb; cbn [app abs_skip].
  - change (zlen (@nil Z) =? 0) with true. cbn [negb Z.eqb]. rewrite abs_skip_some by lia.
    apply existsb_empty in Hb. rewrite Hb. f_equal. autorewrite with zl. lia.
  - destruct (zlen p =? 0) eqn:E; [apply zlen0_nil in E; subst; exfalso; apply Ha; left; reflexivity|].
    rewrite IH; [f_equal; autorewrite with zl; lia|lia| |assumption]. intros C; apply Ha; right; assumption.
Qed.
Lemma abs_skip_inv : forall r i k, 0 < i -> abs_skip r i 0 = Some k ->
  (k = 0 /\ ~ In [] r) \/ (exists a b, r = a ++ [] :: b /\ ~ In [] a /\ ~ In [] b /\ k = i + zlen a /\ k <> 0).
Proof.
  induction r as [|p r IH]; intros i k Hi E; cbn [abs_skip] in E.
  - inversion E. left. split; [reflexivity|intros []].
  - destruct (zlen p =? 0) eqn:Ep.
    + apply zlen0_nil in Ep. subst p. cbn [negb Z.eqb] in E. rewrite abs_skip_some in E by lia.
      destruct (existsb _ r) eqn:Ex; [discriminate|]. inversion E; subst k. right. exists [], r.
      apply existsb_empty in Ex. autorewrite with zl. repeat split; auto; lia.
    + apply IH in E; [|lia]. destruct E as [[-> H]|(a & b & -> & Ha & Hb & -> & Hk)].
      * left. split; [reflexivity|]. intros [->|C]; [discriminate|contradiction].
      * right. exists (p :: a), b. autorewrite with zl. repeat split; auto; try lia.
        intros [->|C]; [discriminate|contradiction].
Qed.

Lemma list_ends {A} (l : list A) : 2 <= zlen l -> exists a m b, l = a :: m ++ [b].
Proof.
  intros H. destruct l as [|a l]; [cbn in H; lia|]. destruct l as [|b l _] using rev_ind; [cbn in H; lia|].
  exists a, l, b. reflexivity.
Qed.

Lemma w64_small x : 0 <= x < 1000 -> w64 x = x.
Proof. intros. unfold w64. apply Z.mod_small. pows. lia. Qed.

(** The bounds check, by cases on the ends and the inner parts. *)
Definition abs_bound (a : list Z) (m : list (list Z)) (b : list Z) : option (Z * Z * Z) :=
  match abs_skip m 1 0 with
  | None => None
  | Some skip =>
      if skip =? 0 then
        if (zlen m =? 6) && negb (zlen a =? 0) && negb (zlen b =? 0) then Some (8, 0, 0) else None
      else
        let hi := if zlen a =? 0 then skip - 1 else skip in
        let lo := if zlen b =? 0 then zlen m + 2 - skip - 2 else zlen m + 2 - skip - 1 in
        if (zlen a =? 0) && negb (hi =? 0) then None
        else if (zlen b =? 0) && negb (lo =? 0) then None
        else if 8 - (hi + lo) <? 1 then None else Some (hi, lo, 8 - (hi + lo))
  end.
Lemma bound_sim a m b rest : 1 <= zlen m <= 7 ->
  outcome (get_parts_bound (a :: m ++ b :: rest) (zlen m + 2)) (abs_bound a m b).
Proof.
  intros Hm. unfold get_parts_bound, abs_bound.
  replace (Z.to_nat (zlen m + 2 - 1 - 1)) with (length m) by (unfold zlen; lia).
  pose proof (skip_loop_sim m [a] (b :: rest) 1 (zlen m + 2) 0 (a :: m ++ b :: rest) eq_refl eq_refl) as S1.
  destruct (abs_skip m 1 0) as [skip|] eqn:Es; cbn [outcome] in S1.
  2:{ destruct S1 as (e & v & ->). apply outcome_err. }
  rewrite S1. cbn [bind]. clear S1.
  assert (0 <= skip <= zlen m) as Hs.
  { apply abs_skip_inv in Es; [|lia]. destruct Es as [[-> _]|(x & y & -> & _ & _ & -> & _)]; [lia|].
    autorewrite with zl. pose proof (zlen_nonneg x). pose proof (zlen_nonneg y). lia. }
  assert (E0 : part_empty (a :: m ++ b :: rest) 0 = Ret (zlen a =? 0)) by (apply (part_empty_mid []); reflexivity).
  assert (E1 : part_empty (a :: m ++ b :: rest) (zlen m + 2 - 1) = Ret (zlen b =? 0)).
  { apply (part_empty_mid (a :: m)). autorewrite with zl. lia. }
  destruct (Z.eqb_spec skip 0) as [->|Ns]; cbn [negb].
  - destruct (Z.eqb_spec (zlen m) 6) as [E6|E6]; destruct (Z.eqb_spec (zlen m + 2) 8); try lia; cbn [negb andb];
      [|apply outcome_err].
    rewrite E0. cbn [bind andb]. destruct (zlen a =? 0); cbn [negb andb]; [apply outcome_err|].
    rewrite E1. cbn [bind andb]. destruct (zlen b =? 0); cbn [negb andb]; [apply outcome_err|].
    cbn [outcome]. do 3 f_equal. lia.
  - rewrite E0. cbn [bind andb]. rewrite (w64_small (zlen m + 2 - skip - 1)) by lia.
    rewrite (w64_small (skip - 1)) by lia. rewrite (w64_small (zlen m + 2 - skip - 1 - 1)) by lia.
    rewrite E1.
    assert (F : forall hi lo, 0 <= hi <= 100 -> 0 <= lo <= 100 -> hi + lo <= 8 ->
      outcome (if w64 (8 - w64 (hi + lo)) <? 1
               then Err expected_at_most_7_other_parts_with_double_colon (zlen m + 2)
               else Ret (hi, lo, w64 (8 - w64 (hi + lo))))
        (if 8 - (hi + lo) <? 1 then None else Some (hi, lo, 8 - (hi + lo)))).
    { intros hi lo H1 H2 H3. rewrite (w64_small (hi + lo)), w64_small by lia.
      destruct (8 - (hi + lo) <? 1); [apply outcome_err|apply outcome_ret]. }
    destruct (zlen a =? 0); cbn [bind andb].
    + destruct (Z.eqb_spec (skip - 1) 0) as [Eh|Eh]; cbn [negb bind]; [|apply outcome_err].
      destruct (zlen b =? 0); cbn [bind andb].
      * replace (zlen m + 2 - skip - 1 - 1) with (zlen m + 2 - skip - 2) by lia.
        destruct (Z.eqb_spec (zlen m + 2 - skip - 2) 0) as [El|El]; cbn [negb bind]; [|apply outcome_err].
        apply F; lia.
      * apply F; lia.
    + destruct (zlen b =? 0); cbn [bind andb].
      * replace (zlen m + 2 - skip - 1 - 1) with (zlen m + 2 - skip - 2) by lia.
        destruct (Z.eqb_spec (zlen m + 2 - skip - 2) 0) as [El|El]; cbn [negb bind]; [|apply outcome_err].
        apply F; lia.
      * apply F; lia.
Qed.

Lemma or1_ends h : ~ In [] h -> exists a m, or1 h = a :: m /\ ~ In [] m /\ (h = [] /\ a = [] /\ m = [] \/ h = a :: m /\ a <> []).
Proof.
  destruct h as [|a m]; intros H; cbn.
  - exists [], []. split; [reflexivity|]. split; [intros []|]. left. auto.
  - exists a, m. split; [reflexivity|]. split; [intros C; apply H; right; assumption|]. right. split; [reflexivity|].
    intros ->. apply H. left. reflexivity.
Qed.
Lemma or1_last h : ~ In [] h -> exists a m, or1 h = m ++ [a] /\ ~ In [] m /\ (h = [] /\ a = [] /\ m = [] \/ h = m ++ [a] /\ a <> []).
Proof.
  destruct h as [|a m _] using rev_ind; intros H.
  - exists [], []. split; [reflexivity|]. split; [intros []|]. left. auto.
  - exists a, m. rewrite in_app_iff in H. split; [destruct m; reflexivity|]. split; [tauto|]. right. split; [reflexivity|].
    intros ->. apply H. right. left. reflexivity.
Qed.
Lemma nonempty_len {A} (p : list A) : p <> [] -> (zlen p =? 0) = false.
Proof. destruct p; [contradiction|]. intros _. autorewrite with zl. pose proof (zlen_nonneg p). lia. Qed.

Lemma sh_dc' ps h l sk : ps = or1 h ++ [] :: or1 l -> sk = 8 - zlen h - zlen l ->
  ~ In [] h -> ~ In [] l -> (length h + length l <= 7)%nat -> shape ps h l sk.
Proof. intros -> -> *. apply sh_dc; assumption. Qed.
Lemma some3 (a b c a' b' c' : Z) : a = a' -> b = b' -> c = c' -> Some (a, b, c) = Some (a', b', c').
Proof. congruence. Qed.
Lemma some3_inv (a b c a' b' c' : Z) : Some (a, b, c) = Some (a', b', c') -> a = a' /\ b = b' /\ c = c'.
Proof. intros E. inversion E. auto. Qed.
Lemma nz_ne {A} (p : list A) : (zlen p =? 0) = false -> p <> [].
Proof. intros H ->. discriminate. Qed.
Lemma not_in_cons (a : list Z) x : ~ In [] x -> a <> [] -> ~ In [] (a :: x).
Proof. intros H N [C|C]; auto. Qed.
Lemma not_in_snoc (a : list Z) x : ~ In [] x -> a <> [] -> ~ In [] (x ++ [a]).
Proof. intros H N C. apply in_app_iff in C as [C|[C|[]]]; auto. Qed.

(** The three numbers are those of the shape, and exist exactly when there is one. *)
Lemma shape_bound a m b h l sk : shape (a :: m ++ [b]) h l sk -> abs_bound a m b = Some (zlen h, zlen l, sk).
Proof.
  intros H. unfold abs_bound. inversion H as [ps L8 Hn E1 E2 E3 E4|h' l' Hh Hl Hlen E1 E2 E3 E4]; subst.
  - cbn [In] in Hn. rewrite in_app_iff in Hn. cbn [In] in Hn.
    rewrite abs_skip_none by (lia || tauto). cbn [Z.eqb].
    cbn [length] in L8. rewrite app_length in L8. cbn [length] in L8.
    destruct (Z.eqb_spec (zlen m) 6) as [_|C]; [|unfold zlen in C; lia].
    rewrite !nonempty_len by (intros ->; tauto). cbn [negb andb]. do 3 f_equal.
    unfold zlen. cbn [length]. rewrite app_length. cbn [length]. lia.
  - destruct (or1_ends h Hh) as (a' & m1 & Eh & Hm1 & Ch). destruct (or1_last l Hl) as (b' & m2 & El & Hm2 & Cl).
    rewrite Eh, El in E1. rewrite app_comm_cons, app_assoc in E1.
    change ((a' :: m1) ++ [] :: m2) with (a' :: (m1 ++ [] :: m2)) in E1. rewrite <- app_comm_cons in E1.
    injection E1 as -> E1. apply app_inj_tail in E1 as [<- ->].
    rewrite abs_skip_one by (lia || assumption). pose proof (zlen_nonneg m1). pose proof (zlen_nonneg m2).
    destruct (Z.eqb_spec (1 + zlen m1) 0); [lia|]. cbv zeta. autorewrite with zl.
    destruct Ch as [(-> & -> & ->)|[-> Na]]; destruct Cl as [(-> & -> & ->)|[-> Nb]];
      rewrite ?(nonempty_len a) by assumption; rewrite ?(nonempty_len b) by assumption;
      change (zlen (@nil Z) =? 0) with true; autorewrite with zl; cbn [andb]; unfold zlen in *;
      rewrite ?app_length in *; cbn [length] in *;
      repeat match goal with |- context [Z.eqb ?x ?y] => destruct (Z.eqb_spec x y); try lia end; cbn [negb];
      match goal with |- context [Z.ltb ?x ?y] => destruct (Z.ltb_spec x y); try lia end;
      apply some3; lia.
Qed.

Lemma bound_shape a m b hi lo sk : 1 <= zlen m <= 7 -> abs_bound a m b = Some (hi, lo, sk) ->
  exists h l, shape (a :: m ++ [b]) h l sk /\ hi = zlen h /\ lo = zlen l.
Proof.
  intros Hm. unfold abs_bound. destruct (abs_skip m 1 0) as [skip|] eqn:Es; [|discriminate].
  apply abs_skip_inv in Es; [|lia]. destruct Es as [[-> Hn]|(x & y & -> & Hx & Hy & -> & Hk)].
  - cbn [Z.eqb]. destruct (Z.eqb_spec (zlen m) 6) as [E6|]; [|discriminate].
    destruct (zlen a =? 0) eqn:Ea; [discriminate|]. destruct (zlen b =? 0) eqn:Eb; [discriminate|].
    cbn [negb andb]. intros [= <- <- <-]. exists (a :: m ++ [b]), [].
    split; [|split; [autorewrite with zl; lia|reflexivity]]. constructor.
    + unfold zlen in E6. cbn [length]. rewrite app_length. cbn [length]. lia.
    + cbn [In]. rewrite in_app_iff. cbn [In]. intros [->|[C|[->|[]]]]; try discriminate. contradiction.
  - destruct (Z.eqb_spec (1 + zlen x) 0); [contradiction|]. cbv zeta.
    autorewrite with zl in *. pose proof (zlen_nonneg x). pose proof (zlen_nonneg y).
    destruct (zlen a =? 0) eqn:Ea; destruct (zlen b =? 0) eqn:Eb; cbn [andb];
      repeat match goal with |- context [Z.eqb ?x ?y] => destruct (Z.eqb_spec x y); cbn [negb]; try discriminate end;
      match goal with |- context [Z.ltb ?x ?y] => destruct (Z.ltb_spec x y); try discriminate end;
      intros E; apply some3_inv in E as (<- & <- & <-); [exists [], []|exists [], (y ++ [b])|exists (a :: x), []|exists (a :: x), (y ++ [b])];
      autorewrite with zl; (split; [|split; lia]).
    + apply zlen0_nil in Ea, Eb. subst. assert (x = []) as -> by (apply zlen_0; lia).
      assert (y = []) as -> by (apply zlen_0; lia).
      apply sh_dc'; [reflexivity|autorewrite with zl in *; lia|intros []|intros []|cbn; lia].
    + apply zlen0_nil in Ea. apply nz_ne in Eb. subst. assert (x = []) as -> by (apply zlen_0; lia).
      apply sh_dc'; [destruct y; reflexivity|autorewrite with zl in *; lia|intros []|auto using not_in_snoc|].
      autorewrite with zl in *. unfold zlen in *. rewrite app_length. cbn [length] in *. lia.
    + apply zlen0_nil in Eb. apply nz_ne in Ea. subst. assert (y = []) as -> by (apply zlen_0; lia).
      apply sh_dc'; [cbn; rewrite <- app_assoc; reflexivity|autorewrite with zl in *; lia|auto using not_in_cons|intros []|].
      autorewrite with zl in *. unfold zlen in *. cbn [length] in *. lia.
    + apply nz_ne in Ea, Eb.
      apply sh_dc'; [cbn; rewrite <- app_assoc; destruct y; reflexivity|autorewrite with zl in *; lia|auto using not_in_cons|auto using not_in_snoc|].
      autorewrite with zl in *. unfold zlen in *. rewrite app_length. cbn [length] in *. lia.
Qed.

(** get_parts_bound on the parts array. *)
Lemma bound_ok ps n : 3 <= zlen ps <= 9 -> n = zlen ps ->
  (exists h l sk, shape ps h l sk /\ get_parts_bound (ps ++ repeat [] (9 - length ps)) n = Ret (zlen h, zlen l, sk)) \/
  (exists e v, get_parts_bound (ps ++ repeat [] (9 - length ps)) n = Err e v) /\ (forall h l sk, ~ shape ps h l sk).
Proof.
  intros H ->. destruct (list_ends ps ltac:(lia)) as (a & m & b & ->). set (rest := repeat _ _).
  autorewrite with zl in H. replace (zlen (a :: m ++ [b])) with (zlen m + 2) by (autorewrite with zl; lia).
  replace ((a :: m ++ [b]) ++ rest) with (a :: m ++ b :: rest) by (cbn [app]; rewrite <- app_assoc; reflexivity).
  pose proof (bound_sim a m b rest ltac:(lia)) as S1.
  destruct (abs_bound a m b) as [[[hi lo] sk]|] eqn:E; cbn [outcome] in S1.
  - left. apply bound_shape in E; [|lia]. destruct E as (h & l & Hs & -> & ->). eauto.
  - right. split; [assumption|]. intros h l sk Hs. apply shape_bound in Hs. congruence.
Qed.

(** ** Values of parts *)
Definition hexd (c : Z) : option Z :=
  if (c >=? 48) && (c <=? 57) then Some (c - 48)
  else if (c >=? 65) && (c <=? 70) then Some (c - 55)
  else if (c >=? 97) && (c <=? 102) then Some (c - 87)
  else None.
Fixpoint seqo {A B} (f : A -> option B) (l : list A) : option (list B) :=
  match l with
  | [] => Some []
  | x :: l' => match f x, seqo f l' with Some y, Some ys => Some (y :: ys) | _, _ => None end
  end.
Definition partval (p : list Z) : option Z := option_map (horner 16 0) (seqo hexd p).

Lemma seqo_iff {A B} (f : A -> option B) (R : A -> B -> Prop) : (forall a b, f a = Some b <-> R a b) ->
  forall l ys, seqo f l = Some ys <-> Forall2 R l ys.
Proof.
  intros H. induction l as [|x l IH]; intros ys; cbn [seqo].
  - split; [intros [= <-]; constructor|intros F; inversion F; reflexivity].
  - split.
    + destruct (f x) as [y|] eqn:E; [|discriminate]. destruct (seqo f l) as [l'|]; [|discriminate].
      intros [= <-]. constructor; [apply H; assumption|apply IH; reflexivity].
    + intros F. inversion F as [|? y ? l' Hy Hl]; subst. apply H in Hy. apply IH in Hl. rewrite Hy, Hl. reflexivity.
Qed.
Lemma seqo_app {A B} (f : A -> option B) l l' :
  seqo f (l ++ l') = match seqo f l, seqo f l' with Some y, Some ys => Some (y ++ ys) | _, _ => None end.
Proof.
  induction l as [|x l IH]; cbn [seqo app]; [destruct (seqo f l'); reflexivity|].
  rewrite IH. destruct (f x), (seqo f l), (seqo f l'); reflexivity.
Qed.
Lemma hexd_iff c d : hexd c = Some d <-> hex_char c d.
Proof.
  unfold hexd, hex_char. split.
  - destruct ((c >=? 48) && (c <=? 57)) eqn:E1; [intros [= <-]; lia|].
    destruct ((c >=? 65) && (c <=? 70)) eqn:E2; [intros [= <-]; lia|].
    destruct ((c >=? 97) && (c <=? 102)) eqn:E3; [intros [= <-]; lia|discriminate].
  - intros H. destruct ((c >=? 48) && (c <=? 57)) eqn:E1; [f_equal; lia|].
    destruct ((c >=? 65) && (c <=? 70)) eqn:E2; [f_equal; lia|].
    destruct ((c >=? 97) && (c <=? 102)) eqn:E3; [f_equal; lia|]. lia.
Qed.
Lemma partval_iff p v : p <> [] -> zlen p <= 4 -> partval p = Some v <-> hex_group p v.
Proof.
  intros Hp Hl. unfold partval, hex_group.
  assert (1 <= zlen p) by (destruct p; [contradiction|]; autorewrite with zl; pose proof (zlen_nonneg p); lia).
  split.
  - destruct (seqo hexd p) as [ds|] eqn:E; [|discriminate]. intros [= <-]. split; [lia|]. exists ds.
    split; [|reflexivity]. revert E. apply (seqo_iff _ _ hexd_iff).
  - intros (_ & ds & F & ->). apply (seqo_iff _ _ hexd_iff) in F. rewrite F. reflexivity.
Qed.
Lemma hex_group_ne p v : hex_group p v -> p <> [] /\ zlen p <= 4.
Proof. intros [H _]. split; [|lia]. intros ->. cbn in H. lia. Qed.
Lemma partval_group p v : hex_group p v -> partval p = Some v.
Proof. intros H. destruct (hex_group_ne p v H). apply partval_iff; assumption. Qed.

Lemma pow16_ok k : 0 <= k <= 3 -> pow16 k = Ret (16 ^ k).
Proof. intros H. assert (k = 0 \/ k = 1 \/ k = 2 \/ k = 3) as [->|[->|[->| ->]]] by lia; reflexivity. Qed.

Lemma hexd_range c d : hexd c = Some d -> 0 <= d < 16.
Proof. intros H. apply hexd_iff in H. unfold hex_char in H. lia. Qed.

Lemma parse_part_sim : forall cs n i value pc, n - i = zlen cs -> zlen cs <= 4 -> 0 <= value ->
  value + 16 ^ zlen cs <= 65536 ->
  outcome (parse_part_loop cs n i value pc) (option_map (fun ds => value + horner 16 0 ds) (seqo hexd cs)).
Proof.
  induction cs as [|c cs IH]; intros n i value pc E H4 Hv Hb; cbn [parse_part_loop seqo].
  - cbn [option_map horner]. rewrite Z.add_0_r. apply outcome_ret.
  - autorewrite with zl in *. pose proof (zlen_nonneg cs).
    rewrite pow16_ok by lia. cbn [bind]. replace (n - i - 1) with (zlen cs) by lia.
    rewrite Z.pow_add_r in Hb by lia. change (16 ^ 1) with 16 in Hb.
    assert (0 < 16 ^ zlen cs) by (apply Z.pow_pos_nonneg; lia).
    assert (A : forall d, 0 <= d < 16 ->
      outcome (parse_part_loop cs n (i + 1) (w16 (value + d * 16 ^ zlen cs)) pc)
        (option_map (fun ds => value + horner 16 0 ds) (match seqo hexd cs with Some ys => Some (d :: ys) | None => None end))).
    { intros d Hd. assert (d * 16 ^ zlen cs + 16 ^ zlen cs <= 16 ^ zlen cs * 16) by nia.
      assert (0 <= d * 16 ^ zlen cs) by nia.
      replace (w16 (value + d * 16 ^ zlen cs)) with (value + d * 16 ^ zlen cs)
        by (unfold w16; rewrite Z.mod_small; [reflexivity|pows; lia]).
      specialize (IH n (i + 1) (value + d * 16 ^ zlen cs) pc ltac:(lia) ltac:(lia) ltac:(lia) ltac:(lia)).
      destruct (seqo hexd cs) as [ds|] eqn:Es; cbn [option_map] in *; [|assumption].
      rewrite (horner_acc 16 (d :: ds)) by lia. cbn [horner].
      rewrite (horner_acc 16 ds (0 * 16 + d)) by lia.
      assert (zlen ds = zlen cs) as ->.
      { apply (seqo_iff _ _ hexd_iff) in Es. apply Forall2_length in Es. unfold zlen. lia. }
      replace (value + (0 * 16 ^ zlen (d :: ds) + ((0 * 16 + d) * 16 ^ zlen cs + horner 16 0 ds)))
        with (value + d * 16 ^ zlen cs + horner 16 0 ds) by ring.
      assumption. }
    unfold hexd at 1.
    destruct ((c >=? 48) && (c <=? 57)) eqn:E1; [apply A; lia|].
    destruct ((c >=? 65) && (c <=? 70)) eqn:E2; [apply A; lia|].
    destruct ((c >=? 97) && (c <=? 102)) eqn:E3; [apply A; lia|]. apply outcome_err.
Qed.
Lemma parse_part_ok p pc : zlen p <= 4 -> outcome (parse_part p pc) (partval p).
Proof.
  intros H. unfold parse_part, partval. pose proof (zlen_nonneg p).
  apply (parse_part_sim p (zlen p) 0 0 pc); try lia.
  change 65536 with (16 ^ 4). rewrite Z.add_0_l. apply Z.pow_le_mono_r; lia.
Qed.
Lemma partval_range p v : zlen p <= 4 -> partval p = Some v -> 0 <= v < 65536.
Proof.
  intros H. unfold partval. destruct (seqo hexd p) as [ds|] eqn:E; [|discriminate]. intros [= <-].
  apply (seqo_iff _ _ hexd_iff) in E. pose proof (Forall2_length _ _ _ E) as L.
  assert (Forall (fun d => 0 <= d < 16) ds).
  { clear -E. induction E as [|c d s ds Hc _ IH]; constructor; [|assumption]. unfold hex_char in Hc. lia. }
  pose proof (horner_range 16 ltac:(lia) ds H0) as R. assert (16 ^ zlen ds <= 16 ^ 4) as P.
  { unfold zlen in *. rewrite <- L. apply Z.pow_le_mono_r; lia. }
  change (16 ^ 4) with 65536 in P. lia.
Qed.

Lemma group_bytes_app a b : group_bytes (a ++ b) = group_bytes a ++ group_bytes b.
Proof. apply flat_map_app. Qed.
Lemma zlen_group_bytes l : zlen (group_bytes l) = 2 * zlen l.
Proof. induction l; [reflexivity|]. change (group_bytes (a :: l)) with (a / 256 :: a mod 256 :: group_bytes l).
  autorewrite with zl. lia. Qed.

Lemma parts_loop_sim : forall q pre post bytes arr i idx pc, Forall (fun p => zlen p <= 4) q ->
  zlen bytes + 2 * zlen q <= 16 -> arr = pre ++ q ++ post -> i = zlen pre -> idx = zlen bytes ->
  outcome (parts_loop (length q) i arr pc idx (buf 16 bytes))
    (option_map (fun vs => (zlen bytes + 2 * zlen q, buf 16 (bytes ++ group_bytes vs))) (seqo partval q)).
Proof.
  induction q as [|p q IH]; intros pre post bytes arr i idx pc HF Hl -> -> ->; cbn [length parts_loop seqo app].
  - cbn [option_map]. cbn. rewrite app_nil_r, Z.add_0_r. reflexivity.
  - autorewrite with zl in *. pose proof (zlen_nonneg q). inversion HF as [|? ? Hp HFq]; subst.
    rewrite rd_mid by reflexivity. cbn [bind]. pose proof (parse_part_ok p pc Hp) as Po.
    destruct (partval p) as [v|] eqn:Ev; cbn [outcome] in Po.
    2:{ destruct Po as (e & w & ->). cbn [bind option_map]. apply outcome_err. }
    rewrite Po. cbn [bind]. apply partval_range in Ev; [|assumption].
    rewrite wr_buf by lia. cbn [bind]. rewrite wr_buf by (autorewrite with zl; lia). cbn [bind].
    replace (w8 (Z.shiftr v 8)) with (v / 256) by (rewrite shr_div by lia; unfold w8; pows; lia).
    replace (w8 (Z.land v 255)) with (v mod 256) by (rewrite land_255, w8_mod; reflexivity).
    rewrite <- app_assoc. cbn [app].
    specialize (IH (pre ++ [p]) post (bytes ++ [v / 256; v mod 256]) (pre ++ p :: q ++ post) (zlen pre + 1) (zlen bytes + 2) pc HFq).
    autorewrite with zl in IH. specialize (IH ltac:(lia)). rewrite <- app_assoc in IH.
    specialize (IH eq_refl ltac:(lia) ltac:(lia)).
    destruct (seqo partval q) as [vs|]; cbn [option_map] in *; [|assumption].
    rewrite <- app_assoc in IH. change ([v / 256; v mod 256] ++ group_bytes vs) with (group_bytes (v :: vs)) in IH.
    replace (zlen bytes + 2 * (zlen q + 1)) with (zlen bytes + (0 + 1 + 1) + 2 * zlen q) by lia. assumption.
Qed.

Lemma buf_zeros bytes k : zlen bytes + Z.of_nat k <= 16 -> buf 16 bytes = buf 16 (bytes ++ repeat 0 k).
Proof.
  intros H. unfold buf, zlen in *. rewrite app_length, repeat_length, <- app_assoc. f_equal.
  rewrite <- repeat_app. f_equal. lia.
Qed.
Lemma buf_full bytes : zlen bytes = 16 -> buf 16 bytes = bytes.
Proof. intros H. unfold buf. replace (Z.to_nat 16 - length bytes)%nat with 0%nat by (unfold zlen in H; lia). apply app_nil_r. Qed.

Definition group_values (h l : list (list Z)) (sk : Z) : option (list Z) :=
  match seqo partval h, seqo partval l with
  | Some vh, Some vl => Some (vh ++ repeat 0 (Z.to_nat sk) ++ vl)
  | _, _ => None
  end.
Lemma seqo_len {A B} (f : A -> option B) l ys : seqo f l = Some ys -> length ys = length l.
Proof.
  revert ys. induction l as [|x l IH]; intros ys; cbn [seqo]; [intros [= <-]; reflexivity|].
  destruct (f x); [|discriminate]. destruct (seqo f l); [|discriminate]. intros [= <-]. cbn. auto.
Qed.
Lemma group_bytes_zeros k : group_bytes (repeat 0 k) = repeat 0 (2 * k).
Proof. induction k as [|k IH]; [reflexivity|]. cbn [repeat]. change (group_bytes (0 :: repeat 0 k)) with (0 :: 0 :: group_bytes (repeat 0 k)).
  rewrite IH. replace (2 * S k)%nat with (S (S (2 * k))) by lia. reflexivity. Qed.

Lemma shape_parts ps h l sk rest : shape ps h l sk ->
  0 <= sk /\ zlen h + zlen l + sk = 8 /\ zlen ps > zlen l /\
  (exists y, ps ++ rest = h ++ y) /\ (exists x z, ps ++ rest = x ++ l ++ z /\ (l <> [] -> zlen x = zlen ps - zlen l)).
Proof.
  intros H. destruct H as [ps L8 _|h l Hh Hl Hlen].
  - unfold zlen. cbn [length]. repeat split; try lia.
    + exists rest. reflexivity.
    + exists ps, rest. cbn. split; [reflexivity|contradiction].
  - unfold zlen in *.
    assert (length l < length (or1 h ++ [] :: or1 l))%nat.
    { rewrite app_length. cbn [length]. assert (length l <= length (or1 l))%nat by (destruct l; cbn; lia). lia. }
    repeat split; try lia.
    + destruct h; cbn [or1]; [|rewrite <- app_assoc]; eexists; reflexivity.
    + destruct l as [|p l].
      * eexists [], _. split; [reflexivity|contradiction].
      * exists (or1 h ++ [[]]), rest. cbn [or1]. rewrite <- !app_assoc. split; [reflexivity|]. intros _.
        rewrite !app_length. cbn [length]. lia.
Qed.

Lemma parse_parts_ok ps h l sk rest n : shape ps h l sk -> Forall (fun p => zlen p <= 4) h -> Forall (fun p => zlen p <= 4) l ->
  n = zlen ps ->
  outcome (parse_parts (ps ++ rest) n (zlen h) (zlen l) sk) (option_map group_bytes (group_values h l sk)).
Proof.
  intros Hs Fh Fl ->. destruct (shape_parts ps h l sk rest Hs) as (Hsk & Hsum & Hn & (y & Ey) & (x & z & Ez & Ex)).
  pose proof (zlen_nonneg h). pose proof (zlen_nonneg l).
  unfold parse_parts, group_values. rewrite !to_nat_zlen.
  pose proof (parts_loop_sim h [] y [] (ps ++ rest) 0 0 (zlen ps) Fh) as P1. change (zlen (@nil Z)) with 0 in P1.
  specialize (P1 ltac:(lia) Ey eq_refl eq_refl). change (repeat 0 16) with (buf 16 []).
  destruct (seqo partval h) as [vh|] eqn:Eh; cbn [option_map outcome] in P1 |- *.
  2:{ destruct P1 as (e & w & ->). apply outcome_err. }
  rewrite P1. cbn [bind app]. apply seqo_len in Eh.
  rewrite shl_mul by lia. change (2 ^ 1) with 2. rewrite (w64_small (sk * 2)), w64_small by lia.
  destruct (Z.gtb_spec (zlen ps) (zlen l)); [|lia]. cbn [assert bind].
  assert (Lh : zlen vh = zlen h) by (unfold zlen; lia).
  rewrite (buf_zeros (group_bytes vh) (2 * Z.to_nat sk)) by (rewrite zlen_group_bytes; lia).
  pose proof (parts_loop_sim l x z (group_bytes vh ++ repeat 0 (2 * Z.to_nat sk)) (ps ++ rest) (zlen ps - zlen l)
    (0 + 2 * zlen h + sk * 2) (zlen ps) Fl) as P2.
  autorewrite with zl in P2. rewrite zlen_repeat, zlen_group_bytes in P2.
  destruct l as [|p l].
  - cbn [length parts_loop seqo bind]. cbn [option_map]. cbn [outcome]. f_equal. rewrite app_nil_r, group_bytes_app, group_bytes_zeros.
    apply buf_full. autorewrite with zl in *. rewrite zlen_repeat, zlen_group_bytes. lia.
  - specialize (P2 ltac:(lia) Ez ltac:(symmetry; apply Ex; discriminate) ltac:(lia)).
    destruct (seqo partval (p :: l)) as [vl|] eqn:El; cbn [option_map outcome] in P2 |- *.
    2:{ destruct P2 as (e & w & ->). apply outcome_err. }
    rewrite P2. cbn [bind]. apply seqo_len in El. rewrite !group_bytes_app, group_bytes_zeros, <- app_assoc. f_equal.
    apply buf_full. autorewrite with zl in *. rewrite zlen_repeat, !zlen_group_bytes. unfold zlen in *. cbn [length] in *. lia.
Qed.
