(** Iterators, sequences and exclusion over unions; every object a program can
    hold has a tag that agrees with its union. *)
From Verif Require Import Base UnicodeModel FixedStringModel V4Model V6Model Uint128Model SpecInt AddressModel NetworkModel
  IterModel ClassifyModel AnyModel CodeModel StreamModel LiteralModel ScopeModel UnionModel SpecUnion UnionProofs.

(** The two instances of the template on unions and on records. *)
Record ops_rel {I E F} (P : E -> Prop) (f : E -> F) (o : iops I E) (q : iops I F) : Prop := {
  r_ok : forall v i, P (o_get o v i);
  r_get : forall v i, o_get q v i = f (o_get o v i);
  r_at : forall v i n, lawful P f (Val (o_at o v i n)) (o_at q v i n);
  r_add : o_add o = o_add q; r_sub : o_sub o = o_sub q; r_udiff : o_udiff o = o_udiff q; r_diff : o_diff o = o_diff q;
  r_eqb : o_eqb o = o_eqb q; r_cmp : o_cmp o = o_cmp q; r_ltb : o_ltb o = o_ltb q;
  r_base : o_base o = o_base q; r_reverse : o_reverse o = o_reverse q }.
Lemma host_rel : ops_rel a_ok a_plain host_uops host_ops.
Proof.
  constructor; try reflexivity.
  - intros [|] i; exact I.
  - intros [|] i; reflexivity.
  - intros v i n. cbn [o_at host_uops host_ops].
    destruct (ait_at v i n) as [a|e w|u]; cbn [bind lawful]; try reflexivity. destruct v; (split; [exact I|reflexivity]).
Qed.
Lemma net_rel : ops_rel n_ok n_plain net_uops net_ops.
Proof.
  constructor; try reflexivity.
  - intros [|] i; exact I.
  - intros [|] i; reflexivity.
  - intros v i n. cbn [o_at net_uops net_ops].
    destruct (nit_at v i n) as [a|e w|u]; cbn [bind lawful]; try reflexivity. destruct v; (split; [exact I|reflexivity]).
Qed.

Section Iter.
  Context {I E F : Type} (P : E -> Prop) (f : E -> F) (o : iops I E) (q : iops I F) (R : ops_rel P f o q).
  Lemma i_of4_ok i : i_ok P (ui_of4 o i). Proof. split; [exact Logic.I|apply (r_ok _ _ _ _ R)]. Qed.
  Lemma i_of6_ok i : i_ok P (ui_of6 o i). Proof. split; [exact Logic.I|apply (r_ok _ _ _ _ R)]. Qed.
  Lemma i_of4_plain i : i_plain f (ui_of4 o i) = aiter_make q V4 i.
  Proof. unfold i_plain, ui_of4, aiter_make. rewrite (r_get _ _ _ _ R). reflexivity. Qed.
  Lemma i_of6_plain i : i_plain f (ui_of6 o i) = aiter_make q V6 i.
  Proof. unfold i_plain, ui_of6, aiter_make. rewrite (r_get _ _ _ _ R). reflexivity. Qed.
  Lemma i_cases (x : uiter I E) : i_ok P x -> exists v i c, P c /\ x = mk_ui v (match v with V4 => M4 i | V6 => M6 i end) c.
  Proof.
    destruct x as [v u c]. intros [H HP]. cbn [ui_ver ui_un ui_cur] in *.
    destruct (agree_cases v u H) as [i [[-> ->] | [-> ->]]]; [exists V4, i, c|exists V6, i, c]; (split; [exact HP|reflexivity]).
  Qed.
  Lemma ui_reads n (x y : uiter I E) : i_ok P x -> i_ok P y ->
    ui_udiff o x y = Val (aiter_udiff q (i_plain f x) (i_plain f y)) /\
    ui_diff o x y = Val (Ret (aiter_diff q (i_plain f x) (i_plain f y))) /\
    ui_eqb o x y = Val (aiter_eqb q (i_plain f x) (i_plain f y)) /\
    ui_cmp o x y = Val (aiter_cmp q (i_plain f x) (i_plain f y)) /\
    ui_ltb o x y = Val (aiter_ltb q (i_plain f x) (i_plain f y)) /\
    lawful P f (ui_at o x n) (aiter_at q (i_plain f x) n).
  Proof.
    intros H G. destruct (i_cases _ H) as (v & i & c & _ & ->). destruct (i_cases _ G) as (w & j & d & _ & ->).
    unfold ui_udiff, ui_diff, ui_eqb, ui_cmp, ui_ltb, ui_at, aiter_udiff, aiter_diff, aiter_eqb, aiter_cmp, aiter_ltb, aiter_at, i_plain.
    rewrite (r_udiff _ _ _ _ R), (r_diff _ _ _ _ R), (r_eqb _ _ _ _ R), (r_cmp _ _ _ _ R), (r_ltb _ _ _ _ R).
    destruct v, w; red1; (repeat (split; [reflexivity|])); apply (r_at _ _ _ _ R).
  Qed.
  Lemma ui_moves n (x : uiter I E) : i_ok P x ->
    lawful (i_ok P) (i_plain f) (ui_add o x n) (aiter_add q (i_plain f x) n) /\
    lawful (i_ok P) (i_plain f) (ui_sub o x n) (aiter_sub q (i_plain f x) n) /\
    lawful (i_ok P) (i_plain f) (ui_base o x) (aiter_base q (i_plain f x)) /\
    lawful (i_ok P) (i_plain f) (ui_reverse o x) (aiter_reverse q (i_plain f x)).
  Proof.
    intros H. destruct (i_cases _ H) as (v & i & c & _ & ->).
    unfold ui_add, ui_sub, ui_base, ui_reverse, aiter_add, aiter_sub, aiter_base, aiter_reverse.
    rewrite (r_add _ _ _ _ R), (r_sub _ _ _ _ R), (r_base _ _ _ _ R), (r_reverse _ _ _ _ R).
    split; [|split; [|split]].
    - destruct v; unfold i_plain; red1; cbv iota;
        (destruct (o_add q _ i _) as [k|e w|u]; cbn [ubind bind lawful mem4 mem6]; [|reflexivity|reflexivity];
         rewrite (r_get _ _ _ _ R); split; [split; [exact Logic.I|apply (r_ok _ _ _ _ R)]|reflexivity]).
    - destruct v; unfold i_plain; red1; cbv iota;
        (destruct (o_sub q _ i _) as [k|e w|u]; cbn [ubind bind lawful mem4 mem6]; [|reflexivity|reflexivity];
         rewrite (r_get _ _ _ _ R); split; [split; [exact Logic.I|apply (r_ok _ _ _ _ R)]|reflexivity]).
    - destruct v; match goal with |- context [i_plain f (mk_ui ?v ?u c)] => change (i_plain f (mk_ui v u c)) with (mk_ai v i (f c)) end; red1; cbv iota;
        (destruct (o_base q _ i) as [k|e w|u]; cbn [ubind bind lawful]; [|reflexivity|reflexivity]).
      + split; [apply i_of4_ok|rewrite i_of4_plain; reflexivity].
      + split; [apply i_of6_ok|rewrite i_of6_plain; reflexivity].
    - destruct v; match goal with |- context [i_plain f (mk_ui ?v ?u c)] => change (i_plain f (mk_ui v u c)) with (mk_ai v i (f c)) end; red1; cbv iota;
        (destruct (o_reverse q _ i) as [k|e w|u]; cbn [ubind bind lawful]; [|reflexivity|reflexivity]).
      + split; [apply i_of4_ok|rewrite i_of4_plain; reflexivity].
      + split; [apply i_of6_ok|rewrite i_of6_plain; reflexivity].
  Qed.
End Iter.

Lemma un_sequences sp x c d np : n_ok x ->
  lawful (both (i_ok a_ok)) (seq_plain a_plain) (un_hosts sp x) (any_hosts sp (n_plain x)) /\
  lawful (both (i_ok n_ok)) (seq_plain n_plain) (un_subnets sp x d np) (any_subnets sp (n_plain x) d np) /\
  lawful (fun p => both (i_ok n_ok) (fst p)) (with_code (seq_plain n_plain)) (un_subnets_code sp x c d np)
    (any_subnets_code sp (n_plain x) c d np).
Proof.
  intro H. split; [|split].
  - ncase H; unfold un_hosts, any_hosts; red1; cbv iota;
      (destruct (hosts sp _ n) as [s|e w|u]; cbn [ubind bind lawful]; [|reflexivity|reflexivity]).
    + split; [split; apply (i_of4_ok _ _ _ _ host_rel)|].
      unfold seq_plain, aseq_make. cbn [fst snd]. rewrite !(i_of4_plain _ _ _ _ host_rel). reflexivity.
    + split; [split; apply (i_of6_ok _ _ _ _ host_rel)|].
      unfold seq_plain, aseq_make. cbn [fst snd]. rewrite !(i_of6_plain _ _ _ _ host_rel). reflexivity.
  - ncase H; unfold un_subnets, any_subnets; red1; cbv iota;
      (destruct (subnets sp _ n d np) as [s|e w|u]; cbn [ubind bind lawful]; [|reflexivity|reflexivity]).
    + split; [split; apply (i_of4_ok _ _ _ _ net_rel)|].
      unfold seq_plain, aseq_make. cbn [fst snd]. rewrite !(i_of4_plain _ _ _ _ net_rel). reflexivity.
    + split; [split; apply (i_of6_ok _ _ _ _ net_rel)|].
      unfold seq_plain, aseq_make. cbn [fst snd]. rewrite !(i_of6_plain _ _ _ _ net_rel). reflexivity.
  - ncase H; unfold un_subnets_code, any_subnets_code; red1; cbv iota;
      (destruct (subnets_code sp _ n c d np) as [[s k]|e w|u]; cbn [ubind bind lawful]; [|reflexivity|reflexivity]).
    + split; [split; apply (i_of4_ok _ _ _ _ net_rel)|].
      unfold with_code, seq_plain, aseq_make. cbn [fst snd]. rewrite !(i_of4_plain _ _ _ _ net_rel). reflexivity.
    + split; [split; apply (i_of6_ok _ _ _ _ net_rel)|].
      unfold with_code, seq_plain, aseq_make. cbn [fst snd]. rewrite !(i_of6_plain _ _ _ _ net_rel). reflexivity.
Qed.

(** ** Exclusion *)
Definition n2_plain (p : unet * unet) : anet * anet := (n_plain (fst p), n_plain (snd p)).
Lemma un_eqb_lawful x y : n_ok x -> n_ok y ->
  lawful (fun _ => True) (fun b : bool => b) (un_eqb x y) (anet_eqb (n_plain x) (n_plain y)).
Proof. intros H G. apply lawful_eq. apply (un_pairs true x y ua_default H G I). Qed.
Lemma un_subnet_lawful sp x y : n_ok x -> n_ok y ->
  lawful (fun _ => True) (fun b : bool => b) (un_subnet_of sp x y) (anet_subnet_of sp (n_plain x) (n_plain y)).
Proof. intros H G. apply lawful_eq. apply (un_pairs sp x y ua_default H G I). Qed.
Lemma un_halves_lawful sp x : n_ok x -> lawful (both n_ok) n2_plain (un_halves sp x) (any_halves sp (n_plain x)).
Proof.
  intro H. unfold un_halves, any_halves.
  eapply lawful_bind; [apply (un_sequences sp x no_error 1 None H)|]. intros [b e] [Hb He]. cbn [fst snd] in Hb, He.
  unfold aseq_at, seq_plain. cbn [q_begin fst snd].
  destruct (ui_moves _ _ _ _ net_rel 0 b Hb) as [H0 _]. destruct (ui_moves _ _ _ _ net_rel 1 b Hb) as [H1 _].
  destruct (ui_add net_uops b 0) as [[i|er w|u]| |]; cbn [lawful] in H0; try contradiction;
    [destruct H0 as [Hi ->]|rewrite H0; reflexivity|rewrite H0; reflexivity].
  cbn [ubind bind].
  destruct (ui_add net_uops b 1) as [[j|er w|u]| |]; cbn [lawful] in H1; try contradiction;
    [destruct H1 as [Hj ->]|rewrite H1; reflexivity|rewrite H1; reflexivity].
  cbn [ubind bind lawful]. split; [split; [apply Hi|apply Hj]|reflexivity].
Qed.
Lemma x_default_ok : x_ok uxit_default. Proof. repeat split. Qed.
Lemma uxit_next_lawful sp x : x_ok x -> lawful x_ok x_plain (uxit_next sp x) (axit_next sp (x_plain x)).
Proof.
  intros (Ho & H1 & H2 & Hc). destruct x as [ot s1 s2 cu]. unfold uxit_next, axit_next.
  change (x_plain (mk_uxit ot s1 s2 cu)) with (mk_axit (n_plain ot) (n_plain s1) (n_plain s2) (n_plain cu)).
  cbn [ux_other ux_s1 ux_s2 ux_current ax_other ax_s1 ax_s2 ax_current] in *.
  eapply lawful_bind; [apply un_eqb_lawful; assumption|]. intros e1 _.
  eapply lawful_bind; [apply un_eqb_lawful; assumption|]. intros e2 _.
  destruct (negb e1 && negb e2).
  - eapply lawful_bind; [apply un_subnet_lawful; assumption|]. intros [|] _.
    + eapply lawful_bind; [apply un_eqb_lawful; assumption|]. intros [|] _; cbn [negb].
      * apply lawful_ret; [exact x_default_ok|reflexivity].
      * eapply lawful_bind; [apply un_halves_lawful; assumption|]. intros [h1 h2] [K1 K2]. cbn [n2_plain fst snd] in *.
        apply lawful_ret; [repeat split; assumption|reflexivity].
    + eapply lawful_bind; [apply un_subnet_lawful; assumption|]. intros [|] _.
      * eapply lawful_bind; [apply un_eqb_lawful; assumption|]. intros [|] _; cbn [negb].
        -- apply lawful_ret; [exact x_default_ok|reflexivity].
        -- eapply lawful_bind; [apply un_halves_lawful; assumption|]. intros [h1 h2] [K1 K2]. cbn [n2_plain fst snd] in *.
           apply lawful_ret; [repeat split; assumption|reflexivity].
      * reflexivity.
  - destruct e1; [|destruct e2].
    + eapply lawful_bind; [apply un_eqb_lawful; assumption|]. intros [|] _; cbn [negb];
        (apply lawful_ret; [repeat split; assumption|reflexivity]).
    + eapply lawful_bind; [apply un_eqb_lawful; assumption|]. intros [|] _; cbn [negb];
        (apply lawful_ret; [repeat split; assumption|reflexivity]).
    + reflexivity.
Qed.
Lemma uxit_eqb_lawful x y : x_ok x -> x_ok y -> uxit_eqb x y = Val (axit_eqb (x_plain x) (x_plain y)).
Proof. intros H G. apply (un_pairs true (ux_current x) (ux_current y) ua_default); [apply H|apply G|exact I]. Qed.
Lemma un_exclude_lawful sp x y c : n_ok x -> n_ok y ->
  lawful (fun p => both x_ok (fst p)) ex_plain (un_exclude_code sp x y c) (any_exclude_code sp (n_plain x) (n_plain y) c).
Proof.
  intros H G. unfold un_exclude_code, any_exclude_code.
  change (an_ver (n_plain x)) with (un_ver x). change (an_ver (n_plain y)) with (un_ver y).
  destruct (negb (ver_eqb (un_ver x) (un_ver y))).
  { apply lawful_ret; [split; exact x_default_ok|reflexivity]. }
  destruct (un_reads x true full H) as (P1 & _). destruct (un_reads y true full G) as (P2 & _).
  rewrite P1, P2.
  destruct (un_parts x H) as (A1 & _). destruct (un_parts y G) as (A2 & _).
  destruct (un_address x) as [[a1|e w|u]| |]; cbn [lawful] in A1; try contradiction; try discriminate. destruct A1 as [K1 E1].
  destruct (un_address y) as [[a2|e w|u]| |]; cbn [lawful] in A2; try contradiction; try discriminate. destruct A2 as [K2 E2].
  assert (E1' : anet_address (n_plain x) = a_plain a1) by congruence.
  assert (E2' : anet_address (n_plain y) = a_plain a2) by congruence.
  rewrite E1', E2'. clear E1 E2 E1' E2' P1 P2. cbn [ubind].
  eapply lawful_bind; [apply (ua_changes TChar a1 [] no_error K1)|]. intros b1 L1.
  eapply lawful_bind; [apply (ua_changes TChar a2 [] no_error K2)|]. intros b2 L2.
  eapply lawful_bind; [apply (un_creations x b1 [] true (anet_prefixlen (n_plain x)) no_error 0 None H L1)|]. intros n1 M1.
  eapply lawful_bind; [apply (un_creations y b2 [] true (anet_prefixlen (n_plain y)) no_error 0 None G L2)|]. intros n2 M2'.
  eapply lawful_bind; [apply un_subnet_lawful; assumption|]. intros [|] _; cbn [negb];
    [|apply lawful_ret; [split; exact x_default_ok|reflexivity]].
  eapply lawful_bind; [apply un_eqb_lawful; assumption|]. intros [|] _;
    [apply lawful_ret; [split; exact x_default_ok|reflexivity]|].
  unfold uxit_make, axit_make.
  eapply lawful_bind with (P := x_ok) (f := x_plain).
  - eapply lawful_bind; [apply un_halves_lawful; assumption|]. intros [h1 h2] [J1 J2].
    apply (uxit_next_lawful sp (mk_uxit n2 h1 h2 n1)). repeat split; assumption.
  - intros z Hz. apply lawful_ret; [split; [exact Hz|exact x_default_ok]|reflexivity].
Qed.

(** ** Every object a program can hold *)
Scheme made_a_mut := Minimality for made_a Sort Prop
  with made_n_mut := Minimality for made_n Sort Prop
  with made_h_mut := Minimality for made_h Sort Prop
  with made_s_mut := Minimality for made_s Sort Prop
  with made_x_mut := Minimality for made_x Sort Prop.
Combined Scheme made_mut from made_a_mut, made_n_mut, made_h_mut, made_s_mut, made_x_mut.
Ltac law L E := let K := fresh in pose proof L as K; rewrite E in K; cbn [lawful] in K; destruct K as [K _]; apply K.
Lemma made_ok :
  (forall x, made_a x -> a_ok x) /\ (forall x, made_n x -> n_ok x) /\
  (forall i, made_h i -> i_ok a_ok i) /\ (forall i, made_s i -> i_ok n_ok i) /\ (forall x, made_x x -> x_ok x).
Proof.
  apply made_mut; intros; try (exact I); try (split; exact I); try exact x_default_ok;
    try match goal with
    | E : ua_from_bytes ?s ?n ?v = _ |- _ => law (proj1 (ua_creations s n v [] no_error)) E
    | E : ua_parse ?ts = _ |- _ => law (proj1 (proj2 (ua_creations [] 0 V4 ts no_error))) E
    | E : ua_parse_code ?ts ?c = _ |- _ => law (proj2 (proj2 (ua_creations [] 0 V4 ts c))) E
    | K : a_ok ?x, E : ua_scope_set ?T ?x ?s = _ |- _ => law (proj1 (ua_changes T x s no_error K)) E
    | K : a_ok ?x, E : ua_scope_set_code ?T ?x ?s ?c = _ |- _ => law (proj1 (proj2 (ua_changes T x s c K))) E
    | K : a_ok ?x, E : ua_scope_set_array ?T ?x ?s = _ |- _ => law (proj1 (proj2 (proj2 (ua_changes T x s no_error K)))) E
    | K : n_ok ?n, E : un_address ?n = _ |- _ => law (proj1 (un_parts n K)) E
    | K : n_ok ?n, E : un_broadcast ?n = _ |- _ => law (proj1 (proj2 (un_parts n K))) E
    | K : n_ok ?n, E : un_netmask ?n = _ |- _ => law (proj1 (proj2 (proj2 (un_parts n K)))) E
    | K : n_ok ?n, E : un_hostmask ?n = _ |- _ => law (proj2 (proj2 (proj2 (un_parts n K)))) E
    | E : un_parse ?ts ?s = _ |- _ => law (proj1 (un_creations un_default ua_default ts s 0 no_error 0 None I I)) E
    | E : un_parse_code ?ts ?c ?s = _ |- _ => law (proj1 (proj2 (un_creations un_default ua_default ts s 0 c 0 None I I))) E
    | K : a_ok ?a, E : un_from_address ?a ?p ?s = _ |- _ => law (proj1 (proj2 (proj2 (un_creations un_default a [] s p no_error 0 None I K)))) E
    | K : a_ok ?a, E : un_from_address_code ?a ?c ?p ?s = _ |- _ => law (proj1 (proj2 (proj2 (proj2 (un_creations un_default a [] s p c 0 None I K))))) E
    | K : n_ok ?n, E : un_supernet ?d ?np ?n = _ |- _ => law (proj1 (proj2 (proj2 (proj2 (proj2 (un_creations n ua_default [] true 0 no_error d np K I)))))) E
    | K : n_ok ?n, E : un_supernet_code ?c ?d ?np ?n = _ |- _ => law (proj2 (proj2 (proj2 (proj2 (proj2 (un_creations n ua_default [] true 0 c d np K I)))))) E
    | K : n_ok ?n, E : un_hosts ?sp ?n = _ |- _ => law (proj1 (un_sequences sp n no_error 0 None K)) E
    | K : n_ok ?n, E : un_subnets ?sp ?n ?d ?np = _ |- _ => law (proj1 (proj2 (un_sequences sp n no_error d np K))) E
    | K : n_ok ?n, E : un_subnets_code ?sp ?n ?c ?d ?np = _ |- _ => law (proj2 (proj2 (un_sequences sp n c d np K))) E
    | K : i_ok a_ok ?i, E : ui_at host_uops ?i ?n = _ |- _ => law (proj2 (proj2 (proj2 (proj2 (proj2 (ui_reads _ _ _ _ host_rel n i i K K)))))) E
    | K : i_ok n_ok ?i, E : ui_at net_uops ?i ?n = _ |- _ => law (proj2 (proj2 (proj2 (proj2 (proj2 (ui_reads _ _ _ _ net_rel n i i K K)))))) E
    | K : i_ok a_ok ?i, E : ui_add host_uops ?i ?n = _ |- _ => law (proj1 (ui_moves _ _ _ _ host_rel n i K)) E
    | K : i_ok a_ok ?i, E : ui_sub host_uops ?i ?n = _ |- _ => law (proj1 (proj2 (ui_moves _ _ _ _ host_rel n i K))) E
    | K : i_ok a_ok ?i, E : ui_base host_uops ?i = _ |- _ => law (proj1 (proj2 (proj2 (ui_moves _ _ _ _ host_rel 0 i K)))) E
    | K : i_ok a_ok ?i, E : ui_reverse host_uops ?i = _ |- _ => law (proj2 (proj2 (proj2 (ui_moves _ _ _ _ host_rel 0 i K)))) E
    | K : i_ok n_ok ?i, E : ui_add net_uops ?i ?n = _ |- _ => law (proj1 (ui_moves _ _ _ _ net_rel n i K)) E
    | K : i_ok n_ok ?i, E : ui_sub net_uops ?i ?n = _ |- _ => law (proj1 (proj2 (ui_moves _ _ _ _ net_rel n i K))) E
    | K : i_ok n_ok ?i, E : ui_base net_uops ?i = _ |- _ => law (proj1 (proj2 (proj2 (ui_moves _ _ _ _ net_rel 0 i K)))) E
    | K : i_ok n_ok ?i, E : ui_reverse net_uops ?i = _ |- _ => law (proj2 (proj2 (proj2 (ui_moves _ _ _ _ net_rel 0 i K)))) E
    | K : i_ok _ ?i |- _ (ui_cur ?i) => apply K
    | K : x_ok ?x |- n_ok (ux_current ?x) => apply K
    | K : n_ok ?n, G : n_ok ?m, E : un_exclude_code ?sp ?n ?m ?c = _ |- _ => law (un_exclude_lawful sp n m c K G) E
    | K : x_ok ?x, E : uxit_next ?sp ?x = _ |- _ => law (uxit_next_lawful sp x K) E
    end; try assumption.
Qed.

(** ** A tag that does not agree would be noticed *)
Lemma ua_wrong x is64 fmt : ~ a_ok x ->
  ua_is_multicast x = Inactive /\ ua_hash is64 x = Inactive /\ ua_to_string fmt x = Inactive /\ ua_eqb x x = Inactive /\
  ua_cmp x x = Inactive /\ ua_ltb x x = Inactive.
Proof.
  destruct x as [[|] [a|a]]; unfold a_ok, agree; cbn [ua_ver ua_un]; intro H; try (exfalso; apply H; exact I);
    unfold ua_is_multicast, ua_hash, ua_to_string, ua_eqb, ua_cmp, ua_ltb; red1; repeat split.
Qed.
Lemma un_wrong x is64 fmt : ~ n_ok x ->
  un_address x = Inactive /\ un_hash is64 x = Inactive /\ un_to_string fmt x = Inactive /\ un_eqb x x = Inactive /\
  (forall sp, un_hosts sp x = Inactive).
Proof.
  destruct x as [[|] [a|a]]; unfold n_ok, agree; cbn [un_ver un_un]; intro H; try (exfalso; apply H; exact I);
    unfold un_address, un_hash, un_to_string, un_eqb, un_hosts; red1; repeat split.
Qed.
Lemma ui_wrong {I E} (o : iops I E) (x : uiter I E) n : ~ agree (ui_ver x) (ui_un x) ->
  ui_add o x n = Inactive /\ ui_sub o x n = Inactive /\ ui_eqb o x x = Inactive /\ ui_at o x n = Inactive.
Proof.
  destruct x as [[|] [a|a] c]; unfold agree; cbn [ui_ver ui_un]; intro H; try (exfalso; apply H; exact Logic.I);
    unfold ui_add, ui_sub, ui_eqb, ui_at; red1; repeat split.
Qed.

Lemma hosts_it_reads n (x y : uiter ait uaddr) : i_ok a_ok x -> i_ok a_ok y ->
  ui_udiff host_uops x y = Val (aiter_udiff host_ops (i_plain a_plain x) (i_plain a_plain y)) /\
  ui_diff host_uops x y = Val (Ret (aiter_diff host_ops (i_plain a_plain x) (i_plain a_plain y))) /\
  ui_eqb host_uops x y = Val (aiter_eqb host_ops (i_plain a_plain x) (i_plain a_plain y)) /\
  ui_cmp host_uops x y = Val (aiter_cmp host_ops (i_plain a_plain x) (i_plain a_plain y)) /\
  ui_ltb host_uops x y = Val (aiter_ltb host_ops (i_plain a_plain x) (i_plain a_plain y)) /\
  lawful a_ok a_plain (ui_at host_uops x n) (aiter_at host_ops (i_plain a_plain x) n).
Proof. apply (ui_reads _ _ _ _ host_rel). Qed.
Lemma hosts_it_moves n (x : uiter ait uaddr) : i_ok a_ok x ->
  lawful (i_ok a_ok) (i_plain a_plain) (ui_add host_uops x n) (aiter_add host_ops (i_plain a_plain x) n) /\
  lawful (i_ok a_ok) (i_plain a_plain) (ui_sub host_uops x n) (aiter_sub host_ops (i_plain a_plain x) n) /\
  lawful (i_ok a_ok) (i_plain a_plain) (ui_base host_uops x) (aiter_base host_ops (i_plain a_plain x)) /\
  lawful (i_ok a_ok) (i_plain a_plain) (ui_reverse host_uops x) (aiter_reverse host_ops (i_plain a_plain x)).
Proof. apply (ui_moves _ _ _ _ host_rel). Qed.
Lemma subnets_it_reads n (x y : uiter nit unet) : i_ok n_ok x -> i_ok n_ok y ->
  ui_udiff net_uops x y = Val (aiter_udiff net_ops (i_plain n_plain x) (i_plain n_plain y)) /\
  ui_diff net_uops x y = Val (Ret (aiter_diff net_ops (i_plain n_plain x) (i_plain n_plain y))) /\
  ui_eqb net_uops x y = Val (aiter_eqb net_ops (i_plain n_plain x) (i_plain n_plain y)) /\
  ui_cmp net_uops x y = Val (aiter_cmp net_ops (i_plain n_plain x) (i_plain n_plain y)) /\
  ui_ltb net_uops x y = Val (aiter_ltb net_ops (i_plain n_plain x) (i_plain n_plain y)) /\
  lawful n_ok n_plain (ui_at net_uops x n) (aiter_at net_ops (i_plain n_plain x) n).
Proof. apply (ui_reads _ _ _ _ net_rel). Qed.
Lemma subnets_it_moves n (x : uiter nit unet) : i_ok n_ok x ->
  lawful (i_ok n_ok) (i_plain n_plain) (ui_add net_uops x n) (aiter_add net_ops (i_plain n_plain x) n) /\
  lawful (i_ok n_ok) (i_plain n_plain) (ui_sub net_uops x n) (aiter_sub net_ops (i_plain n_plain x) n) /\
  lawful (i_ok n_ok) (i_plain n_plain) (ui_base net_uops x) (aiter_base net_ops (i_plain n_plain x)) /\
  lawful (i_ok n_ok) (i_plain n_plain) (ui_reverse net_uops x) (aiter_reverse net_ops (i_plain n_plain x)).
Proof. apply (ui_moves _ _ _ _ net_rel). Qed.
Lemma ui_wrong_hosts (x : uiter ait uaddr) n : ~ agree (ui_ver x) (ui_un x) ->
  ui_add host_uops x n = Inactive /\ ui_sub host_uops x n = Inactive /\ ui_eqb host_uops x x = Inactive /\ ui_at host_uops x n = Inactive.
Proof. apply ui_wrong. Qed.
Lemma ui_wrong_subnets (x : uiter nit unet) n : ~ agree (ui_ver x) (ui_un x) ->
  ui_add net_uops x n = Inactive /\ ui_sub net_uops x n = Inactive /\ ui_eqb net_uops x x = Inactive /\ ui_at net_uops x n = Inactive.
Proof. apply ui_wrong. Qed.
Lemma exclusion_steps sp x y : x_ok x -> x_ok y ->
  lawful x_ok x_plain (uxit_next sp x) (axit_next sp (x_plain x)) /\ uxit_eqb x y = Val (axit_eqb (x_plain x) (x_plain y)).
Proof. intros H G. split; [apply uxit_next_lawful, H|apply uxit_eqb_lawful; assumption]. Qed.

(** Objects without arguments are those of AnyModel. *)
Lemma made_defaults : a_plain ua_default = aa_default /\ n_plain un_default = an_default /\ i_plain a_plain host_uiter_default = host_aiter_default /\
  i_plain n_plain net_uiter_default = net_aiter_default /\ x_plain uxit_default = axit_default.
Proof. repeat split; reflexivity. Qed.
Lemma made_constructors : (forall a, a_plain (ua_of4 a) = mk_aa V4 a) /\ (forall a, a_plain (ua_of6 a) = mk_aa V6 a) /\
  (forall b, a_plain (ua_bytes4 b) = mk_aa V4 (mk_addr b [])) /\ (forall b, a_plain (ua_bytes6 b) = mk_aa V6 (mk_addr b [])) /\
  (forall n, n_plain (un_of4 n) = mk_an V4 n) /\ (forall n, n_plain (un_of6 n) = mk_an V6 n) /\
  (forall x y, ua_swap x y = (y, x)).
Proof. repeat split; reflexivity. Qed.
