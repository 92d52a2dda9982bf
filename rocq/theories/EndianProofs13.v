(** The loop over a single IPv6 host on a big-endian host: the statements of C74. *)
From Coq Require Import String.
From Verif Require Import Base Tac TextProofs UnicodeModel FixedStringModel V4Model V6Model Uint128Model SpecInt SpecText SpecAddr SpecStr SpecV4 SpecV6
  StrProofs BitProofs AddressModel SpecOrder AddressProofs NetworkModel SpecNet NetProofs NetProofs2 NetProofs3 NetLemmas IterModel SpecIter SpecAny NetWitness
  HostModel SpecEndian ZoneProofs EndianProofs EndianProofs2 EndianProofs6 EndianProofs7.
Open Scope Z_scope.
Open Scope list_scope.

Definition M6 := 2 ^ 128.
Definition pos6 (o i : Z) : ait := mk_ait (mirror_addr V6 (addr_of V6 ((o + i) mod M6))) ((o + i) mod M6) (if o + i <? M6 then 0 else 1).
Lemma pos_range6 o i : 0 <= (o + i) mod M6 < 2 ^ width V6.
Proof. apply Z.mod_pos_bound. reflexivity. Qed.
Lemma pos_next6 o i : 0 <= o < M6 -> 0 <= i -> o + i + 1 < 2 * M6 -> ait_next_h false V6 (pos6 o i) = Ret (pos6 o (i + 1)).
Proof.
  intros Ho Hi Hl. unfold ait_next_h, ait_add_h. change (negb (1 =? 0)) with true. cbv iota zeta. unfold pos6 at 1 2 3 4 5 6. cbn [it_offset it_carry].
  rewrite (be_from_of V6 _ (add_range V6 _ 1)). cbn [bind]. rewrite uadd_ok. cbn [width]. fold M6. rewrite Zplus_mod_idemp_l.
  replace (o + i + 1) with (o + (i + 1)) by lia. unfold pos6. f_equal. f_equal. change M6 with 340282366920938463463374607431768211456 in *.
  destruct (Z.ltb_spec (o + i) 340282366920938463463374607431768211456); destruct (Z.ltb_spec (o + (i + 1)) 340282366920938463463374607431768211456); try lia.
  - rewrite !Z.mod_small by lia. destruct (Z.ltb_spec (o + (i + 1)) (o + i)); lia.
  - replace (o + (i + 1)) with 340282366920938463463374607431768211456 by lia. rewrite Z.mod_same by lia. rewrite Z.mod_small by lia. destruct (Z.ltb_spec 0 (o + i)); lia.
  - rewrite (Z.mod_eq (o + i)), (Z.mod_eq (o + (i + 1))) by lia. replace ((o + i) / 340282366920938463463374607431768211456) with 1 by lia. replace ((o + (i + 1)) / 340282366920938463463374607431768211456) with 1 by lia.
    destruct (Z.ltb_spec (o + (i + 1) - 340282366920938463463374607431768211456 * 1) (o + i - 340282366920938463463374607431768211456 * 1)); lia.
Qed.
Lemma pos_eqb6 o i p j c : ait_eqb V6 (pos6 o i) (mk_ait (mirror_addr V6 (addr_of V6 ((p + j) mod M6))) ((p + j) mod M6) c) =
  Ret ((c =? (if o + i <? M6 then 0 else 1)) && ((o + i) mod M6 =? (p + j) mod M6)).
Proof.
  unfold ait_eqb, pos6. cbn [it_carry it_current]. rewrite (Z.eqb_sym _ c). destruct (c =? _); cbn [andb]; [|reflexivity].
  rewrite mirror_eqb by apply addr_of_wf, pos_range6.
  destruct (addr_eqb_ok V6 _ _ (addr_of_wf V6 _ (pos_range6 o i)) (addr_of_wf V6 _ (pos_range6 p j))) as (r & -> & Hr). f_equal. apply Bool.eq_iff_eq_true. rewrite Hr, Z.eqb_eq. split.
  - intros E. rewrite <- (addr_of_val V6 _ (pos_range6 o i)), E, addr_of_val by apply pos_range6. reflexivity.
  - congruence.
Qed.
Lemma runs_on6 o : 0 <= o < M6 - 1 -> forall k i, 0 <= i -> i + Z.of_nat k <= M6 ->
  hosts_walk_h false V6 k (pos6 o i) (mk_ait (mirror_addr V6 (addr_of V6 ((o + 1) mod M6))) ((o + 1) mod M6) 1) = UB OutOfFuel.
Proof.
  intros Ho. unfold hosts_walk_h. induction k as [|k IH]; intros i Hi Hk; cbn [walk]; rewrite pos_eqb6.
  all: assert (E : (1 =? (if o + i <? M6 then 0 else 1)) && ((o + i) mod M6 =? (o + 1) mod M6) = false).
  1,3: destruct (Z.ltb_spec (o + i) M6); [reflexivity|]; cbn [andb Z.eqb Pos.eqb]; apply Z.eqb_neq; rewrite (Z.mod_small (o + 1)) by lia;
       rewrite Z.mod_eq by discriminate; change M6 with 340282366920938463463374607431768211456 in *; replace ((o + i) / 340282366920938463463374607431768211456) with 1 by lia; lia.
  - rewrite E. reflexivity.
  - rewrite E. cbn [bind]. rewrite pos_next6 by (change M6 with 340282366920938463463374607431768211456 in *; lia). cbn [bind]. rewrite IH by (change M6 with 340282366920938463463374607431768211456 in *; lia). reflexivity.
Qed.


Lemma be_cons a t : length t = 7%nat -> be_value (a :: t) = a * 72057594037927936 + be_value t.
Proof. intros L. unfold be_value. cbn [horner]. rewrite horner_acc by lia. unfold zlen. rewrite L. change (256 ^ Z.of_nat 7) with 72057594037927936. lia. Qed.
Lemma be_snoc t a : be_value (t ++ [a]) = be_value t * 256 + a.
Proof. unfold be_value. apply horner_app. Qed.
Lemma be_halves h l : length l = 8%nat -> be_value (h ++ l) = be_value h * 18446744073709551616 + be_value l.
Proof.
  intros L. do 9 (destruct l as [|? l]; try discriminate L). unfold be_value.
  match goal with |- horner _ _ (h ++ [?a;?b;?c;?d;?e;?f;?g;?i]) = _ => replace (h ++ [a;b;c;d;e;f;g;i]) with ((((((((h ++ [a]) ++ [b]) ++ [c]) ++ [d]) ++ [e]) ++ [f]) ++ [g]) ++ [i]) by (rewrite <- !app_assoc; reflexivity) end.
  rewrite !horner_app. cbn [horner]. lia.
Qed.
Lemma digits bs : Forall is_byte bs -> Forall (fun d => 0 <= d < 256) bs.
Proof. intros F. eapply Forall_impl; [|exact F]. unfold is_byte. intros; lia. Qed.
Lemma be_range bs : Forall is_byte bs -> 0 <= be_value bs < 256 ^ zlen bs.
Proof. intros F. apply horner_range; [lia|apply digits, F]. Qed.
Lemma be_inj xs ys : length xs = length ys -> Forall is_byte xs -> Forall is_byte ys -> be_value xs = be_value ys -> xs = ys.
Proof. intros L F G E. apply (horner_inj 256); auto using digits. lia. Qed.
Lemma half_step h h' : length h = 8%nat -> length h' = 8%nat -> Forall is_byte h -> Forall is_byte h' -> be_value (rev h') = be_value (rev h) + 1 ->
  (hd 0 h < 255 -> be_value h < be_value h') /\ (hd 0 h = 255 -> be_value h' < be_value h).
Proof.
  intros L L' F F' E. destruct h as [|a t]; [discriminate|]. destruct h' as [|a' t']; [discriminate|]. cbn [length] in L, L'. inversion F as [|? ? Fa Ft]. inversion F' as [|? ? Fa' Ft']. subst.
  cbn [rev] in E. rewrite !be_snoc in E. rewrite !be_cons by lia. cbn [hd]. unfold is_byte in Fa, Fa'.
  pose proof (be_range t Ft) as R. pose proof (be_range t' Ft') as R'. unfold zlen in R, R'. injection L as L. injection L' as L'. rewrite L in R. rewrite L' in R'.
  change (256 ^ Z.of_nat 7) with 72057594037927936 in R, R'. split; intros H.
  - assert (be_value (rev t) = be_value (rev t')) as K by lia. apply be_inj in K; [|rewrite !rev_length; lia|apply Forall_rev; assumption|apply Forall_rev; assumption].
    apply (f_equal (@rev Z)) in K. rewrite !rev_involutive in K. subst t'. lia.
  - lia.
Qed.
Lemma all_ones h : length h = 8%nat -> Forall is_byte h -> (be_value (rev h) = 18446744073709551615 <-> h = repeat 255 8).
Proof.
  intros L F. split; [|intros ->; vm_compute; reflexivity]. intros E. change 18446744073709551615 with (be_value (repeat 255 8)) in E.
  apply be_inj in E; [|rewrite rev_length, repeat_length; exact L|apply Forall_rev; exact F|repeat (constructor; [unfold is_byte; lia|]); constructor].
  apply (f_equal (@rev Z)) in E. rewrite rev_involutive in E. exact E.
Qed.
Lemma half_bound h : length h = 8%nat -> Forall is_byte h -> 0 <= be_value h < 18446744073709551616 /\ 0 <= be_value (rev h) < 18446744073709551616 /\ is_byte (hd 0 h).
Proof.
  intros L F. pose proof (be_range h F) as R. pose proof (be_range (rev h) (Forall_rev F)) as R'. unfold zlen in R, R'. rewrite rev_length in R'. rewrite L in R, R'.
  split; [exact R|]. split; [exact R'|]. destruct h; [discriminate|]. inversion F. assumption.
Qed.
(** The addresses after which the loop ends. *)
Definition ends6 (h l : list Z) : Prop := hd 0 l < 255 \/ (l = repeat 255 8 /\ (hd 0 h < 255 \/ h = repeat 255 8)).
Lemma split16 (bs : list Z) : bytes_ok V6 bs -> exists h l, bs = h ++ l /\ length h = 8%nat /\ length l = 8%nat /\ Forall is_byte h /\ Forall is_byte l /\ mirror V6 bs = rev h ++ rev l.
Proof.
  intros [L F]. cbn in L. exists (firstn 8 bs), (skipn 8 bs). rewrite firstn_skipn, firstn_length, skipn_length, L. split; [reflexivity|]. split; [reflexivity|]. split; [reflexivity|].
  rewrite <- (firstn_skipn 8 bs) in F. apply Forall_app in F as [A B]. auto.
Qed.
Lemma step6 h l h' l' : length h = 8%nat -> length l = 8%nat -> length h' = 8%nat -> length l' = 8%nat ->
  Forall is_byte h -> Forall is_byte l -> Forall is_byte h' -> Forall is_byte l' ->
  be_value (rev h' ++ rev l') = (be_value (rev h ++ rev l) + 1) mod M6 ->
  (ends6 h l -> (be_value (h' ++ l') <? be_value (h ++ l)) = negb (be_value (rev h ++ rev l) + 1 <? M6)) /\
  (~ ends6 h l -> (be_value (h' ++ l') <? be_value (h ++ l)) = true /\ be_value (rev h ++ rev l) + 1 < M6).
Proof.
  intros A B C D FA FB FC FD. rewrite !be_halves by (rewrite ?rev_length; assumption).
  destruct (half_bound h A FA) as (R1 & S1 & T1). destruct (half_bound l B FB) as (R2 & S2 & T2). destruct (half_bound h' C FC) as (R3 & S3 & T3). destruct (half_bound l' D FD) as (R4 & S4 & T4).
  pose proof (half_step l l' B D FB FD) as X. pose proof (half_step h h' A C FA FC) as Y. pose proof (all_ones h A FA) as OH. pose proof (all_ones l B FB) as OL.
  pose proof (fun E => be_inj (rev h') (rev h) ltac:(rewrite !rev_length; lia) (Forall_rev FC) (Forall_rev FA) E) as IH.
  unfold ends6. unfold is_byte in *. change M6 with 340282366920938463463374607431768211456.
  set (rh := be_value (rev h)) in *. set (rl := be_value (rev l)) in *. set (rh' := be_value (rev h')) in *. set (rl' := be_value (rev l')) in *. intros E.
  assert (Cs : (rl + 1 < 18446744073709551616 /\ rl' = rl + 1 /\ rh' = rh) \/
    (rl = 18446744073709551615 /\ rl' = 0 /\ ((rh + 1 < 18446744073709551616 /\ rh' = rh + 1) \/ (rh = 18446744073709551615 /\ rh' = 0)))).
  { clear - E S1 S2 S3 S4. clearbody rh rl rh' rl'. destruct (Z.eq_dec (rh * 18446744073709551616 + rl + 1) 340282366920938463463374607431768211456) as [K|K].
    - rewrite K in E. rewrite Z.mod_same in E by lia. right. lia.
    - rewrite Z.mod_small in E by lia. lia. }
  destruct Cs as [(K & E1 & E2)|(K & E1 & [(K2 & E2)|(K2 & E2)])].
  - specialize (IH E2). apply (f_equal (@rev Z)) in IH. rewrite !rev_involutive in IH. subst h'. destruct (X E1) as [X1 X2].
    assert (NL : l <> repeat 255 8) by (intros Q; apply OL in Q; lia).
    destruct (Z.ltb_spec (rh * 18446744073709551616 + rl + 1) 340282366920938463463374607431768211456); [|lia]. cbn [negb]. split.
    + intros [G|[G _]]; [|contradiction]. specialize (X1 G). apply Z.ltb_ge. lia.
    + intros G. split; [|assumption]. assert (hd 0 l = 255) as Q by lia. specialize (X2 Q). apply Z.ltb_lt. lia.
  - destruct (Y E2) as [Y1 Y2]. assert (LL : l = repeat 255 8) by (apply OL; exact K). assert (NH : h <> repeat 255 8) by (intros Q; apply OH in Q; lia).
    destruct (Z.ltb_spec (rh * 18446744073709551616 + rl + 1) 340282366920938463463374607431768211456); [|lia]. cbn [negb]. split.
    + intros G. assert (hd 0 h < 255) as Q by (rewrite LL in G; cbn in G; destruct G as [G|[_ [G|G]]]; [lia|exact G|contradiction]). specialize (Y1 Q). apply Z.ltb_ge. lia.
    + intros G. split; [|assumption]. assert (hd 0 h = 255) as Q by (assert (~ hd 0 h < 255) by (intros Q; apply G; right; split; [exact LL|left; exact Q]); lia). specialize (Y2 Q). apply Z.ltb_lt. lia.
  - assert (LL : l = repeat 255 8) by (apply OL; exact K). assert (HH : h = repeat 255 8) by (apply OH; exact K2).
    destruct (Z.ltb_spec (rh * 18446744073709551616 + rl + 1) 340282366920938463463374607431768211456); [lia|]. cbn [negb]. split; [|intros G; exfalso; apply G; auto].
    intros _. assert (Z0 : forall u, length u = 8%nat -> Forall is_byte u -> be_value (rev u) = 0 -> u = repeat 0 8).
    { intros u Lu Fu Eu. change 0 with (be_value (repeat 0 8)) in Eu at 1. apply be_inj in Eu; [|rewrite rev_length, repeat_length; exact Lu|apply Forall_rev; exact Fu|repeat (constructor; [unfold is_byte; lia|]); constructor].
      apply (f_equal (@rev Z)) in Eu. rewrite rev_involutive in Eu. exact Eu. }
    rewrite (Z0 h' C FC E2), (Z0 l' D FD E1), LL, HH. vm_compute. reflexivity.
Qed.

Lemma val_bytes a b : a_bytes a = a_bytes b -> val a = val b.
Proof. unfold val. intros ->. reflexivity. Qed.
Lemma val_be a : val a = be_value (a_bytes a). Proof. reflexivity. Qed.
Lemma big_single6 sp n h l : bytes_net V6 n -> n_prefix n = 128 -> a_bytes (n_addr n) = h ++ l -> length h = 8%nat -> exists s, hosts_h false sp V6 n = Ret s /\
  (hd 0 l < 255 \/ (l = repeat 255 8 /\ (hd 0 h < 255 \/ h = repeat 255 8)) -> hosts_walk_h false V6 1 (h_begin s) (h_end s) = Ret [mk_addr (a_bytes (n_addr n)) []]) /\
  (~ (hd 0 l < 255 \/ (l = repeat 255 8 /\ (hd 0 h < 255 \/ h = repeat 255 8))) -> forall k, Z.of_nat k <= 2 ^ 128 -> hosts_walk_h false V6 k (h_begin s) (h_end s) = UB OutOfFuel).
Proof.
  intros B Hp Eb Lh. fold (ends6 h l). unfold hosts_h, hosts_make_h. cbn [width]. rewrite Hp. change (128 =? 128 - 1) with false. change (128 =? 128) with true. cbv iota.
  pose proof (proj1 B) as Wn. set (a := mk_addr (a_bytes (n_addr n)) []). assert (Wa : wf_addr V6 a) by (apply empty_scope; apply Wn).
  pose proof (mirror_addr_ok V6 _ Wa) as Wa'. rewrite (be_to_val V6 _ Wn). assert (Ev : val (mirror_addr V6 (n_addr n)) = val (mirror_addr V6 a)) by (apply val_bytes; reflexivity). rewrite Ev. cbn [bind].
  pose proof (val_range V6 _ Wa') as Rx. cbn [width] in Rx. fold M6 in Rx.
  assert (Ex : addr_of V6 (val (mirror_addr V6 a)) = mirror_addr V6 a) by (apply addr_of_eq; [exact Wa'|reflexivity]).
  assert (Ll : length l = 8%nat) by (destruct Wn as [[L _] _]; rewrite Eb, app_length, Lh in L; cbn in L; lia).
  assert (Fb : Forall is_byte h /\ Forall is_byte l) by (destruct Wn as [[_ F] _]; rewrite Eb in F; apply Forall_app in F; exact F). destruct Fb as [Fh Fl].
  assert (Vx : val (mirror_addr V6 a) = be_value (rev h ++ rev l)).
  { rewrite val_be. unfold a. cbn [mirror_addr a_bytes mirror]. rewrite Eb. rewrite <- Lh, firstn_app, skipn_app, firstn_all, skipn_all, Nat.sub_diag. cbn [firstn skipn]. rewrite app_nil_r. reflexivity. }
  set (x := val (mirror_addr V6 a)) in *.
  assert (Ea : mirror_addr V6 (addr_of V6 x) = a) by (rewrite Ex; apply mirror_addr_twice; exact Wa).
  assert (Va : val a = be_value (h ++ l)) by (rewrite val_be; unfold a; cbn [a_bytes]; rewrite Eb; reflexivity).
  clearbody x. rewrite (be_from_of V6 x Rx). cbn [bind]. rewrite (be_from_of V6 _ (add_range V6 x 1)). cbn [bind]. rewrite uadd_ok. cbn [width]. fold M6.
  pose proof (pos_range6 x 1) as Ry. change (2 ^ width V6) with M6 in Ry. set (y := (x + 1) mod M6) in *.
  pose proof (addr_of_wf V6 x Rx) as Wx. pose proof (addr_of_wf V6 y Ry) as Wy.
  destruct (le_unscoped sp V6 _ _ (mirror_addr_ok V6 _ Wy) (mirror_addr_ok V6 _ Wx)) as (_ & _ & -> & _).
  { cbn [mirror_addr a_scope]. rewrite !addr_of_scope by assumption. reflexivity. }
  cbn [bind]. unfold ait_make_h. rewrite (be_to_val V6 _ (mirror_addr_ok V6 _ Wx)), (mirror_addr_twice V6 _ Wx), (addr_of_val V6 x Rx). cbn [bind].
  rewrite (be_to_val V6 _ (mirror_addr_ok V6 _ Wy)), (mirror_addr_twice V6 _ Wy), (addr_of_val V6 y Ry). cbn [bind].
  eexists. split; [reflexivity|]. cbn [h_begin h_end]. rewrite Ea, Va.
  assert (P0 : mk_ait a x 0 = pos6 x 0).
  { unfold pos6. rewrite Z.add_0_r, Z.mod_small by exact Rx. rewrite Ea. destruct (Z.ltb_spec x M6); [reflexivity|lia]. }
  rewrite P0. destruct (split16 _ (proj1 (mirror_addr_ok V6 _ Wy))) as (h' & l' & Eb' & Lh' & Ll' & Fh' & Fl' & Em).
  assert (Vy : be_value (rev h' ++ rev l') = y).
  { rewrite <- Em. pose proof (f_equal a_bytes (mirror_addr_twice V6 _ Wy)) as Q. cbn [mirror_addr a_bytes] in Q |- *. rewrite Q. rewrite <- val_be. apply addr_of_val. exact Ry. }
  assert (Vb : val (mirror_addr V6 (addr_of V6 y)) = be_value (h' ++ l')) by (rewrite val_be, Eb'; reflexivity). rewrite Vb.
  pose proof (step6 h l h' l' Lh Ll Lh' Ll' Fh Fl Fh' Fl') as K. rewrite Vy, <- Vx in K. specialize (K eq_refl). destruct K as [K1 K2]. split.
  - intros G. rewrite (K1 G). unfold hosts_walk_h, y. cbn [walk]. rewrite pos_eqb6. fold y.
    assert (N0 : ((x + 0) mod M6 =? y) = false).
    { apply Z.eqb_neq. rewrite Z.add_0_r, Z.mod_small by exact Rx. unfold y. clear - Rx. change M6 with 340282366920938463463374607431768211456 in *.
      destruct (Z.eq_dec (x + 1) 340282366920938463463374607431768211456) as [Q|Q]; [rewrite Q, Z.mod_same by lia; lia|rewrite Z.mod_small by lia; lia]. }
    rewrite N0, Bool.andb_false_r. cbn [bind]. rewrite pos_next6 by (clear - Rx; change M6 with 340282366920938463463374607431768211456 in *; lia). cbn [bind]. unfold y. rewrite pos_eqb6.
    change (0 + 1) with 1. destruct (x + 1 <? M6); cbn [negb]; rewrite !Z.eqb_refl; cbn [andb bind]; rewrite <- P0; reflexivity.
  - intros G k Hk. destruct (K2 G) as [-> Q]. fold M6 in Hk. apply runs_on6; [clear - Rx Q; lia|lia|lia].
Qed.
