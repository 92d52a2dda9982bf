(** The stream operators. *)
From Verif Require Import Base Tac TextProofs UnicodeModel FixedStringModel V4Model V6Model Uint128Model SpecInt Uint128Proofs Uint128Div2
  SpecText SpecAddr SpecStr SpecV4 SpecV6 StrProofs Utf8Proofs V4Proofs BufProofs BitProofs FixedStringProofs V4Lemmas V6Proofs V6Grammar V6Parse V6Full V6Format V6Lemmas
  AddressModel SpecOrder AddressProofs NetworkModel SpecNet NetProofs NetProofs2 NetProofs3 MaskProofs NetText NetText2 ErrProofs NetText3
  AnyModel SpecAny AnyProofs NetWitness CodeModel SpecCode CodeProofs StreamModel SpecStream StreamProofs StreamProofs2.

(** *** Insertion *)
Lemma toupper_ok c : is_ascii c -> toupper c = Ret (upper c).
Proof. unfold is_ascii, toupper, upper. intros H. destruct (Z.leb_spec (-1) c), (Z.leb_spec c 255); try lia. reflexivity. Qed.
Lemma upper_until_ok t q : Forall is_ascii t -> ~ In 37 t -> (q = [] \/ exists r, q = 37 :: r) -> upper_until (t ++ q) = Ret (map upper t ++ q).
Proof.
  intros A N Q. induction A as [|c t H _ IH]; cbn [app map].
  - destruct Q as [->|[r ->]]; [reflexivity|]. cbn [upper_until Z.eqb Pos.eqb]. reflexivity.
  - cbn [upper_until]. destruct (Z.eqb_spec c 37); [exfalso; apply N; left; assumption|]. rewrite toupper_ok by exact H. cbn [bind].
    rewrite IH; [reflexivity|]. intros K. apply N. right. exact K.
Qed.
Lemma shape_cased o s t q up : shape o s t q -> cased up s (kase up t ++ q) /\ (if up then upper_until s else Ret s) = Ret (kase up t ++ q).
Proof.
  intros (-> & _ & A & N & Q & _). destruct up; cbn [cased kase]; [|auto]. split; [exists t, q; auto|]. apply upper_until_ok; assumption.
Qed.
Lemma cased_unique up s a b : cased up s a -> cased up s b -> a = b.
Proof.
  destruct up; cbn [cased]; [|congruence]. intros (p & q & E & N & Q & ->) (p' & q' & E' & N' & Q' & ->).
  assert (p = p' /\ q = q') as [-> ->]; [|reflexivity]. rewrite E in E'. clear s E. revert p' E' N'.
  induction p as [|c p IH]; intros [|c' p'] E N'; cbn [app] in E.
  - auto.
  - destruct Q as [->|[r ->]]; [discriminate|]. injection E as <- E. exfalso. apply N'. left. reflexivity.
  - destruct Q' as [->|[r ->]]; [discriminate|]. injection E as -> E. exfalso. apply N. left. reflexivity.
  - injection E as <- E. destruct (IH (fun K => N (or_intror K)) p' E (fun K => N' (or_intror K))) as [-> ->]. auto.
Qed.
Lemma wanted_fmt n f : wanted n f -> fmt_of n = f.
Proof. intros [[-> ->]|[[-> ->]|[[-> ->]|[-> ->]]]]; reflexivity. Qed.
Lemma obj_put_eq T o : obj_put T o = put_fmt T (obj_string o).
Proof. destruct o; reflexivity. Qed.
Lemma os_write_good s o : o_fail o = false -> exists out, padded (o_width o) (o_left o) (o_fill o) s out /\
  os_write s o = mk_os (o_out o ++ out) false (o_upper o) (o_left o) (o_hex o) (o_oct o) 0 (o_fill o) (o_fmt o).
Proof.
  intros F. unfold os_write. rewrite F. eexists. split; [|reflexivity]. exists (Z.to_nat (o_width o - zlen s)). split; [reflexivity|lia].
Qed.
Lemma put_ok T o os f : wf_obj o -> o_fail os = false -> wanted (o_fmt os) f ->
  exists s s' out, obj_string o f = Ret s /\ cased (o_upper os) s s' /\ padded (o_width os) (o_left os) (o_fill os) (map (conv T) s') out /\
    obj_put T o os = Ret (mk_os (o_out os ++ out) false (o_upper os) (o_left os) (o_hex os) (o_oct os) 0 (o_fill os) 0).
Proof.
  intros W F H. apply wanted_fmt in H. destruct (obj_shape o f W) as (s & t & q & E & S0). destruct (shape_cased o s t q (o_upper os) S0) as [C U].
  destruct (os_write_good (convert T (kase (o_upper os) t ++ q)) (o_set_fmt os 0) F) as (out & P & Q).
  exists s, (kase (o_upper os) t ++ q), out. split; [exact E|]. split; [exact C|]. split; [exact P|].
  rewrite obj_put_eq. unfold put_fmt. rewrite H, E. cbn [bind]. change (o_upper (o_set_fmt os 0)) with (o_upper os). rewrite U. cbn [bind]. rewrite Q. reflexivity.
Qed.
Lemma put_failed T o os f : wf_obj o -> o_fail os = true -> wanted (o_fmt os) f -> obj_put T o os = Ret (o_set_fmt os 0).
Proof.
  intros W F H. apply wanted_fmt in H. destruct (obj_shape o f W) as (s & t & q & E & S0). destruct (shape_cased o s t q (o_upper os) S0) as [_ U].
  rewrite obj_put_eq. unfold put_fmt. rewrite H, E. cbn [bind]. change (o_upper (o_set_fmt os 0)) with (o_upper os). rewrite U. cbn [bind].
  unfold os_write. change (o_fail (o_set_fmt os 0)) with (o_fail os). rewrite F. reflexivity.
Qed.
Lemma manip_wanted f os : wanted (o_fmt (manip f os)) f.
Proof. destruct f; unfold wanted; cbn; auto. Qed.
Lemma padded_zero w l fill s out : w <= 0 -> padded w l fill s out -> out = s.
Proof.
  intros H (n & -> & E). assert (n = O) by (pose proof (Zle_0_nat (length s)); unfold zlen in E; lia). subst n. cbn [repeat]. destruct l; [apply app_nil_r|reflexivity].
Qed.
Lemma put_all_ok T : forall l os, Forall (fun x => wf_obj (snd x)) l -> o_fail os = false -> o_width os = 0 -> o_fmt os = 0 ->
  exists txt, words T (o_upper os) l txt /\
    put_all T l os = Ret (mk_os (o_out os ++ txt) false (o_upper os) (o_left os) (o_hex os) (o_oct os) 0 (o_fill os) 0).
Proof.
  induction l as [|[f o] l IH]; intros os W F Hw Hf; cbn [put_all].
  - exists []. split; [constructor|]. rewrite app_nil_r. destruct os. cbn in *. subst. reflexivity.
  - inversion W as [|? ? Wo Wl]; subst. cbn [snd] in Wo.
    set (os1 := match f with Some f => manip f os | None => os end). set (g := match f with Some f => f | None => compressed end).
    assert (Hg : wanted (o_fmt os1) g). { subst os1 g. destruct f; [apply manip_wanted|]. left. auto. }
    assert (E1 : o_fail os1 = false /\ o_width os1 = 0 /\ o_upper os1 = o_upper os /\ o_left os1 = o_left os /\ o_hex os1 = o_hex os /\ o_oct os1 = o_oct os /\
      o_fill os1 = o_fill os /\ o_out os1 = o_out os). { subst os1. destruct f; cbn; auto 10. }
    destruct E1 as (F1 & W1 & U1 & L1 & H1 & O1 & Fi1 & Ou1).
    destruct (put_ok T o os1 g Wo F1 Hg) as (s & s' & out & E & C & P & Q). rewrite Q. cbn [bind]. apply padded_zero in P; [|lia]. subst out.
    rewrite U1, L1, H1, O1, Fi1, Ou1 in *.
    set (os2 := mk_os (o_out os ++ map (conv T) s') false (o_upper os) (o_left os) (o_hex os) (o_oct os) 0 (o_fill os) 0).
    destruct (os_write_good [32] os2 eq_refl) as (out2 & P2 & Q2). apply padded_zero in P2; [|subst os2; cbn; lia]. subst out2. rewrite Q2. clear Q2.
    subst os2. cbn [o_out o_upper o_left o_hex o_oct o_fill o_fmt].
    match goal with |- context [put_all T l ?x] => destruct (IH x Wl eq_refl eq_refl eq_refl) as (txt & Wd & R) end. cbn [o_out o_upper o_left o_hex o_oct o_fill o_fmt] in Wd, R.
    exists (map (conv T) s' ++ 32 :: txt). split; [econstructor; eassumption|]. rewrite R. do 2 f_equal. rewrite <- !app_assoc. reflexivity.
Qed.

(** *** Extraction of a word *)
Lemma is_space_iff c : is_space c = true <-> blank c.
Proof. unfold is_space, blank. destruct (Z.leb_spec 9 c), (Z.leb_spec c 13), (Z.eqb_spec c 32); cbn [andb orb]; split; intros; try discriminate; try reflexivity; lia. Qed.
Lemma not_space c : is_space c = false <-> ~ blank c.
Proof. rewrite <- is_space_iff. destruct (is_space c); split; congruence. Qed.
Lemma skip_ok s : exists b, s = b ++ skip_spaces s /\ Forall blank b /\ (skip_spaces s = [] \/ exists c x, skip_spaces s = c :: x /\ ~ blank c).
Proof.
  induction s as [|c s (b & E & F & H)]; [exists []; cbn; auto|]. cbn [skip_spaces]. destruct (is_space c) eqn:K.
  - exists (c :: b). split; [cbn [app]; congruence|]. split; [constructor; [apply is_space_iff; exact K|exact F]|exact H].
  - exists []. split; [reflexivity|]. split; [constructor|]. right. exists c, s. split; [reflexivity|]. apply not_space. exact K.
Qed.
Definition limit_of (w : Z) : option nat := if w >? 0 then Some (Z.to_nat w) else None.
Lemma take_ok : forall s lim w r e, take_word s lim = (w, r, e) ->
  s = w ++ r /\ Forall (fun c => ~ blank c) w /\
  match lim with
  | None => (e = true /\ r = []) \/ (e = false /\ exists c r', r = c :: r' /\ blank c)
  | Some n => (e = true /\ r = [] /\ (length w < n)%nat) \/ (e = false /\ length w = n) \/ (e = false /\ (length w < n)%nat /\ exists c r', r = c :: r' /\ blank c)
  end.
Proof.
  induction s as [|c s IH]; intros lim w r e E.
  - destruct lim as [[|n]|]; cbn [take_word] in E; injection E as <- <- <-; (split; [reflexivity|]); (split; [constructor|]); cbn [length]; auto.
    left. split; [reflexivity|]. split; [reflexivity|lia].
  - cbn [take_word] in E. destruct (is_space c) eqn:K.
    + apply is_space_iff in K. destruct lim as [[|n]|]; injection E as <- <- <-; (split; [reflexivity|]); (split; [constructor|]); cbn [length].
      * right. left. auto.
      * right. right. split; [reflexivity|]. split; [lia|eauto].
      * right. split; [reflexivity|]. eauto.
    + apply not_space in K. destruct lim as [[|n]|].
      * injection E as <- <- <-. split; [reflexivity|]. split; [constructor|]. auto.
      * destruct (take_word s (option_map Nat.pred (Some (S n)))) as [[w' r'] e'] eqn:R. injection E as <- <- <-. apply IH in R as (-> & F & H). cbn [option_map Nat.pred] in H.
        split; [reflexivity|]. split; [constructor; assumption|]. cbn [length]. destruct H as [(? & ? & ?)|[[? ?]|(? & ? & ?)]]; [left|right; left|right; right]; repeat split; auto; lia.
      * destruct (take_word s (option_map Nat.pred None)) as [[w' r'] e'] eqn:R. injection E as <- <- <-. apply IH in R as (-> & F & H). cbn [option_map] in H.
        split; [reflexivity|]. split; [constructor; assumption|]. exact H.
Qed.
Lemma read_took i w i' : is_read i = (w, i') -> took i w i'.
Proof.
  unfold is_read. destruct (i_eof i) eqn:Ee; cbn [orb]; [intros [= <- <-]; apply took_bad; left; exact Ee|].
  destruct (i_fail i) eqn:Ef; [intros [= <- <-]; apply took_bad; right; exact Ef|].
  destruct (i_skipws i) eqn:Es; cbn [andb].
  - destruct (skip_ok (i_in i)) as (b & E & F & H). destruct (skip_spaces (i_in i)) as [|c x] eqn:K.
    + intros [= <- <-]. apply took_end; try assumption. rewrite app_nil_r in E. rewrite E. exact F.
    + destruct H as [H|(c' & x' & H & N)]; [discriminate|]. injection H as <- <-.
      destruct (take_word (c :: x) _) as [[w0 r] e] eqn:R. intros [= <- <-]. apply take_ok in R as (R1 & R2 & R3).
      pose proof (took_word i b w0 r e Ee Ef) as K0. rewrite Es in K0. apply K0; try assumption; [rewrite E, R1; reflexivity|exists c, x; auto|]. clear K0.
      destruct (Z.gtb_spec (i_width i) 0).
      * unfold zlen. destruct R3 as [(? & ? & ?)|[[? ?]|(? & ? & ?)]]; [left|right; left|right; right]; repeat split; auto; lia.
      * destruct R3 as [[? ?]|[? ?]]; [left|right; right]; repeat split; auto; lia.
  - destruct (take_word (i_in i) _) as [[w0 r] e] eqn:R. intros [= <- <-]. apply take_ok in R as (R1 & R2 & R3).
    pose proof (took_word i [] w0 r e Ee Ef) as K0. rewrite Es in K0. apply K0; try assumption; [constructor|reflexivity|]. clear K0.
    destruct (Z.gtb_spec (i_width i) 0).
    * unfold zlen. destruct R3 as [(? & ? & ?)|[[? ?]|(? & ? & ?)]]; [left|right; left|right; right]; repeat split; auto; lia.
    * destruct R3 as [[? ?]|[? ?]]; [left|right; right]; repeat split; auto; lia.
Qed.
Lemma split_blank (P : Z -> Prop) : forall a b x y, a ++ x = b ++ y -> Forall P a -> Forall P b ->
  (x = [] \/ exists c r, x = c :: r /\ ~ P c) -> (y = [] \/ exists c r, y = c :: r /\ ~ P c) -> a = b /\ x = y.
Proof.
  induction a as [|c a IH]; intros [|d b] x y E Fa Fb Hx Hy; cbn [app] in E.
  - auto.
  - subst x. destruct Hx as [Hx|(c & r & [= <- _] & N)]; [discriminate|]. inversion Fb. contradiction.
  - subst y. destruct Hy as [Hy|(c' & r & [= <- _] & N)]; [discriminate|]. inversion Fa. contradiction.
  - injection E as <- E. inversion Fa; inversion Fb; subst. destruct (IH b x y E) as [-> ->]; auto.
Qed.
Lemma prefix_same {A} (a b x y : list A) : a ++ x = b ++ y -> length a = length b -> a = b /\ x = y.
Proof.
  revert b. induction a as [|c a IH]; intros [|d b] E L; try discriminate; [auto|]. injection E as -> E. destruct (IH b E) as [-> ->]; auto.
Qed.
Lemma word_split : forall (w w' r r' : list Z), w ++ r = w' ++ r' -> Forall (fun c => ~ blank c) w -> Forall (fun c => ~ blank c) w' ->
  (length w <= length w')%nat -> (r = [] \/ (exists c x, r = c :: x /\ blank c) \/ (length w' <= length w)%nat) -> w = w' /\ r = r'.
Proof.
  induction w as [|c w IH]; intros [|d w'] r r' E F F' L H; cbn [app length] in *; try lia.
  - auto.
  - destruct H as [->|[(c & x & -> & B)|H]]; [discriminate| |lia]. injection E as <- _. inversion F'. contradiction.
  - injection E as <- E. inversion F; inversion F'; subst. destruct (IH w' r r' E) as [-> ->]; auto; [lia|]. destruct H as [H|[H|H]]; auto. right. right. lia.
Qed.
Lemma took_unique i w i' w2 i2 : took i w i' -> took i w2 i2 -> w = w2 /\ i' = i2.
Proof.
  intros H H2. destruct H as [B|Ee Ef Es Hb|b w r e Ee Ef E Hb Hw Hs He]; destruct H2 as [B2|Ee2 Ef2 Es2 Hb2|b2 w2 r2 e2 Ee2 Ef2 E2 Hb2 Hw2 Hs2 He2];
    try (destruct B; congruence); try (destruct B2; congruence); auto.
  - exfalso. rewrite Es in Hs2. destruct Hs2 as (c & x & K & N). rewrite E2, K in Hb. apply Forall_app in Hb as [_ Hb]. inversion Hb. contradiction.
  - exfalso. rewrite Es2 in Hs. destruct Hs as (c & x & K & N). rewrite E, K in Hb2. apply Forall_app in Hb2 as [_ Hb2]. inversion Hb2. contradiction.
  - rewrite E in E2. assert (X : w ++ r = w2 ++ r2).
    { destruct (i_skipws i); [|subst b b2; exact E2]. destruct Hs as (c & x & K & N), Hs2 as (c2 & x2 & K2 & N2).
      destruct (split_blank blank b b2 _ _ E2 Hb Hb2) as [_ G]; [right; eauto|right; eauto|exact G]. }
    assert (Y : w = w2 /\ r = r2 /\ e = e2).
    { unfold zlen in *. destruct (Nat.le_ge_cases (length w) (length w2)) as [Ln|Ln].
      - destruct (word_split w w2 r r2 X Hw Hw2 Ln) as [-> ->].
        { destruct He as [(_ & -> & _)|[(_ & P & K)|(_ & _ & K)]]; auto. right. right. destruct He2 as [(_ & _ & Q)|[(_ & _ & Q)|(_ & Q & _)]]; lia. }
        split; [reflexivity|]. split; [reflexivity|].
        destruct He as [(-> & -> & K)|[(-> & P & K)|(-> & K & c & x & -> & B)]], He2 as [(-> & G & Q)|[(-> & P2 & Q)|(-> & Q & c2 & x2 & G & B2)]]; auto; try lia; try discriminate.
      - symmetry in X. destruct (word_split w2 w r2 r X Hw2 Hw Ln) as [-> ->].
        { destruct He2 as [(_ & -> & _)|[(_ & P & K)|(_ & _ & K)]]; auto. right. right. destruct He as [(_ & _ & Q)|[(_ & _ & Q)|(_ & Q & _)]]; lia. }
        split; [reflexivity|]. split; [reflexivity|].
        destruct He as [(-> & G & K)|[(-> & P & K)|(-> & K & c & x & G & B)]], He2 as [(-> & -> & Q)|[(-> & P2 & Q)|(-> & Q & c2 & x2 & -> & B2)]]; auto; try lia; try discriminate. }
    destruct Y as (-> & -> & ->). auto.
Qed.
Lemma took_read i w i' : took i w i' -> is_read i = (w, i').
Proof.
  intros H. destruct (is_read i) as [w2 i2] eqn:E. apply read_took in E. destruct (took_unique _ _ _ _ _ H E) as [-> ->]. reflexivity.
Qed.

(** *** Extraction of an object *)
Lemma get_with_eq {A} T (P : list tok -> res A) (code : list tok -> ec -> res (A * ec)) (d : A) (f : A -> obj) k i w i' :
  (forall ts, Forall tok_genuine ts -> code ts no_error = match P ts with Ret x => Ret (x, no_error) | Err e _ => Ret (d, e) | UB u => UB u end) ->
  (forall ts e x, Forall tok_genuine ts -> P ts = Err e x -> e <> no_error) -> default_of k = f d -> is_read i = (w, i') ->
  rmap (fun '(x, i) => (f x, i)) (get_with T code i) = got k i' (rmap f (ts <- tokens (reader_of T) w ;; P ts)).
Proof.
  intros C N D R. unfold get_with. rewrite R. pose proof (tokens_no_err (reader_of T) w) as X. pose proof (tokens_real (reader_of T) w) as G.
  destruct (tokens (reader_of T) w) as [ts|e x|u] eqn:E; cbn [bind rmap got]; [|exfalso; eapply X; [apply char_reader_T|reflexivity]|reflexivity].
  specialize (G ts (char_reader_T T) eq_refl). rewrite C by exact G. pose proof (fun e x => N ts e x G) as N'. destruct (P ts) as [a|e x|u]; cbn [bind rmap got]; [reflexivity| |reflexivity].
  rewrite ec_no_false by (eapply N'; reflexivity). rewrite D. reflexivity.
Qed.
Lemma real_err {A} (r : res A) e x : real r -> r = Err e x -> e <> no_error.
Proof. intros H ->. exact H. Qed.
Lemma get_ok T k i w i' : took (strictly k i) w i' -> obj_get T k i = got k i' (obj_parse T k (i_strict i =? 0) w).
Proof.
  intros H. apply took_read in H. destruct k as [v|v| |]; cbn [obj_get obj_parse strictly is_net] in *; unfold addr_get, net_get, any_get, anet_get, addr_parse_text, net_parse_text, any_parse_text, anet_parse_text.
  - apply (get_with_eq T (addr_parse v) (addr_parse_code v) (addr_default v)); [reflexivity| |reflexivity|exact H]. intros ts e x G. apply real_err, addr_parse_real, G.
  - apply (get_with_eq T (fun ts => net_parse v ts (i_strict i =? 0)) _ (net_default v)); [|  |reflexivity|exact H].
    + intros ts G. rewrite net_parse_is_res by exact G. reflexivity.
    + intros ts e x G. rewrite net_parse_is_res by exact G. apply real_err, net_parse_real, G.
  - apply (get_with_eq T any_parse any_parse_code aa_default); [|  |reflexivity|exact H].
    + intros ts G. apply any_parse_code_spec. exact G.
    + intros ts e x G K. destruct (any_parse_spec ts G) as (_ & _ & P & _). apply P in K as [K _]. exact (real_err _ _ _ (addr_parse_real V6 ts G) K).
  - apply (get_with_eq T (fun ts => anet_parse ts (i_strict i =? 0)) _ an_default); [|  |reflexivity|exact H].
    + intros ts G. apply anet_parse_code_spec. exact G.
    + intros ts e x G. unfold anet_parse, net_parse_code. pose proof (net_parse_real V4 ts (i_strict i =? 0) G) as R4. pose proof (net_parse_real V6 ts (i_strict i =? 0) G) as R6.
      destruct (net_parse_res V4 ts (i_strict i =? 0)) as [n|e' x'|u]; cbn [bind]; [discriminate| |discriminate]. rewrite ec_no_false by exact R4.
      rewrite net_parse_is_res by exact G. destruct (net_parse_res V6 ts (i_strict i =? 0)) as [n|e2 x2|u]; cbn [bind]; try discriminate. intros [= <- <-]. exact R6.
Qed.
Lemma strict_get T k i w i' : is_net k = true -> took (i_set_strict i 0) w i' ->
  obj_get T k (manip_strict i) = got k i' (obj_parse T k true w) /\ obj_get T k (manip_non_strict i) = got k i' (obj_parse T k false w) /\ i_strict i' = 0.
Proof.
  intros N H. split; [|split].
  - apply (get_ok T k (manip_strict i)). unfold strictly. rewrite N. exact H.
  - apply (get_ok T k (manip_non_strict i)). unfold strictly. rewrite N. exact H.
  - destruct H; reflexivity.
Qed.
Lemma get_exists T k i : exists w i', took (strictly k i) w i' /\ obj_get T k i = got k i' (obj_parse T k (i_strict i =? 0) w).
Proof. destruct (is_read (strictly k i)) as [w i'] eqn:E. apply read_took in E. exists w, i'. split; [exact E|apply get_ok; exact E]. Qed.
Lemma parse_empty T k strict : exists e x, obj_parse T k strict [] = Err e x.
Proof.
  unfold obj_parse, addr_parse_text, net_parse_text, any_parse_text, anet_parse_text. assert (E : tokens (reader_of T) [] = Ret []) by (destruct T; reflexivity). rewrite E. cbn [bind].
  destruct k as [[|]|[|]| |], strict; eexists _, _; vm_compute; reflexivity.
Qed.
(** At the end of the input, or on a stream that already failed. *)
Lemma get_nothing T k i : i_eof i = true \/ i_fail i = true \/ (i_skipws i = true /\ Forall blank (i_in i)) ->
  exists i', obj_get T k i = Ret (default_of k, i') /\ i_fail i' = true.
Proof.
  intros H. destruct (get_exists T k i) as (w & i' & K & E). assert (Sf : i_eof (strictly k i) = i_eof i /\ i_fail (strictly k i) = i_fail i /\ i_skipws (strictly k i) = i_skipws i /\ i_in (strictly k i) = i_in i).
  { unfold strictly. destruct (is_net k); cbn; auto. }
  destruct Sf as (S1 & S2 & S3 & S4). assert (w = []).
  { destruct K as [K|? ? ? ?|b w r e Ee Ef Ei Hb Hw Hs _]; [reflexivity|reflexivity|]. rewrite S1, S2, S3, S4 in *. destruct H as [H|[H|[H F]]]; [congruence|congruence|].
    rewrite H in Hs. destruct w as [|c w]; [reflexivity|]. exfalso. rewrite Ei in F. apply Forall_app in F as [_ F]. inversion F; subst. inversion Hw. contradiction. }
  subst w. destruct (parse_empty T k (i_strict i =? 0)) as (e & x & P). rewrite P in E. cbn [got] in E. exists (i_set_fail i'). auto.
Qed.

(** *** Round trip *)
Definition at_start (i : istr) (txt : list Z) (p : list Z) : Prop :=
  i_eof i = false /\ i_fail i = false /\ i_skipws i = true /\ i_width i = 0 /\ i_in i = p ++ txt /\ Forall blank p.
Lemma get_word T o i w txt p : at_start i (w ++ 32 :: txt) p -> w <> [] -> Forall (fun c => ~ blank c) w -> (forall strict, obj_parse T (kind_of o) strict w = Ret o) ->
  exists i', obj_get T (kind_of o) i = Ret (o, i') /\ at_start i' txt [32].
Proof.
  intros (Ee & Ef & Es & Ew & Ei & Fp) N Hw P. assert (Sf : i_eof (strictly (kind_of o) i) = i_eof i /\ i_fail (strictly (kind_of o) i) = i_fail i /\ i_skipws (strictly (kind_of o) i) = i_skipws i /\ i_in (strictly (kind_of o) i) = i_in i /\ i_width (strictly (kind_of o) i) = i_width i).
  { unfold strictly. destruct (is_net _); cbn; auto. }
  destruct Sf as (S1 & S2 & S3 & S4 & S5).
  eexists. split.
  - rewrite (get_ok T (kind_of o) i w (mk_is (32 :: txt) false (match w with [] => true | _ => false end) (i_skipws (strictly (kind_of o) i)) (i_hex (strictly (kind_of o) i)) (i_oct (strictly (kind_of o) i)) 0 (i_strict (strictly (kind_of o) i)))).
    + rewrite P. cbn [got]. reflexivity.
    + apply (took_word _ p); try congruence; try assumption.
      * rewrite S3, Es. destruct w as [|c w]; [contradiction|]. exists c, (w ++ 32 :: txt). split; [reflexivity|]. inversion Hw. assumption.
      * right. right. split; [reflexivity|]. split; [lia|]. exists 32, txt. split; [reflexivity|left; reflexivity].
  - unfold at_start. cbn. destruct w; [contradiction|]. rewrite S3. repeat split; auto. constructor; [left; reflexivity|constructor].
Qed.
Lemma words_back T up : forall l txt, words T up l txt -> Forall (fun x => wf_obj (snd x) /\ readable T (snd x)) l -> forall i p, at_start i txt p ->
  exists i' p', get_all T (map (fun x => kind_of (snd x)) l) i = Ret (map snd l, i') /\ at_start i' [] p'.
Proof.
  induction 1 as [|f o l s s' r E C _ IH]; intros W i p A; cbn [map get_all snd].
  - exists i, p. auto.
  - inversion W as [|? ? [Wo Ro] Wl]; subst. cbn [snd] in *. destruct (obj_shape o (match f with Some f => f | None => compressed end) Wo) as (s0 & t & q & E0 & S0).
    rewrite E in E0. apply ret_inj in E0. subst s0. destruct (shape_cased o s t q up S0) as [C0 _]. pose proof (cased_unique _ _ _ _ C C0) as ->.
    assert (CV : map (conv T) (kase up t ++ q) = kase up t ++ q) by apply (shape_reads T o s t q up true S0 Ro). rewrite CV in A.
    assert (NB : Forall (fun c => ~ blank c) (kase up t ++ q)).
    { destruct S0 as (_ & _ & _ & _ & _ & Nb & _). apply Forall_app in Nb as [Nt Nq]. apply Forall_app. split; [|exact Nq]. destruct up; cbn [kase]; [|exact Nt].
      apply Forall_map. eapply Forall_impl; [|exact Nt]. intros c Hc. unfold upper, blank in *. destruct (Z.leb_spec 97 c), (Z.leb_spec c 122); cbn [andb]; lia. }
    assert (NE : kase up t ++ q <> []). { destruct S0 as (_ & Nt & _). destruct t; [contradiction|]. destruct up; discriminate. }
    destruct (get_word T o i (kase up t ++ q) r p A NE NB (fun strict => proj2 (shape_reads T o s t q up strict S0 Ro))) as (i1 & G & A1).
    rewrite G. cbn [bind]. destruct (IH Wl i1 [32] A1) as (i2 & p2 & G2 & A2). rewrite G2. cbn [bind]. exists i2, p2. auto.
Qed.
Lemma stream_round_trip T up l : Forall (fun x => wf_obj (snd x) /\ readable T (snd x)) l ->
  exists os i, put_all T l (new_os up) = Ret os /\ o_fail os = false /\ words T up l (o_out os) /\
    get_all T (map (fun x => kind_of (snd x)) l) (new_is (o_out os)) = Ret (map snd l, i) /\ i_fail i = false.
Proof.
  intros W. destruct (put_all_ok T l (new_os up)) as (txt & Wd & E); try reflexivity.
  { eapply Forall_impl; [|exact W]. intros x [H _]. exact H. }
  cbn in Wd, E. destruct (words_back T up l txt Wd W (new_is txt) []) as (i & p & G & A); [unfold at_start; cbn; auto 10|].
  eexists _, i. split; [exact E|]. cbn. split; [reflexivity|]. split; [exact Wd|]. split; [exact G|apply A].
Qed.
