(** Network texts: what is accepted, round trip, safety. *)
From Verif Require Import Base Tac TextProofs UnicodeModel FixedStringModel V4Model V6Model Uint128Model SpecInt Uint128Proofs Uint128Div2
  SpecText SpecAddr SpecStr SpecV4 SpecV6 StrProofs V4Proofs BufProofs BitProofs FixedStringProofs V4Lemmas V6Proofs V6Full V6Format V6Lemmas
  AddressModel SpecOrder AddressProofs NetworkModel SpecNet NetProofs NetProofs2 NetProofs3 MaskProofs NetText.

Lemma mask_accepted_iff v m p : m <> [] -> plain_mask v m -> (mask_accepted v (chars m) p <-> mask_text v m p).
Proof.
  intros N [P1 P2]. unfold mask_accepted, mask_text. split.
  - intros [[E _]|[(m' & x & E & D & -> & H)|(-> & m' & q & E & Q & H)]].
    + destruct m; [contradiction|discriminate].
    + apply chars_inj in E. subst m'. left. pose proof (P1 x D). pose proof (dec_text_nonneg m x D).
      rewrite Z.mod_small in * by lia. auto.
    + apply chars_inj in E. subst m'. right. split; [reflexivity|]. exists q. split; [exact Q|]. destruct H as [[H1 H2]|H]; [left; split; [lia|exact H2]|right; exact H].
  - intros [[D H]|(-> & q & Q & H)].
    + right. left. exists m, p. pose proof (P1 p D). pose proof (dec_text_nonneg m p D). rewrite Z.mod_small by lia. auto.
    + right. right. split; [reflexivity|]. exists m, q. split; [reflexivity|]. split; [exact Q|]. destruct H as [[H1 H2]|H]; [left|right; exact H].
      split; [|exact H2]. destruct (Z.eq_dec p 0) as [->|]; [|lia]. exfalso. apply P2; [reflexivity|]. pose proof (dotted_quad_ok m q Q) as [Lq Fq].
      rewrite (zero_quad q) in Q by (try assumption; rewrite H2; reflexivity). exact Q.
Qed.
Lemma plain_defined v m : plain_mask v m -> ~ mask_undefined v (chars m).
Proof. intros [_ P] (Ev & m' & E & Q). apply chars_inj in E. subst m'. exact (P Ev Q). Qed.
Lemma masks_ok v m p : m <> [] -> plain_mask v m ->
  ((exists a, parse_netmask v (chars m) = Ret (a, p)) <-> mask_text v m p) /\
  (forall a, parse_netmask v (chars m) = Ret (a, p) -> wf_addr v a /\ a_scope a = [] /\ val a = 2 ^ width v - 2 ^ (width v - p)).
Proof.
  intros N P. rewrite <- mask_accepted_iff by assumption.
  destruct (parse_netmask_spec v (chars m)) as [(p0 & Hp & E & U)|[(e & x & E & Na & _)|(_ & K)]]; [| |destruct (plain_defined v m P K)].
  - rewrite E. split.
    + rewrite <- U. split; [intros [a H]; apply ret_inj in H; congruence|intros ->; eauto].
    + intros a H. apply ret_inj in H. injection H as <- <-. split; [apply mask_of_wf; exact Hp|].
      split; [apply mask_of_scope; exact Hp|apply mask_of_val; exact Hp].
  - rewrite E. split; [|discriminate]. split; [intros [a H]; discriminate|]. intros K. destruct (Na p K).
Qed.
Lemma mask_refused v m : m <> [] -> plain_mask v m -> (forall p, ~ mask_text v m p) -> exists e x, parse_netmask v (chars m) = Err e x.
Proof.
  intros N P H. destruct (parse_netmask_spec v (chars m)) as [(p0 & Hp & E & U)|[(e & x & E & Na & _)|(_ & K)]]; [| |destruct (plain_defined v m P K)].
  - destruct (H p0). apply mask_accepted_iff; auto. apply U. reflexivity.
  - eauto.
Qed.
Lemma mask_ub v ts u : parse_netmask v ts = UB u -> v = V4 /\ exists m, ts = chars m /\ dotted_quad m [0; 0; 0; 0].
Proof.
  intros H. destruct (parse_netmask_spec v ts) as [(p0 & Hp & E & U)|[(e & x & E & Na & _)|(_ & K)]]; [congruence|congruence|exact K].
Qed.

(** *** The accepted texts *)
Definition accepted_net (v : ver) (s t : list Z) (p : Z) : Prop :=
  (s = t /\ p = width v) \/ (exists m, m <> [] /\ s = t ++ 47 :: m /\ mask_accepted v (chars m) p).
Lemma no_slash v t a : no_nul t -> addr_parse v (chars t) = Ret a -> ~ In 47 t.
Proof.
  intros N H. destruct v; cbn [addr_parse] in H.
  - destruct (v4_from_string (chars t)) as [b| |] eqn:E; try discriminate. apply v4_accept_iff in E. apply quad_addr in E.
    intros K. rewrite Forall_forall in E. apply E in K. unfold addr_char in K. lia.
  - destruct (v6_from_string true (chars t)) as [[b z]| |] eqn:E; try discriminate. apply v6_accept_iff in E; [|exact N].
    destruct E as (gs & [[T _]|(u & -> & T & [_ S0])] & _); intros K.
    + revert K. eapply text_not; [exact T|unfold addr_char; lia].
    + apply in_app_iff in K as [K|[K|K]]; [|discriminate|].
      * revert K. eapply text_not; [exact T|unfold addr_char; lia].
      * rewrite Forall_forall in S0. apply S0 in K. unfold scope_char in K. lia.
Qed.
Lemma mask_no_slash v m p : mask_accepted v (chars m) p -> ~ In 47 m.
Proof.
  intros [[E _]|[(m' & x & E & D & _)|(_ & m' & q & E & Q & _)]].
  - destruct m; [intros []|discriminate].
  - apply chars_inj in E. subst m'. apply dec_text_iff in D as (_ & D & _). intros K. rewrite Forall_forall in D. apply D in K.
    unfold is_dec_digit in K. lia.
  - apply chars_inj in E. subst m'. apply quad_addr in Q. intros K. rewrite Forall_forall in Q. apply Q in K. unfold addr_char in K. lia.
Qed.
Lemma text_of_id v pre : no_nul pre -> zlen pre <= L v -> text_of v pre = pre.
Proof. intros N H. unfold text_of. rewrite firstn_all2 by (unfold zlen in *; lia). apply cut_id. exact N. Qed.
Lemma finish_from v pre m strict p a : Forall is_char pre -> mask_accepted v m p -> addr_parse v (chars (text_of v pre)) = Ret a ->
  finish v pre m strict = with_value (mask_value v m) (from_address v a p strict) /\ 0 <= p <= width v.
Proof.
  intros C M A.
  assert (Wa : wf_addr v a) by (eapply addr_parse_wf; [apply cut_no0|apply forall_cut_firstn; exact C|exact A]).
  unfold finish. destruct (parse_netmask_spec v m) as [(p0 & Hp & E & U)|[(e & x & E & Na & _)|(_ & K)]].
  - apply U in M. subst p0. split; [|exact Hp]. rewrite E. cbn [bind]. rewrite A. cbn [bind with_value].
    rewrite strict_netmask_spec, from_address_spec by assumption. destruct (_ =? 0); [reflexivity|]. destruct strict; reflexivity.
  - destruct (Na p M).
  - exfalso. destruct K as (-> & m' & -> & Q). destruct (M) as [[K _]|[(m2 & x & E & D & _)|(_ & m2 & q & E & Q2 & B)]].
    + destruct m'; [|discriminate]. destruct Q as ([|? ?] & ? & ? & ? & ? & ? & ? & ? & _ & _ & _ & _ & K' & _); discriminate.
    + apply chars_inj in E. subst m2. apply dec_text_iff in D as (_ & D & _). exact (quad_not_digits _ _ Q D).
    + apply chars_inj in E. subst m2. apply v4_accept_iff in Q, Q2. rewrite Q in Q2. apply ret_inj in Q2. subst q.
      change (be_value [0; 0; 0; 0]) with 0 in B. destruct B as [[B1 B2]|[B1 B2]].
      * pose proof (Z.pow_lt_mono_r 2 (32 - p) 32 ltac:(lia) ltac:(lia) ltac:(lia)). lia.
      * pose proof (Z.pow_lt_mono_r 2 0 (32 - p) ltac:(lia) ltac:(lia) ltac:(lia)). change (2 ^ 0) with 1 in *. lia.
Qed.
Lemma finish_ret v pre m strict p a n : Forall is_char pre -> mask_accepted v m p -> addr_parse v (chars (text_of v pre)) = Ret a ->
  from_address v a p strict = Ret n -> finish v pre m strict = Ret n.
Proof. intros C M A F. rewrite (proj1 (finish_from v pre m strict p a C M A)), F. reflexivity. Qed.
Lemma finish_success v pre m strict n : Forall is_char pre -> finish v pre m strict = Ret n ->
  exists p a, mask_accepted v m p /\ addr_parse v (chars (text_of v pre)) = Ret a /\ from_address v a p strict = Ret n.
Proof.
  intros C H. destruct (finish_spec v pre m strict C) as [(p & a & Hp & M & A & _)|[(e & x & E & _)|[E _]]]; try congruence.
  exists p, a. split; [exact M|]. split; [exact A|]. pose proof (proj1 (finish_from v pre m strict p a C M A)) as E. rewrite H in E. destruct (from_address v a p strict); cbn [with_value] in E; congruence.
Qed.
Lemma net_parse_ret v ts strict n : net_parse v ts strict = Ret n <-> net_parse_res v ts strict = Ret n \/
  exists x, net_parse_res v ts strict = Err no_error x /\ n = net_default v.
Proof.
  unfold net_parse. destruct (net_parse_res v ts strict) as [n'|e x|u].
  - split; [auto|]. intros [H|(x & H & _)]; congruence.
  - unfold raise_if. destruct (ec_eqb e no_error) eqn:E.
    + unfold ec_eqb in E. destruct (ec_eq_dec e no_error); [subst|discriminate]. split.
      * intros H. apply ret_inj in H. eauto.
      * intros [H|(y & _ & ->)]; [discriminate|reflexivity].
    + split; [discriminate|]. intros [H|(y & H & _)]; [discriminate|]. injection H as -> _. discriminate.
  - split; [discriminate|]. intros [H|(y & H & _)]; discriminate.
Qed.
(** The relation of the parser to complete network texts. *)
Lemma net_parse_iff v s strict n : Forall is_char s -> no_nul s -> fits v s ->
  (net_parse_res v (chars s) strict = Ret n <->
   exists t p a, accepted_net v s t p /\ addr_parse v (chars t) = Ret a /\ from_address v a p strict = Ret n).
Proof.
  intros C N F. assert (FL : forall pre r, s = pre ++ r -> ~ In 47 pre -> zlen pre <= L v) by (destruct v; exact F).
  assert (Sub : forall pre r, s = pre ++ r -> no_nul pre /\ Forall is_char pre).
  { intros pre r ->. split; [intros K; apply N; apply in_app_iff; left; exact K|]. apply Forall_app in C. tauto. }
  destruct (net_parse_split v (chars s) strict) as [(pre & r & E & Ns & Ln & R)|[(pre & E & Ns & Ln & R)|[(pre & m & E & Ns & Nm & Hm & Ln & R)|[(e & x & R) (pre & r & E & Ns & Ln & Hr)]]]]; rewrite R.
  - exfalso. assert (exists r', s = pre ++ r') as [r' Es].
    { clear - E. revert s E. induction pre as [|c pre IH]; intros s E; [exists s; reflexivity|].
      destruct s as [|c' s]; [discriminate|]. injection E as -> E. destruct (IH s E) as [r' ->]. exists r'. reflexivity. }
    pose proof (FL pre r' Es Ns). lia.
  - apply chars_inj in E. subst pre. destruct (Sub s [] (eq_sym (app_nil_r s))) as [Np Cp]. split.
    + intros H. apply finish_success in H as (p & a & M & A & H); [|exact Cp]. rewrite text_of_id in A by assumption.
      exists s, p, a. split; [left; split; [reflexivity|]|auto]. destruct M as [[_ M]|[(m & x & K & [D _] & _)|(_ & m & q & K & Q & _)]]; [exact M| |].
      * destruct m; [contradiction|discriminate].
      * destruct m; [|discriminate]. destruct Q as ([|? ?] & ? & ? & ? & ? & ? & ? & ? & _ & _ & _ & _ & K' & _); discriminate.
    + intros (t & p & a & [[-> ->]|(m & _ & -> & _)] & A & H).
      * apply (finish_ret v t [] strict (width v) a n Cp); [left; auto| |exact H]. rewrite text_of_id by assumption. exact A.
      * exfalso. apply Ns. apply in_app_iff. right. left. reflexivity.
  - apply chars_inj in E. destruct (Sub pre (47 :: m) E) as [Np Cp]. split.
    + intros H. apply finish_success in H as (p & a & M & A & H); [|exact Cp]. rewrite text_of_id in A by assumption.
      exists pre, p, a. split; [right; exists m; auto|auto].
    + intros (t & p & a & [[-> ->]|(m' & Hm' & E' & M)] & A & H).
      * exfalso. apply (no_slash v t a N A). rewrite E. apply in_app_iff. right. left. reflexivity.
      * assert (no_nul t) as Nt by (apply (Sub t (47 :: m') E')).
        rewrite E in E'. apply sep_unique in E' as [<- <-]; [|exact Ns|exact (no_slash v t a Nt A)].
        apply (finish_ret v pre (chars m) strict p a n Cp M); [|exact H]. rewrite text_of_id by assumption. exact A.
  - split; [discriminate|]. intros (t & p & a & Acc & A & H). exfalso.
    destruct Hr as [(e' & y & r' & ->)|(r' & -> & Hx)]; [exact (chars_bad _ _ _ _ _ (eq_sym E))|].
    assert (exists m, s = pre ++ 47 :: m /\ r' = chars m) as (m & Es & ->).
    { clear - E. revert s E. induction pre as [|c pre IH]; intros [|c' s] E; try discriminate.
      - injection E as -> E. exists s. auto.
      - injection E as -> E. destruct (IH s E) as (m & -> & ->). exists m. auto. }
    destruct Acc as [[-> ->]|(m' & Hm & E' & M)].
    + apply (no_slash v t a N A). rewrite Es. apply in_app_iff. right. left. reflexivity.
    + assert (no_nul t) as Nt by (apply (Sub t (47 :: m') E')).
      rewrite Es in E'. apply sep_unique in E' as [<- <-]; [|exact Ns|exact (no_slash v t a Nt A)].
      destruct (Hx m eq_refl) as [K|K]; [contradiction|]. exact (mask_no_slash v m p M K).
Qed.
