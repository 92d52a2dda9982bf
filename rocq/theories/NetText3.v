(** Network texts: round trip, ignored characters, undefined behaviour. *)
From Verif Require Import Base Tac TextProofs UnicodeModel FixedStringModel V4Model V6Model Uint128Model SpecInt Uint128Proofs Uint128Div2
  SpecText SpecAddr SpecStr SpecV4 SpecV6 StrProofs V4Proofs BufProofs BitProofs FixedStringProofs V4Lemmas V6Proofs V6Full V6Format V6Lemmas
  AddressModel SpecOrder AddressProofs NetworkModel SpecNet NetProofs NetProofs2 NetProofs3 MaskProofs NetText NetText2 ErrProofs.

(** *** Address texts are usable as the first part of a network text *)
Lemma addr_char_ok c : addr_char c -> is_char c /\ c <> 0 /\ c <> 47.
Proof. unfold addr_char, is_char. lia. Qed.
Lemma addr_chars_ok s : Forall addr_char s -> Forall is_char s /\ no_nul s /\ ~ In 47 s.
Proof.
  intros H. rewrite Forall_forall in H. split; [apply Forall_forall; intros c Hc; apply addr_char_ok, H, Hc|].
  split; intros K; apply H, addr_char_ok in K; lia.
Qed.
Lemma addr_text_ok v a fmt : wf_addr v a -> exists s, addr_to_string v a fmt = Ret s /\ Forall is_char s /\ no_nul s /\ ~ In 47 s /\
  zlen s <= L v /\ addr_parse v (chars s) = Ret a.
Proof.
  destruct a as [b sc]. intros [Hb Hs]. cbn [a_bytes a_scope] in *. destruct v; cbn [addr_to_string a_bytes a_scope addr_parse].
  - subst sc. destruct (v4_format_ok b Hb) as (s & E & Q & Hl). exists s. split; [exact E|].
    destruct (addr_chars_ok s (quad_addr s b Q)) as (C & N & S47). split; [exact C|]. split; [exact N|]. split; [exact S47|]. split; [exact Hl|].
    apply v4_accept_iff in Q. rewrite Q. reflexivity.
  - destruct Hs as [Hs Hc]. destruct (v6_round_trip_ok b sc fmt Hb Hs) as (s & E & P). exists s. split; [exact E|].
    assert (zlen sc <= 16) as Hl by (destruct Hs as [->|[[H _] _]]; [cbn; lia|lia]).
    destruct (bytes16 b Hb) as (gs & L8 & HF & ->). destruct (v6_to_string_ok gs sc fmt L8 HF Hl) as (t & Ht & E').
    rewrite E in E'. apply ret_inj in E'. subst s.
    assert (zlen (t ++ scope_suffix sc) <= 57) as Hl57.
    { destruct (v6_to_chars_ok gs sc fmt L8 HF Hl) as (t' & Ht' & E2 & H57). pose proof E as E3. unfold v6_to_string in E3. rewrite E2 in E3.
      cbn [bind] in E3. destruct (_ <=? _) in E3; [|discriminate]. apply ret_inj in E3. rewrite <- E3, to_nat_zlen. unfold zlen. rewrite firstn_length.
      unfold zlen in H57. lia. }
    destruct (fmt_v6_text fmt gs t L8 HF Ht) as [T _]. destruct (addr_chars_ok t (text_chars t gs T)) as (C & N & S47).
    assert (X : Forall is_char (scope_suffix sc) /\ no_nul (scope_suffix sc) /\ ~ In 47 (scope_suffix sc)).
    { destruct Hs as [->|[[_ F] Nz]]; [split; [constructor|split; intros []]|]. unfold scope_suffix. destruct sc as [|c0 sc0]; [split; [constructor|split; intros []]|].
      split; [constructor; [unfold is_char; lia|exact Hc]|]. split.
      - intros [K|K]; [discriminate|exact (Nz K)].
      - intros [K|K]; [discriminate|]. rewrite Forall_forall in F. apply F in K. unfold scope_char in K. lia. }
    destruct X as (X1 & X2 & X3). split; [apply Forall_app; auto|].
    split; [intros K; apply in_app_iff in K as [K|K]; [exact (N K)|exact (X2 K)]|]. split; [intros K; apply in_app_iff in K; tauto|]. split; [exact Hl57|].
    rewrite P. reflexivity.
Qed.

(** *** Decimal digits of the prefix length *)
Definition prefix_digits_ok (p : Z) : bool :=
  match dec_digits 20 p [] with
  | Ret (c :: r) => forallb (fun c => (48 <=? c) && (c <=? 57)) (c :: r) && (dval (c :: r) =? p) &&
                    (negb (c =? 48) || (zlen r =? 0))
  | _ => false
  end.
Lemma prefix_digits v p : 0 <= p <= width v -> exists d, dec_digits 20 p [] = Ret d /\ numeral 10 d p.
Proof.
  intros H. assert (K : 0 <= p <= 128) by (destruct v; cbn [width] in H; lia).
  assert (A : Forall (fun p => prefix_digits_ok p = true) (upto 129)) by (apply Forall_forall, forallb_forall; vm_compute; reflexivity).
  rewrite Forall_forall in A. specialize (A p (in_upto 129 p ltac:(lia))). unfold prefix_digits_ok in A.
  destruct (dec_digits 20 p []) as [[|c r]| |]; try discriminate. exists (c :: r). split; [reflexivity|].
  apply andb_prop in A as [A A3]. apply andb_prop in A as [A1 A2]. apply Z.eqb_eq in A2.
  exists (map (fun c => c - 48) (c :: r)). split; [|split; [discriminate|split; [|exact A2]]].
  - apply digits10_iff. split; [|reflexivity]. apply Forall_forall. intros x Hx. rewrite forallb_forall in A1. apply A1 in Hx. unfold is_dec_digit. lia.
  - cbn [map hd length]. intros E. rewrite map_length. unfold zlen in A3. assert (c =? 48 = true) as E2 by lia. rewrite E2 in A3. cbn [negb orb] in A3. lia.
Qed.
Lemma numeral_dec d p : numeral 10 d p -> dec_text d p.
Proof.
  intros (ds & H & N & _ & E). split; [|exists ds; auto]. intros ->. inversion H. subst. contradiction.
Qed.
Lemma dec_no_slash d p : dec_text d p -> Forall is_char d /\ no_nul d /\ ~ In 47 d.
Proof.
  intros D. apply dec_text_iff in D as (_ & D & _). rewrite Forall_forall in D.
  split; [apply Forall_forall; intros c Hc; apply D in Hc; unfold is_dec_digit, is_char in *; lia|].
  split; intros K; apply D in K; unfold is_dec_digit in K; lia.
Qed.

(** *** Round trip *)
Lemma net_same v n strict : wf_net v n -> from_address v (n_addr n) (n_prefix n) strict = Ret n.
Proof.
  intros H. pose proof H as (Wa & Wm & Sm & Hp & Em & Ef). rewrite from_address_spec by assumption.
  change (val (n_addr n)) with (first n). change (2 ^ (width v - n_prefix n)) with (size v n). rewrite Ef. cbn [Z.eqb]. f_equal.
  symmetry. apply net_of_eq. exact H.
Qed.
Lemma slash_fits v t m : ~ In 47 t -> zlen t <= L v -> fits v (t ++ 47 :: m).
Proof.
  intros N H pre r E Np. change (match v with V4 => 15 | V6 => 57 end) with (L v).
  assert (zlen pre <= zlen t); [|lia].
  clear H. revert pre E Np. induction t as [|c t IH]; intros [|x pre] E Np; try (unfold zlen; cbn [length]; lia).
  - injection E as E0 _. exfalso. apply Np. left. symmetry. exact E0.
  - injection E as _ E. rewrite !zlen_cons. assert (zlen pre <= zlen t); [|lia].
    apply IH; [intros K; apply N; right; exact K|exact E|intros K; apply Np; right; exact K].
Qed.
Lemma net_text_ok v n fmt : wf_net v n -> exists s t d, net_to_string v n fmt = Ret s /\ s = t ++ 47 :: d /\
  addr_to_string v (n_addr n) fmt = Ret t /\ numeral 10 d (n_prefix n).
Proof.
  intros (Wa & _ & _ & Hp & _). destruct (addr_text_ok v (n_addr n) fmt Wa) as (t & E & _).
  destruct (prefix_digits v (n_prefix n) Hp) as (d & Ed & Hd). exists (t ++ 47 :: d), t, d. unfold net_to_string. rewrite E, Ed. auto.
Qed.
Lemma net_round_trip v n fmt strict : wf_net v n ->
  exists s, net_to_string v n fmt = Ret s /\ net_parse v (chars s) strict = Ret n.
Proof.
  intros W. pose proof W as (Wa & _ & _ & Hp & _). destruct (net_text_ok v n fmt W) as (s & t & d & E & Es & Et & Ed).
  exists s. split; [exact E|]. destruct (addr_text_ok v (n_addr n) fmt Wa) as (t' & Et' & C & N & S47 & Hl & P).
  rewrite Et in Et'. apply ret_inj in Et'. subst t'. apply numeral_dec in Ed. destruct (dec_no_slash d _ Ed) as (Cd & Nd & Sd).
  rewrite net_parse_is_res by apply chars_real. subst s. apply net_parse_iff.
  - apply Forall_app. split; [exact C|]. constructor; [unfold is_char; lia|exact Cd].
  - intros K. apply in_app_iff in K as [K|[K|K]]; [exact (N K)|discriminate|exact (Nd K)].
  - apply slash_fits; assumption.
  - exists t, (n_prefix n), (n_addr n). split; [|split; [exact P|apply net_same; exact W]].
    right. exists d. split; [apply Ed|]. split; [reflexivity|]. right. left. exists d, (n_prefix n).
    split; [reflexivity|]. split; [exact Ed|]. rewrite Z.mod_small; [|destruct v; cbn [width] in Hp; lia]. split; [reflexivity|apply Hp].
Qed.
Lemma net_text_inj v n n' fmt fmt' s : wf_net v n -> wf_net v n' -> net_to_string v n fmt = Ret s -> net_to_string v n' fmt' = Ret s -> n = n'.
Proof.
  intros W W' E E'. destruct (net_round_trip v n fmt true W) as (s1 & E1 & P1). destruct (net_round_trip v n' fmt' true W') as (s2 & E2 & P2). congruence.
Qed.

(** *** Which inputs are accepted *)
Lemma net_complete v s strict n : Forall is_char s -> no_nul s -> fits v s ->
  (forall t m, s = t ++ 47 :: m -> plain_mask v m) ->
  (net_parse v (chars s) strict = Ret n <->
   exists t p a, net_text v s t p /\ addr_parse v (chars t) = Ret a /\ from_address v a p strict = Ret n).
Proof.
  intros C N F P. rewrite net_parse_is_res by apply chars_real. rewrite net_parse_iff by assumption.
  split; intros (t & p & a & [T|(m & T)] & A & H); exists t, p, a; (split; [|auto]).
  - left. exact T.
  - destruct T as (Nm & Es & M). right. exists m. split; [exact Es|]. apply mask_accepted_iff; [exact Nm|exact (P t m Es)|exact M].
  - left. exact T.
  - destruct T as (Es & M). right. exists m. assert (Nm : m <> []).
    { intros ->. destruct M as [[[K _] _]|(_ & q & Q & _)]; [contradiction|].
      destruct Q as ([|? ?] & ? & ? & ? & ? & ? & ? & ? & _ & _ & _ & _ & K & _); discriminate. }
    split; [exact Nm|]. split; [exact Es|]. apply mask_accepted_iff; [exact Nm|exact (P t m Es)|exact M].
Qed.
(** Characters beyond the buffer are ignored. *)
Lemma chars_prefix : forall pre s r, chars s = chars pre ++ r -> exists r', s = pre ++ r' /\ r = chars r'.
Proof.
  induction pre as [|c pre IH]; intros s r E; [exists s; auto|]. destruct s as [|c' s]; [discriminate|]. injection E as -> E.
  destruct (IH s r E) as (r' & -> & ->). exists r'. auto.
Qed.
Lemma in_firstn (c : Z) : forall pre n r, (length pre < n)%nat -> In c (firstn n (pre ++ c :: r)).
Proof.
  induction pre as [|x pre IH]; intros [|n] r H; cbn [length] in H; try lia; cbn; [left; reflexivity|]. right. apply IH. lia.
Qed.
Lemma finish_text v pre pre' m strict : text_of v pre = text_of v pre' -> finish v pre m strict = finish v pre' m strict.
Proof. intros E. unfold finish. rewrite E. reflexivity. Qed.
(** The parser reads as many characters as the buffer holds: without '/' among
    the first L + 1 characters only the first L matter. *)
Lemma net_reads v s strict : ~ In 47 (firstn (Z.to_nat (L v + 1)) s) -> net_parse_res v (chars s) strict = finish v s [] strict.
Proof.
  intros N. pose proof (L_pos v). destruct (net_parse_split v (chars s) strict) as [(pre & r & E & Ns & Ln & R)|[(pre & E & Ns & Ln & R)|[(pre & m & E & Ns & Nm & Hm & Ln & R)|[(e & x & R) (pre & r & E & Ns & Ln & Hr)]]]]; rewrite R.
  - apply chars_prefix in E as (r' & -> & ->). apply finish_text. unfold text_of. f_equal. rewrite firstn_app.
    replace (Z.to_nat (L v) - length pre)%nat with O by (unfold zlen in Ln; lia). rewrite firstn_O, app_nil_r. reflexivity.
  - apply chars_inj in E. subst. reflexivity.
  - apply chars_inj in E. subst. exfalso. apply N. apply in_firstn. unfold zlen in Ln. lia.
  - exfalso. apply chars_prefix in E as (r' & -> & ->). destruct Hr as [(e' & y & r2 & K)|(r2 & K & _)]; [destruct r'; discriminate|].
    destruct r' as [|c r']; [discriminate|]. injection K as -> _. apply N. apply in_firstn. unfold zlen in Ln. lia.
Qed.
Lemma net_truncated v s strict : ~ In 47 (firstn (Z.to_nat (L v + 1)) s) ->
  net_parse v (chars s) strict = net_parse v (chars (firstn (Z.to_nat (L v)) s)) strict.
Proof.
  intros N. rewrite !net_parse_is_res by apply chars_real. rewrite !net_reads; [| |exact N].
  - apply finish_text. unfold text_of. rewrite firstn_firstn. do 2 f_equal. lia.
  - intros K. apply N. clear N. rewrite firstn_firstn in K. pose proof (L_pos v). replace (Nat.min _ _) with (Z.to_nat (L v)) in K by lia.
    replace (Z.to_nat (L v + 1)) with (S (Z.to_nat (L v))) by lia. revert s K. generalize (Z.to_nat (L v)).
    induction n as [|n IH]; intros [|c s] K; cbn in K; try contradiction. cbn. destruct K as [K|K]; [left; exact K|right; apply IH; exact K].
Qed.
(** *** Undefined behaviour *)
Lemma net_parse_ub v ts strict u : Forall tok_char ts -> net_parse_res v ts strict = UB u ->
  u = BadShift /\ v = V4 /\ exists t m, ts = chars (t ++ 47 :: m) /\ dotted_quad m [0; 0; 0; 0].
Proof.
  intros C H. destruct (net_parse_split v ts strict) as [(pre & r & -> & _ & _ & E)|[(pre & -> & _ & _ & E)|[(pre & m & -> & _ & _ & _ & _ & E)|[(e & x & E) _]]]];
    rewrite E in H; try discriminate.
  - apply tok_chars in C. destruct (finish_spec v pre [] strict C) as [(p & a & _ & _ & _ & _ & K)|[(e & x & K & _)|[K U]]]; rewrite K in H.
    + destruct (_ =? 0) in H; [discriminate|]. destruct strict; discriminate.
    + discriminate.
    + destruct U as (_ & m & Em & Q). destruct m; [|discriminate]. destruct Q as ([|? ?] & ? & ? & ? & ? & ? & ? & ? & _ & _ & _ & _ & K' & _); discriminate.
  - rewrite <- (app_nil_r (chars pre)) in C. apply tok_chars in C. destruct (finish_spec v pre [] strict C) as [(p & a & _ & _ & _ & _ & K)|[(e & x & K & _)|[K U]]]; rewrite K in H.
    + destruct (_ =? 0) in H; [discriminate|]. destruct strict; discriminate.
    + discriminate.
    + destruct U as (_ & m & Em & Q). destruct m; [|discriminate]. destruct Q as ([|? ?] & ? & ? & ? & ? & ? & ? & ? & _ & _ & _ & _ & K' & _); discriminate.
  - rewrite chars_app in C. apply tok_chars in C. destruct (finish_spec v pre (chars m) strict C) as [(p & a & _ & _ & _ & _ & K)|[(e & x & K & _)|[K U]]]; rewrite K in H.
    + destruct (_ =? 0) in H; [discriminate|]. destruct strict; discriminate.
    + discriminate.
    + injection H as <-. destruct U as (-> & m' & Em & Q). apply chars_inj in Em. subst m'. split; [reflexivity|]. split; [reflexivity|]. exists pre, m. auto.
Qed.
Lemma parse_ub_res v ts strict u : net_parse v ts strict = UB u <-> net_parse_res v ts strict = UB u.
Proof.
  unfold net_parse. destruct (net_parse_res v ts strict); try tauto. unfold raise_if. destruct (ec_eqb e no_error); split; discriminate.
Qed.
Lemma net_parse_safe v ts strict u : Forall tok_char ts -> net_parse v ts strict = UB u ->
  u = BadShift /\ v = V4 /\ exists t m, ts = chars (t ++ 47 :: m) /\ dotted_quad m [0; 0; 0; 0].
Proof. rewrite parse_ub_res. apply net_parse_ub. Qed.
