(** IPv6 texts on a big-endian host. *)
From Verif Require Import Base Tac TextProofs UnicodeModel FixedStringModel V4Model V6Model Uint128Model SpecInt Uint128Proofs Uint128Div2
  SpecText SpecAddr SpecStr SpecV4 SpecV6 StrProofs V4Proofs BufProofs BitProofs FixedStringProofs V4Lemmas V6Proofs V6Parse V6Grammar V6Full V6Lemmas
  AddressModel SpecOrder AddressProofs NetworkModel SpecNet SpecAny LooseProofs NetText MaskProofs NetProofs NetProofs2 NetProofs3 CodeProofs HostModel SpecEndian EndianProofs EndianProofs3 EndianProofs4.


Lemma v6_from_string_le le ts : ts <> [] -> v6_from_string le ts =
  ('(end_ip, scope_id) <- split_scope_id ts ;;
   '(parts, parts_count) <- split_parts le (firstn (Z.to_nat end_ip) ts) ;;
   '(hi, lo, skipped) <- get_parts_bound parts parts_count ;;
   bytes <- parse_parts parts parts_count hi lo skipped ;;
   s0 <- rd scope_id 0 ;;
   if negb (s0 =? 0) then
     f <- fs_make char_next 16 scope_id ;; Ret (bytes, fs_chars f)
   else Ret (bytes, [])).
Proof. destruct ts; [contradiction|reflexivity]. Qed.
Definition ending (sc : list Z) (bytes : list Z) : res (list Z * list Z) :=
  s0 <- rd sc 0 ;; if negb (s0 =? 0) then f <- fs_make char_next 16 sc ;; Ret (bytes, fs_chars f) else Ret (bytes, []).
Lemma addr_finish le a sc :
  ('(parts, parts_count) <- split_parts le (chars a) ;;
   '(hi, lo, skipped) <- get_parts_bound parts parts_count ;;
   bytes <- parse_parts parts parts_count hi lo skipped ;; ending sc bytes) = (bytes <- addr_h le a ;; ending sc bytes).
Proof.
  unfold addr_h. destruct (split_parts le (chars a)) as [[p n]| |]; cbn [bind]; try reflexivity.
  destruct (get_parts_bound p n) as [[[hi lo] sk]| |]; reflexivity.
Qed.
Definition turn (x : list Z * list Z) : list Z * list Z := (reversed_tail (fst x), snd x).
Lemma finish_turn sc b : ending sc (reversed_tail b) = rmap turn (ending sc b).
Proof.
  unfold ending. destruct (rd sc 0) as [s0| |]; cbn [bind rmap]; try reflexivity.
  destruct (negb (s0 =? 0)); [|reflexivity]. destruct (fs_make char_next 16 sc); reflexivity.
Qed.
(** The address part ends at the first percent sign. *)
Definition head_of (s a : list Z) : Prop := ~ In 37 a /\ exists r, s = a ++ r /\ (r = [] \/ exists t, r = 37 :: t).
Lemma head_det s a a' : head_of s a -> head_of s a' -> a = a'.
Proof.
  intros [N (r & -> & R)] [N' (r' & Ex & R')].
  destruct R as [->|(t & ->)], R' as [->|(t' & ->)].
  - rewrite !app_nil_r in Ex. exact Ex.
  - exfalso. rewrite app_nil_r in Ex. subst a. apply N, in_app_iff. right. left. reflexivity.
  - exfalso. rewrite app_nil_r in Ex. subst a'. apply N', in_app_iff. right. left. reflexivity.
  - apply (sep_unique 37) in Ex as [Ex _]; assumption.
Qed.
Lemma head_tail s a : head_of s a -> (dotted_tail s <-> tail_dot a).
Proof.
  intros H. split.
  - intros (p & q & r & -> & N & N58 & D & R). assert (Ea : a = p ++ 58 :: q).
    { apply (head_det (p ++ 58 :: q ++ r)); [exact H|]. split; [exact N|]. exists r. rewrite <- app_assoc. auto. }
    subst a. exists p, q. auto.
  - intros (p & q & -> & N58 & D). destruct H as [N (r & -> & R)]. exists p, q, r. rewrite <- app_assoc. auto.
Qed.
Lemma string_form s : (exists e v, forall le, v6_from_string le (chars s) = Err e v) \/
  exists a sc, head_of s a /\ forall le, v6_from_string le (chars s) = (bytes <- addr_h le a ;; ending sc bytes).
Proof.
  destruct s as [|c0 s0]; [left; do 2 eexists; intros; reflexivity|]. set (s := c0 :: s0) in *.
  assert (N0 : chars s <> []) by (apply chars_nil; discriminate). clearbody s. clear c0 s0.
  pose proof (split_scope_ok s) as Sc. destruct (split_first 37 s) as [H|(a & t & -> & H)].
  - rewrite scan_scope_false in Sc by assumption. cbn [app andb outcome] in Sc.
    right. exists s, (buf 17 []). split; [split; [exact H|exists []; rewrite app_nil_r; auto]|]. intros le.
    rewrite v6_from_string_le by exact N0. rewrite Sc. cbn [bind].
    replace (firstn (Z.to_nat (zlen s)) (chars s)) with (chars s); [apply addr_finish|]. rewrite <- (app_nil_r s) at 3. rewrite firstn_chars. reflexivity.
  - rewrite scan_scope_sep in Sc by assumption. cbn [app] in Sc.
    assert (D : (exists e v, split_scope_id (chars (a ++ 37 :: t)) = Err e v) \/ split_scope_id (chars (a ++ 37 :: t)) = Ret (zlen a, buf 17 t)).
    { destruct (forallb _ t && (zlen t <=? 16)); [|left; exact Sc]. destruct (true && (hd 0 t =? 0)); [left|right]; exact Sc. }
    destruct D as [(e & v & D)|D].
    + left. exists e, v. intros le. rewrite v6_from_string_le by exact N0. rewrite D. reflexivity.
    + right. exists a, (buf 17 t). split; [split; [exact H|exists (37 :: t); eauto]|]. intros le.
      rewrite v6_from_string_le by exact N0. rewrite D. cbn [bind]. rewrite firstn_chars. apply addr_finish.
Qed.
Lemma v6_tail s : dotted_tail s -> v6_from_string false (chars s) = rmap turn (v6_from_string true (chars s)).
Proof.
  intros T. destruct (string_form s) as [(e & v & R)|(a & sc & Ha & R)]; rewrite !R; [reflexivity|].
  apply (head_tail s a Ha) in T. rewrite (proj1 (addr_rel a) T). destruct (addr_h true a); cbn [rmap bind]; [apply finish_turn|reflexivity..].
Qed.
Lemma v6_no_tail s : ~ dotted_tail s -> v6_from_string false (chars s) = v6_from_string true (chars s).
Proof.
  intros T. destruct (string_form s) as [(e & v & R)|(a & sc & Ha & R)]; rewrite !R; [reflexivity|].
  rewrite (head_tail s a Ha) in T. rewrite (proj2 (addr_rel a) T). reflexivity.
Qed.
Lemma v6_bad_le p e v rest : v6_from_string false (chars p ++ Bad e v :: rest) = v6_from_string true (chars p ++ Bad e v :: rest).
Proof.
  rewrite !v6_from_string_le by (destruct p; discriminate). unfold split_scope_id.
  destruct (split_scope_bad p rest e v false 0 0 [] ltac:(cbn; lia)) as (e' & v' & K).
  change (buf 17 []) with (repeat 0 17) in K. change (zlen (@nil Z)) with 0 in K. rewrite K. reflexivity.
Qed.

(** *** Network texts *)
Lemma split_slash M r m : 0 < M -> ~ In 47 r -> ~ In 47 m -> m <> [] -> zlen r <= M ->
  net_split M (chars (r ++ 47 :: m)) (repeat 0 (Z.to_nat (M + 1))) 0 false [] = Ret (buf (M + 1) r, chars m).
Proof.
  intros HM Nr Nm Hm Hl. rewrite buf_nil. change 0 with (zlen (@nil Z)) at 1. rewrite chars_app, (split_prefix M HM) by (auto; cbn; lia).
  change (zlen (@nil Z)) with 0. cbn [app]. destruct (Z.leb_spec (0 + zlen r) M); [|lia]. cbn [chars map net_split Z.eqb Pos.eqb andb].
  change (map Ch m) with (chars m). destruct (Z.eqb_spec (zlen (chars m)) 0) as [Z0|_]; [exfalso; destruct m; [contradiction|]; cbn [chars map] in Z0; rewrite zlen_cons in Z0; pose proof (zlen_nonneg (map Ch m)); lia|].
  cbn [negb bind]. destruct (Z.gtb_spec (zlen r) M); [lia|].
  destruct (split_suffix M (chars m) (buf (M + 1) r) (zlen r) (chars m) Hl) as [(m' & _ & _ & R)|[K _]]; [exact R|]. exfalso. apply Nm, K. reflexivity.
Qed.
Definition finish_h (le : bool) (v : ver) (a : list Z) (m : list tok) (strict : bool) : res net :=
  '(netmask, prefixlen) <- parse_netmask_h le v m ;;
  a <- with_value (mask_value v m) (parse_h le v (chars (text_of v a))) ;;
  a <- with_value (mask_value v m) (strict_netmask_h le v a netmask strict) ;;
  Ret (mk_net a netmask prefixlen).
Lemma array_buf le v pre : zlen pre <= L v + 1 -> parse_array_h le v (buf (L v + 1) pre) = parse_h le v (chars (text_of v pre)).
Proof.
  intros H. unfold parse_array_h. fold (L v). pose proof (L_pos v).
  assert (G : (Z.to_nat (L v) <= length (buf (L v + 1) pre))%nat).
  { pose proof (zlen_buf (L v + 1) pre H). unfold zlen in *. lia. }
  destruct (fs_make_cut _ _ _ G (c_string_firstn _ _ G)) as (f & -> & Ef). cbn [bind]. rewrite Ef. unfold text_of, buf. rewrite cut_buf. reflexivity.
Qed.
Lemma slash_h le v r m strict : ~ In 47 r -> ~ In 47 m -> m <> [] -> zlen r <= L v ->
  net_parse_h le v (chars (r ++ 47 :: m)) strict = finish_h le v r (chars m) strict.
Proof.
  intros Nr Nm Hm Hl. unfold net_parse_h. fold (L v). rewrite (split_slash (L v) r m (L_pos v) Nr Nm Hm Hl). cbn [bind]. unfold finish_h.
  destruct (parse_netmask_h le v (chars m)) as [[nm p]| |]; cbn [bind]; try reflexivity. rewrite array_buf by lia. reflexivity.
Qed.
Lemma quad_text q bs : dotted_quad q bs -> ~ In 47 q /\ q <> [] /\ zlen q <= L V4 /\ text_of V4 q = q /\ parse_h true V4 (chars q) = Ret (mk_addr bs []) /\ wf_addr V4 (mk_addr bs []).
Proof.
  intros Q. destruct (quad_chars q bs Q) as (F & Hl & I). assert (N0 : forall c, In c q -> 46 <= c <= 57 /\ c <> 47).
  { intros c Hc. rewrite Forall_forall in F. apply F in Hc. unfold is_dec_digit in Hc. lia. }
  split; [intros K; apply N0 in K; lia|]. split; [intros ->; destruct I|]. split; [exact Hl|].
  split; [|split; [cbn [parse_h]; rewrite (proj2 (v4_accept_iff q bs) Q); reflexivity|]].
  - unfold text_of. rewrite firstn_all2 by (change (L V4) with 15; unfold zlen in Hl; lia). apply cut_id. intros K. apply N0 in K. lia.
  - apply dotted_bytes in Q as (a & b & c & d & -> & A & B & C & D). split; [|reflexivity]. split; [|repeat (constructor; [assumption|]); constructor]. reflexivity.
Qed.
Lemma mask_mirror_ok d d' : mask_mirror d d' -> ~ In 47 d /\ d <> [] /\ ~ In 47 d' /\ d' <> [] /\
  parse_netmask_h false V4 (chars d) = rmap mirrored (parse_netmask V4 (chars d')).
Proof.
  intros [(-> & N & F)|(m & Q & Q')].
  - assert (~ In 47 d) by (intros K; rewrite Forall_forall in F; apply F in K; unfold is_dec_digit in K; lia).
    do 4 (split; [assumption|]). destruct (digits_all d 0 F) as [K _]. change (w64 0) with 0 in K. eapply be_mask_digits. exact K.
  - destruct (quad_text _ _ Q) as (A & B & _). destruct (quad_text _ _ Q') as (A' & B' & _). do 4 (split; [assumption|]).
    exact (be_mask_dotted _ _ _ Q Q').
Qed.
Lemma mask_mirror_value d d' : mask_mirror d d' -> mask_value V4 (chars d) = mask_value V4 (chars d').
Proof.
  intros [(-> & _)|(m & Q & Q')]; [reflexivity|]. unfold mask_value.
  destruct (quad_chars _ _ Q) as (_ & _ & I). destruct (quad_chars _ _ Q') as (_ & _ & I').
  destruct (dot_not_value _ 0 I) as [k ->]. destruct (dot_not_value _ 0 I') as [k' ->]. reflexivity.
Qed.
Lemma be_net4 q q' bs d d' strict : dotted_quad q bs -> dotted_quad q' (rev bs) -> mask_mirror d d' ->
  net_parse_h false V4 (chars (q ++ 47 :: d)) strict = rmap (mirror_net V4) (net_parse_res V4 (chars (q' ++ 47 :: d')) strict).
Proof.
  intros Q Q' M. destruct (mask_mirror_ok _ _ M) as (D1 & D2 & D3 & D4 & EM). destruct (quad_text _ _ Q) as (A1 & A2 & A3 & A4 & A5 & A6).
  destruct (quad_text _ _ Q') as (B1 & B2 & B3 & B4 & B5 & B6).
  rewrite <- (le_net_parse V4). rewrite !slash_h by assumption. unfold finish_h. rewrite EM, (le_mask V4 (chars d')), A4, B4, B5, (mask_mirror_value d d' M).
  change (parse_h false V4 (chars q)) with (parse_h true V4 (chars q)). rewrite A5. clear A4 B4 A5 B5.
  destruct (parse_netmask V4 (chars d')) as [[nm p]| |] eqn:En; cbn [bind rmap mirrored fst snd]; try reflexivity.
  assert (Wn : wf_addr V4 nm). { apply (proj2 (mask_exact V4 d' p D4)) in En. tauto. }
  cbn [with_value bind]. rewrite be_strict4 by (try apply mirror_addr_ok; assumption). rewrite (mirror_addr_twice V4 nm Wn).
  change (strict_netmask_h true V4) with (strict_netmask V4). change (mirror_addr V4 (mk_addr bs [])) with (mk_addr (rev bs) []).
  destruct (strict_netmask V4 (mk_addr (rev bs) []) nm strict); reflexivity.
Qed.
Lemma split_cases M ts : 0 < M ->
  (exists e x, net_split M ts (repeat 0 (Z.to_nat (M + 1))) 0 false [] = Err e x) \/
  exists pre mt, net_split M ts (repeat 0 (Z.to_nat (M + 1))) 0 false [] = Ret (buf (M + 1) pre, mt) /\ zlen pre <= M + 1 /\
    (forall c, In c pre -> In (Ch c) ts) /\ (~ In (Ch 47) ts -> mt = []).
Proof.
  intros HM. destruct (toks_slash ts) as (pre & r & -> & N & H). rewrite buf_nil. change 0 with (zlen (@nil Z)) at 1 2.
  rewrite (split_prefix M HM) by (auto; cbn; lia). change (zlen (@nil Z)) with 0. cbn [app].
  assert (I : forall c, In c pre -> In (Ch c) (chars pre ++ r)) by (intros c Hc; apply in_app_iff; left; apply in_map; exact Hc).
  destruct (Z.leb_spec (0 + zlen pre) M) as [Hl|Hl].
  2:{ right. do 2 eexists. split; [reflexivity|]. split; [unfold zlen; rewrite firstn_length; lia|]. split; [|auto].
      intros c Hc. apply I. rewrite <- (firstn_skipn (Z.to_nat (M + 1)) pre). apply in_app_iff. left. exact Hc. }
  destruct H as [->|[(e & x & r' & ->)|(r' & ->)]].
  - right. exists pre, []. cbn [net_split]. split; [reflexivity|]. split; [lia|]. auto.
  - left. cbn [net_split]. eauto.
  - cbn [net_split]. cbn [Z.eqb Pos.eqb andb]. destruct (Z.eqb_spec (zlen r') 0) as [Z0|Z0]; [left; eauto|].
    cbn [bind negb]. destruct (Z.gtb_spec (zlen pre) M); [lia|].
    destruct (split_suffix M r' (buf (M + 1) pre) (zlen pre) r' ltac:(lia)) as [(m & -> & Nm & ->)|[K (e & x & ->)]]; [|left; eauto].
    right. exists pre, (chars m). split; [reflexivity|]. split; [lia|]. split; [exact I|]. intros K. exfalso. apply K, in_app_iff. right. left. reflexivity.
Qed.
Lemma cut_in c s : In c (cut s) -> In c s.
Proof. induction s as [|x s IH]; cbn; [auto|]. destruct (x =? 0); [intros []|]. intros [->|H]; auto. Qed.
Lemma text_of_in v c s : In c (text_of v s) -> In c s.
Proof. intros H. apply cut_in in H. rewrite <- (firstn_skipn (Z.to_nat (L v)) s). apply in_app_iff. left. exact H. Qed.
Lemma be_parse6 s : ~ In 46 s -> parse_h false V6 (chars s) = addr_parse V6 (chars s).
Proof.
  intros N. cbn [parse_h addr_parse]. rewrite v6_no_tail; [reflexivity|]. intros (p & q & r & -> & _ & _ & D & _).
  apply N. apply in_app_iff. right. right. apply in_app_iff. left. exact D.
Qed.
Lemma be_net6 ts strict : ~ In (Ch 46) ts -> net_parse_h false V6 ts strict = net_parse_res V6 ts strict.
Proof.
  intros N. unfold net_parse_h, net_parse_res. change (max_string_len V6) with (L V6).
  destruct (split_cases (L V6) ts (L_pos V6)) as [(e & x & ->)|(pre & mt & -> & Hl & I & _)]; [reflexivity|]. cbn [bind].
  change (parse_netmask_h false V6 mt) with (parse_netmask V6 mt). destruct (parse_netmask V6 mt) as [[nm p]| |]; cbn [bind]; try reflexivity.
  rewrite array_buf, parse_buf by exact Hl. rewrite be_parse6; [reflexivity|]. intros K. apply text_of_in in K. apply N, I, K.
Qed.
Lemma be_net4_plain ts strict : ~ In (Ch 47) ts -> net_parse_h false V4 ts strict = net_parse_res V4 ts strict.
Proof.
  intros N. unfold net_parse_h, net_parse_res. change (max_string_len V4) with (L V4).
  destruct (split_cases (L V4) ts (L_pos V4)) as [(e & x & ->)|(pre & mt & -> & Hl & I & Em)]; [reflexivity|]. cbn [bind]. rewrite (Em N).
  change (parse_netmask_h false V4 []) with (Ret (mk_addr [255; 255; 255; 255] [], 32)).
  change (parse_netmask V4 []) with (Ret (mk_addr [255; 255; 255; 255] [], 32)). cbn [bind]. rewrite array_buf, parse_buf by exact Hl.
  change (parse_h false V4) with (addr_parse V4). destruct (addr_parse V4 (chars (text_of V4 pre))) as [a| |] eqn:Ea; cbn [bind]; try reflexivity.
  assert (W : wf_addr V4 a).
  { cbn [addr_parse] in Ea. destruct (v4_from_string (chars (text_of V4 pre))) as [b| |] eqn:Eb; try discriminate. apply ret_inj in Ea. subst a.
    apply v4_accept_iff in Eb. apply quad_text in Eb. tauto. }
  assert (Ht : 0 <= 32 <= width V4) by (cbn; lia). assert (Em1 : mk_addr [255; 255; 255; 255] [] = mask_of V4 32).
  { pose proof (from_prefix_of V4 32 Ht) as K. vm_compute in K |- *. congruence. }
  assert (K : strict_netmask_h false V4 a (mk_addr [255; 255; 255; 255] []) strict = strict_netmask V4 a (mk_addr [255; 255; 255; 255] []) strict).
  { assert (W1 : wf_addr V4 (mk_addr [255; 255; 255; 255] [])) by (rewrite Em1; apply mask_of_wf; exact Ht).
    rewrite be_strict4 by assumption. change (mirror_addr V4 (mk_addr [255; 255; 255; 255] [])) with (mk_addr [255; 255; 255; 255] []).
    rewrite Em1, !strict_netmask_spec by (try apply mirror_addr_ok; assumption). change (2 ^ (width V4 - 32)) with 1. rewrite !Z.mod_1_r. cbn [Z.eqb rmap].
    rewrite (mirror_addr_twice V4 a W). reflexivity. }
  cbn [with_value bind]. rewrite K. reflexivity.
Qed.
