(** Scope ids under every configuration. *)
From Verif Require Import Base Tac SpecText TextProofs UnicodeModel FixedStringModel V4Model V6Model ConfigModel
  SpecV4 SpecV6 SpecAddr SpecStr V4Proofs BufProofs BitProofs StrProofs Utf8Proofs FixedStringProofs V6Proofs V6Parse V6Grammar V6Full V6Format
  SpecLoose LooseProofs SpecConfig.

Definition cfg_ok (g : config) : Prop := 0 <= c_max g <= 64.

Lemma config_max_ok b x s : cfg_ok (mk_cfg (config_max b x) s).
Proof.
  unfold cfg_ok, config_max. cbn [c_max]. destruct b; [lia|]. destruct x as [n|]; [|lia].
  destruct (Z.ltb_spec n 0); [lia|]. destruct (Z.gtb_spec n 64); lia.
Qed.

Lemma invalid_c_iff g c : invalid_symbol_c g c = false <-> scope_char_of (c_spaces g) c.
Proof.
  unfold invalid_symbol_c, scope_char_of. rewrite !orb_false_iff. destruct (c_spaces g).
  - split; [intros [[? ?] _]; repeat split; try lia; discriminate|intros (? & ? & _); repeat split; lia].
  - rewrite orb_false_iff, andb_false_iff. split; [intros [[? ?] [? ?]]; repeat split; lia|].
    intros (? & ? & H). destruct (H eq_refl). repeat split; lia.
Qed.

(** ** Splitting *)
Lemma split_loop_address g : forall a rest pos t k, ~ In 37 a ->
  split_scope_loop_c g (chars a ++ rest) pos pos false t k = split_scope_loop_c g rest (pos + zlen a) (pos + zlen a) false t k.
Proof.
  induction a as [|c a IH]; intros rest pos t k H.
  - cbn [chars map app]. change (zlen (@nil Z)) with 0. rewrite Z.add_0_r. reflexivity.
  - cbn [chars map app split_scope_loop_c negb andb]. destruct (Z.eqb_spec c 37) as [->|]; [destruct H; left; reflexivity|]. cbn [negb].
    change (map Ch a) with (chars a). rewrite IH by (intros K; apply H; right; exact K). autorewrite with zl.
    replace (pos + (zlen a + 1)) with (pos + 1 + zlen a) by lia. reflexivity.
Qed.
Lemma split_loop_scope g : forall u t pos e, zlen t <= c_max g ->
  outcome (split_scope_loop_c g (chars u) pos e true (buf (c_max g + 1) t) (zlen t))
    (if forallb (fun c => negb (invalid_symbol_c g c)) u && (zlen t + zlen u <=? c_max g) then Some (e, true, buf (c_max g + 1) (t ++ u)) else None).
Proof.
  induction u as [|c u IH]; intros t pos e H; cbn [chars map split_scope_loop_c forallb andb negb].
  - change (zlen (@nil Z)) with 0. rewrite app_nil_r. destruct (Z.leb_spec (zlen t + 0) (c_max g)); [apply outcome_ret|lia].
  - change (map Ch u) with (chars u). autorewrite with zl. pose proof (zlen_nonneg u).
    destruct (Z.gtb_spec (zlen t) (c_max g - 1)).
    { destruct (Z.leb_spec (zlen t + (zlen u + 1)) (c_max g)); [lia|]. rewrite andb_false_r. apply outcome_err. }
    destruct (invalid_symbol_c g c); cbn [negb andb]; [apply outcome_err|].
    rewrite wr_buf by lia. cbn [bind]. specialize (IH (t ++ [c]) (pos + 1) e). autorewrite with zl in IH.
    replace (zlen t + (0 + 1)) with (zlen t + 1) in IH by lia.
    replace (zlen t + (zlen u + 1)) with (zlen t + 1 + zlen u) by lia. rewrite <- app_assoc in IH. apply IH. lia.
Qed.
Lemma hd_buf_c n t : 0 < n -> zlen t <= n -> rd (buf n t) 0 = Ret (hd 0 t).
Proof.
  intros Hn _. unfold buf. destruct t as [|c t]; [|reflexivity]. cbn [app length]. rewrite Nat.sub_0_r.
  destruct (Z.to_nat n) eqn:E; [lia|reflexivity].
Qed.
Lemma buf_nil n : repeat 0 (Z.to_nat n) = buf n [].
Proof. unfold buf. cbn [app length]. rewrite Nat.sub_0_r. reflexivity. Qed.

Lemma split_c_plain g s : cfg_ok g -> ~ In 37 s -> split_scope_id_c g (chars s) = Ret (zlen s, buf (c_max g + 1) []).
Proof.
  intros Hg H. unfold split_scope_id_c. rewrite buf_nil. rewrite <- (app_nil_r (chars s)). rewrite split_loop_address by exact H.
  cbn [split_scope_loop_c bind]. unfold cfg_ok in Hg. rewrite hd_buf_c by (change (zlen (@nil Z)) with 0; lia). reflexivity.
Qed.
Definition scope_okb_c (g : config) (u : list Z) : bool :=
  forallb (fun c => negb (invalid_symbol_c g c)) u && (zlen u <=? c_max g) && negb (hd 0 u =? 0).
Lemma split_c_percent g a u : cfg_ok g -> ~ In 37 a ->
  outcome (split_scope_id_c g (chars (a ++ 37 :: u))) (if scope_okb_c g u then Some (zlen a, buf (c_max g + 1) u) else None).
Proof.
  intros Hg H. unfold cfg_ok in Hg. unfold split_scope_id_c. rewrite buf_nil, chars_app, split_loop_address by exact H.
  cbn [chars map split_scope_loop_c negb andb]. change (37 =? 37) with true. cbn [negb].
  change (map Ch u) with (chars u). change (0 + zlen a) with (zlen a).
  pose proof (split_loop_scope g u [] (zlen a + 1) (zlen a)) as S. change (zlen (@nil Z)) with 0 in S. specialize (S ltac:(lia)).
  cbn [app Z.add] in S. unfold scope_okb_c.
  destruct (forallb (fun c => negb (invalid_symbol_c g c)) u && (zlen u <=? c_max g)) eqn:E; cbn [andb outcome] in S |- *.
  - rewrite S. cbn [bind]. apply andb_true_iff in E as [_ E]. rewrite hd_buf_c by lia. cbn [bind andb].
    destruct (hd 0 u =? 0); cbn [negb]; [apply outcome_err|apply outcome_ret].
  - destruct S as (e & v & ->). apply outcome_err.
Qed.

(** ** The parser *)
Definition with_scope (g : config) (bytes sc : list Z) : res (list Z * list Z) :=
  if c_max g >? 0 then
    s0 <- rd sc 0 ;;
    if negb (s0 =? 0) then f <- fs_make char_next (Z.to_nat (c_max g)) sc ;; Ret (bytes, fs_chars f) else Ret (bytes, [])
  else Ret (bytes, []).
Lemma from_string_c_cons g ts : ts <> [] -> v6_from_string_c g true ts =
  ('(end_ip, sc) <- split_scope_id_c g ts ;;
   '(parts, n) <- split_parts true (firstn (Z.to_nat end_ip) ts) ;;
   '(hi, lo, skipped) <- get_parts_bound parts n ;;
   bytes <- parse_parts parts n hi lo skipped ;; with_scope g bytes sc).
Proof. destruct ts; [contradiction|reflexivity]. Qed.
Lemma from_string_c_addr g a rest sc :
  ('(parts, n) <- split_parts true (firstn (Z.to_nat (zlen a)) (chars (a ++ rest))) ;;
   '(hi, lo, skipped) <- get_parts_bound parts n ;;
   bytes <- parse_parts parts n hi lo skipped ;; with_scope g bytes sc) = (bytes <- v6_addr a ;; with_scope g bytes sc).
Proof.
  rewrite firstn_chars. unfold v6_addr. destruct (split_parts true (chars a)) as [[p n]| |]; cbn [bind]; try reflexivity.
  destruct (get_parts_bound p n) as [[[hi lo] sk]| |]; cbn [bind]; reflexivity.
Qed.
Lemma with_scope_ok g bytes u : cfg_ok g -> scope_okb_c g u = true -> with_scope g bytes (buf (c_max g + 1) u) = Ret (bytes, cut u).
Proof.
  unfold cfg_ok, scope_okb_c, with_scope. intros Hg H. apply andb_true_iff in H as [H H0]. apply andb_true_iff in H as [_ H].
  assert (u <> []) as Nu by (intros ->; discriminate H0). assert (1 <= zlen u) by (destruct u; [contradiction|autorewrite with zl; pose proof (zlen_nonneg u); lia]).
  destruct (Z.gtb_spec (c_max g) 0); [|lia]. rewrite hd_buf_c by lia. cbn [bind]. rewrite H0.
  destruct (fs_make_cut (Z.to_nat (c_max g)) (buf (c_max g + 1) u) (cut u)) as (f & -> & Ef).
  - pose proof (zlen_buf (c_max g + 1) u ltac:(lia)). unfold zlen in *. lia.
  - unfold buf. replace (Z.to_nat (c_max g + 1) - length u)%nat with (S (Z.to_nat (c_max g) - length u))%nat by (unfold zlen in *; lia).
    cbn [repeat]. apply c_string_cut. unfold zlen in *. lia.
  - cbn [bind]. rewrite Ef. reflexivity.
Qed.
Lemma with_scope_nil g bytes : cfg_ok g -> with_scope g bytes (buf (c_max g + 1) []) = Ret (bytes, []).
Proof.
  unfold cfg_ok, with_scope. intros Hg. destruct (c_max g >? 0); [|reflexivity]. rewrite hd_buf_c by (change (zlen (@nil Z)) with 0; lia). reflexivity.
Qed.
Lemma c_plain g s : cfg_ok g -> ~ In 37 s ->
  outcome (v6_from_string_c g true (chars s)) (match v6_addr s with Ret b => Some (b, []) | _ => None end).
Proof.
  intros Hg H. destruct s as [|c s']; [exists empty_address, 0; reflexivity|]. set (s := c :: s') in *.
  rewrite from_string_c_cons by (apply chars_nil; discriminate). rewrite split_c_plain by assumption. cbn [bind].
  pose proof (from_string_c_addr g s [] (buf (c_max g + 1) [])) as A. rewrite app_nil_r in A. rewrite A.
  destruct (v6_addr_outcome s) as [(gs & _ & ->)|[(e & v & ->) _]]; [|apply outcome_err].
  cbn [bind]. rewrite with_scope_nil by exact Hg. apply outcome_ret.
Qed.
Lemma c_percent g a u : cfg_ok g -> ~ In 37 a ->
  outcome (v6_from_string_c g true (chars (a ++ 37 :: u)))
    (if scope_okb_c g u then match v6_addr a with Ret b => Some (b, cut u) | _ => None end else None).
Proof.
  intros Hg H. rewrite from_string_c_cons by (apply chars_nil; destruct a; discriminate).
  pose proof (split_c_percent g a u Hg H) as Sc. destruct (scope_okb_c g u) eqn:E; cbn [outcome] in Sc.
  2:{ destruct Sc as (e & v & ->). apply outcome_err. }
  rewrite Sc. cbn [bind]. rewrite from_string_c_addr.
  destruct (v6_addr_outcome a) as [(gs & _ & ->)|[(e & v & ->) _]]; [|apply outcome_err].
  cbn [bind]. rewrite with_scope_ok by assumption. apply outcome_ret.
Qed.
Lemma c_bad_loop g : forall p rest e v scope pos end_ip t, zlen t <= c_max g ->
  exists e' v', split_scope_loop_c g (chars p ++ Bad e v :: rest) pos end_ip scope (buf (c_max g + 1) t) (zlen t) = Err e' v'.
Proof.
  induction p as [|c p IH]; intros rest e v scope pos end_ip t Ht; cbn [chars map app split_scope_loop_c]; [eauto|].
  change (map Ch p) with (chars p). destruct scope; cbn [negb andb].
  - destruct (Z.gtb_spec (zlen t) (c_max g - 1)); [eauto|].
    destruct (invalid_symbol_c g c); [eauto|]. rewrite wr_buf by lia. cbn [bind].
    replace (zlen t + 1) with (zlen (t ++ [c])) by (autorewrite with zl; lia). apply IH. autorewrite with zl. lia.
  - destruct (c =? 37); cbn [negb]; apply IH; assumption.
Qed.
Lemma c_bad g p e v rest : cfg_ok g -> exists e' v', v6_from_string_c g true (chars p ++ Bad e v :: rest) = Err e' v'.
Proof.
  intros Hg. unfold cfg_ok in Hg. rewrite from_string_c_cons by (destruct p; discriminate). unfold split_scope_id_c. rewrite buf_nil.
  destruct (c_bad_loop g p rest e v false 0 0 [] ltac:(change (zlen (@nil Z)) with 0; lia)) as (e' & v' & E).
  change (zlen (@nil Z)) with 0 in E. rewrite E. cbn [bind]. eauto.
Qed.
Lemma c_defined g ts : cfg_ok g -> is_defined (v6_from_string_c g true ts).
Proof.
  intros Hg. destruct (toks_split ts) as [[s ->]|(p & e & v & r & ->)].
  - destruct (split_first 37 s) as [H|(a & t & -> & H)].
    + eapply outcome_defined, c_plain; assumption.
    + eapply outcome_defined, c_percent; assumption.
  - destruct (c_bad g p e v r Hg) as (e' & v' & ->). exact I.
Qed.
Lemma c_tokens g ts x : cfg_ok g -> v6_from_string_c g true ts = Ret x -> exists s, ts = chars s.
Proof.
  intros Hg H. destruct (toks_split ts) as [?|(p & e & v & r & ->)]; [assumption|].
  destruct (c_bad g p e v r Hg) as (e' & v' & E). congruence.
Qed.

Lemma okb_c_iff g u : scope_okb_c g u = true <-> zlen u <= c_max g /\ Forall (scope_char_of (c_spaces g)) u /\ cut u <> [].
Proof.
  unfold scope_okb_c. rewrite !andb_true_iff, forallb_forall, Forall_forall.
  assert (A : negb (hd 0 u =? 0) = true <-> cut u <> []).
  { destruct u as [|c u]; cbn; [split; [discriminate|intros K; destruct K; reflexivity]|].
    destruct (Z.eqb_spec c 0); cbn; split; try discriminate; auto; intros K; destruct K; reflexivity. }
  rewrite A. split.
  - intros [[F H] N]. split; [lia|]. split; [|exact N]. intros x Hx. apply F in Hx. apply invalid_c_iff.
    destruct (invalid_symbol_c g x); [discriminate|reflexivity].
  - intros (H & F & N). split; [split|exact N]; [|lia]. intros x Hx. apply F, invalid_c_iff in Hx. rewrite Hx. reflexivity.
Qed.
Lemma addr_loose a b : v6_addr a = Ret b <-> exists gs, v6_loose a gs /\ b = group_bytes gs.
Proof. rewrite v6_addr_iff. split; intros (gs & R & E); exists gs; (split; [apply raw_loose; exact R|exact E]). Qed.

Lemma c_exact g s b t : cfg_ok g ->
  v6_from_string_c g true (chars s) = Ret (b, t) <-> exists gs, v6_loose_for (c_max g) (c_spaces g) s gs t /\ b = group_bytes gs.
Proof.
  intros Hg. destruct (split_first 37 s) as [H|(a & u & -> & H)].
  - rewrite (outcome_iff _ _ _ (c_plain g s Hg H)). split.
    + destruct (v6_addr s) as [b'| |] eqn:E; try discriminate. intros [= <- <-]. apply addr_loose in E as (gs & R & ->).
      exists gs. split; [left; auto|reflexivity].
    + intros (gs & [(_ & R & ->)|(a & u & -> & _)] & ->).
      * assert (v6_addr s = Ret (group_bytes gs)) as -> by (apply addr_loose; eauto). reflexivity.
      * destruct H. apply in_app_iff. right. left. reflexivity.
  - rewrite (outcome_iff _ _ _ (c_percent g a u Hg H)). split.
    + destruct (scope_okb_c g u) eqn:O; [|discriminate]. destruct (v6_addr a) as [b'| |] eqn:E; try discriminate. intros [= <- <-].
      apply addr_loose in E as (gs & R & ->). apply okb_c_iff in O as (L & F & N).
      exists gs. split; [right|reflexivity]. exists a, u. do 5 (split; [auto|]). split; [apply before_cut|exact N].
    + intros (gs & [(N & _)|(a' & u' & E & N & R & L & F & B & Nt)] & ->).
      * destruct N. apply in_app_iff. right. left. reflexivity.
      * apply sep_unique in E as [<- <-]; [|assumption..]. apply before_is in B. subst t.
        assert (v6_addr a = Ret (group_bytes gs)) as -> by (apply addr_loose; eauto).
        assert (scope_okb_c g u = true) as -> by (apply okb_c_iff; auto). reflexivity.
Qed.

(** Larger settings accept more, with the same result. *)
Lemma c_monotone g g' ts x : cfg_ok g -> cfg_ok g' -> c_max g <= c_max g' -> (c_spaces g = true -> c_spaces g' = true) ->
  v6_from_string_c g true ts = Ret x -> v6_from_string_c g' true ts = Ret x.
Proof.
  intros Hg Hg' Hm Hs E. destruct (c_tokens g ts x Hg E) as (s & ->). destruct x as [b t]. apply c_exact in E as (gs & L & ->); [|exact Hg].
  apply c_exact; [exact Hg'|]. exists gs. split; [|reflexivity]. destruct L as [L|(a & u & -> & N & R & L & F & B & Nt)]; [left; exact L|right].
  exists a, u. do 3 (split; [auto|]). split; [lia|]. split; [|auto]. eapply Forall_impl; [|exact F].
  unfold scope_char_of. intros c (A1 & A2 & A3). split; [exact A1|]. split; [exact A2|]. intros Q. apply A3.
  destruct (c_spaces g); [rewrite Hs in Q by reflexivity; discriminate|reflexivity].
Qed.
(** Scope ids switched off: exactly the addresses without scope id. *)
Lemma c_off sp s b t : v6_from_string_c (mk_cfg 0 sp) true (chars s) = Ret (b, t) <->
  ~ In 37 s /\ v6_from_string true (chars s) = Ret (b, t).
Proof.
  rewrite c_exact by (unfold cfg_ok; cbn; lia). rewrite v6_exact. cbn [c_max c_spaces]. split.
  - intros (gs & [(H & R & ->)|(a & u & -> & _ & _ & L & _ & B & N)] & ->).
    + split; [exact H|]. exists gs. split; [left; auto|reflexivity].
    + destruct N. assert (u = []) as -> by (destruct u; [reflexivity|autorewrite with zl in L; pose proof (zlen_nonneg u); lia]).
      apply before_is in B. subst. reflexivity.
  - intros (H & gs & [(_ & R & ->)|(a & u & -> & _)] & ->).
    + exists gs. split; [left; auto|reflexivity].
    + destruct H. apply in_app_iff. right. left. reflexivity.
Qed.

(** ** The default configuration is the model used everywhere else *)
Lemma invalid_default c : invalid_symbol_c default_config c = is_invalid_scope_id_symbol c.
Proof. unfold invalid_symbol_c, is_invalid_scope_id_symbol, default_config. cbn [c_spaces]. destruct (c =? 37), (c =? 47); reflexivity. Qed.
Lemma split_default : forall ts pos e sc t k,
  split_scope_loop_c default_config ts pos e sc t k = split_scope_loop ts pos e sc t k.
Proof.
  induction ts as [|[c|e v] ts IH]; intros; cbn [split_scope_loop_c split_scope_loop]; try reflexivity.
  rewrite invalid_default. change (c_max default_config) with scope_max.
  destruct (negb sc && negb (c =? 37)); [apply IH|]. destruct sc; [|apply IH].
  destruct (k >? scope_max - 1); [reflexivity|]. destruct (is_invalid_scope_id_symbol c); [reflexivity|].
  destruct (wr t k c); cbn [bind]; [apply IH|reflexivity..].
Qed.
Lemma default_parse le ts : v6_from_string_c default_config le ts = v6_from_string le ts.
Proof.
  unfold v6_from_string_c, v6_from_string, split_scope_id_c, split_scope_id. rewrite split_default. reflexivity.
Qed.
Lemma default_text bytes t fmt : v6_to_string_c default_config bytes t fmt = v6_to_string bytes t fmt.
Proof. reflexivity. Qed.
Lemma set_loop_default : forall ts i str, set_scope_loop_c default_config ts i str = set_scope_loop ts i str.
Proof.
  induction ts as [|[c|e v] ts IH]; intros; cbn [set_scope_loop_c set_scope_loop]; try reflexivity.
  rewrite invalid_default. destruct (is_invalid_scope_id_symbol c); [reflexivity|]. destruct (wr str i c); cbn [bind]; [apply IH|reflexivity..].
Qed.

(** ** The texts written *)
Lemma c_to_string g gs t fmt : length gs = 8%nat -> Forall is_group gs -> zlen t <= c_max g ->
  exists x, fmt_text fmt gs x /\ v6_to_string_c g (group_bytes gs) t fmt = Ret (x ++ scope_suffix t) /\ zlen (x ++ scope_suffix t) <= 41 + c_max g.
Proof.
  intros L HF Hs. destruct (v6_to_chars_c_ok g gs t fmt L HF Hs) as (x & Ht & E & Hl). exists x. split; [assumption|]. split; [|assumption].
  unfold v6_to_string_c. rewrite E. cbn [bind]. set (y := x ++ scope_suffix t) in *.
  rewrite zlen_buf by (autorewrite with zl; lia). destruct (Z.leb_spec (zlen y) (41 + c_max g + 1)); [|lia].
  rewrite to_nat_zlen. f_equal. unfold buf. rewrite <- app_assoc, firstn_app, firstn_all, Nat.sub_diag. apply app_nil_r.
Qed.
Lemma c_text g bs t fmt : cfg_ok g -> bytes_ok V6 bs -> zlen t <= c_max g ->
  exists gs x, length gs = 8%nat /\ Forall is_group gs /\ bs = group_bytes gs /\ text_in fmt gs x /\
    v6_to_string_c g bs t fmt = Ret (x ++ scope_suffix t) /\ zlen (x ++ scope_suffix t) <= 41 + c_max g.
Proof.
  intros _ Hb Ht. destruct (bytes16 bs Hb) as (gs & L & HF & ->). destruct (c_to_string g gs t fmt L HF Ht) as (x & F & E & Hl).
  exists gs, x. do 3 (split; [auto|]). split; [apply fmt_spec; assumption|]. auto.
Qed.
Lemma c_round_trip g bs t fmt : cfg_ok g -> bytes_ok V6 bs -> scope_id_of (c_max g) (c_spaces g) t ->
  exists s, v6_to_string_c g bs t fmt = Ret s /\ v6_from_string_c g true (chars s) = Ret (bs, t).
Proof.
  intros Hg Hb (Lt & Nt & Ft). destruct (bytes16 bs Hb) as (gs & L & HF & ->).
  destruct (c_to_string g gs t fmt L HF Lt) as (x & F & E & _). exists (x ++ scope_suffix t). split; [exact E|].
  destruct (fmt_v6_text fmt gs x L HF F) as [Hv H46].
  assert (Nx : no_nul x) by (unfold no_nul; eapply text_not; [eassumption|unfold addr_char; lia]).
  assert (N37 : ~ In 37 x) by (eapply text_not; [eassumption|unfold addr_char; lia]).
  assert (R : v6_loose x gs). { apply raw_loose, raw_iff; [exact Nx|]. split; [exact Hv|]. intros C. apply long_quad_dot in C. contradiction. }
  apply c_exact; [exact Hg|]. exists gs. split; [|reflexivity]. destruct t as [|c t].
  - left. cbn [scope_suffix]. rewrite app_nil_r. auto.
  - right. exists x, (c :: t). cbn [scope_suffix]. do 5 (split; [auto|]). split; [split; [exact Nt|left; reflexivity]|discriminate].
Qed.
Lemma c_parsed g s bs t : cfg_ok g -> v6_from_string_c g true (chars s) = Ret (bs, t) -> scope_id_of (c_max g) (c_spaces g) t.
Proof.
  intros Hg E. apply c_exact in E as (gs & [(_ & _ & ->)|(a & u & _ & _ & _ & L & F & B & _)] & _); [| |exact Hg].
  - unfold scope_id_of, cfg_ok in *. change (zlen (@nil Z)) with 0. split; [lia|]. split; [intros []|constructor].
  - destruct B as (N & [->|(r & ->)]); [split; [exact L|split; assumption]|].
    rewrite zlen_app, zlen_cons in L. pose proof (zlen_nonneg r). split; [lia|]. split; [exact N|]. apply Forall_app in F as [F _]. exact F.
Qed.

(** ** The setter *)
Lemma c_set_loop g : forall s pre, zlen pre + zlen s <= c_max g ->
  outcome (set_scope_loop_c g (chars s) (zlen pre) (buf (c_max g + 1) pre)) 
    (if forallb (fun c => negb (invalid_symbol_c g c)) s then Some (buf (c_max g + 1) (pre ++ s)) else None).
Proof.
  induction s as [|c s IH]; intros pre H; cbn [chars map set_scope_loop_c forallb].
  - rewrite app_nil_r. reflexivity.
  - destruct (invalid_symbol_c g c); cbn [negb andb]; [apply outcome_err|].
    autorewrite with zl in H. pose proof (zlen_nonneg s).
    rewrite wr_buf by lia. cbn [bind]. replace (zlen pre + 1) with (zlen (pre ++ [c])) by (autorewrite with zl; lia).
    replace (pre ++ c :: s) with ((pre ++ [c]) ++ s) by (rewrite <- app_assoc; reflexivity). apply IH. autorewrite with zl. lia.
Qed.
Lemma c_chars_iff g s : forallb (fun c => negb (invalid_symbol_c g c)) s = true <-> Forall (scope_char_of (c_spaces g)) s.
Proof.
  rewrite forallb_forall, Forall_forall. split; intros H c Hc; specialize (H c Hc).
  - apply invalid_c_iff. destruct (invalid_symbol_c g c); [discriminate|reflexivity].
  - apply invalid_c_iff in H. rewrite H. reflexivity.
Qed.
Lemma c_set_loop_err g : forall s i str e v, set_scope_loop_c g (chars s) i str = Err e v -> e = invalid_scope_id.
Proof.
  induction s as [|c s IH]; intros i str e v; cbn [chars map set_scope_loop_c]; [discriminate|].
  destruct (invalid_symbol_c g c); [congruence|]. unfold wr. destruct (i <? 0); [discriminate|]. destruct (upd str (Z.to_nat i) c); cbn [bind]; [apply IH|discriminate].
Qed.
(** What the setter does with every string. *)
Lemma c_set g old code s : cfg_ok g -> 
  v6_set_scope_c g old code (zlen s) (chars s) =
    if c_max g >? 0 then
      if zlen s >? c_max g then Ret (old, scope_id_is_too_long)
      else if forallb (fun c => negb (invalid_symbol_c g c)) s then Ret (cut s, no_error) else Ret (old, invalid_scope_id)
    else Ret (old, code).
Proof.
  unfold cfg_ok. intros Hg. unfold v6_set_scope_c. destruct (Z.gtb_spec (c_max g) 0) as [P|P]; [|reflexivity].
  destruct (Z.gtb_spec (zlen s) (c_max g)) as [Q|Q]; [reflexivity|].
  pose proof (c_set_loop g s [] ltac:(change (zlen (@nil Z)) with 0; lia)) as O.
  replace (buf (c_max g + 1) []) with (repeat 0 (Z.to_nat (c_max g + 1))) in O
    by (unfold buf; cbn [app length]; rewrite Nat.sub_0_r; reflexivity).
  change (zlen (@nil Z)) with 0 in O. cbn [app] in O.
  destruct (forallb _ s) eqn:EF; cbn [outcome] in O.
  - rewrite O. cbn [bind]. destruct (fs_make_cut (Z.to_nat (c_max g)) (buf (c_max g + 1) s) (cut s)) as (f & E & Hf).
    + unfold buf. rewrite app_length, repeat_length. unfold zlen in *. lia.
    + unfold buf. destruct (Z.to_nat (c_max g + 1) - length s)%nat eqn:EN; [unfold zlen in *; lia|]. cbn [repeat]. apply c_string_cut. unfold zlen in *. lia.
    + rewrite E. cbn [bind]. rewrite Hf. reflexivity.
  - destruct O as (e & v & O). rewrite O. cbn [bind]. rewrite (c_set_loop_err _ _ _ _ _ _ O). reflexivity.
Qed.
Lemma c_set_ok g old code s t : cfg_ok g -> 0 < c_max g ->
  (v6_set_scope_c g old code (zlen s) (chars s) = Ret (t, no_error) <->
   zlen s <= c_max g /\ Forall (scope_char_of (c_spaces g)) s /\ before_nul s t).
Proof.
  intros Hg P. rewrite c_set by exact Hg. rewrite <- c_chars_iff. destruct (Z.gtb_spec (c_max g) 0); [|lia].
  destruct (Z.gtb_spec (zlen s) (c_max g)); [split; [intros [=]|intros; lia]|].
  destruct (forallb _ s).
  - split; [intros [= <-]; do 2 (split; [auto|]); apply before_cut|]. intros (_ & _ & B). rewrite (before_is s t B). reflexivity.
  - split; [intros [=]|]. intros (_ & C & _). discriminate.
Qed.
Lemma c_set_fail g old code s : cfg_ok g -> 0 < c_max g ->
  (v6_set_scope_c g old code (zlen s) (chars s) = Ret (old, scope_id_is_too_long) <-> c_max g < zlen s) /\
  (v6_set_scope_c g old code (zlen s) (chars s) = Ret (old, invalid_scope_id) <->
   zlen s <= c_max g /\ ~ Forall (scope_char_of (c_spaces g)) s).
Proof.
  intros Hg P. rewrite c_set by exact Hg. rewrite <- c_chars_iff. destruct (Z.gtb_spec (c_max g) 0); [|lia].
  destruct (Z.gtb_spec (zlen s) (c_max g)); [split; split; try (intros [=]; fail); intros; try lia; reflexivity|].
  destruct (forallb _ s); split; split; try (intros [=]; fail); intros; try lia; try tauto; try reflexivity.
Qed.
Lemma c_set_off spaces old code n ts : v6_set_scope_c (mk_cfg 0 spaces) old code n ts = Ret (old, code).
Proof. reflexivity. Qed.
Lemma c_set_default old code n ts : v6_set_scope_c default_config old code n ts =
  match v6_set_scope n ts with Ret t => Ret (t, no_error) | Err e _ => Ret (old, e) | UB u => UB u end.
Proof.
  unfold v6_set_scope_c, v6_set_scope, default_config, scope_max; cbn [c_max c_spaces]. change (16 >? 0) with true. cbv iota.
  destruct (n >? 16); [reflexivity|]. rewrite set_loop_default. change (Z.to_nat (16 + 1)) with 17%nat. change (Z.to_nat 16) with 16%nat.
  reflexivity.
Qed.
Lemma c_values : (forall b x, 0 <= config_max b x <= 64) /\ (forall n, 0 <= n <= 64 -> config_max false (Some n) = n) /\
  (forall n, n < 0 -> config_max false (Some n) = 0) /\ (forall n, 64 < n -> config_max false (Some n) = 64) /\
  (forall x, config_max true x = 0) /\ config_max false None = 16.
Proof.
  split; [intros b x; apply (config_max_ok b x true)|].
  split; [|split; [|split; [|split; reflexivity]]]; intros n Hn; unfold config_max; destruct (Z.ltb_spec n 0); try lia; destruct (Z.gtb_spec n 64); lia.
Qed.
Lemma c_default : (forall le ts, v6_from_string_c default_config le ts = v6_from_string le ts) /\
  (forall bs t fmt, v6_to_string_c default_config bs t fmt = v6_to_string bs t fmt) /\
  (forall old code n ts, v6_set_scope_c default_config old code n ts =
     match v6_set_scope n ts with Ret t => Ret (t, no_error) | Err e _ => Ret (old, e) | UB u => UB u end).
Proof. split; [exact default_parse|]. split; [exact default_text|exact c_set_default]. Qed.
