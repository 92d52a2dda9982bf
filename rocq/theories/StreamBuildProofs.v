(** Text in several character types and the stream operators in every build. *)
From Coq Require Import String.
From Verif Require Import Base Tac TextProofs UnicodeModel FixedStringModel V4Model V6Model Uint128Model
  SpecText SpecAddr SpecStr SpecV6 StrProofs V6Full
  AddressModel SpecOrder AddressProofs NetworkModel SpecNet ErrProofs NetText NetText3
  AnyModel SpecAny AnyProofs CodeModel SpecCode CodeProofs ConfigModel SpecConfig ConfigProofs NetConfigModel SpecNetConfig NetConfigProofs NetConfigProofs3
  StreamModel SpecStream StreamProofs StreamProofs2 StreamProofs3 LiteralModel SpecLiteral SpecScope MacroModel SpecMacro MacroProofs MacroProofs2 MacroProofs3 MacroProofs4 MacroProofs5
  NetOpsConfigModel AnyConfigModel SpecAnyConfig AnyConfigProofs AnyConfigProofs2 SpecStreamBuild.
Close Scope string_scope.

(** ** The shape of a text *)
Definition shape_c (g : config) (o : obj) (s t q : list Z) : Prop :=
  s = t ++ q /\ t <> [] /\ Forall is_ascii t /\ ~ In 37 t /\ (q = [] \/ exists r, q = 37 :: r) /\ (unbroken o -> Forall (fun c => ~ blank c) (t ++ q)) /\
  Forall is_char q /\ (Forall is_ascii (scope_of o) -> Forall is_ascii q) /\
  forall up strict, read_by g (kind_of o) strict (chars (kase up t ++ q)) = Ret o.
Definition suffix_good (sc : list Z) : Prop := let q := scope_suffix sc in
  Forall is_char q /\ (Forall (fun c => ~ blank c) sc -> Forall (fun c => ~ blank c) q) /\ (Forall is_ascii sc -> Forall is_ascii q) /\ (q = [] \/ exists r, q = 37 :: r).
Lemma suffix_v4 a : wf_addr V4 a -> suffix_good (a_scope a).
Proof. intros W. destruct (suffix_facts V4 a W) as (Q1 & _ & _ & Q4 & Q5 & Q6). unfold suffix_good. auto. Qed.
Lemma suffix_v6 g a : addr_for (c_max g) (c_spaces g) a -> suffix_good (a_scope a).
Proof. intros W. destruct (suffix_c g a W) as (Q1 & _ & _ & Q4 & Q5 & Q6). unfold suffix_good. auto. Qed.
Lemma addr_shape_o g o sc t : scope_of o = sc -> suffix_good sc -> Forall addr_char t -> t <> [] ->
  (forall up strict, read_by g (kind_of o) strict (chars (kase up t ++ scope_suffix sc)) = Ret o) -> shape_c g o (t ++ scope_suffix sc) t (scope_suffix sc).
Proof.
  intros Sc (Q1 & Q4 & Q5 & Q6) C N P. destruct (addr_facts t C) as (A1 & A2 & A3). unfold shape_c, unbroken. rewrite Sc.
  split; [reflexivity|]. split; [exact N|]. split; [exact A1|]. split; [exact A2|]. split; [exact Q6|]. split; [intros K; apply Forall_app; auto|]. auto.
Qed.
Lemma net_shape_o g o sc t d : scope_of o = sc -> suffix_good sc -> Forall addr_char t -> t <> [] -> Forall is_dec_digit d ->
  (forall up strict, read_by g (kind_of o) strict (chars (kase up t ++ scope_suffix sc ++ 47 :: d)) = Ret o) -> exists t' q, shape_c g o (t ++ scope_suffix sc ++ 47 :: d) t' q.
Proof.
  intros Sc (Q1 & Q4 & Q5 & Q6) C N D P. destruct (addr_facts t C) as (A1 & A2 & A3). destruct (dec_facts d D) as (D1 & D2 & D3 & D4 & D5).
  unfold shape_c, unbroken. rewrite Sc. destruct Q6 as [Q6|[r Q6]].
  - rewrite Q6 in *. cbn [app] in *. exists (t ++ 47 :: d), []. rewrite app_nil_r. split; [reflexivity|].
    split; [destruct t; discriminate|]. split; [apply Forall_app; split; [exact A1|constructor; [unfold is_ascii; lia|exact D1]]|].
    split; [intros K; apply in_app_iff in K as [K|[K|K]]; [auto|discriminate|auto]|]. split; [left; reflexivity|].
    split; [intros _; apply Forall_app; split; [exact A3|constructor; [unfold blank; lia|exact D3]]|]. split; [constructor|]. split; [constructor|].
    intros up strict. rewrite app_nil_r. assert (X : kase up (t ++ 47 :: d) = kase up t ++ 47 :: d).
    { destruct up; cbn [kase]; [|reflexivity]. rewrite map_app. cbn [map]. rewrite D5. reflexivity. }
    rewrite X. apply P.
  - exists t, (scope_suffix sc ++ 47 :: d). split; [reflexivity|]. split; [exact N|]. split; [exact A1|]. split; [exact A2|].
    split; [right; rewrite Q6; cbn [app]; eauto|]. split; [intros K; apply Forall_app; split; [exact A3|]; apply Forall_app; split; [exact (Q4 K)|constructor; [unfold blank; lia|exact D3]]|].
    split; [apply Forall_app; split; [exact Q1|constructor; [unfold is_char; lia|exact D4]]|].
    split; [intros K; apply Forall_app; split; [exact (Q5 K)|constructor; [unfold is_ascii; lia|exact D1]]|]. exact P.
Qed.
Lemma any_read_c g s strict x : cfg_ok g -> match aa_ver x with V4 => addr_parse V4 (chars s) = Ret (aa_addr x) | V6 => v6_from_string_c g true (chars s) = Ret (a_bytes (aa_addr x), a_scope (aa_addr x)) end ->
  read_by g KAny strict (chars s) = Ret (OAny x).
Proof.
  intros C H. destruct (any_c_spec g (chars s) C (genuine_chars s)) as (P4 & P6 & _). cbn [read_by]. destruct x as [[|] a]; cbn [aa_ver aa_addr] in H.
  - apply P4 in H. rewrite H. reflexivity.
  - assert (K : addr_parse_c g (chars s) = Ret a) by (unfold addr_parse_c; rewrite H; destruct a; reflexivity). apply P6 in K. rewrite K. reflexivity.
Qed.
Lemma anet_read_c g s strict n : cfg_ok g -> Forall is_char s -> net_parse_c g (chars s) strict = Ret n -> read_by g KAnyNet strict (chars s) = Ret (OAnyNet (mk_an V6 n)).
Proof.
  intros C H E. pose proof (anet_text_c (mk_build g false true) s strict C H) as (_ & P6 & _). cbv zeta in P6. rewrite plain_strings in P6. apply P6. exact E.
Qed.
Lemma obj_shape_c g o fmt : cfg_ok g -> obj_for (c_max g) (c_spaces g) o -> exists s t q, obj_string_c g o fmt = Ret s /\ shape_c g o s t q.
Proof.
  intros C. destruct o as [[|] a|[|] n|[[|] a]|[[|] n]]; unfold obj_for, any_for, anet_for; cbn [obj_string_c aa_ver aa_addr an_ver an_net]; intros W.
  - destruct (addr_shape V4 a fmt W) as (t & E & Ct & N & _ & P). exists (t ++ scope_suffix (a_scope a)), t, (scope_suffix (a_scope a)). split; [exact E|].
    apply addr_shape_o; [reflexivity|exact (suffix_v4 a W)|exact Ct|exact N|]. intros up strict. cbn [kind_of read_by]. rewrite P. reflexivity.
  - destruct (addr_shape_c g a fmt C W) as (t & E & Ct & N & _ & P). exists (t ++ scope_suffix (a_scope a)), t, (scope_suffix (a_scope a)). split; [exact E|].
    apply addr_shape_o; [reflexivity|exact (suffix_v6 g a W)|exact Ct|exact N|]. intros up strict. cbn [kind_of read_by]. unfold addr_parse_c. rewrite P. destruct a; reflexivity.
  - destruct (net_shape V4 n fmt W) as (t & d & E & Ct & N & D & P). exists (t ++ scope_suffix (a_scope (n_addr n)) ++ 47 :: d).
    edestruct (net_shape_o g (ONet V4 n) (a_scope (n_addr n)) t d) as (t' & q & K); [reflexivity|exact (suffix_v4 _ (proj1 W))|exact Ct|exact N|exact D| |exists t', q; split; [exact E|exact K]].
    intros up strict. cbn [kind_of read_by]. rewrite P. reflexivity.
  - destruct (net_shape_c g n fmt C W) as (t & d & E & Ct & N & D & P). exists (t ++ scope_suffix (a_scope (n_addr n)) ++ 47 :: d).
    edestruct (net_shape_o g (ONet V6 n) (a_scope (n_addr n)) t d) as (t' & q & K); [reflexivity|exact (suffix_v6 g _ (proj1 W))|exact Ct|exact N|exact D| |exists t', q; split; [exact E|exact K]].
    intros up strict. cbn [kind_of read_by]. rewrite P. reflexivity.
  - destruct (addr_shape V4 a fmt W) as (t & E & Ct & N & _ & P). exists (t ++ scope_suffix (a_scope a)), t, (scope_suffix (a_scope a)). split; [exact E|].
    apply addr_shape_o; [reflexivity|exact (suffix_v4 a W)|exact Ct|exact N|]. intros up strict. apply any_read_c; [exact C|exact (P up)].
  - destruct (addr_shape_c g a fmt C W) as (t & E & Ct & N & _ & P). exists (t ++ scope_suffix (a_scope a)), t, (scope_suffix (a_scope a)). split; [exact E|].
    apply addr_shape_o; [reflexivity|exact (suffix_v6 g a W)|exact Ct|exact N|]. intros up strict. apply any_read_c; [exact C|exact (P up)].
  - destruct (net_shape V4 n fmt W) as (t & d & E & Ct & N & D & P). exists (t ++ scope_suffix (a_scope (n_addr n)) ++ 47 :: d).
    edestruct (net_shape_o g (OAnyNet (mk_an V4 n)) (a_scope (n_addr n)) t d) as (t' & q & K); [reflexivity|exact (suffix_v4 _ (proj1 W))|exact Ct|exact N|exact D| |exists t', q; split; [exact E|exact K]].
    intros up strict. cbn [kind_of read_by]. rewrite P. reflexivity.
  - destruct (net_shape_c g n fmt C W) as (t & d & E & Ct & N & D & P). exists (t ++ scope_suffix (a_scope (n_addr n)) ++ 47 :: d).
    edestruct (net_shape_o g (OAnyNet (mk_an V6 n)) (a_scope (n_addr n)) t d) as (t' & q & K); [reflexivity|exact (suffix_v6 g _ (proj1 W))|exact Ct|exact N|exact D| |exists t', q; split; [exact E|exact K]].
    intros up strict. apply anet_read_c; [exact C|exact (net_chars_c g n up t d W Ct D)|apply P].
Qed.

(** ** Reading back *)
Lemma shape_c_char g o s t q up : shape_c g o s t q -> Forall is_char (kase up t ++ q).
Proof. intros (_ & _ & At & _ & _ & _ & Cq & _). apply Forall_app. split; [apply ascii_char, kase_ascii, At|exact Cq]. Qed.
Lemma shape_c_reads b T o s t q up strict : shape_c (b_cfg b) o s t q -> readable_in b T o ->
  convert T (kase up t ++ q) = kase up t ++ q /\ Forall (unit_ok T) (kase up t ++ q) /\ b_string_of b T (kind_of o) strict (kase up t ++ q) = Ret o.
Proof.
  intros S0 R. pose proof (shape_c_char _ o s t q up S0) as Ch0. destruct S0 as (_ & _ & At & _ & _ & _ & _ & Aq & P). destruct R as [[-> E]|R].
  - split; [apply convert_char|]. split; [exact Ch0|]. rewrite b_string_eq by apply char_units. cbn [reader_b]. unfold inner_b. rewrite E, char_tokens. cbn [bind].
    rewrite P. apply hush_ret.
  - assert (A : Forall is_ascii (kase up t ++ q)) by (apply Forall_app; split; [apply kase_ascii; exact At|exact (Aq R)]).
    assert (U : Forall (unit_ok T) (kase up t ++ q)) by (eapply Forall_impl; [apply ascii_unit|exact A]).
    split; [apply convert_ascii; exact A|]. split; [exact U|]. rewrite b_string_eq by (apply units_ok; exact U). rewrite tokens_plain_b by exact A. cbn [bind].
    rewrite P. apply hush_ret.
Qed.
Lemma obj_text_c_eq g T o fmt s : obj_string_c g o fmt = Ret s -> obj_text_c g T o fmt = Ret (convert T s).
Proof.
  destruct o as [[|] a|[|] n|x|x]; cbn [obj_string_c obj_text_c]; unfold addr_to_text_c, net_to_text_c, any_to_text_c, anet_to_text_c, any_to_string_c, anet_to_string_c;
    try (intros ->; reflexivity).
  - destruct (ver_eqb _ _); unfold addr_to_text_c; intros ->; reflexivity.
  - destruct (anet_is_v4 x); unfold net_to_text_c; intros ->; reflexivity.
Qed.
Lemma text_build b T o fmt strict : cfg_ok (b_cfg b) -> obj_for (c_max (b_cfg b)) (c_spaces (b_cfg b)) o -> readable_in b T o ->
  exists s, obj_string_c (b_cfg b) o fmt = Ret s /\ obj_text_c (b_cfg b) T o fmt = Ret s /\ b_string_of b T (kind_of o) strict s = Ret o.
Proof.
  intros C W R. destruct (obj_shape_c _ o fmt C W) as (s & t & q & E & S0). exists s. split; [exact E|]. rewrite (obj_text_c_eq _ T o fmt s E).
  destruct (shape_c_reads b T o s t q false strict S0 R) as (K & _ & P). cbn [kase] in *. destruct S0 as (-> & _). rewrite K. auto.
Qed.

(** ** Insertion *)
Lemma shape_c_cased g o s t q up : shape_c g o s t q -> cased up s (kase up t ++ q) /\ (if up then upper_until s else Ret s) = Ret (kase up t ++ q).
Proof.
  intros (-> & _ & A & N & Q & _). destruct up; cbn [cased kase]; [|auto]. split; [exists t, q; auto|]. apply upper_until_ok; assumption.
Qed.
Lemma obj_put_c_eq g T o : obj_put_c g T o = put_fmt T (obj_string_c g o).
Proof. destruct o as [[|] a|[|] n|x|x]; reflexivity. Qed.
Lemma put_ok_c g T o os f : cfg_ok g -> obj_for (c_max g) (c_spaces g) o -> o_fail os = false -> wanted (o_fmt os) f ->
  exists s s' out, obj_string_c g o f = Ret s /\ cased (o_upper os) s s' /\ SpecStream.padded (o_width os) (o_left os) (o_fill os) (map (conv T) s') out /\
    obj_put_c g T o os = Ret (mk_os (o_out os ++ out) false (o_upper os) (o_left os) (o_hex os) (o_oct os) 0 (o_fill os) 0).
Proof.
  intros Cg W F H. apply wanted_fmt in H. destruct (obj_shape_c g o f Cg W) as (s & t & q & E & S0). destruct (shape_c_cased g o s t q (o_upper os) S0) as [C U].
  destruct (os_write_good (convert T (kase (o_upper os) t ++ q)) (o_set_fmt os 0) F) as (out & P & Q).
  exists s, (kase (o_upper os) t ++ q), out. split; [exact E|]. split; [exact C|]. split; [exact P|].
  rewrite obj_put_c_eq. unfold put_fmt. rewrite H, E. cbn [bind]. change (o_upper (o_set_fmt os 0)) with (o_upper os). rewrite U. cbn [bind]. rewrite Q. reflexivity.
Qed.
Lemma put_failed_c g T o os f : cfg_ok g -> obj_for (c_max g) (c_spaces g) o -> o_fail os = true -> wanted (o_fmt os) f -> obj_put_c g T o os = Ret (o_set_fmt os 0).
Proof.
  intros Cg W F H. apply wanted_fmt in H. destruct (obj_shape_c g o f Cg W) as (s & t & q & E & S0). destruct (shape_c_cased g o s t q (o_upper os) S0) as [_ U].
  rewrite obj_put_c_eq. unfold put_fmt. rewrite H, E. cbn [bind]. change (o_upper (o_set_fmt os 0)) with (o_upper os). rewrite U. cbn [bind].
  unfold os_write. change (o_fail (o_set_fmt os 0)) with (o_fail os). rewrite F. reflexivity.
Qed.
Lemma put_all_c_ok g T : cfg_ok g -> forall l os, Forall (fun x => obj_for (c_max g) (c_spaces g) (snd x)) l -> o_fail os = false -> o_width os = 0 -> o_fmt os = 0 ->
  exists txt, words_c g T (o_upper os) l txt /\
    put_all_c g T l os = Ret (mk_os (o_out os ++ txt) false (o_upper os) (o_left os) (o_hex os) (o_oct os) 0 (o_fill os) 0).
Proof.
  intros Cg. induction l as [|[f o] l IH]; intros os W F Hw Hf; cbn [put_all_c].
  - exists []. split; [constructor|]. rewrite app_nil_r. destruct os. cbn in *. subst. reflexivity.
  - inversion W as [|? ? Wo Wl]; subst. cbn [snd] in Wo.
    set (os1 := match f with Some f => manip f os | None => os end). set (h := match f with Some f => f | None => compressed end).
    assert (Hg : wanted (o_fmt os1) h). { subst os1 h. destruct f; [apply manip_wanted|]. left. auto. }
    assert (E1 : o_fail os1 = false /\ o_width os1 = 0 /\ o_upper os1 = o_upper os /\ o_left os1 = o_left os /\ o_hex os1 = o_hex os /\ o_oct os1 = o_oct os /\
      o_fill os1 = o_fill os /\ o_out os1 = o_out os). { subst os1. destruct f; cbn; auto 10. }
    destruct E1 as (F1 & W1 & U1 & L1 & H1 & O1 & Fi1 & Ou1).
    destruct (put_ok_c g T o os1 h Cg Wo F1 Hg) as (s & s' & out & E & C & P & Q). rewrite Q. cbn [bind]. apply padded_zero in P; [|lia]. subst out.
    rewrite U1, L1, H1, O1, Fi1, Ou1 in *.
    set (os2 := mk_os (o_out os ++ map (conv T) s') false (o_upper os) (o_left os) (o_hex os) (o_oct os) 0 (o_fill os) 0).
    destruct (os_write_good [32] os2 eq_refl) as (out2 & P2 & Q2). apply padded_zero in P2; [|subst os2; cbn; lia]. subst out2. rewrite Q2. clear Q2.
    subst os2. cbn [o_out o_upper o_left o_hex o_oct o_fill o_fmt].
    match goal with |- context [put_all_c g T l ?x] => destruct (IH x Wl eq_refl eq_refl eq_refl) as (txt & Wd & R) end. cbn [o_out o_upper o_left o_hex o_oct o_fill o_fmt] in Wd, R.
    exists (map (conv T) s' ++ 32 :: txt). split; [econstructor; eassumption|]. rewrite R. do 2 f_equal. rewrite <- !app_assoc. reflexivity.
Qed.

(** ** Extraction *)
Lemma obj_get_b_eq b T k i w i' : is_read (strictly k i) = (w, i') ->
  obj_get_b b T k i = (r <- b_coded_of b T k (i_strict i =? 0) w no_error ;; Ret (fst r, if ec_eqb (snd r) no_error then i' else i_set_fail i')).
Proof.
  intros H. destruct k as [v|v| |]; cbn [obj_get_b b_coded_of strictly is_net] in *; unfold addr_get_b, net_get_b, any_get_b, anet_get_b, get_with_b, b_coded_of; rewrite H;
    (destruct (tokens (reader_b b T) w) as [ts|e x|u]; cbn [bind rmap]; [|reflexivity|reflexivity]).
  - destruct (parse_code_b b v ts no_error) as [[x e]|e x|u]; reflexivity.
  - destruct (net_parse_code_b b v ts _ no_error) as [[x e]|e x|u]; reflexivity.
  - destruct (any_parse_code_b b ts no_error) as [[x e]|e x|u]; reflexivity.
  - destruct (anet_parse_code_b b ts _ no_error) as [[x e]|e x|u]; reflexivity.
Qed.
Lemma took_part (P : Z -> Prop) i w i' : took i w i' -> Forall P (i_in i) -> Forall P w.
Proof.
  intros [B|? ? ? ?|b w0 r e _ _ E _ _ _ _] F; [constructor|constructor|]. rewrite E in F. apply Forall_app in F as [_ F]. apply Forall_app in F. apply F.
Qed.
Lemma strictly_in k i : i_eof (strictly k i) = i_eof i /\ i_fail (strictly k i) = i_fail i /\ i_skipws (strictly k i) = i_skipws i /\ i_in (strictly k i) = i_in i /\ i_width (strictly k i) = i_width i.
Proof. unfold strictly. destruct (is_net k); cbn; auto 10. Qed.
Lemma get_word_c b T k i w i' : took (strictly k i) w i' -> Forall (unit_ok T) w -> obj_get_b b T k i = got k i' (b_string_of (throwing b) T k (i_strict i =? 0) w).
Proof.
  intros H U. apply took_read in H. rewrite (obj_get_b_eq b T k i w i' H). pose proof (b_codes b T k (i_strict i =? 0) w no_error U) as K.
  destruct (b_string_of (throwing b) T k (i_strict i =? 0) w) as [o|e x|u].
  - rewrite K. reflexivity.
  - destruct K as [N K]. rewrite K. cbn [bind fst snd got]. rewrite ec_no_false by exact N. reflexivity.
  - rewrite K. reflexivity.
Qed.
Lemma get_ok_c b T k i w i' : took (strictly k i) w i' -> Forall (unit_ok T) (i_in i) -> obj_get_b b T k i = got k i' (b_string_of (throwing b) T k (i_strict i =? 0) w).
Proof.
  intros H U. apply get_word_c; [exact H|]. apply (took_part _ _ _ _ H). destruct (strictly_in k i) as (_ & _ & _ & -> & _). exact U.
Qed.
Lemma get_exists_c b T k i : Forall (unit_ok T) (i_in i) -> exists w i', took (strictly k i) w i' /\ obj_get_b b T k i = got k i' (b_string_of (throwing b) T k (i_strict i =? 0) w).
Proof. intros U. destruct (is_read (strictly k i)) as [w i'] eqn:E. apply read_took in E. exists w, i'. split; [exact E|apply get_ok_c; assumption]. Qed.
Lemma strict_get_c b T k i w i' : is_net k = true -> took (i_set_strict i 0) w i' -> Forall (unit_ok T) (i_in i) ->
  obj_get_b b T k (manip_strict i) = got k i' (b_string_of (throwing b) T k true w) /\ obj_get_b b T k (manip_non_strict i) = got k i' (b_string_of (throwing b) T k false w) /\ i_strict i' = 0.
Proof.
  intros N H U. split; [|split].
  - apply (get_ok_c b T k (manip_strict i)); [unfold strictly; rewrite N; exact H|exact U].
  - apply (get_ok_c b T k (manip_non_strict i)); [unfold strictly; rewrite N; exact H|exact U].
  - destruct H; reflexivity.
Qed.
Lemma v6_empty_c g : exists e x, v6_from_string_c g true [] = Err e x.
Proof. eexists _, _. reflexivity. Qed.
Lemma net_empty_c g strict : cfg_ok g -> exists e x, net_parse_c g [] strict = Err e x.
Proof.
  intros C. destruct (net_parse_c g [] strict) as [n|e x|u] eqn:E; [exfalso|eauto|exfalso].
  - change (@nil tok) with (chars []) in E. apply (net_c_exact g [] strict n C) in E as (t & p & q & sc & L & V & _).
    assert (t = []) as ->.
    { destruct L as [(_ & (_ & K) & _)|(r & m & K & _)]; [|destruct r; discriminate]. rewrite firstn_nil in K. destruct K as [K|[r K]]; [congruence|]. destruct t; discriminate. }
    change (chars []) with (@nil tok) in V. destruct (v6_empty_c g) as (e & x & K). rewrite K in V. discriminate.
  - pose proof (net_c_defined g [] strict C) as D. rewrite E in D. exact D.
Qed.
Lemma empty_c b T k strict : cfg_ok (b_cfg b) -> exists e x, b_string_of (throwing b) T k strict [] = Err e x.
Proof.
  intros C. rewrite b_string_eq by constructor. assert (E : tokens (reader_b (throwing b) T) [] = Ret []) by (destruct T; cbn [reader_b]; unfold inner_b; try destruct (b_utf8 _); reflexivity).
  rewrite E. cbn [bind]. unfold hush. change (b_throws (throwing b)) with true. cbv iota. change (b_cfg (throwing b)) with (b_cfg b). set (g := b_cfg b) in *. clearbody g.
  destruct (v6_empty_c g) as (e6 & x6 & E6), (net_empty_c g strict C) as (en & xn & En).
  destruct k as [[|]|[|]| |]; cbn [read_by].
  - eexists _, _. reflexivity.
  - unfold addr_parse_c. rewrite E6. eexists _, _. reflexivity.
  - destruct strict; eexists _, _; vm_compute; reflexivity.
  - rewrite En. eexists _, _. reflexivity.
  - destruct (any_c_spec g [] C (Forall_nil _)) as (_ & _ & P & _).
    assert (K : any_parse_c g [] = Err e6 x6) by (apply P; split; [unfold addr_parse_c; rewrite E6; reflexivity|eexists _, _; reflexivity]).
    rewrite K. eexists _, _. reflexivity.
  - assert (K : exists e x, net_parse V4 [] strict = Err e x) by (destruct strict; eexists _, _; vm_compute; reflexivity). destruct K as (e & x & K).
    rewrite K, En. eexists _, _. reflexivity.
Qed.
Lemma get_nothing_c b T k i : cfg_ok (b_cfg b) -> i_eof i = true \/ i_fail i = true \/ (i_skipws i = true /\ Forall blank (i_in i)) ->
  exists i', obj_get_b b T k i = Ret (default_of k, i') /\ i_fail i' = true.
Proof.
  intros C H. destruct (is_read (strictly k i)) as [w i'] eqn:E. apply read_took in E. pose proof (strictly_in k i) as (S1 & S2 & S3 & S4 & _).
  assert (w = []).
  { destruct E as [K|? ? ? ?|p w r e Ee Ef Ei Hb Hw Hs _]; [reflexivity|reflexivity|]. rewrite S1, S2, S3, S4 in *. destruct H as [H|[H|[H F]]]; [congruence|congruence|].
    rewrite H in Hs. destruct w as [|c w]; [reflexivity|]. exfalso. rewrite Ei in F. apply Forall_app in F as [_ F]. inversion F; subst. inversion Hw. contradiction. }
  subst w. destruct (empty_c b T k (i_strict i =? 0) C) as (e & x & P). rewrite (get_word_c b T k i [] i' E) by constructor. rewrite P. cbn [got]. exists (i_set_fail i'). auto.
Qed.

(** ** Round trip *)
Lemma get_back_c b T o i w txt p : at_start i (w ++ 32 :: txt) p -> w <> [] -> Forall (fun c => ~ blank c) w -> Forall (unit_ok T) w -> (forall strict, b_string_of (throwing b) T (kind_of o) strict w = Ret o) ->
  exists i', obj_get_b b T (kind_of o) i = Ret (o, i') /\ at_start i' txt [32].
Proof.
  intros (Ee & Ef & Es & Ew & Ei & Fp) N Hw U P. pose proof (strictly_in (kind_of o) i) as (S1 & S2 & S3 & S4 & S5).
  eexists. split.
  - rewrite (get_word_c b T (kind_of o) i w (mk_is (32 :: txt) false (match w with [] => true | _ => false end) (i_skipws (strictly (kind_of o) i)) (i_hex (strictly (kind_of o) i)) (i_oct (strictly (kind_of o) i)) 0 (i_strict (strictly (kind_of o) i)))); [|  |exact U].
    + rewrite P. cbn [got]. reflexivity.
    + apply (took_word _ p); try congruence; try assumption.
      * rewrite S3, Es. destruct w as [|c w]; [contradiction|]. exists c, (w ++ 32 :: txt). split; [reflexivity|]. inversion Hw. assumption.
      * right. right. split; [reflexivity|]. split; [lia|]. exists 32, txt. split; [reflexivity|left; reflexivity].
  - unfold at_start. cbn. destruct w; [contradiction|]. rewrite S3. repeat split; auto. constructor; [left; reflexivity|constructor].
Qed.
Lemma words_c_back b T up : cfg_ok (b_cfg b) -> forall l txt, words_c (b_cfg b) T up l txt ->
  Forall (fun x => obj_for (c_max (b_cfg b)) (c_spaces (b_cfg b)) (snd x) /\ readable_in b T (snd x) /\ unbroken (snd x)) l -> forall i p, at_start i txt p ->
  exists i' p', get_all_b b T (map (fun x => kind_of (snd x)) l) i = Ret (map snd l, i') /\ at_start i' [] p'.
Proof.
  intros Cg. induction 1 as [|f o l s s' r E C _ IH]; intros W i p A; cbn [map get_all_b snd].
  - exists i, p. auto.
  - inversion W as [|? ? (Wo & Ro & Bo) Wl]; subst. cbn [snd] in *. destruct (obj_shape_c (b_cfg b) o (match f with Some f => f | None => compressed end) Cg Wo) as (s0 & t & q & E0 & S0).
    rewrite E in E0. assert (s0 = s) as -> by congruence. destruct (shape_c_cased _ o s t q up S0) as [C0 _]. pose proof (cased_unique _ _ _ _ C C0) as ->.
    assert (CV : map (conv T) (kase up t ++ q) = kase up t ++ q) by apply (shape_c_reads (throwing b) T o s t q up true S0 Ro). rewrite CV in A.
    assert (NB : Forall (fun c => ~ blank c) (kase up t ++ q)).
    { destruct S0 as (_ & _ & _ & _ & _ & Nb & _). apply Nb in Bo as Nb'. apply Forall_app in Nb' as [Nt Nq]. apply Forall_app. split; [|exact Nq]. destruct up; cbn [kase]; [|exact Nt].
      apply Forall_map. eapply Forall_impl; [|exact Nt]. intros c Hc. unfold upper, blank in *. destruct (Z.leb_spec 97 c), (Z.leb_spec c 122); cbn [andb]; lia. }
    assert (NE : kase up t ++ q <> []). { destruct S0 as (_ & Nt & _). destruct t; [contradiction|]. destruct up; discriminate. }
    assert (RB : forall strict, Forall (unit_ok T) (kase up t ++ q) /\ b_string_of (throwing b) T (kind_of o) strict (kase up t ++ q) = Ret o).
    { intros strict. exact (proj2 (shape_c_reads (throwing b) T o s t q up strict S0 Ro)). }
    destruct (get_back_c b T o i (kase up t ++ q) r p A NE NB (proj1 (RB true)) (fun strict => proj2 (RB strict))) as (i1 & G & A1).
    rewrite G. cbn [bind]. destruct (IH Wl i1 [32] A1) as (i2 & p2 & G2 & A2). rewrite G2. cbn [bind]. exists i2, p2. auto.
Qed.
Lemma stream_build b T up l : cfg_ok (b_cfg b) -> Forall (fun x => obj_for (c_max (b_cfg b)) (c_spaces (b_cfg b)) (snd x) /\ readable_in b T (snd x) /\ unbroken (snd x)) l ->
  exists os i, put_all_c (b_cfg b) T l (new_os up) = Ret os /\ o_fail os = false /\ words_c (b_cfg b) T up l (o_out os) /\
    get_all_b b T (map (fun x => kind_of (snd x)) l) (new_is (o_out os)) = Ret (map snd l, i) /\ i_fail i = false.
Proof.
  intros Cg W. destruct (put_all_c_ok (b_cfg b) T Cg l (new_os up)) as (txt & Wd & E); try reflexivity.
  { eapply Forall_impl; [|exact W]. intros x [H _]. exact H. }
  cbn in Wd, E. destruct (words_c_back b T up Cg l txt Wd W (new_is txt) []) as (i & p & G & A); [unfold at_start; cbn; auto 10|].
  eexists _, i. split; [exact E|]. cbn. split; [reflexivity|]. split; [exact Wd|]. split; [exact G|apply A].
Qed.

(** ** The default build *)
Lemma string_default o fmt : obj_string_c default_config o fmt = obj_string o fmt.
Proof.
  destruct default_addr as (_ & _ & _ & Ts & _). destruct default_net as (_ & Ns & _).
  destruct o as [[|] a|[|] n|x|x]; cbn [obj_string_c obj_string]; unfold any_to_string_c, any_to_string, anet_to_string_c, anet_to_string; rewrite ?Ts, ?Ns; reflexivity.
Qed.
Lemma text_default T o fmt : obj_text_c default_config T o fmt = obj_text T o fmt.
Proof.
  destruct default_addr as (_ & _ & _ & Ts & _). destruct default_net as (_ & Ns & _).
  destruct o as [[|] a|[|] n|x|x]; cbn [obj_text_c obj_text]; unfold any_to_text_c, any_to_text, anet_to_text_c, anet_to_text, addr_to_text_c, addr_to_text, net_to_text_c, net_to_text; rewrite ?Ts, ?Ns; reflexivity.
Qed.
Lemma put_default T o os : obj_put_c default_config T o os = obj_put T o os.
Proof. rewrite obj_put_c_eq, obj_put_eq. unfold put_fmt. rewrite string_default. reflexivity. Qed.
Lemma read_by_default k strict ts : Forall tok_real ts -> read_by default_config k strict ts =
  match k with KAddr v => rmap (OAddr v) (addr_parse v ts) | KNet v => rmap (ONet v) (net_parse v ts strict) | KAny => rmap OAny (any_parse ts) | KAnyNet => rmap OAnyNet (anet_parse ts strict) end.
Proof.
  intros H. destruct default_addr as (P & _ & A & _). destruct default_net as (N & _). destruct k as [[]|[]| |]; cbn [read_by]; rewrite ?P, ?N, ?A; try reflexivity.
  unfold anet_parse, net_parse_code. rewrite !net_parse_is_res by exact H. pose proof (net_parse_real V4 ts strict H) as R4.
  destruct (net_parse_res V4 ts strict) as [n|e x|u]; cbn [bind rmap]; [reflexivity| |reflexivity]. rewrite ec_no_false by exact R4.
  destruct (net_parse_res V6 ts strict); reflexivity.
Qed.
Lemma get_default T k i : obj_get_b default_build T k i = obj_get T k i.
Proof.
  destruct (get_exists T k i) as (w & i' & K & E). rewrite E. apply took_read in K. rewrite (obj_get_b_eq _ T k i w i' K). rewrite b_coded_of_eq by (apply def_units; reflexivity). rewrite def_reader.
  assert (X : obj_parse T k (i_strict i =? 0) w = (ts <- tokens (reader_of T) w ;; match k with KAddr v => rmap (OAddr v) (addr_parse v ts) | KNet v => rmap (ONet v) (net_parse v ts (i_strict i =? 0)) | KAny => rmap OAny (any_parse ts) | KAnyNet => rmap OAnyNet (anet_parse ts (i_strict i =? 0)) end)).
  { destruct k; cbn [obj_parse]; unfold addr_parse_text, net_parse_text, any_parse_text, anet_parse_text; destruct (tokens (reader_of T) w); reflexivity. }
  rewrite X. pose proof (tokens_no_err (reader_of T) w) as Q. destruct (tokens (reader_of T) w) as [ts|e x|u] eqn:Et; cbn [bind got]; [|exfalso; eapply Q; [apply char_reader_T|reflexivity]|reflexivity].
  pose proof (CodeProofs.tokens_real _ _ _ (char_reader_T T) Et) as Rt. rewrite <- read_by_default by exact Rt. change (b_cfg default_build) with default_config.
  pose proof (read_by_real default_config k (i_strict i =? 0) ts Rt) as R. destruct (read_by default_config k (i_strict i =? 0) ts) as [o|e x|u]; cbn [coded bind fst snd got]; [reflexivity| |reflexivity].
  rewrite ec_no_false by exact R. reflexivity.
Qed.
Lemma stream_default : (forall T o fmt, obj_text_c default_config T o fmt = obj_text T o fmt) /\ (forall T o os, obj_put_c default_config T o os = obj_put T o os) /\
  (forall T k i, obj_get_b default_build T k i = obj_get T k i).
Proof. split; [exact text_default|split; [exact put_default|exact get_default]]. Qed.
(** IPADDRESS_NO_EXCEPTIONS makes no difference. *)
Lemma get_quiet b T k i : Forall (unit_ok T) (i_in i) -> obj_get_b (quietly b) T k i = obj_get_b (throwing b) T k i.
Proof.
  intros U. destruct (is_read (strictly k i)) as [w i'] eqn:E. apply read_took in E. rewrite !(get_ok_c _ T k i w i' E U). reflexivity.
Qed.
(** A space in the scope id ends the word. *)
Lemma stream_spaces : exists b o os o' i, cfg_ok (b_cfg b) /\ obj_for (c_max (b_cfg b)) (c_spaces (b_cfg b)) o /\ readable_in b TChar o /\
  obj_put_c (b_cfg b) TChar o (new_os false) = Ret os /\ o_fail os = false /\ obj_get_b b TChar (kind_of o) (new_is (o_out os)) = Ret (o', i) /\ i_fail i = false /\ o' <> o.
Proof.
  exists (mk_build (mk_cfg 16 true) false true), (OAddr V6 (mk_addr [254; 128; 0; 0; 0; 0; 0; 0; 0; 0; 0; 0; 0; 0; 0; 1] [97; 32; 98])).
  eexists. exists (OAddr V6 (mk_addr [254; 128; 0; 0; 0; 0; 0; 0; 0; 0; 0; 0; 0; 0; 0; 1] [97])). eexists.
  split; [unfold cfg_ok; cbn; lia|]. split; [|split; [left; split; reflexivity|]].
  - cbn [obj_for b_cfg c_max c_spaces]. split; [|split; [split; [|split]|]].
    + split; [reflexivity|]. cbn [a_bytes]. repeat (apply Forall_cons; [unfold is_byte; lia|]). apply Forall_nil.
    + cbn. unfold zlen. cbn. lia.
    + intros K. cbn in K. intuition discriminate.
    + cbn [a_scope]. repeat (apply Forall_cons; [unfold scope_char_of; lia|]). apply Forall_nil.
    + cbn [a_scope]. repeat (apply Forall_cons; [unfold is_char; lia|]). apply Forall_nil.
  - split; [vm_compute; reflexivity|]. split; [reflexivity|]. split; [vm_compute; reflexivity|]. split; [reflexivity|discriminate].
Qed.
