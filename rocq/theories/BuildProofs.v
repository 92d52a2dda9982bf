(** Proofs about the tables, scopes and exceptions of every build. *)
From Coq Require Import String.
From Verif Require Import Base Tac UnicodeModel FixedStringModel FixedStringProofs V4Model V6Model AddressModel SpecText SpecAddr SpecStr SpecV6 SpecLoose SpecOrder NetworkModel SpecNet SpecAny SpecClass
  ClassifyModel ClassifyProofs ClassifyProofs2 AnyModel CodeModel StreamModel SpecStream ScopeModel SpecScope ScopeProofs LiteralModel SpecLiteral NoThrowModel SpecNoThrow Utf8Model SpecUtf8
  ConfigModel SpecConfig ConfigProofs NetConfigModel SpecNetConfig NetConfigProofs NetConfigProofs2 NetConfigProofs3 MacroModel SpecMacro MacroProofs MacroProofs2 MacroProofs3 MacroProofs4 MacroProofs5 BuildModel.
Close Scope string_scope.

(** ** Texts without scope ids *)
Lemma loose_for_shift n m s t p : In 47 s -> zlen s <= n -> zlen s <= m -> net_loose_for n s t p -> net_loose_for m s t p.
Proof.
  intros H47 Hn Hm [(H & _)|(r & q & E & H0 & HL & HB & HM)].
  - contradiction H. rewrite firstn_all2; [exact H47|]. unfold zlen in Hn. lia.
  - right. exists r, q. split; [exact E|]. split; [exact H0|]. split; [|split; assumption]. clear HM. rewrite E in Hm. unfold zlen in *. rewrite app_length in Hm. cbn [List.length] in Hm. lia.
Qed.
Lemma no_percent_c g g' t b sc : cfg_ok g -> cfg_ok g' -> ~ In 37 t -> v6_from_string_c g true (chars t) = Ret (b, sc) -> v6_from_string_c g' true (chars t) = Ret (b, sc).
Proof.
  intros Hg Hg' H E. apply c_exact in E; [|exact Hg]. apply c_exact; [exact Hg'|]. destruct E as (gs & [(_ & L & E0)|(a & u & E1 & _)] & Eb).
  - exists gs. split; [left; auto|exact Eb].
  - exfalso. apply H. rewrite E1. apply in_or_app. right. left. reflexivity.
Qed.
Lemma default_ok : cfg_ok default_config. Proof. unfold cfg_ok. cbn. lia. Qed.
Lemma before_nul_in s t x : before_nul s t -> In x t -> In x s.
Proof. intros H. unfold before_nul in H. destruct H as [H0 H]. intros Hx. destruct H as [->|[r ->]]; [exact Hx|]. apply in_or_app. left. exact Hx. Qed.
Lemma no_percent_net g s strict n : cfg_ok g -> In 47 s -> ~ In 37 s -> zlen s <= 41 -> net_parse V6 (chars s) strict = Ret n -> net_parse_c g (chars s) strict = Ret n.
Proof.
  intros Hg H47 H37 HL E. rewrite <- (proj1 default_net) in E. apply net_c_exact in E; [|exact default_ok]. apply net_c_exact; [exact Hg|].
  destruct E as (t & p & b & sc & HN & HV & HO). exists t, p, b, sc. unfold cfg_ok in Hg.
  split; [apply (loose_for_shift (41 + c_max default_config)); [exact H47|cbn; lia|lia|exact HN]|]. split; [|exact HO].
  apply (no_percent_c default_config); [exact default_ok|exact Hg| |exact HV].
  intros Hin. apply H37. destruct HN as [(_ & HB & _)|(r & q & E & _ & _ & HB & _)]; apply (before_nul_in _ _ _ HB) in Hin.
  - rewrite <- (firstn_skipn (Z.to_nat (41 + c_max default_config)) s). apply in_or_app. left. exact Hin.
  - rewrite E. apply in_or_app. left. exact Hin.
Qed.
Lemma b_text b T v strict s n : cfg_ok (b_cfg b) -> Forall is_ascii s -> In 47 s -> ~ In 37 s -> zlen s <= 41 -> net_parse v (chars s) strict = Ret n ->
  b_string_of b T (KNet v) strict s = Ret (ONet v n).
Proof.
  intros Hg HA H47 H37 HL E. rewrite b_string_eq by (apply units_ok; eapply Forall_impl; [apply ascii_unit|exact HA]). rewrite tokens_plain_b by exact HA. cbn [bind].
  assert (R : read_by (b_cfg b) (KNet v) strict (chars s) = Ret (ONet v n)).
  { destruct v; cbn [read_by]; [rewrite E; reflexivity|]. rewrite (no_percent_net _ s strict n Hg H47 H37 HL E). reflexivity. }
  rewrite R. unfold hush. destruct (b_throws b); reflexivity.
Qed.

(** ** Tables *)
Definition fine (v : ver) (s : string) : bool :=
  parses v s && forallb (fun c => (0 <? c) && (c <? 128)) (codes s) && existsb (Z.eqb 47) (codes s) && negb (existsb (Z.eqb 37) (codes s)) && (zlen (codes s) <=? 41).
Lemma existsb_in x l : existsb (Z.eqb x) l = true <-> In x l.
Proof. rewrite existsb_exists. split; [intros (y & H & E); apply Z.eqb_eq in E; subst; exact H|intros H; exists x; split; [exact H|apply Z.eqb_refl]]. Qed.
Lemma b_array_text b v s n : cfg_ok (b_cfg b) -> Forall is_ascii s -> ~ In 0 s -> In 47 s -> ~ In 37 s -> zlen s <= 41 -> net_parse v (chars s) true = Ret n ->
  net_array_t_b b TChar v true (s ++ [0]) = Ret n.
Proof.
  intros Hg HA H0 H47 H37 HL E. pose proof (b_array_string b TChar (KNet v) true (s ++ [0]) s) as A. cbn [b_array_of] in A.
  rewrite (b_text b TChar v true s n Hg HA H47 H37 HL E) in A.
  assert (X : rmap (ONet v) (net_array_t_b b TChar v true (s ++ [0])) = Ret (ONet v n)).
  { apply A; [| |exact HA].
    - apply Forall_app. split; [eapply Forall_impl; [apply ascii_unit|exact HA]|]. constructor; [apply ascii_unit; unfold is_ascii; lia|constructor].
    - split; [exact H0|]. exists [0]. split; [reflexivity|]. left. rewrite app_length. cbn [List.length]. lia. }
  destruct (net_array_t_b b TChar v true (s ++ [0])) as [m| |]; cbn [rmap] in X; congruence.
Qed.
Lemma entry_fine b v s : cfg_ok (b_cfg b) -> fine v s = true -> entry_b b v s = Ret (entry v s).
Proof.
  intros Hg H. unfold fine in H. apply andb_prop in H as [H HL]. apply andb_prop in H as [H H37]. apply andb_prop in H as [H H47]. apply andb_prop in H as [HP HC].
  apply Z.leb_le in HL. apply existsb_in in H47. rewrite negb_true_iff in H37.
  assert (HC' : Forall (fun c => 0 < c < 128) (codes s)).
  { apply Forall_forall. intros c Hc. rewrite forallb_forall in HC. specialize (HC c Hc). lia. }
  apply b_array_text; try assumption.
  - eapply Forall_impl; [|exact HC']. unfold is_ascii. cbv beta. lia.
  - intros H0. rewrite Forall_forall in HC'. specialize (HC' 0 H0). lia.
  - intros H. apply existsb_in in H. congruence.
  - unfold parses in HP. unfold entry. destruct (net_parse v (chars (codes s)) true); [reflexivity|discriminate|discriminate].
Qed.
Lemma entries_fine b v l : cfg_ok (b_cfg b) -> forallb (fine v) l = true -> entries_b b v l = Ret (map (entry v) l).
Proof.
  intros Hg. induction l as [|s l IH]; cbn [forallb entries_b map]; [reflexivity|]. intros H. apply andb_prop in H as [H1 H2].
  rewrite (entry_fine b v s Hg H1), (IH H2). reflexivity.
Qed.
Lemma private_fine v : forallb (fine v) (private_texts v) = true. Proof. destruct v; vm_compute; reflexivity. Qed.
Lemma reserved_fine v : forallb (fine v) (reserved_texts v) = true. Proof. destruct v; vm_compute; reflexivity. Qed.
Lemma multicast_fine v : fine v (multicast_text v) = true. Proof. destruct v; vm_compute; reflexivity. Qed.
Lemma link_local_fine v : fine v (link_local_text v) = true. Proof. destruct v; vm_compute; reflexivity. Qed.
Lemma public_fine : fine V4 public_text = true. Proof. vm_compute; reflexivity. Qed.
Lemma loopback_fine : fine V4 loopback_text = true. Proof. vm_compute; reflexivity. Qed.
Lemma site_local_fine : fine V6 site_local_text = true. Proof. vm_compute; reflexivity. Qed.

Lemma same_private b v a : cfg_ok (b_cfg b) -> is_private_b b v a = is_private v a.
Proof.
  intros Hg. unfold is_private_b, is_private, v6_is_private, v4_is_private, in_table_b. rewrite !(entries_fine b _ _ Hg (private_fine _)). reflexivity.
Qed.
Lemma same_global b v a : cfg_ok (b_cfg b) -> is_global_b b v a = is_global v a.
Proof.
  intros Hg. unfold is_global_b, is_global. rewrite !same_private by exact Hg. destruct v; [|reflexivity].
  unfold in_entry_b. rewrite (entry_fine b _ _ Hg public_fine). reflexivity.
Qed.
Lemma same_multicast b v a : cfg_ok (b_cfg b) -> is_multicast_b b v a = Ret (is_multicast v a).
Proof. intros Hg. unfold is_multicast_b, in_entry_b. rewrite (entry_fine b _ _ Hg (multicast_fine v)). reflexivity. Qed.
Lemma same_reserved b v a : cfg_ok (b_cfg b) -> is_reserved_b b v a = Ret (is_reserved v a).
Proof. intros Hg. unfold is_reserved_b, in_table_b. rewrite (entries_fine b _ _ Hg (reserved_fine v)). reflexivity. Qed.
Lemma same_loopback b v a : cfg_ok (b_cfg b) -> is_loopback_b b v a = Ret (is_loopback v a).
Proof. intros Hg. destruct v; [|reflexivity]. unfold is_loopback_b, in_entry_b. rewrite (entry_fine b _ _ Hg loopback_fine). reflexivity. Qed.
Lemma same_link_local b v a : cfg_ok (b_cfg b) -> is_link_local_b b v a = Ret (is_link_local v a).
Proof. intros Hg. unfold is_link_local_b, in_entry_b. rewrite (entry_fine b _ _ Hg (link_local_fine v)). reflexivity. Qed.
Lemma same_site_local b a : cfg_ok (b_cfg b) -> is_site_local_b b a = Ret (v6_is_site_local a).
Proof. intros Hg. unfold is_site_local_b, in_entry_b. rewrite (entry_fine b _ _ Hg site_local_fine). reflexivity. Qed.
Lemma ends_same f h n : (forall a, f a = Ret (h a)) -> ends_b f n = Ret (both_ends h n).
Proof. intros H. unfold ends_b, both_ends. rewrite H. cbn [bind]. destruct (h (n_addr n)); [apply H|reflexivity]. Qed.
Lemma same_net_private b v n : cfg_ok (b_cfg b) -> net_is_private_b b v n = Ret (net_is_private v n).
Proof. intros Hg. unfold net_is_private_b. rewrite (entries_fine b _ _ Hg (private_fine v)). reflexivity. Qed.
Lemma same_net_global b v n : cfg_ok (b_cfg b) -> net_is_global_b b v n = Ret (net_is_global v n).
Proof.
  intros Hg. unfold net_is_global_b. rewrite !same_net_private by exact Hg. destruct v; [|reflexivity]. rewrite (entry_fine b _ _ Hg public_fine). reflexivity.
Qed.
