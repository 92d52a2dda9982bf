(** Texts as keys: different objects have different texts. *)
From Coq Require Import String.
From Verif Require Import Base Tac UnicodeModel FixedStringModel V4Model V6Model SpecText SpecAddr SpecStr SpecV4 SpecV6 StrProofs V4Proofs V6Full
  AddressModel SpecOrder AddressProofs NetworkModel SpecNet NetProofs NetText NetText2 NetText3 AnyModel SpecAny AnyProofs NetLemmas NetWitness SpecKeys KeyProofs.
Close Scope string_scope.

Lemma addr_distinct v v' a b f g s : wf_addr v a -> wf_addr v' b -> addr_to_string v a f = Ret s -> addr_to_string v' b g = Ret s -> v = v' /\ a = b.
Proof.
  intros Wa Wb Ea Eb. destruct (any_round_trip (mk_aa v a) f Wa) as (s1 & E1 & P1). destruct (any_round_trip (mk_aa v' b) g Wb) as (s2 & E2 & P2).
  assert (s1 = s) by (destruct v; unfold any_to_string in E1; cbn in E1; cbn in Ea; congruence).
  assert (s2 = s) by (destruct v'; unfold any_to_string in E2; cbn in E2; cbn in Eb; congruence). subst s1 s2. rewrite P1 in P2. injection P2 as -> ->. auto.
Qed.
Lemma net_text_parts v n f s : wf_net v n -> net_to_string v n f = Ret s -> exists a p, addr_to_string v (n_addr n) f = Ret a /\ s = a ++ 47 :: p /\ ~ In 47 a.
Proof.
  intros (Wa & _) E. destruct (addr_text_ok v (n_addr n) f Wa) as (a & Ea & _ & _ & N & _). unfold net_to_string in E. rewrite Ea in E. cbn [bind] in E.
  destruct (dec_digits 20 (n_prefix n) []) as [p| |]; try discriminate. cbn [bind] in E. injection E as <-. eauto.
Qed.
Lemma net_distinct v v' n m f g s : wf_net v n -> wf_net v' m -> net_to_string v n f = Ret s -> net_to_string v' m g = Ret s -> v = v' /\ n = m.
Proof.
  intros Wn Wm En Em. destruct (net_text_parts _ _ _ _ Wn En) as (a & p & Ea & -> & Na). destruct (net_text_parts _ _ _ _ Wm Em) as (b & q & Eb & E & Nb).
  apply sep_unique in E as [<- _]; [|assumption..]. pose proof Wn as (Wa & _). pose proof Wm as (Wb & _).
  destruct (addr_distinct _ _ _ _ _ _ _ Wa Wb Ea Eb) as [-> _]. split; [reflexivity|]. exact (net_text_inj v' n m f g _ Wn Wm En Em).
Qed.
Lemma addr_net_distinct v v' a n f g s : wf_addr v a -> wf_net v' n -> addr_to_string v a f = Ret s -> net_to_string v' n g <> Ret s.
Proof.
  intros Wa Wn Ea En. destruct (net_text_parts _ _ _ _ Wn En) as (b & p & _ & -> & _). destruct (addr_text_ok v a f Wa) as (s & E & _ & _ & N & _).
  rewrite Ea in E. injection E as <-. apply N. apply in_app_iff. right. left. reflexivity.
Qed.
(** *** Texts that do not sort like the objects *)
Lemma v4_unsorted fmt : exists a b s t, wf_addr V4 a /\ wf_addr V4 b /\ addr_to_string V4 a fmt = Ret s /\ addr_to_string V4 b fmt = Ret t /\ addr_before a b /\ lex_lt t s.
Proof.
  exists (mk_addr [9; 0; 0; 0] []), (mk_addr [10; 0; 0; 0] []), (str "9.0.0.0"), (str "10.0.0.0").
  split; [split; [split; [reflexivity|repeat constructor; unfold is_byte; lia]|reflexivity]|]. split; [split; [split; [reflexivity|repeat constructor; unfold is_byte; lia]|reflexivity]|].
  split; [vm_compute; reflexivity|]. split; [vm_compute; reflexivity|]. split; [left; vm_compute; reflexivity|]. apply lex_lt_head. vm_compute. reflexivity.
Qed.
Lemma v6_unsorted fmt : fmt <> full -> exists a b s t, wf_addr V6 a /\ wf_addr V6 b /\ addr_to_string V6 a fmt = Ret s /\ addr_to_string V6 b fmt = Ret t /\ addr_before a b /\ lex_lt t s.
Proof.
  intros Hf. exists (mk_addr ([0; 9] ++ repeat 0 14) []), (mk_addr ([0; 16] ++ repeat 0 14) []).
  assert (W : forall x, is_byte x -> wf_addr V6 (mk_addr ([0; x] ++ repeat 0 14) [])).
  { intros x Hx. split; [split; [reflexivity|]|split; [left; reflexivity|constructor]]. cbn [a_bytes app repeat]. constructor; [unfold is_byte; lia|]. constructor; [exact Hx|]. repeat constructor; unfold is_byte; lia. }
  destruct fmt; [congruence| |].
  - exists (str "9:0:0:0:0:0:0:0"), (str "10:0:0:0:0:0:0:0"). split; [apply W; unfold is_byte; lia|]. split; [apply W; unfold is_byte; lia|].
    split; [vm_compute; reflexivity|]. split; [vm_compute; reflexivity|]. split; [left; vm_compute; reflexivity|]. apply lex_lt_head. vm_compute. reflexivity.
  - exists (str "9::"), (str "10::"). split; [apply W; unfold is_byte; lia|]. split; [apply W; unfold is_byte; lia|].
    split; [vm_compute; reflexivity|]. split; [vm_compute; reflexivity|]. split; [left; vm_compute; reflexivity|]. apply lex_lt_head. vm_compute. reflexivity.
Qed.
Lemma net_key n m s t : wf_net V6 n -> wf_net V6 m -> unscoped n -> unscoped m -> n_addr n <> n_addr m ->
  net_to_string V6 n full = Ret s -> net_to_string V6 m full = Ret t -> (lex_lt s t <-> net_before n m).
Proof.
  intros Wn Wm Un Um D En Em. destruct (net_text_parts _ _ _ _ Wn En) as (a & p & Ea & -> & Na). destruct (net_text_parts _ _ _ _ Wm Em) as (b & q & Eb & -> & Nb).
  pose proof Wn as (Wa & _). pose proof Wm as (Wb & _). pose proof (full_key _ _ _ _ Wa Wb Ea Eb) as K.
  assert (La : List.length a = 39%nat /\ List.length b = 39%nat).
  { unfold unscoped in *. destruct Wa as [Ba Sa], Wb as [Bb Sb]. cbn [addr_to_string] in Ea, Eb.
    destruct (text_lengths _ _ Ba (proj1 Sa)) as (f & _ & _ & Ef & _ & _ & Lf & _). destruct (text_lengths _ _ Bb (proj1 Sb)) as (h & _ & _ & Eh & _ & _ & Lh & _).
    rewrite Ef in Ea. rewrite Eh in Eb. injection Ea as <-. injection Eb as <-. rewrite Un in Lf. rewrite Um in Lh. cbn [scope_suffix] in *.
    change (zlen (@nil Z)) with 0 in *. unfold zlen in *. lia. }
  rewrite lex_app by lia. unfold net_before. rewrite K. split.
  - intros [H|[E _]]; [auto|]. subst b. destruct D. exact (proj2 (addr_distinct _ _ _ _ _ _ _ Wa Wb Ea Eb)).
  - intros [H|[E _]]; [auto|contradiction].
Qed.
Fixpoint list_compareb (a b : list Z) : bool :=
  match a, b with [], _ :: _ => true | x :: a', y :: b' => if x <? y then true else if x =? y then list_compareb a' b' else false | _, [] => false end.
Lemma lex_comparedb : forall a b, list_compareb a b = true -> lex_lt a b.
Proof.
  induction a as [|x a IH]; intros [|y b] H; cbn in H; try discriminate; [apply lex_lt_nil_cons|].
  destruct (Z.ltb_spec x y); [apply lex_lt_head; assumption|]. destruct (Z.eqb_spec x y); [|discriminate]. subst. apply lex_lt_cons, IH, H.
Qed.
Lemma net_unsorted v fmt : exists n m s t, wf_net v n /\ wf_net v m /\ net_to_string v n fmt = Ret s /\ net_to_string v m fmt = Ret t /\ net_before n m /\ lex_lt t s.
Proof.
  exists (net_at v (match v with V4 => "0.0.0.0/8"%string | V6 => "::/8"%string end)), (net_at v (match v with V4 => "0.0.0.0/16"%string | V6 => "::/16"%string end)).
  exists (match net_to_string v (net_at v (match v with V4 => "0.0.0.0/8"%string | V6 => "::/8"%string end)) fmt with Ret s => s | _ => [] end).
  exists (match net_to_string v (net_at v (match v with V4 => "0.0.0.0/16"%string | V6 => "::/16"%string end)) fmt with Ret s => s | _ => [] end).
  split; [apply net_at_wf; destruct v; reflexivity|]. split; [apply net_at_wf; destruct v; reflexivity|].
  split; [destruct v, fmt; vm_compute; reflexivity|]. split; [destruct v, fmt; vm_compute; reflexivity|].
  split; [right; split; destruct v; vm_compute; reflexivity|]. apply lex_comparedb. destruct v, fmt; vm_compute; reflexivity.
Qed.
