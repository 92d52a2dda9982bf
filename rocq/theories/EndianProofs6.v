(** Loops, subnets and exclusions on a big-endian host. *)
From Coq Require Import String.
From Verif Require Import Base Tac TextProofs UnicodeModel FixedStringModel V4Model V6Model Uint128Model SpecInt Uint128Proofs Uint128Div2
  SpecText SpecAddr SpecStr SpecV6 StrProofs V4Proofs BufProofs BitProofs FixedStringProofs V4Lemmas V6Proofs V6Full V6Lemmas
  AddressModel SpecOrder AddressProofs NetworkModel SpecNet NetProofs NetProofs2 NetProofs3 NetLemmas IterModel SpecAny NetWitness HostModel SpecEndian EndianProofs EndianProofs2.
Open Scope string_scope.
Open Scope Z_scope.
Open Scope list_scope.

(** *** Little-endian hosts *)
Lemma le_walk v k x y : hosts_walk_h true v k x y = hosts_walk v k x y. Proof. destruct v; reflexivity. Qed.
Lemma le_nit_make v r s p c : nit_make_h true v r s p c = nit_make v r s p c.
Proof. unfold nit_make_h, nit_make. rewrite le_from_address. reflexivity. Qed.
Lemma le_ait_add v a k : ait_add_h true v a k = ait_add v a k. Proof. destruct v; reflexivity. Qed.
Lemma le_nit_add v a k : nit_add_h true v a k = nit_add v a k.
Proof. unfold nit_add_h, nit_add. rewrite le_ait_add. destruct (ait_add v _ _); cbn [bind]; try reflexivity. rewrite le_from_address. reflexivity. Qed.
Lemma le_subnets_make v na ba hm d p : subnets_make_h true v na ba hm d p = subnets_make v na ba hm d p.
Proof.
  unfold subnets_make_h, subnets_make. rewrite le_to. destruct (addr_to_uint v na) as [b| |]; cbn [bind]; try reflexivity. rewrite le_to.
  destruct (addr_to_uint v ba) as [e| |]; cbn [bind]; try reflexivity. rewrite le_from. destruct (addr_from_uint v b) as [f| |]; cbn [bind]; try reflexivity.
  rewrite le_from. destruct (addr_from_uint v (uadd v e 1)) as [l| |]; cbn [bind]; try reflexivity. rewrite le_to.
  destruct (addr_to_uint v hm) as [h| |]; cbn [bind]; try reflexivity. destruct (ushr v h d) as [s| |]; cbn [bind]; try reflexivity. cbv zeta.
  rewrite le_nit_make. destruct (nit_make v f _ p 0); cbn [bind]; try reflexivity. destruct (addr_eqb v f l); cbn [bind]; try reflexivity. rewrite le_nit_make. reflexivity.
Qed.
Lemma le_subnets_single sp v na p : subnets_single_h true sp v na p = subnets_single sp v na p.
Proof.
  unfold subnets_single_h, subnets_single. cbv zeta. rewrite le_to. destruct (addr_to_uint v na) as [b| |]; cbn [bind]; try reflexivity. rewrite le_from.
  destruct (addr_from_uint v (uadd v b 1)) as [l| |]; cbn [bind]; try reflexivity. rewrite le_nit_make. destruct (nit_make v _ 1 p 0); cbn [bind]; try reflexivity.
  destruct (op_lt sp v l _); cbn [bind]; try reflexivity. rewrite le_nit_make. reflexivity.
Qed.
Lemma le_subnets sp v n d np : subnets_h true sp v n d np = subnets sp v n d np.
Proof.
  unfold subnets_h, subnets, subnets_code. destruct (remove_scope v (n_addr n)) as [a| |]; cbn [bind]; try reflexivity.
  destruct (n_prefix n =? width v).
  { rewrite le_subnets_single. destruct (subnets_single sp v a _); reflexivity. }
  assert (G : forall diff, (let new_prefix := w64 (n_prefix n + diff) in
      if new_prefix >? width v then Err invalid_prefixlen_diff 0 else subnets_make_h true v a (broadcast n) (hostmask n) diff new_prefix) =
    '(result, code) <- (let new_prefix := w64 (n_prefix n + diff) in
      if new_prefix >? width v then Ret (subnets_default v, invalid_prefixlen_diff)
      else s <- subnets_make v a (broadcast n) (hostmask n) diff new_prefix ;; Ret (s, no_error)) ;; raise_if result code 0).
  { intros diff. cbv zeta. destruct (_ >? _); [reflexivity|]. rewrite le_subnets_make. destruct (subnets_make v a _ _ _ _); reflexivity. }
  destruct np as [q|]; [|apply G]. destruct (q <? n_prefix n); [reflexivity|]. destruct (negb (d =? 1)); [reflexivity|apply G].
Qed.
Lemma le_halves sp v n : halves_h true sp v n = halves sp v n.
Proof.
  unfold halves_h, halves. rewrite le_subnets. destruct (subnets sp v n 1 None) as [s| |]; cbn [bind]; try reflexivity.
  unfold subnets_at_h, subnets_at. rewrite !le_nit_add. reflexivity.
Qed.
Lemma le_xit_next sp v x : xit_next_h true sp v x = xit_next sp v x.
Proof.
  unfold xit_next_h, xit_next. destruct (net_eqb v (x_s1 x) (x_other x)); cbn [bind]; try reflexivity.
  destruct (net_eqb v (x_s2 x) (x_other x)); cbn [bind]; try reflexivity. rewrite !le_halves. reflexivity.
Qed.
Lemma le_exclude sp v n o : exclude_h true sp v n o = address_exclude sp v n o.
Proof.
  unfold exclude_h, address_exclude, exclude_code.
  assert (R : forall m, remove_scope_net_h true v m = remove_scope_net v m).
  { intros m. destruct v; [reflexivity|]. unfold remove_scope_net_h, remove_scope_net. destruct (remove_scope V6 (n_addr m)); cbn [bind]; try reflexivity. apply le_from_address. }
  rewrite R. destruct (remove_scope_net v n) as [a| |]; cbn [bind]; try reflexivity. rewrite R. destruct (remove_scope_net v o) as [b| |]; cbn [bind]; try reflexivity.
  destruct (subnet_of sp v b a) as [x| |]; cbn [bind]; try reflexivity. destruct (negb x); [reflexivity|].
  destruct (net_eqb v a b) as [e| |]; cbn [bind]; try reflexivity. destruct e; [reflexivity|]. unfold xit_make_h, xit_make. rewrite le_halves.
  destruct (halves sp v a) as [[s1 s2]| |]; cbn [bind]; try reflexivity. rewrite le_xit_next. destruct (xit_next sp v _); reflexivity.
Qed.
Lemma walk_ext {A B} (eqb : A -> A -> res bool) (f g : A -> res A) (get : A -> B) : (forall x, f x = g x) -> forall k x y, walk eqb f get k x y = walk eqb g get k x y.
Proof.
  intros H. induction k as [|k IH]; intros x y; cbn [walk]; destruct (eqb x y) as [e| |]; cbn [bind]; try reflexivity. destruct e; [reflexivity|].
  rewrite H. destruct (g x); cbn [bind]; try reflexivity. rewrite IH. reflexivity.
Qed.
Lemma le_exclude_walk sp v k x y : exclude_walk_h true sp v k x y = exclude_walk sp v k x y.
Proof. apply walk_ext. apply le_xit_next. Qed.
Lemma le_subnets_walk v k x y : subnets_walk_h true v k x y = subnets_walk v k x y.
Proof. apply walk_ext. intros z. apply le_nit_add. Qed.
Lemma le_subnets_at v s k : subnets_at_h true v s k = subnets_at v s k.
Proof. unfold subnets_at_h, subnets_at. rewrite le_nit_add. reflexivity. Qed.

(** *** Big-endian hosts: related results *)
Definition related {A B} (R : A -> B -> Prop) (r : res A) (s : res B) : Prop :=
  match r, s with
  | Ret a, Ret b => R a b
  | Err e x, Err e' x' => e = e' /\ x = x'
  | UB u, UB u' => u = u'
  | _, _ => False
  end.
Lemma related_bind {A B C D} (R : A -> B -> Prop) (S : C -> D -> Prop) r s f g : related R r s -> (forall a b, R a b -> related S (f a) (g b)) -> related S (bind r f) (bind s g).
Proof. intros H K. destruct r, s; cbn in *; auto; contradiction. Qed.
Lemma related_map {A B C} (f : B -> C) (get : A -> C) r s : related (fun a b => get a = f b) r s -> rmap get r = rmap f s.
Proof. destruct r, s; cbn; intros H; try contradiction; try congruence. destruct H. congruence. Qed.
Lemma walk_related {A A' B B'} (R : A -> A' -> Prop) eqb eqb' f f' (get : A -> B) (get' : A' -> B') (m : B' -> B) :
  (forall x x' y y', R x x' -> R y y' -> eqb x y = eqb' x' y') -> (forall x x', R x x' -> related R (f x) (f' x')) -> (forall x x', R x x' -> get x = m (get' x')) ->
  forall k x x' y y', R x x' -> R y y' -> walk eqb f get k x y = rmap (map m) (walk eqb' f' get' k x' y').
Proof.
  intros He Hf Hg. induction k as [|k IH]; intros x x' y y' Hx Hy; cbn [walk]; rewrite (He x x' y y' Hx Hy); destruct (eqb' x' y') as [e| |]; cbn [bind]; try reflexivity;
  destruct e; try reflexivity. pose proof (Hf x x' Hx) as K. destruct (f x) as [z| |], (f' x') as [z'| |]; cbn in K; try contradiction; cbn [bind rmap]; try (destruct K); subst; try reflexivity.
  rewrite (IH z z' y y' K Hy). destruct (walk eqb' f' get' k z' y'); cbn [bind rmap]; try reflexivity. rewrite (Hg x x' Hx). reflexivity.
Qed.

(** Iterators that stand for each other in every respect. *)
Definition same (v : ver) (x y : ait) : Prop := stands v x y /\ it_carry x = it_carry y /\ wf_addr v (it_current y) /\ a_scope (it_current y) = [].
Lemma be_add_same v x y k : same v x y -> related (same v) (ait_add_h false v x k) (ait_add v y k).
Proof.
  intros ([Eo Ec] & Ek & W & S0). unfold ait_add_h, ait_add. destruct (k =? 0); cbn [negb]; [repeat (split; try assumption); apply W|]. cbv zeta. rewrite Eo, Ek.
  pose proof (add_range v (it_offset y) k) as R. rewrite (be_from_of v _ R), (from_uint_of v _ R). cbn [bind related].
  split; [split; reflexivity|]. split; [reflexivity|]. split; [apply addr_of_wf, R|apply addr_of_scope, R].
Qed.
Lemma mirror_inj v a b : wf_addr v a -> wf_addr v b -> mirror_addr v a = mirror_addr v b -> a = b.
Proof. intros A B E. rewrite <- (mirror_addr_twice v a A), <- (mirror_addr_twice v b B), E. reflexivity. Qed.
Lemma mirror_eqb v a b : wf_addr v a -> wf_addr v b -> addr_eqb v (mirror_addr v a) (mirror_addr v b) = addr_eqb v a b.
Proof.
  intros A B. destruct (addr_eqb_ok v a b A B) as (r & -> & Hr). destruct (addr_eqb_ok v _ _ (mirror_addr_ok v a A) (mirror_addr_ok v b B)) as (r' & -> & Hr').
  f_equal. apply Bool.eq_iff_eq_true. rewrite Hr, Hr'. split; [apply mirror_inj; assumption|congruence].
Qed.
Lemma same_eqb v x x' y y' : same v x x' -> same v y y' -> ait_eqb v x y = ait_eqb v x' y'.
Proof.
  intros ([_ Ex] & Cx & Wx & _) ([_ Ey] & Cy & Wy & _). unfold ait_eqb. rewrite Ex, Ey, Cx, Cy. rewrite mirror_eqb by assumption. reflexivity.
Qed.
Lemma be_hosts_walk v x x' y y' k : same v x x' -> same v y y' -> hosts_walk_h false v k x y = rmap (map (mirror_addr v)) (hosts_walk v k x' y').
Proof.
  intros Hx Hy. apply (walk_related (same v)); try assumption.
  - intros. apply same_eqb; assumption.
  - intros. apply be_add_same. assumption.
  - intros a b ([_ E] & _). exact E.
Qed.
