(** The unions of the version-erased classes: the code only touches the member
    its tag names. *)
From Verif Require Import Base UnicodeModel FixedStringModel V4Model V6Model Uint128Model SpecInt AddressModel NetworkModel
  IterModel ClassifyModel AnyModel CodeModel StreamModel LiteralModel ScopeModel UnionModel SpecUnion.

Lemma agree_cases {A} v (u : un A) : agree v u -> exists a, (v = V4 /\ u = M4 a) \/ (v = V6 /\ u = M6 a).
Proof. destruct v, u as [a|a]; cbn; intro H; try contradiction; exists a; [left|right]; split; reflexivity. Qed.
Lemma lawful_bind {A B C D} (P : A -> Prop) (f : A -> B) (Q : C -> Prop) (g : C -> D) m r k k' :
  lawful P f m r -> (forall a, P a -> lawful Q g (k a) (k' (f a))) -> lawful Q g (ubind m k) (bind r k').
Proof.
  destruct m as [[a|e v|u]| |]; cbn [lawful ubind]; intros H HK; try contradiction.
  - destruct H as [HP ->]. cbn [bind]. apply HK, HP.
  - subst r. reflexivity.
  - subst r. reflexivity.
Qed.
Lemma lawful_val {A} (r : res A) : lawful (fun _ => True) (fun a => a) (Val r) r.
Proof. destruct r; cbn; auto. Qed.
Lemma lawful_eq {A} (m : ures A) r : m = Val r -> lawful (fun _ => True) (fun a => a) m r.
Proof. intros ->. apply lawful_val. Qed.
Lemma eq_lawful {A} (P : A -> Prop) (m : ures A) r : lawful P (fun a => a) m r -> m = Val r.
Proof. destruct m as [[a|e v|u]| |]; cbn; intro H; try contradiction; subst; try reflexivity. destruct H as [_ ->]. reflexivity. Qed.
Lemma lawful_ret {A B} (P : A -> Prop) (f : A -> B) a b : P a -> b = f a -> lawful P f (Val (Ret a)) (Ret b).
Proof. intros H ->. split; [exact H|reflexivity]. Qed.
Lemma lawful_P {A B} (P : A -> Prop) (f : A -> B) m r a : lawful P f m r -> m = Val (Ret a) -> P a.
Proof. intros H ->. apply H. Qed.
Lemma lawful_done {A B} (P : A -> Prop) (f : A -> B) m r : lawful P f m r -> m <> Inactive /\ m <> NoValue.
Proof. destruct m as [[a|e v|u]| |]; cbn; intro H; try contradiction; split; discriminate. Qed.

Ltac vers := change (ver_eqb V4 V4) with true in *; change (ver_eqb V6 V6) with true in *;
  change (ver_eqb V4 V6) with false in *; change (ver_eqb V6 V4) with false in *;
  change (ver_num V4 ?= ver_num V4) with Eq in *; change (ver_num V6 ?= ver_num V6) with Eq in *;
  change (ver_num V4 ?= ver_num V6) with Lt in *; change (ver_num V6 ?= ver_num V4) with Gt in *;
  change (ver_num V4 <? ver_num V4) with false in *; change (ver_num V6 <? ver_num V6) with false in *;
  change (ver_num V4 <? ver_num V6) with true in *; change (ver_num V6 <? ver_num V4) with false in *;
  change (ver_num V4 >? ver_num V4) with false in *; change (ver_num V6 >? ver_num V6) with false in *;
  change (ver_num V4 >? ver_num V6) with false in *; change (ver_num V6 >? ver_num V4) with true in *.
Ltac red1 := unfold a_plain, n_plain, ua_is_v4, ua_is_v6, un_is_v4, anet_is_v4, aa_v4, aa_v6;
  cbn [ua_ver ua_un un_ver un_un ui_ver ui_un ui_cur aa_ver aa_addr an_ver an_net ai_ver ai_it ai_cur held]; vers;
  cbn [negb ubind mem4 mem6 value_of].

Lemma a_cases x : a_ok x -> exists a, x = ua_of4 a \/ x = ua_of6 a.
Proof. destruct x as [v u]. intro H. destruct (agree_cases v u H) as [a [[-> ->]|[-> ->]]]; exists a; [left|right]; reflexivity. Qed.
Lemma n_cases x : n_ok x -> exists n, x = un_of4 n \/ x = un_of6 n.
Proof. destruct x as [v u]. intro H. destruct (agree_cases v u H) as [a [[-> ->]|[-> ->]]]; exists a; [left|right]; reflexivity. Qed.
Ltac acase H := let a := fresh "a" in destruct (a_cases _ H) as [a [-> | ->]]; unfold ua_of4, ua_of6.
Ltac ncase H := let a := fresh "n" in destruct (n_cases _ H) as [a [-> | ->]]; unfold un_of4, un_of6.
Lemma of4_ok a : a_ok (ua_of4 a). Proof. exact I. Qed.
Lemma of6_ok a : a_ok (ua_of6 a). Proof. exact I. Qed.
Lemma nof4_ok a : n_ok (un_of4 a). Proof. exact I. Qed.
Lemma nof6_ok a : n_ok (un_of6 a). Proof. exact I. Qed.

(** ** ip_address *)
Lemma ua_reads x is64 fmt : a_ok x ->
  ua_is_multicast x = Val (Ret (any_is_multicast (a_plain x))) /\
  ua_is_private x = Val (any_is_private (a_plain x)) /\
  ua_is_global x = Val (any_is_global (a_plain x)) /\
  ua_is_reserved x = Val (Ret (any_is_reserved (a_plain x))) /\
  ua_is_loopback x = Val (Ret (any_is_loopback (a_plain x))) /\
  ua_is_link_local x = Val (Ret (any_is_link_local (a_plain x))) /\
  ua_is_unspecified x = Val (Ret (any_is_unspecified (a_plain x))) /\
  ua_is_site_local x = Val (Ret (any_is_site_local (a_plain x))) /\
  ua_size x = Val (Ret (any_size (a_plain x))) /\
  ua_hash is64 x = Val (any_hash is64 (a_plain x)) /\
  ua_ipv4_mapped x = Val (any_ipv4_mapped (a_plain x)) /\
  ua_sixtofour x = Val (any_sixtofour (a_plain x)) /\
  ua_teredo x = Val (any_teredo (a_plain x)) /\
  ua_data x = Val (Ret (a_bytes (aa_addr (a_plain x)))) /\
  ua_to_uint32 x = Val (any_to_uint32 (a_plain x)) /\
  ua_to_uint128 x = Val (any_to_uint128 (a_plain x)) /\
  ua_to_string fmt x = Val (any_to_string (a_plain x) fmt) /\
  ua_reverse_pointer x = Val (any_reverse_pointer (a_plain x)) /\
  ua_v4 x = Val (Ret (aa_v4 (a_plain x))) /\
  ua_v6 x = Val (Ret (aa_v6 (a_plain x))) /\
  ua_get_scope x = Val (any_get_scope (a_plain x)).
Proof.
  intro H; acase H;
    (unfold ua_is_multicast, ua_is_private, ua_is_global, ua_is_reserved, ua_is_loopback, ua_is_link_local, ua_is_unspecified,
      ua_is_site_local, ua_size, ua_hash, ua_ipv4_mapped, ua_sixtofour, ua_teredo, ua_data, ua_to_uint32, ua_to_uint128,
      ua_to_string, ua_reverse_pointer, ua_v4, ua_v6, ua_get_scope, any_is_multicast, any_is_private, any_is_global,
      any_is_reserved, any_is_loopback, any_is_link_local, any_is_unspecified,
      any_is_site_local, any_size, any_hash, any_ipv4_mapped, any_sixtofour, any_teredo, any_to_uint32, any_to_uint128,
      any_to_string, any_reverse_pointer, any_get_scope; red1;
    repeat (split; [reflexivity|]); reflexivity).
Qed.
Lemma ua_pairs x y : a_ok x -> a_ok y ->
  ua_eqb x y = Val (any_eqb (a_plain x) (a_plain y)) /\
  ua_cmp x y = Val (any_cmp (a_plain x) (a_plain y)) /\
  ua_ltb x y = Val (any_ltb (a_plain x) (a_plain y)).
Proof.
  intros H G; acase H; acase G; unfold ua_eqb, ua_cmp, ua_ltb, any_eqb, any_cmp, any_ltb; red1; repeat split.
Qed.
Lemma ua_changes T x s c : a_ok x ->
  lawful a_ok a_plain (ua_scope_set T x s) (any_scope_set T (a_plain x) s) /\
  lawful (fun p => a_ok (fst p)) (with_code a_plain) (ua_scope_set_code T x s c) (any_scope_set_code T (a_plain x) s c) /\
  lawful a_ok a_plain (ua_scope_set_array T x s) (any_scope_set_array T (a_plain x) s) /\
  lawful a_ok a_plain (ua_clear_scope x) (any_clear_scope (a_plain x)).
Proof.
  intro H; acase H;
    unfold ua_scope_set, ua_scope_set_code, ua_scope_set_array, ua_clear_scope, any_scope_set, any_scope_set_code, any_scope_set_array,
      any_clear_scope; red1.
  - repeat split.
  - split; [|split; [|split]].
    + destruct (scope_set T a s) as [m|e v|u]; cbn [ubind bind lawful]; first [reflexivity | split; [exact I|reflexivity]].
    + destruct (scope_set_code T a s c) as [[m k]|e v|u]; cbn [ubind bind lawful]; first [reflexivity | split; [exact I|reflexivity]].
    + destruct (scope_set_array T a s) as [m|e v|u]; cbn [ubind bind lawful]; first [reflexivity | split; [exact I|reflexivity]].
    + destruct (remove_scope V6 a) as [m|e v|u]; cbn [ubind bind lawful]; first [reflexivity | split; [exact I|reflexivity]].
Qed.
Lemma ua_creations src n v ts c :
  lawful a_ok a_plain (ua_from_bytes src n v) (any_from_bytes src n v) /\
  lawful a_ok a_plain (ua_parse ts) (any_parse ts) /\
  lawful (fun p => a_ok (fst p)) (with_code a_plain) (ua_parse_code ts c) (any_parse_code ts c).
Proof.
  unfold ua_from_bytes, any_from_bytes, ua_parse, any_parse, ua_parse_code, any_parse_code.
  split; [|split].
  - destruct v; vers; cbv iota; destruct (from_bytes _ src n) as [m|e w|u]; cbn [ubind bind lawful]; first [reflexivity | split; [exact I|reflexivity]].
  - destruct (addr_parse_code V4 ts no_error) as [[m k]|e w|u]; cbn [ubind bind lawful]; try reflexivity.
    destruct (ec_eqb k no_error); [split; [exact I|reflexivity]|].
    destruct (addr_parse V6 ts) as [m'|e w|u]; cbn [ubind bind lawful]; first [reflexivity | split; [exact I|reflexivity]].
  - destruct (addr_parse_code V4 ts no_error) as [[m k]|e w|u]; cbn [ubind bind lawful]; try reflexivity.
    destruct (ec_eqb k no_error); [split; [exact I|reflexivity]|].
    destruct (addr_parse_code V6 ts k) as [[m' k']|e w|u]; cbn [ubind bind lawful]; try reflexivity.
    destruct (ec_eqb k' no_error); (split; [exact I|reflexivity]).
Qed.

(** ** ip_network *)
Lemma un_reads x is64 fmt : n_ok x ->
  un_prefixlen x = Val (Ret (anet_prefixlen (n_plain x))) /\
  un_is_multicast x = Val (Ret (anet_is_multicast (n_plain x))) /\
  un_is_private x = Val (Ret (anet_is_private (n_plain x))) /\
  un_is_global x = Val (Ret (anet_is_global (n_plain x))) /\
  un_is_reserved x = Val (Ret (anet_is_reserved (n_plain x))) /\
  un_is_loopback x = Val (Ret (anet_is_loopback (n_plain x))) /\
  un_is_link_local x = Val (Ret (anet_is_link_local (n_plain x))) /\
  un_is_unspecified x = Val (Ret (anet_is_unspecified (n_plain x))) /\
  un_is_site_local x = Val (Ret (anet_is_site_local (n_plain x))) /\
  un_hash is64 x = Val (anet_hash is64 (n_plain x)) /\
  un_count x = Val (anet_count (n_plain x)) /\
  un_to_string fmt x = Val (anet_to_string (n_plain x) fmt) /\
  un_v4 x = Val (Ret (if ver_eqb (un_ver x) V4 then Some (held (un_un x)) else None)) /\
  un_v6 x = Val (Ret (if ver_eqb (un_ver x) V6 then Some (held (un_un x)) else None)).
Proof.
  intro H; ncase H;
    (unfold un_prefixlen, un_is_multicast, un_is_private, un_is_global, un_is_reserved, un_is_loopback, un_is_link_local,
      un_is_unspecified, un_is_site_local, un_hash, un_count, un_to_string, un_v4, un_v6, anet_prefixlen, anet_is_multicast,
      anet_is_private, anet_is_global, anet_is_reserved, anet_is_loopback, anet_is_link_local,
      anet_is_unspecified, anet_is_site_local, anet_hash, anet_count, anet_to_string; red1;
    repeat (split; [reflexivity|]); reflexivity).
Qed.
Lemma un_parts x : n_ok x ->
  lawful a_ok a_plain (un_address x) (Ret (anet_address (n_plain x))) /\
  lawful a_ok a_plain (un_broadcast x) (Ret (anet_broadcast (n_plain x))) /\
  lawful a_ok a_plain (un_netmask x) (Ret (anet_netmask (n_plain x))) /\
  lawful a_ok a_plain (un_hostmask x) (Ret (anet_hostmask (n_plain x))).
Proof.
  intro H; ncase H; unfold un_address, un_broadcast, un_netmask, un_hostmask, anet_address, anet_broadcast, anet_netmask, anet_hostmask;
    red1; repeat split.
Qed.
Lemma un_pairs sp x y a : n_ok x -> n_ok y -> a_ok a ->
  un_contains x a = Val (Ret (anet_contains (n_plain x) (a_plain a))) /\
  un_overlaps x y = Val (Ret (anet_overlaps (n_plain x) (n_plain y))) /\
  un_subnet_of sp x y = Val (anet_subnet_of sp (n_plain x) (n_plain y)) /\
  un_supernet_of sp x y = Val (anet_supernet_of sp (n_plain x) (n_plain y)) /\
  un_eqb x y = Val (anet_eqb (n_plain x) (n_plain y)) /\
  un_cmp x y = Val (anet_cmp (n_plain x) (n_plain y)) /\
  un_ltb x y = Val (anet_ltb (n_plain x) (n_plain y)).
Proof.
  intros H G K; ncase H; ncase G; acase K;
    unfold un_contains, un_overlaps, un_subnet_of, un_supernet_of, un_eqb, un_cmp, un_ltb, anet_contains, anet_overlaps,
      anet_subnet_of, anet_supernet_of, anet_eqb, anet_cmp, anet_ltb, un_v4, un_v6, ua_v4, ua_v6; red1;
    repeat (split; [reflexivity|]); reflexivity.
Qed.
Lemma un_creations x a ts s p c d np : n_ok x -> a_ok a ->
  lawful n_ok n_plain (un_parse ts s) (anet_parse ts s) /\
  lawful (fun q => n_ok (fst q)) (with_code n_plain) (un_parse_code ts c s) (anet_parse_code ts c s) /\
  lawful n_ok n_plain (un_from_address a p s) (anet_from_address (a_plain a) p s) /\
  lawful (fun q => n_ok (fst q)) (with_code n_plain) (un_from_address_code a c p s) (anet_from_address_code (a_plain a) c p s) /\
  lawful n_ok n_plain (un_supernet d np x) (anet_supernet (n_plain x) d np) /\
  lawful (fun q => n_ok (fst q)) (with_code n_plain) (un_supernet_code c d np x) (anet_supernet_code (n_plain x) c d np).
Proof.
  intros H G. split; [|split; [|split; [|split; [|split]]]].
  - unfold un_parse, anet_parse.
    destruct (net_parse_code V4 ts no_error s) as [[m k]|e w|u]; cbn [ubind bind lawful]; try reflexivity.
    destruct (ec_eqb k no_error); [split; [exact I|reflexivity]|].
    destruct (net_parse V6 ts s) as [m'|e w|u]; cbn [ubind bind lawful]; first [reflexivity | split; [exact I|reflexivity]].
  - unfold un_parse_code, anet_parse_code.
    destruct (net_parse_code V4 ts no_error s) as [[m k]|e w|u]; cbn [ubind bind lawful]; try reflexivity.
    destruct (ec_eqb k no_error); [split; [exact I|reflexivity]|].
    destruct (net_parse_code V6 ts k s) as [[m' k']|e w|u]; cbn [ubind bind lawful]; try reflexivity.
    destruct (ec_eqb k' no_error); (split; [exact I|reflexivity]).
  - acase G; unfold un_from_address, anet_from_address, ua_v4, ua_v6; red1; cbv iota;
      destruct (from_address _ a0 p s) as [m|e w|u]; cbn [ubind bind lawful]; first [reflexivity | split; [exact I|reflexivity]].
  - acase G; unfold un_from_address_code, anet_from_address_code, ua_v4, ua_v6; red1; cbv iota;
      destruct (from_address_code _ a0 c p s) as [[m k]|e w|u]; cbn [ubind bind lawful]; first [reflexivity | split; [exact I|reflexivity]].
  - ncase H; unfold un_supernet, anet_supernet; red1; cbv iota;
      destruct (supernet _ n d np) as [m|e w|u]; cbn [ubind bind lawful]; first [reflexivity | split; [exact I|reflexivity]].
  - ncase H; unfold un_supernet_code, anet_supernet_code; red1; cbv iota;
      destruct (supernet_code _ n c d np) as [[m k]|e w|u]; cbn [ubind bind lawful]; first [reflexivity | split; [exact I|reflexivity]].
Qed.
