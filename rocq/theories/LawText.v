(** "::ffff:" before the text of an IPv4 address. *)
From Coq Require Import String.
From Verif Require Import Base Tac SpecText SpecAddr SpecV4 SpecV6 V4Model V6Model AddressModel SpecOrder NetworkModel ClassifyModel SpecNet SpecClass
  StrProofs V4Proofs V4Format V4Lemmas V6Proofs V6Grammar V6Full V6Lemmas AddressProofs NetProofs NetWitness ClassifyProofs ClassifyProofs2.

Definition mapped_head : list Z := [58; 58; 102; 102; 102; 102; 58].
Lemma join_colons l : (List.length l <= S (count_occ Z.eq_dec (join l) 58%Z))%nat.
Proof.
  induction l as [|t l IH]; [cbn; lia|]. destruct l as [|u l]; [cbn [List.length]; lia|]. change (join (t :: u :: l)) with (t ++ 58 :: join (u :: l)).
  rewrite count_occ_app. cbn [count_occ]. destruct (Z.eq_dec 58 58) as [_|K]; [|contradiction]. cbn [List.length] in *. lia.
Qed.
Lemma mapped_not_refused q bs : dotted_quad q bs -> ~ refused (mapped_head ++ q).
Proof.
  intros D. pose proof (quad_not q bs 58 D ltac:(lia)) as N. pose proof (quad_not q bs 37 D ltac:(lia)) as N'. intros [(ts & vs & q' & a & b & c & d & L & _ & _ & E)|(a & t & E & _)].
  - assert (E' : [102; 102; 102; 102; 58] ++ q = join (ts ++ [q'])) by (unfold mapped_head in E; cbn [app] in *; congruence).
    pose proof (join_colons (ts ++ [q'])) as J. rewrite <- E', app_length, L, count_occ_app in J. rewrite (proj1 (count_occ_not_In Z.eq_dec q 58) N) in J. cbn in J. lia.
  - assert (I : In 37 (mapped_head ++ q)) by (rewrite E; apply in_app_iff; right; left; reflexivity). apply in_app_iff in I. destruct I as [I|I]; [cbn in I; lia|contradiction].
Qed.
Lemma mapped_text q a b c d : dotted_quad q [a; b; c; d] ->
  v6_from_string true (chars (mapped_head ++ q)) = Ret (repeat 0 10 ++ [255; 255; a; b; c; d], []).
Proof.
  intros D. destruct (dotted_bytes _ _ D) as (a' & b' & c' & d' & E & Ha & Hb & Hc & Hd). injection E as <- <- <- <-. unfold is_byte in *.
  assert (Nn : no_nul (mapped_head ++ q)). { intros I. apply in_app_iff in I. destruct I as [I|I]; [cbn in I; lia|]. exact (quad_not q _ 0 D ltac:(lia) I). }
  apply (proj2 (v6_accept_iff _ _ _ Nn)). exists [0; 0; 0; 0; 0; 65535; a * 256 + b; c * 256 + d]. split; [|split; [|exact (mapped_not_refused q _ D)]].
  - left. split; [|reflexivity]. split; [reflexivity|]. right. exists [], ([102; 102; 102; 102; 58] ++ q), [], 5%nat, [65535; a * 256 + b; c * 256 + d].
    split; [exists []; split; [constructor|reflexivity]|]. split; [|split; [lia|split; reflexivity]]. right. exists [[102; 102; 102; 102]], [65535], q, a, b, c, d.
    split; [|split; [exact D|split; reflexivity]]. constructor; [|constructor]. split; [cbn; lia|]. exists [15; 15; 15; 15].
    split; [|reflexivity]. repeat (constructor; [right; split; [lia|left; reflexivity]|]). constructor.
  - cbn [group_bytes flat_map app repeat]. change (65535 / 256) with 255. change (65535 mod 256) with 255.
    rewrite !Z.div_add_l, !Z.div_small by lia. rewrite !(Z.add_comm (_ * 256)), !Z_mod_plus_full, !Z.mod_small by lia. rewrite !Z.add_0_r. reflexivity.
Qed.
Lemma law_mapped t a : addr_parse V4 (chars t) = Ret a ->
  exists b, addr_parse V6 (chars (mapped_head ++ t)) = Ret b /\ wf_addr V6 b /\ v6_ipv4_mapped (a_bytes b) = Ret (Some (a_bytes a)) /\ is_private V6 b = is_private V4 a.
Proof.
  unfold addr_parse. intros H. destruct (v4_from_string (chars t)) as [bs| |] eqn:E; cbn [bind] in H; try discriminate H. apply (f_equal (fun r => match r with Ret x => a_bytes x | _ => [] end)) in H as H'. cbn in H'.
  assert (Ea : a = mk_addr bs []) by congruence. subst a. clear H H'. apply v4_accept_iff in E.
  destruct (dotted_bytes _ _ E) as (x & y & z & w & -> & Hx & Hy & Hz & Hw). rewrite (mapped_text _ _ _ _ _ E). cbn [bind]. eexists. split; [reflexivity|].
  assert (M : v6_ipv4_mapped (repeat 0 10 ++ [255; 255; x; y; z; w]) = Ret (Some [x; y; z; w])) by (cbn [repeat app]; reflexivity).
  split; [|split; [exact M|]].
  - split; [|split; [left; reflexivity|constructor]]. split; [reflexivity|]. cbn [repeat app]. repeat (constructor; [unfold is_byte in *; lia|]). constructor.
  - cbn [is_private]. unfold v6_is_private. cbn [a_bytes]. rewrite M. reflexivity.
Qed.
(** 100.64.0.1 is not global, ::ffff:100.64.0.1 is. *)
Lemma law_mapped_global : exists t a b, addr_parse V4 (chars t) = Ret a /\ addr_parse V6 (chars (mapped_head ++ t)) = Ret b /\ is_global V4 a = Ret false /\ is_global V6 b = Ret true.
Proof. exists (str "100.64.0.1"), (addr_at V4 "100.64.0.1"), (addr_at V6 "::ffff:100.64.0.1"). repeat split; vm_compute; reflexivity. Qed.
