(** The witness of the misread UTF-8 text. *)
From Coq Require Import String.
From Verif Require Import Base UnicodeModel V6Model AddressModel SpecAddr SpecStr SpecV6 SpecOrder AddressProofs NetWitness StreamModel.

(** fe80::1 with the scope id of the two char 0xC0 0xB1 (the overlong form of '1'). *)
Definition odd_addr : addr := mk_addr (a_bytes (addr_at V6 "fe80::1")) [-64; -79].
Lemma odd_wf : wf_addr V6 odd_addr.
Proof.
  split; [apply (addr_at_wf V6 "fe80::1"); reflexivity|]. cbn [odd_addr a_scope]. split.
  - right. split.
    + split; [unfold zlen; cbn; lia|]. repeat constructor; lia.
    + unfold no_nul. cbn. intuition discriminate.
  - repeat constructor; unfold is_char; lia.
Qed.
Lemma text_misread : exists a b s8 s16 e x, wf_addr V6 a /\ wf_addr V6 b /\ a <> b /\
  addr_to_text TChar8 V6 a compressed = Ret s8 /\ addr_parse_text TChar8 V6 s8 = Ret b /\
  addr_to_text TChar16 V6 a compressed = Ret s16 /\ addr_parse_text TChar16 V6 s16 = Err e x.
Proof.
  exists odd_addr, (addr_at V6 "fe80::1%1"). exists [102; 101; 56; 48; 58; 58; 49; 37; 192; 177], [102; 101; 56; 48; 58; 58; 49; 37; 65472; 65457], unexpected_symbol, 65472. split; [exact odd_wf|]. split; [apply addr_at_wf; reflexivity|]. split; [vm_compute; discriminate|].
  split; [vm_compute; reflexivity|]. split; [vm_compute; reflexivity|]. split; vm_compute; reflexivity.
Qed.
Lemma ascii_by s : forallb (fun c => (0 <=? c) && (c <? 128)) s = true -> Forall is_ascii s.
Proof. intros H. apply Forall_forall. intros c K. rewrite forallb_forall in H. apply H in K. unfold is_ascii. lia. Qed.
