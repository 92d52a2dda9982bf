(** What a big-endian host computes, in terms of byte order alone. *)
From Verif Require Import Base SpecText SpecAddr SpecV4 AddressModel SpecOrder NetworkModel.

(** The bytes of an integer read from the other end: four bytes for IPv4, each
    half of eight for IPv6. *)
Definition mirror (v : ver) (bs : list Z) : list Z :=
  match v with V4 => rev bs | V6 => rev (firstn 8 bs) ++ rev (skipn 8 bs) end.
Definition mirror_addr (v : ver) (a : addr) : addr := mk_addr (mirror v (a_bytes a)) (a_scope a).
Definition mirror_net (v : ver) (n : net) : net := mk_net (mirror_addr v (n_addr n)) (mirror_addr v (n_mask n)) (n_prefix n).

(** A dot after the last colon, the address ending at the first percent sign. *)
Definition dotted_tail (s : list Z) : Prop :=
  exists p q r, s = p ++ 58 :: q ++ r /\ ~ In 37 (p ++ 58 :: q) /\ ~ In 58 q /\ In 46 q /\ (r = [] \/ exists t, r = 37 :: t).
(** The last four bytes in reverse order. *)
Definition reversed_tail (bs : list Z) : list Z := firstn 12 bs ++ rev (skipn 12 bs).
Definition reversed_tail_addr (a : addr) : addr := mk_addr (reversed_tail (a_bytes a)) (a_scope a).

(** Networks whose address and mask are addresses of the version, whatever the
    mask. *)
Definition bytes_net (v : ver) (n : net) : Prop := wf_addr v (n_addr n) /\ wf_addr v (n_mask n).
(** The same number, or the dotted mask with its octets in reverse order. *)
Definition mask_mirror (d d' : list Z) : Prop :=
  (d' = d /\ d <> [] /\ Forall is_dec_digit d) \/ exists m, dotted_quad d m /\ dotted_quad d' (rev m).
