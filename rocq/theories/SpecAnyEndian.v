(** Specification for C93: what a big-endian host makes of a version-erased value. *)
From Verif Require Import Base AddressModel NetworkModel IterModel SpecEndian AnyModel.

(** The same version, the bytes as SpecEndian mirrors them. *)
Definition mirror_any (x : aaddr) : aaddr := mk_aa (aa_ver x) (mirror_addr (aa_ver x) (aa_addr x)).
Definition mirror_anet (x : anet) : anet := mk_an (an_ver x) (mirror_net (an_ver x) (an_net x)).
(** The last four bytes of an IPv6 address in reverse order. *)
Definition reversed_any (x : aaddr) : aaddr :=
  match aa_ver x with V4 => x | V6 => mk_aa V6 (reversed_tail_addr (aa_addr x)) end.
(** A loop from rbegin() to rend(). *)
Definition rloop {I E} (o : iops I E) (k : nat) (s : aseq I E) : res (list E) := b <- aseq_rbegin o s ;; e <- aseq_rend o s ;; aseq_rwalk o k b e.
