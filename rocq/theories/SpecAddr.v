(** Independent meaning of an address as a number: its bytes are the base-256
    digits, most significant first (network byte order). *)
From Verif Require Import Base SpecText.

Definition be_value (bytes : list Z) : Z := horner 256 0 bytes.
Definition is_byte (x : Z) : Prop := 0 <= x <= 255.
Definition bytes_ok (v : ver) (bytes : list Z) : Prop := length bytes = nbytes v /\ Forall is_byte bytes.
