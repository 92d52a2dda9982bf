(** Independent specification of the errors of network texts: what is wrong
    with a text, and the number which goes with it.  '/' is 47. *)
From Verif Require Import Base SpecText SpecV4 SpecAddr SpecV6 SpecV6Err SpecStr NetworkModel SpecNet SpecLoose.

(** The error of an address text, and the number an address text denotes. *)
Definition addr_error (v : ver) (t : list Z) (e : ec) (i : Z) : Prop :=
  match v with V4 => v4_error (chars t) e i | V6 => v6_error t e i end.
Definition addr_denotes (v : ver) (t : list Z) (x : Z) : Prop :=
  match v with
  | V4 => exists bs, dotted_quad t bs /\ x = be_value bs
  | V6 => exists gs sc, v6_scoped t gs sc /\ ~ refused t /\ x = be_value (group_bytes gs)
  end.

(** What is wrong with a mask text. *)
Inductive mask_error : ver -> list Z -> ec -> Z -> Prop :=
| me_number v m x : dec_text m x -> width v < x mod 2 ^ 64 -> mask_error v m invalid_netmask 0
| me_symbol m : ~ Forall is_dec_digit m -> mask_error V6 m invalid_netmask 0
| me_quad m e i : ~ Forall is_dec_digit m -> v4_error (chars m) e i -> mask_error V4 m invalid_netmask i
| me_mixed m q : dotted_quad m q -> (forall p, 0 <= p <= 32 -> be_value q <> 2 ^ 32 - 2 ^ (32 - p) /\ be_value q <> 2 ^ p - 1) ->
    mask_error V4 m netmask_pattern_mixes_zeroes_and_ones 3.

(** [before_slash v r]: the address [r] ends with '/' early enough to be seen. *)
Definition before_slash (v : ver) (r : list Z) : Prop := ~ In 47 r /\ zlen r <= longest_address v.
(** [net_parts v ts t p n]: what is read is the address text [t] and the prefix
    length [p]; errors which are found after the mask carry the number [n]. *)
Inductive net_parts (v : ver) : list tok -> list Z -> Z -> Z -> Prop :=
| np_alone r t : before_slash v r -> before_nul r t -> net_parts v (chars r) t (width v) 0
| np_long r rest t : ~ In 47 r -> zlen r = longest_address v + 1 -> before_nul (firstn (Z.to_nat (longest_address v)) r) t ->
    net_parts v (chars r ++ rest) t (width v) 0
| np_number r m t p : before_slash v r -> before_nul r t -> loose_mask v m p -> ~ In 46 m -> net_parts v (chars (r ++ 47 :: m)) t p 0
| np_dotted r m t p : before_slash v r -> before_nul r t -> loose_mask v m p -> In 46 m -> net_parts v (chars (r ++ 47 :: m)) t p 3.

(** The error of a network text: undecodable symbols and slashes first, then
    the mask, then the address, at last the host bits. *)
Inductive net_error (v : ver) (strict : bool) : list tok -> ec -> Z -> Prop :=
| ne_encoding r e x rest : before_slash v r -> net_error v strict (chars r ++ Bad e x :: rest) e x
| ne_encoding_mask r m e x rest : before_slash v r -> ~ In 47 m -> net_error v strict (chars (r ++ 47 :: m) ++ Bad e x :: rest) e x
| ne_slashes r m rest : before_slash v r -> net_error v strict (chars (r ++ 47 :: m) ++ Ch 47 :: rest) only_one_slash_permitted 0
| ne_no_mask r : before_slash v r -> net_error v strict (chars (r ++ [47])) empty_netmask 0
| ne_mask r m e x : before_slash v r -> ~ In 47 m -> mask_error v m e x -> m <> [] -> net_error v strict (chars (r ++ 47 :: m)) e x
| ne_address ts t p n e i : net_parts v ts t p n -> addr_error v t e i -> net_error v strict ts e n
| ne_host_bits ts t p n x : net_parts v ts t p n -> addr_denotes v t x -> x mod 2 ^ (width v - p) <> 0 -> strict = true ->
    net_error v strict ts has_host_bits_set n.
