(** Classes, scopes and exceptions in every build: specification. *)
From Coq Require Import String.
From Verif Require Import Base SpecStr SpecText SpecAddr SpecOrder SpecNet SpecClass SpecAny AddressModel NetworkModel ClassifyModel AnyModel StreamModel SpecStream ErrorModel SpecError
  ConfigModel SpecNetConfig SpecAnyConfig SpecUtf8 MacroModel BuildModel.
Import ListNotations.
Open Scope list_scope.

(** The literals of the tables. *)
Definition table_texts (v : ver) : list string :=
  private_texts v ++ reserved_texts v ++ [multicast_text v; link_local_text v] ++
  match v with V4 => [public_text; loopback_text] | V6 => [site_local_text] end.
(** The values of the macro for the length of scope ids (C68). *)
Definition possible (b : build) : Prop := 0 <= c_max (b_cfg b) <= 64.
(** Addresses and networks a build can hold. *)
Definition lives (b : build) (v : ver) (a : addr) : Prop :=
  match v with V4 => wf_addr V4 a | V6 => addr_for (c_max (b_cfg b)) (c_spaces (b_cfg b)) a end.
Definition net_lives (b : build) (v : ver) (n : net) : Prop :=
  match v with V4 => wf_net V4 n | V6 => net_for (c_max (b_cfg b)) (c_spaces (b_cfg b)) n end.
(** A function that yields a boolean: true exactly when [P]. *)
Definition tells (r : res bool) (P : Prop) : Prop := exists x, r = Ret x /\ (x = true <-> P).
(** The numbers of the classes. *)
Definition private_number (v : ver) (x : Z) : Prop :=
  match v with
  | V4 => in_ranges v4_private_ranges x
  | V6 => (looks_mapped x /\ in_ranges v4_private_ranges (x mod 2 ^ 32)) \/ (~ looks_mapped x /\ in_ranges v6_private_ranges x)
  end.
Definition global_number (v : ver) (x : Z) : Prop :=
  ~ private_number v x /\ match v with V4 => ~ within v4_shared x | V6 => True end.
Definition multicast_number (v : ver) (x : Z) : Prop := within (match v with V4 => v4_multicast | V6 => v6_multicast end) x.
Definition reserved_number (v : ver) (x : Z) : Prop := in_ranges (match v with V4 => [v4_reserved] | V6 => v6_reserved_ranges end) x.
Definition loopback_number (v : ver) (x : Z) : Prop := within (match v with V4 => v4_loopback | V6 => v6_loopback end) x.
Definition link_local_number (v : ver) (x : Z) : Prop := within (match v with V4 => v4_link_local | V6 => v6_link_local end) x.

(** How a text appears in a message of a build. *)
Definition shows_in (b : build) (T : chtype) (s t : list Z) : Prop :=
  match T with TChar => if b_utf8 b then shows TChar8 (bytes_of s) t else shows TChar s t | _ => shows T s t end.
(** The throwing parsers of a build, by class. *)
Definition b_throw_of (b : build) (T : chtype) (k : kind) (strict : bool) (s : list Z) : res (obj + exn) :=
  let f {A} (g : A -> obj) (r : res (A + exn)) := rmap (fun x => match x with inl a => inl (g a) | inr e => inr e end) r in
  match k with
  | KAddr v => f (OAddr v) (addr_parse_x_b b T v s)
  | KNet v => f (ONet v) (net_parse_x_b b T v s strict)
  | KAny => f OAny (any_parse_x_b b T s)
  | KAnyNet => f OAnyNet (anet_parse_x_b b T s strict)
  end.
