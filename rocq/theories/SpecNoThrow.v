(** What is expected of a function when errors are not reported. *)
From Verif Require Import Base SpecAny UnicodeModel AddressModel NetworkModel IterModel AnyModel CodeModel StreamModel SpecStream LiteralModel NoThrowModel.

(** [silent d t s]: where [t] throws, [s] returns [d]; otherwise [s] does what [t] does. *)
Definition silent {A} (d : A) (t s : res A) : Prop :=
  match t with Ret a => s = Ret a | Err _ _ => s = Ret d | UB u => s = UB u end.
(** What each class gets for a text that is not accepted. *)
Definition nothing (k : kind) : obj :=
  match k with
  | KAny => OAny (mk_aa V6 (addr_default V6))
  | KAnyNet => OAnyNet (mk_an V6 (net_default V6))
  | _ => default_of k
  end.
(** The functions, by class. *)
Definition nx_string_of (T : chtype) (k : kind) (strict : bool) (s : list Z) : res obj :=
  match k with
  | KAddr v => rmap (OAddr v) (nx_addr_string T v s)
  | KNet v => rmap (ONet v) (nx_net_string T v strict s)
  | KAny => rmap OAny (nx_any_string T s)
  | KAnyNet => rmap OAnyNet (nx_anet_string T strict s)
  end.
Definition nx_array_of (T : chtype) (k : kind) (strict : bool) (data : list Z) : res obj :=
  match k with
  | KAddr v => rmap (OAddr v) (nx_addr_array T v data)
  | KNet v => rmap (ONet v) (nx_net_array T v strict data)
  | KAny => rmap OAny (nx_any_array T data)
  | KAnyNet => rmap OAnyNet (nx_anet_array T strict data)
  end.
Definition nx_literal_of (T : chtype) (k : kind) (s : list Z) : res obj :=
  match k with
  | KAddr v => rmap (OAddr v) (nx_addr_literal T v s)
  | KNet v => rmap (ONet v) (nx_net_literal T v s)
  | KAny => rmap OAny (nx_any_literal T s)
  | KAnyNet => rmap OAnyNet (nx_anet_literal T s)
  end.
(** The overloads with an error code, by class. *)
Definition coded_of (T : chtype) (k : kind) (strict : bool) (s : list Z) (code : ec) : res (obj * ec) :=
  ts <- tokens (reader_of T) s ;;
  match k with
  | KAddr v => rmap (fun r => (OAddr v (fst r), snd r)) (parse_st v ts code)
  | KNet v => rmap (fun r => (ONet v (fst r), snd r)) (net_parse_st v ts strict code)
  | KAny => rmap (fun r => (OAny (fst r), snd r)) (any_parse_st ts code)
  | KAnyNet => rmap (fun r => (OAnyNet (fst r), snd r)) (anet_parse_st ts strict code)
  end.
