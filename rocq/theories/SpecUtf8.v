(** Vocabulary for builds that read [char] as UTF-8. *)
From Verif Require Import Base SpecStr SpecAny UnicodeModel CodeModel StreamModel SpecStream LiteralModel Utf8Model.

(** The functions of such a build, by class. *)
Definition u_string_of (T : chtype) (k : kind) (strict : bool) (s : list Z) : res obj :=
  match k with
  | KAddr v => rmap (OAddr v) (addr_string_i utf8c_next T v s)
  | KNet v => rmap (ONet v) (net_string_t_i utf8c_next T v strict s)
  | KAny => rmap OAny (any_string_i utf8c_next T s)
  | KAnyNet => rmap OAnyNet (anet_string_i utf8c_next T strict s)
  end.
Definition u_array_of (T : chtype) (k : kind) (strict : bool) (data : list Z) : res obj :=
  match k with
  | KAddr v => rmap (OAddr v) (addr_array_i utf8c_next T v data)
  | KNet v => rmap (ONet v) (net_array_t_i utf8c_next T v strict data)
  | KAny => rmap OAny (any_array_i utf8c_next T data)
  | KAnyNet => rmap OAnyNet (anet_array_i utf8c_next T strict data)
  end.
Definition u_literal_of (T : chtype) (k : kind) (s : list Z) : res obj :=
  match k with
  | KAddr v => rmap (OAddr v) (addr_literal_i utf8c_next T v s)
  | KNet v => rmap (ONet v) (net_literal_i utf8c_next T v s)
  | KAny => rmap OAny (any_literal_i utf8c_next T s)
  | KAnyNet => rmap OAnyNet (anet_literal_i utf8c_next T s)
  end.
Definition u_template_of (T : chtype) (k : kind) (strict : bool) (data : list Z) : res obj :=
  match k with
  | KAddr v => rmap (OAddr v) (addr_template_i utf8c_next T v data)
  | KNet v => rmap (ONet v) (net_template_i utf8c_next T v strict data)
  | KAny => rmap OAny (any_template_i utf8c_next T data)
  | KAnyNet => rmap OAnyNet (anet_template_i utf8c_next T strict data)
  end.
Definition u_coded_of (T : chtype) (k : kind) (strict : bool) (s : list Z) (code : ec) : res (obj * ec) :=
  ts <- tokens (reader_i utf8c_next T) s ;;
  match k with
  | KAddr v => rmap (fun r => (OAddr v (fst r), snd r)) (parse_i utf8c_next v ts code)
  | KNet v => rmap (fun r => (ONet v (fst r), snd r)) (net_parse_i utf8c_next v ts strict code)
  | KAny => rmap (fun r => (OAny (fst r), snd r)) (any_parse_i utf8c_next ts code)
  | KAnyNet => rmap (fun r => (OAnyNet (fst r), snd r)) (anet_parse_i utf8c_next ts strict code)
  end.
Definition u_get (T : chtype) (k : kind) (i : istr) : res (obj * istr) :=
  match k with
  | KAddr v => rmap (fun r => (OAddr v (fst r), snd r)) (addr_get_i utf8c_next T v i)
  | KNet v => rmap (fun r => (ONet v (fst r), snd r)) (net_get_i utf8c_next T v i)
  | KAny => rmap (fun r => (OAny (fst r), snd r)) (any_get_i utf8c_next T i)
  | KAnyNet => rmap (fun r => (OAnyNet (fst r), snd r)) (anet_get_i utf8c_next T i)
  end.
(** The bytes a text of [char] stands for. *)
Definition bytes_of (s : list Z) : list Z := map (fun c => c mod 256) s.
