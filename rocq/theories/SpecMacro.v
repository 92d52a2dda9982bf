(** What builds with several macros set should do. *)
From Verif Require Import Base SpecStr SpecAny SpecStream UnicodeModel AddressModel NetworkModel AnyModel CodeModel StreamModel LiteralModel SpecUtf8 SpecScope ConfigModel NetConfigModel MacroModel.

(** The functions of a build, by class. *)
Definition b_string_of (b : build) (T : chtype) (k : kind) (strict : bool) (s : list Z) : res obj :=
  ts <- tokens (reader_b b T) s ;;
  match k with
  | KAddr v => rmap (OAddr v) (parse_b b v ts)
  | KNet v => rmap (ONet v) (net_parse_b b v ts strict)
  | KAny => rmap OAny (any_parse_b b ts)
  | KAnyNet => rmap OAnyNet (anet_parse_b b ts strict)
  end.
Definition b_coded_of (b : build) (T : chtype) (k : kind) (strict : bool) (s : list Z) (code : ec) : res (obj * ec) :=
  ts <- tokens (reader_b b T) s ;;
  match k with
  | KAddr v => rmap (fun r => (OAddr v (fst r), snd r)) (parse_code_b b v ts code)
  | KNet v => rmap (fun r => (ONet v (fst r), snd r)) (net_parse_code_b b v ts strict code)
  | KAny => rmap (fun r => (OAny (fst r), snd r)) (any_parse_code_b b ts code)
  | KAnyNet => rmap (fun r => (OAnyNet (fst r), snd r)) (anet_parse_code_b b ts strict code)
  end.
Definition b_array_of (b : build) (T : chtype) (k : kind) (strict : bool) (data : list Z) : res obj :=
  match k with
  | KAddr v => rmap (OAddr v) (addr_array_b b T v data)
  | KNet v => rmap (ONet v) (net_array_t_b b T v strict data)
  | KAny => rmap OAny (any_array_b b T data)
  | KAnyNet => rmap OAnyNet (anet_array_b b T strict data)
  end.
Definition b_literal_of (b : build) (T : chtype) (k : kind) (s : list Z) : res obj :=
  match k with
  | KAddr v => rmap (OAddr v) (addr_literal_b b T v s)
  | KNet v => rmap (ONet v) (net_literal_b b T v s)
  | KAny => rmap OAny (any_literal_b b T s)
  | KAnyNet => rmap OAnyNet (anet_literal_b b T s)
  end.
(** The builds that differ from [b] in one macro. *)
Definition throwing (b : build) : build := mk_build (b_cfg b) (b_utf8 b) true.
Definition quietly (b : build) : build := mk_build (b_cfg b) (b_utf8 b) false.
Definition in_utf8 (b : build) : build := mk_build (b_cfg b) true (b_throws b).
Definition in_bytes (b : build) : build := mk_build (b_cfg b) false (b_throws b).
(** The longest text a literal operator takes when scope ids have up to [n] characters. *)
Definition longest_for (n : Z) (k : kind) : Z :=
  match k with KAddr V4 => 15 | KAddr V6 => 41 + n | KNet V4 => 31 | KNet V6 => 45 + n | KAny => 41 + n | KAnyNet => 83 + 2 * n end.
(** The characters a text stands for in a build. *)
Definition reads_in (b : build) (T : chtype) (s cs : list Z) : Prop :=
  match T with TChar => if b_utf8 b then lax_utf8 (bytes_of s) cs else cs = s | _ => reads T s cs end.
(** C68 and C81 on the characters, IPv4 not being affected. *)
Definition read_by (g : config) (k : kind) (strict : bool) (ts : list tok) : res obj :=
  match k with
  | KAddr V4 => rmap (OAddr V4) (addr_parse V4 ts)
  | KAddr V6 => rmap (OAddr V6) (addr_parse_c g ts)
  | KNet V4 => rmap (ONet V4) (net_parse V4 ts strict)
  | KNet V6 => rmap (ONet V6) (net_parse_c g ts strict)
  | KAny => rmap OAny (any_parse_c g ts)
  | KAnyNet => match net_parse V4 ts strict with
               | Ret n => Ret (OAnyNet (mk_an V4 n))
               | Err _ _ => rmap (fun n => OAnyNet (mk_an V6 n)) (net_parse_c g ts strict)
               | UB u => UB u
               end
  end.
