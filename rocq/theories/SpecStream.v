(** Independent vocabulary for text in several character types and for streams. *)
From Verif Require Import Base SpecStr SpecText SpecV6 SpecInt SpecOrder SpecNet SpecAny Uint128Model AddressModel NetworkModel AnyModel
  StreamModel.

(** Upper case of a letter. *)
Definition upper (c : Z) : Z := if (97 <=? c) && (c <=? 122) then c - 32 else c.
(** [shouted s s']: upper case up to the first '%' (37), unchanged from there. *)
Definition shouted (s s' : list Z) : Prop :=
  exists p q, s = p ++ q /\ ~ In 37 p /\ (q = [] \/ exists r, q = 37 :: r) /\ s' = map upper p ++ q.
Definition cased (up : bool) (s s' : list Z) : Prop := if up then shouted s s' else s' = s.
(** [padded w left fill s t]: [t] is [s] filled up to [w] characters. *)
Definition padded (w : Z) (left : bool) (fill : Z) (s t : list Z) : Prop :=
  exists n, t = (if left then s ++ repeat fill n else repeat fill n ++ s) /\ Z.of_nat n = Z.max 0 (w - zlen s).
Definition blank (c : Z) : Prop := c = 32 \/ 9 <= c <= 13.

(** The classes with stream operators. *)
Inductive obj := OAddr (v : ver) (a : addr) | ONet (v : ver) (n : net) | OAny (x : aaddr) | OAnyNet (x : anet).
Inductive kind := KAddr (v : ver) | KNet (v : ver) | KAny | KAnyNet.
Definition kind_of (o : obj) : kind :=
  match o with OAddr v _ => KAddr v | ONet v _ => KNet v | OAny _ => KAny | OAnyNet _ => KAnyNet end.
Definition wf_obj (o : obj) : Prop :=
  match o with OAddr v a => wf_addr v a | ONet v n => wf_net v n | OAny x => wf_any x | OAnyNet x => wf_anet x end.
(** The scope id an object holds, and what a default-constructed one is. *)
Definition scope_of (o : obj) : list Z :=
  match o with OAddr _ a => a_scope a | ONet _ n => a_scope (n_addr n) | OAny x => a_scope (aa_addr x)
  | OAnyNet x => a_scope (n_addr (an_net x)) end.
Definition default_of (k : kind) : obj :=
  match k with KAddr v => OAddr v (addr_default v) | KNet v => ONet v (net_default v) | KAny => OAny aa_default | KAnyNet => OAnyNet an_default end.

(** The member functions, by class. *)
Definition obj_string (o : obj) (fmt : format) : res (list Z) :=
  match o with OAddr v a => addr_to_string v a fmt | ONet v n => net_to_string v n fmt | OAny x => any_to_string x fmt
  | OAnyNet x => anet_to_string x fmt end.
Definition obj_text (T : chtype) (o : obj) (fmt : format) : res (list Z) :=
  match o with OAddr v a => addr_to_text T v a fmt | ONet v n => net_to_text T v n fmt | OAny x => any_to_text T x fmt
  | OAnyNet x => anet_to_text T x fmt end.
Definition obj_parse (T : chtype) (k : kind) (strict : bool) (s : list Z) : res obj :=
  match k with
  | KAddr v => rmap (OAddr v) (addr_parse_text T v s)
  | KNet v => rmap (ONet v) (net_parse_text T v s strict)
  | KAny => rmap OAny (any_parse_text T s)
  | KAnyNet => rmap OAnyNet (anet_parse_text T s strict)
  end.
Definition obj_put (T : chtype) (o : obj) (os : ostr) : res ostr :=
  match o with OAddr v a => addr_put T v a os | ONet v n => net_put T v n os | OAny x => any_put T x os | OAnyNet x => anet_put T x os end.
Definition obj_get (T : chtype) (k : kind) (i : istr) : res (obj * istr) :=
  let f {A} (g : A -> obj) (r : res (A * istr)) := rmap (fun '(x, i) => (g x, i)) r in
  match k with
  | KAddr v => f (OAddr v) (addr_get T v i)
  | KNet v => f (ONet v) (net_get T v i)
  | KAny => f OAny (any_get T i)
  | KAnyNet => f OAnyNet (anet_get T i)
  end.
(** Networks, the classes whose extraction looks at iword(network_strict_index()). *)
Definition is_net (k : kind) : bool := match k with KNet _ | KAnyNet => true | _ => false end.

(** Objects written one after the other, each followed by a blank, each after
    its own manipulator (if any); [None]: no manipulator. *)
Fixpoint put_all (T : chtype) (l : list (option format * obj)) (os : ostr) : res ostr :=
  match l with
  | [] => Ret os
  | (f, o) :: l' =>
      os <- obj_put T o (match f with Some f => manip f os | None => os end) ;;
      put_all T l' (os_write [32] os)
  end.
Fixpoint get_all (T : chtype) (ks : list kind) (i : istr) : res (list obj * istr) :=
  match ks with
  | [] => Ret ([], i)
  | k :: ks' => '(o, i) <- obj_get T k i ;; '(os, i) <- get_all T ks' i ;; Ret (o :: os, i)
  end.
(** Freshly constructed streams. *)
Definition new_os (up : bool) : ostr := mk_os [] false up false false false 0 32 0.
Definition new_is (s : list Z) : istr := mk_is s false false true false false 0 0.
(** Objects whose text is ASCII, or the characters are [char]. *)
Definition readable (T : chtype) (o : obj) : Prop := T = TChar \/ Forall is_ascii (scope_of o).
(** Units a string of the character type can hold. *)
Definition unit_ok (T : chtype) (c : Z) : Prop :=
  match T with TChar => is_char c | TChar8 => is_u8 c | TChar16 => is_u16 c | TChar32 => is_u32 c | TWchar => - 2 ^ 31 <= c < 2 ^ 31 end.

(** The format an insertion uses, given iword(stream_index()). *)
Definition wanted (iword : Z) (f : format) : Prop :=
  (iword = 0 /\ f = compressed) \/ (iword = 1 /\ f = full) \/ (iword = 2 /\ f = compact) \/ (iword = 3 /\ f = compressed).
(** [took i w i']: operator>> into an empty string takes the word [w] and
    leaves the stream as [i']. *)
Inductive took (i : istr) : list Z -> istr -> Prop :=
| took_bad : i_eof i = true \/ i_fail i = true -> took i [] (i_set_fail i)
| took_end : i_eof i = false -> i_fail i = false -> i_skipws i = true -> Forall blank (i_in i) ->
    took i [] (mk_is [] true true true (i_hex i) (i_oct i) (i_width i) (i_strict i))
| took_word b w r e : i_eof i = false -> i_fail i = false ->
    i_in i = b ++ w ++ r -> Forall blank b -> Forall (fun c => ~ blank c) w ->
    (if i_skipws i then exists c x, w ++ r = c :: x /\ ~ blank c else b = []) ->
    (e = true /\ r = [] /\ (0 < i_width i -> zlen w < i_width i)) \/
    (e = false /\ 0 < i_width i /\ zlen w = i_width i) \/
    (e = false /\ (0 < i_width i -> zlen w < i_width i) /\ exists c r', r = c :: r' /\ blank c) ->
    took i w (mk_is r e (match w with [] => true | _ => false end) (i_skipws i) (i_hex i) (i_oct i) 0 (i_strict i)).
(** The words of a list of insertions, each followed by a blank. *)
Inductive words (T : chtype) (up : bool) : list (option format * obj) -> list Z -> Prop :=
| words_nil : words T up [] []
| words_cons f o l s s' r : obj_string o (match f with Some f => f | None => compressed end) = Ret s -> cased up s s' ->
    words T up l r -> words T up ((f, o) :: l) (map (conv T) s' ++ 32 :: r).
(** The radix the basefield flags ask for. *)
Definition radix_of (hex oct : bool) : Z := if hex then 16 else if oct then 8 else 10.
(** Extraction of a network resets iword(network_strict_index()). *)
Definition strictly (k : kind) (i : istr) : istr := if is_net k then i_set_strict i 0 else i.
(** A parsed object goes into the variable; an error makes it the default and
    sets failbit. *)
Definition got (k : kind) (i' : istr) (r : res obj) : res (obj * istr) :=
  match r with Ret o => Ret (o, i') | Err _ _ => Ret (default_of k, i_set_fail i') | UB u => UB u end.
