(** Text in several character types and streams in every build: specification. *)
From Verif Require Import Base SpecStr SpecAny SpecAddr SpecOrder SpecNet SpecNetConfig SpecAnyConfig AddressModel NetworkModel AnyModel StreamModel SpecStream ConfigModel NetConfigModel MacroModel AnyConfigModel.

(** Objects that exist when scope ids have at most [n] characters. *)
Definition obj_for (n : Z) (spaces : bool) (o : obj) : Prop :=
  match o with
  | OAddr V4 a => wf_addr V4 a
  | OAddr V6 a => addr_for n spaces a
  | ONet V4 x => wf_net V4 x
  | ONet V6 x => net_for n spaces x
  | OAny x => any_for n spaces x
  | OAnyNet x => anet_for n spaces x
  end.
(** The member functions, by class. *)
Definition obj_string_c (g : config) (o : obj) (fmt : format) : res (list Z) :=
  match o with
  | OAddr V4 a => addr_to_string V4 a fmt
  | OAddr V6 a => addr_to_string_c g a fmt
  | ONet V4 n => net_to_string V4 n fmt
  | ONet V6 n => net_to_string_c g n fmt
  | OAny x => any_to_string_c g x fmt
  | OAnyNet x => anet_to_string_c g x fmt
  end.
Definition obj_text_c (g : config) (T : chtype) (o : obj) (fmt : format) : res (list Z) :=
  match o with OAddr v a => addr_to_text_c g T v a fmt | ONet v n => net_to_text_c g T v n fmt | OAny x => any_to_text_c g T x fmt
  | OAnyNet x => anet_to_text_c g T x fmt end.
Definition obj_put_c (g : config) (T : chtype) (o : obj) (os : ostr) : res ostr :=
  match o with OAddr v a => addr_put_c g T v a os | ONet v n => net_put_c g T v n os | OAny x => any_put_c g T x os | OAnyNet x => anet_put_c g T x os end.
Definition obj_get_b (b : build) (T : chtype) (k : kind) (i : istr) : res (obj * istr) :=
  let f {A} (g : A -> obj) (r : res (A * istr)) := rmap (fun '(x, i) => (g x, i)) r in
  match k with
  | KAddr v => f (OAddr v) (addr_get_b b T v i)
  | KNet v => f (ONet v) (net_get_b b T v i)
  | KAny => f OAny (any_get_b b T i)
  | KAnyNet => f OAnyNet (anet_get_b b T i)
  end.
(** Several objects, as put_all, get_all and words of SpecStream. *)
Fixpoint put_all_c (g : config) (T : chtype) (l : list (option format * obj)) (os : ostr) : res ostr :=
  match l with
  | [] => Ret os
  | (f, o) :: l' =>
      os <- obj_put_c g T o (match f with Some f => manip f os | None => os end) ;;
      put_all_c g T l' (os_write [32] os)
  end.
Fixpoint get_all_b (b : build) (T : chtype) (ks : list kind) (i : istr) : res (list obj * istr) :=
  match ks with
  | [] => Ret ([], i)
  | k :: ks' => '(o, i) <- obj_get_b b T k i ;; '(os, i) <- get_all_b b T ks' i ;; Ret (o :: os, i)
  end.
Inductive words_c (g : config) (T : chtype) (up : bool) : list (option format * obj) -> list Z -> Prop :=
| words_c_nil : words_c g T up [] []
| words_c_cons f o l s s' r : obj_string_c g o (match f with Some f => f | None => compressed end) = Ret s -> cased up s s' ->
    words_c g T up l r -> words_c g T up ((f, o) :: l) (map (conv T) s' ++ 32 :: r).
(** Objects whose text is ASCII, or the characters are [char] and not UTF-8. *)
Definition readable_in (b : build) (T : chtype) (o : obj) : Prop := (T = TChar /\ b_utf8 b = false) \/ Forall is_ascii (scope_of o).
(** Objects with no blank in the scope id. *)
Definition unbroken (o : obj) : Prop := Forall (fun c => ~ blank c) (scope_of o).
