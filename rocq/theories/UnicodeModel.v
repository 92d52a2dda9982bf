(** Character readers.  Models: include/ipaddress/unicode.hpp 50-278.
    Code units are integers; [s] is the array the pointer runs over (it may be
    longer than [e], the index the [end] pointer denotes), [it] the index of the
    iterator.  A read outside the array is undefined behaviour. *)
From Verif Require Import Base.

(** One call of char_reader<T>::next_or_error: the token and the new iterator. *)
Definition reader := list Z -> Z -> Z -> res (tok * Z).

(** char_reader<char>::next_or_error, unicode.hpp 206-210 (IPADDRESS_CHAR_IS_UTF8 not
    defined): the byte itself, no check. *)
Definition char_next : reader := fun s e it =>
  c <- rd s it ;; Ret (Ch c, it + 1).

(** utf8_code_point, unicode.hpp 94-109: value bits and sequence length of a lead byte. *)
Definition utf8_code_point (b : Z) : option (Z * Z) :=
  if Z.land b 0x80 =? 0 then Some (b, 1)
  else if Z.land b 0xE0 =? 0xC0 then Some (Z.land b 0x1F, 2)
  else if Z.land b 0xF0 =? 0xE0 then Some (Z.land b 0x0F, 3)
  else if Z.land b 0xF8 =? 0xF0 then Some (Z.land b 0x07, 4)
  else None.

(** trailing_utf8_code_point, unicode.hpp 111-122: pre-increments the iterator, and
    overwrites [correct] (a later good byte hides an earlier bad one). *)
Definition utf8_trailing (s : list Z) (e it : Z) : res (Z * bool * Z) :=
  let it := it + 1 in
  if it >=? e then Ret (0, false, it)
  else b <- rd s it ;;
       if Z.land b 0xC0 =? 0x80 then Ret (Z.land b 0x3F, true, it)
       else Ret (0, false, it).

(** symbol.value << 6 | trailing, unicode.hpp 63-74, in uint32_t. *)
Definition utf8_push (v t : Z) : Z := Z.lor (w32 (Z.shiftl v 6)) t.

(** utf8_next_or_error, unicode.hpp 52-92. *)
Definition utf8_next : reader := fun s e it =>
  b <- rd s it ;;
  '(v, correct, it) <-
    match utf8_code_point b with
    | None => Ret (0, false, it)
    | Some (v, n) =>
        if n =? 1 then Ret (v, true, it)
        else if n =? 2 then
          '(t, c, it) <- utf8_trailing s e it ;; Ret (utf8_push v t, c, it)
        else if n =? 3 then
          '(t1, c1, it) <- utf8_trailing s e it ;;
          '(t2, c2, it) <- utf8_trailing s e it ;;
          Ret (utf8_push (utf8_push v t1) t2, c2, it)
        else
          '(t1, c1, it) <- utf8_trailing s e it ;;
          '(t2, c2, it) <- utf8_trailing s e it ;;
          '(t3, c3, it) <- utf8_trailing s e it ;;
          Ret (utf8_push (utf8_push (utf8_push v t1) t2) t3, c3, it)
    end ;;
  let it := it + 1 in
  if negb correct then Ret (Bad wrong_encoding_sequence 0, it)
  else if v >? 127 then Ret (Bad unexpected_symbol v, it)
  else Ret (Ch v, it).

(** utf16_next_or_error and utf16_code_point, unicode.hpp 127-171. *)
Definition utf16_next : reader := fun s e it =>
  u <- rd s it ;;
  '(v, correct, it) <-
    (if Z.land u 0xFC00 =? 0xD800 then
       let it := it + 1 in
       if it >=? e then Ret (Z.land u 0x3FF, false, it)
       else u2 <- rd s it ;;
            if Z.land u2 0xFC00 =? 0xDC00 then
              Ret (w32 (Z.lor (Z.shiftl (Z.land u 0x3FF) 10) (Z.land u2 0x3FF) + 0x10000), true, it)
            else Ret (Z.land u 0x3FF, false, it)
     else Ret (u, true, it)) ;;
  let it := it + 1 in
  if negb correct then Ret (Bad wrong_encoding_sequence 0, it)
  else if v >? 127 then Ret (Bad unexpected_symbol v, it)
  else Ret (Ch v, it).

(** utf32_next_or_error, unicode.hpp 176-185; also wchar_t on platforms where it has 32
    bits (248-268; the conversion to uint32_t is applied to a 32-bit unit). *)
Definition utf32_next : reader := fun s e it =>
  u <- rd s it ;;
  let v := w32 u in
  if v >? 127 then Ret (Bad unexpected_symbol v, it + 1) else Ret (Ch v, it + 1).

(** The token list a parser sees when it repeats
    [while (it < end) next_char_or_error(it, end, ...)] over the whole input.
    The parsers stop at the first [Bad] token, so reading on is a
    simplification that can only add undefined behaviour. *)
Fixpoint tokens_from (fuel : nat) (next : reader) (s : list Z) (it : Z) : res (list tok) :=
  if it <? zlen s then
    match fuel with
    | O => UB OutOfFuel
    | S k => '(t, it) <- next s (zlen s) it ;;
             ts <- tokens_from k next s it ;; Ret (t :: ts)
    end
  else Ret [].
Definition tokens (next : reader) (s : list Z) : res (list tok) :=
  tokens_from (length s) next s 0.
