(** Expectations of fixed-string-tests.cpp of the project's own test suite
    (/repo/tests), evaluated on the model. They are tests of the model's
    fidelity, not proofs of any property. *)
From Coq Require Import ZArith List Bool String.
From Verif Require Import Base UnicodeModel FixedStringModel AddressModel NetworkModel AnyModel CodeModel StreamModel ErrorModel LiteralModel RelModel Uint128OpsModel NoThrowModel NetWitness VectorBase.
Import ListNotations.
Local Open Scope string_scope.
Local Open Scope list_scope.
Local Open Scope bool_scope.
Local Open Scope Z_scope.

(** A string constant: the units and the terminating zero. *)
Definition lit0 (s : list Z) : list Z := s ++ [0].
Definition fixed (T : chtype) (s : list Z) : res fstr := fs_make (reader_of T) (cap (lit0 s)) (lit0 s).
(* capacity, length, size, empty, first and last of the text *)
Definition chk_make (r : chtype * list Z * (Z * Z * bool)) : bool :=
  let '(T, s, (capacity, size, e)) := r in
  okb (fixed T s) (fun f => (zlen (fs_data f) =? capacity) && (fs_length f =? size) && (fs_size f =? size) && Bool.eqb (fs_empty_b f) e).
(* fixed-string-tests.cpp:19-95 *)
Example t_fixed_string_ctor :
  failing chk_make
  [(TChar, str "test string" ++ [0; 0; 0], (14, 11, false)); (TChar, str "a", (1, 1, false));
   (TWchar, str "wide string", (11, 11, false)); (TChar16, str "utf16 string", (12, 12, false));
   (TChar32, str "utf32 string", (12, 12, false)); (TChar8, str "utf8 string", (11, 11, false)); (TChar, [], (0, 0, true))] = [].
Proof. vm_compute. reflexivity. Qed.
Definition chk_at (r : chtype * list Z * Z * Z) : bool := let '(T, s, i, c) := r in okb (fixed T s) (fun f => isz (fs_at f i) c).
(* fixed-string-tests.cpp:48-84 and 199-221 *)
Example t_fixed_string_at :
  failing chk_at
  [(TWchar, str "wide string", 0, 119); (TWchar, str "wide string", 10, 103); (TChar16, str "utf16 string", 0, 117); (TChar16, str "utf16 string", 11, 103);
   (TChar32, str "utf32 string", 0, 117); (TChar32, str "utf32 string", 11, 103); (TChar8, str "utf8 string", 0, 117); (TChar8, str "utf8 string", 10, 103);
   (TChar, str "test", 0, 116); (TChar, str "test", 1, 101); (TChar, str "test", 2, 115); (TChar, str "test", 3, 116)] = [].
Proof. vm_compute. reflexivity. Qed.
(* fixed-string-tests.cpp:98-110 *)
Example t_fixed_string_default : fs_length (fs_empty 0) = 0 /\ fs_size (fs_empty 0) = 0 /\ fs_empty_b (fs_empty 0) = true.
Proof. repeat split. Qed.
(* fixed-string-tests.cpp:162-197 *)
Definition chk_walk (s : list Z) : bool :=
  okb (fixed TChar s) (fun f => iss (fs_walk 20 f (fs_begin f)) s && iss (fs_rwalk 20 f (fs_end f)) (rev s) && zl_eqb (fs_chars f) s).
Example t_fixed_string_iterators : failing chk_walk [str "test iterator"; []] = [].
Proof. vm_compute. reflexivity. Qed.
(* fixed-string-tests.cpp:223-235 *)
Example t_fixed_string_front_back :
  failing (fun r : list Z * Z * Z => let '(s, a, b) := r in okb (fixed TChar s) (fun f => isz (fs_front f) a && isz (fs_back f) b))
  [(str "str", 115, 114); (str "s", 115, 115)] = [].
Proof. vm_compute. reflexivity. Qed.
(* fixed-string-tests.cpp:237-360, in the order ==, !=, <, >, <=, >= *)
Definition chk_compare (r : list Z * list Z * list bool) : bool :=
  let '(s, t, l) := r in
  okb (fixed TChar s) (fun a => okb (fixed TChar t) (fun b =>
    forallb (fun sp => forallb (fun p => isb (rel_op string_rels sp (fst p) a b) (snd p)) (combine [CEq; CNe; CLt; CGt; CLe; CGe] l)) [true; false])).
Example t_fixed_string_compare :
  let str_1 := str "12345" ++ [0; 0; 0] in let str_2 := str "12346" in let str_3 := [] in let str_4 := [0; 0; 0] in
  failing chk_compare
  [(str_1, str_2, [false; true; true; false; true; false]); (str_2, str_1, [false; true; false; true; false; true]);
   (str_2, str_3, [false; true; false; true; false; true]); (str_3, str_2, [false; true; true; false; true; false]);
   (str_3, str_3, [true; false; false; false; true; true]); (str_2, str_2, [true; false; false; false; true; true]);
   (str_3, str_4, [true; false; false; false; true; true]); (str_4, str_3, [true; false; false; false; true; true]);
   (str_4, str_4, [true; false; false; false; true; true])] = [].
Proof. vm_compute. reflexivity. Qed.
(* fixed-string-tests.cpp:362-464: with exceptions the message, without the size 0 *)
Definition chk_invalid (r : chtype * list Z * ec * list Z) : bool :=
  let '(T, s, code, what) := r in
  exn_is (raising T s (fixed T s)) XParse code what &&
  okb (nx_fs_make (reader_of T) (cap (lit0 s)) (lit0 s)) (fun f => fs_size f =? 0).
Example t_fixed_string_invalid :
  failing chk_invalid
  [(TChar8, [240], wrong_encoding_sequence, str "incorrect sequence of bytes in unicode encoding for string ");
   (TChar8, [240; 144], wrong_encoding_sequence, str "incorrect sequence of bytes in unicode encoding for string ");
   (TChar8, [240; 144; 141], wrong_encoding_sequence, str "incorrect sequence of bytes in unicode encoding for string ");
   (TChar8, [240; 144; 141; 136], unexpected_symbol, str "unexpected next unicode symbol {U+10348} in string {U+10348}");
   (TChar16, [55296], wrong_encoding_sequence, str "incorrect sequence of bytes in unicode encoding for string ");
   (TChar16, [55296; 48], wrong_encoding_sequence, str "incorrect sequence of bytes in unicode encoding for string ");
   (TChar16, [55296; 57160], unexpected_symbol, str "unexpected next unicode symbol {U+10348} in string {U+10348}");
   (TChar32, [259], unexpected_symbol, str "unexpected next unicode symbol {U+0103} in string {U+0103}");
   (TChar32, [66376], unexpected_symbol, str "unexpected next unicode symbol {U+10348} in string {U+10348}")] = [].
Proof. vm_compute. reflexivity. Qed.
(* fixed-string-tests.cpp:466-524 *)
Definition chk_make_code (r : chtype * list Z * Z * ec) : bool :=
  let '(T, s, n, code) := r in
  okb (fs_make_st (reader_of T) (cap (lit0 s)) (lit0 s) no_error) (fun p => (fs_size (fst p) =? n) && ec_eqb (snd p) code).
Example t_make_fixed_string :
  failing chk_make_code
  [(TChar, [], 0, no_error); (TChar16, [], 0, no_error); (TChar32, [], 0, no_error); (TWchar, [], 0, no_error); (TChar8, [], 0, no_error);
   (TChar, [49], 1, no_error); (TChar16, [49], 1, no_error); (TChar32, [49], 1, no_error); (TWchar, [49], 1, no_error); (TChar8, [49], 1, no_error);
   (TChar16, [49; 55296; 57160], 1, unexpected_symbol); (TChar32, [49; 66376], 1, unexpected_symbol); (TWchar, [49; 66376], 1, unexpected_symbol);
   (TChar8, [49; 240; 144; 141; 136], 1, unexpected_symbol)] = [].
Proof. vm_compute. reflexivity. Qed.
