(** Boolean checkers for the expectations of the project's own test suite
    (/repo/tests), one per kind of test body. They are used by the Vectors*.v
    files to evaluate the model on the literals of those tests. This measures
    the fidelity of the model; nothing here is used in a proof. *)
From Coq Require Import ZArith List Bool String.
From Verif Require Import Base UnicodeModel FixedStringModel Uint128Model AddressModel NetworkModel IterModel ClassifyModel
  AnyModel CodeModel StreamModel ErrorModel ScopeModel V6Model ReverseModel RelModel Uint128OpsModel NetWitness.
Import ListNotations.
Local Open Scope Z_scope.
Local Open Scope bool_scope.

(** The rows a checker rejects. *)
Definition failing {A} (chk : A -> bool) (rows : list A) : list A := filter (fun r => negb (chk r)) rows.

Fixpoint zl_eqb (a b : list Z) : bool :=
  match a, b with
  | [], [] => true
  | x :: a', y :: b' => (x =? y) && zl_eqb a' b'
  | _, _ => false
  end.
Fixpoint all2 {A B} (f : A -> B -> bool) (a : list A) (b : list B) : bool :=
  match a, b with
  | [], [] => true
  | x :: a', y :: b' => f x y && all2 f a' b'
  | _, _ => false
  end.
Definition isb (r : res bool) (b : bool) : bool := match r with Ret x => Bool.eqb x b | _ => false end.
Definition isz (r : res Z) (z : Z) : bool := match r with Ret x => x =? z | _ => false end.
Definition iss (r : res (list Z)) (s : list Z) : bool := match r with Ret x => zl_eqb x s | _ => false end.
Definition okb {A} (r : res A) (f : A -> bool) : bool := match r with Ret x => f x | _ => false end.
Definition both (a b : res bool) : res bool :=
  x <- a ;; y <- b ;; if Bool.eqb x y then Ret x else UB AssertFailed.
(** operator== of the library and identity of the representation. *)
Definition addr_same (v : ver) (a b : addr) : bool :=
  zl_eqb (a_bytes a) (a_bytes b) && zl_eqb (a_scope a) (a_scope b) && isb (addr_eqb v a b) true.
Definition net_same (v : ver) (a b : net) : bool :=
  addr_same v (n_addr a) (n_addr b) && addr_same v (n_mask a) (n_mask b) && (n_prefix a =? n_prefix b) && isb (net_eqb v a b) true.
Definition ver_same (a b : ver) : bool := ver_eqb a b.
Definition aaddr_same (a b : aaddr) : bool :=
  ver_same (aa_ver a) (aa_ver b) && addr_same (aa_ver a) (aa_addr a) (aa_addr b) && isb (any_eqb a b) true.
Definition anet_same (a b : anet) : bool :=
  ver_same (an_ver a) (an_ver b) && net_same (an_ver a) (an_net a) (an_net b) && isb (anet_eqb a b) true.

(** Objects parsed in the test bodies. *)
Definition with_addr {A} (v : ver) (s : list Z) (f : addr -> A) (d : A) : A :=
  match addr_parse_text TChar v s with Ret a => f a | _ => d end.
Definition with_net {A} (v : ver) (s : list Z) (strict : bool) (f : net -> A) (d : A) : A :=
  match net_parse_text TChar v s strict with Ret n => f n | _ => d end.
Definition addr_is (v : ver) (s : list Z) (a : addr) : bool := with_addr v s (fun b => addr_same v a b) false.
Definition net_is (v : ver) (s : list Z) (n : net) : bool := with_net v s true (fun m => net_same v n m) false.
Definition any_is (s : list Z) (x : aaddr) : bool := match any_parse_text TChar s with Ret y => aaddr_same x y | _ => false end.
Definition anet_is (s : list Z) (x : anet) : bool := match anet_parse_text TChar s true with Ret y => anet_same x y | _ => false end.

(** The error code of the overload with an error code, and class, code and
    message of the exception of the throwing overload. *)
Definition xclass_eqb (a b : xclass) : bool :=
  match a, b with XError, XError | XParse, XParse | XLogic, XLogic => true | _, _ => false end.
Definition exn_is {A} (r : res (A + exn)) (c : xclass) (code : ec) (what : list Z) : bool :=
  match r with Ret (inr e) => xclass_eqb (x_class e) c && ec_eqb (x_code e) code && zl_eqb (x_what e) what | _ => false end.
Definition code_is {A} (r : res (A * ec)) (code : ec) : bool := match r with Ret (_, c) => ec_eqb c code | _ => false end.
Definition toks (T : chtype) (s : list Z) : list tok := match tokens (reader_of T) s with Ret t => t | _ => [] end.

Definition is0 (s : list Z) : istr := mk_is s false false true false false 0 0.
Definition os0 (upper : bool) (f : option format) : ostr :=
  let o := mk_os [] false upper false false false 0 32 0 in match f with Some f => manip f o | None => o end.
Definition put_is (r : res ostr) (s : list Z) : bool := match r with Ret o => zl_eqb (o_out o) s | _ => false end.
(** std::istringstream ss("test: " + text + " parser"); ss >> s1 >> x >> s2 *)
Definition stream_ok {A} (m : istr -> istr) (get : istr -> res (A * istr)) (s : list Z) (f : A -> bool) : bool :=
  let '(s1, i) := is_read (is0 (str "test: " ++ s ++ str " parser")) in
  zl_eqb s1 (str "test:") &&
  match get (m i) with
  | Ret (x, i) => f x && (let '(s2, i) := is_read i in zl_eqb s2 (str "parser") && negb (i_fail i))
  | _ => false
  end.
(** std::istringstream ss("test"); ss >> x; ss.fail() *)
Definition stream_bad {A} (get : istr -> res (A * istr)) : bool :=
  match get (is0 (str "test")) with Ret (_, i) => i_fail i | _ => false end.

(** *** Addresses *)
Definition chk_from_uint (v : ver) (r : Z * list Z) : bool :=
  let '(n, s) := r in match addr_from_uint v n with Ret a => addr_is v s a | _ => false end.
Definition chk_from_bytes (v : ver) (r : list Z) : bool :=
  match from_bytes v r (zlen r) with Ret a => zl_eqb (a_bytes a) r | _ => false end.
Definition chk_parse_v4 (r : list Z * Z * list Z) : bool :=
  let '(s, n, b) := r in
  with_addr V4 s (fun a => isz (addr_to_uint V4 a) n && zl_eqb (a_bytes a) b) false &&
  stream_ok (fun i => i) (addr_get TChar V4) s (fun a => isz (addr_to_uint V4 a) n) && stream_bad (addr_get TChar V4).
Definition scope_is (a : addr) (has_str has_int : bool) (s : list Z) (n : Z) : bool :=
  match get_scope a with
  | Ret c => Bool.eqb (scope_bool c) has_str && Bool.eqb (scope_has_string c) has_str && Bool.eqb (scope_has_uint32 c) has_int &&
             zl_eqb (scope_string c) s && (scope_uint32 c =? n)
  | _ => false
  end.
Definition chk_parse_v6 (r : list Z * list Z * bool * bool * list Z * Z) : bool :=
  let '(s, b, hs, hi, sc, n) := r in
  with_addr V6 s (fun a => zl_eqb (a_bytes a) b && scope_is a hs hi sc n &&
    stream_ok (fun i => i) (addr_get TChar V6) s (fun x => addr_same V6 x a)) false && stream_bad (addr_get TChar V6).
Definition chk_from_bytes_v6 (r : list Z * list Z) : bool :=
  let '(b, s) := r in
  match from_bytes V6 b (zlen b) with
  | Ret a => zl_eqb (a_bytes a) b && scope_is a false false [] 0 &&
      match scope_set TChar a s, scope_set TChar a (str "test") with
      | Ret a1, Ret a2 => zl_eqb (a_bytes a1) b && zl_eqb (a_bytes a2) b &&
          okb (get_scope a1) (fun c => zl_eqb (scope_string c) s) && okb (get_scope a2) (fun c => zl_eqb (scope_string c) (str "test"))
      | _, _ => false
      end
  | _ => false
  end.
Definition chk_addr_err (v : ver) (r : list Z * ec * list Z) : bool :=
  let '(s, c, w) := r in
  code_is (addr_parse_code v (chars s) no_error) c && code_is (parse_st v (chars s) no_error) c &&
  exn_is (addr_parse_x TChar v s) XParse c w.
Definition chk_text_v4 (T : chtype) (s : list Z) : bool :=
  with_addr V4 s (fun a =>
    forallb (fun f => iss (addr_to_text T V4 a f) (convert T s)) [full; compact; compressed] &&
    forallb (fun o => put_is (addr_put T V4 a o) (convert T s)) [os0 false None; os0 false (Some full); os0 false (Some compact); os0 false (Some compressed);
      os0 true (Some compressed)]) false.
Definition chk_text_v6 (T : chtype) (r : list Z * list Z * list Z * list Z * list Z) : bool :=
  let '(s, f, c, z, u) := r in
  with_addr V6 s (fun a =>
    iss (addr_to_text T V6 a full) (convert T f) && iss (addr_to_text T V6 a compact) (convert T c) &&
    iss (addr_to_text T V6 a compressed) (convert T z) &&
    put_is (addr_put T V6 a (os0 false (Some full))) (convert T f) && put_is (addr_put T V6 a (os0 false None)) (convert T z) &&
    put_is (addr_put T V6 a (os0 false (Some compact))) (convert T c) && put_is (addr_put T V6 a (os0 false (Some compressed))) (convert T z) &&
    put_is (addr_put T V6 a (os0 true (Some compressed))) (convert T u)) false.
Definition chk_addr_bool (v : ver) (f : addr -> res bool) (r : list Z * bool) : bool :=
  let '(s, b) := r in with_addr v s (fun a => isb (f a) b) false.
(** An absent optional of the library holds the default address. *)
Definition opt_v4 (o : option (list Z)) : addr := match o with Some b => mk_addr b [] | None => addr_default V4 end.
Definition has {A} (o : option A) : bool := match o with Some _ => true | None => false end.
Definition chk_embedded (f : list Z -> res (option (list Z))) (r : list Z * list Z * bool) : bool :=
  let '(s, e, h) := r in
  with_addr V6 s (fun a => okb (f (a_bytes a)) (fun o => Bool.eqb (has o) h && addr_is V4 e (opt_v4 o))) false.
Definition chk_teredo (r : list Z * list Z * list Z * bool) : bool :=
  let '(s, e, c, h) := r in
  with_addr V6 s (fun a => okb (v6_teredo (a_bytes a)) (fun o => Bool.eqb (has o) h &&
    addr_is V4 e (opt_v4 (option_map fst o)) && addr_is V4 c (opt_v4 (option_map snd o)))) false.
(** The six operators in both language modes. *)
Definition rel_is {A} (R : rels A) (a b : A) (lt gt eq : bool) : bool :=
  forallb (fun sp => isb (rel_op R sp CLt a b) lt && isb (rel_op R sp CGt a b) gt && isb (rel_op R sp CEq a b) eq &&
    isb (rel_op R sp CNe a b) (negb eq) && isb (rel_op R sp CLe a b) (lt || eq) && isb (rel_op R sp CGe a b) (gt || eq)) [true; false].
Definition chk_addr_rel (v : ver) (r : list Z * list Z * bool * bool * bool) : bool :=
  let '(s, t, lt, gt, eq) := r in with_addr v s (fun a => with_addr v t (fun b => rel_is (addr_rels v) a b lt gt eq) false) false.
Definition chk_net_rels (v : ver) (r : list Z * list Z * bool * bool * bool) : bool :=
  let '(s, t, lt, gt, eq) := r in with_net v s true (fun a => with_net v t true (fun b => rel_is (net_rels v) a b lt gt eq) false) false.
Definition chk_addr_hash (v : ver) (r : list Z * Z * Z) : bool :=
  let '(s, h64, h32) := r in with_addr v s (fun a => isz (addr_hash true v a) h64 && isz (addr_hash false v a) h32) false.
Definition chk_net_hash (v : ver) (r : list Z * Z * Z) : bool :=
  let '(s, h64, h32) := r in with_net v s true (fun a => isz (net_hash true v a) h64 && isz (net_hash false v a) h32) false.

(** *** Networks *)
Definition net_parts (v : ver) (a b m h : list Z) (p : Z) (n : net) : bool :=
  addr_is v a (n_addr n) && addr_is v b (broadcast n) && addr_is v m (n_mask n) && addr_is v h (hostmask n) && (n_prefix n =? p).
Definition chk_net_parse (v : ver) (strict : bool) (r : list Z * list Z * list Z * list Z * list Z * Z) : bool :=
  let '(s, a, b, m, h, p) := r in
  with_net v s strict (net_parts v a b m h p) false &&
  stream_ok (if strict then (fun i => i) else manip_non_strict) (net_get TChar v) s (net_parts v a b m h p).
Definition chk_from_address (v : ver) (r : list Z * list Z * Z * bool) : bool :=
  let '(s, a, p, strict) := r in
  with_net v s strict (fun n => with_addr v a (fun x =>
    okb (from_address v x p strict) (net_same v n) &&
    okb (from_address_code v x no_error p strict) (fun q => net_same v n (fst q) && ec_eqb (snd q) no_error)) false) false.
Definition chk_net_err (v : ver) (r : list Z * ec * list Z) : bool :=
  let '(s, c, w) := r in
  code_is (net_parse_code v (chars s) no_error true) c && code_is (net_parse_st v (chars s) true no_error) c &&
  exn_is (net_parse_x TChar v s true) XParse c w.
Definition chk_net_text4 (T : chtype) (r : list Z * list Z) : bool :=
  let '(s, t) := r in
  with_net V4 s true (fun n => iss (net_to_text T V4 n compressed) (convert T t) && put_is (net_put T V4 n (os0 false None)) (convert T t)) false.
Definition chk_net_text6 (T : chtype) (r : list Z * list Z * list Z * list Z) : bool :=
  let '(s, f, c, z) := r in
  with_net V6 s true (fun n =>
    iss (net_to_text T V6 n full) (convert T f) && iss (net_to_text T V6 n compact) (convert T c) && iss (net_to_text T V6 n compressed) (convert T z) &&
    put_is (net_put T V6 n (os0 false (Some full))) (convert T f) && put_is (net_put T V6 n (os0 false None)) (convert T z) &&
    put_is (net_put T V6 n (os0 false (Some compact))) (convert T c) && put_is (net_put T V6 n (os0 false (Some compressed))) (convert T z)) false.
Definition chk_net_bool (v : ver) (f : net -> res bool) (r : list Z * bool) : bool :=
  let '(s, b) := r in with_net v s true (fun n => isb (f n) b) false.
Definition chk_contains (v : ver) (r : list Z * list Z * bool) : bool :=
  let '(s, a, b) := r in with_net v s true (fun n => with_addr v a (fun x => Bool.eqb (contains n x) b) false) false.
Definition chk_net_rel (v : ver) (f : net -> net -> res bool) (r : list Z * list Z * bool) : bool :=
  let '(s, t, b) := r in with_net v s true (fun n => with_net v t true (fun m => isb (f n m) b) false) false.
Definition chk_count (v : ver) (r : list Z * Z) : bool :=
  let '(s, n) := r in with_net v s true (fun x => isz (addresses_count v x) n) false.
Definition indices {A} (l : list A) : list Z := map Z.of_nat (seq 0 (List.length l)).
(** size, front, back, both walks and every index. *)
Definition chk_hosts (v : ver) (r : list Z * list (list Z)) : bool :=
  let '(s, e) := r in
  with_net v s true (fun n => forallb (fun sp => okb (hosts sp v n) (fun h =>
    let fuel := S (List.length e) in
    isb (hosts_empty v h) false && (hosts_size v h =? zlen e) && addr_is v (hd [] e) (hosts_front h) &&
    okb (hosts_back v h) (addr_is v (last e [])) &&
    okb (hosts_walk v fuel (h_begin h) (h_end h)) (all2 (addr_is v) e) &&
    okb (b <- hosts_rbegin v h ;; t <- hosts_rend v h ;; hosts_rwalk v fuel b t) (all2 (addr_is v) (rev e)) &&
    forallb (fun i => okb (hosts_at v h i) (addr_is v (nth (Z.to_nat i) e []))) (indices e) &&
    okb (t <- hosts_rend v h ;; b <- ait_base v t ;; hosts_walk v fuel b (h_end h)) (all2 (addr_is v) e))) [true; false]) false.
Definition chk_supernet (v : ver) (r : list Z * Z * option Z * list Z) : bool :=
  let '(s, d, np, e) := r in with_net v s true (fun n => okb (supernet v n d np) (net_is v e)) false.
Definition chk_supernet_err (v : ver) (r : list Z * Z * option Z * ec * list Z) : bool :=
  let '(s, d, np, c, w) := r in
  with_net v s true (fun n =>
    okb (supernet_code v n no_error d np) (fun q => net_same v (fst q) (net_default v) && ec_eqb (snd q) c) &&
    exn_is (supernet_x v n d np) XLogic c w) false.
Definition chk_subnets (v : ver) (r : list Z * Z * option Z * list (list Z)) : bool :=
  let '(s, d, np, e) := r in
  with_net v s true (fun n => forallb (fun sp => okb (subnets sp v n d np) (fun h =>
    let fuel := S (List.length e) in
    isb (subnets_empty v h) false && (s_size h =? zlen e) && net_is v (hd [] e) (subnets_front h) &&
    okb (subnets_back v h) (net_is v (last e [])) &&
    okb (subnets_walk v fuel (s_begin h) (s_end h)) (all2 (net_is v) e) &&
    okb (b <- subnets_rbegin v h ;; t <- subnets_rend v h ;; subnets_rwalk v fuel b t) (all2 (net_is v) (rev e)) &&
    forallb (fun i => okb (subnets_at v h i) (net_is v (nth (Z.to_nat i) e []))) (indices e) &&
    okb (t <- subnets_rend v h ;; b <- nit_base v t ;; subnets_walk v fuel b (s_end h)) (all2 (net_is v) e))) [true; false]) false.
Definition chk_subnets_err (v : ver) (r : list Z * Z * option Z * ec * list Z) : bool :=
  let '(s, d, np, c, w) := r in
  with_net v s true (fun n => forallb (fun sp =>
    okb (subnets_code sp v n no_error d np) (fun q => isb (subnets_empty v (fst q)) true && ec_eqb (snd q) c) &&
    exn_is (subnets_x sp v n d np) XLogic c w) [true; false]) false.
Definition chk_exclude (v : ver) (r : list Z * list Z * list (list Z)) : bool :=
  let '(s, t, e) := r in
  with_net v s true (fun n => with_net v t true (fun m => forallb (fun sp => okb (address_exclude sp v n m) (fun h =>
    isb (xit_eqb v (e_begin h) (e_end h)) (match e with [] => true | _ => false end) &&
    okb (exclude_walk sp v (S (List.length e)) (e_begin h) (e_end h)) (all2 (net_is v) e))) [true; false]) false) false.
Definition chk_exclude_err (v : ver) (r : list Z * list Z * ec * list Z) : bool :=
  let '(s, t, c, w) := r in
  with_net v s true (fun n => with_net v t true (fun m => forallb (fun sp =>
    okb (exclude_code sp v n m no_error) (fun q => isb (xit_eqb v (e_begin (fst q)) (e_end (fst q))) true && ec_eqb (snd q) c) &&
    exn_is (exclude_x sp v n m) XLogic c w) [true; false]) false) false.

(** *** Version-erased classes *)
Definition chk_any_err (r : list Z * ec * list Z) : bool :=
  let '(s, c, w) := r in
  code_is (any_parse_code (chars s) no_error) c && code_is (any_parse_st (chars s) no_error) c && exn_is (any_parse_x TChar s) XParse c w.
Definition chk_anet_err (r : list Z * ec * list Z) : bool :=
  let '(s, c, w) := r in
  code_is (anet_parse_code (chars s) no_error true) c && code_is (anet_parse_st (chars s) true no_error) c && exn_is (anet_parse_x TChar s true) XParse c w.
