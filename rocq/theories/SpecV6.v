(** Independent specification of the textual IPv6 notation: RFC 4291 section
    2.2 with an optional scope id.  ':' is 58, '%' is 37. *)
From Verif Require Import Base SpecText SpecV4.

(** Hexadecimal digit of either case. *)
Definition hex_char (c d : Z) : Prop :=
  (0 <= d <= 9 /\ c = 48 + d) \/ (10 <= d <= 15 /\ (c = 97 + (d - 10) \/ c = 65 + (d - 10))).
(** One group: one to four hexadecimal digits. *)
Definition hex_group (s : list Z) (v : Z) : Prop :=
  1 <= zlen s <= 4 /\ exists ds, Forall2 hex_char s ds /\ v = horner 16 0 ds.

(** Texts joined by ':'. *)
Fixpoint join (ts : list (list Z)) : list Z :=
  match ts with
  | [] => []
  | [t] => t
  | t :: ts' => t ++ 58 :: join ts'
  end.

(** A (possibly empty) list of groups, separated by single colons. *)
Definition groups_text (s vs : list Z) : Prop :=
  exists ts, Forall2 hex_group ts vs /\ s = join ts.
(** The same where the last two groups may be written as a dotted quad. *)
Definition tail_text (s vs : list Z) : Prop :=
  groups_text s vs \/
  exists ts vs' q a b c d, Forall2 hex_group ts vs' /\ dotted_quad q [a; b; c; d] /\
    s = join (ts ++ [q]) /\ vs = vs' ++ [a * 256 + b; c * 256 + d].

(** [v6_text s gs]: [s] denotes the eight 16-bit groups [gs]. *)
Definition v6_text (s gs : list Z) : Prop :=
  length gs = 8%nat /\
  (tail_text s gs \/
   exists h l hv n lv, groups_text h hv /\ tail_text l lv /\ (1 <= n)%nat /\
     s = h ++ [58; 58] ++ l /\ gs = hv ++ repeat 0 n ++ lv).

(** Characters allowed in a scope id. *)
Definition scope_char (c : Z) : Prop := c <> 37 /\ c <> 47 /\ c <> 32 /\ ~ (9 <= c <= 13).
Definition scope_text (t : list Z) : Prop := 1 <= zlen t <= 16 /\ Forall scope_char t.

(** [v6_scoped s gs t]: address text with the optional "%scope" ([t = []] when
    absent). *)
Definition v6_scoped (s gs t : list Z) : Prop :=
  (v6_text s gs /\ t = []) \/ (exists a, s = a ++ 37 :: t /\ v6_text a gs /\ scope_text t).

(** The 16 bytes of eight groups. *)
Definition group_bytes (gs : list Z) : list Z := flat_map (fun g => [g / 256; g mod 256]) gs.

Definition no_nul (s : list Z) : Prop := ~ In 0 s.
Definition is_group (g : Z) : Prop := 0 <= g < 65536.
(** Scope ids an address can hold: none, or an allowed text without NUL. *)
Definition storable (t : list Z) : Prop := t = [] \/ scope_text t /\ no_nul t.

(** The one RFC 4291 form the parser refuses: '::', five groups and a dotted quad. *)
Definition long_quad (s : list Z) : Prop :=
  exists ts vs q a b c d, length ts = 5%nat /\ Forall2 hex_group ts vs /\ dotted_quad q [a; b; c; d] /\
    s = [58; 58] ++ join (ts ++ [q]).
Definition refused (s : list Z) : Prop := long_quad s \/ exists a t, s = a ++ 37 :: t /\ long_quad a.

(** *** Formats *)
(** Four lower case digits. *)
Definition padded_group (s : list Z) (v : Z) : Prop :=
  exists ds, digits_of 16 s ds /\ length ds = 4%nat /\ v = horner 16 0 ds.
(** Lower case without leading zeros: [numeral 16]. *)
Definition full_text (gs s : list Z) : Prop := exists ts, Forall2 padded_group ts gs /\ s = join ts.
Definition compact_text (gs s : list Z) : Prop := exists ts, Forall2 (numeral 16) ts gs /\ s = join ts.
(** RFC 5952: "::" replaces the leftmost longest run of at least two zero
    groups, nothing if there is none. *)
Definition compressed_text (gs s : list Z) : Prop :=
  (compact_text gs s /\ forall a n b, gs = a ++ repeat 0 n ++ b -> (n <= 1)%nat) \/
  (exists a n b sa sb, gs = a ++ repeat 0 n ++ b /\ (2 <= n)%nat /\
     (forall a' n' b', gs = a' ++ repeat 0 n' ++ b' -> (n' <= n)%nat /\ (n' = n -> (length a <= length a')%nat)) /\
     compact_text a sa /\ compact_text b sb /\ s = sa ++ [58; 58] ++ sb).
Definition text_in (fmt : format) : list Z -> list Z -> Prop :=
  match fmt with full => full_text | compact => compact_text | compressed => compressed_text end.
(** "%scope" when there is a scope. *)
Definition scope_suffix (t : list Z) : list Z := match t with [] => [] | _ => 37 :: t end.

(** The reverse pointer: the 32 nibbles of the address, least significant
    first, separated by dots, then ".ip6.arpa". *)
Fixpoint dots (cs : list Z) : list Z :=
  match cs with [] => [] | [c] => [c] | c :: cs' => c :: 46 :: dots cs' end.
Definition pointer6 (v : Z) (s : list Z) : Prop :=
  exists cs ds, length cs = 32%nat /\ digits_of 16 (rev cs) ds /\ horner 16 0 ds = v /\
    s = dots cs ++ [46; 105; 112; 54; 46; 97; 114; 112; 97].
