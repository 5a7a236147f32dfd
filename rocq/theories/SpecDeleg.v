(** * Specification of path patterns, hash prefixes and bins *)
From stdpp Require Import base gmap strings list.
From Coq Require Import ZArith Lia Ascii String.
From Verif Require Import GoBase GoStr Types Keys SpecUtf8.
Open Scope Z_scope.

(** ** Glob patterns of one path segment *)
(** a literal byte, [?], [*], or a class of ranges of code points (negated or not) *)
Inductive gtok := GLit (c : ascii) | GAny | GStar | GClass (neg : bool) (ranges : list (Z * Z)).
(** a code point in a class: raw (but not [-], []] or backslash) or behind a backslash; what follows it *)
Inductive class_char : string -> Z -> string -> Prop :=
  | cc_raw r u s : is_char r u -> r <> 45 -> r <> 93 -> r <> 92 -> class_char (u +:+ s) r s
  | cc_esc r u s : is_char r u -> class_char (String "\" (u +:+ s)) r s.
(** the ranges of a class up to its closing bracket; what follows the bracket *)
Inductive class_items : string -> list (Z * Z) -> string -> Prop :=
  | ci_end s : class_items (String "]" s) [] s
  | ci_one s r s' rs e : class_char s r s' -> class_items s' rs e -> class_items s ((r, r) :: rs) e
  | ci_range s lo s' hi s'' rs e :
      class_char s lo (String "-" s') -> class_char s' hi s'' -> class_items s'' rs e -> class_items s ((lo, hi) :: rs) e.
Inductive glob_parse : string -> list gtok -> Prop :=
  | gp_nil : glob_parse "" []
  | gp_star p ts : glob_parse p ts -> glob_parse (String "*" p) (GStar :: ts)
  | gp_any p ts : glob_parse p ts -> glob_parse (String "?" p) (GAny :: ts)
  | gp_esc c p ts : glob_parse p ts -> glob_parse (String "\" (String c p)) (GLit c :: ts)
  | gp_lit c p ts : c <> "*"%char -> c <> "?"%char -> c <> "["%char -> c <> "\"%char ->
      glob_parse p ts -> glob_parse (String c p) (GLit c :: ts)
  | gp_class c p rs p' ts : c <> "^"%char -> rs <> [] ->
      class_items (String c p) rs p' -> glob_parse p' ts -> glob_parse (String "[" (String c p)) (GClass false rs :: ts)
  | gp_nclass p rs p' ts : rs <> [] ->
      class_items p rs p' -> glob_parse p' ts -> glob_parse (String "[" (String "^" p)) (GClass true rs :: ts).
Definition no_slash (s : string) : Prop := Forall (fun c => c <> "/"%char) (list_ascii_of_string s).
Definition in_ranges (r : Z) (rs : list (Z * Z)) : Prop := exists lo hi, (lo, hi) ∈ rs /\ lo <= r <= hi.
(** the strings a pattern matches; characters are those of [first_char] *)
Inductive glob_denotes : list gtok -> string -> Prop :=
  | gd_nil : glob_denotes [] ""
  | gd_lit c ts s : glob_denotes ts s -> glob_denotes (GLit c :: ts) (String c s)
  | gd_any ts r s s' : s <> "" -> first_char s r s' -> r <> 47 -> glob_denotes ts s' -> glob_denotes (GAny :: ts) s
  | gd_star ts s s' : no_slash s -> glob_denotes ts s' -> glob_denotes (GStar :: ts) (s +:+ s')
  | gd_class rs ts r s s' : s <> "" -> first_char s r s' -> in_ranges r rs -> glob_denotes ts s' ->
      glob_denotes (GClass false rs :: ts) s
  | gd_nclass rs ts r s s' : s <> "" -> first_char s r s' -> ~ in_ranges r rs -> glob_denotes ts s' ->
      glob_denotes (GClass true rs :: ts) s.
(** a segment matches a pattern *)
Definition segment_matches (pat seg : string) : Prop := exists ts, glob_parse pat ts /\ glob_denotes ts seg.

(** ** Paths *)
(** [segs] are the segments between the slashes of [path] *)
Definition segments (path : string) (segs : list string) : Prop :=
  segs <> [] /\ Forall no_slash segs /\ path = join_str "/" segs.
Definition path_matches (pattern path : string) : Prop :=
  exists ps ss, segments pattern ps /\ segments path ss /\ Forall2 segment_matches ps ss.
Definition ascii_only (s : string) : Prop := Forall (fun c => bz c < 128) (list_ascii_of_string s).

(** ** Numbers in positional notation *)
Inductive positional (base : Z) (digit : ascii -> Z -> Prop) : string -> Z -> Prop :=
  | pos_one c d : digit c d -> positional base digit (s1 c) d
  | pos_snoc s n c d : positional base digit s n -> digit c d -> positional base digit (s +:+ s1 c) (base * n + d).
Definition lower_hex (c : ascii) (d : Z) : Prop := 0 <= d /\ String.get (Z.to_nat d) "0123456789abcdef" = Some c.
Definition any_hex (c : ascii) (d : Z) : Prop :=
  lower_hex c d \/ (0 <= d /\ String.get (Z.to_nat d) "0123456789ABCDEF" = Some c).

(** ** Bins of succinct delegations: prefix, dash, and the index in lower-case hex with as many digits as 2^bits - 1 *)
Definition bin_digits (bits : Z) (w : nat) : Prop := 16 ^ (Z.of_nat w - 1) < 2 ^ bits <= 16 ^ Z.of_nat w.
Definition is_bin (r : succinctroles) (i : Z) (name : string) : Prop :=
  exists w suffix, bin_digits (sr_bit_length r) w /\ String.length suffix = w /\
    positional 16 lower_hex suffix i /\ name = sr_name_prefix r +:+ "-" +:+ suffix.
(** the number formed by the first four bytes *)
Definition first_32_bits (s : string) (n : Z) : Prop :=
  exists a b c d rest, s = String a (String b (String c (String d rest))) /\
    n = bz a * 2 ^ 24 + bz b * 2 ^ 16 + bz c * 2 ^ 8 + bz d.
(** the leftmost [bits] bits of a 32-bit number *)
Definition leftmost_bits (bits n i : Z) : Prop := i * 2 ^ (32 - bits) <= n < (i + 1) * 2 ^ (32 - bits).
