(** * Specification for C90 and C91: layout of JSON text, metadata files *)
From stdpp Require Import base gmap strings list.
From Coq Require Import ZArith Ascii String.
From Verif Require Import GoBase GoStr Json Updater.
Open Scope Z_scope.

(** blank, tab, line feed, carriage return: the white space of RFC 8259 *)
Definition blank (c : ascii) : Prop := c = " "%char \/ c = "009"%char \/ c = "010"%char \/ c = "013"%char.
(** Two texts differ in layout only: they are the same byte by byte, except for white space outside string literals.
    [q]: inside a string literal, [e]: after a backslash in it *)
Inductive same_layout : bool -> bool -> string -> string -> Prop :=
  | sl_nil q e : same_layout q e "" ""
  | sl_left c s s' : blank c -> same_layout false false s s' -> same_layout false false (String c s) s'
  | sl_right c s s' : blank c -> same_layout false false s s' -> same_layout false false s (String c s')
  | sl_out c s s' : same_layout (Ascii.eqb c "034") false s s' -> same_layout false false (String c s) (String c s')
  | sl_escaped c s s' : same_layout true false s s' -> same_layout true true (String c s) (String c s')
  | sl_backslash s s' : same_layout true true s s' -> same_layout true false (String "092" s) (String "092" s')
  | sl_in c s s' : c <> "092"%char -> same_layout (negb (Ascii.eqb c "034")) false s s' -> same_layout true false (String c s) (String c s').
(** well-formed JSON text *)
Definition is_json (s : string) : Prop := exists j, parse_json s = Some j.
(** [s] is a part of [t] from the beginning, and not all of it *)
Definition cut_short (s t : string) : Prop := exists x, x <> "" /\ t = s +:+ x.
(** what an IO action did *)
Definition did (i i' : ios) (evs : list event) : Prop := io_trace i' = io_trace i ++ evs.
