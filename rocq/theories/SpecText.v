(** * Specification of JSON text: what a tree becomes when it is printed and parsed again *)
From stdpp Require Import base gmap strings list.
From Coq Require Import ZArith Ascii String.
From Verif Require Import GoBase GoStr Json SpecUtf8.
Open Scope Z_scope.

(** the printed form of the string contains a backslash *)
Definition escaped (s : string) : bool := string_any (fun c => bz c =? 92) (esc_str s).
(** the tree that the parser finds in the printed text: same shape; strings lose invalid UTF-8 and are marked if they
    were escaped *)
Definition reread_str (s : string) : json := if escaped s then JEsc (utf8_sanitize s) else JStr (utf8_sanitize s).
Fixpoint reread (j : json) : json :=
  match j with
  | JStr s | JEsc s => reread_str s
  | JArr l => JArr (map reread l)
  | JObj l => JObj (map (fun kv => (utf8_sanitize kv.1, reread kv.2)) l)
  | j => j
  end.
(** nesting depth of arrays and objects *)
Fixpoint jdepth (j : json) : Z :=
  match j with
  | JArr l => 1 + fold_right Z.max 0 (map jdepth l)
  | JObj l => 1 + fold_right Z.max 0 (map (fun kv => jdepth kv.2) l)
  | _ => 0
  end.
(** number literals follow the grammar of RFC 8259 *)
Definition num_ok (l : string) : Prop := parse_num l = Some (l, "").
Fixpoint nums_wf (j : json) : Prop :=
  match j with
  | JNum l => num_ok l
  | JArr l => (fix go l := match l with [] => True | x :: l => nums_wf x /\ go l end) l
  | JObj l => (fix go l := match l with [] => True | x :: l => nums_wf x.2 /\ go l end) l
  | _ => True
  end.
(** every string and every member name is UTF-8 text *)
Fixpoint texts_ok (j : json) : Prop :=
  match j with
  | JStr s | JEsc s => utf8_text s
  | JArr l => (fix go l := match l with [] => True | x :: l => texts_ok x /\ go l end) l
  | JObj l => (fix go l := match l with [] => True | x :: l => (utf8_text x.1 /\ texts_ok x.2) /\ go l end) l
  | _ => True
  end.
(** the content of a tree: escape marks dropped, members in key order, the last of several members with one name *)
Fixpoint canon (j : json) : json :=
  match j with
  | JStr s | JEsc s => JStr s
  | JArr l => JArr (map canon l)
  | JObj l => JObj (obj_norm (map (fun kv => (kv.1, canon kv.2)) l))
  | j => j
  end.
