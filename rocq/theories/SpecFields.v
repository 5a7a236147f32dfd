(** * Specification: what the fields of a document are after reading it (C124) *)
From stdpp Require Import base gmap strings list.
From Coq Require Import ZArith Ascii String.
From Verif Require Import GoBase GoStr Json GoTime Types Marshal SpecSerial.
Open Scope Z_scope.

(** ** Names *)
(** [k] is another spelling of the name [n]: letters may be in upper case, and U+017F stands for s, U+212A for k *)
Inductive spells : string -> string -> Prop :=
  | spells_nil : spells "" ""
  | spells_same c k n : spells k n -> spells (String c k) (String c n)
  | spells_upper c d k n : 97 <= bz c <= 122 -> bz d = bz c - 32 -> spells k n -> spells (String d k) (String c n)
  | spells_long_s a b k n : bz a = 197 -> bz b = 191 -> spells k n -> spells (String a (String b k)) (String "s" n)
  | spells_kelvin a b c k n : bz a = 226 -> bz b = 132 -> bz c = 170 -> spells k n -> spells (String a (String b (String c k))) (String "k" n).
Definition no_member (l : list (string * json)) (n : string) : Prop := Forall (fun kv => ~ spells kv.1 n) l.
Definition only_member (l : list (string * json)) (n : string) (v : json) : Prop := exists l1 l2, l = l1 ++ (n, v) :: l2 /\ no_member l1 n /\ no_member l2 n.

(** ** Values *)
Definition is_text (v : json) (s : string) : Prop := (v = JNull /\ s = "") \/ jstring v = Some s.
Definition is_int (v : json) (z : Z) : Prop := (v = JNull /\ z = 0) \/ exists s, v = JNum s /\ parse_int 10 s = Some z.
Definition is_bool (v : json) (b : bool) : Prop := (v = JNull /\ b = false) \/ v = JBool b.
(** the beginning of the year 1, in UTC *)
Definition year_one : gotime := mkTime 1 1 1 0 0 0 0 0.
Definition is_time (v : json) (t : gotime) : Prop := (v = JNull /\ t = year_one) \/ exists s, v = JStr s /\ parse_time s = Some t.
Definition is_hex_text (v : json) (s : string) : Prop := exists h, v = JStr h /\ hex_decode h = Some s.
Definition is_read {A} (f : json -> outcome A) (v : json) (a : A) : Prop := f v = Ok a.
Definition is_optional {A} (el : json -> A -> Prop) (v : json) (o : option A) : Prop := (v = JNull /\ o = None) \/ (v <> JNull /\ exists a, el v a /\ o = Some a).
Definition is_list {A} (el : json -> A -> Prop) (v : json) (s : goslice A) : Prop := (v = JNull /\ s = None) \/ exists l r, v = JArr l /\ s = Some r /\ Forall2 el l r.
(** of several members with the same name the last one counts *)
Definition is_map {A} (el : string -> json -> A -> Prop) (v : json) (m : gomap A) : Prop :=
  (v = JNull /\ m = None) \/ exists l g, v = JObj l /\ m = Some g /\
    (forall k y, g !! k = Some y -> exists w, last_member l k w /\ el k w y) /\ (forall k w, last_member l k w -> is_Some (g !! k)).

(** ** Fields *)
(** An object without a member for the field [n] is read with the value [zero] for it; one with one member has the value
    of that. *)
Definition reads_field {X V} (read : json -> outcome X) (n : string) (get : X -> V) (zero : V) (means : json -> V -> Prop) : Prop :=
  (forall l x, read (JObj l) = Ok x -> no_member l n -> get x = zero) /\
  (forall l x v, read (JObj l) = Ok x -> only_member l n v -> means v (get x)).
