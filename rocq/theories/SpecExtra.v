(** * Specification of unrecognised members (C15) *)
From stdpp Require Import base gmap strings list.
From Coq Require Import ZArith Ascii String.
From Verif Require Import GoBase GoStr Json Types Marshal Metadata SpecUtf8 SpecText SpecSerial.
Open Scope Z_scope.

(** ** The value of a JSON text, with numbers as 64-bit floats *)
(** the two literals are read as the same double (or are the same literal) *)
Definition same_double (a b : string) : Prop :=
  a = b \/ exists n v w, f64_of a = Some (n, v) /\ f64_of b = Some (n, w) /\ (v = w \/ v.1 = 0 /\ w.1 = 0).
Inductive same_value : json -> json -> Prop :=
  | sv_null : same_value JNull JNull
  | sv_bool b : same_value (JBool b) (JBool b)
  | sv_num a b : same_double a b -> same_value (JNum a) (JNum b)
  | sv_str a b s : jstring a = Some s -> jstring b = Some s -> same_value a b
  | sv_arr a b : Forall2 same_value a b -> same_value (JArr a) (JArr b)
  | sv_obj a b : (forall k v, last_member a k v -> exists w, last_member b k w /\ same_value v w) ->
                 (forall k w, last_member b k w -> exists v, last_member a k v) -> same_value (JObj a) (JObj b).
(** every number is an integer of at most 2^53 *)
Fixpoint small_ints (j : json) : Prop :=
  match j with
  | JNum l => exists z, parse_int 10 l = Some z /\ Z.abs z <= 2 ^ 53
  | JArr l => (fix go l := match l with [] => True | x :: l => small_ints x /\ go l end) l
  | JObj l => (fix go l := match l with [] => True | x :: l => small_ints x.2 /\ go l end) l
  | _ => True
  end.

(** ** Objects of the format *)
(** reading an object keeps the last member of every name that is not one of [names], and only those *)
Definition keeps_extra {X} (read : json -> outcome X) (names : list string) (extra : X -> unrec) : Prop :=
  forall l x, read (JObj l) = Ok x ->
    (forall k v, k ∉ names -> last_member l k v -> exists w, mget (extra x) k = Some w /\ same_value v w /\ (small_ints v -> w = canon v)) /\
    (forall k w, mget (extra x) k = Some w -> k ∉ names /\ exists v, last_member l k v).
(** writing an object writes them *)
Definition writes_extra {X} (write : X -> outcome json) (names : list string) (extra : X -> unrec) : Prop :=
  forall x j, write x = Ok j ->
    exists l, j = JObj l /\ NoDup (map fst l) /\ forall k w, k ∉ names -> (k, w) ∈ l <-> mget (extra x) k = Some w.

(** the members the TUF format gives each object *)
Definition in_metadata := ["signed"; "signatures"].
Definition in_signature := ["keyid"; "sig"].
Definition in_root := ["_type"; "spec_version"; "consistent_snapshot"; "version"; "expires"; "keys"; "roles"].
Definition in_key := ["keytype"; "scheme"; "keyval"].
Definition in_keyval := ["public"].
Definition in_role := ["keyids"; "threshold"].
Definition in_snapshot := ["_type"; "spec_version"; "version"; "expires"; "meta"].
Definition in_metafile := ["length"; "hashes"; "version"].
Definition in_targets := ["_type"; "spec_version"; "version"; "expires"; "targets"; "delegations"].
Definition in_targetfile := ["length"; "hashes"; "custom"].
Definition in_delegations := ["keys"; "roles"; "succinct_roles"].
Definition in_delegatedrole := ["name"; "keyids"; "threshold"; "terminating"; "paths"; "path_hash_prefixes"].
Definition in_succinct := ["keyids"; "threshold"; "bit_length"; "name_prefix"].
