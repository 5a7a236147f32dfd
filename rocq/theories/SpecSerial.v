(** * Specification of loading and saving documents (C11-C14, C18): what the members of a JSON document mean *)
From stdpp Require Import base gmap strings list.
From Coq Require Import ZArith Ascii String.
From Verif Require Import GoBase GoStr Json Types Marshal Metadata.
Open Scope Z_scope.

(** the value of member [k]: the last one of that name *)
Definition last_member {V} (l : list (string * V)) (k : string) (v : V) : Prop :=
  exists l1 l2, l = l1 ++ (k, v) :: l2 /\ Forall (fun kv => kv.1 <> k) l2.
(** the document's signed._type member is the string [s] *)
Definition doc_type (j : json) (s : string) : Prop :=
  exists l l' v, j = JObj l /\ last_member l "signed" (JObj l') /\ last_member l' "_type" v /\ jstring v = Some s.
(** every number fits a 64-bit float *)
Fixpoint numbers_ok (j : json) : Prop :=
  match j with
  | JNum n => f64_norm n <> None
  | JArr l => (fix go l := match l with [] => True | x :: l => numbers_ok x /\ go l end) l
  | JObj l => (fix go l := match l with [] => True | x :: l => numbers_ok x.2 /\ go l end) l
  | _ => True
  end.
(** member names that differ from a known name only in letter case (or in the Kelvin sign and long s) are matched to it *)
Definition lookalike (name k : string) : Prop := k <> name /\ fold_key k = fold_key name.
Definition no_lookalike (name : string) (l : list (string * json)) : Prop := forall k v, (k, v) ∈ l -> ~ lookalike name k.

(** no two signatures for one key ID *)
Definition unique_key_ids {T} (m : metadata T) : Prop := NoDup (map sig_keyid (default [] (md_sigs m))).
(** some delegated role restricts paths in both ways *)
Definition both_restrictions (x : targets_t) : Prop :=
  exists d l r p h, tg_delegations x = Some d /\ d_roles d = Some l /\ r ∈ l /\ dr_paths r = Some p /\ dr_hash_prefixes r = Some h.
(** a member called targets (in any letter case) of the signed part maps some name to null *)
Definition null_target (j : json) : Prop :=
  exists l k s ks ts n, j = JObj l /\ (k, JObj s) ∈ l /\ fold_key k = fold_key "signed" /\
    (ks, JObj ts) ∈ s /\ fold_key ks = fold_key "targets" /\ (n, JNull) ∈ ts.
