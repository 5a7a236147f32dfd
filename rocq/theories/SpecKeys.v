(** * Specification vocabulary for C33-C37: key tables *)
From stdpp Require Import base gmap strings list.
From Coq Require Import ZArith String.
From Verif Require Import GoBase Json Types Marshal Keys Metadata.
Open Scope Z_scope.

Section SpecKeys.
Context {CR : Crypto}.

(** [r] is the role called [n] in the root metadata [x] *)
Definition root_role (x : root_t) (n : string) (r : role) : Prop :=
  exists m, rt_roles x = Some m /\ m !! n = Some (Some r).
(** the key table of [x] maps [i] to [k] *)
Definition in_table (keys : gomap (option key)) (i : string) (k : key) : Prop :=
  exists m, keys = Some m /\ m !! i = Some (Some k).
Definition ids_of (r : role) : list string := match r_keyids r with Some l => l | None => [] end.

(** What application code can do to root metadata through AddKey and RevokeKey.  [y] is the object after any number of
    successful calls (a failing call leaves the object as it is). *)
Inductive key_history : root_t -> root_t -> Prop :=
  | kh_nil x : key_history x x
  | kh_add x y z k n : key_history x y -> root_add_key y k n = Ok z -> key_history x z
  | kh_revoke x y z i n : key_history x y -> root_revoke_key y i n = Ok z -> key_history x z.

(** the state of the key table that TUF clients rely on *)
Definition consistent_keys (x : root_t) : Prop :=
  (forall n r i, root_role x n r -> i ∈ ids_of r -> exists k, in_table (rt_keys x) i k) /\
  (forall i k, mget (rt_keys x) i = Some k -> exists n r, root_role x n r /\ i ∈ ids_of r) /\
  (forall n r, root_role x n r -> NoDup (ids_of r)).

(** [y] is [x] except for the key table and the roles *)
Definition same_header (x y : root_t) : Prop :=
  rt_type y = rt_type x /\ rt_spec y = rt_spec x /\ rt_consistent y = rt_consistent x /\ rt_version y = rt_version x /\
  rt_expires y = rt_expires x /\ rt_unrec y = rt_unrec x.
(** [r'] is [r] except for the list of key IDs, which is [l] *)
Definition role_with_ids (r r' : role) (l : list string) : Prop :=
  ids_of r' = l /\ r_threshold r' = r_threshold r /\ r_unrec r' = r_unrec r.

(** the same for delegated roles *)
Definition dr_ids (r : delegatedrole) : list string := match dr_keyids r with Some l => l | None => [] end.
Definition sr_ids (s : succinctroles) : list string := match sr_keyids s with Some l => l | None => [] end.
Definition dr_with_ids (r r' : delegatedrole) (l : list string) : Prop :=
  dr_ids r' = l /\ dr_name r' = dr_name r /\ dr_threshold r' = dr_threshold r /\ dr_terminating r' = dr_terminating r /\
  dr_hash_prefixes r' = dr_hash_prefixes r /\ dr_paths r' = dr_paths r /\ dr_unrec r' = dr_unrec r.
Definition sr_with_ids (s s' : succinctroles) (l : list string) : Prop :=
  sr_ids s' = l /\ sr_threshold s' = sr_threshold s /\ sr_bit_length s' = sr_bit_length s /\
  sr_name_prefix s' = sr_name_prefix s /\ sr_unrec s' = sr_unrec s.
(** [y] is [x] except for the delegations *)
Definition same_but_delegations (x y : targets_t) : Prop :=
  tg_type y = tg_type x /\ tg_spec y = tg_spec x /\ tg_version y = tg_version x /\ tg_expires y = tg_expires x /\
  tg_targets y = tg_targets x /\ tg_unrec y = tg_unrec x.
(** the list with the ID, added at the end if it is not there yet *)
Definition with_id (i : string) (l : list string) : list string := if decide (i ∈ l) then l else l ++ [i].
Definition without_id (i : string) (l : list string) : list string := filter (fun j => j <> i) l.
(** the table [keys'] is [keys] with [i] bound to [k] / not bound *)
Definition table_with (keys keys' : gomap (option key)) (i : string) (k : key) : Prop :=
  exists m, keys = Some m /\ keys' = Some (<[i := Some k]> m).
Definition table_without (keys keys' : gomap (option key)) (i : string) : Prop :=
  (keys = None <-> keys' = None) /\ mget keys' i = None /\ forall j, j <> i -> mget keys' j = mget keys j.

(** the key ID lists of the roles of a delegation (a delegation uses [roles] if present, else [succinct_roles]) *)
Definition active_ids (d : delegations) : list (list string) :=
  match d_roles d, d_succinct d with
  | Some l, _ => map dr_ids l
  | None, Some s => [sr_ids s]
  | None, None => []
  end.
Definition consistent_delegations (d : delegations) : Prop :=
  (forall (ids : list string) i, ids ∈ active_ids d -> i ∈ ids -> exists k, in_table (d_keys d) i k) /\
  (forall i k, mget (d_keys d) i = Some k -> exists ids : list string, ids ∈ active_ids d /\ i ∈ ids) /\
  (forall ids : list string, ids ∈ active_ids d -> NoDup ids).
(** any number of successful AddKey and RevokeKey calls on targets metadata *)
Inductive targets_key_history : targets_t -> targets_t -> Prop :=
  | tkh_nil x : targets_key_history x x
  | tkh_add x y z k n : targets_key_history x y -> targets_add_key y k n = Ok z -> targets_key_history x z
  | tkh_revoke x y z i n : targets_key_history x y -> targets_revoke_key y i n = Ok z -> targets_key_history x z.

(** the same key with the identifier stored in it *)
Definition with_cached_id (k : key) (i : string) : key := mkKey (k_type k) (k_scheme k) (k_val k) i (k_unrec k).

(** What the PEM functions of the sigstore library and crypto/x509 are relied upon for: decoding undoes encoding, and
    what could be encoded can be re-encoded as PKIX. *)
Definition pem_round_trip : Prop :=
  forall p s, pem_encode p = Some s -> pem_decode s = Some p /\ pkix_ok p = true.
End SpecKeys.
