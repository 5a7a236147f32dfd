(** * Specification for C89: publishing with this library what its client accepts *)
From stdpp Require Import base gmap strings list.
From Coq Require Import ZArith Ascii String.
From Verif Require Import GoBase GoStr Json GoTime Types Marshal Keys Metadata TrustedMetadata SpecUtf8 SpecSerial SpecRound SpecSig SpecKeys SpecTrusted.
Open Scope Z_scope.

Section SpecPublish.
Context {CR : Crypto}.

(** metadata objects that can be written and read *)
Definition writable {T} `{RoleTy T, SignedSpec T} (m : metadata T) : Prop := metadata_wf m /\ shallow m.
(** the four top-level objects of a repository, in memory: VerifyDelegate of the root accepts each of them, and the
    entries for snapshot.json and targets.json describe what will be written *)
Definition publication (r : metadata root_t) (ts : metadata timestamp_t) (sn : metadata snapshot_t) (tg : metadata targets_t) : Prop :=
  writable r /\ writable ts /\ writable sn /\ writable tg /\
  root_signs r "root" r /\ root_signs r "timestamp" ts /\ root_signs r "snapshot" sn /\ root_signs r "targets" tg /\
  (exists f, names_snapshot ts f /\ sn_version (md_signed sn) = mf_version f /\ forall b, to_bytes sn = Ok b -> matches_file f b) /\
  (exists f, lists_file sn "targets.json" f /\ tg_version (md_signed tg) = mf_version f /\ forall b, to_bytes tg = Ok b -> matches_file f b).

(** the content of a root object made with Root(expires), AddKey with keys from KeyFromPublicKey, and RevokeKey; PEM is text *)
Inductive api_root (expires : gotime) : root_t -> Prop :=
  | api_new : api_root expires (md_signed (Root expires))
  | api_add x p k name y : api_root expires x -> key_from_public_key p = Ok k -> proper_pk p -> utf8_text (kv_public (k_val k)) ->
      root_add_key x k name = Ok y -> api_root expires y
  | api_revoke x id name y : api_root expires x -> root_revoke_key x id name = Ok y -> api_root expires y.
(** the object with that content *)
Definition with_content {T} (m : metadata T) (x : T) : metadata T := mkMetadata x (md_sigs m) (md_unrec m).
(** [l] are working signers whose keys, all different, were added to role [name] of [x] *)
Definition team (x : root_t) (name : string) (l : list signer) : Prop :=
  exists ids : list string, ids <> [] /\ NoDup ids /\
    Forall2 (fun s id => exists p, working_signer s p /\ signer_keyid s id /\ resolves (rt_keys x) id p /\ exists r, root_role x name r /\ id ∈ ids_of r) l ids.
End SpecPublish.
