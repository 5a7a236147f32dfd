(** * A small concrete repository, used to exhibit concrete cases (with the toy cryptography of Toy.v) *)
From stdpp Require Import base gmap strings list.
From Coq Require Import ZArith Ascii String.
From Verif Require Import GoBase GoStr Json GoTime Types Marshal Keys Metadata TrustedMetadata Toy.
Open Scope Z_scope.
Global Existing Instance toy_crypto.

Definition sign_all {T} `{RoleTy T} (pks : list pubkey) (m : metadata T) : metadata T :=
  fold_left (fun m p => fst (sign (toy_signer p) m)) pks m.
Definition unsigned {T} (x : T) : metadata T := mkMetadata x (Some []) None.
Definition bytes_of {T} `{RoleTy T} (m : metadata T) : string := match to_bytes m with Ok s => s | _ => "" end.

Definition idA := toy_id pkA.
Definition idB := toy_id pkB.
Definition idC := toy_id pkC.
Definition ex_keys : gomap (option key) :=
  Some (<[idA := Some (toy_key pkA)]> (<[idB := Some (toy_key pkB)]> (<[idC := Some (toy_key pkC)]> ∅))).
Definition ex_role (ids : list string) (thr : Z) : option role := Some (mkRole (Some ids) thr None).
(** root: A and B, threshold 2; timestamp: B; snapshot: C; targets: A *)
Definition ex_root_t (version : Z) : root_t :=
  mkRoot ROOT SPECIFICATION_VERSION true version t2030 ex_keys
    (Some (<[ROOT := ex_role [idA; idB] 2]> (<[TIMESTAMP := ex_role [idB] 1]>
      (<[SNAPSHOT := ex_role [idC] 1]> (<[TARGETS := ex_role [idA] 1]> ∅))))) None.
Definition ex_root (version : Z) : metadata root_t := sign_all [pkA; pkB] (unsigned (ex_root_t version)).
(** a delegated role with two files *)
Definition ex_file (data : string) : targetfile := mkTargetFile (str_len data) (Some {["sha256" := sha256 data]}) None "" None.
Definition ex_d1 : metadata targets_t :=
  sign_all [pkB] (unsigned (mkTargets TARGETS SPECIFICATION_VERSION 3 t2030
    (Some (<["a/x" := Some (ex_file "hello")]> (<["a/y" := Some (ex_file "world")]> ∅))) None None)).
Definition ex_dr (name : string) (ids : list string) (term : bool) (paths : list string) : delegatedrole :=
  mkDelegatedRole name (Some ids) 1 term None (Some paths) None.
Definition ex_targets : metadata targets_t :=
  sign_all [pkA] (unsigned (mkTargets TARGETS SPECIFICATION_VERSION 5 t2030
    (Some (<["top" := Some (ex_file "top file")]> ∅))
    (Some (mkDelegations ex_keys (Some [ex_dr "d1" [idB] false ["a/*"]; ex_dr "d2" [idC] true ["a/*"; "b/*"]]) None None)) None)).
Definition ex_meta (version : Z) (data : string) : option metafile :=
  Some (mkMetaFile (str_len data) (Some {["sha256" := sha256 data]}) version None).
Definition ex_snapshot_v (version : Z) : metadata snapshot_t :=
  sign_all [pkC] (unsigned (mkSnapshot SNAPSHOT SPECIFICATION_VERSION version t2030
    (Some (<["targets.json" := ex_meta 5 (bytes_of ex_targets)]> (<["d1.json" := ex_meta 3 (bytes_of ex_d1)]> ∅))) None)).
Definition ex_snapshot := ex_snapshot_v 7.
Definition ex_timestamp_v (version : Z) : metadata timestamp_t :=
  sign_all [pkB] (unsigned (mkTimestamp TIMESTAMP SPECIFICATION_VERSION version t2030
    (Some (<["snapshot.json" := ex_meta 7 (bytes_of ex_snapshot)]> ∅)) None)).
Definition ex_timestamp := ex_timestamp_v 9.
Definition ex_now : Z := instant (mkTime 2025 1 1 0 0 0 0 0).

Example ex_loads :
  (is_ok (tm_new (bytes_of (ex_root 1)) ex_now), is_ok (from_bytes (T := timestamp_t) (bytes_of ex_timestamp)),
   is_ok (from_bytes (T := snapshot_t) (bytes_of ex_snapshot)), is_ok (from_bytes (T := targets_t) (bytes_of ex_targets)),
   is_ok (from_bytes (T := targets_t) (bytes_of ex_d1))) = (true, true, true, true, true).
Proof. vm_compute. reflexivity. Qed.
