(** * Metadata types: metadata/types.go *)
From stdpp Require Import base gmap strings list.
From Coq Require Import ZArith Ascii String.
From Verif Require Import GoBase GoStr Json GoTime.
Open Scope Z_scope.

(** types.go:25-37 *)
Definition SPECIFICATION_VERSION : string := "1.0.31".
Definition ROOT : string := "root".
Definition SNAPSHOT : string := "snapshot".
Definition TARGETS : string := "targets".
Definition TIMESTAMP : string := "timestamp".
Definition TOP_LEVEL_ROLE_NAMES : list string := [ROOT; TIMESTAMP; SNAPSHOT; TARGETS].

(** [map[string]any] holding unrecognised fields; values are JSON trees *)
Notation unrec := (gomap json).
(** types.go:119-121: HexBytes are byte strings, Hashes a map from algorithm name to digest *)
Notation hashes := (gomap string).

(** types.go:48-53 *)
Record signature := mkSignature { sig_keyid : string; sig_sig : string; sig_unrec : unrec }.
(** types.go:107-110 *)
Record keyval := mkKeyVal { kv_public : string; kv_unrec : unrec }.
(** types.go:98-105; [k_id] is the cached identifier (empty = not computed) *)
Record key := mkKey { k_type : string; k_scheme : string; k_val : keyval; k_id : string; k_unrec : unrec }.
(** types.go:113-117 *)
Record role := mkRole { r_keyids : goslice string; r_threshold : Z; r_unrec : unrec }.
(** types.go:124-129 *)
Record metafile := mkMetaFile { mf_length : Z; mf_hashes : hashes; mf_version : Z; mf_unrec : unrec }.
(** types.go:132-138; [tf_custom] is the raw JSON value *)
Record targetfile := mkTargetFile {
  tf_length : Z; tf_hashes : hashes; tf_custom : option json; tf_path : string; tf_unrec : unrec }.
(** types.go:149-157 *)
Record delegatedrole := mkDelegatedRole {
  dr_name : string; dr_keyids : goslice string; dr_threshold : Z; dr_terminating : bool;
  dr_hash_prefixes : goslice string; dr_paths : goslice string; dr_unrec : unrec }.
(** types.go:161-167 *)
Record succinctroles := mkSuccinctRoles {
  sr_keyids : goslice string; sr_threshold : Z; sr_bit_length : Z; sr_name_prefix : string; sr_unrec : unrec }.
(** types.go:141-146; map values are pointers, [None] is a nil pointer *)
Record delegations := mkDelegations {
  d_keys : gomap (option key); d_roles : goslice delegatedrole; d_succinct : option succinctroles; d_unrec : unrec }.

(** types.go:56-65 *)
Record root_t := mkRoot {
  rt_type : string; rt_spec : string; rt_consistent : bool; rt_version : Z; rt_expires : gotime;
  rt_keys : gomap (option key); rt_roles : gomap (option role); rt_unrec : unrec }.
(** types.go:68-75 *)
Record snapshot_t := mkSnapshot {
  sn_type : string; sn_spec : string; sn_version : Z; sn_expires : gotime;
  sn_meta : gomap (option metafile); sn_unrec : unrec }.
(** types.go:89-96 *)
Record timestamp_t := mkTimestamp {
  ts_type : string; ts_spec : string; ts_version : Z; ts_expires : gotime;
  ts_meta : gomap (option metafile); ts_unrec : unrec }.
(** types.go:78-86 *)
Record targets_t := mkTargets {
  tg_type : string; tg_spec : string; tg_version : Z; tg_expires : gotime;
  tg_targets : gomap (option targetfile); tg_delegations : option delegations; tg_unrec : unrec }.

(** types.go:42-46 *)
Record metadata (T : Type) := mkMetadata { md_signed : T; md_sigs : goslice signature; md_unrec : unrec }.
Arguments mkMetadata {T}.
Arguments md_signed {T}.
Arguments md_sigs {T}.
Arguments md_unrec {T}.

(** Go zero values *)
Definition keyval_zero := mkKeyVal "" None.
Definition key_zero := mkKey "" "" keyval_zero "" None.
Definition role_zero := mkRole None 0 None.
Definition signature_zero := mkSignature "" "" None.
Definition metafile_zero := mkMetaFile 0 None 0 None.
Definition targetfile_zero := mkTargetFile 0 None None "" None.
Definition delegatedrole_zero := mkDelegatedRole "" None 0 false None None None.
Definition succinct_zero := mkSuccinctRoles None 0 0 "" None.
Definition delegations_zero := mkDelegations None None None None.
Definition root_zero := mkRoot "" "" false 0 time_zero None None None.
Definition snapshot_zero := mkSnapshot "" "" 0 time_zero None None.
Definition timestamp_zero := mkTimestamp "" "" 0 time_zero None None.
Definition targets_zero := mkTargets "" "" 0 time_zero None None None.

Global Instance signature_eq_dec : EqDecision signature. Proof. solve_decision. Defined.
Global Instance keyval_eq_dec : EqDecision keyval. Proof. solve_decision. Defined.
Global Instance key_eq_dec : EqDecision key. Proof. solve_decision. Defined.
Global Instance role_eq_dec : EqDecision role. Proof. solve_decision. Defined.
Global Instance metafile_eq_dec : EqDecision metafile. Proof. solve_decision. Defined.
Global Instance targetfile_eq_dec : EqDecision targetfile. Proof. solve_decision. Defined.
Global Instance delegatedrole_eq_dec : EqDecision delegatedrole. Proof. solve_decision. Defined.
Global Instance succinct_eq_dec : EqDecision succinctroles. Proof. solve_decision. Defined.
Global Instance delegations_eq_dec : EqDecision delegations. Proof. solve_decision. Defined.
Global Instance root_eq_dec : EqDecision root_t. Proof. solve_decision. Defined.
Global Instance snapshot_eq_dec : EqDecision snapshot_t. Proof. solve_decision. Defined.
Global Instance timestamp_eq_dec : EqDecision timestamp_t. Proof. solve_decision. Defined.
Global Instance targets_eq_dec : EqDecision targets_t. Proof. solve_decision. Defined.
