(** * Specification of saving and loading again (C09, C10, C15, C17, C19): well-formed values and what is kept of them *)
From stdpp Require Import base gmap strings list.
From Coq Require Import ZArith Ascii String.
From Verif Require Import GoBase GoStr Json GoTime Types Marshal SpecUtf8 SpecText SpecSerial.
Open Scope Z_scope.

(** a value as [encoding/json] holds it in a Go [any]: decoding it again does not change it; strings are UTF-8 text *)
Definition held_value (v : json) : Prop := norm v = Some v /\ nums_wf v /\ texts_ok v.
(** unrecognised fields: none of them can be taken for one of the known [names] (in any letter case) *)
Definition extra_ok (names : list string) (u : unrec) : Prop :=
  forall k v, mget u k = Some v -> utf8_text k /\ held_value v /\ forall n, n ∈ names -> fold_key n <> fold_key k.
Definition int_ok (z : Z) : Prop := in_int64 z = true.
Definition strs_ok (l : goslice string) : Prop := Forall utf8_text (slist l).
Definition hashes_ok (h : hashes) : Prop := forall k v, mget h k = Some v -> utf8_text k.
(** a map of pointers *)
Definition ptrs_ok {V} (P : V -> Prop) (m : gomap (option V)) : Prop :=
  forall k o, mget m k = Some o -> utf8_text k /\ forall x, o = Some x -> P x.
(** dates that RFC 3339 can express *)
Definition time_ok (t : gotime) : Prop :=
  0 <= t_year t <= 9999 /\ 1 <= t_mon t <= 12 /\ 1 <= t_day t <= days_in (t_mon t) (t_year t) /\ 0 <= t_hour t < 24 /\ 0 <= t_min t < 60 /\
  0 <= t_sec t < 60 /\ 0 <= t_ns t < 1000000000 /\ t_off t mod 60 = 0 /\ Z.abs (t_off t) < 86400.

(** ** Well-formed values *)
Definition keyval_wf (x : keyval) : Prop := utf8_text (kv_public x) /\ extra_ok ["public"] (kv_unrec x).
Definition key_wf (x : key) : Prop :=
  utf8_text (k_type x) /\ utf8_text (k_scheme x) /\ keyval_wf (k_val x) /\ extra_ok ["keytype"; "scheme"; "keyval"] (k_unrec x).
Definition signature_wf (x : signature) : Prop := utf8_text (sig_keyid x) /\ extra_ok ["keyid"; "sig"] (sig_unrec x).
Definition role_wf (x : role) : Prop := strs_ok (r_keyids x) /\ int_ok (r_threshold x) /\ extra_ok ["keyids"; "threshold"] (r_unrec x).
Definition metafile_wf (x : metafile) : Prop :=
  int_ok (mf_length x) /\ hashes_ok (mf_hashes x) /\ int_ok (mf_version x) /\ extra_ok ["length"; "hashes"; "version"] (mf_unrec x).
(** custom data: any JSON value other than null, without escape marks *)
Definition custom_ok (c : json) : Prop := c <> JNull /\ unesc c = c /\ numbers_ok c /\ nums_wf c /\ texts_ok c.
Definition targetfile_wf (x : targetfile) : Prop :=
  int_ok (tf_length x) /\ hashes_ok (tf_hashes x) /\ (forall c, tf_custom x = Some c -> custom_ok c) /\
  extra_ok ["length"; "hashes"; "custom"] (tf_unrec x).
Definition delegatedrole_wf (x : delegatedrole) : Prop :=
  utf8_text (dr_name x) /\ strs_ok (dr_keyids x) /\ int_ok (dr_threshold x) /\ strs_ok (dr_hash_prefixes x) /\ strs_ok (dr_paths x) /\
  (dr_hash_prefixes x = None \/ dr_paths x = None) /\
  extra_ok ["name"; "keyids"; "threshold"; "terminating"; "paths"; "path_hash_prefixes"] (dr_unrec x).
Definition succinct_wf (x : succinctroles) : Prop :=
  strs_ok (sr_keyids x) /\ int_ok (sr_threshold x) /\ int_ok (sr_bit_length x) /\ utf8_text (sr_name_prefix x) /\
  extra_ok ["keyids"; "threshold"; "bit_length"; "name_prefix"] (sr_unrec x).
Definition delegations_wf (x : delegations) : Prop :=
  ptrs_ok key_wf (d_keys x) /\ Forall delegatedrole_wf (slist (d_roles x)) /\ (forall s, d_roles x = None -> d_succinct x = Some s -> succinct_wf s) /\
  extra_ok ["keys"; "roles"; "succinct_roles"] (d_unrec x).
Definition root_wf (x : root_t) : Prop :=
  utf8_text (rt_type x) /\ utf8_text (rt_spec x) /\ int_ok (rt_version x) /\ time_ok (rt_expires x) /\ ptrs_ok key_wf (rt_keys x) /\
  ptrs_ok role_wf (rt_roles x) /\ extra_ok root_names (rt_unrec x).
Definition snapshot_wf (x : snapshot_t) : Prop :=
  utf8_text (sn_type x) /\ utf8_text (sn_spec x) /\ int_ok (sn_version x) /\ time_ok (sn_expires x) /\ ptrs_ok metafile_wf (sn_meta x) /\
  extra_ok meta_names (sn_unrec x).
Definition timestamp_wf (x : timestamp_t) : Prop :=
  utf8_text (ts_type x) /\ utf8_text (ts_spec x) /\ int_ok (ts_version x) /\ time_ok (ts_expires x) /\ ptrs_ok metafile_wf (ts_meta x) /\
  extra_ok meta_names (ts_unrec x).
Definition targets_wf (x : targets_t) : Prop :=
  utf8_text (tg_type x) /\ utf8_text (tg_spec x) /\ int_ok (tg_version x) /\ time_ok (tg_expires x) /\ ptrs_ok targetfile_wf (tg_targets x) /\
  (forall k, mget (tg_targets x) k <> Some None) /\ (forall d, tg_delegations x = Some d -> delegations_wf d) /\ extra_ok targets_names (tg_unrec x).

(** ** What is kept: everything but nil-ness of the unrecognised fields (a loaded value has an empty map instead of
    nil), the cached key ID, nil-ness of the hashes of a meta file, and the path of a target, which is its name.
    Succinct roles are dropped when there are listed roles too. *)
Definition kept_extra (u : unrec) : unrec := Some (mmap u).
Definition keyval_kept (x : keyval) : keyval := mkKeyVal (kv_public x) (kept_extra (kv_unrec x)).
Definition key_kept (x : key) : key := mkKey (k_type x) (k_scheme x) (keyval_kept (k_val x)) "" (kept_extra (k_unrec x)).
Definition signature_kept (x : signature) : signature := mkSignature (sig_keyid x) (sig_sig x) (kept_extra (sig_unrec x)).
Definition role_kept (x : role) : role := mkRole (r_keyids x) (r_threshold x) (kept_extra (r_unrec x)).
Definition metafile_kept (x : metafile) : metafile :=
  mkMetaFile (mf_length x) (if decide (mmap (mf_hashes x) = ∅) then None else mf_hashes x) (mf_version x) (kept_extra (mf_unrec x)).
Definition targetfile_kept (name : string) (x : targetfile) : targetfile :=
  mkTargetFile (tf_length x) (tf_hashes x) (tf_custom x) name (kept_extra (tf_unrec x)).
Definition delegatedrole_kept (x : delegatedrole) : delegatedrole :=
  mkDelegatedRole (dr_name x) (dr_keyids x) (dr_threshold x) (dr_terminating x) (dr_hash_prefixes x) (dr_paths x) (kept_extra (dr_unrec x)).
Definition succinct_kept (x : succinctroles) : succinctroles :=
  mkSuccinctRoles (sr_keyids x) (sr_threshold x) (sr_bit_length x) (sr_name_prefix x) (kept_extra (sr_unrec x)).
Definition map_kept {V} (f : V -> V) (m : gomap (option V)) : gomap (option V) := option_map (fmap (option_map f)) m.
Definition delegations_kept (x : delegations) : delegations :=
  mkDelegations (map_kept key_kept (d_keys x)) (option_map (map delegatedrole_kept) (d_roles x))
    (match d_roles x with Some _ => None | None => option_map succinct_kept (d_succinct x) end)
    (kept_extra (d_unrec x)).
Definition root_kept (x : root_t) : root_t :=
  mkRoot (rt_type x) (rt_spec x) (rt_consistent x) (rt_version x) (rt_expires x) (map_kept key_kept (rt_keys x)) (map_kept role_kept (rt_roles x))
    (kept_extra (rt_unrec x)).
Definition snapshot_kept (x : snapshot_t) : snapshot_t :=
  mkSnapshot (sn_type x) (sn_spec x) (sn_version x) (sn_expires x) (map_kept metafile_kept (sn_meta x)) (kept_extra (sn_unrec x)).
Definition timestamp_kept (x : timestamp_t) : timestamp_t :=
  mkTimestamp (ts_type x) (ts_spec x) (ts_version x) (ts_expires x) (map_kept metafile_kept (ts_meta x)) (kept_extra (ts_unrec x)).
Definition targets_kept (x : targets_t) : targets_t :=
  mkTargets (tg_type x) (tg_spec x) (tg_version x) (tg_expires x)
    (option_map (map_imap (fun n o => Some (option_map (targetfile_kept n) o))) (tg_targets x))
    (option_map delegations_kept (tg_delegations x)) (kept_extra (tg_unrec x)).

(** the same for the four role types *)
Class SignedSpec (T : Type) := { signed_wf : T -> Prop; signed_kept : T -> T }.
Global Instance root_spec : SignedSpec root_t := {| signed_wf := root_wf; signed_kept := root_kept |}.
Global Instance snapshot_spec : SignedSpec snapshot_t := {| signed_wf := snapshot_wf; signed_kept := snapshot_kept |}.
Global Instance timestamp_spec : SignedSpec timestamp_t := {| signed_wf := timestamp_wf; signed_kept := timestamp_kept |}.
Global Instance targets_spec : SignedSpec targets_t := {| signed_wf := targets_wf; signed_kept := targets_kept |}.
Definition metadata_wf {T} `{RoleTy T, SignedSpec T} (m : metadata T) : Prop :=
  signed_wf (md_signed m) /\ signed_type (md_signed m) = role_name /\ Forall signature_wf (slist (md_sigs m)) /\ unique_key_ids m /\
  extra_ok ["signed"; "signatures"] (md_unrec m).
Definition metadata_kept {T} `{SignedSpec T} (m : metadata T) : metadata T :=
  mkMetadata (signed_kept (md_signed m)) (option_map (map signature_kept) (md_sigs m)) (kept_extra (md_unrec m)).
(** the document does not nest deeper than [encoding/json] reads *)
Definition shallow {T} `{RoleTy T} (m : metadata T) : Prop := forall j, metadata_marshal m = Ok j -> jdepth j <= max_nesting_depth.

(** the four role types *)
Inductive tuf_role : forall T : Type, RoleTy T -> SignedSpec T -> Prop :=
  | is_root : tuf_role root_t _ _
  | is_snapshot : tuf_role snapshot_t _ _
  | is_timestamp : tuf_role timestamp_t _ _
  | is_targets : tuf_role targets_t _ _.

(** ** Content: custom data without the order of its members *)
Definition targetfile_canon (x : targetfile) : targetfile :=
  mkTargetFile (tf_length x) (tf_hashes x) (option_map canon (tf_custom x)) (tf_path x) (tf_unrec x).
Definition targets_canon (x : targets_t) : targets_t :=
  mkTargets (tg_type x) (tg_spec x) (tg_version x) (tg_expires x) (map_kept targetfile_canon (tg_targets x)) (tg_delegations x) (tg_unrec x).
