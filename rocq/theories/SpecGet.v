(** * Specification: what the example client gets from a publishing repository (C123) *)
From stdpp Require Import base gmap strings list.
From Coq Require Import ZArith String.
From Verif Require Import GoBase GoStr Types Keys Metadata TrustedMetadata Fetcher Updater Cli SpecBasic SpecSig SpecDeleg SpecTrusted SpecUpdater SpecHistory SpecReach SpecLive SpecCli.
Open Scope Z_scope.

(** The settings of get: the two directories in the working directory; metadata from --url; target files from --turl, by
    default from --url too; hashes in the names of target files unless --nonprefixed; the library's default limits. *)
Definition get_settings (f : get_flags) (cwd root : string) (c : config) : Prop :=
  c_trusted_root c = root /\ c_metadata_dir c = metadata_dir cwd /\ c_targets_dir c = download_dir cwd /\
  c_metadata_url c = g_url f /\ (g_turl f = "" -> c_targets_url c = g_url f) /\ (g_turl f <> "" -> c_targets_url c = g_turl f) /\
  (c_prefix_hash c = true <-> g_nonprefixed f = false) /\ c_disable_cache c = false /\ c_unsafe_local c = false /\
  c_max_root_rotations c = 32 /\ c_max_delegations c = 32 /\
  c_root_max c = 512000 /\ c_timestamp_max c = 16384 /\ c_snapshot_max c = 2000000 /\ c_targets_max c = 5000000.

Section SpecGet.
Context {CR : Crypto}.
(** release [R] has the target [path], described by [tf], with the content [data]: some role that delegations for [path]
    lead to lists it, no such role lists something else, none of these delegations is terminating, there are at most 33
    roles (clients do not look at more), and the file is one of the release's *)
Definition offers (r : metadata root_t) (now : Z) (R : release) (path : string) (tf : targetfile) (data : string) : Prop :=
  delegations_follow (all_roles (rel_pub R) (rel_roles R)) path /\
  (forall n g k, all_roles (rel_pub R) (rel_roles R) !! n = Some g -> ~ delegated (rf_md g) path k true) /\
  (size (all_roles (rel_pub R) (rel_roles R)) <= 33)%nat /\
  (exists x f, leads (everything r (rel_pub R) (rel_roles R) now) path "targets" x /\ all_roles (rel_pub R) (rel_roles R) !! x = Some f /\ entry (rf_md f) path (Some tf)) /\
  (forall x f o, leads (everything r (rel_pub R) (rel_roles R) now) path "targets" x -> all_roles (rel_pub R) (rel_roles R) !! x = Some f -> entry (rf_md f) path o -> o = Some tf) /\
  (tf, data) ∈ rel_files R.
End SpecGet.
