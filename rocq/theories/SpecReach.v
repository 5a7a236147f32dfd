(** * Specification of a complete repository (C103): its delegated roles and its target files are published, too *)
From stdpp Require Import base gmap strings list.
From Coq Require Import ZArith String.
From Verif Require Import GoBase GoStr GoTime Types Marshal Keys Metadata TrustedMetadata Fetcher Updater SpecBasic SpecSig SpecDeleg SpecTrusted SpecUpdater.
Open Scope Z_scope.

Section SpecReach.
Context {CR : Crypto} (E : env) (c : config).

(** a published targets role: its file, the content of the file, and what the snapshot says about it *)
Record role_file := mkRoleFile { rf_data : string; rf_md : metadata targets_t; rf_info : metafile }.
(** all targets roles: the top-level one and the delegated ones [D], by name *)
Definition all_roles (P : publication) (D : gmap string role_file) : gmap string role_file :=
  <["targets" := mkRoleFile (pub_targets P) (pub_targets_md P) (pub_targets_info P)]> D.
(** delegated roles have names of letters, digits, "-", "_", "." and "~", and none of the names of the top-level roles *)
Definition role_name_ok (name : string) : Prop :=
  string_all url_unreserved name = true /\ name ∉ [""; "."; ".."; "root"; "timestamp"; "snapshot"; "targets"].
(** unexpired, listed in the snapshot with a description that fits, on the server and within the size that clients allow *)
Definition role_served (r : metadata root_t) (P : publication) (now : Z) (name : string) (f : role_file) : Prop :=
  document (rf_data f) (rf_md f) /\ ~ expired_at (rf_md f) now /\
  lists_file (pub_snapshot_md P) (String.append name ".json") (rf_info f) /\ matches_file (rf_info f) (rf_data f) /\ tg_version (md_signed (rf_md f)) = mf_version (rf_info f) /\
  (mf_length (rf_info f) = 0 -> Z.of_nat (String.length (rf_data f)) <= c_targets_max c) /\
  serves E (url_of c name (version_in_url r (mf_version (rf_info f)))) (rf_data f).
(** the delegations for [path] can be evaluated, and lead to published roles, signed with the keys listed for them *)
Definition delegations_follow (roles : gmap string role_file) (path : string) : Prop :=
  forall name f, roles !! name = Some f ->
    (forall d, tg_delegations (md_signed (rf_md f)) = Some d -> exists l, roles_for_target d path = Ok l) /\
    forall n term, delegated (rf_md f) path n term -> n <> "targets" -> exists f', roles !! n = Some f' /\ targets_signs (rf_md f) n (rf_md f').
Definition honest_roles (r : metadata root_t) (P : publication) (now : Z) (D : gmap string role_file) (path : string) : Prop :=
  (forall name f, D !! name = Some f -> role_name_ok name /\ role_served r P now name f) /\ delegations_follow (all_roles P D) path.
(** a cached file of a delegated role: not fitting the description in the snapshot; or of the right type with a signable
    content, and if properly signed then as published, or of another version or expired *)
Definition cached_role (P : publication) (now : Z) (D : gmap string role_file) (name : string) (f : role_file) (data : string) : Prop :=
  matches_file (rf_info f) data -> exists m, document data m /\ (exists p, signing_payload (md_signed m) = Ok p) /\
    forall n fn, all_roles P D !! n = Some fn -> targets_signs (rf_md fn) name m -> m = rf_md f \/ tg_version (md_signed m) <> mf_version (rf_info f) \/ expired_at m now.
(** everything that is published, as one set *)
Definition everything (r : metadata root_t) (P : publication) (D : gmap string role_file) (now : Z) : trusted :=
  mkTrusted r (Some (pub_snapshot_md P)) (Some (pub_timestamp_md P)) (rf_md <$> all_roles P D) now.

(** GetTargetInfo has been called for these paths, one after the other, whatever it returned *)
Inductive asked : list string -> world -> world -> Prop :=
  | asked_nil w : asked [] w w
  | asked_one path paths w w1 w2 o : get_target_info E c path w = (w1, o) -> asked paths w1 w2 -> asked (path :: paths) w w2.

(** ** Target files *)
(** dir/base is published as dir/<hash>.base *)
Definition hash_named (path h name : string) : Prop :=
  (no_slash path /\ name = h +:+ "." +:+ path) \/
  exists dir base, path = dir +:+ "/" +:+ base /\ no_slash base /\ name = dir +:+ "/" +:+ h +:+ "." +:+ base.
Definition with_slash (u : string) : string := if has_suffix "/" u then u else u +:+ "/".
(** [data] is what [tf] describes, and is on the server: under its path, or with each of its hashes in the name if the
    client asks for it that way *)
Definition target_served (r : metadata root_t) (tf : targetfile) (data : string) : Prop :=
  matches_target tf data /\
  (rt_consistent (md_signed r) = false \/ c_prefix_hash c = false -> serves E (with_slash (c_targets_url c) +:+ tf_path tf) data) /\
  (rt_consistent (md_signed r) = true -> c_prefix_hash c = true ->
     forall alg dig name, lists (tf_hashes tf) alg dig -> hash_named (tf_path tf) (hex_encode dig) name -> serves E (with_slash (c_targets_url c) +:+ name) data).
End SpecReach.
