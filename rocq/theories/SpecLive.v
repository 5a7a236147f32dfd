(** * A repository that publishes while clients are at work *)
From stdpp Require Import base gmap strings list.
From Coq Require Import ZArith Ascii String.
From Verif Require Import GoBase GoStr GoTime Types Marshal Keys Metadata TrustedMetadata Fetcher Updater SpecBasic SpecSig SpecDeleg SpecTrusted SpecUpdater SpecReach.
Open Scope Z_scope.

(** one version of everything: top-level metadata, delegated roles, and target files *)
Record release := mkRelease { rel_pub : publication; rel_roles : gmap string role_file; rel_files : list (targetfile * string) }.
(** [tr'] is [tr] or a later moment of the same run *)
Definition later (tr tr' : trace) : Prop := exists evs, tr' = app tr evs.

Section SpecLive.
Context {CR : Crypto} (E : env) (c : config).
(** from the moment [tr] on, the server answers requests for [url] with [data] unless the client allows less *)
Definition serves_from (tr : trace) (url data : string) : Prop :=
  forall tr' len, later tr tr' -> Z.of_nat (String.length data) <= len -> e_net E tr' url len = Ok data.
(** the file that [tf] describes: under its path, or with each of its hashes in the name if the repository has consistent
    snapshots and the client asks for such names *)
Definition target_served_from (tr : trace) (r : metadata root_t) (tf : targetfile) (data : string) : Prop :=
  (rt_consistent (md_signed r) = false \/ c_prefix_hash c = false -> serves_from tr (with_slash (c_targets_url c) +:+ tf_path tf) data) /\
  (rt_consistent (md_signed r) = true -> c_prefix_hash c = true ->
     forall alg dig name, lists (tf_hashes tf) alg dig -> hash_named (tf_path tf) (hex_encode dig) name -> serves_from tr (with_slash (c_targets_url c) +:+ name) data).
(** everything that the timestamp of the release leads to is on the server from [tr] on, under the names clients ask for *)
Definition stays_up (r : metadata root_t) (R : release) (tr : trace) : Prop :=
  serves_from tr (url_of c "snapshot" (version_in_url r (mf_version (pub_snapshot_info (rel_pub R))))) (pub_snapshot (rel_pub R)) /\
  serves_from tr (url_of c "targets" (version_in_url r (mf_version (pub_targets_info (rel_pub R))))) (pub_targets (rel_pub R)) /\
  (forall name f, rel_roles R !! name = Some f -> serves_from tr (url_of c name (version_in_url r (mf_version (rf_info f)))) (rf_data f)) /\
  (forall tf data, (tf, data) ∈ rel_files R -> target_served_from tr r tf data).
(** delegated metadata of a release: unexpired, listed in its snapshot with a description that fits, of a size that
    clients allow, and with a content that can be signed *)
Definition role_published (P : publication) (now : Z) (name : string) (f : role_file) : Prop :=
  role_name_ok name /\ document (rf_data f) (rf_md f) /\ ~ expired_at (rf_md f) now /\
  lists_file (pub_snapshot_md P) (String.append name ".json") (rf_info f) /\ matches_file (rf_info f) (rf_data f) /\ tg_version (md_signed (rf_md f)) = mf_version (rf_info f) /\
  (mf_length (rf_info f) = 0 -> Z.of_nat (String.length (rf_data f)) <= c_targets_max c) /\ exists p, signing_payload (md_signed (rf_md f)) = Ok p.
(** a target file of a release: it is as described, and not in nested directories if hashes go into the names (C103) *)
Definition file_published (r : metadata root_t) (tf : targetfile) (data : string) : Prop :=
  matches_target tf data /\ (exists alg dig, lists (tf_hashes tf) alg dig) /\
  (rt_consistent (md_signed r) = true -> c_prefix_hash c = true -> no_slash (tf_path tf) \/ exists d n, no_slash d /\ no_slash n /\ tf_path tf = d +:+ "/" +:+ n).
(** a release is correctly signed, unexpired and consistent for clients that trust root [r0] *)
Definition sound_release (r0 r : metadata root_t) (now : Z) (R : release) : Prop :=
  honest r0 r now (rel_pub R) /\ can_follow c r0 (rel_pub R) /\
  Z.of_nat (String.length (pub_timestamp (rel_pub R))) <= c_timestamp_max c /\
  (mf_length (pub_snapshot_info (rel_pub R)) = 0 -> Z.of_nat (String.length (pub_snapshot (rel_pub R))) <= c_snapshot_max c) /\
  (mf_length (pub_targets_info (rel_pub R)) = 0 -> Z.of_nat (String.length (pub_targets (rel_pub R))) <= c_targets_max c) /\
  (forall name f, rel_roles R !! name = Some f -> role_published (rel_pub R) now name f) /\
  (forall tf data, (tf, data) ∈ rel_files R -> file_published r tf data).
(** at the moment [tr], a client that asks for the timestamp gets that of release [R] *)
Definition announces (tr : trace) (R : release) : Prop :=
  forall len, Z.of_nat (String.length (pub_timestamp (rel_pub R))) <= len -> e_net E tr (url_of c "timestamp" "") len = Ok (pub_timestamp (rel_pub R)).
(** the root metadata, up to [r], is on the server from [start] on *)
Definition roots_up (start : trace) (r0 r : metadata root_t) (R : release) : Prop :=
  (forall i data r1, pub_roots (rel_pub R) !! i = Some (data, r1) ->
     Z.of_nat (String.length data) <= c_root_max c /\ serves_from start (url_of c "root" (fmt_dec (rt_version (md_signed r0) + 1 + Z.of_nat i))) data) /\
  (forall tr len, later start tr -> exists e, e_net E tr (url_of c "root" (fmt_dec (rt_version (md_signed r) + 1))) len = Err e /\ not_found e).
(** From [start] on, the repository goes through any number of releases, with the same root metadata.  Whenever a client
    asks for the timestamp it gets that of one of them, and all files of that release are on the server by then and stay there. *)
Definition publishing (start : trace) (r0 r : metadata root_t) (now : Z) (Rs : list release) : Prop :=
  (forall R, R ∈ Rs -> roots_up start r0 r R) /\
  (forall tr, later start tr -> exists R, R ∈ Rs /\ sound_release r0 r now R /\ stays_up r R tr /\ announces tr R).
(** the client and its cache: nothing cached is newer than, or from another history than, any of the releases *)
Definition client_ready (r0 r : metadata root_t) (now : Z) (Rs : list release) (i : ios) : Prop :=
  document (c_trusted_root c) r0 /\ root_signs r0 "root" r0 /\ c_metadata_url c <> "" /\ c_trusted_root c <> "" /\ disk_works E c (io_disk i) /\
  forall R, R ∈ Rs ->
    (forall data, io_disk i !! cache_name c "timestamp" = Some data -> cached_timestamp r (rel_pub R) data) /\
    (forall data, io_disk i !! cache_name c "snapshot" = Some data -> cached_snapshot r now (rel_pub R) data) /\
    (forall data, io_disk i !! cache_name c "targets" = Some data -> cached_targets r now (rel_pub R) data) /\
    (forall name f data, rel_roles R !! name = Some f -> io_disk i !! cache_name c name = Some data -> cached_role (rel_pub R) now (rel_roles R) name f data).

(** ** What a client does after Refresh *)
(** any number of searches, for paths whose delegations lead to properly signed roles of the release, and of downloads
    of its files, to places that hold neither cached metadata nor temporary files *)
Definition own_place (p : string) : Prop :=
  (forall role, p <> cache_name c role) /\ forall cwd n, e_cwd E = Some cwd -> p <> cwd +:+ "/tuf_tmp" +:+ fmt_dec n.
Inductive used (R : release) : world -> world -> Prop :=
  | used_not w : used R w w
  | used_search path w w1 w2 o : delegations_follow (all_roles (rel_pub R) (rel_roles R)) path -> get_target_info E c path w = (w1, o) -> used R w1 w2 -> used R w w2
  | used_download tf data fp p w w1 w2 o : (tf, data) ∈ rel_files R -> file_for E c tf fp p -> own_place p -> download_target E c tf fp "" w = (w1, o) -> used R w1 w2 -> used R w w2.

(** ** A client that is used again and again *)
(** a later release: a higher timestamp version; no file goes back or disappears from the snapshot; what changes is
    listed with another version *)
Definition newer (R R' : release) : Prop :=
  ts_version (md_signed (pub_timestamp_md (rel_pub R))) < ts_version (md_signed (pub_timestamp_md (rel_pub R'))) /\
  mf_version (pub_snapshot_info (rel_pub R)) <= mf_version (pub_snapshot_info (rel_pub R')) /\
  no_rollback (pub_snapshot_md (rel_pub R)) (pub_snapshot_md (rel_pub R')) /\
  (sn_version (md_signed (pub_snapshot_md (rel_pub R))) = mf_version (pub_snapshot_info (rel_pub R')) -> pub_snapshot_md (rel_pub R) = pub_snapshot_md (rel_pub R')) /\
  (tg_version (md_signed (pub_targets_md (rel_pub R))) = mf_version (pub_targets_info (rel_pub R')) -> pub_targets_md (rel_pub R) = pub_targets_md (rel_pub R')) /\
  (forall name f f', rel_roles R !! name = Some f -> rel_roles R' !! name = Some f' -> tg_version (md_signed (rf_md f)) = mf_version (rf_info f') -> rf_md f = rf_md f').
(** The releases [Rs] are published one after the other: at the moment [tr] number [n tr] is current, and unexpired by
    the clock that the client reads. *)
Definition timeline (r0 r : metadata root_t) (clock : trace -> Z) (Rs : list release) (n : trace -> nat) : Prop :=
  (forall i j R R', (i < j)%nat -> Rs !! i = Some R -> Rs !! j = Some R' -> newer R R') /\
  (forall R, R ∈ Rs -> roots_up [] r0 r R /\ forall name f, rel_roles R !! name = Some f -> role_name_ok name) /\
  (forall tr tr', later tr tr' -> (n tr <= n tr')%nat /\ clock tr <= clock tr') /\
  (forall tr, exists R, Rs !! n tr = Some R /\ sound_release r0 r (clock tr) R /\ stays_up r R tr /\ announces tr R).
(** the client is started again and again, and each time refreshes and is used: [ks] are the numbers of the releases it
    saw, the latest last *)
Inductive life (r : metadata root_t) (clock : trace -> Z) (Rs : list release) (i : ios) : list nat -> ios -> Prop :=
  | life_begins : life r clock Rs i [] i
  | life_again ks i0 i1 t w1 w2 k R : life r clock Rs i ks i0 -> updater_new E c (clock (io_trace i0)) i0 = (i1, Ok t) -> refresh E c (mkWorld t i1) = (w1, Ok tt) ->
      Rs !! k = Some R -> up_to_date r (rel_pub R) (w_trusted w1) -> used R w1 w2 -> life r clock Rs i (app ks [k]) (w_io w2).
End SpecLive.
