(** * C121: working offline from what an online refresh has cached *)
From stdpp Require Import base gmap strings list.
From Coq Require Import ZArith Lia String.
From Verif Require Import GoBase GoStr Json GoTime Types Marshal Keys Metadata TrustedMetadata Fetcher Updater SpecBasic SpecTrusted SpecUpdater SpecOffline.
From Verif Require Import OfflineProofs Toy Examples ExamplesUpdater ExamplesHonest.
Open Scope Z_scope.

(** A new updater has refreshed from some network, with the cache switched on.  Then the metadata directory holds the very
    documents it trusts.  The same client started later in local mode, while these files are there, with the same initial
    root or with the cached one, uses the network for nothing (C64), and its refresh succeeds exactly if that root's keys
    have signed the three documents, nothing is expired at that time, and the snapshot file matches what the timestamp
    says about it.  It then holds the same documents. *)
Theorem C121_offline {CR : Crypto} E c now i i1 t w : c_disable_cache c = false -> c_unsafe_local c = false ->
  updater_new E c now i = (i1, Ok t) -> refresh E c (mkWorld t i1) = (w, Ok tt) ->
  exists drt dts dsn dtg ts sn tg, io_disk (w_io w) !! cache_name c "root" = Some drt /\ cache_holds c (io_disk (w_io w)) dts dsn dtg /\
    document drt (t_root (w_trusted w)) /\ document dts ts /\ document dsn sn /\ document dtg tg /\ trusts_these (w_trusted w) ts sn tg /\ root_vouches (t_root (w_trusted w)) ts sn tg /\
    (io_disk i !! cache_name c "snapshot" = Some dsn \/ exists f, names_snapshot ts f /\ matches_file f dsn) /\
    forall E' c' now' i' root r, goes_offline c c' root -> (root = c_trusted_root c /\ r = t_root t \/ root = drt /\ r = t_root (w_trusted w)) ->
      cache_holds c (io_disk i') dts dsn dtg -> disk_works E' c' (io_disk i') ->
      exists i2 t2 w2 o, updater_new E' c' now' i' = (i2, Ok t2) /\ refresh E' c' (mkWorld t2 i2) = (w2, o) /\
        (o = Ok tt <-> root_vouches r ts sn tg /\ all_fresh now' r ts sn tg /\ exists fs, names_snapshot ts fs /\ matches_file fs dsn) /\
        (o = Ok tt -> t_root (w_trusted w2) = r /\ trusts_these (w_trusted w2) ts sn tg).
Proof. apply offline_exact. Qed.
Print Assumptions C121_offline.

(** In particular: a client that started without a cached snapshot can go offline until something expires, if it starts
    from the cached root. *)
Theorem C121_cached_root {CR : Crypto} E c now i i1 t w : c_disable_cache c = false -> c_unsafe_local c = false ->
  updater_new E c now i = (i1, Ok t) -> refresh E c (mkWorld t i1) = (w, Ok tt) -> io_disk i !! cache_name c "snapshot" = None ->
  exists root ts sn tg, io_disk (w_io w) !! cache_name c "root" = Some root /\ trusts_these (w_trusted w) ts sn tg /\
    forall E' c' now' i', goes_offline c c' root -> io_disk i' = io_disk (w_io w) -> disk_works E' c' (io_disk i') -> all_fresh now' (t_root (w_trusted w)) ts sn tg ->
      exists i2 t2 w2, updater_new E' c' now' i' = (i2, Ok t2) /\ refresh E' c' (mkWorld t2 i2) = (w2, Ok tt) /\
        t_root (w_trusted w2) = t_root (w_trusted w) /\ trusts_these (w_trusted w2) ts sn tg.
Proof.
  intros Hc Hu Hn Hr Hno. destruct (offline_exact E c now i i1 t w Hc Hu Hn Hr) as (drt & dts & dsn & dtg & ts & sn & tg & Hrt & HC & _ & _ & _ & _ & HH & HV & Hm & Hoff).
  exists drt, ts, sn, tg. split; [done|]. split; [done|]. intros E' c' now' i' Hg Hd Hw Hfresh. destruct (Hoff E' c' now' i' drt (t_root (w_trusted w))) as (i2 & t2 & w2 & o & H1 & H2 & H3 & H4); [done|by right|by rewrite Hd|done|].
  assert (o = Ok tt) as ->. { apply H3. split; [done|]. split; [done|]. destruct Hm as [Hm|Hm]; [congruence|done]. }
  exists i2, t2, w2. split; [done|]. split; [done|]. by apply H4.
Qed.
Print Assumptions C121_cached_root.
(** The same holds for the initial root if it was not replaced. *)
Theorem C121_same_root {CR : Crypto} E c now i i1 t w : c_disable_cache c = false -> c_unsafe_local c = false ->
  updater_new E c now i = (i1, Ok t) -> refresh E c (mkWorld t i1) = (w, Ok tt) ->
  io_disk i !! cache_name c "snapshot" = None -> t_root (w_trusted w) = t_root t ->
  exists ts sn tg, trusts_these (w_trusted w) ts sn tg /\
    forall E' c' now' i', goes_offline c c' (c_trusted_root c) -> io_disk i' = io_disk (w_io w) -> disk_works E' c' (io_disk i') -> all_fresh now' (t_root t) ts sn tg ->
      exists i2 t2 w2, updater_new E' c' now' i' = (i2, Ok t2) /\ refresh E' c' (mkWorld t2 i2) = (w2, Ok tt) /\
        t_root (w_trusted w2) = t_root (w_trusted w) /\ trusts_these (w_trusted w2) ts sn tg.
Proof.
  intros Hc Hu Hn Hr Hno Hroot. destruct (offline_exact E c now i i1 t w Hc Hu Hn Hr) as (drt & dts & dsn & dtg & ts & sn & tg & _ & HC & _ & _ & _ & _ & HH & HV & Hm & Hoff).
  exists ts, sn, tg. split; [done|]. intros E' c' now' i' Hg Hd Hw Hfresh. destruct (Hoff E' c' now' i' (c_trusted_root c) (t_root t)) as (i2 & t2 & w2 & o & H1 & H2 & H3 & H4); [done|by left|by rewrite Hd|done|].
  assert (o = Ok tt) as ->. { apply H3. rewrite <- Hroot at 1. split; [done|]. split; [done|]. destruct Hm as [Hm|Hm]; [congruence|done]. }
  exists i2, t2, w2. rewrite Hroot. split; [done|]. split; [done|]. by apply H4.
Qed.
Print Assumptions C121_same_root.

(** ** Concrete runs *)
(** an online run from [i], then an offline run on what it leaves, with the trusted sets and errors *)
Definition run {CR : Crypto} (E : env) (c : config) (i : ios) : option (trusted * world * outcome unit) :=
  match updater_new E c ex_now i with (i1, Ok t) => let '(w, o) := refresh E c (mkWorld t i1) in Some (t, w, o) | _ => None end.
Definition c121_offline : config := ex_config_with (bytes_of (ex_root 1)) false true.
Lemma goes_with root : goes_offline (ex_config_with root false false) (ex_config_with root false true) root.
Proof. do 5 (split; [reflexivity|]). reflexivity. Qed.
Lemma c121_goes : goes_offline ex_config c121_offline (c_trusted_root ex_config).
Proof. exact (goes_with _). Qed.
Lemma no_temp (d : disk) : forallb (fun k => String.prefix "/m/" k) (map fst (map_to_list d)) = true -> forall n, d !! ("/w/tuf_tmp" +:+ fmt_dec n) = None.
Proof.
  intros H n. destruct (d !! _) as [x|] eqn:Hx; [|done]. exfalso. apply elem_of_map_to_list in Hx. rewrite forallb_forall in H. specialize (H ("/w/tuf_tmp" +:+ fmt_dec n)). discriminate H.
  apply elem_of_list_In, elem_of_list_fmap. by eexists (_, _).
Qed.
(** a run that ends well, and how the offline run ends *)
Lemma runs_from E i c' k : match run E ex_config i with
    | Some (t, w, Ok _) => match run E c' (mkIos (io_disk (w_io w)) []) with
        | Some (_, w2, o) => (Z.eqb (rt_version (md_signed (t_root (w_trusted w)))) (rt_version (md_signed (t_root t))), forallb (fun k => String.prefix "/m/" k) (map fst (map_to_list (io_disk (w_io w)))), o, loaded_roles (w_trusted w2)) = k
        | None => False end
    | _ => False end ->
  exists i1 t w i2 t2 w2 o, updater_new E ex_config ex_now i = (i1, Ok t) /\ refresh E ex_config (mkWorld t i1) = (w, Ok tt) /\
    updater_new E c' ex_now (mkIos (io_disk (w_io w)) []) = (i2, Ok t2) /\ refresh E c' (mkWorld t2 i2) = (w2, o) /\
    (Z.eqb (rt_version (md_signed (t_root (w_trusted w)))) (rt_version (md_signed (t_root t))), forallb (fun k => String.prefix "/m/" k) (map fst (map_to_list (io_disk (w_io w)))), o, loaded_roles (w_trusted w2)) = k.
Proof.
  unfold run. intros H. destruct (updater_new E ex_config ex_now i) as [i1 [t|e|]] eqn:H1; [|destruct H..]. destruct (refresh E ex_config (mkWorld t i1)) as [w o] eqn:H2. destruct o as [[]|e|]; [|destruct H..].
  destruct (updater_new E c' ex_now (mkIos (io_disk (w_io w)) [])) as [i2 [t2|e|]] eqn:H3; [|destruct H..]. destruct (refresh E c' (mkWorld t2 i2)) as [w2 o2] eqn:H4.
  exists i1, t, w, i2, t2, w2, o2. split; [reflexivity|]. split; [exact H2|]. split; [exact H3|]. split; [exact H4|]. exact H.
Qed.
(** the root is not replaced, and the client goes offline *)
Definition c121_files : list (string * string) := tail ex_files.
Example C121_case : exists i1 t w i2 t2 w2, updater_new (ex_env c121_files) ex_config ex_now no_files = (i1, Ok t) /\ refresh (ex_env c121_files) ex_config (mkWorld t i1) = (w, Ok tt) /\
  io_disk no_files !! cache_name ex_config "snapshot" = None /\ goes_offline ex_config c121_offline (c_trusted_root ex_config) /\ disk_works (ex_env c121_files) c121_offline (io_disk (w_io w)) /\
  updater_new (ex_env c121_files) c121_offline ex_now (mkIos (io_disk (w_io w)) []) = (i2, Ok t2) /\ refresh (ex_env c121_files) c121_offline (mkWorld t2 i2) = (w2, Ok tt) /\ loaded_roles (w_trusted w2) = (1, Some 9, Some 7, [("targets", 5)]).
Proof.
  destruct (runs_from (ex_env c121_files) no_files c121_offline (true, true, Ok tt, (1, Some 9, Some 7, [("targets", 5)]))) as (i1 & t & w & i2 & t2 & w2 & o & H1 & H2 & H3 & H4 & H); [vm_compute; reflexivity|].
  pose proof (f_equal (fun k => snd (fst (fst k))) H) as Hd. pose proof (f_equal (fun k => snd (fst k)) H) as Ho. pose proof (f_equal snd H) as Hl. cbn [fst snd] in Hd, Ho, Hl.
  exists i1, t, w, i2, t2, w2. split; [exact H1|]. split; [exact H2|]. split; [apply (lookup_empty (M := gmap string))|]. split; [exact c121_goes|]. split; [exact (ex_disk_works _ _ _ _ (no_temp _ Hd))|]. split; [exact H3|]. rewrite <- Ho. split; [exact H4|exact Hl].
Qed.

(** ** Refuted: a refreshed client can go offline *)
(** after a rotation of the timestamp key: the updater starts from the root it is given, and local mode does not load the
    newer root that the refresh has cached *)
Definition c121_root2 : metadata root_t := sign_all [pkA; pkB] (unsigned (mkRoot ROOT SPECIFICATION_VERSION true 2 t2030 ex_keys
  (Some (<[ROOT := ex_role [idA; idB] 2]> (<[TIMESTAMP := ex_role [idC] 1]> (<[SNAPSHOT := ex_role [idC] 1]> (<[TARGETS := ex_role [idA] 1]> ∅))))) None)).
Definition c121_timestamp2 : metadata timestamp_t := sign_all [pkC] (unsigned (mkTimestamp TIMESTAMP SPECIFICATION_VERSION 9 t2030 (Some (<["snapshot.json" := ex_meta 7 (bytes_of ex_snapshot)]> ∅)) None)).
Definition c121_rotated : env := ex_env [("https://r/2.root.json", bytes_of c121_root2); ("https://r/timestamp.json", bytes_of c121_timestamp2); ("https://r/7.snapshot.json", bytes_of ex_snapshot); ("https://r/5.targets.json", bytes_of ex_targets)].
Definition refused (o : outcome unit) : Prop := exists e, o = Err e.
Theorem C121_rotated_refuted : exists (CR : Crypto) E c c' now i i1 t w i2 t2 w2 o, c_disable_cache c = false /\ c_unsafe_local c = false /\
  updater_new E c now i = (i1, Ok t) /\ refresh E c (mkWorld t i1) = (w, Ok tt) /\ io_disk i = ∅ /\ goes_offline c c' (c_trusted_root c) /\
  updater_new E c' now (mkIos (io_disk (w_io w)) []) = (i2, Ok t2) /\ refresh E c' (mkWorld t2 i2) = (w2, o) /\ refused o.
Proof.
  destruct (runs_from c121_rotated no_files c121_offline (false, true, Err (ErrUnsignedMetadata "not enough signatures"), (1, None, None, []))) as (i1 & t & w & i2 & t2 & w2 & o & H1 & H2 & H3 & H4 & H); [vm_compute; reflexivity|].
  pose proof (f_equal (fun k => snd (fst k)) H) as Ho. cbn [fst snd] in Ho.
  exists toy_crypto, c121_rotated, ex_config, c121_offline, ex_now, no_files, i1, t, w, i2, t2, w2, o. split; [reflexivity|]. split; [reflexivity|]. split; [exact H1|]. split; [exact H2|]. split; [reflexivity|]. split; [exact c121_goes|].
  split; [exact H3|]. split; [exact H4|]. eexists. exact Ho.
Qed.
Print Assumptions C121_rotated_refuted.
(** with the cached root it can *)
Definition c121_cached : config := ex_config_with (bytes_of c121_root2) false true.
Example C121_cached_case : exists i1 t w i2 t2 w2 o, updater_new c121_rotated ex_config ex_now no_files = (i1, Ok t) /\ refresh c121_rotated ex_config (mkWorld t i1) = (w, Ok tt) /\
  updater_new c121_rotated c121_cached ex_now (mkIos (io_disk (w_io w)) []) = (i2, Ok t2) /\ refresh c121_rotated c121_cached (mkWorld t2 i2) = (w2, o) /\
  (Z.eqb (rt_version (md_signed (t_root (w_trusted w)))) (rt_version (md_signed (t_root t))), forallb (fun k => String.prefix "/m/" k) (map fst (map_to_list (io_disk (w_io w)))), o, loaded_roles (w_trusted w2)) = (false, true, Ok tt, (2, Some 9, Some 7, [("targets", 5)])).
Proof. apply runs_from. vm_compute. reflexivity. Qed.
(** with a cached snapshot of the right version in another encoding: the online refresh takes it without comparing it with
    the timestamp's hash (C57), the offline refresh does not *)
Definition c121_cache : ios := files_of [("/m/snapshot.json", bytes_of ex_snapshot +:+ " ")].
Theorem C121_hash_refuted : exists (CR : Crypto) E c c' now i i1 t w i2 t2 w2 o, c_disable_cache c = false /\ c_unsafe_local c = false /\
  updater_new E c now i = (i1, Ok t) /\ refresh E c (mkWorld t i1) = (w, Ok tt) /\ rt_version (md_signed (t_root (w_trusted w))) = rt_version (md_signed (t_root t)) /\ goes_offline c c' (c_trusted_root c) /\
  updater_new E c' now (mkIos (io_disk (w_io w)) []) = (i2, Ok t2) /\ refresh E c' (mkWorld t2 i2) = (w2, o) /\ refused o.
Proof.
  destruct (runs_from (ex_env c121_files) c121_cache c121_offline (true, true, Err (ErrLengthOrHashMismatch "hash verification failed - mismatch for algorithm"), (1, Some 9, None, []))) as (i1 & t & w & i2 & t2 & w2 & o & H1 & H2 & H3 & H4 & H); [vm_compute; reflexivity|].
  pose proof (f_equal (fun k => snd (fst k)) H) as Ho. pose proof (f_equal (fun k => fst (fst (fst k))) H) as Hv. cbn [fst snd] in Ho, Hv.
  exists toy_crypto, (ex_env c121_files), ex_config, c121_offline, ex_now, c121_cache, i1, t, w, i2, t2, w2, o. split; [reflexivity|]. split; [reflexivity|]. split; [exact H1|]. split; [exact H2|]. split; [by apply Z.eqb_eq|]. split; [exact c121_goes|].
  split; [exact H3|]. split; [exact H4|]. eexists. exact Ho.
Qed.
Print Assumptions C121_hash_refuted.
