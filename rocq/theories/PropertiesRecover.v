(** * Properties C92-C94: crashes, the reference time, recovery from a compromised online key *)
From stdpp Require Import base gmap strings list.
From Coq Require Import ZArith Lia Ascii String.
From Verif Require Import GoBase GoStr Json GoTime Types Marshal Keys Metadata TrustedMetadata Fetcher Updater SpecSig SpecBasic SpecTrusted SpecUpdater SpecResilience SpecPanic
  BasicProofs TrustedProofs UpdaterProofs WalkProofs ApiProofs ClaimProofs FedProofs ResilienceProofs PanicProofs HonestProofs Toy Examples ExamplesUpdater ExamplesHonest ExamplesShown.
Open Scope Z_scope.

(** ** C92 *)
Theorem C92_new {CR : Crypto} E c now i i' : tame_root (c_trusted_root c) -> updater_new E c now i <> (i', Panic).
Proof. exact (new_np E c now i i'). Qed.
Print Assumptions C92_new.
(** a call panics only if the trusted snapshot does not list a role the client needs: the top-level targets role, or, when a
    target is looked up, one to which a loaded role delegates its path *)
Theorem C92_calls {CR : Crypto} E c now w a w' : calm E -> tame_root (c_trusted_root c) -> shown_session tame E c now w ->
  (forall data, received (io_trace (w_io w')) data -> tame data) -> call_api E c a w = (w', Panic) ->
  match a with
  | Refresh => unlisted (w_trusted w') "targets"
  | GetTargetInfo path => exists role, wanted (w_trusted w') path role /\ unlisted (w_trusted w') role
  | DownloadTarget _ _ _ | FindCachedTarget _ _ => False
  end.
Proof. exact (session_np E c now w a w'). Qed.
Print Assumptions C92_calls.
(** downloading and looking into the cache: from any state, whatever was received *)
Theorem C92_download {CR : Crypto} E c tf p u w w' : calm E -> download_target E c tf p u w <> (w', Panic).
Proof. exact (fun Hc => download_np E c Hc tf p u w w'). Qed.
Print Assumptions C92_download.
Theorem C92_find {CR : Crypto} E c tf p i i' : calm E -> find_cached_target E c tf p i <> (i', Panic).
Proof. exact (fun Hc => find_np E c Hc tf p i i'). Qed.
Print Assumptions C92_find.

Lemma panic_case {CR : Crypto} L E c i a (P : world -> Prop) : forallb tame_b L = true ->
  match updater_new E c ex_now i with
  | (i', Ok t) => match call_api E c a (mkWorld t i') with
                  | (w', Panic) => forallb (event_in L) (io_trace (w_io w')) = true /\ P w'
                  | _ => False end
  | _ => False end ->
  exists w w', shown_session tame E c ex_now w /\ (forall data, received (io_trace (w_io w')) data -> tame data) /\ call_api E c a w = (w', Panic) /\ P w'.
Proof.
  intros HL. destruct (updater_new E c ex_now i) as [i' [t| |]] eqn:Hn; [|intros []..]. destruct (call_api E c a (mkWorld t i')) as [w' [|e|]] eqn:Hc; [intros []..|]. intros [H1 H2].
  exists (mkWorld t i'), w'. split; [by eapply shown_new|]. split; [|by split]. intros data Hd. apply (received_in _ _ H1) in Hd. rewrite forallb_forall in HL. apply tame_ok, HL. by apply elem_of_list_In.
Qed.
Lemma tame_config_ok (c : config) : tame_b (c_trusted_root c) = true -> tame_root (c_trusted_root c).
Proof. intros H. exact (proj1 (tame_ok _ H)). Qed.
(** refuted: every document is correctly signed and well-formed, the network and the disk work; the targets role delegates
    a/* to d2, for which the snapshot has no entry, and looking up a/x panics *)
Theorem C92_refuted : exists (CR : Crypto) E c now w w' path, calm E /\ tame_root (c_trusted_root c) /\ shown_session tame E c now w /\
  (forall data, received (io_trace (w_io w')) data -> tame data) /\ call_api E c (GetTargetInfo path) w = (w', Panic).
Proof.
  exists toy_crypto, (ex_env ex_files), ex_config, ex_now.
  assert (calm (ex_env ex_files)) as Hc. { split; [|done]. intros tr url len. cbn. unfold serve. by repeat case_match. }
  assert (tame_root (c_trusted_root ex_config)) as Ht. { apply tame_config_ok. vm_compute. reflexivity. }
  destruct (panic_case (map snd ex_files) (ex_env ex_files) ex_config no_files (GetTargetInfo "a/x") (fun _ => True)) as (w & w' & H1 & H2 & H3 & _); [vm_compute; reflexivity|vm_compute; split; [reflexivity|exact I]|].
  exists w, w', "a/x". exact (conj Hc (conj Ht (conj H1 (conj H2 H3)))).
Qed.
Print Assumptions C92_refuted.
(** the top-level targets role missing from the snapshot *)
Definition c92_files : list (string * string) :=
  [("https://r/timestamp.json", bytes_of (mk_timestamp 1 (mk_snapshot []))); ("https://r/1.snapshot.json", bytes_of (mk_snapshot []))].
Example C92_case : exists w w', calm (ex_env c92_files) /\ tame_root (c_trusted_root ex_config) /\ shown_session tame (ex_env c92_files) ex_config ex_now w /\
  (forall data, received (io_trace (w_io w')) data -> tame data) /\ call_api (ex_env c92_files) ex_config Refresh w = (w', Panic).
Proof.
  assert (calm (ex_env c92_files)) as Hc. { split; [|done]. intros tr url len. cbn. unfold serve. by repeat case_match. }
  assert (tame_root (c_trusted_root ex_config)) as Ht. { apply tame_config_ok. vm_compute. reflexivity. }
  destruct (panic_case (map snd c92_files) (ex_env c92_files) ex_config no_files Refresh (fun _ => True)) as (w & w' & H1 & H2 & H3 & _); [vm_compute; reflexivity|vm_compute; split; [reflexivity|exact I]|].
  exists w, w'. exact (conj Hc (conj Ht (conj H1 (conj H2 H3)))).
Qed.
(** and a lookup that visits both delegated roles without a panic, both being listed *)
Example C92_case_listed : exists w, shown_session (fun data => data ∈ map snd (mk_files two_roles)) (ex_env (mk_files two_roles)) ex_config ex_now w /\
  loaded_roles (w_trusted w) = (1, Some 1, Some 1, [("d2", 1); ("targets", 1)]).
Proof.
  apply (shown_case (map snd (mk_files two_roles)) (ex_env (mk_files two_roles)) ex_config no_files (GetTargetInfo "a/x") (fun w => loaded_roles (w_trusted w) = (1, Some 1, Some 1, [("d2", 1); ("targets", 1)]))).
  vm_compute. split; reflexivity.
Qed.

(** ** C93 *)
(** expiry is checked against the clock reading of New for the whole life of an updater *)
Theorem C93_reference_time {CR : Crypto} E c now w : session E c now w ->
  t_ref (w_trusted w) = now /\
  (forall ts, t_timestamp (w_trusted w) = Some ts -> ~ expired_at (t_root (w_trusted w)) now) /\
  (forall sn, t_snapshot (w_trusted w) = Some sn -> exists ts, t_timestamp (w_trusted w) = Some ts /\ ~ expired_at ts now) /\
  (forall name m, t_targets (w_trusted w) !! name = Some m -> ~ expired_at m now /\ exists sn, t_snapshot (w_trusted w) = Some sn /\ ~ expired_at sn now).
Proof.
  intros Hs. pose proof (session_ref E c now w Hs) as Hr. destruct (toplevel_inv _ (session_reachable E c now w Hs)) as (_ & H1 & H2 & _). destruct (session_dinv E c now w Hs) as (_ & _ & _ & H3).
  rewrite Hr in *. split; [done|]. split; [intros ts Hts; exact (proj2 (H1 ts Hts))|]. split; [intros sn Hsn; exact (proj2 (H2 sn Hsn))|].
  intros name m Hm. destruct (H3 name m Hm) as (sn & Hsn & [Hf _] & _ & Hx & _). rewrite Hr in Hf. split; [done|]. by exists sn.
Qed.
Print Assumptions C93_reference_time.
Theorem C93_refresh {CR : Crypto} E c now w w' : session E c now w -> call_api E c Refresh w = (w', Ok tt) ->
  exists ts sn tg, t_timestamp (w_trusted w') = Some ts /\ t_snapshot (w_trusted w') = Some sn /\ t_targets (w_trusted w') !! "targets" = Some tg /\
    ~ expired_at (t_root (w_trusted w')) now /\ ~ expired_at ts now /\ ~ expired_at sn now /\ ~ expired_at tg now.
Proof.
  intros Hs H. destruct (refresh_complete E c now w w' Hs H) as (ts & sn & tg & fs & ft & H1 & H2 & H3 & H4 & H5 & H6 & H7 & _).
  assert (session E c now w') as Hs'. { rewrite <-(fst_eq _ _ _ H). by constructor. } rewrite (session_ref E c now w' Hs') in *. by exists ts, sn, tg.
Qed.
Print Assumptions C93_refresh.
(** the moment of a call does not count: a lookup long after everything expired still answers *)
Definition c93_later : Z := instant (mkTime 2031 1 1 0 0 0 0 0).
Lemma answer_case {CR : Crypto} E c i l path (P : world -> Prop) (b : option targetfile -> bool) :
  match after_calls E c i l with Some w => P w /\ match snd (get_target_info E c path w) with Ok tf => b tf | _ => false end = true | None => False end ->
  exists w w' tf, session E c ex_now w /\ P w /\ get_target_info E c path w = (w', Ok tf) /\ b tf = true.
Proof.
  destruct (after_calls E c i l) as [w|] eqn:H; [|done]. intros [HP Hb]. apply after_session in H. destruct (get_target_info E c path w) as [w' [tf| |]] eqn:Hg; [|discriminate..]. exists w, w', tf. by split.
Qed.
Example C93_case : exists w w' tf, session (ex_env ex_files) ex_config ex_now w /\
  (expired_at (t_root (w_trusted w)) c93_later /\ match t_targets (w_trusted w) !! "targets" with Some m => expired_at m c93_later | None => False end) /\
  get_target_info (ex_env ex_files) ex_config "top" w = (w', Ok tf) /\ match tf with Some f => tf_length f =? 8 | None => false end = true.
Proof. apply (answer_case _ _ no_files [Refresh]). vm_compute. repeat split; reflexivity. Qed.

(** ** C94 *)
(** whatever version numbers were forged with a compromised timestamp or snapshot key: once a root is published under which
    the cached files are not signed, Refresh succeeds and reaches what is published *)
Theorem C94_recovery {CR : Crypto} E c r0 r P now i : document (c_trusted_root c) r0 -> root_signs r0 "root" r0 -> c_metadata_url c <> "" -> c_trusted_root c <> "" ->
  honest r0 r now P -> on_server E c r0 r P -> can_follow c r0 P -> disk_works E c (io_disk i) ->
  (forall data, io_disk i !! cache_name c "timestamp" = Some data -> exists ts : metadata timestamp_t, document data ts /\ (exists p, signing_payload (md_signed ts) = Ok p) /\ ~ root_signs r "timestamp" ts) ->
  (forall data, io_disk i !! cache_name c "snapshot" = Some data -> exists sn : metadata snapshot_t, document data sn /\ (exists p, signing_payload (md_signed sn) = Ok p) /\ ~ root_signs r "snapshot" sn) ->
  (forall data, io_disk i !! cache_name c "targets" = Some data -> ~ matches_file (pub_targets_info P) data) ->
  exists i' t w', updater_new E c now i = (i', Ok t) /\ call_api E c Refresh (mkWorld t i') = (w', Ok tt) /\ up_to_date r P (w_trusted w').
Proof.
  intros H1 H2 H3 H4 H5 H6 H7 H8 Hts Hsn Htg. apply (honest_session E c r0 r P now i H1 H2 H3 H4 H5 H6 H7 H8).
  - intros data Hd. destruct (Hts data Hd) as (ts & ? & ? & Hn). exists ts. split; [done|]. split; [done|]. intros Hx. by destruct Hn.
  - intros data Hd. destruct (Hsn data Hd) as (sn & ? & ? & Hn). exists sn. split; [done|]. split; [done|]. intros Hx. by destruct Hn.
  - intros data Hd Hx. by destruct (Htg data Hd).
Qed.
Print Assumptions C94_recovery.
(** the keys of timestamp (B) and snapshot (C) were compromised, the cache has a timestamp and a snapshot of version 2^62;
    root 2 hands timestamp over to C and snapshot to A *)
Definition c94_root : metadata root_t := sign_all [pkA; pkB] (unsigned (mkRoot ROOT SPECIFICATION_VERSION true 2 t2030 ex_keys
  (Some (<[ROOT := ex_role [idA; idB] 2]> (<[TIMESTAMP := ex_role [idC] 1]> (<[SNAPSHOT := ex_role [idA] 1]> (<[TARGETS := ex_role [idA] 1]> ∅))))) None)).
Definition c94_snapshot : metadata snapshot_t := sign_all [pkA] (unsigned (md_signed (ex_snapshot_v 8))).
Definition c94_timestamp : metadata timestamp_t :=
  sign_all [pkC] (unsigned (mkTimestamp TIMESTAMP SPECIFICATION_VERSION 10 t2030 (Some (<["snapshot.json" := ex_meta 8 (bytes_of c94_snapshot)]> ∅)) None)).
Definition c94_files (root : metadata root_t) : list (string * string) :=
  [("https://r/2.root.json", bytes_of root); ("https://r/timestamp.json", bytes_of c94_timestamp); ("https://r/8.snapshot.json", bytes_of c94_snapshot); ("https://r/5.targets.json", bytes_of ex_targets)].
Definition c94_forged_ts := bytes_of (ex_timestamp_v (2 ^ 62)).
Definition c94_forged_sn := bytes_of (ex_snapshot_v (2 ^ 62)).
Definition c94_cache : disk := {["/m/timestamp.json" := c94_forged_ts; "/m/snapshot.json" := c94_forged_sn]}.
Definition outdated {T} `{RoleTy T} (d1 data : string) (name : string) (version : metadata T -> Z) : bool :=
  match from_bytes (T := root_t) d1, from_bytes (T := T) data with
  | Ok r, Ok m => doc_b m && is_ok (signing_payload (md_signed m)) && negb (signs_b r name m) && (version m =? 2 ^ 62)
  | _, _ => false end.
Lemma outdated_ok {T} `{RoleTy T} d1 data name (version : metadata T -> Z) r : outdated d1 data name version = true -> from_bytes d1 = Ok r ->
  exists m : metadata T, document data m /\ (exists p, signing_payload (md_signed m) = Ok p) /\ ~ root_signs r name m /\ version m = 2 ^ 62.
Proof.
  unfold outdated. intros H1 Hr. rewrite Hr in H1. destruct (from_bytes data) as [m| |] eqn:Hm; [|done..]. rewrite !andb_true_iff, negb_true_iff, Z.eqb_eq in H1. destruct H1 as [[[A1 A2] A3] A4].
  exists m. split; [split; [done|by apply String.eqb_eq]|]. split; [destruct (signing_payload (md_signed m)) as [p| |]; [by exists p|done..]|]. split; [|done].
  intros Hx. apply root_signs_ok in Hx. unfold signs_b in A3. by rewrite Hx in A3.
Qed.
Lemma c94_honest : honest_b (c94_files c94_root) ex_config ex_now (bytes_of c94_root) (bytes_of c94_timestamp) (bytes_of c94_snapshot) (bytes_of ex_targets) = true.
Proof. vm_compute. reflexivity. Qed.
Lemma c94_outdated : outdated (bytes_of c94_root) c94_forged_ts "timestamp" (fun m => ts_version (md_signed m)) && outdated (bytes_of c94_root) c94_forged_sn "snapshot" (fun m => sn_version (md_signed m)) = true.
Proof. vm_compute. reflexivity. Qed.
Lemma honest_root d1 r1 r0 now b1 ts b2 sn b3 tg f g : honest r0 r1 now (mkPublication [(d1, r1)] b1 ts b2 sn b3 tg f g) -> from_bytes d1 = Ok r1.
Proof. intros [Hu _]. cbn [pub_roots] in Hu. inversion Hu; subst. match goal with H : document d1 _ |- _ => exact (proj1 H) end. Qed.
Lemma two_files (p q a b x : string) : ({[p := a; q := b]} : gmap string string) !! x = if String.eqb x p then Some a else if String.eqb x q then Some b else None.
Proof.
  destruct (String.eqb_spec x p) as [-> |H1]; [by rewrite lookup_insert|]. rewrite lookup_insert_ne by done. destruct (String.eqb_spec x q) as [-> |H2]; [by rewrite lookup_singleton|]. by rewrite lookup_singleton_ne.
Qed.
Lemma c94_disk : forall x, c94_cache !! x = if String.eqb x "/m/timestamp.json" then Some c94_forged_ts else if String.eqb x "/m/snapshot.json" then Some c94_forged_sn else None.
Proof. apply two_files. Qed.
Lemma some_only (a : string) (P : string -> Prop) : P a -> forall data, Some a = Some data -> P data.
Proof. intros H data [= <-]. exact H. Qed.
Example C94_case : exists r0 r P, document (c_trusted_root ex_config) r0 /\ root_signs r0 "root" r0 /\ honest r0 r ex_now P /\ on_server (ex_env (c94_files c94_root)) ex_config r0 r P /\ can_follow ex_config r0 P /\
  disk_works (ex_env (c94_files c94_root)) ex_config c94_cache /\
  (forall data, c94_cache !! "/m/timestamp.json" = Some data -> exists ts : metadata timestamp_t, document data ts /\ (exists p, signing_payload (md_signed ts) = Ok p) /\ ~ root_signs r "timestamp" ts /\ ts_version (md_signed ts) = 2 ^ 62) /\
  (forall data, c94_cache !! "/m/snapshot.json" = Some data -> exists sn : metadata snapshot_t, document data sn /\ (exists p, signing_payload (md_signed sn) = Ok p) /\ ~ root_signs r "snapshot" sn /\ sn_version (md_signed sn) = 2 ^ 62) /\
  c94_cache !! "/m/targets.json" = None /\ is_Some (c94_cache !! "/m/timestamp.json") /\ is_Some (c94_cache !! "/m/snapshot.json") /\
  (cache_name ex_config "timestamp", cache_name ex_config "snapshot", cache_name ex_config "targets") = ("/m/timestamp.json", "/m/snapshot.json", "/m/targets.json").
Proof.
  destruct (honest_check _ _ _ _ _ _ _ c94_honest) as (r0 & r1 & ts & sn & tg & f & g & H1 & H2 & H3 & H4 & H5). pose proof (honest_root _ _ _ _ _ _ _ _ _ _ _ _ H3) as Hr.
  pose proof c94_outdated as Ho. apply andb_prop in Ho as [Ho1 Ho2]. pose proof (outdated_ok _ _ _ _ _ Ho1 Hr) as D1. pose proof (outdated_ok _ _ _ _ _ Ho2 Hr) as D2.
  exists r0, r1. eexists. split; [exact H1|]. split; [exact H2|]. split; [exact H3|]. split; [exact H4|]. split; [exact H5|].
  split. { right. split; [discriminate|]. split; [discriminate|]. split; [reflexivity|]. exists "/w". split; [reflexivity|]. intros n. rewrite c94_disk. reflexivity. }
  rewrite !c94_disk. cbn [String.eqb Ascii.eqb Bool.eqb]. clear -D1 D2. split; [exact (some_only _ _ D1)|]. split; [exact (some_only _ _ D2)|]. split; [reflexivity|]. split; [eexists; reflexivity|]. split; [eexists; reflexivity|]. reflexivity.
Qed.
(** without the rotation the same cache keeps Refresh from succeeding, in C62's words *)
Example C94_contrast : exists w w' o, session (ex_env ex_files) ex_config ex_now w /\ call_api (ex_env ex_files) ex_config Refresh w = (w', o) /\
  (io_disk (w_io w) !! "/m/timestamp.json" = Some c94_forged_ts /\ ok_unit o = false /\ loaded_roles (w_trusted w') = (2, Some (2 ^ 62), None, [])).
Proof.
  assert (match started (ex_env ex_files) ex_config (mkIos c94_cache []) with
          | Some w => io_disk (w_io w) !! "/m/timestamp.json" = Some c94_forged_ts /\ ok_unit (snd (call_api (ex_env ex_files) ex_config Refresh w)) = false /\
              loaded_roles (w_trusted (fst (call_api (ex_env ex_files) ex_config Refresh w))) = (2, Some (2 ^ 62), None, [])
          | None => False end) as H by (vm_compute; repeat split; reflexivity).
  revert H. destruct (started (ex_env ex_files) ex_config (mkIos c94_cache [])) as [w|] eqn:Hs; [|intros []]. apply started_session in Hs. intros H.
  exists w, (fst (call_api (ex_env ex_files) ex_config Refresh w)), (snd (call_api (ex_env ex_files) ex_config Refresh w)). split; [exact Hs|]. split; [apply surjective_pairing|exact H].
Qed.
