(** * Properties C63 and C65-C74: the local cache, names of files and URLs, honest repositories *)
From stdpp Require Import base gmap strings list.
From Coq Require Import ZArith Lia Ascii String.
From Verif Require Import GoBase GoStr GoTime Types Marshal Keys Metadata TrustedMetadata Fetcher Updater SpecBasic SpecTrusted SpecUpdater.
From Verif Require Import BasicProofs TrustedProofs PathProofs EventProofs UpdaterProofs WalkProofs ApiProofs RootProofs RefreshProofs SearchProofs HonestProofs IndepProofs ClaimProofs FinalProofs Toy Examples ExamplesUpdater ExamplesHonest.
Open Scope Z_scope.

(** ** C71: with an empty cache *)
Theorem C71_honest {CR : Crypto} E c r0 r P now i : document (c_trusted_root c) r0 -> root_signs r0 "root" r0 -> c_metadata_url c <> "" -> c_trusted_root c <> "" ->
  honest r0 r now P -> on_server E c r0 r P -> can_follow c r0 P -> disk_works E c (io_disk i) ->
  (forall role, io_disk i !! cache_name c role = None) ->
  exists i' t w', updater_new E c now i = (i', Ok t) /\ call_api E c Refresh (mkWorld t i') = (w', Ok tt) /\ up_to_date r P (w_trusted w').
Proof. exact (fun H1 H2 H3 H4 H5 H6 H7 H8 Hn => honest_session E c r0 r P now i H1 H2 H3 H4 H5 H6 H7 H8 (fun d => no_file _ _ _ d (Hn _)) (fun d => no_file _ _ _ d (Hn _)) (fun d => no_file _ _ _ d (Hn _))). Qed.
Print Assumptions C71_honest.
Example C71_case : exists r0 r P, document (c_trusted_root ex_config) r0 /\ root_signs r0 "root" r0 /\ honest r0 r ex_now P /\ on_server (ex_env ex_files) ex_config r0 r P /\ can_follow ex_config r0 P /\
  disk_works (ex_env ex_files) ex_config (io_disk no_files) /\ (forall role, io_disk no_files !! cache_name ex_config role = None) /\ List.length (pub_roots P) = 1%nat.
Proof.
  destruct (honest_check _ _ _ _ _ _ _ ex_honest) as (r0 & r1 & ts & sn & tg & f & g & H1 & H2 & H3 & H4 & H5). eexists r0, r1, _. split; [done|]. split; [done|]. split; [exact H3|]. split; [exact H4|]. split; [exact H5|].
  split; [by apply ex_disk_works|]. split; [|done]. intros role. apply lookup_empty.
Qed.

(** ** C63 *)
(** cached files that are well-formed metadata of the right type (targets: or that do not match the snapshot), and where
    properly signed not newer than what is published, do not prevent an update *)
Theorem C63_benign_cache {CR : Crypto} E c r0 r P now i : document (c_trusted_root c) r0 -> root_signs r0 "root" r0 -> c_metadata_url c <> "" -> c_trusted_root c <> "" ->
  honest r0 r now P -> on_server E c r0 r P -> can_follow c r0 P -> disk_works E c (io_disk i) ->
  (forall data, io_disk i !! cache_name c "timestamp" = Some data -> cached_timestamp r P data) ->
  (forall data, io_disk i !! cache_name c "snapshot" = Some data -> cached_snapshot r now P data) ->
  (forall data, io_disk i !! cache_name c "targets" = Some data -> cached_targets r now P data) ->
  exists i' t w', updater_new E c now i = (i', Ok t) /\ call_api E c Refresh (mkWorld t i') = (w', Ok tt) /\ up_to_date r P (w_trusted w').
Proof. exact (honest_session E c r0 r P now i). Qed.
Print Assumptions C63_benign_cache.
Lemma refresh_fails {CR : Crypto} E c i : match started E c i with Some w => match call_api E c Refresh w with (_, Err _) => true | _ => false end | _ => false end = true ->
  exists i' t w' e, updater_new E c ex_now i = (i', Ok t) /\ call_api E c Refresh (mkWorld t i') = (w', Err e).
Proof.
  unfold started. destruct (updater_new E c ex_now i) as [i' [t| |]]; [|done..]. destruct (call_api E c Refresh (mkWorld t i')) as [w' [|e|]] eqn:Hc; [done| |done]. intros _. by exists i', t, w', e.
Qed.
(** refuted for arbitrary bytes: "{" in the cached timestamp or snapshot file makes Refresh fail although the server is fine *)
Theorem C63_damaged_refuted file : file = "/m/timestamp.json" \/ file = "/m/snapshot.json" -> exists (CR : Crypto) E c r0 r P now i, document (c_trusted_root c) r0 /\ root_signs r0 "root" r0 /\
  honest r0 r now P /\ on_server E c r0 r P /\ can_follow c r0 P /\ disk_works E c (io_disk i) /\ io_disk i = {[file := "{"]} /\
  exists i' t w' e, updater_new E c now i = (i', Ok t) /\ call_api E c Refresh (mkWorld t i') = (w', Err e).
Proof.
  intros Hfile. destruct (honest_check _ _ _ _ _ _ _ ex_honest) as (r0 & r1 & ts & sn & tg & f & g & H1 & H2 & H3 & H4 & H5).
  exists toy_crypto, (ex_env ex_files), ex_config, r0, r1. eexists _, ex_now, (mkIos {[file := "{"]} []). split; [done|]. split; [done|]. split; [exact H3|]. split; [exact H4|]. split; [exact H5|].
  split. { apply ex_disk_works. intros n. apply lookup_singleton_ne. by destruct Hfile as [-> | ->]. }
  split; [done|]. enough (match started (ex_env ex_files) ex_config (mkIos {[file := "{"]} []) with Some w => match call_api (ex_env ex_files) ex_config Refresh w with (_, Err _) => true | _ => false end | _ => false end = true) as H.
  { clear -H. apply refresh_fails in H. exact H. }
  destruct Hfile as [-> | ->]; vm_compute; reflexivity.
Qed.
Print Assumptions C63_damaged_refuted.
(** an older timestamp and damaged targets metadata in the cache *)
Definition ex_old_cache : disk := {["/m/timestamp.json" := bytes_of (ex_timestamp_v 8); "/m/targets.json" := "{"]}.
Lemma some_only (a : string) (P : string -> Prop) : P a -> forall data, Some a = Some data -> P data.
Proof. intros H data [= <-]. exact H. Qed.
Lemma none_only (P : string -> Prop) : forall data, None = Some data -> P data.
Proof. intros data [=]. Qed.
Lemma two_files (p q a b x : string) : ({[p := a; q := b]} : gmap string string) !! x = if String.eqb x p then Some a else if String.eqb x q then Some b else None.
Proof.
  destruct (String.eqb_spec x p) as [-> |H1]; [by rewrite lookup_insert|]. rewrite lookup_insert_ne by done. destruct (String.eqb_spec x q) as [-> |H2]; [by rewrite lookup_singleton|]. by rewrite lookup_singleton_ne.
Qed.
Example C63_case : exists r0 r P, document (c_trusted_root ex_config) r0 /\ root_signs r0 "root" r0 /\ honest r0 r ex_now P /\ on_server (ex_env ex_files) ex_config r0 r P /\ can_follow ex_config r0 P /\
  disk_works (ex_env ex_files) ex_config ex_old_cache /\
  (forall data, ex_old_cache !! cache_name ex_config "timestamp" = Some data -> cached_timestamp r P data) /\
  (forall data, ex_old_cache !! cache_name ex_config "snapshot" = Some data -> cached_snapshot r ex_now P data) /\
  (forall data, ex_old_cache !! cache_name ex_config "targets" = Some data -> cached_targets r ex_now P data) /\
  is_Some (ex_old_cache !! cache_name ex_config "timestamp") /\ is_Some (ex_old_cache !! cache_name ex_config "targets").
Proof.
  destruct (honest_check _ _ _ _ _ _ _ ex_honest) as (r0 & r1 & ts & sn & tg & f & g & H1 & H2 & H3 & H4 & H5). pose proof (fun Hb => older_check (bytes_of (ex_timestamp_v 8)) "{" _ _ _ _ Hb H3) as H67.
  cbn [pub_timestamp pub_snapshot pub_targets] in H67. specialize (H67 ex_older) as [H6 H7].
  eexists r0, r1, _. split; [done|]. split; [done|]. split; [exact H3|]. split; [exact H4|]. split; [exact H5|].
  change (cache_name ex_config "timestamp") with "/m/timestamp.json". change (cache_name ex_config "snapshot") with "/m/snapshot.json". change (cache_name ex_config "targets") with "/m/targets.json".
  assert (forall x, ex_old_cache !! x = if String.eqb x "/m/timestamp.json" then Some (bytes_of (ex_timestamp_v 8)) else if String.eqb x "/m/targets.json" then Some "{" else None) as Hx by apply two_files.
  split. { apply ex_disk_works. intros n. apply Hx. }
  rewrite !Hx. split; [exact (some_only _ _ H6)|]. split; [exact (none_only _)|]. split; [exact (some_only _ _ H7)|]. split; eexists; reflexivity.
Qed.

(** a property of a call found by computation *)
Lemma case_call {CR : Crypto} E c i l a (P : world -> world -> outcome unit -> Prop) :
  match after_calls E c i l with Some w => P w (fst (call_api E c a w)) (snd (call_api E c a w)) | None => False end ->
  exists w w' o, session E c ex_now w /\ call_api E c a w = (w', o) /\ P w w' o.
Proof.
  destruct (after_calls E c i l) as [w|] eqn:H; [|done]. intros HP. exists w, (fst (call_api E c a w)), (snd (call_api E c a w)). split; [by eapply after_session|]. split; [apply surjective_pairing|exact HP].
Qed.

(** ** C65 *)
Theorem C65_disk_untouched {CR : Crypto} E c a w w' o : c_disable_cache c = true -> call_api E c a w = (w', o) ->
  io_disk (w_io w') = io_disk (w_io w) /\ exists evs, happened (w_io w) (w_io w') evs /\ Forall no_change evs.
Proof. exact (fun Hc H => let '(ex_intro _ evs (conj H1 (conj H2 H3))) := api_off E c a w w' o Hc H in conj H3 (ex_intro _ evs (conj H1 H2))). Qed.
Print Assumptions C65_disk_untouched.
Theorem C65_new {CR : Crypto} E c now i i' o : c_disable_cache c = true -> updater_new E c now i = (i', o) -> i' = i.
Proof. exact (new_off E c now i i' o). Qed.
Print Assumptions C65_new.
Definition ex_config_off := ex_config_with (bytes_of (ex_root 1)) true false.
Example C65_case : exists w w' o, session (ex_env (mk_files two_roles)) ex_config_off ex_now w /\ call_api (ex_env (mk_files two_roles)) ex_config_off (GetTargetInfo "a/x") w = (w', o) /\
  c_disable_cache ex_config_off = true /\ o = Ok tt /\ io_disk (w_io w') = ∅ /\ loaded_roles (w_trusted w') = (1, Some 1, Some 1, [("d2", 1); ("targets", 1)]).
Proof. apply (case_call _ _ no_files [] _ (fun w w' o => _ = true /\ o = Ok tt /\ _ = ∅ /\ loaded_roles _ = _)). vm_compute. repeat split; reflexivity. Qed.

(** ** C66: refuted, the local timestamp, snapshot and targets files are consulted *)
Theorem C66_refuted : exists (CR : Crypto) E c now w d, session E c now w /\ c_disable_cache c = true /\
  snd (call_api E c Refresh w) <> snd (call_api E c Refresh (mkWorld (w_trusted w) (mkIos d (io_trace (w_io w))))).
Proof.
  exists toy_crypto, (ex_env ex_files), ex_config_off, ex_now.
  enough (match started (ex_env ex_files) ex_config_off no_files with
          | Some w => (ok_unit (snd (call_api (ex_env ex_files) ex_config_off Refresh w)), ok_unit (snd (call_api (ex_env ex_files) ex_config_off Refresh (mkWorld (w_trusted w) (mkIos {["/m/timestamp.json" := "{"]} (io_trace (w_io w))))))) = (true, false)
          | None => False end) as H.
  { destruct (started _ _ _) as [w|] eqn:Hs; [|destruct H]. exists w, {["/m/timestamp.json" := "{"]}. split; [exact (started_session _ _ _ _ Hs)|]. split; [reflexivity|]. intros Heq. rewrite Heq in H. injection H as H1 H2. rewrite H1 in H2. discriminate H2. }
  vm_compute. reflexivity.
Qed.
Print Assumptions C66_refuted.
(** those three are the only files that matter *)
Theorem C66_three_files {CR : Crypto} E c w d : c_disable_cache c = true ->
  (forall role, role = "timestamp" \/ role = "snapshot" \/ role = "targets" -> io_disk (w_io w) !! local_name c role = d !! local_name c role) ->
  let w2 := mkWorld (w_trusted w) (mkIos d (io_trace (w_io w))) in
  snd (call_api E c Refresh w) = snd (call_api E c Refresh w2) /\ w_trusted (fst (call_api E c Refresh w)) = w_trusted (fst (call_api E c Refresh w2)) /\
  io_trace (w_io (fst (call_api E c Refresh w))) = io_trace (w_io (fst (call_api E c Refresh w2))).
Proof.
  intros Hc Hd w2. destruct (indep_refresh E c (fun role => role = "timestamp" \/ role = "snapshot" \/ role = "targets") Hc (or_introl eq_refl) (or_intror (or_introl eq_refl)) (or_intror (or_intror eq_refl)) w w2) as [[H1 [H2 _]] H3].
  - split; [done|]. split; [done|exact Hd].
  - done.
Qed.
Print Assumptions C66_three_files.
Example C66_case : exists w w' o, session (ex_env ex_files) ex_config_off ex_now w /\ call_api (ex_env ex_files) ex_config_off Refresh w = (w', o) /\ o = Ok tt /\ io_disk (w_io w') = {["/m/root.json" := "{"]}.
Proof. apply (case_call _ _ (files_of [("/m/root.json", "{")]) [] _ (fun w w' o => o = Ok tt /\ _ = _)). vm_compute. split; reflexivity. Qed.

(** ** C67 *)
(** the file is <metadata dir>/<name>, the name being no path; see C60_renamed for where these names are used *)
Theorem C67_inside c role : exists name, plain_name name /\ cache_name c role = in_dir (c_metadata_dir c) name.
Proof. exact (ex_intro _ (query_escape role +:+ ".json") (conj (json_plain _ (query_escape_no_slash role)) (cache_name_plain c role))). Qed.
Print Assumptions C67_inside.
Theorem C67_distinct c role role' : cache_name c role = cache_name c role' -> role = role'.
Proof. exact (cache_name_inj c role role'). Qed.
Print Assumptions C67_distinct.
Example C67_case : map (cache_name ex_config) ["a/b"; "a b"; "../x"; "a+b"; "a%2Fb"] = ["/m/a%2Fb.json"; "/m/a+b.json"; "/m/..%2Fx.json"; "/m/a%2Bb.json"; "/m/a%252Fb.json"].
Proof. vm_compute. reflexivity. Qed.

(** ** C68: refuted *)
Definition no_read_of (p : string) (e : event) : bool := match e with EvRead q _ => negb (String.eqb p q) | _ => true end.
Lemma no_read_elem p evs : forallb (no_read_of p) evs = true -> forall r, EvRead p r ∉ evs.
Proof. rewrite forallb_forall. intros H r Hin%elem_of_list_In. specialize (H _ Hin). cbn in H. rewrite String.eqb_refl in H. discriminate H. Qed.
Definition gets_data (data : string) (e : event) : bool := match e with EvGet _ _ (Ok d) => String.eqb d data | _ => false end.
Lemma gets_data_elem data evs : existsb (gets_data data) evs = true -> exists url len, EvGet url len (Ok data) ∈ evs.
Proof. rewrite existsb_exists. intros (e & Hin & He). destruct e as [url len [d| |]| | | | | | | |]; try discriminate He. apply String.eqb_eq in He as ->. exists url, len. by apply elem_of_list_In. Qed.
Definition reads_file (p : string) (e : event) : bool := match e with EvRead q _ => String.eqb p q | _ => false end.
Lemma reads_file_elem p evs : existsb (reads_file p) evs = true -> exists r, EvRead p r ∈ evs.
Proof. rewrite existsb_exists. intros (e & Hin & He). destruct e as [|q r| | | | | | |]; try discriminate He. apply String.eqb_eq in He as ->. exists r. by apply elem_of_list_In. Qed.
Lemma case_events {CR : Crypto} E c i l a (P : world -> world -> list event -> Prop) :
  match after_calls E c i l with Some w => P w (fst (call_api E c a w)) (events_of E c a w) | None => False end ->
  exists w w' o evs, session E c ex_now w /\ call_api E c a w = (w', o) /\ happened (w_io w) (w_io w') evs /\ P w w' evs.
Proof.
  destruct (after_calls E c i l) as [w|] eqn:H; [|done]. intros HP. destruct (call_api E c a w) as [w' o] eqn:Hc. destruct (api_happened _ _ _ _ _ _ Hc) as [evs Hh]. exists w, w', o, evs. split; [by eapply after_session|]. split; [done|]. split; [done|].
  unfold events_of in HP. rewrite Hc in HP. cbn [fst] in HP. unfold happened in Hh. rewrite Hh in HP. rewrite skipn_app, skipn_all, Nat.sub_diag in HP. exact HP.
Qed.
(** the metadata of role "a b" is in its file, but another file is looked for and the metadata is downloaded again *)
Theorem C68_not_found_refuted : exists (CR : Crypto) E c now w w' o evs path role data, session E c now w /\ call_api E c (GetTargetInfo path) w = (w', o) /\ happened (w_io w) (w_io w') evs /\
  c_disable_cache c = false /\ t_targets (w_trusted w) !! role = None /\ io_disk (w_io w) !! cache_name c role = Some data /\
  (forall r, EvRead (cache_name c role) r ∉ evs) /\ (exists url len, EvGet url len (Ok data) ∈ evs) /\ is_Some (t_targets (w_trusted w') !! role).
Proof.
  set (E := ex_env (mk_files (odd_roles "a b"))). set (data := bytes_of (mk_targets [pkB] [("a/x", "hello")] [])). exists toy_crypto, E, ex_config, ex_now.
  destruct (case_events E ex_config (files_of [("/m/a+b.json", data)]) [Refresh] (GetTargetInfo "a/x") (fun w w' evs =>
    t_targets (w_trusted w) !! "a b" = None /\ match io_disk (w_io w) !! "/m/a+b.json" with Some d => String.eqb d data | None => false end = true /\ forallb (no_read_of "/m/a+b.json") evs = true /\ existsb (gets_data data) evs = true /\
    match t_targets (w_trusted w') !! "a b" with Some _ => true | None => false end = true)) as (w & w' & o & evs & H1 & H2 & H3 & H4 & H5 & H6 & H7 & H8).
  { vm_compute. repeat split; reflexivity. }
  exists w, w', o, evs, "a/x", "a b", data. split; [exact H1|]. split; [exact H2|]. split; [exact H3|]. split; [reflexivity|]. split; [exact H4|]. change (cache_name ex_config "a b") with "/m/a+b.json".
  split. { destruct (io_disk (w_io w) !! "/m/a+b.json") as [d|]; [|discriminate H5]. apply String.eqb_eq in H5. by rewrite H5. }
  split; [by apply no_read_elem|]. split; [by apply gets_data_elem|]. destruct (t_targets (w_trusted w') !! "a b"); [by eexists|discriminate H8].
Qed.
Print Assumptions C68_not_found_refuted.
(** a role called "../x" makes the client read a file outside its metadata directory *)
Theorem C68_outside_refuted : exists (CR : Crypto) E c now w w' o evs path r, session E c now w /\ call_api E c (GetTargetInfo path) w = (w', o) /\ happened (w_io w) (w_io w') evs /\
  c_metadata_dir c = "/m" /\ EvRead "/x.json" r ∈ evs.
Proof.
  set (E := ex_env (mk_files (odd_roles "../x"))). exists toy_crypto, E, ex_config, ex_now.
  destruct (case_events E ex_config no_files [Refresh] (GetTargetInfo "a/x") (fun w w' evs => existsb (reads_file "/x.json") evs = true)) as (w & w' & o & evs & H1 & H2 & H3 & H4); [vm_compute; reflexivity|].
  apply reads_file_elem in H4 as [r H4]. exists w, w', o, evs, "a/x", r. exact (conj H1 (conj H2 (conj H3 (conj eq_refl H4)))).
Qed.
Print Assumptions C68_outside_refuted.
(** names of letters, digits and - _ . ~ other than . and .. are looked for where they are stored *)
Theorem C68_same_file c role : string_all url_unreserved role = true -> role <> "" -> role <> "." -> role <> ".." -> local_name c role = cache_name c role.
Proof. exact (fun H1 H2 H3 H4 => local_cache c role H1 (conj H2 (conj H3 (conj H4 (unreserved_no_slash role H1))))). Qed.
Print Assumptions C68_same_file.
(** and valid metadata stored for such a role is used when the role is loaded, without a download *)
Theorem C68_used {CR : Crypto} E c role parent w data m : t_targets (w_trusted w) !! role = None -> string_all url_unreserved role = true -> role <> "" -> role <> "." -> role <> ".." ->
  io_disk (w_io w) !! cache_name c role = Some data -> e_io E (io_trace (w_io w)) = true -> targets_ok (w_trusted w) data role parent m ->
  exists w', load_targets E c role parent w = (w', Ok m) /\ t_targets (w_trusted w') !! role = Some m /\ happened (w_io w) (w_io w') [EvRead (cache_name c role) (Ok data)].
Proof. exact (fun H0 H1 H2 H3 H4 => load_cached E c role parent w data m H0 H1 (conj H2 (conj H3 (conj H4 (unreserved_no_slash role H1))))). Qed.
Print Assumptions C68_used.
(** the metadata of role d2 is in its file and not downloaded *)
Example C68_case : exists w w' o evs, session (ex_env (mk_files two_roles)) ex_config ex_now w /\ call_api (ex_env (mk_files two_roles)) ex_config (GetTargetInfo "a/x") w = (w', o) /\ happened (w_io w) (w_io w') evs /\
  map show_event evs = ["choice"; "read /m/d2.json"] /\ loaded_roles (w_trusted w') = (1, Some 1, Some 1, [("d2", 1); ("targets", 1)]).
Proof.
  apply (case_events _ _ (files_of [("/m/d2.json", bytes_of (mk_targets [pkC] [("a/x", "other")] []))]) [Refresh] _ (fun w w' evs => map show_event evs = _ /\ loaded_roles _ = _)). vm_compute. split; reflexivity.
Qed.

(** ** C69: refuted, a delegated role may be called timestamp *)
Theorem C69_refuted : exists (CR : Crypto) E c now w w' o path d d', session E c now w /\ is_Some (t_targets (w_trusted w) !! "targets") /\ call_api E c (GetTargetInfo path) w = (w', o) /\
  io_disk (w_io w) !! cache_name c "timestamp" = Some d /\ io_disk (w_io w') !! cache_name c "timestamp" = Some d' /\ is_ok (from_bytes (T := timestamp_t) d) = true /\ is_ok (from_bytes (T := targets_t) d') = true /\ d <> d'.
Proof.
  set (E := ex_env (mk_files (odd_roles "timestamp"))). exists toy_crypto, E, ex_config, ex_now.
  destruct (case_call E ex_config no_files [Refresh] (GetTargetInfo "a/x") (fun w w' o => match t_targets (w_trusted w) !! "targets", io_disk (w_io w) !! "/m/timestamp.json", io_disk (w_io w') !! "/m/timestamp.json" with
    | Some _, Some d, Some d' => is_ok (from_bytes (T := timestamp_t) d) && is_ok (from_bytes (T := targets_t) d') && negb (String.eqb d d') | _, _, _ => false end = true)) as (w & w' & o & H1 & H2 & H3); [vm_compute; reflexivity|].
  destruct (t_targets (w_trusted w) !! "targets") as [m|] eqn:H4; [|discriminate H3]. destruct (io_disk (w_io w) !! "/m/timestamp.json") as [d|] eqn:H5; [|discriminate H3]. destruct (io_disk (w_io w') !! "/m/timestamp.json") as [d'|] eqn:H6; [|discriminate H3].
  apply andb_prop in H3 as [[H7 H8]%andb_prop H9]. exists w, w', o, "a/x", d, d'. rewrite H4. refine (conj H1 (conj (ex_intro _ m eq_refl) (conj H2 (conj H5 (conj H6 (conj H7 (conj H8 _))))))). intros ->. rewrite String.eqb_refl in H9. discriminate H9.
Qed.
Print Assumptions C69_refuted.
(** the cached file of a role changes in a search (or a crash during it) only if the role is not loaded yet and some loaded
    metadata delegates the path to a role of that name; in particular the targets file does not change *)
Theorem C69_delegated_only {CR : Crypto} E c path w w' o evs d role : get_target_info E c path w = (w', o) -> is_Some (t_targets (w_trusted w) !! "targets") ->
  happened (w_io w) (w_io w') evs -> crash (io_disk (w_io w)) evs d ->
  d !! cache_name c role = io_disk (w_io w) !! cache_name c role \/
  (t_targets (w_trusted w) !! role = None /\ exists r m b, t_targets (w_trusted w') !! r = Some m /\ delegated m path role b).
Proof. exact (search_files E c path w w' o evs d role). Qed.
Print Assumptions C69_delegated_only.
Example C69_case : exists w w' o, session (ex_env (mk_files two_roles)) ex_config ex_now w /\ call_api (ex_env (mk_files two_roles)) ex_config (GetTargetInfo "a/x") w = (w', o) /\
  (exists m, t_targets (w_trusted w) !! "targets" = Some m) /\ map fst (file_list w') = ["/m/d2.json"; "/m/targets.json"; "/m/timestamp.json"; "/m/root.json"; "/m/snapshot.json"].
Proof.
  destruct (case_call (ex_env (mk_files two_roles)) ex_config no_files [Refresh] (GetTargetInfo "a/x") (fun w w' o => (if t_targets (w_trusted w) !! "targets" then true else false) = true /\
    map fst (file_list w') = ["/m/d2.json"; "/m/targets.json"; "/m/timestamp.json"; "/m/root.json"; "/m/snapshot.json"])) as (w & w' & o & H1 & H2 & H3 & H4); [vm_compute; split; reflexivity|].
  exists w, w', o. split; [exact H1|]. split; [exact H2|]. split; [|exact H4]. revert H3. destruct (t_targets (w_trusted w) !! "targets") as [m|]; [intros _; by exists m|done].
Qed.

(** ** C70 *)
Theorem C70_refresh_once {CR : Crypto} E c now w w' o : session E c now w -> is_Some (t_snapshot (w_trusted w)) -> call_api E c Refresh w = (w', o) -> w_trusted w' = w_trusted w /\ o <> Ok tt.
Proof. exact (session_again E c now w w' o). Qed.
Print Assumptions C70_refresh_once.
(** the timestamp changes after the first Refresh, the second does not load it *)
Example C70_case : exists w w' o, session (ex_env ex_files) ex_config ex_now w /\ call_api (ex_env ex_files) ex_config Refresh w = (w', o) /\
  (exists sn, t_snapshot (w_trusted w) = Some sn) /\ ok_unit o = false /\ loaded_roles (w_trusted w') = (2, Some 9, Some 7, [("targets", 5)]).
Proof.
  destruct (case_call (ex_env ex_files) ex_config no_files [Refresh] Refresh (fun w w' o => (if t_snapshot (w_trusted w) then true else false) = true /\ ok_unit o = false /\
    loaded_roles (w_trusted w') = (2, Some 9, Some 7, [("targets", 5)]))) as (w & w' & o & H1 & H2 & H3 & H4); [vm_compute; repeat split; reflexivity|].
  exists w, w', o. split; [exact H1|]. split; [exact H2|]. split; [|exact H4]. revert H3. destruct (t_snapshot (w_trusted w)) as [m|]; [intros _; by exists m|done].
Qed.

(** ** C72 *)
(** the URL a target is requested from; [h] is one of its hashes in hexadecimal *)
Definition some_hash (tf : targetfile) (h : string) : Prop := exists alg dig, lists (tf_hashes tf) alg dig /\ h = hex_encode dig.
(** base URL, given or configured, with a slash at the end *)
Definition base_url (c : config) (given base : string) : Prop :=
  let u := if String.eqb given "" then c_targets_url c else given in (has_suffix "/" u = true /\ base = u) \/ (has_suffix "/" u = false /\ base = u +:+ "/").
Lemma base_url_of c u : base_url c u (base_of c u).
Proof. unfold base_url, base_of, ensure_slash. destruct (has_suffix "/" _); [left|right]; done. Qed.
(** without a directory, or with a directory that is a single name, as stated *)
Theorem C72_flat {CR : Crypto} E c tf p u w w' o evs url len r : call_api E c (DownloadTarget tf p u) w = (w', o) -> happened (w_io w) (w_io w') evs -> EvGet url len r ∈ evs ->
  rt_consistent (md_signed (t_root (w_trusted w))) = true -> c_prefix_hash c = true -> (exists alg dig, lists (tf_hashes tf) alg dig) -> no_slash (tf_path tf) ->
  exists base h, base_url c u base /\ some_hash tf h /\ url = base +:+ h +:+ "." +:+ tf_path tf.
Proof.
  intros H1 H2 H3 H4 H5 (alg & dig & H6) H7. pose proof (download_url E c tf p u w w' o evs url len r H1 H2 H3) as H. rewrite H4, H5 in H. cbn [andb] in H. destruct H as (h & Hh & ->). rewrite (prefixed_plain _ h H7).
  exists (base_of c u), h. split; [apply base_url_of|]. split; [|done]. destruct Hh as [[_ Hno]|Hh]; [by destruct (Hno _ _ H6)|exact Hh].
Qed.
Print Assumptions C72_flat.
Theorem C72_one_directory {CR : Crypto} E c tf p u w w' o evs url len r d n : call_api E c (DownloadTarget tf p u) w = (w', o) -> happened (w_io w) (w_io w') evs -> EvGet url len r ∈ evs ->
  rt_consistent (md_signed (t_root (w_trusted w))) = true -> c_prefix_hash c = true -> (exists alg dig, lists (tf_hashes tf) alg dig) -> no_slash d -> no_slash n -> tf_path tf = d +:+ "/" +:+ n ->
  exists base h, base_url c u base /\ some_hash tf h /\ url = base +:+ d +:+ "/" +:+ h +:+ "." +:+ n.
Proof.
  intros H1 H2 H3 H4 H5 (alg & dig & H6) H7 _ H8. pose proof (download_url E c tf p u w w' o evs url len r H1 H2 H3) as H. rewrite H4, H5 in H. cbn [andb] in H. destruct H as (h & Hh & ->). rewrite H8, (prefixed_dir d n h H7).
  exists (base_of c u), h. split; [apply base_url_of|]. split; [|done]. destruct Hh as [[_ Hno]|Hh]; [by destruct (Hno _ _ H6)|exact Hh].
Qed.
Print Assumptions C72_one_directory.
(** without consistent snapshots or without hash prefixing the path itself is used *)
Theorem C72_unprefixed {CR : Crypto} E c tf p u w w' o evs url len r : call_api E c (DownloadTarget tf p u) w = (w', o) -> happened (w_io w) (w_io w') evs -> EvGet url len r ∈ evs ->
  rt_consistent (md_signed (t_root (w_trusted w))) = false \/ c_prefix_hash c = false -> exists base, base_url c u base /\ url = base +:+ tf_path tf.
Proof.
  intros H1 H2 H3 H4. pose proof (download_url E c tf p u w w' o evs url len r H1 H2 H3) as H. exists (base_of c u). split; [apply base_url_of|]. destruct H4 as [H4|H4]; rewrite H4 in H; [|rewrite andb_false_r in H]; exact H.
Qed.
Print Assumptions C72_unprefixed.
(** refuted for nested directories: the hash is inserted after the first directory, whatever follows it *)
Theorem C72_nested_refuted : exists (CR : Crypto) E c now w w' o evs tf h len r, session E c now w /\ call_api E c (DownloadTarget tf "" "") w = (w', o) /\ happened (w_io w) (w_io w') evs /\
  rt_consistent (md_signed (t_root (w_trusted w))) = true /\ c_prefix_hash c = true /\ c_targets_url c = "https://t" /\ tf_path tf = "a/b/c" /\ (forall h', some_hash tf h' -> h' = h) /\
  gets evs = [("https://t/a/" +:+ h +:+ ".b/c", r)] /\ EvGet ("https://t/a/" +:+ h +:+ ".b/c") len r ∈ evs.
Proof.
  set (tf := mkTargetFile 5 (Some {["sha256" := sha256 "hello"]}) None "a/b/c" None). set (h := hex_encode (sha256 "hello")). exists toy_crypto, (ex_env ex_files), ex_config, ex_now.
  destruct (case_events (ex_env ex_files) ex_config no_files [Refresh] (DownloadTarget tf "" "") (fun w w' evs => rt_consistent (md_signed (t_root (w_trusted w))) = true /\ exists len r, evs = [EvChoice; EvGet ("https://t/a/" +:+ h +:+ ".b/c") len r])) as (w & w' & o & evs & H1 & H2 & H3 & H4 & len & r & H5).
  { vm_compute. split; [reflexivity|]. eexists _, _. reflexivity. }
  exists w, w', o, evs, tf, h, len, r. split; [exact H1|]. split; [exact H2|]. split; [exact H3|]. split; [exact H4|]. do 3 (split; [reflexivity|]). split.
  { intros h' (alg & dig & (m & Hm & Hl) & ->). injection Hm as <-. apply lookup_singleton_Some in Hl as [_ <-]. reflexivity. }
  rewrite H5. split; [reflexivity|]. right. left.
Qed.
Print Assumptions C72_nested_refuted.
Example C72_case : exists w w' o evs, session (ex_env ex_files) ex_config ex_now w /\ call_api (ex_env ex_files) ex_config (DownloadTarget (mkTargetFile 5 (Some {["sha256" := sha256 "hello"]}) None "a/x" None) "" "") w = (w', o) /\ happened (w_io w) (w_io w') evs /\
  rt_consistent (md_signed (t_root (w_trusted w))) = true /\ map fst (gets evs) = ["https://t/a/" +:+ hex_encode (sha256 "hello") +:+ ".x"].
Proof. apply (case_events _ _ no_files [Refresh] _ (fun w w' evs => _ = true /\ map fst (gets evs) = _)). vm_compute. split; reflexivity. Qed.

(** ** C73 *)
(** for directory names without characters that are special in URLs, and target paths other than "", "." and ".." *)
Theorem C73_distinct E c tf tf' p : plain_base (c_targets_dir c) = true -> tf_path tf ∉ ["" ; "."; ".."] -> tf_path tf' ∉ ["" ; "."; ".."] ->
  target_file_path E c tf = Ok p -> target_file_path E c tf' = Ok p -> tf_path tf = tf_path tf'.
Proof. exact (target_file_distinct E c tf tf' p). Qed.
Print Assumptions C73_distinct.
(** and if the directory is absolute the file is in it *)
Theorem C73_inside E c tf p : plain_base (c_targets_dir c) = true -> has_prefix "/" (c_targets_dir c) = true -> tf_path tf ∉ ["" ; "."; ".."] ->
  target_file_path E c tf = Ok p -> exists name, plain_name name /\ p = in_dir (c_targets_dir c) name.
Proof. exact (target_file_inside E c tf p). Qed.
Print Assumptions C73_inside.
Definition config_dir (dir : string) : config := mkConfig 32 32 512000 16384 2000000 5000000 (bytes_of (ex_root 1)) "/m" dir "https://r" "https://t" false true false.
Definition of_path (path : string) : targetfile := mkTargetFile 5 None None path None.
Example C73_case : map (fun p => target_file_path (ex_env []) (config_dir "/t") (of_path p)) ["a/b"; "../x"; "a%2Fb"] = [Ok "/t/a%2Fb"; Ok "/t/..%2Fx"; Ok "/t/a%252Fb"].
Proof. vm_compute. reflexivity. Qed.
(** refuted for "", "." and "..": the first two share a name, the third is outside the directory *)
Theorem C73_dots_refuted : exists E c, c_targets_dir c = "/t" /\ target_file_path E c (of_path "") = Ok "/t" /\ target_file_path E c (of_path ".") = Ok "/t" /\ target_file_path E c (of_path "..") = Ok "/".
Proof. exists (ex_env []), (config_dir "/t"). vm_compute. repeat split; reflexivity. Qed.
Print Assumptions C73_dots_refuted.
(** refuted for relative directories that go up: "../t" becomes "t" *)
Theorem C73_relative_refuted : exists E c, c_targets_dir c = "../t" /\ target_file_path E c (of_path "a") = Ok "t/a".
Proof. exists (ex_env []), (config_dir "../t"). vm_compute. split; reflexivity. Qed.
Print Assumptions C73_relative_refuted.

(** ** C74: refuted, New replaces a newer cached root with the one it was given *)
Theorem C74_refuted : exists (CR : Crypto) E c now i i' t d d' r r', updater_new E c now i = (i', Ok t) /\ io_disk i !! cache_name c "root" = Some d /\ io_disk i' !! cache_name c "root" = Some d' /\
  from_bytes d = Ok r /\ from_bytes d' = Ok r' /\ rt_version (md_signed r') < rt_version (md_signed r).
Proof.
  set (i := files_of [("/m/root.json", bytes_of (ex_root 2))]). exists toy_crypto, (ex_env ex_files), ex_config, ex_now, i.
  enough (match updater_new (ex_env ex_files) ex_config ex_now i with
    | (i', Ok _) => match io_disk i !! "/m/root.json", io_disk i' !! "/m/root.json" with
                    | Some d, Some d' => match from_bytes (T := root_t) d, from_bytes (T := root_t) d' with Ok r, Ok r' => rt_version (md_signed r') <? rt_version (md_signed r) | _, _ => false end
                    | _, _ => false end
    | _ => false end = true) as H; [|vm_compute; reflexivity].
  destruct (updater_new _ _ _ _) as [i' [t| |]] eqn:H1; [|discriminate H..]. destruct (io_disk i !! "/m/root.json") as [d|] eqn:H2; [|discriminate H]. destruct (io_disk i' !! "/m/root.json") as [d'|] eqn:H3; [|discriminate H].
  destruct (from_bytes (T := root_t) d) as [r| |] eqn:H4; [|discriminate H..]. destruct (from_bytes (T := root_t) d') as [r'| |] eqn:H5; [|discriminate H..]. apply Z.ltb_lt in H.
  exists i', t, d, d', r, r'. exact (conj eq_refl (conj H2 (conj H3 (conj H4 (conj H5 H))))).
Qed.
Print Assumptions C74_refuted.
(** within a session, at every crash point, a new content of the cached root file is a successor of the trusted root (see
    C38_chain_versions for its version); no delegated role may be called root *)
Theorem C74_session {CR : Crypto} E c a w w' o evs d now : session E c now w -> call_api E c a w = (w', o) -> (forall tf p u, a <> DownloadTarget tf p u) -> happened (w_io w) (w_io w') evs -> crash (io_disk (w_io w)) evs d ->
  t_targets (w_trusted w') !! "root" = None ->
  d !! cache_name c "root" = io_disk (w_io w) !! cache_name c "root" \/
  exists data r n, d !! cache_name c "root" = Some data /\ document data r /\ root_chain n (t_root (w_trusted w)) r.
Proof. exact (root_file E c a w w' o evs d now). Qed.
Print Assumptions C74_session.
Example C74_case : exists w w' o, session (ex_env ex_files) ex_config ex_now w /\ call_api (ex_env ex_files) ex_config Refresh w = (w', o) /\
  t_targets (w_trusted w') !! "root" = None /\ io_disk (w_io w) !! "/m/root.json" = Some (bytes_of (ex_root 1)) /\ io_disk (w_io w') !! "/m/root.json" = Some (bytes_of (ex_root 2)).
Proof. apply (case_call _ _ no_files [] _ (fun w w' o => _ = None /\ _ = Some _ /\ _ = Some _)). vm_compute. repeat split; reflexivity. Qed.

(** ** C83: refuted, GetTargetInfo downloads delegated roles also in unsafe local mode *)
Definition local_config := ex_config_with (bytes_of (ex_root 1)) false true.
Definition local_files := files_of [("/m/timestamp.json", bytes_of (mk_timestamp 1 (mk_snapshot two_roles))); ("/m/snapshot.json", bytes_of (mk_snapshot two_roles)); ("/m/targets.json", bytes_of (mk_targets [pkA] [("top", "top file")] [ex_dr "d1" [idB] false ["a/*"]; ex_dr "d2" [idC] false ["a/*"]]))].
Theorem C83_refuted : exists (CR : Crypto) E c now w w' o evs path url, session E c now w /\ c_unsafe_local c = true /\ call_api E c (GetTargetInfo path) w = (w', o) /\ happened (w_io w) (w_io w') evs /\ downloads evs = [url].
Proof.
  exists toy_crypto, (ex_env (mk_files two_roles)), local_config, ex_now.
  destruct (case_events (ex_env (mk_files two_roles)) local_config local_files [Refresh] (GetTargetInfo "a/x") (fun w w' evs => downloads evs = ["https://r/1.d2.json"])) as (w & w' & o & evs & H1 & H2 & H3 & H4); [vm_compute; reflexivity|].
  exists w, w', o, evs, "a/x", "https://r/1.d2.json". exact (conj H1 (conj eq_refl (conj H2 (conj H3 H4)))).
Qed.
Print Assumptions C83_refuted.
