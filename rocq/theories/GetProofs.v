(** * The example client gets every target of a publishing repository: proofs for C123 *)
From stdpp Require Import base gmap strings list.
From Coq Require Import ZArith Ascii String Lia.
From Verif Require Import GoBase GoStr Json GoTime Types Marshal Keys Metadata TrustedMetadata Fetcher Updater Cli SpecSig SpecBasic SpecTrusted SpecUpdater SpecHistory SpecReach SpecLive SpecCli SpecGet
  StrProofs PathProofs CleanProofs SigProofs BasicProofs SerialProofs TrustedProofs UpdaterProofs EventProofs RefreshProofs ApiProofs BlockProofs ClaimProofs FinalProofs WalkProofs HonestProofs HistoryProofs ReachProofs LiveProofs CliProofs InitProofs.
Open Scope Z_scope.

Section GetProofs.
Context {CR : Crypto} (E : env).
Lemma settings_config f cwd root c u : url_join E (g_url f) "targets" = Ok u -> get_settings f cwd root c -> get_config E f cwd root = Ok c.
Proof.
  intros Hu. destruct c as [rot del rmax tmax smax gmax rt mdir tdir murl turl off pre loc]. unfold get_settings. cbn.
  intros (-> & -> & -> & -> & H1 & H2 & H3 & -> & -> & -> & -> & -> & -> & -> & ->). unfold get_config, config_new. rewrite Hu. cbn. f_equal.
  assert ((if String.eqb (g_turl f) "" then g_url f else g_turl f) = turl) as -> by (destruct (String.eqb_spec (g_turl f) ""); symmetry; auto).
  assert (negb (g_nonprefixed f) = pre) as -> by (destruct (g_nonprefixed f), pre; cbn; try done; [by destruct H3 as [H3 _]; specialize (H3 eq_refl)|by destruct H3 as [_ H3]; specialize (H3 eq_refl)]). done.
Qed.
Lemma publishing_later c tr tr' r0 r now Rs : later tr tr' -> publishing E c tr r0 r now Rs -> publishing E c tr' r0 r now Rs.
Proof.
  intros Hl [H1 H2]. split; [|intros t Ht; apply H2; by eapply later_trans]. intros R HR. destruct (H1 R HR) as [Ha Hb]. split.
  - intros j data r1 Hj. destruct (Ha j data r1 Hj) as [? Hs]. split; [done|]. intros t len Ht. apply Hs. by eapply later_trans.
  - intros t len Ht. apply Hb. by eapply later_trans.
Qed.
Lemma rooted_download cwd : has_prefix "/" cwd = true -> has_prefix "/" (download_dir cwd) = true.
Proof. intros Hr. unfold download_dir, path_join. assert (cwd <> "") by (by intros ->). rewrite !filter_cons_True by done. rewrite filter_nil. cbn [join_str]. rewrite clean_rooted by (by rewrite has_prefix_join). done. Qed.
(** the file of the target *)
Lemma place_ok cwd c tf : has_prefix "/" cwd = true -> plain_base (download_dir cwd) = true -> c_targets_dir c = download_dir cwd -> tf_path tf <> "" -> tf_path tf <> "." -> tf_path tf <> ".." ->
  target_file_path E c tf = Ok (download_dir cwd +:+ "/" +:+ query_escape (tf_path tf)).
Proof.
  intros Hr Hb Hd H1 H2 H3. assert (exists p, target_file_path E c tf = Ok p) as [p Hp]; [|by rewrite <- (target_place E cwd c tf p)].
  unfold target_file_path, url_join. rewrite Hd, Hb. destruct (String.eqb_spec (download_dir cwd) "") as [Hx|_].
  { pose proof (rooted_download cwd Hr) as Hdr. by rewrite Hx in Hdr. }
  cbn [andb]. destruct (has_prefix "/" (download_dir cwd)); eauto.
Qed.
Lemma settings_url f cwd root c : get_settings f cwd root c -> c_metadata_url c <> "" -> c_targets_url c <> "".
Proof. intros (_ & _ & _ & Hu & H1 & H2 & _) Hne. destruct (decide (g_turl f = "")) as [Ht|Ht]; [rewrite H1 by done; by rewrite <- Hu|by rewrite H2]. Qed.

(** the part after New *)
Lemma get_target_live f cwd root c r0 r now Rs i target : e_cwd E = Some cwd -> has_prefix "/" cwd = true -> plain_base (download_dir cwd) = true -> target <> "" -> target <> "." -> target <> ".." ->
  get_settings f cwd root c -> publishing E c (io_trace i) r0 r now Rs -> client_ready E c r0 r now Rs i -> (forall R, R ∈ Rs -> exists tf data, offers r now R target tf data) ->
  exists R tf data i1 t w d, R ∈ Rs /\ offers r now R target tf data /\ updater_new E c now i = (i1, Ok t) /\
    get_target E c target (mkWorld t i1) = (w, Ok (download_dir cwd +:+ "/" +:+ query_escape target)) /\ io_disk (w_io w) !! (download_dir cwd +:+ "/" +:+ query_escape target) = Some d /\ matches_target tf d /\ matches_target tf data.
Proof.
  intros Hcwd Hrt Hb T1 T2 T3 Hset Hpub Hcr Hoff.
  assert (c_metadata_url c <> "") as Hmu by (destruct Hcr as (_ & _ & ? & _); done). pose proof (settings_url _ _ _ _ Hset Hmu) as Htu.
  assert (c_targets_dir c = download_dir cwd) as Htd by apply Hset. assert (c_disable_cache c = false) as Hdis by apply Hset. assert (c_max_delegations c = 32) as Hmax by apply Hset.
  destruct (live_started E c r0 r now Rs i Hpub Hcr) as (R & i1 & t & w1 & tr0 & HR & Hsd & Hup & _ & _ & Hl & Hnew & Href & _ & HI & _).
  destruct (Hoff R HR) as (tf & data & Ho). pose proof Ho as (Hfol & Hterm & Hsize & (x & fx & Hlead & Hx & He) & Hsame & Hin).
  destruct (get_target_info E c target w1) as [w2 o] eqn:Hg. destruct (live_search E c r0 r now R tr0 target w1 w2 o Hsd Hup Hl HI Hfol Hg) as (Hl2 & HI2 & l & v & H4 & H5 & H6 & H7).
  assert (v = OutOfBudget -> List.length l = budget c) as Hbud. { intros ->. unfold walked in H7. destruct o as [?|?|]; [done| |done]. destruct H7 as [?|[_ [?|[?|[_ ?]]]]]; done. }
  destruct (search_complete r (rel_pub R) now (rel_roles R) target l v (budget c) x fx (Some tf) H4) as [tf' ->]; try done; [unfold budget; rewrite Hmax; lia|].
  destruct (search_leads _ _ _ _ _ _ H4 tf' eq_refl) as (r1 & r2 & m & Hr1 & Hld & Hm & He' & _). apply elem_of_list_singleton in Hr1 as ->. apply everything_lookup in Hm as (f' & Hf' & ->).
  pose proof (Hsame _ _ _ Hld Hf' He') as ->. assert (o = Ok (Some tf)) as -> by (unfold walked in H7; destruct o as [?|?|]; [congruence|destruct H7 as [?|[_ [?|[?|[? _]]]]]; done|done]).
  pose proof (session_new E c now _ _ t Hnew) as Hse. pose proof (session_step E c now _ Refresh _ _ Hse Href) as Hse1. destruct (info_authorised E c now _ _ _ _ Hse1 Hg) as (tf1 & _ & _ & [= <-] & Hpath & _).
  assert (target_file_path E c tf = Ok (download_dir cwd +:+ "/" +:+ query_escape target)) as Hplace by (rewrite <- Hpath; apply place_ok; rewrite ?Hpath; done).
  set (p := download_dir cwd +:+ "/" +:+ query_escape target) in *. assert (p <> "") as Hp by (unfold p; intros [_ [=]]%app_eq_nil_s).
  assert (matches_target tf data) as Hmd by (destruct Hsd as (_ & _ & _ & _ & _ & _ & Hfiles); apply (Hfiles _ _ Hin)).
  enough (exists w d, get_target E c target (mkWorld t i1) = (w, Ok p) /\ io_disk (w_io w) !! p = Some d /\ matches_target tf d) as (w & d & K1 & K2 & K3) by (exists R, tf, data, i1, t, w, d; done).
  unfold get_target. rewrite (HonestProofs.sbind_run _ _ _ _ _ Href), (HonestProofs.sbind_run _ _ _ _ _ Hg).
  destruct (lift (find_cached_target E c tf "") w2) as [w3 o3] eqn:H3. pose proof H3 as [H3' Htr3]%lift_inv. destruct (find_cached_ok E c tf "" _ _ _ H3') as (Hdisk & (evs & Hev & _) & Hfound).
  destruct Hfound as [-> |[(p0 & d & -> & Hp0 & Hmt & [[? _]|[_ Hff]])|(_ & Hno & _)]]; [|done| |by destruct (Hno p)].
  - rewrite (HonestProofs.sbind_run _ _ _ _ _ H3). cbn [fst]. cbn [String.eqb negb].
    assert (later tr0 (wtr w3)) as Hl3 by (eapply later_trans; [exact Hl2|]; by exists evs).
    assert (Inv (moved tr0 E) c r (rel_pub R) now (rel_roles R) w3) as HI3.
    { eapply inv_elsewhere; [exact HI2|exact Htr3| |].
      - rewrite Hdisk. by destruct HI2 as (_ & _ & _ & _ & _ & _ & ? & _).
      - intros role. by rewrite Hdisk. }
    destruct (live_download E c r0 r now R tr0 w3 tf data "" p Hsd Hup Hl3 HI3 Htu Hin) as (w4 & Hdl & Hst); [by right|].
    rewrite (HonestProofs.sbind_run _ _ _ _ _ Hdl). exists w4, data. split_and!; try done. by apply Hst.
  - rewrite (HonestProofs.sbind_run _ _ _ _ _ H3). cbn [fst]. assert (p0 = p) as -> by congruence. rewrite (proj2 (String.eqb_neq _ _) Hp). cbn [negb].
    exists w3, d. split_and!; try done. by rewrite Hdisk.
Qed.
Lemma get_live f cwd root c r0 r now Rs i target u : e_cwd E = Some cwd -> has_prefix "/" cwd = true -> plain_base (download_dir cwd) = true -> target <> "" -> target <> "." -> target <> ".." ->
  url_join E (g_url f) "targets" = Ok u -> io_disk i !! trusted_root_file cwd = Some root ->
  get_settings f cwd root c -> publishing E c (io_trace i) r0 r now Rs -> client_ready E c r0 r now Rs i -> (forall R, R ∈ Rs -> exists tf data, offers r now R target tf data) ->
  exists R tf data i' d, R ∈ Rs /\ offers r now R target tf data /\ get_cmd E f target now i = (i', Ok (download_dir cwd +:+ "/" +:+ query_escape target)) /\
    io_disk i' !! (download_dir cwd +:+ "/" +:+ query_escape target) = Some d /\ matches_target tf d /\ matches_target tf data.
Proof.
  intros Hcwd Hrt Hb T1 T2 T3 Hu Hroot Hset Hpub Hcr Hoff.
  assert (forall tr, e_io E tr = true) as Hio. { destruct Hcr as (_ & _ & _ & _ & [Hd|(_ & _ & ? & _)] & _); [|done]. destruct Hset as (_ & _ & _ & _ & _ & _ & _ & Hx & _). congruence. }
  unfold get_cmd, getwd. rewrite Hcwd. unfold sbind at 1, sout at 1.
  assert (forall p k, stat E p k = (log (io_disk k) k EvChoice, Ok tt)) as Hstat by (intros p k; unfold stat; by rewrite Hio).
  rewrite (HonestProofs.sbind_run _ _ _ _ _ (Hstat _ _)). rewrite (HonestProofs.sbind_run _ _ _ _ _ (Hstat _ _)). rewrite (HonestProofs.sbind_run _ _ _ _ _ (Hstat _ _)).
  set (i1 := log _ _ _). assert (io_disk i1 = io_disk i) as Hd1 by done. assert (later (io_trace i) (io_trace i1)) as Hl1 by (unfold i1; cbn; do 3 (eapply later_trans; [|apply later_app]); apply later_refl).
  assert (read_file E (path_join [path_join [cwd; METADATA_DIR]; "root.json"]) i1 = (log (io_disk i1) i1 (EvRead (trusted_root_file cwd) (Ok root)), Ok root)) as Hread.
  { unfold read_file. change (path_join [path_join [cwd; METADATA_DIR]; "root.json"]) with (trusted_root_file cwd). rewrite Hd1, Hroot, Hio. done. }
  rewrite (HonestProofs.sbind_run _ _ _ _ _ Hread). set (i2 := log _ _ _). assert (io_disk i2 = io_disk i) as Hd2 by done. assert (later (io_trace i) (io_trace i2)) as Hl2 by (eapply later_trans; [exact Hl1|apply later_app]).
  rewrite (settings_config f cwd root c u Hu Hset). unfold sbind at 1, sout at 1.
  destruct (get_target_live f cwd root c r0 r now Rs i2 target) as (R & tf & data & i3 & t & w & d & HR & Ho & Hnew & Hg & Hrest); try done.
  { by eapply publishing_later. }
  rewrite (HonestProofs.sbind_run _ _ _ _ _ Hnew). unfold with_updater. rewrite Hg. exists R, tf, data, (w_io w), d. done.
Qed.

(** ** init *)
Lemma init_live url now i cwd u root (r0 : metadata root_t) : e_cwd E = Some cwd -> has_prefix "/" cwd = true -> (forall tr, e_io E tr = true) ->
  (forall s, io_disk i !! (metadata_dir cwd +:+ "/" +:+ s) = None) -> (forall s, io_disk i !! (download_dir cwd +:+ "/" +:+ s) = None) ->
  url_join E url "1.root.json" = Ok u -> serves_from E (io_trace i) u root -> Z.of_nat (String.length root) < 2 ^ 63 -> document root r0 -> root_signs r0 "root" r0 ->
  exists i', init_cmd E url "" now i = (i', Ok tt) /\ io_disk i' = <[trusted_root_file cwd := root]> (io_disk i) /\ later (io_trace i) (io_trace i').
Proof.
  intros Hcwd Hrt Hio Hm Hdl Hu Hs Hlen Hdoc Hsig. apply below_none in Hm, Hdl. unfold init_cmd, prepare_environment, getwd. rewrite Hcwd.
  unfold sbind at 2, sout at 1.
  assert (forall p k, below p (io_disk k) = [] -> mkdir E p k = (log (io_disk k) k (EvMkdir p true), Ok tt)) as Hmk by (intros p k Hk; unfold mkdir; rewrite Hk, Hio; done).
  unfold sbind at 1. rewrite (HonestProofs.sbind_run _ _ _ _ _ (Hmk (path_join [cwd; METADATA_DIR]) i Hm)).
  set (i1 := log _ _ _). rewrite (HonestProofs.sbind_run _ _ _ _ _ (Hmk (path_join [cwd; DOWNLOAD_DIR]) i1 Hdl)). set (i2 := log _ _ _). cbn [sret].
  unfold sret at 1. unfold sbind at 1, sout at 1. cbn [String.eqb].
  assert (later (io_trace i) (io_trace i2)) as Hl2 by (unfold i2, i1; cbn; do 2 (eapply later_trans; [|apply later_app]); apply later_refl).
  change (path_join [cwd; METADATA_DIR]) with (metadata_dir cwd).
  assert (exists i4, fetch_trusted_root E url (metadata_dir cwd) i2 = (i4, Ok (metadata_dir cwd)) /\ io_disk i4 = <[trusted_root_file cwd := root]> (io_disk i) /\ later (io_trace i) (io_trace i4)) as (i4 & Hf & Hd4 & Hl4).
  { unfold fetch_trusted_root. rewrite Hu. unfold sbind at 1, sout at 1.
    assert (fetch E u no_limit i2 = (log (io_disk i2) i2 (EvGet u no_limit (Ok root)), Ok root)) as Hfe by (unfold fetch; rewrite (Hs (io_trace i2) no_limit) by (done || (unfold no_limit; lia)); done).
    rewrite (HonestProofs.sbind_run _ _ _ _ _ Hfe). set (i3 := log _ _ _).
    assert (write_file E (path_join [metadata_dir cwd; "root.json"]) root i3 = (log (<[trusted_root_file cwd := root]> (io_disk i3)) i3 (EvWrite (trusted_root_file cwd) root), Ok tt)) as Hwr by (unfold write_file; rewrite Hio; done).
    rewrite (HonestProofs.sbind_run _ _ _ _ _ Hwr). eexists. split; [done|]. split; [done|]. do 2 (eapply later_trans; [|apply later_app]). exact Hl2. }
  unfold sbind at 1. rewrite (HonestProofs.sbind_run _ _ _ _ _ Hf). unfold sret at 1. rewrite root_file_slash, absolute_rooted by by apply rooted_root_file.
  assert (read_file E (trusted_root_file cwd) i4 = (log (io_disk i4) i4 (EvRead (trusted_root_file cwd) (Ok root)), Ok root)) as Hread.
  { assert (io_disk i4 !! trusted_root_file cwd = Some root) as Hx by (rewrite Hd4; apply (lookup_insert (M := gmap string))). unfold read_file. rewrite Hx, Hio. done. }
  rewrite (HonestProofs.sbind_run _ _ _ _ _ Hread). destruct (tm_new root now) as [t| |] eqn:Ht.
  - eexists. split; [done|]. split; [exact Hd4|]. eapply later_trans; [exact Hl4|apply later_app].
  - assert (tm_new root now = Ok (mkTrusted r0 None None ∅ now)) by (apply tm_new_spec; by exists r0). congruence.
  - assert (tm_new root now = Ok (mkTrusted r0 None None ∅ now)) by (apply tm_new_spec; by exists r0). congruence.
Qed.
End GetProofs.
