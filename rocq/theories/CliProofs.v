(** * The example client: proofs for C99-C102 *)
From stdpp Require Import base gmap strings list.
From Coq Require Import ZArith Ascii String Lia.
From Verif Require Import GoBase GoStr Json GoTime Types Marshal Keys Metadata TrustedMetadata Fetcher Updater Cli SpecSig SpecBasic SpecTrusted SpecUpdater SpecHistory SpecCli
  StrProofs PathProofs CleanProofs SigProofs BasicProofs SerialProofs TrustedProofs UpdaterProofs EventProofs RefreshProofs ApiProofs BlockProofs ClaimProofs FinalProofs HonestProofs HistoryProofs.
Open Scope Z_scope.

Section CliGet.
Context {CR : Crypto} (E : env).
(** ** What the commands are made of *)
Definition silent (e : event) : Prop := match e with EvGet _ _ _ | EvRead _ _ | EvMkdir _ _ | EvFail _ _ | EvChoice => True | _ => False end.
Lemma silent_crash evs d d' : Forall silent evs -> crash d evs d' -> d' = d.
Proof. intros Hf. apply no_effect_crash. intros e He. rewrite Forall_forall in Hf. specialize (Hf e He). by destruct e. Qed.
Lemma silent_replay evs d : Forall silent evs -> replay d evs = d.
Proof. intros Hf. apply (silent_crash evs d); [done|]. apply crash_whole. Qed.
Definition quiet {A} (m : IO A) : Prop := forall i i' o, m i = (i', o) -> exists evs, explains i i' evs /\ Forall silent evs.
Lemma quiet_disk {A} (m : IO A) i i' o : quiet m -> m i = (i', o) -> io_disk i' = io_disk i.
Proof. intros Hq (evs & [_ He] & Hf)%Hq. rewrite He. by apply silent_replay. Qed.
Lemma quiet_sout {A} (o : outcome A) : quiet (sout o).
Proof. intros i i' o' [= <- <-]. exists []. split; [apply explains_nil|constructor]. Qed.
Lemma quiet_read p : quiet (read_file E p).
Proof. intros i i' o [= <- <-]. eexists [_]. split; [by apply explains_log|]. by repeat constructor. Qed.
Lemma quiet_stat p : quiet (stat E p).
Proof. intros i i' o [= <- <-]. eexists [_]. split; [by apply explains_log|]. by repeat constructor. Qed.
Lemma quiet_mkdir p : quiet (mkdir E p).
Proof. intros i i' o [= <- <-]. eexists [_]. split; [by apply explains_log|]. by repeat constructor. Qed.
Lemma quiet_fetch u n : quiet (fetch E u n).
Proof. intros i i' o [= <- <-]. eexists [_]. split; [by apply explains_log|]. by repeat constructor. Qed.
Lemma quiet_bind {A B} (m : IO A) (f : A -> IO B) : quiet m -> (forall a, quiet (f a)) -> quiet (sbind m f).
Proof.
  intros Hm Hf i i' o H. apply sbind_inv in H as [(s1 & a & H1 & H)|[(e & H1 & _)|[H1 _]]]; [|by eapply Hm..].
  apply Hm in H1 as (e1 & He1 & Hs1). apply Hf in H as (e2 & He2 & Hs2). exists (e1 ++ e2). split; [by eapply explains_app|]. apply Forall_app. done.
Qed.
Lemma read_ok p i i' data : read_file E p i = (i', Ok data) -> io_disk i !! p = Some data.
Proof. unfold read_file. intros [= _ H]. destruct (io_disk i !! p) as [x|]; [|done]. destruct (e_io E (io_trace i)); [|done]. by injection H as ->. Qed.

(** ** get *)
(** the calls of the updater's API that a run of get makes *)
Definition run_calls (c : config) (l : list api) (w : world) : world := fold_left (fun w a => fst (call_api E c a w)) l w.
Definition get_call (target : string) (a : api) : Prop :=
  a = Refresh \/ a = GetTargetInfo target \/ (exists tf, a = FindCachedTarget tf "") \/ exists tf, a = DownloadTarget tf "" "".
Lemma get_target_calls c target w w' o : get_target E c target w = (w', o) -> exists l, w' = run_calls c l w /\ Forall (get_call target) l.
Proof.
  unfold get_target. intros H.
  assert (forall w1 o1, refresh E c w = (w1, o1) -> run_calls c [Refresh] w = w1) as Hr by (intros w1 o1 H1; unfold run_calls; cbn [fold_left call_api]; by rewrite H1).
  assert (get_call target Refresh) as G1 by (by left). assert (get_call target (GetTargetInfo target)) as G2 by (right; by left).
  apply sbind_inv in H as [(w1 & [] & H1 & H)|[(e & H1 & _)|[H1 _]]].
  2,3: exists [Refresh]; split; [symmetry; by eapply Hr|solve [repeat (apply Forall_cons; split; [assumption|]); apply Forall_nil; exact I]].
  assert (forall w2 o2, get_target_info E c target w1 = (w2, o2) -> run_calls c [Refresh; GetTargetInfo target] w = w2) as Hi.
  { intros w2 o2 H2. unfold run_calls. cbn [fold_left call_api]. rewrite H1. cbn [fst]. by rewrite H2. }
  apply sbind_inv in H as [(w2 & oo & H2 & H)|[(e & H2 & _)|[H2 _]]].
  2,3: exists [Refresh; GetTargetInfo target]; split; [symmetry; by eapply Hi|solve [repeat (apply Forall_cons; split; [assumption|]); apply Forall_nil; exact I]].
  destruct oo as [tf|]; [|injection H as <- _; exists [Refresh; GetTargetInfo target]; split; [symmetry; by eapply Hi|solve [repeat (apply Forall_cons; split; [assumption|]); apply Forall_nil; exact I]]].
  assert (forall w3 o3, lift (find_cached_target E c tf "") w2 = (w3, o3) -> run_calls c [Refresh; GetTargetInfo target; FindCachedTarget tf ""] w = w3) as Hf.
  { intros w3 o3 H3. change [Refresh; GetTargetInfo target; FindCachedTarget tf ""] with ([Refresh; GetTargetInfo target] ++ [FindCachedTarget tf ""]). unfold run_calls in *. rewrite fold_left_app, (Hi _ _ H2). cbn [fold_left call_api]. by rewrite H3. }
  assert (get_call target (FindCachedTarget tf "")) as G3 by (right; right; left; by exists tf). assert (get_call target (DownloadTarget tf "" "")) as G4 by (right; right; right; by exists tf).
  apply sbind_inv in H as [(w3 & found & H3 & H)|[(e & H3 & _)|[H3 _]]].
  2,3: exists [Refresh; GetTargetInfo target; FindCachedTarget tf ""]; split; [symmetry; by eapply Hf|solve [repeat (apply Forall_cons; split; [assumption|]); apply Forall_nil; exact I]].
  destruct (negb (String.eqb (fst found) "")).
  { injection H as <- _. exists [Refresh; GetTargetInfo target; FindCachedTarget tf ""]. split; [symmetry; by eapply Hf|solve [repeat (apply Forall_cons; split; [assumption|]); apply Forall_nil; exact I]]. }
  exists [Refresh; GetTargetInfo target; FindCachedTarget tf ""; DownloadTarget tf "" ""]. split; [|solve [repeat (apply Forall_cons; split; [assumption|]); apply Forall_nil; exact I]].
  change [Refresh; GetTargetInfo target; FindCachedTarget tf ""; DownloadTarget tf "" ""] with ([Refresh; GetTargetInfo target; FindCachedTarget tf ""] ++ [DownloadTarget tf "" ""]).
  unfold run_calls in *. rewrite fold_left_app, (Hf _ _ H3). cbn [fold_left call_api].
  apply sbind_inv in H as [(w4 & got & H4 & H)|[(e & H4 & _)|[H4 _]]]; rewrite H4; [by injection H as <- _|done|done].
Qed.
Lemma get_config_ok f cwd root c : get_config E f cwd root = Ok c -> c_metadata_dir c = metadata_dir cwd /\ c_targets_dir c = download_dir cwd /\ c_trusted_root c = root /\ c_disable_cache c = false /\ c_unsafe_local c = false /\ c_metadata_url c = g_url f.
Proof. unfold get_config, config_new. destruct (url_join E (g_url f) "targets"); cbn; [|done|done]. by intros [= <-]. Qed.
(** a run of get stops before it has an updater and has changed nothing, or it makes one from the root file and calls it *)
Inductive get_run (f : get_flags) (target : string) (now : Z) (i i' : ios) : outcome string -> Prop :=
  | run_early o evs : explains i i' evs -> Forall silent evs -> (forall p, o <> Ok p) -> get_run f target now i i' o
  | run_new o cwd root c i1 evs0 o1 : e_cwd E = Some cwd -> explains i i1 evs0 -> Forall silent evs0 -> io_disk i !! trusted_root_file cwd = Some root -> get_config E f cwd root = Ok c ->
      updater_new E c now i1 = (i', o1) -> (forall t, o1 <> Ok t) -> (forall p, o <> Ok p) -> get_run f target now i i' o
  | run_used o cwd root c i1 i2 t evs0 w' : e_cwd E = Some cwd -> explains i i1 evs0 -> Forall silent evs0 -> io_disk i !! trusted_root_file cwd = Some root -> get_config E f cwd root = Ok c ->
      updater_new E c now i1 = (i2, Ok t) -> get_target E c target (mkWorld t i2) = (w', o) -> i' = w_io w' -> get_run f target now i i' o.
Lemma get_cmd_run f target now i i' o : get_cmd E f target now i = (i', o) -> get_run f target now i i' o.
Proof.
  unfold get_cmd. intros H.
  apply sbind_inv in H as [(i0 & cwd & H0 & H)|[(e & H0 & ->)|[H0 ->]]].
  2,3: unfold getwd in H0; destruct (quiet_sout _ _ _ _ H0) as (evs & ? & ?); by eapply run_early.
  unfold getwd in H0. injection H0 as <- Hcwd. destruct (e_cwd E) as [d|] eqn:Ed; [|done]. injection Hcwd as ->. cbn zeta in H.
  set (pre := fun (x : unit) => _) in H.
  assert (forall m : IO unit, quiet m -> forall i i' o (k : unit -> IO string), sbind m k i = (i', o) -> (exists evs, explains i i' evs /\ Forall silent evs /\ forall p, o <> Ok p) \/ exists i1 evs, explains i i1 evs /\ Forall silent evs /\ k tt i1 = (i', o)) as Hstep.
  { intros m Hm j j' o' k Hk. apply sbind_inv in Hk as [(s1 & [] & H1 & Hk)|[(e & H1 & ->)|[H1 ->]]]; destruct (Hm _ _ _ H1) as (evs & He & Hs); [right; by exists s1, evs|left; by exists evs..]. }
  apply Hstep in H as [(evs & He & Hs & Ho)|(i1 & e1 & He1 & Hs1 & H)]; [by eapply run_early| |apply quiet_stat]. unfold pre in H. clear pre.
  apply Hstep in H as [(evs & He & Hs & Ho)|(i2 & e2 & He2 & Hs2 & H)]; [|  |apply quiet_stat].
  { eapply run_early; [by eapply explains_app|by apply Forall_app|done]. }
  apply Hstep in H as [(evs & He & Hs & Ho)|(i3 & e3 & He3 & Hs3 & H)]; [|  |apply quiet_stat].
  { eapply run_early; [eapply explains_app; [eapply explains_app|]|apply Forall_app; split; [apply Forall_app; split|]|done]; eauto. }
  pose proof (explains_app _ _ _ _ _ (explains_app _ _ _ _ _ He1 He2) He3) as He. assert (Forall silent ((e1 ++ e2) ++ e3)) as Hs by (apply Forall_app; split; [apply Forall_app; split|]; done).
  clear He1 He2 He3 Hs1 Hs2 Hs3. set (evs := (e1 ++ e2) ++ e3) in *. clearbody evs. clear e1 e2 e3 i1 i2.
  apply sbind_inv in H as [(i4 & root & H4 & H)|[(e & H4 & ->)|[H4 ->]]]; destruct (quiet_read _ _ _ _ H4) as (e4 & He4 & Hs4).
  2,3: eapply run_early; [by eapply explains_app|by apply Forall_app|done].
  apply read_ok in H4. assert (io_disk i3 = io_disk i) as Hd by (destruct He as [_ ->]; by apply silent_replay). rewrite Hd in H4.
  pose proof (explains_app _ _ _ _ _ He He4) as He'. assert (Forall silent (evs ++ e4)) as Hs' by (by apply Forall_app).
  apply sbind_inv in H as [(i5 & c & H5 & H)|[(e & H5 & ->)|[H5 ->]]]; injection H5 as <- H5.
  2,3: by eapply run_early.
  apply sbind_inv in H as [(i6 & t & H6 & H)|[(e & H6 & ->)|[H6 ->]]].
  2,3: by eapply (run_new _ _ _ _ _ _ cwd root c i4).
  unfold with_updater in H. destruct (get_target E c target (mkWorld t i6)) as [w' o'] eqn:Hg. injection H as <- <-. by eapply (run_used _ _ _ _ _ _ cwd root c i4 i6 t).
Qed.

(** ** The target that get delivers *)
Lemma session_refresh_calls c now w a : session E c now w -> session E c now (fst (call_api E c a w)).
Proof. by constructor. Qed.
Lemma keep_top_level c now w w' a o : session E c now w -> call_api E c a w = (w', o) -> top_level_set (w_trusted w) -> (exists m, t_targets (w_trusted w) !! "targets" = Some m) -> top_level_set (w_trusted w').
Proof.
  intros Hs H Ht [m Hm]. pose proof (call_api_calls E c a w) as Hc. rewrite H in Hc. cbn [fst] in Hc. eapply dcalls_targets_keep in Hm; [|exact Hc].
  eapply dinv_top_level; [eapply session_reachable, session_step; eauto|eapply session_dinv, session_step; eauto|done].
Qed.
Lemma get_delivers f target now i i' p : get_cmd E f target now i = (i', Ok p) ->
  exists cwd root r data, e_cwd E = Some cwd /\ io_disk i !! trusted_root_file cwd = Some root /\ document root r /\ root_signs r "root" r /\
    io_disk i' !! p = Some data /\ authentic r now target data /\ exists tf c, get_config E f cwd root = Ok c /\ tf_path tf = target /\ target_file_path E c tf = Ok p.
Proof.
  intros H. apply get_cmd_run in H. inversion H as [o evs He Hs Ho|o cwd root c i1 evs0 o1 Hcwd He Hs Hroot Hc Hn Ho1 Ho|o cwd root c i1 i2 t evs0 w' Hcwd He Hs Hroot Hc Hn Hg Hi']; subst; [by destruct (Ho p)|by destruct (Ho p)|].
  destruct (get_config_ok _ _ _ _ Hc) as (Hdir & Htd & Hdata & Hdis & _ & _).
  pose proof (session_new E c now i1 i2 t Hn) as Hse. destruct (updater_new_ok _ _ _ _ _ _ Hn) as [Hnew _]. rewrite Hdata in Hnew.
  destruct (proj1 (tm_new_spec _ _ _) Hnew) as (r & Hr & Hrs & Ht).
  unfold get_target in Hg. apply sbind_inv in Hg as [(w1 & [] & H1 & Hg)|[(e & _ & [=])|[_ [=]]]].
  pose proof (session_step E c now _ Refresh _ _ Hse H1) as Hse1. pose proof (refresh_complete E c now _ _ Hse H1) as Htop.
  assert (exists m, t_targets (w_trusted w1) !! "targets" = Some m) as Htg by (destruct Htop as (? & ? & tg & ? & ? & ? & ? & ? & _); by exists tg).
  apply sbind_inv in Hg as [(w2 & oo & H2 & Hg)|[(e & _ & [=])|[_ [=]]]].
  assert (call_api E c (GetTargetInfo target) w1 = (w2, Ok tt)) as H2' by (cbn [call_api]; by rewrite H2).
  pose proof (session_step E c now _ _ _ _ Hse1 H2') as Hse2. pose proof (keep_top_level c now _ _ _ _ Hse1 H2' Htop Htg) as Htop2.
  destruct (info_authorised E c now _ _ _ _ Hse1 H2) as (tf & role & m & -> & Hpath & Hl & Hm & Hen).
  assert (exists n, root_chain n r (t_root (w_trusted w2))) as [n Hch].
  { destruct (session_calls E c now w2 Hse2) as (t0 & Ht0 & Hcalls). rewrite Hdata, Hnew in Ht0. injection Ht0 as <-. apply dcalls_calls in Hcalls. destruct (root_chain_calls t (w_trusted w2) Hcalls (new_range _ _ _ Hnew)) as [n Hn']. exists n. rewrite Ht in Hn'. exact Hn'. }
  destruct (loaded_verified E c now w2 role m Hse2 Hm) as (sn & Hsn & _ & Hlist & Hexp & Hauth).
  assert (forall data, matches_target tf data -> authentic r now target data) as Hauth'.
  { intros data Hd. exists (w_trusted w2), role, m, tf, n. split_and!; try done; [by eapply session_ref|by exists sn]. }
  exists cwd, root, r.
  apply sbind_inv in Hg as [(w3 & [p0 d0] & H3 & Hg)|[(e & _ & [=])|[_ [=]]]]. apply lift_inv in H3 as [H3 _].
  destruct (find_cached_ok E c tf "" _ _ _ H3) as (Hdisk & _ & Hfound). cbn [fst] in Hg. destruct (String.eqb_spec p0 "") as [-> |Hp0]; cbn [negb] in Hg.
  - apply sbind_inv in Hg as [(w4 & [p1 d1] & H4 & Hg)|[(e & _ & [=])|[_ [=]]]]. injection Hg as <- <-. destruct (download_ok E c tf "" "" _ _ _ _ H4) as (Hmt & Hff & _ & _ & Hdk).
    destruct Hdk as [[Hx _]|[_ Hdk]]; [congruence|]. exists d1. split_and!; try done.
    + rewrite Hdk. apply lookup_same.
    + by apply Hauth'.
    + exists tf, c. split_and!; [done|done|]. destruct Hff as [[? _]|[_ ?]]; done.
  - injection Hg as <- <-. destruct Hfound as [[= -> _]|[(p1 & data & [= -> ->] & Hd & Hmt & Hff)|(_ & _ & Hx)]]; [done| |by destruct (Hx (p0, d0))].
    exists data. split_and!; try done.
    + by rewrite Hdisk.
    + by apply Hauth'.
    + exists tf, c. split_and!; [done|done|]. destruct Hff as [[? _]|[_ ?]]; done.
Qed.
End CliGet.

(** ** get and the root file *)
Section CliHistory.
Context {CR : Crypto} (E : env).
Lemma run_calls_history dir d0 c l : forall w, history dir d0 (Running E c w) -> Forall (spares_root dir E c) l ->
  history dir d0 (Running E c (run_calls E c l w)) /\ exists evs, explains (w_io w) (w_io (run_calls E c l w)) evs /\ forall d, crash (io_disk (w_io w)) evs d -> history dir d0 (Stopped d).
Proof.
  induction l as [|a l IH]; intros w Hh Hl.
  - split; [exact Hh|]. exists []. split; [apply explains_nil|]. intros d Hd. apply crash_nil in Hd as ->. by eapply hist_stop.
  - apply Forall_cons in Hl as [Ha Hl]. destruct (call_api E c a w) as [w1 o1] eqn:Hc. assert (run_calls E c (a :: l) w = run_calls E c l w1) as -> by (unfold run_calls; cbn [fold_left]; by rewrite Hc).
    pose proof (hist_call dir d0 E c w a w1 o1 Hh Ha Hc) as Hh1. destruct (IH w1 Hh1 Hl) as (H1 & evs2 & He2 & Hcr2). split; [exact H1|].
    destruct (call_disk E c a w w1 o1 Hc) as (evs1 & Hp1 & Hd1). exists (evs1 ++ evs2). split; [eapply explains_app; [split; [exact Hp1|exact Hd1]|exact He2]|].
    intros d Hd. apply crash_app in Hd as [Hd|Hd]; [exact (hist_call_stopped dir d0 E c w a w1 o1 evs1 d Hh Ha Hc Hp1 Hd)|]. apply Hcr2. by rewrite Hd1.
Qed.
Lemma tuf_metadata_plain : plain_name "tuf_metadata". Proof. repeat split; done. Qed.
Lemma tuf_download_plain : plain_name "tuf_download". Proof. repeat split; done. Qed.
Lemma root_json_plain : plain_name "root.json". Proof. repeat split; done. Qed.
Lemma root_file_name cwd : trusted_root_file cwd = dir_prefix cwd +:+ "tuf_metadata/root.json".
Proof. unfold trusted_root_file, root_json, metadata_dir. rewrite join_join by (apply tuf_metadata_plain || apply root_json_plain). done. Qed.
(** target files go to the download directory *)
Lemma target_not_root cwd c tf p : has_prefix "/" cwd = true -> plain_base (download_dir cwd) = true -> c_targets_dir c = download_dir cwd -> target_file_path E c tf = Ok p -> p <> trusted_root_file cwd.
Proof.
  intros Hr Hb Hd H. assert (download_dir cwd = dir_prefix cwd +:+ "tuf_download") as Hdl by (unfold download_dir; rewrite path_join_plain by apply tuf_download_plain; apply in_dir_prefix).
  assert (has_prefix "/" (download_dir cwd) = true) as Hdr.
  { unfold download_dir, path_join. assert (cwd <> "") by (by intros ->). rewrite !filter_cons_True by done. rewrite filter_nil. cbn [join_str]. rewrite clean_rooted by (by rewrite has_prefix_join). done. }
  assert (download_dir cwd <> "") as Hne by (intros Hx; by rewrite Hx in Hdr).
  unfold target_file_path, url_join in H. rewrite Hd, (proj2 (String.eqb_neq _ "") Hne), Hb, Hdr in H. cbn [andb] in H. injection H as <-. rewrite root_file_name.
  destruct (decide (tf_path tf = "")) as [-> |H1]; [|destruct (decide (tf_path tf = ".")) as [-> |H2]; [|destruct (decide (tf_path tf = "..")) as [-> |H3]]].
  - change (query_escape "") with "". rewrite path_join_empty by done. unfold download_dir. rewrite path_join_plain by apply tuf_download_plain. rewrite in_dir_clean by apply tuf_download_plain. rewrite in_dir_prefix. intros Hx. by apply app_inj_s in Hx.
  - change (query_escape ".") with ".". rewrite path_join_dot by done. unfold download_dir. rewrite path_join_plain by apply tuf_download_plain. rewrite in_dir_clean by apply tuf_download_plain. rewrite in_dir_prefix. intros Hx. by apply app_inj_s in Hx.
  - change (query_escape "..") with "..". unfold download_dir. rewrite path_join_dotdot by (done || apply tuf_download_plain). apply clean_not_below. cbn. lia.
  - unfold download_dir. rewrite join_join by (apply tuf_download_plain || by apply escape_plain). intros Hx. apply app_inj_s in Hx. done.
Qed.
Lemma get_history d0 f target now d tr i' o evs d' cwd : e_cwd E = Some cwd -> has_prefix "/" cwd = true -> plain_base (download_dir cwd) = true ->
  history (metadata_dir cwd) d0 (Stopped d) -> get_cmd E f target now (mkIos d tr) = (i', o) -> happened (mkIos d tr) i' evs -> crash d evs d' -> history (metadata_dir cwd) d0 (Stopped d').
Proof.
  intros Hcwd Hr Hb Hh H He Hc. apply get_cmd_run in H. inversion H as [o' evs' He' Hs Ho|o' cwd' root c i1 evs0 o1 Hcwd' He' Hs Hroot Hcfg Hn Ho1 Ho|o' cwd' root c i1 i2 t evs0 w' Hcwd' He' Hs Hroot Hcfg Hn Hg Hi']; subst.
  - rewrite (happened_eq _ _ _ _ He (proj1 He')) in Hc. apply silent_crash in Hc as ->; done.
  - assert (cwd' = cwd) as -> by congruence. destruct (get_config_ok _ _ _ _ _ Hcfg) as (Hdir & _ & Hdata & _). destruct (new_disk _ _ _ _ _ _ Hn) as (evs1 & Hh1 & Hd1).
    assert (io_disk i1 = d) as Hdi by (destruct He' as [_ Hx]; rewrite Hx; by apply silent_replay).
    assert (explains (mkIos d tr) i' (evs0 ++ evs1)) as Hex by (eapply explains_app; [exact He'|split; [exact Hh1|exact Hd1]]).
    rewrite (happened_eq _ _ _ _ He (proj1 Hex)) in Hc. apply crash_app in Hc as [Hc|Hc]; [apply silent_crash in Hc as ->; done|]. rewrite (silent_replay evs0 _ Hs) in Hc.
    destruct i1 as [di tri]. cbn [io_disk] in Hdi. subst di. cbn [io_disk] in Hroot. eapply (hist_start_stopped _ d0 E c now d root tri i' o1 evs1 d'); [done|done|by split|done|done|done].
  - assert (cwd' = cwd) as -> by congruence. destruct (get_config_ok _ _ _ _ _ Hcfg) as (Hdir & Htd & Hdata & _). destruct (new_disk _ _ _ _ _ _ Hn) as (evs1 & Hh1 & Hd1).
    assert (io_disk i1 = d) as Hdi by (destruct He' as [_ Hx]; rewrite Hx; by apply silent_replay). destruct i1 as [di tri]. cbn [io_disk] in Hdi. subst di. cbn [io_disk] in Hroot, Hd1.
    pose proof (hist_start _ d0 E c now d root tri i2 t Hh Hroot (conj Hdir Hdata) Hn) as Hrun.
    apply get_target_calls in Hg as (l & -> & Hl).
    assert (Forall (spares_root (metadata_dir cwd) E c) l) as Hsp.
    { eapply Forall_impl; [exact Hl|]. intros a Ha tf p u ->. destruct Ha as [[=]|[[=]|[(tf' & [=])|(tf' & [= -> -> ->])]]]. intros [[Hx _]|[_ Hx]]; [done|]. by apply (target_not_root cwd c tf' _ Hr Hb Htd Hx). }
    destruct (run_calls_history _ d0 c l _ Hrun Hsp) as (_ & evs2 & He2 & Hcr2). cbn [w_io] in He2.
    assert (explains (mkIos d tr) (w_io (run_calls E c l (mkWorld t i2))) (evs0 ++ evs1 ++ evs2)) as Hex by (eapply explains_app; [exact He'|]; eapply explains_app; [split; [exact Hh1|exact Hd1]|exact He2]).
    rewrite (happened_eq _ _ _ _ He (proj1 Hex)) in Hc. apply crash_app in Hc as [Hc|Hc]; [apply silent_crash in Hc as ->; done|]. rewrite (silent_replay evs0 _ Hs) in Hc.
    apply crash_app in Hc as [Hc|Hc].
    + eapply (hist_start_stopped _ d0 E c now d root tri i2 (Ok t) evs1 d'); [done|done|by split|done|done|done].
    + apply Hcr2. cbn [w_io]. by rewrite Hd1.
Qed.
End CliHistory.
Lemma gets_history {CR : Crypto} cwd d0 d : has_prefix "/" cwd = true -> plain_base (download_dir cwd) = true -> get_commands cwd d0 d -> history (metadata_dir cwd) d0 (Stopped d).
Proof.
  intros Hr Hb. induction 1 as [|d E f target now tr i' o evs d' _ IH Hcwd H He Hc|d d' _ IH Hd]; [constructor| |].
  - by eapply get_history.
  - by eapply hist_files.
Qed.

(** ** Without a root file there is no get *)
Lemma get_needs_root {CR : Crypto} E f target now i i' o cwd : e_cwd E = Some cwd -> io_disk i !! trusted_root_file cwd = None -> get_cmd E f target now i = (i', o) -> (forall p, o <> Ok p) /\ io_disk i' = io_disk i.
Proof.
  intros Hcwd Hn H. apply get_cmd_run in H. inversion H as [o' evs He Hs Ho|o' cwd' root c i1 evs0 o1 Hcwd' He Hs Hroot|o' cwd' root c i1 i2 t evs0 w' Hcwd' He Hs Hroot]; subst; [|congruence..].
  split; [done|]. destruct He as [_ ->]. by apply silent_replay.
Qed.
(** the root file is verified again each time *)
Lemma get_checks_root {CR : Crypto} E f target now i i' o cwd data : e_cwd E = Some cwd -> io_disk i !! trusted_root_file cwd = Some data -> ~ (exists r, document data r /\ root_signs r "root" r) -> get_cmd E f target now i = (i', o) ->
  (forall p, o <> Ok p) /\ io_disk i' = io_disk i.
Proof.
  intros Hcwd Hd Hbad H. apply get_cmd_run in H. inversion H as [o' evs He Hs Ho|o' cwd' root c i1 evs0 o1 Hcwd' He Hs Hroot Hc Hnew Ho1 Ho|o' cwd' root c i1 i2 t evs0 w' Hcwd' He Hs Hroot Hc Hnew]; subst.
  - split; [done|]. destruct He as [_ ->]. by apply silent_replay.
  - assert (cwd' = cwd) as -> by congruence. rewrite Hd in Hroot. injection Hroot as <-. split; [done|]. destruct (get_config_ok _ _ _ _ _ Hc) as (_ & _ & Hdata & _).
    apply new_events in Hnew as (e0 & e1 & [_ Hdk] & Hf & Hpe & _ & Hok). destruct e1 as [|x e1].
    + rewrite Hdk, app_nil_r. destruct He as [_ ->]. rewrite (silent_replay evs0 _ Hs). apply silent_replay. eapply Forall_impl; [exact Hf|]. by intros e (? & ? & ->).
    + destruct (Hok ltac:(done)) as (t & Ht). rewrite Hdata in Ht. apply tm_new_spec in Ht as (r & ? & ? & _). destruct Hbad. by exists r.
  - assert (cwd' = cwd) as -> by congruence. rewrite Hd in Hroot. injection Hroot as <-. destruct (get_config_ok _ _ _ _ _ Hc) as (_ & _ & Hdata & _). apply updater_new_ok in Hnew as [Hnew _]. rewrite Hdata in Hnew. apply tm_new_spec in Hnew as (r & ? & ? & _). destruct Hbad. by exists r.
Qed.

(** ** init *)
Section CliInit.
Context {CR : Crypto} (E : env).
Lemma quiet_prepare : quiet (prepare_environment E).
Proof. apply quiet_bind; [apply quiet_sout|]. intros cwd. apply quiet_bind; [apply quiet_mkdir|]. intros _. apply quiet_bind; [apply quiet_mkdir|]. intros _. apply quiet_sout. Qed.
Lemma prepare_ok i i' dir : prepare_environment E i = (i', Ok dir) -> exists cwd, e_cwd E = Some cwd /\ dir = metadata_dir cwd /\ below dir (io_disk i) = [].
Proof.
  unfold prepare_environment. intros H. apply sbind_inv in H as [(i0 & cwd & H0 & H)|[(e & _ & [=])|[_ [=]]]]. injection H0 as <- H0. destruct (e_cwd E) as [d|]; [|done]. injection H0 as ->. exists cwd. split; [done|].
  apply sbind_inv in H as [(i1 & [] & H1 & H)|[(e & _ & [=])|[_ [=]]]]. apply sbind_inv in H as [(i2 & [] & H2 & H)|[(e & _ & [=])|[_ [=]]]]. injection H as _ <-. split; [done|].
  unfold mkdir in H1. injection H1 as _ H1. change METADATA_DIR with "tuf_metadata" in *. unfold metadata_dir. destruct (below _ _); done.
Qed.
Lemma absolute_rooted cwd p : has_prefix "/" p = true -> absolute cwd p = p.
Proof. unfold absolute. by intros ->. Qed.
Lemma root_file_slash cwd : metadata_dir cwd +:+ "/" +:+ ROOT +:+ ".json" = trusted_root_file cwd.
Proof. unfold trusted_root_file, root_json, metadata_dir. rewrite <- join_slash by (apply tuf_metadata_plain || apply root_json_plain). done. Qed.
Lemma rooted_root_file cwd : has_prefix "/" cwd = true -> has_prefix "/" (trusted_root_file cwd) = true.
Proof.
  intros Hr. assert (cwd <> "") by (by intros ->). unfold trusted_root_file, root_json, metadata_dir. rewrite <- join_slash by (apply tuf_metadata_plain || apply root_json_plain).
  assert (has_prefix "/" (path_join [cwd; "tuf_metadata"]) = true) as Hx.
  { unfold path_join. rewrite !filter_cons_True by done. rewrite filter_nil. cbn [join_str]. rewrite clean_rooted by (by rewrite has_prefix_join). done. }
  rewrite has_prefix_join; [done|]. intros Hy. by rewrite Hy in Hx.
Qed.
Lemma write_shape p data i i' o : write_file E p data i = (i', o) -> exists e, explains i i' [e] /\ (e = EvWrite p data /\ o = Ok tt \/ (exists n, e = EvWrite p (str_take n data)) /\ o <> Ok tt \/ e = EvFail "write" p /\ o <> Ok tt).
Proof.
  unfold write_file. destruct (e_io E (io_trace i)); [intros [= <- <-]; exists (EvWrite p data); split; [by apply explains_log|by left]|].
  destruct (e_partial E (io_trace i)) as [n|]; intros [= <- <-]; eexists; (split; [by apply explains_log|]); right; [left|right]; (split; [|done]); eauto.
Qed.
(** a run of init: what it writes, and where *)
Inductive init_run (url root_path : string) (now : Z) (i i' : ios) : outcome unit -> Prop :=
  | init_early o evs : explains i i' evs -> Forall silent evs -> o <> Ok tt -> init_run url root_path now i i' o
  | init_download o cwd data evs0 e evs1 : root_path = "" -> e_cwd E = Some cwd -> below (metadata_dir cwd) (io_disk i) = [] -> explains i i' (evs0 ++ [e] ++ evs1) -> Forall silent evs0 -> Forall silent evs1 ->
      (exists u n, url_join E url "1.root.json" = Ok u /\ EvGet u n (Ok data) ∈ evs0) ->
      (e = EvWrite (trusted_root_file cwd) data \/ (exists n, e = EvWrite (trusted_root_file cwd) (str_take n data)) /\ o <> Ok tt \/ e = EvFail "write" (trusted_root_file cwd) /\ o <> Ok tt) ->
      (o = Ok tt -> forall x, replay (io_disk i) (evs0 ++ [e]) !! absolute cwd (trusted_root_file cwd) = Some x -> exists r, document x r /\ root_signs r "root" r) -> (o = Ok tt -> is_Some (replay (io_disk i) (evs0 ++ [e]) !! absolute cwd (trusted_root_file cwd))) ->
      init_run url root_path now i i' o
  | init_copy o cwd data evs0 e r : root_path <> "" -> e_cwd E = Some cwd -> below (metadata_dir cwd) (io_disk i) = [] -> explains i i' (evs0 ++ [e]) -> Forall silent evs0 ->
      io_disk i !! absolute cwd root_path = Some data -> document data r -> root_signs r "root" r ->
      (e = EvWrite (path_join [metadata_dir cwd; root_path]) data /\ o = Ok tt \/ (exists n, e = EvWrite (path_join [metadata_dir cwd; root_path]) (str_take n data)) /\ o <> Ok tt \/ e = EvFail "write" (path_join [metadata_dir cwd; root_path]) /\ o <> Ok tt) ->
      init_run url root_path now i i' o.
Lemma init_cmd_run url root_path now i i' o : init_cmd E url root_path now i = (i', o) -> init_run url root_path now i i' o.
Proof.
  unfold init_cmd. intros H. apply sbind_inv in H as [(i1 & dir & H1 & H)|[(e & H1 & ->)|[H1 ->]]]; destruct (quiet_prepare _ _ _ H1) as (e1 & He1 & Hs1); [|by eapply init_early..].
  apply prepare_ok in H1 as (cwd & Hcwd & -> & Hbelow).
  apply sbind_inv in H as [(i2 & cwd' & H2 & H)|[(e & H2 & ->)|[H2 ->]]]; unfold getwd in H2; injection H2 as <- H2; rewrite Hcwd in H2; [|done..]. injection H2 as <-.
  destruct (String.eqb_spec root_path "") as [-> |Hp].
  - apply sbind_inv in H as [(i3 & path & H3 & H)|H]; [|].
    2: { assert (exists o3, o3 <> Ok tt /\ (do dir := fetch_trusted_root E url (metadata_dir cwd) in sret (dir +:+ "/" +:+ ROOT +:+ ".json")) i1 = (i', omap_ (fun _ => "") o3) /\ o = o3) as (o3 & Ho & H3 & ->).
         { destruct H as [(e & H3 & ->)|[H3 ->]]; [exists (Err e)|exists Panic]; done. }
         clear H. assert (forall x, omap_ (fun _ : unit => "") o3 <> Ok x) as Hno by (intros x; destruct o3 as [[]| |]; done).
         apply sbind_inv in H3 as [(i4 & d & H4 & H3)|H3]; [injection H3 as _ H3; by destruct (Hno (d +:+ "/" +:+ ROOT +:+ ".json"))|].
         assert (exists o4, fetch_trusted_root E url (metadata_dir cwd) i1 = (i', o4) /\ forall x, o4 <> Ok x) as (o4 & H4 & Ho4) by (destruct H3 as [(e & H4 & _)|[H4 _]]; eexists; (split; [exact H4|done])).
         clear H3. unfold fetch_trusted_root in H4. apply sbind_inv in H4 as [(i5 & u & H5 & H4)|[(e & H5 & _)|[H5 _]]]; injection H5 as <- H5.
         2,3: by eapply init_early.
         apply sbind_inv in H4 as [(i6 & data & H6 & H4)|[(e & H6 & _)|[H6 _]]]; destruct (quiet_fetch E _ _ _ _ _ H6) as (e6 & He6 & Hs6).
         2,3: eapply init_early; [by eapply explains_app|by apply Forall_app|done].
         assert (EvGet u no_limit (Ok data) ∈ e6) as Hin.
         { unfold fetch in H6. injection H6 as <- H6. destruct He6 as [He6 _]. unfold happened, log in He6. cbn [io_trace] in He6. apply app_inv_head in He6 as <-. rewrite H6. by left. }
         apply sbind_inv in H4 as [(i7 & [] & H7 & H4)|H4]; [injection H4 as _ H4; by destruct (Ho4 (metadata_dir cwd))|].
         assert (exists o7, write_file E (path_join [metadata_dir cwd; "root.json"]) data i6 = (i', o7)) as (o7 & H7) by (destruct H4 as [(e & H7 & _)|[H7 _]]; eauto).
         apply write_shape in H7 as (e7 & He7 & Hcase).
         eapply (init_download _ _ _ _ _ _ cwd data (e1 ++ e6) e7 []); [done|done|done|rewrite app_nil_r; eapply explains_app; [by eapply explains_app|done]|by apply Forall_app|constructor|exists u, no_limit; split; [done|]; apply elem_of_app; by right| |done|done].
         fold (root_json (metadata_dir cwd)) in Hcase. fold (trusted_root_file cwd) in Hcase. destruct Hcase as [[-> _]|[[? _]|[-> _]]]; [by left|right; left; done|right; right; done]. }
    apply sbind_inv in H3 as [(i4 & d & H4 & H3)|[(e & _ & [=])|[_ [=]]]]. injection H3 as <- <-. unfold fetch_trusted_root in H4. apply sbind_inv in H4 as [(i5 & u & H5 & H4)|[(e & _ & [=])|[_ [=]]]]. injection H5 as <- H5.
    apply sbind_inv in H4 as [(i6 & data & H6 & H4)|[(e & _ & [=])|[_ [=]]]]. destruct (quiet_fetch E _ _ _ _ _ H6) as (e6 & He6 & Hs6).
    assert (EvGet u no_limit (Ok data) ∈ e6) as Hin.
    { unfold fetch in H6. injection H6 as <- H6. destruct He6 as [He6 _]. unfold happened, log in He6. cbn [io_trace] in He6. apply app_inv_head in He6 as <-. rewrite H6. by left. }
    apply sbind_inv in H4 as [(i7 & [] & H7 & H4)|[(e & _ & [=])|[_ [=]]]]. injection H4 as <- <-. apply write_shape in H7 as (e7 & He7 & [[-> _]|[[_ Hx]|[_ Hx]]]); [|done..].
    fold (root_json (metadata_dir cwd)) in *. fold (trusted_root_file cwd) in *. rewrite root_file_slash in H.
    pose proof (explains_app _ _ _ _ _ (explains_app _ _ _ _ _ He1 He6) He7) as Hex.
    assert (forall evs1, explains i7 i' evs1 -> Forall silent evs1 -> (o = Ok tt -> forall x, replay (io_disk i) ((e1 ++ e6) ++ [EvWrite (trusted_root_file cwd) data]) !! absolute cwd (trusted_root_file cwd) = Some x -> exists r, document x r /\ root_signs r "root" r) ->
      (o = Ok tt -> is_Some (replay (io_disk i) ((e1 ++ e6) ++ [EvWrite (trusted_root_file cwd) data]) !! absolute cwd (trusted_root_file cwd))) -> init_run url "" now i i' o) as Hfin.
    { intros evs1 Hev Hs Hok Hok2. eapply (init_download _ _ _ _ _ _ cwd data (e1 ++ e6) _ evs1); [done|done|done|rewrite app_assoc; by eapply explains_app|by apply Forall_app|done|exists u, no_limit; split; [done|]; apply elem_of_app; by right|by left|done|done]. }
    apply sbind_inv in H as [(i8 & x & H8 & H)|[(e & H8 & ->)|[H8 ->]]]; destruct (quiet_read E _ _ _ _ H8) as (e8 & He8 & Hs8); [|by apply (Hfin e8)..].
    apply read_ok in H8. rewrite (proj2 Hex) in H8. apply sbind_inv in H as [(i9 & t & H9 & H)|[(e & H9 & ->)|[H9 ->]]]; injection H9 as <- H9; [|by apply (Hfin e8)..].
    injection H as <- <-. apply (Hfin e8); [done|done| |].
    + intros _ x' Hx'. rewrite H8 in Hx'. injection Hx' as <-. apply tm_new_spec in H9 as (r & ? & ? & _). by exists r.
    + intros _. by exists x.
  - apply sbind_inv in H as [(i3 & path & H3 & H)|[(e & H3 & _)|[H3 _]]]; [|done..]. injection H3 as <- <-.
    apply sbind_inv in H as [(i8 & x & H8 & H)|[(e & H8 & ->)|[H8 ->]]]; destruct (quiet_read E _ _ _ _ H8) as (e8 & He8 & Hs8).
    2,3: eapply init_early; [by eapply explains_app|by apply Forall_app|done].
    apply read_ok in H8. rewrite (proj2 He1), (silent_replay e1 _ Hs1) in H8. apply sbind_inv in H as [(i9 & t & H9 & H)|[(e & H9 & ->)|[H9 ->]]]; injection H9 as <- H9.
    2,3: eapply init_early; [by eapply explains_app|by apply Forall_app|done].
    apply write_shape in H as (e9 & He9 & Hcase). apply tm_new_spec in H9 as (r & Hr & Hrs & _).
    eapply (init_copy _ _ _ _ _ _ cwd x (e1 ++ e8) e9 r); [done|done|done|eapply explains_app; [by eapply explains_app|done]|by apply Forall_app|done|done|done|exact Hcase].
Qed.
End CliInit.
(** where get puts a target *)
Lemma target_place E cwd c tf p : has_prefix "/" cwd = true -> plain_base (download_dir cwd) = true -> c_targets_dir c = download_dir cwd -> tf_path tf <> "" -> tf_path tf <> "." -> tf_path tf <> ".." -> target_file_path E c tf = Ok p ->
  p = download_dir cwd +:+ "/" +:+ query_escape (tf_path tf).
Proof.
  intros Hr Hb Hd H1 H2 H3 H. assert (has_prefix "/" (download_dir cwd) = true) as Hdr.
  { unfold download_dir, path_join. assert (cwd <> "") by (by intros ->). rewrite !filter_cons_True by done. rewrite filter_nil. cbn [join_str]. rewrite clean_rooted by (by rewrite has_prefix_join). done. }
  assert (download_dir cwd <> "") as Hne by (intros Hx; by rewrite Hx in Hdr).
  unfold target_file_path, url_join in H. rewrite Hd, (proj2 (String.eqb_neq _ "") Hne), Hb, Hdr in H. cbn [andb] in H. injection H as <-. unfold download_dir. symmetry. apply join_slash; [apply tuf_download_plain|by apply escape_plain].
Qed.
Lemma authentic_chain {CR : Crypto} n r0 r now path data : root_chain n r0 r -> authentic r now path data -> authentic r0 now path data.
Proof. intros Hn (t & role & m & tf & k & Hk & Hx). exists t, role, m, tf, (n + k)%nat. split; [by eapply root_chain_trans|done]. Qed.
Lemma get_disk {CR : Crypto} E f target now i i' o : get_cmd E f target now i = (i', o) -> exists evs, happened i i' evs /\ io_disk i' = replay (io_disk i) evs.
Proof.
  intros H. apply get_cmd_run in H. inversion H as [o' evs' He' Hs Ho|o' cwd' root c i1 evs0 o1 Hcwd' He' Hs Hroot Hcfg Hn Ho1 Ho|o' cwd' root c i1 i2 t evs0 w' Hcwd' He' Hs Hroot Hcfg Hn Hg Hi']; subst; [by exists evs'| |]; destruct (new_disk _ _ _ _ _ _ Hn) as (evs1 & Hh1 & Hd1).
  - exists (evs0 ++ evs1). eapply explains_app; [exact He'|by split].
  - apply get_target_calls in Hg as (l & -> & _). assert (forall w, exists evs, explains (w_io w) (w_io (run_calls E c l w)) evs) as Hall.
    { clear. induction l as [|a l IH]; intros w; [exists []; apply explains_nil|]. destruct (call_api E c a w) as [w1 o1] eqn:Hc. assert (run_calls E c (a :: l) w = run_calls E c l w1) as -> by (unfold run_calls; cbn [fold_left]; by rewrite Hc).
      destruct (call_disk E c a w w1 o1 Hc) as (e1 & H1 & H1'). destruct (IH w1) as (e2 & H2). exists (e1 ++ e2). eapply explains_app; [by split|exact H2]. }
    destruct (Hall (mkWorld t i2)) as (evs2 & H2). exists (evs0 ++ evs1 ++ evs2). eapply explains_app; [exact He'|]. eapply explains_app; [by split|exact H2].
Qed.
