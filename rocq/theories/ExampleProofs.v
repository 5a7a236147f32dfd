(** * The example programs: proofs for C105 *)
From stdpp Require Import base gmap strings list.
From Coq Require Import ZArith Ascii String Lia.
From Verif Require Import GoBase GoStr Json GoTime Types Marshal Keys Metadata TrustedMetadata Fetcher Updater Cli ExampleClients SpecSig SpecBasic SpecTrusted SpecUpdater SpecHistory SpecCli SpecExamples
  StrProofs PathProofs CleanProofs SigProofs BasicProofs SerialProofs TrustedProofs UpdaterProofs EventProofs RefreshProofs ApiProofs BlockProofs ClaimProofs FinalProofs HonestProofs HistoryProofs CliProofs InitProofs.
Open Scope Z_scope.

Section Example.
Context {CR : Crypto} (E : env).
Lemma example_target_calls c target w w' o : example_target E c target w = (w', o) -> exists l, w' = run_calls E c l w /\ Forall (get_call target) l.
Proof.
  unfold example_target. intros H.
  assert (forall w1 o1, refresh E c w = (w1, o1) -> run_calls E c [Refresh] w = w1) as Hr by (intros w1 o1 H1; unfold run_calls; cbn [fold_left call_api]; by rewrite H1).
  assert (get_call target Refresh) as G1 by (by left). assert (get_call target (GetTargetInfo target)) as G2 by (right; by left).
  apply sbind_inv in H as [(w1 & [] & H1 & H)|[(e & H1 & _)|[H1 _]]].
  2,3: exists [Refresh]; split; [symmetry; by eapply Hr|solve [repeat (apply Forall_cons; split; [assumption|]); apply Forall_nil; exact I]].
  assert (forall w2 o2, get_target_info E c target w1 = (w2, o2) -> run_calls E c [Refresh; GetTargetInfo target] w = w2) as Hi.
  { intros w2 o2 H2. unfold run_calls. cbn [fold_left call_api]. rewrite H1. cbn [fst]. by rewrite H2. }
  apply sbind_inv in H as [(w2 & oo & H2 & H)|[(e & H2 & _)|[H2 _]]].
  2,3: exists [Refresh; GetTargetInfo target]; split; [symmetry; by eapply Hi|solve [repeat (apply Forall_cons; split; [assumption|]); apply Forall_nil; exact I]].
  destruct oo as [tf|]; [|injection H as <- _; exists [Refresh; GetTargetInfo target]; split; [symmetry; by eapply Hi|solve [repeat (apply Forall_cons; split; [assumption|]); apply Forall_nil; exact I]]].
  assert (forall w3 o3, lift (find_cached_target E c tf "") w2 = (w3, o3) -> run_calls E c [Refresh; GetTargetInfo target; FindCachedTarget tf ""] w = w3) as Hf.
  { intros w3 o3 H3. change [Refresh; GetTargetInfo target; FindCachedTarget tf ""] with ([Refresh; GetTargetInfo target] ++ [FindCachedTarget tf ""]). unfold run_calls in *. rewrite fold_left_app, (Hi _ _ H2). cbn [fold_left call_api]. by rewrite H3. }
  assert (get_call target (FindCachedTarget tf "")) as G3 by (right; right; left; by exists tf). assert (get_call target (DownloadTarget tf "" "")) as G4 by (right; right; right; by exists tf).
  apply sbind_inv in H as [(w3 & found & H3 & H)|[(e & H3 & _)|[H3 _]]].
  2,3: exists [Refresh; GetTargetInfo target; FindCachedTarget tf ""]; split; [symmetry; by eapply Hf|solve [repeat (apply Forall_cons; split; [assumption|]); apply Forall_nil; exact I]].
  exists [Refresh; GetTargetInfo target; FindCachedTarget tf ""; DownloadTarget tf "" ""]. split; [|solve [repeat (apply Forall_cons; split; [assumption|]); apply Forall_nil; exact I]].
  change [Refresh; GetTargetInfo target; FindCachedTarget tf ""; DownloadTarget tf "" ""] with ([Refresh; GetTargetInfo target; FindCachedTarget tf ""] ++ [DownloadTarget tf "" ""]).
  unfold run_calls in *. rewrite fold_left_app, (Hf _ _ H3). cbn [fold_left call_api].
  apply sbind_inv in H as [(w4 & got & H4 & H)|[(e & H4 & _)|[H4 _]]]; rewrite H4; [by injection H as <- _|done|done].
Qed.
Lemma example_config_ok url turl dir root c : example_config E url turl dir root = Ok c -> c_metadata_dir c = dir /\ c_targets_dir c = path_join [dir; "download"] /\ c_trusted_root c = root /\ c_disable_cache c = false.
Proof. unfold example_config, config_new. destruct (url_join E url "targets"); cbn; [|done|done]. by intros [= <-]. Qed.
(** a run of DownloadTarget stops before it has an updater and has changed nothing, or it makes one from the root file and calls it *)
Inductive example_run (url turl dir target : string) (now : Z) (i i' : ios) : outcome string -> Prop :=
  | erun_early o evs : explains i i' evs -> Forall silent evs -> (forall p, o <> Ok p) -> example_run url turl dir target now i i' o
  | erun_new o root c i1 evs0 o1 : explains i i1 evs0 -> Forall silent evs0 -> io_disk i !! root_json dir = Some root -> example_config E url turl dir root = Ok c ->
      updater_new E c now i1 = (i', o1) -> (forall t, o1 <> Ok t) -> (forall p, o <> Ok p) -> example_run url turl dir target now i i' o
  | erun_used o root c i1 i2 t evs0 w' : explains i i1 evs0 -> Forall silent evs0 -> io_disk i !! root_json dir = Some root -> example_config E url turl dir root = Ok c ->
      updater_new E c now i1 = (i2, Ok t) -> example_target E c target (mkWorld t i2) = (w', o) -> i' = w_io w' -> example_run url turl dir target now i i' o.
Lemma download_run url turl dir target now i i' o : example_download E url turl dir target now i = (i', o) -> example_run url turl dir target now i i' o.
Proof.
  unfold example_download. intros H.
  apply sbind_inv in H as [(i4 & root & H4 & H)|[(e & H4 & ->)|[H4 ->]]]; destruct (quiet_read _ _ _ _ _ H4) as (e4 & He4 & Hs4).
  2,3: by eapply erun_early.
  apply read_ok in H4. apply sbind_inv in H as [(i5 & c & H5 & H)|[(e & H5 & ->)|[H5 ->]]]; injection H5 as <- H5.
  2,3: by eapply erun_early.
  apply sbind_inv in H as [(i6 & t & H6 & H)|[(e & H6 & ->)|[H6 ->]]].
  2,3: by eapply (erun_new _ _ _ _ _ _ _ _ root c i4).
  unfold with_updater in H. destruct (example_target E c target (mkWorld t i6)) as [w' o'] eqn:Hg. injection H as <- <-. by eapply (erun_used _ _ _ _ _ _ _ _ root c i4 i6 t).
Qed.
Lemma example_delivers url turl dir target now i i' p : example_download E url turl dir target now i = (i', Ok p) ->
  exists root r data, io_disk i !! root_json dir = Some root /\ document root r /\ root_signs r "root" r /\ io_disk i' !! p = Some data /\ authentic r now target data /\
    exists tf c, example_config E url turl dir root = Ok c /\ tf_path tf = target /\ target_file_path E c tf = Ok p.
Proof.
  intros H. apply download_run in H. inversion H as [o evs He Hs Ho|o root c i1 evs0 o1 He Hs Hroot Hc Hn Ho1 Ho|o root c i1 i2 t evs0 w' He Hs Hroot Hc Hn Hg Hi']; subst; [by destruct (Ho p)|by destruct (Ho p)|].
  destruct (example_config_ok _ _ _ _ _ Hc) as (Hdir & Htd & Hdata & Hdis).
  pose proof (session_new E c now i1 i2 t Hn) as Hse. destruct (updater_new_ok _ _ _ _ _ _ Hn) as [Hnew _]. rewrite Hdata in Hnew.
  destruct (proj1 (tm_new_spec _ _ _) Hnew) as (r & Hr & Hrs & Ht).
  unfold example_target in Hg. apply sbind_inv in Hg as [(w1 & [] & H1 & Hg)|[(e & _ & [=])|[_ [=]]]].
  pose proof (session_step E c now _ Refresh _ _ Hse H1) as Hse1. pose proof (refresh_complete E c now _ _ Hse H1) as Htop.
  assert (exists m, t_targets (w_trusted w1) !! "targets" = Some m) as Htg by (destruct Htop as (? & ? & tg & ? & ? & ? & ? & ? & _); by exists tg).
  apply sbind_inv in Hg as [(w2 & oo & H2 & Hg)|[(e & _ & [=])|[_ [=]]]].
  assert (call_api E c (GetTargetInfo target) w1 = (w2, Ok tt)) as H2' by (cbn [call_api]; by rewrite H2).
  pose proof (session_step E c now _ _ _ _ Hse1 H2') as Hse2. pose proof (keep_top_level E c now _ _ _ _ Hse1 H2' Htop Htg) as Htop2.
  destruct (info_authorised E c now _ _ _ _ Hse1 H2) as (tf & role & m & -> & Hpath & Hl & Hm & Hen).
  assert (exists n, root_chain n r (t_root (w_trusted w2))) as [n Hch].
  { destruct (session_calls E c now w2 Hse2) as (t0 & Ht0 & Hcalls). rewrite Hdata, Hnew in Ht0. injection Ht0 as <-. apply dcalls_calls in Hcalls. destruct (root_chain_calls t (w_trusted w2) Hcalls (new_range _ _ _ Hnew)) as [n Hn']. exists n. rewrite Ht in Hn'. exact Hn'. }
  destruct (loaded_verified E c now w2 role m Hse2 Hm) as (sn & Hsn & _ & Hlist & Hexp & Hauth).
  exists root, r.
  apply sbind_inv in Hg as [(w3 & [p0 d0] & H3 & Hg)|[(e & _ & [=])|[_ [=]]]].
  apply sbind_inv in Hg as [(w4 & [p1 d1] & H4 & Hg)|[(e & _ & [=])|[_ [=]]]]. injection Hg as <- <-. destruct (download_ok E c tf "" "" _ _ _ _ H4) as (Hmt & Hff & _ & _ & Hdk).
  destruct Hdk as [[Hx _]|[_ Hdk]]; [congruence|]. exists d1. split_and!; try done.
  - rewrite Hdk. apply lookup_same.
  - exists (w_trusted w2), role, m, tf, n. split_and!; try done; [by eapply session_ref|by exists sn].
  - exists tf, c. split_and!; [done|done|]. destruct Hff as [[? _]|[_ ?]]; done.
Qed.

(** ** The directories and the first root *)
Definition still (e : event) : Prop := silent e /\ forall p, e <> EvFail "stat" p.
Definition working_dir : string := match e_cwd E with Some cwd => example_dir cwd | None => "" end.
Lemma still_mkdir p i i' o : mkdir E p i = (i', o) -> explains i i' [EvMkdir p (is_ok o)] /\ o <> Panic.
Proof. unfold mkdir. intros [= <- <-]. destruct (match below p (io_disk i) with [] => e_io E (io_trace i) | _ => false end); (split; [by apply explains_log|done]). Qed.
Lemma environment_run i i' o : init_environment E i = (i', o) -> (exists evs, explains i i' evs /\ Forall still evs) /\ match o with Ok d => d = working_dir | Err _ => "" = working_dir | Panic => False end.
Proof.
  unfold init_environment, working_dir. intros H. apply sbind_inv in H as [(i0 & cwd & H0 & H)|[(e & H0 & ->)|[H0 ->]]].
  2,3: unfold getwd in H0; injection H0 as -> H0; destruct (e_cwd E); first [done|split; [|done]; exists []; split; [apply explains_nil|by apply Forall_nil]].
  unfold getwd in H0. injection H0 as <- Hcwd. destruct (e_cwd E) as [d|]; [|done]. injection Hcwd as ->. cbn zeta in H.
  assert (forall j j' o (k : unit + gerr -> IO string) p, satt (mkdir E p) k j = (j', o) -> exists x j1 b, explains j j1 [EvMkdir p b] /\ k x j1 = (j', o)) as Hstep.
  { intros j j' o' k p Hk. apply satt_inv in Hk as [(s1 & a & H1 & Hk)|[(s1 & e & H1 & Hk)|[H1 _]]]; [| |by destruct (still_mkdir _ _ _ _ H1)].
    - exists (inl a), s1, true. split; [apply (still_mkdir _ _ _ _ H1)|done].
    - exists (inr e), s1, false. split; [apply (still_mkdir _ _ _ _ H1)|done]. }
  apply Hstep in H as (x1 & i1 & b1 & He1 & H). apply Hstep in H as (x2 & i2 & b2 & He2 & H). injection H as <- <-. split; [|done].
  eexists. split; [eapply explains_app; [exact He1|exact He2]|]. cbn [app]. apply Forall_cons. split; [done|]. apply Forall_cons. split; [done|]. by apply Forall_nil.
Qed.
(** either nothing is written, or a beginning of what the server sent is written to the root file, as there was none or
    os.Stat failed *)
Lemma first_use_run url dir i i' o : init_trust_on_first_use E url dir i = (i', o) ->
  exists evs, explains i i' evs /\
    ((Forall silent evs /\ ((exists data, io_disk i !! root_json dir = Some data /\ ~ stat_failed (root_json dir) evs /\ o = Ok tt) \/ io_disk i !! root_json dir = None \/ stat_failed (root_json dir) evs)) \/
     (exists pre u data k, url_join E url "1.root.json" = Ok u /\ evs = pre ++ [EvWrite (root_json dir) (str_take k data)] /\ Forall silent pre /\ EvGet u no_limit (Ok data) ∈ pre /\
       (o = Ok tt -> str_take k data = data) /\ (io_disk i !! root_json dir = None \/ stat_failed (root_json dir) pre))).
Proof.
  unfold init_trust_on_first_use. intros H. apply sbind_inv in H as [(i1 & there & H1 & H)|[(e & H1 & ->)|[H1 ->]]].
  2,3: unfold stat_file in H1; destruct (io_disk i !! path_join [dir; "root.json"]); [destruct (e_io E (io_trace i))|]; discriminate H1.
  assert (exists e, explains i i1 [e] /\ silent e /\ if there then (exists data, io_disk i !! root_json dir = Some data) /\ ~ stat_failed (root_json dir) [e] else io_disk i !! root_json dir = None \/ stat_failed (root_json dir) [e]) as (e & He & Hs & Ht).
  { unfold stat_file in H1. change (path_join [dir; "root.json"]) with (root_json dir) in H1. destruct (io_disk i !! root_json dir) as [x|] eqn:Hx; [destruct (e_io E (io_trace i))|]; injection H1 as <- <-.
    - exists EvChoice. split; [by apply explains_log|]. split; [done|]. split; [by exists x|]. intros Hf. by apply elem_of_list_singleton in Hf.
    - exists (EvFail "stat" (root_json dir)). split; [by apply explains_log|]. split; [done|]. right. by apply elem_of_list_singleton.
    - exists EvChoice. split; [by apply explains_log|]. split; [done|]. by left. }
  destruct there.
  { injection H as <- <-. destruct Ht as [(data & Hd) Hn]. exists [e]. split; [done|]. left. split; [by apply Forall_singleton|]. left. by exists data. }
  assert (forall l, stat_failed (root_json dir) [e] -> stat_failed (root_json dir) (e :: l)) as Hgrow by (intros l Hf; apply elem_of_list_singleton in Hf; rewrite <- Hf; apply elem_of_cons; by left).
  assert (forall l, io_disk i !! root_json dir = None \/ stat_failed (root_json dir) (e :: l)) as Ht' by (intros l; destruct Ht as [?|Ht]; [by left|right; by apply Hgrow]).
  apply sbind_inv in H as [(i2 & u & H2 & H)|[(e2 & H2 & ->)|[H2 ->]]]; injection H2 as <- Hu.
  2,3: exists [e]; split; [done|]; left; split; [by apply Forall_singleton|]; right; apply Ht'.
  apply sbind_inv in H as [(i3 & data & H3 & H)|[(e3 & H3 & ->)|[H3 ->]]]; injection H3 as <- Hdata.
  2,3: eexists; split; [eapply explains_app; [exact He|by apply explains_log]|]; left; split; [by repeat (apply Forall_cons; split; [done|]); apply Forall_nil|]; right; apply Ht'.
  set (i3 := log (io_disk i1) i1 (EvGet u no_limit (e_net E (io_trace i1) u no_limit))) in *. assert (explains i i3 [e; EvGet u no_limit (Ok data)]) as He3.
  { eapply (explains_app i i1 i3 [e] [EvGet u no_limit (Ok data)]); [exact He|]. rewrite <- Hdata. by apply explains_log. }
  clearbody i3. unfold write_file in H. change (path_join [dir; "root.json"]) with (root_json dir) in H.
  destruct (e_io E (io_trace i3)); [|destruct (e_partial E (io_trace i3)) as [n|]]; injection H as <- <-.
  - exists ([e; EvGet u no_limit (Ok data)] ++ [EvWrite (root_json dir) data]). split; [eapply explains_app; [exact He3|by apply explains_log]|]. right. exists [e; EvGet u no_limit (Ok data)], u, data, (String.length data).
    rewrite str_take_all. split_and!; try done; [by repeat (apply Forall_cons; split; [done|]); apply Forall_nil|apply elem_of_cons; right; by apply elem_of_list_singleton].
  - exists ([e; EvGet u no_limit (Ok data)] ++ [EvWrite (root_json dir) (str_take n data)]). split; [eapply explains_app; [exact He3|by apply explains_log]|]. right. exists [e; EvGet u no_limit (Ok data)], u, data, n.
    split_and!; try done; [by repeat (apply Forall_cons; split; [done|]); apply Forall_nil|apply elem_of_cons; right; by apply elem_of_list_singleton].
  - exists ([e; EvGet u no_limit (Ok data)] ++ [EvFail "write" (root_json dir)]). split; [eapply explains_app; [exact He3|by apply explains_log]|]. left. split; [by repeat (apply Forall_cons; split; [done|]); apply Forall_nil|]. right. apply Ht'.
Qed.
Lemma main_run url turl target now i i' o : example_main E url turl target now i = (i', o) -> exists i1 i2 evs1 o2, explains i i1 evs1 /\ Forall still evs1 /\
  init_trust_on_first_use E url working_dir i1 = (i2, o2) /\ ((o2 = Panic /\ o = Panic /\ i' = i2) \/ (o2 <> Panic /\ example_download E url turl working_dir target now i2 = (i', o))).
Proof.
  unfold example_main. intros H.
  assert (exists i1 evs1, explains i i1 evs1 /\ Forall still evs1 /\ satt (init_trust_on_first_use E url working_dir) (fun _ => example_download E url turl working_dir target now) i1 = (i', o)) as (i1 & evs1 & He1 & Hs1 & H1).
  { apply satt_inv in H as [(s1 & a & H1 & H)|[(s1 & e & H1 & H)|[H1 _]]]; apply environment_run in H1 as [(evs & He & Hs) Hd]; [| |done].
    - rewrite Hd in H. by exists s1, evs.
    - rewrite Hd in H. by exists s1, evs. }
  exists i1. apply satt_inv in H1 as [(i2 & a & H2 & H1)|[(i2 & e & H2 & H1)|[H2 ->]]]; eexists _, evs1, _; (split; [exact He1|]; split; [exact Hs1|]; split; [exact H2|]); [by right|by right|by left].
Qed.
Lemma still_silent evs : Forall still evs -> Forall silent evs.
Proof. intros H. eapply Forall_impl; [exact H|]. by intros e [? _]. Qed.
Lemma still_stat evs p : Forall still evs -> ~ stat_failed p evs.
Proof. intros H Hf. rewrite Forall_forall in H. by destruct (H _ Hf) as [_ Hx]; destruct (Hx p). Qed.
Lemma run_calls_disk c l w : exists evs, explains (w_io w) (w_io (run_calls E c l w)) evs.
Proof.
  revert w. induction l as [|a l IH]; intros w; [exists []; apply explains_nil|]. unfold run_calls. cbn [fold_left]. destruct (call_api E c a w) as [w1 o1] eqn:Hc. destruct (call_disk E c a w w1 o1 Hc) as (e1 & Hp1 & Hd1). cbn [fst].
  destruct (IH w1) as (e2 & He2). exists (e1 ++ e2). eapply explains_app; [by split|exact He2].
Qed.
Lemma download_disk url turl dir target now i i' o : example_download E url turl dir target now i = (i', o) -> exists evs, explains i i' evs.
Proof.
  intros H. apply download_run in H. inversion H as [o' evs' He' Hs Ho|o' root c i3 evs0 o1 He' Hs Hroot Hcfg Hn Ho1 Ho|o' root c i3 i4 t evs0 w' He' Hs Hroot Hcfg Hn Hg Hi']; subst.
  - by eexists.
  - destruct (new_disk _ _ _ _ _ _ Hn) as (evs3 & Hh3 & Hd3). eexists. eapply explains_app; [exact He'|by split].
  - destruct (new_disk _ _ _ _ _ _ Hn) as (evs3 & Hh3 & Hd3). apply example_target_calls in Hg as (l & -> & _). destruct (run_calls_disk c l (mkWorld t i4)) as (evs4 & He4).
    eexists. eapply explains_app; [exact He'|]. eapply explains_app; [by split|exact He4].
Qed.
Lemma main_disk url turl target now i i' o : example_main E url turl target now i = (i', o) -> exists evs, explains i i' evs.
Proof.
  intros H. apply main_run in H as (i1 & i2 & evs1 & o2 & He1 & _ & H2 & H3). apply first_use_run in H2 as (evs2 & He2 & _). destruct H3 as [(_ & _ & ->)|(_ & H3)]; [eexists; by eapply explains_app|].
  destruct (download_disk _ _ _ _ _ _ _ _ H3) as (evs3 & He3). eexists. eapply explains_app; [by eapply explains_app|exact He3].
Qed.
(** the target that the program reports *)
Lemma main_delivers url turl target now i i' p evs : example_main E url turl target now i = (i', Ok p) -> happened i i' evs ->
  exists root r data, ((io_disk i !! root_json working_dir = Some root) \/
      ((io_disk i !! root_json working_dir = None \/ stat_failed (root_json working_dir) evs) /\ exists u sent k, url_join E url "1.root.json" = Ok u /\ EvGet u no_limit (Ok sent) ∈ evs /\ root = str_take k sent)) /\
    document root r /\ root_signs r "root" r /\ io_disk i' !! p = Some data /\ authentic r now target data.
Proof.
  intros H Hh. destruct (main_run _ _ _ _ _ _ _ H) as (i1 & i2 & evs1 & o2 & He1 & Hs1 & H2 & [(_ & [=] & _)|(_ & H3)]).
  destruct (example_delivers _ _ _ _ _ _ _ _ H3) as (root & r & data & Hroot & Hdoc & Hrs & Hp & Ha & _). exists root, r, data. split; [|done].
  destruct (main_disk _ _ _ _ _ _ _ H) as (evsA & HeA). rewrite (happened_eq _ _ _ _ Hh (proj1 HeA)). clear evs Hh.
  assert (io_disk i1 = io_disk i) as Hd1 by (destruct He1 as [_ ->]; by apply silent_replay, still_silent).
  destruct (first_use_run _ _ _ _ _ H2) as (evs2 & He2 & Hcase).
  destruct (download_disk _ _ _ _ _ _ _ _ H3) as (evs3 & He3).
  pose proof (explains_app _ _ _ _ _ (explains_app _ _ _ _ _ He1 He2) He3) as HeB. rewrite (happened_eq _ _ _ _ (proj1 HeA) (proj1 HeB)).
  destruct Hcase as [(Hs & _)|(pre & u & sent & k & Hu & -> & Hs & Hin & _ & Hwhy)].
  - left. destruct He2 as [_ Hd2]. rewrite (silent_replay _ _ Hs), Hd1 in Hd2. rewrite <- Hroot. by rewrite Hd2.
  - right. rewrite Hd1 in Hwhy. split.
    + destruct Hwhy as [?|Hf]; [by left|right]. unfold stat_failed in *. rewrite !elem_of_app. auto.
    + exists u, sent, k. split; [done|]. split; [rewrite !elem_of_app; auto|]. destruct He2 as [_ Hd2]. unfold replay in Hd2. rewrite fold_left_app in Hd2. cbn [fold_left apply_event] in Hd2. rewrite Hd2 in Hroot.
      pose proof (eq_trans (eq_sym (lookup_insert (M := gmap string) _ (root_json working_dir) (str_take k sent))) Hroot) as [= <-]. done.
Qed.
Lemma target_spares_root dir c tf p : has_prefix "/" dir = true -> plain_base (path_join [dir; "download"]) = true -> c_targets_dir c = path_join [dir; "download"] -> target_file_path E c tf = Ok p -> p <> root_json dir.
Proof.
  intros Hr Hb Hd H. assert (plain_name "download") as Hpl by (repeat split; done). assert (plain_name "root.json") as Hpr by (repeat split; done).
  assert (path_join [dir; "download"] = dir_prefix dir +:+ "download") as Hdl by (rewrite path_join_plain by done; apply in_dir_prefix).
  assert (has_prefix "/" (path_join [dir; "download"]) = true) as Hdr.
  { unfold path_join. assert (dir <> "") by (by intros ->). rewrite !filter_cons_True by done. rewrite filter_nil. cbn [join_str]. rewrite clean_rooted by (by rewrite has_prefix_join). done. }
  assert (path_join [dir; "download"] <> "") as Hne by (intros Hx; by rewrite Hx in Hdr).
  assert (root_json dir = dir_prefix dir +:+ "root.json") as -> by (unfold root_json; rewrite path_join_plain by done; apply in_dir_prefix).
  unfold target_file_path, url_join in H. rewrite Hd, (proj2 (String.eqb_neq _ "") Hne), Hb, Hdr in H. cbn [andb] in H. injection H as <-.
  destruct (decide (tf_path tf = "")) as [-> |H1]; [|destruct (decide (tf_path tf = ".")) as [-> |H2]; [|destruct (decide (tf_path tf = "..")) as [-> |H3]]].
  - change (query_escape "") with "". rewrite path_join_empty by done. rewrite path_join_plain by done. rewrite in_dir_clean by done. rewrite in_dir_prefix. intros Hx. by apply app_inj_s in Hx.
  - change (query_escape ".") with ".". rewrite path_join_dot by done. rewrite path_join_plain by done. rewrite in_dir_clean by done. rewrite in_dir_prefix. intros Hx. by apply app_inj_s in Hx.
  - change (query_escape "..") with "..". rewrite path_join_dotdot by done. apply clean_not_below. cbn. lia.
  - rewrite join_join by (done || by apply escape_plain). intros Hx. apply app_inj_s in Hx. done.
Qed.
Lemma download_history d0 url turl dir target now i i' o evs d' : has_prefix "/" dir = true -> plain_base (path_join [dir; "download"]) = true ->
  history dir d0 (Stopped (io_disk i)) -> example_download E url turl dir target now i = (i', o) -> happened i i' evs -> crash (io_disk i) evs d' -> history dir d0 (Stopped d').
Proof.
  intros Hr Hb Hh H He Hc. apply download_run in H. inversion H as [o' evs' He' Hs Ho|o' root c i1 evs0 o1 He' Hs Hroot Hcfg Hn Ho1 Ho|o' root c i1 i2 t evs0 w' He' Hs Hroot Hcfg Hn Hg Hi']; subst.
  - rewrite (happened_eq _ _ _ _ He (proj1 He')) in Hc. apply silent_crash in Hc as ->; done.
  - destruct (example_config_ok _ _ _ _ _ Hcfg) as (Hdir & _ & Hdata & _). destruct (new_disk _ _ _ _ _ _ Hn) as (evs1 & Hh1 & Hd1).
    assert (io_disk i1 = io_disk i) as Hdi by (destruct He' as [_ Hx]; rewrite Hx; by apply silent_replay).
    assert (explains i i' (evs0 ++ evs1)) as Hex by (eapply explains_app; [exact He'|split; [exact Hh1|exact Hd1]]).
    rewrite (happened_eq _ _ _ _ He (proj1 Hex)) in Hc. apply crash_app in Hc as [Hc|Hc]; [apply silent_crash in Hc as ->; done|]. rewrite (silent_replay evs0 _ Hs), <- Hdi in Hc. rewrite <- Hdi in Hh, Hroot.
    destruct i1 as [di tri]. cbn [io_disk] in *. eapply (hist_start_stopped _ d0 E c now di root tri i' o1 evs1 d'); [done|done|by split|done|done|done].
  - destruct (example_config_ok _ _ _ _ _ Hcfg) as (Hdir & Htd & Hdata & _). destruct (new_disk _ _ _ _ _ _ Hn) as (evs1 & Hh1 & Hd1).
    assert (io_disk i1 = io_disk i) as Hdi by (destruct He' as [_ Hx]; rewrite Hx; by apply silent_replay). rewrite <- Hdi in Hh, Hroot.
    assert (history dir d0 (Running E c (mkWorld t i2))) as Hrun by (destruct i1 as [di tri]; cbn [io_disk] in *; exact (hist_start _ d0 E c now di root tri i2 t Hh Hroot (conj Hdir Hdata) Hn)).
    apply example_target_calls in Hg as (l & -> & Hl).
    assert (Forall (spares_root dir E c) l) as Hsp.
    { eapply Forall_impl; [exact Hl|]. intros a Ha tf p u ->. destruct Ha as [[=]|[[=]|[(tf' & [=])|(tf' & [= -> -> ->])]]]. intros [[Hx _]|[_ Hx]]; [done|]. by apply (target_spares_root dir c tf' _ Hr Hb Htd Hx). }
    destruct (run_calls_history E _ d0 c l _ Hrun Hsp) as (_ & evs2 & He2 & Hcr2). cbn [w_io] in He2, Hcr2.
    assert (explains i (w_io (run_calls E c l (mkWorld t i2))) (evs0 ++ evs1 ++ evs2)) as Hex by (eapply explains_app; [exact He'|]; eapply explains_app; [split; [exact Hh1|exact Hd1]|exact He2]).
    rewrite (happened_eq _ _ _ _ He (proj1 Hex)) in Hc. apply crash_app in Hc as [Hc|Hc]; [apply silent_crash in Hc as ->; [by rewrite <- Hdi|done]|]. rewrite (silent_replay evs0 _ Hs) in Hc.
    apply crash_app in Hc as [Hc|Hc].
    + rewrite <- Hdi in Hc. destruct i1 as [di tri]. cbn [io_disk] in *. eapply (hist_start_stopped _ d0 E c now di root tri i2 (Ok t) evs1 d'); [done|done|by split|done|done|done].
    + apply Hcr2. rewrite Hd1, Hdi. exact Hc.
Qed.
(** a run that finds the root file *)
Lemma main_history d0 url turl target now i i' o evs d' root cwd : e_cwd E = Some cwd -> has_prefix "/" cwd = true -> plain_base (path_join [example_dir cwd; "download"]) = true ->
  history (example_dir cwd) d0 (Stopped (io_disk i)) -> io_disk i !! example_root cwd = Some root -> example_main E url turl target now i = (i', o) -> happened i i' evs -> ~ stat_failed (example_root cwd) evs -> crash (io_disk i) evs d' -> history (example_dir cwd) d0 (Stopped d').
Proof.
  intros Hcwd Hr Hb Hh Hroot H He Hst Hc. assert (working_dir = example_dir cwd) as Hw by (unfold working_dir; by rewrite Hcwd).
  assert (has_prefix "/" (example_dir cwd) = true) as Hdr.
  { unfold example_dir, path_join. assert (cwd <> "") by (by intros ->). rewrite !filter_cons_True by done. rewrite filter_nil. cbn [join_str]. rewrite clean_rooted by (by rewrite has_prefix_join). done. }
  apply main_run in H as (i1 & i2 & evs1 & o2 & He1 & Hs1 & H2 & H3). rewrite Hw in *.
  assert (io_disk i1 = io_disk i) as Hd1 by (destruct He1 as [_ ->]; by apply silent_replay, still_silent).
  apply first_use_run in H2 as (evs2 & He2 & Hcase). rewrite Hd1 in Hcase. change (root_json (example_dir cwd)) with (example_root cwd) in *.
  assert (exists evs3, happened i2 i' evs3 /\ evs = (evs1 ++ evs2) ++ evs3 /\ (evs3 = [] \/ example_download E url turl (example_dir cwd) target now i2 = (i', o))) as (evs3 & Hh3 & -> & H3').
  { pose proof (explains_app _ _ _ _ _ He1 He2) as He12. destruct H3 as [(_ & _ & ->)|(_ & H3)].
    - exists []. split; [unfold happened; by rewrite app_nil_r|]. rewrite app_nil_r. split; [exact (happened_eq _ _ _ _ He (proj1 He12))|by left].
    - destruct (download_disk _ _ _ _ _ _ _ _ H3) as (evs3 & He3).
      exists evs3. split; [apply He3|]. split; [|by right]. exact (happened_eq _ _ _ _ He (proj1 (explains_app _ _ _ _ _ He12 He3))). }
  assert (~ stat_failed (example_root cwd) evs2) as Hst2 by (intros Hf; apply Hst; unfold stat_failed in *; rewrite !elem_of_app; auto).
  assert (Forall silent evs2) as Hs2.
  { destruct Hcase as [[? _]|(pre & u & sent & k & _ & -> & _ & _ & _ & [Hn|Hf])]; [done|pose proof (eq_trans (eq_sym Hroot) Hn) as [=]|]. destruct Hst2. unfold stat_failed in *. apply elem_of_app. by left. }
  assert (Forall silent (evs1 ++ evs2)) as Hs12 by (apply Forall_app; split; [by apply still_silent|done]).
  assert (io_disk i2 = io_disk i) as Hd2 by (destruct He2 as [_ ->]; rewrite Hd1; by apply silent_replay).
  apply crash_app in Hc as [Hc|Hc]; [by rewrite (silent_crash _ _ _ Hs12 Hc)|]. rewrite (silent_replay _ _ Hs12) in Hc.
  destruct H3' as [-> |H3']; [by apply crash_nil in Hc as ->|]. rewrite <- Hd2 in Hc, Hh. by eapply download_history.
Qed.
(** a root file that is not self-signed root metadata: nothing ever changes *)
Lemma download_checks_root url turl dir target now i i' o data : io_disk i !! root_json dir = Some data -> ~ (exists r : metadata root_t, document data r /\ root_signs r "root" r) -> example_download E url turl dir target now i = (i', o) ->
  (forall p, o <> Ok p) /\ io_disk i' = io_disk i.
Proof.
  intros Hd Hbad H. apply download_run in H. inversion H as [o' evs He Hs Ho|o' root c i1 evs0 o1 He Hs Hroot Hc Hnew Ho1 Ho|o' root c i1 i2 t evs0 w' He Hs Hroot Hc Hnew]; subst.
  - split; [done|]. destruct He as [_ ->]. by apply silent_replay.
  - rewrite Hd in Hroot. injection Hroot as <-. split; [done|]. destruct (example_config_ok _ _ _ _ _ Hc) as (_ & _ & Hdata & _).
    apply new_events in Hnew as (e0 & e1 & [_ Hdk] & Hf & Hpe & _ & Hok). destruct e1 as [|x e1].
    + rewrite Hdk, app_nil_r. destruct He as [_ ->]. rewrite (silent_replay evs0 _ Hs). apply silent_replay. eapply Forall_impl; [exact Hf|]. by intros e (? & ? & ->).
    + destruct (Hok ltac:(done)) as (t & Ht). rewrite Hdata in Ht. apply tm_new_spec in Ht as (r & ? & ? & _). destruct Hbad. by exists r.
  - rewrite Hd in Hroot. injection Hroot as <-. destruct (example_config_ok _ _ _ _ _ Hc) as (_ & _ & Hdata & _). apply updater_new_ok in Hnew as [Hnew _]. rewrite Hdata in Hnew. apply tm_new_spec in Hnew as (r & ? & ? & _). destruct Hbad. by exists r.
Qed.
Lemma main_stuck url turl target now i i' o evs data : io_disk i !! root_json working_dir = Some data -> ~ (exists r : metadata root_t, document data r /\ root_signs r "root" r) -> example_main E url turl target now i = (i', o) -> happened i i' evs -> ~ stat_failed (root_json working_dir) evs ->
  (forall p, o <> Ok p) /\ io_disk i' = io_disk i.
Proof.
  intros Hd Hbad H Hh Hst. apply main_run in H as (i1 & i2 & evs1 & o2 & He1 & Hs1 & H2 & H3).
  assert (io_disk i1 = io_disk i) as Hd1 by (destruct He1 as [_ ->]; by apply silent_replay, still_silent).
  apply first_use_run in H2 as (evs2 & He2 & Hcase). rewrite Hd1 in Hcase.
  assert (exists evs3, evs = (evs1 ++ evs2) ++ evs3) as (evs3 & ->).
  { pose proof (explains_app _ _ _ _ _ He1 He2) as He12. destruct H3 as [(_ & _ & ->)|(_ & H3)].
    - exists []. rewrite app_nil_r. exact (happened_eq _ _ _ _ Hh (proj1 He12)).
    - destruct (download_disk _ _ _ _ _ _ _ _ H3) as (evs3 & He3). exists evs3. exact (happened_eq _ _ _ _ Hh (proj1 (explains_app _ _ _ _ _ He12 He3))). }
  assert (~ stat_failed (root_json working_dir) evs2) as Hst2 by (intros Hf; apply Hst; unfold stat_failed in *; rewrite !elem_of_app; auto).
  assert (Forall silent evs2) as Hs2.
  { destruct Hcase as [[? _]|(pre & u & sent & k & _ & -> & _ & _ & _ & [Hn|Hf])]; [done|pose proof (eq_trans (eq_sym Hd) Hn) as [=]|]. destruct Hst2. unfold stat_failed in *. apply elem_of_app. by left. }
  assert (io_disk i2 = io_disk i) as Hd2 by (destruct He2 as [_ ->]; rewrite Hd1; by apply silent_replay).
  destruct H3 as [(_ & -> & ->)|(_ & H3)]; [done|]. rewrite <- Hd2 in Hd |- *. by eapply download_checks_root.
Qed.
End Example.
Lemma runs_history {CR : Crypto} cwd d0 d root0 (r0 : metadata root_t) : has_prefix "/" cwd = true -> plain_base (path_join [example_dir cwd; "download"]) = true -> d0 !! example_root cwd = Some root0 -> document root0 r0 -> example_runs cwd d0 d -> history (example_dir cwd) d0 (Stopped d).
Proof.
  intros Hr Hb Hd0 Hr0. induction 1 as [|d E url turl target now tr i' o evs d' _ IH Hcwd H He Hst Hc|d d' _ IH Hd]; [constructor| |].
  - pose proof (history_good (example_dir cwd) d0 root0 r0 Hd0 Hr0 _ IH) as (root & Hroot & _). eapply (main_history E d0 url turl target now (mkIos d tr)); done.
  - by eapply hist_files.
Qed.
