(** * The multi-repository example: proofs for C106 *)
From stdpp Require Import base gmap strings list.
From Coq Require Import ZArith Ascii String Lia.
From Verif Require Import GoBase GoStr Json GoTime Types Marshal Keys Metadata TrustedMetadata Fetcher Updater Cli ExampleClients SpecSig SpecBasic SpecTrusted SpecUpdater SpecHistory SpecCli SpecExamples
  StrProofs PathProofs CleanProofs SigProofs BasicProofs SerialProofs TrustedProofs UpdaterProofs EventProofs RefreshProofs ApiProofs BlockProofs ClaimProofs FinalProofs HonestProofs HistoryProofs CliProofs InitProofs ExampleProofs MultiProofs.
Open Scope Z_scope.

(** ** Names without ".." stay below their directory *)
Definition solid (s : string) : bool := negb (String.eqb s "" || String.eqb s ".").
Lemma fold_no_dotdot l : forall st, ".." ∉ l -> fold_left (clean_step true) l st = rev (List.filter solid l) ++ st.
Proof.
  induction l as [|x l IH]; intros st Hn; [done|]. apply not_elem_of_cons in Hn as [Hx Hn]. cbn [fold_left List.filter]. rewrite IH by done. unfold clean_step, solid.
  destruct (String.eqb x "" || String.eqb x "."); cbn [negb]; [done|]. rewrite (proj2 (String.eqb_neq x "..") (not_eq_sym Hx)). cbn [rev]. by rewrite <- app_assoc.
Qed.
Lemma join_segs d n : has_prefix "/" d = true -> ".." ∉ split_on "/" n -> segs (path_join [d; n]) = segs d ++ List.filter solid (split_on "/" n).
Proof.
  intros Hr Hn. assert (d <> "") as Hd by (by intros ->). destruct (decide (n = "")) as [-> |Hne].
  - rewrite path_join_empty by done. rewrite segs_clean by done. cbn. by rewrite app_nil_r.
  - unfold path_join. rewrite !filter_cons_True by done. rewrite filter_nil. cbn [join_str]. rewrite segs_clean by (by rewrite has_prefix_join).
    rewrite !segs_rooted by (by rewrite ?has_prefix_join). rewrite split_on_app, fold_left_app, fold_no_dotdot by done. by rewrite rev_app_distr, rev_involutive.
Qed.
Lemma join_rooted d n : has_prefix "/" d = true -> has_prefix "/" (path_join [d; n]) = true.
Proof.
  intros Hr. assert (d <> "") as Hd by (by intros ->). destruct (decide (n = "")) as [-> |Hne].
  - rewrite path_join_empty by done. by rewrite clean_rooted.
  - unfold path_join. rewrite !filter_cons_True by done. rewrite filter_nil. cbn [join_str]. rewrite clean_rooted by (by rewrite has_prefix_join). done.
Qed.
Lemma place_not_anchor cwd name : has_prefix "/" cwd = true -> ".." ∉ split_on "/" name -> path_join [path_join [cwd; "bootstrap/targets"]; name] <> anchor cwd.
Proof.
  intros Hr Hn H. apply (f_equal segs) in H. assert (forall s, (forallb (fun x => negb (String.eqb x "..")) (split_on "/" s) = true) -> ".." ∉ split_on "/" s) as Hb.
  { intros s Hs Hx. rewrite forallb_forall in Hs. apply elem_of_list_In in Hx. by specialize (Hs _ Hx). }
  unfold anchor in H. rewrite join_segs in H by (done || by apply join_rooted). rewrite !join_segs in H by (done || by apply Hb). rewrite <- app_assoc in H. apply app_inv_head in H. cbn in H. done.
Qed.
Lemma metadata_not_anchor cwd c role : c_metadata_dir c = path_join [cwd; "bootstrap"] -> cache_name c role <> anchor cwd.
Proof.
  intros Hd. assert (plain_name "bootstrap") as Hpb by (repeat split; done). assert (plain_name "root.json") as Hpr by (repeat split; done). unfold cache_name. rewrite Hd, join_join; [|done|]. 2: apply json_plain, query_escape_no_slash.
  unfold anchor. rewrite path_join_plain by done. rewrite in_dir_prefix. intros H. by apply app_inj_s in H.
Qed.
Lemma first_segment name : match split_on "/" name with s :: _ => repository_of name s | [] => False end.
Proof.
  assert (forall s, match split_on "/" s with x :: _ => (s = x \/ exists rest, s = x +:+ "/" +:+ rest) /\ no_slash x | [] => False end) as H.
  { intros s. pose proof (split_no_slash s) as Hns. destruct (split_on "/" s) as [|x l] eqn:Hx; [by destruct (split_on_nonnil "/" s)|]. apply Forall_cons in Hns as [Hnx _]. split; [|done].
    pose proof (split_on_join "/" s) as Hj. change (s1 "/") with "/" in Hj. rewrite Hx in Hj. rewrite <- Hj. destruct l as [|y l]; [by left|right]. by exists (join_str "/" (y :: l)). }
  specialize (H name). destruct (split_on "/" name) as [|x l]; [done|]. destruct H as [H Hn]. split; [done|]. intros (a & b & ->). by apply no_slash_app in Hn as [_ [? _]%no_slash_app].
Qed.

Lemma path_clean_ne p : path_clean p <> "".
Proof.
  destruct (decide (p = "")) as [-> |Hp]; [done|]. rewrite clean_def by done. destruct (has_prefix "/" p); [done|]. by destruct (String.eqb_spec (join_str "/" (segs p)) "").
Qed.
Section Boot.
Context {CR : Crypto} (E : env).
(** the run from [i] to [i'] leaves [q] alone, however far it gets, unless [X] *)
Definition leaves (q : string) (X : Prop) (i i' : ios) : Prop :=
  exists evs, explains i i' evs /\ forall d', crash (io_disk i) evs d' -> d' !! q = io_disk i !! q \/ X.
Lemma leaves_refl q X i : leaves q X i i.
Proof. exists []. split; [apply explains_nil|]. intros d' Hc. apply crash_nil in Hc as ->. by left. Qed.
Lemma leaves_trans q X i1 i2 i3 : leaves q X i1 i2 -> leaves q X i2 i3 -> leaves q X i1 i3.
Proof.
  intros (e1 & He1 & H1) (e2 & He2 & H2). exists (e1 ++ e2). split; [by eapply explains_app|]. intros d' Hc. apply crash_app in Hc as [Hc|Hc]; [by apply H1|].
  destruct He1 as [_ Hd1]. rewrite <- Hd1 in Hc. destruct (H2 _ Hc) as [Hq|?]; [|by right]. destruct (H1 _ (crash_whole e1 _)) as [Hq1|?]; [|by right]. left. rewrite <- Hd1 in Hq1. congruence.
Qed.
Lemma leaves_impl q (X Y : Prop) i i' : (X -> Y) -> leaves q X i i' -> leaves q Y i i'.
Proof. intros HXY (e & He & H). exists e. split; [done|]. intros d' Hc. destruct (H d' Hc); auto. Qed.
Lemma leaves_silent q X i i' evs : explains i i' evs -> Forall silent evs -> leaves q X i i'.
Proof. intros He Hs. exists evs. split; [done|]. intros d' Hc. left. by rewrite (silent_crash _ _ _ Hs Hc). Qed.
Lemma leaves_api q X c a w w' o : call_api E c a w = (w', o) -> (forall tf p u, a <> DownloadTarget tf p u) -> ~ tmp_name E q -> (forall role, q <> cache_name c role) -> leaves q X (w_io w) (w_io w').
Proof.
  intros H Hn Ht Hc. destruct (call_disk E c a w w' o H) as (evs & Hh & Hd). exists evs. split; [by split|]. intros d' Hcr. destruct (api_crash E c a w w' o evs d' q H Hn Hh Hcr Ht) as [?|(role & data & t & Hq & _)]; [by left|by destruct (Hc role)].
Qed.
Lemma leaves_new q X c now i i' o : updater_new E c now i = (i', o) -> ~ tmp_name E q -> (forall role, q <> cache_name c role) -> leaves q X i i'.
Proof.
  intros H Ht Hc. destruct (new_disk E c now i i' o H) as (evs & Hh & Hd). exists evs. split; [by split|]. intros d' Hcr. destruct (new_crash E c now i i' o evs d' q H Hh Hcr Ht) as [?|(Hq & _)]; [by left|by destruct (Hc "root")].
Qed.
Lemma leaves_download q c tf place u w w' o : download_target E c tf place u w = (w', o) -> place <> "" -> leaves q (q = place) (w_io w) (w_io w').
Proof.
  intros H Hp. assert (call_api E c (DownloadTarget tf place u) w = (w', omap_ (fun _ => tt) o)) as Ha by (cbn [call_api]; by rewrite H). destruct (call_disk E c _ w w' _ Ha) as (evs & Hh & Hd). exists evs. split; [by split|].
  intros d' Hcr. destruct (download_crash E c tf place u w w' _ evs d' q Ha Hh Hcr) as [?|(_ & data & _ & Hf & _)]; [by left|right]. by destruct Hf as [[_ ?]|[? _]].
Qed.

(** ** The loop *)
Definition first_part (name : string) : string := match split_on "/" name with s :: _ => s | [] => "" end.
Lemma first_part_ok name : repository_of name (first_part name).
Proof. pose proof (first_segment name) as H. unfold first_part. by destruct (split_on "/" name). Qed.
Lemma find_run c tf w w' o : lift (find_cached_target E c tf "") w = (w', o) -> w_trusted w' = w_trusted w /\ exists evs, explains (w_io w) (w_io w') evs /\ Forall silent evs.
Proof.
  intros [H Ht]%lift_inv. split; [done|]. apply find_cached_run in H as (Hd & evs & Hh & Hev & _). exists evs. assert (Forall silent evs) as Hs by (destruct Hev as [-> |(p' & x & -> & _)]; [by apply Forall_nil|by apply Forall_singleton]).
  split; [|done]. split; [done|]. by rewrite (silent_replay _ _ Hs).
Qed.
Lemma loop_run c dir l : dir <> "" -> forall got w w' o, bootstrap_targets E c dir l got w = (w', o) -> w_trusted w' = w_trusted w /\
  (forall q, leaves q (exists name tf, (name, Some tf) ∈ l /\ q = path_join [dir; name]) (w_io w) (w_io w')) /\
  forall m roots, o = Ok (m, roots) ->
    (m = fst got \/ exists tf, ("map.json", Some tf) ∈ l /\ matches_target tf m) /\ (forall tf, ("map.json", tf) ∈ l -> exists tf, ("map.json", Some tf) ∈ l /\ matches_target tf m) /\
    (forall repo data, roots !! repo = Some data -> snd got !! repo = Some data \/ exists name tf, (name, Some tf) ∈ l /\ name <> "map.json" /\ repository_of name repo /\ matches_target tf data) /\
    (forall repo, is_Some (snd got !! repo) -> is_Some (roots !! repo)) /\
    (forall name tf, (name, tf) ∈ l -> name <> "map.json" -> is_Some (roots !! first_part name)).
Proof.
  intros Hdir. induction l as [|[name [tf|]] l IH]; intros got w w' o; cbn [bootstrap_targets].
  - intros [= <- <-]. split; [done|]. split; [intros q; apply leaves_refl|]. intros m roots [= ->]. split; [by left|]. split; [intros tf Hx; by apply elem_of_nil in Hx|]. split; [by left|]. split; [done|]. intros n tf Hx. by apply elem_of_nil in Hx.
  - intros H. assert (path_join [dir; name] <> "") as Hpl.
    { unfold path_join. rewrite filter_cons_True by done. destruct (filter _ [name]); apply path_clean_ne. }
    apply sbind_inv in H as [(w1 & found & H1 & H)|[(e & H1 & ->)|[H1 ->]]]; destruct (find_run _ _ _ _ _ H1) as (Ht1 & e1 & He1 & Hs1).
    2,3: split; [done|]; split; [intros q; by eapply leaves_silent|done].
    cbn zeta in H. apply sbind_inv in H as [(w2 & [] & H2 & H)|[(e & H2 & ->)|[H2 ->]]]; apply lift_inv in H2 as [H2 Ht2].
    2,3: split; [by rewrite Ht2|]; split; [|done]; intros q; eapply leaves_trans; [by eapply leaves_silent|]; unfold mkdir_all in H2; injection H2 as H2 _; rewrite <- H2; eapply leaves_silent; [by apply explains_log|by apply Forall_singleton].
    assert (forall q X, leaves q X (w_io w) (w_io w2)) as Hl2.
    { intros q X. eapply leaves_trans; [by eapply leaves_silent|]. unfold mkdir_all in H2. injection H2 as H2 _. rewrite <- H2. eapply leaves_silent; [by apply explains_log|by apply Forall_singleton]. }
    apply sbind_inv in H as [(w3 & [p data] & H3 & H)|[(e & H3 & ->)|[H3 ->]]].
    2,3: split; [apply download_target_run in H3 as (Ht3 & _); by rewrite Ht3, Ht2|]; split; [|done]; intros q; eapply leaves_trans; [apply Hl2|]; eapply leaves_impl; [|by eapply leaves_download]; intros ->; exists name, tf; split; [by left|done].
    pose proof (download_ok _ _ _ _ _ _ _ _ _ H3) as (Hmt & _ & Ht3 & _). cbn [snd] in H. apply IH in H as (Ht & Hq & Hres). split; [by rewrite Ht, Ht3, Ht2|]. split.
    { intros q. eapply leaves_trans; [apply Hl2|]. eapply leaves_trans; [eapply leaves_impl; [|by eapply leaves_download]; intros ->; exists name, tf; split; [by left|done]|].
      eapply leaves_impl; [|apply Hq]. intros (n & tf' & Hin & ->). exists n, tf'. split; [by right|done]. }
    intros m roots Ho. specialize (Hres m roots Ho) as (Hm & Hmm & Hr & Hk & Hall). change (match split_on "/" name with s :: _ => s | [] => "" end) with (first_part name) in *.
    destruct (String.eqb_spec name "map.json") as [-> |Hne]; cbn [fst snd] in *.
    + assert (exists tf0, ("map.json", Some tf0) ∈ (("map.json", Some tf) :: l) /\ matches_target tf0 m) as Hmap.
      { destruct Hm as [-> |(tf' & ? & ?)]; [exists tf; split; [by left|done]|exists tf'; split; [by right|done]]. }
      split; [by right|]. split; [done|]. split; [|split; [done|]].
      * intros repo x Hx. destruct (Hr repo x Hx) as [?|(n & tf' & ? & ?)]; [by left|right]. exists n, tf'. split; [by right|done].
      * intros n tf' [[= ->]|Hin]%elem_of_cons Hn; [done|]. by eapply Hall.
    + split; [destruct Hm as [?|(tf' & ? & ?)]; [by left|right; exists tf'; split; [by right|done]]|]. split; [|split; [|split]].
      * intros tf' [[= ? _]|Hin]%elem_of_cons; [done|]. destruct (Hmm _ Hin) as (tf2 & ? & ?). exists tf2. split; [by right|done].
      * intros repo x Hx. destruct (Hr repo x Hx) as [Hg|(n & tf' & ? & ?)]; [|right; exists n, tf'; split; [by right|done]].
        apply lookup_insert_Some in Hg as [[<- <-]|[_ Hg]]; [right|by left]. exists name, tf. split; [by left|]. split; [done|]. split; [apply first_part_ok|done].
      * intros repo Hs. apply Hk. destruct (decide (first_part name = repo)) as [-> |Hd]; [rewrite lookup_insert; by eexists|by rewrite lookup_insert_ne].
      * intros n tf' [[= -> _]|Hin]%elem_of_cons Hn; [|by eapply Hall]. apply Hk. rewrite lookup_insert. by eexists.
  - intros [= <- <-]. split; [done|]. split; [intros q; apply leaves_refl|done].
Qed.

(** ** The whole bootstrap *)
Lemma bootstrap_config_ok url turl cwd root c : bootstrap_config E url turl cwd root = Ok c -> c_metadata_dir c = path_join [cwd; "bootstrap"] /\ c_trusted_root c = root.
Proof. unfold bootstrap_config, config_new. destruct (url_join E url "targets"); cbn; [|done|done]. by intros [= <-]. Qed.
Lemma anchor_not_tmp cwd : ~ tmp_name E (anchor cwd).
Proof.
  intros H. apply (tmp_not_json _ _ (dir_prefix cwd +:+ "root")) in H. apply H. unfold anchor. rewrite path_join_plain by (repeat split; done). rewrite in_dir_prefix. by rewrite app_assoc_s.
Qed.
(** either it stops early, leaving the root file alone, or it loops over the targets of metadata verified from that file *)
Lemma boot_run url turl now i i' o cwd : e_cwd E = Some cwd -> bootstrap E url turl now i = (i', o) ->
  ((forall x, o <> Ok x) /\ leaves (anchor cwd) False i i') \/
  exists root (r : metadata root_t) tg c l w w', io_disk i !! anchor cwd = Some root /\ document root r /\ root_signs r "root" r /\ published_under r now tg /\ l ≡ₚ mlist (tg_targets (md_signed tg)) /\
    leaves (anchor cwd) False i (w_io w) /\ bootstrap_targets E c (path_join [cwd; "bootstrap/targets"]) l ("", ∅) w = (w', o) /\ i' = w_io w'.
Proof.
  intros Hcwd H. unfold bootstrap in H. apply sbind_inv in H as [(i0 & d & H0 & H)|[(e & H0 & ->)|[H0 ->]]]; unfold getwd in H0; rewrite Hcwd in H0; injection H0 as <- H0; [|done..]. subst d. cbn zeta in H.
  pose proof (anchor_not_tmp cwd) as Htmp.
  assert (forall p i i' o, mkdir_all E p i = (i', o) -> leaves (anchor cwd) False i i') as Hmk by (intros p j j' oj Hj; unfold mkdir_all in Hj; injection Hj as <- _; eapply leaves_silent; [by apply explains_log|by apply Forall_singleton]).
  apply sbind_inv in H as [(i1 & [] & H1 & H)|[(e & H1 & ->)|[H1 ->]]]; apply Hmk in H1 as Hl1; [|left; split; [done|exact Hl1]..].
  assert (io_disk i1 = io_disk i) as Hd1 by (unfold mkdir_all in H1; injection H1 as <- _; done).
  apply sbind_inv in H as [(i2 & root & H2 & H)|[(e & H2 & ->)|[H2 ->]]]; destruct (quiet_read _ _ _ _ _ H2) as (e2 & He2 & Hs2); pose proof (leaves_trans _ _ _ _ _ Hl1 (leaves_silent _ False _ _ _ He2 Hs2)) as Hl2; [|left; split; [done|exact Hl2]..].
  apply read_ok in H2. rewrite Hd1 in H2.
  apply sbind_inv in H as [(i3 & c & H3 & H)|[(e & H3 & ->)|[H3 ->]]]; injection H3 as <- Hc; [|left; split; [done|exact Hl2]..].
  destruct (bootstrap_config_ok _ _ _ _ _ Hc) as [Hmd Hdata]. assert (forall role, anchor cwd <> cache_name c role) as Hcache by (intros role; apply not_eq_sym; by apply metadata_not_anchor).
  apply sbind_inv in H as [(i4 & t & H4 & H)|[(e & H4 & ->)|[H4 ->]]]; pose proof (leaves_trans _ _ _ _ _ Hl2 (leaves_new _ False _ _ _ _ _ H4 Htmp Hcache)) as Hl4; [|left; split; [done|exact Hl4]..].
  unfold with_updater in H. destruct (sbind (refresh E c) _ (mkWorld t i4)) as [w5 o5] eqn:H5. injection H as <- <-.
  apply sbind_inv in H5 as [(w6 & [] & H6 & H5)|[(e & H6 & ->)|[H6 ->]]].
  2,3: left; split; [done|]; eapply leaves_trans; [exact Hl4|]; eapply (leaves_api _ _ c Refresh (mkWorld t i4)); [exact H6|done|done|done].
  assert (call_api E c Refresh (mkWorld t i4) = (w6, Ok tt)) as H6' by exact H6.
  pose proof (leaves_trans _ _ _ _ _ Hl4 (leaves_api _ False c Refresh (mkWorld t i4) _ _ H6' ltac:(done) Htmp Hcache)) as Hl6.
  pose proof (session_new E c now _ _ t H4) as Hse. destruct (updater_new_ok _ _ _ _ _ _ H4) as [Hnew _]. rewrite Hdata in Hnew.
  destruct (proj1 (tm_new_spec _ _ _) Hnew) as (r & Hr & Hrs & Ht).
  pose proof (session_step E c now _ Refresh _ _ Hse H6') as Hse1. pose proof (refresh_complete E c now _ _ Hse H6') as Htop.
  destruct Htop as (ts & sn & tg & fs & ft & Hts & Hsn & Htg & Hrest) eqn:Heq. clear Heq. assert (top_level_set (w_trusted w6)) as Htop' by (by exists ts, sn, tg, fs, ft).
  assert (exists n, root_chain n r (t_root (w_trusted w6))) as [n Hch].
  { destruct (session_calls E c now w6 Hse1) as (t0 & Ht0 & Hcalls). rewrite Hdata, Hnew in Ht0. injection Ht0 as <-. apply dcalls_calls in Hcalls. destruct (root_chain_calls t (w_trusted w6) Hcalls (new_range _ _ _ Hnew)) as [n Hn']. exists n. rewrite Ht in Hn'. exact Hn'. }
  assert (published_under r now tg) as Hpub by (exists (w_trusted w6), n; split_and!; [done|by eapply session_ref|done|done]).
  apply sbind_inv in H5 as [(w7 & l & H7 & H5)|[(e & H7 & _)|[H7 _]]]; unfold listed_targets, top_level_targets in H7; change TARGETS with "targets" in H7; rewrite Htg in H7; cbn in H7; [|done..].
  injection H7 as <- <-. right.
  exists root, r, tg, c, (e_order E (option targetfile) (io_trace (w_io w6)) (mlist (tg_targets (md_signed tg)))), (mkWorld (w_trusted w6) (log (io_disk (w_io w6)) (w_io w6) EvChoice)), w5. split_and!; try done; [apply e_order_perm|]. cbn [w_io]. eapply leaves_trans; [exact Hl6|]. eapply leaves_silent; [by apply explains_log|by apply Forall_singleton].
Qed.
Lemma listed_entry (tg : metadata targets_t) l name o : l ≡ₚ mlist (tg_targets (md_signed tg)) -> (name, o) ∈ l <-> entry tg name o.
Proof.
  intros Hp. assert ((name, o) ∈ l <-> (name, o) ∈ mlist (tg_targets (md_signed tg))) as -> by (by rewrite Hp). rewrite mlist_mget. unfold entry, mget. destruct (tg_targets (md_signed tg)) as [m|]; split.
  - intros H. by exists m.
  - intros (? & [= <-] & H). done.
  - done.
  - by intros (? & ? & _).
Qed.
End Boot.
