(** * Proofs about clients that are used again and again while the repository publishes *)
From stdpp Require Import base gmap strings list.
From Coq Require Import ZArith Lia Ascii String.
From Verif Require Import GoBase GoStr GoTime Types Marshal Keys Metadata TrustedMetadata Fetcher Updater SpecBasic SpecSig SpecDeleg SpecTrusted SpecUpdater SpecReach SpecLive.
From Verif Require Import BasicProofs TrustedProofs EventProofs UpdaterProofs WalkProofs BlockProofs RefreshProofs HonestProofs ReachProofs LiveProofs.
Open Scope Z_scope.

Section Stored.
Context {CR : Crypto} (E : env) (c : config).
Definition cached (w : world) (role : string) : option string := io_disk (w_io w) !! cache_name c role.
Lemma persist_cached role data i i' o x : persist_metadata E c role data i = (i', o) -> io_disk i' !! cache_name c x = io_disk i !! cache_name c x \/ (x = role /\ io_disk i' !! cache_name c x = Some data).
Proof.
  intros H. destruct (persist_shape E c role data i i' o H) as (evs & [_ Hd] & Hpe & _). rewrite Hd.
  destruct (persist_crash E c role data evs (io_disk i) (replay (io_disk i) evs) (cache_name c x) Hpe) as [Hs|[Hq Hs]]; [intros Ht; by eapply tmp_not_cache|apply crash_whole|by left|]. right. split; [by apply cache_name_inj in Hq|done].
Qed.
Lemma fetch_disk url len i i' o : fetch E url len i = (i', o) -> io_disk i' = io_disk i.
Proof. unfold fetch. by intros [= <- <-]. Qed.
Lemma local_disk role i i' o : load_local E c role i = (i', o) -> io_disk i' = io_disk i.
Proof. unfold load_local, read_file. by intros [= <- <-]. Qed.

Lemma timestamp_stored w w' x : load_timestamp E c w = (w', Ok tt) -> cached w' x = cached w x \/ (x = "timestamp" /\ exists data ts, cached w' x = Some data /\ document data ts /\ t_timestamp (w_trusted w') = Some ts).
Proof.
  unfold load_timestamp, cached. intros H. apply satt_inv in H as H1.
  assert (exists w1, io_disk (w_io w1) = io_disk (w_io w) /\ timestamp_tail E c w1 = (w', Ok tt)) as (w1 & Hd1 & Ht).
  { destruct H1 as [(w1 & data & Hl & Hk)|[(w1 & e & Hl & Hk)|[_ [=]]]]; apply lift_inv in Hl as [Hl _]; apply local_disk in Hl.
    - apply sbind_inv in Hk as [(w2 & u & Hh & Hk)|[(e & _ & [=])|[_ [=]]]]. exists w2. split; [|exact Hk]. rewrite <- Hl.
      apply satt_inv in Hh as [(w3 & m & Hu & Hh)|[(w3 & e & Hu & Hh)|[_ [=]]]]; apply on_trusted_inv in Hu as [_ Hu]; rewrite <- Hu; [by injection Hh as <- |]. destruct (errors_is e (ErrRepository "")); [by injection Hh as <-|done].
    - exists w1. split; [done|exact Hk]. }
  clear H H1. unfold timestamp_tail in Ht. apply sbind_inv in Ht as [(w2 & data & Hf & Ht)|[(e & _ & [=])|[_ [=]]]]. apply lift_inv in Hf as [Hf%fetch_disk _].
  apply satt_inv in Ht as [(w3 & m & Hu & Ht)|[(w3 & e & Hu & Ht)|[_ [=]]]]; apply on_trusted_inv in Hu as [Hu Hio].
  - apply lift_inv in Ht as [Hp Htr]. destruct (persist_cached _ _ _ _ _ x Hp) as [Hs|[-> Hs]]; rewrite Hs; [left; by rewrite Hio, Hf, Hd1|right]. split; [done|]. exists data, m.
    apply update_timestamp_spec in Hu as ((_ & _ & Hdoc & _) & _ & (_ & Hts & _)). rewrite Htr. done.
  - destruct (errors_is e (ErrEqualVersionNumber "")); [|done]. injection Ht as <-. left. by rewrite Hio, Hf, Hd1.
Qed.
Lemma snapshot_stored w w' x : load_snapshot E c w = (w', Ok tt) -> t_timestamp (w_trusted w') = t_timestamp (w_trusted w) /\ (cached w' x = cached w x \/ (x = "snapshot" /\ exists data sn, cached w' x = Some data /\ document data sn /\ t_snapshot (w_trusted w') = Some sn)).
Proof.
  assert (forall data b w1 w2 (o : outcome (metadata snapshot_t)), upd_snapshot E data b w1 = (w2, o) -> t_timestamp (w_trusted w2) = t_timestamp (w_trusted w1)) as Hkeep.
  { intros data b w1 w2 o Hu. unfold upd_snapshot in Hu. apply on_trusted_inv in Hu as [Hu _]. cbn [w_trusted] in Hu. pose proof (update_snapshot_cases (e_order E (option metafile) (io_trace (w_io w1))) (w_trusted w1) data b) as Hc. rewrite Hu in Hc. cbn [fst] in Hc.
    destruct Hc as [(sn & _ & -> & _)|(_ & -> & _)]; [intros l; apply e_order_perm|done|done]. }
  unfold load_snapshot, cached. intros H. apply satt_inv in H.
  assert (forall w1, io_disk (w_io w1) = io_disk (w_io w) -> t_timestamp (w_trusted w1) = t_timestamp (w_trusted w) -> snapshot_tail E c w1 = (w', Ok tt) -> t_timestamp (w_trusted w') = t_timestamp (w_trusted w) /\ (io_disk (w_io w') !! cache_name c x = io_disk (w_io w) !! cache_name c x \/
    (x = "snapshot" /\ exists data sn, io_disk (w_io w') !! cache_name c x = Some data /\ document data sn /\ t_snapshot (w_trusted w') = Some sn))) as Htail.
  { intros w1 Hd1 Hts1 Ht. unfold snapshot_tail in Ht. apply sbind_inv in Ht as [(w2 & t & Hg & Ht)|[(e & _ & [=])|[_ [=]]]]. injection Hg as <- <-. destruct (t_timestamp (w_trusted w1)) as [ts|] eqn:Ets; [|done]. destruct (snapshot_meta ts) as [f|]; [|done]. cbv zeta in Ht.
    apply sbind_inv in Ht as [(w2 & data & Hf & Ht)|[(e & _ & [=])|[_ [=]]]]. apply lift_inv in Hf as [Hf%fetch_disk Htf]. apply sbind_inv in Ht as [(w3 & m & Hu & Ht)|[(e & _ & [=])|[_ [=]]]]. apply Hkeep in Hu as Hk3.
    unfold upd_snapshot in Hu. apply on_trusted_inv in Hu as [Hu Hio]. cbn [w_trusted w_io] in Hu, Hio. apply lift_inv in Ht as [Hp Htr].
    split; [by rewrite Htr, Hk3, Htf, Ets|]. destruct (persist_cached _ _ _ _ _ x Hp) as [Hs|[-> Hs]]; rewrite Hs; [left; rewrite Hio; cbn [log io_disk]; by rewrite Hf, Hd1|right]. split; [done|]. exists data, m.
    apply update_snapshot_spec in Hu as ((ts' & _ & _ & _ & _ & Hdoc & _) & _ & (_ & _ & Hsn & _)); [|intros l; apply e_order_perm]. rewrite Htr. done. }
  destruct H as [(w1 & data & Hl & Hk)|[(w1 & e & Hl & Hk)|[_ [=]]]]; apply lift_inv in Hl as [Hl%local_disk Htr1].
  - apply sbind_inv in Hk as [(w2 & b & Hh & Hk)|[(e & _ & [=])|[_ [=]]]].
    assert (io_disk (w_io w2) = io_disk (w_io w) /\ t_timestamp (w_trusted w2) = t_timestamp (w_trusted w)) as [Hd2 Ht2].
    { rewrite <- Hl, <- Htr1. apply satt_inv in Hh as [(w3 & m & Hu & Hh)|[(w3 & e & Hu & Hh)|[_ [=]]]]; apply Hkeep in Hu as Hk3; unfold upd_snapshot in Hu; apply on_trusted_inv in Hu as [_ Hu]; cbn [w_io] in Hu; [injection Hh as <- _; by rewrite Hu|]. destruct (errors_is e (ErrRepository "")); [injection Hh as <- _; by rewrite Hu|done]. }
    destruct b; [injection Hk as <-; split; [done|]; left; by rewrite Hd2|]. by apply (Htail w2).
  - apply sbind_inv in Hk as [(w2 & b & Hh & Hk)|[(e' & _ & [=])|[_ [=]]]]. injection Hh as <- <-. apply (Htail w1); [done|by rewrite Htr1|done].
Qed.

(** roles once loaded stay, and what is written for a role is what has been loaded *)
Definition stored (w w' : world) : Prop :=
  (t_timestamp (w_trusted w') = t_timestamp (w_trusted w) /\ t_snapshot (w_trusted w') = t_snapshot (w_trusted w)) /\
  (forall x m, t_targets (w_trusted w) !! x = Some m -> t_targets (w_trusted w') !! x = Some m) /\
  forall x, cached w' x = cached w x \/ exists data m, cached w' x = Some data /\ document data m /\ t_targets (w_trusted w') !! x = Some m.
Lemma stored_refl w : stored w w.
Proof. split; [done|]. split; [done|by left]. Qed.
Lemma stored_trans w1 w2 w3 : stored w1 w2 -> stored w2 w3 -> stored w1 w3.
Proof.
  intros ([Ha Hb] & H1 & H2) ([Hc Hd] & H3 & H4). split; [split; congruence|]. split; [by auto|]. intros x. destruct (H4 x) as [Hx|Hx]; [|by right]. rewrite Hx. destruct (H2 x) as [Hy|(data & m & Hy1 & Hy2 & Hy3)]; [by left|right]. exists data, m. by auto.
Qed.
Lemma stored_same w w' : w_trusted w' = w_trusted w -> io_disk (w_io w') = io_disk (w_io w) -> stored w w'.
Proof. intros H1 H2. split; [by rewrite H1|]. split; [by rewrite H1|]. intros x. left. unfold cached. by rewrite H2. Qed.
Lemma delegated_stored data role parent w w' o : t_targets (w_trusted w) !! role = None -> on_trusted (fun t => update_delegated_targets t data role parent) w = (w', o) ->
  stored w w' /\ io_disk (w_io w') = io_disk (w_io w) /\ ((exists e, o = Err e) \/ o = Panic -> w_trusted w' = w_trusted w) /\ (forall m, o = Ok m -> document data m /\ t_targets (w_trusted w') !! role = Some m).
Proof.
  intros Hn [Hu Hio]%on_trusted_inv. assert (io_disk (w_io w') = io_disk (w_io w)) as Hd by (by rewrite Hio). destruct (update_delegated_cases (w_trusted w) data role parent) as [(m & Hok & Hq)|(_ & Hq & Hno)].
  - rewrite Hq in Hu. injection Hu as Ht <-. split; [|split; [done|split; [by intros [[e [=]]|[=]]|]]].
    + split; [by rewrite <- Ht|]. split; [|intros x; left; unfold cached; by rewrite Hd]. intros x m' Hx. rewrite <- Ht. cbn. eapply eq_trans; [apply (lookup_insert_ne (M := gmap string)); congruence|done].
    + intros m' [= <-]. split; [by destruct Hok as (sn & f & _ & _ & _ & _ & Hdoc & _)|]. rewrite <- Ht. apply (lookup_insert (M := gmap string)).
  - rewrite Hu in Hq, Hno. cbn [fst snd] in Hq, Hno. split; [by apply stored_same|]. split; [done|]. split; [done|]. intros m ->. by destruct (Hno m).
Qed.
Lemma targets_stored role parent w w' o : load_targets E c role parent w = (w', o) -> stored w w'.
Proof.
  unfold load_targets. intros H. apply sbind_inv in H as [(w0 & t & Hg & H)|[(e & [=] & _)|[[=] _]]]. injection Hg as <- <-. destruct (t_targets (w_trusted w) !! role) as [m|] eqn:Em; [injection H as <- _; apply stored_refl|].
  assert (forall w1 : world, stored w w1 -> w_trusted w1 = w_trusted w -> role_tail E c role parent w1 = (w', o) -> stored w w') as Htail.
  { intros w1 Hs1 Ht1 Ht. eapply stored_trans; [exact Hs1|]. unfold role_tail in Ht. apply sbind_inv in Ht as [(w2 & t & Hg & Ht)|[(e & [=] & _)|[[=] _]]]. injection Hg as <- <-.
    destruct (t_snapshot (w_trusted w1)) as [sn|]; [|injection Ht as <- _; apply stored_refl]. destruct (mget (sn_meta (md_signed sn)) (json_of role)) as [[f|]|]; [|injection Ht as <- _; apply stored_refl..]. cbv zeta in Ht.
    assert (forall w2 (o2 : outcome string), lift (download_metadata E c role (if mf_length f =? 0 then c_targets_max c else mf_length f) (if consistent (w_trusted w1) then fmt_dec (mf_version f) else "")) w1 = (w2, o2) -> stored w1 w2 /\ w_trusted w2 = w_trusted w) as Hdl.
    { intros w2 o2 [Hf%fetch_disk Htr]%lift_inv. split; [by apply stored_same|congruence]. }
    apply sbind_inv in Ht as [(w2 & data & Hf & Ht)|[(e & Hf & ->)|[Hf ->]]]; destruct (Hdl _ _ Hf) as [Hs2 Ht2]; [|done..]. eapply stored_trans; [exact Hs2|]. clear Hs2 Hdl Hf.
    assert (t_targets (w_trusted w2) !! role = None) as Hn by (by rewrite Ht2).
    apply sbind_inv in Ht as [(w3 & m & Hu & Ht)|[(e & Hu & ->)|[Hu ->]]]; destruct (delegated_stored _ _ _ _ _ _ Hn Hu) as (Hs3 & Hd3 & Hbad & Hok); [|done..]. destruct (Hok m eq_refl) as [Hdoc Hm].
    assert (forall w4 (o4 : outcome unit), lift (persist_metadata E c role data) w3 = (w4, o4) -> stored w2 w4) as Hper.
    { intros w4 o4 [Hp Htr]%lift_inv. eapply stored_trans; [exact Hs3|]. split; [by rewrite Htr|]. split; [by rewrite Htr|]. intros x. destruct (persist_cached _ _ _ _ _ x Hp) as [?|[-> ?]]; [by left|right]. exists data, m. by rewrite Htr. }
    apply sbind_inv in Ht as [(w4 & u & Hp & Ht)|[(e & Hp & ->)|[Hp ->]]]; pose proof (Hper _ _ Hp) as Hs4; [|done..]. by injection Ht as <- _. }
  apply satt_inv in H as [(w1 & data & Hl & H)|[(w1 & e & Hl & H)|[Hl ->]]]; apply lift_inv in Hl as [Hl%local_disk Htr]; pose proof (stored_same _ _ Htr Hl) as Hs1; [| |done].
  - assert (t_targets (w_trusted w1) !! role = None) as Hn by (by rewrite Htr).
    assert (forall w2 (o2 : outcome (option (metadata targets_t))), (try r := on_trusted (fun t => update_delegated_targets t data role parent) in match r with inl m => sret (Some m) | inr e => if errors_is e (ErrRepository "") then sret None else sout (Err e) end) w1 = (w2, o2) ->
      stored w w2 /\ (o2 = Ok None -> w_trusted w2 = w_trusted w)) as Hloc.
    { intros w2 o2 [(w3 & m & Hu & Hh)|[(w3 & e & Hu & Hh)|[Hu ->]]]%satt_inv; destruct (delegated_stored _ _ _ _ _ _ Hn Hu) as (Hs3 & _ & Hbad & _).
      - injection Hh as <- <-. split; [by eapply stored_trans|done].
      - assert (w_trusted w3 = w_trusted w) as Hq by (rewrite Hbad by eauto; done). destruct (errors_is e (ErrRepository "")); injection Hh as <- <-; (split; [by eapply stored_trans|done]).
      - split; [by eapply stored_trans|done]. }
    apply sbind_inv in H as [(w2 & lc & Hh & H)|[(e & Hh & ->)|[Hh ->]]]; destruct (Hloc _ _ Hh) as [Hs2 Hq2]; [|done..]. destruct lc as [m|]; [by injection H as <- _|]. by apply (Htail w2); [|auto|].
  - apply sbind_inv in H as [(w2 & lc & Hh & H)|[(e' & [=] & _)|[[=] _]]]. injection Hh as <- <-. by apply (Htail w1).
Qed.
Lemma walk_stored fuel target : forall visited todo w w' o, walk E c fuel target visited todo w = (w', o) -> stored w w'.
Proof.
  induction fuel as [|fuel IH]; intros visited todo w w' o; cbn [walk]; [intros [= <- _]; apply stored_refl|]. destruct (skip_visited visited todo) as [|[role parent] rest]; [intros [= <- _]; apply stored_refl|].
  intros H. apply sbind_inv in H as [(w1 & m & Hl & H)|[(e & Hl & ->)|[Hl ->]]]; apply targets_stored in Hl; [|done..]. eapply stored_trans; [exact Hl|]. clear Hl.
  destruct (mget (tg_targets (md_signed m)) target); [injection H as <- _; apply stored_refl|]. destruct (tg_delegations (md_signed m)) as [d|]; [|by eapply IH].
  apply sbind_inv in H as [(w2 & roles & Hs & H)|[(e & Hs & ->)|[Hs ->]]]; injection Hs as <- Hs; [|apply stored_refl..].
  apply sbind_inv in H as [(w2 & order & Hi & H)|[(e & Hi & ->)|[Hi ->]]]; apply lift_inv in Hi as [Hi Htr]; unfold iterate in Hi; [|done..]. injection Hi as Hi _.
  destruct (take_children order) as [children term]. apply IH in H. eapply stored_trans; [|exact H]. apply stored_same; [done|]. by rewrite <- Hi.
Qed.
Lemma info_stored path w w' o : is_Some (t_targets (w_trusted w) !! "targets") -> get_target_info E c path w = (w', o) -> stored w w'.
Proof.
  intros [m Hm]. unfold get_target_info. intros H. apply sbind_inv in H as [(w0 & t & Hg & H)|[(e & [=] & _)|[[=] _]]]. injection Hg as <- <-. change TARGETS with "targets" in H. rewrite Hm in H.
  apply sbind_inv in H as [(w1 & u & Hs & H)|[(e & [=] & _)|[[=] _]]]. injection Hs as <- _. by eapply walk_stored.
Qed.
Lemma used_stored R w w' : used E c R w w' -> is_Some (t_targets (w_trusted w) !! "targets") -> stored w w'.
Proof.
  induction 1 as [|path w w1 w2 o _ Hinfo _ IH|tf data fp p w w1 w2 o _ Hfile Hown Hdl _ IH]; intros Hm; [apply stored_refl|..].
  - pose proof (info_stored _ _ _ _ Hm Hinfo) as Hs. eapply stored_trans; [exact Hs|]. apply IH. destruct Hm as [m Hm]. exists m. by apply Hs.
  - destruct (download_elsewhere E c _ _ _ _ _ _ Hfile Hdl) as [Ht Hd]. eapply stored_trans; [|apply IH; by rewrite Ht]. split; [by rewrite Ht|]. split; [by rewrite Ht|]. intros x. left. apply Hd. intros Hq. by apply (proj1 Hown x).
Qed.

(** ** New and Refresh *)
Lemma new_cached now i i' o x : updater_new E c now i = (i', o) -> x <> "root" -> io_disk i' !! cache_name c x = io_disk i !! cache_name c x.
Proof.
  intros H Hx. unfold updater_new in H. destruct (_ || _); [by injection H as <- _|].
  apply sbind_inv in H as [(i1 & t & H1 & H)|[(e & H1 & _)|[H1 _]]]; injection H1 as <- H1; [|done..].
  assert (forall i1 (o1 : outcome unit), ensure_paths E c i = (i1, o1) -> io_disk i1 = io_disk i) as Hens.
  { intros i1 o1. unfold ensure_paths, mkdir_all. destruct (c_disable_cache c); [by intros [= <- _]|]. intros Hm. apply sbind_inv in Hm as [(i2 & u & H2 & Hm)|[(e & H2 & _)|[H2 _]]]; injection H2 as <- _; [|done..]. by injection Hm as <- _. }
  apply sbind_inv in H as [(i2 & u & H2 & H)|[(e & H2 & _)|[H2 _]]]; apply Hens in H2; [|by rewrite H2..].
  assert (forall i3 (o3 : outcome unit), persist_metadata E c ROOT (c_trusted_root c) i2 = (i3, o3) -> io_disk i3 !! cache_name c x = io_disk i !! cache_name c x) as Hp.
  { intros i3 o3 Hp. rewrite <- H2. by destruct (persist_cached _ _ _ _ _ x Hp) as [?|[-> _]]. }
  apply sbind_inv in H as [(i3 & u3 & H3 & H)|[(e & H3 & _)|[H3 _]]]; apply Hp in H3; [|done..]. by injection H as <- _.
Qed.
Lemma root_loop_cached x fuel : x <> "root" -> forall next w w' o, root_loop E c fuel next w = (w', o) -> cached w' x = cached w x.
Proof.
  intros Hx. induction fuel as [|fuel IH]; intros next w w' o; cbn [root_loop]; [by intros [= <- _]|]. unfold cached in *. intros H.
  apply satt_inv in H as [(w1 & data & H1 & H)|[(w1 & e & H1 & H)|[H1 ->]]]; apply lift_inv in H1 as [H1%fetch_disk _].
  - apply sbind_inv in H as [(w2 & r & H2 & H)|[(e & H2 & ->)|[H2 ->]]]; apply on_trusted_inv in H2 as [_ H2]; [|by rewrite H2, H1..].
    assert (forall w3 (o3 : outcome unit), lift (persist_metadata E c ROOT data) w2 = (w3, o3) -> io_disk (w_io w3) !! cache_name c x = io_disk (w_io w) !! cache_name c x) as Hp.
    { intros w3 o3 [Hp _]%lift_inv. rewrite <- H1, <- H2. by destruct (persist_cached _ _ _ _ _ x Hp) as [?|[-> _]]. }
    apply sbind_inv in H as [(w3 & u & H3 & H)|[(e & H3 & ->)|[H3 ->]]]; apply Hp in H3; [|done..]. rewrite <- H3. by eapply IH.
  - destruct (http_status e) as [st|]; [destruct ((st =? 404) || (st =? 403))|]; injection H as <- _; by rewrite H1.
  - by rewrite H1.
Qed.
(** after a successful Refresh every cached file is as before, or the metadata that is now trusted *)
Definition kept (w : world) (before after : option string) (x : string) : Prop :=
  after = before \/ exists data, after = Some data /\
    ((x = "timestamp" /\ exists ts, document data ts /\ t_timestamp (w_trusted w) = Some ts) \/
     (x = "snapshot" /\ exists sn, document data sn /\ t_snapshot (w_trusted w) = Some sn) \/
     exists m, document data m /\ t_targets (w_trusted w) !! x = Some m).
Lemma refresh_kept w w' x : c_unsafe_local c = false -> x <> "root" -> refresh E c w = (w', Ok tt) -> kept w' (cached w x) (cached w' x) x.
Proof.
  intros Hu Hx. unfold refresh. rewrite Hu. unfold online_refresh. intros H.
  apply sbind_inv in H as [(w1 & [] & H1 & H)|[(e & _ & [=])|[_ [=]]]]. apply (root_loop_cached x) in H1; [|done].
  apply sbind_inv in H as [(w2 & [] & H2 & H)|[(e & _ & [=])|[_ [=]]]]. apply (timestamp_stored _ _ x) in H2.
  apply sbind_inv in H as [(w3 & [] & H3 & H)|[(e & _ & [=])|[_ [=]]]]. apply (snapshot_stored _ _ x) in H3 as [Hk3 H3].
  apply sbind_inv in H as [(w4 & m & H4 & H)|[(e & _ & [=])|[_ [=]]]]. apply targets_stored in H4 as ([Hk4 Hk5] & _ & H4). injection H as <-.
  destruct (H4 x) as [Hq|(data & m' & Hq1 & Hq2 & Hq3)]; [|right; exists data; split; [done|]; right; right; by exists m'].
  destruct H3 as [Hq3|(-> & data & sn & Hq1 & Hq2 & Hq3)]; [|right; exists data; split; [by rewrite Hq|]; right; left; split; [done|]; exists sn; by rewrite Hk5].
  destruct H2 as [Hq2|(-> & data & ts & Hq1 & Hq2 & Ht)]; [|right; exists data; split; [by rewrite Hq, Hq3|]; left; split; [done|]; exists ts; by rewrite Hk4, Hk3].
  left. by rewrite Hq, Hq3, Hq2, H1.
Qed.
Lemma kept_more w w' before x : stored w w' -> kept w before (cached w x) x -> kept w' before (cached w' x) x.
Proof.
  intros ([H1 H2] & H3 & H4) Hk. destruct (H4 x) as [Hq|(data & m & Hq1 & Hq2 & Hq3)]; [|right; exists data; split; [done|]; right; right; by exists m].
  destruct Hk as [Hk|(data & Hd & Hk)]; [left; congruence|right]. exists data. split; [congruence|]. rewrite H1, H2. destruct Hk as [?|[?|(m & Hm1 & Hm2)]]; [by left|by right; left|right; right]. exists m. by auto.
Qed.
End Stored.

(** ** Many sessions *)
Section Life.
Context {CR : Crypto} (E : env) (c : config) (r0 r : metadata root_t) (clock : trace -> Z) (Rs : list release) (n : trace -> nat).
Lemma expired_later {T} `{RoleTy T} (m : metadata T) now now' : now <= now' -> expired_at m now -> expired_at m now'.
Proof. unfold expired_at. lia. Qed.
Lemma sound_before now now' R : now <= now' -> sound_release c r0 r now' R -> sound_release c r0 r now R.
Proof.
  intros Hn ((H1 & H2 & (H3 & H4 & H5) & (H6 & Hm6 & Hv6) & (H7 & H8 & H9) & (H10 & Hm10 & Hv10) & (H11 & H12 & H13)) & Hc & Ha & Hb & Hd & Hroles & Hfiles).
  assert (forall (T : Type) (S : RoleTy T) (m : metadata T), ~ expired_at m now' -> ~ expired_at m now) as Hx by (intros T S m Hm He; apply Hm; by eapply expired_later).
  split; [unfold honest; split_and!; try done; by eapply Hx|]. do 4 (split; [done|]). split; [|done]. intros name f Hf. destruct (Hroles _ _ Hf) as (? & ? & ? & ? & ? & ? & ? & ?). unfold role_published. split_and!; try done; by eapply Hx.
Qed.
Definition fits (R : release) (now : Z) (i : ios) : Prop :=
  (forall data, io_disk i !! cache_name c "timestamp" = Some data -> cached_timestamp r (rel_pub R) data) /\
  (forall data, io_disk i !! cache_name c "snapshot" = Some data -> cached_snapshot r now (rel_pub R) data) /\
  (forall data, io_disk i !! cache_name c "targets" = Some data -> cached_targets r now (rel_pub R) data) /\
  (forall name f data, rel_roles R !! name = Some f -> io_disk i !! cache_name c name = Some data -> cached_role (rel_pub R) now (rel_roles R) name f data).
Lemma root_payload {T} `{RoleTy T} (rt : metadata root_t) name (m : metadata T) : root_signs rt name m -> exists p, signing_payload (md_signed m) = Ok p.
Proof. intros (keys & ids & thr & _ & _ & _ & p & Hp & _). by exists p. Qed.
(** what a session with release [R] leaves in the cache is fine for [R] and for all later releases *)
Lemma fits_after E' now now' R R' i i' w : sound_release c r0 r now R -> now <= now' -> R' = R \/ newer R R' -> (forall name f, rel_roles R' !! name = Some f -> role_name_ok name) -> Inv E' c r (rel_pub R) now (rel_roles R) w ->
  (forall x, x <> "root" -> kept w (io_disk i !! cache_name c x) (io_disk i' !! cache_name c x) x) -> fits R' now i -> fits R' now' i'.
Proof.
  intros Hsd Hn Hnew Hnames (_ & Hts & Hsn & _ & Htg & Htop & _ & _) Hk (Hf1 & Hf2 & Hf3 & Hf4).
  pose proof Hsd as ((_ & _ & (_ & Hs1 & _) & (Hnm & _ & Hv2) & (_ & Hs2 & _) & (_ & _ & Hv3) & (_ & Hs3 & _)) & _ & _ & _ & _ & Hroles & _).
  assert (forall x, x ∈ ["root"; "timestamp"; "snapshot"] -> t_targets (w_trusted w) !! x = None) as Hno.
  { intros x Hx. destruct (t_targets (w_trusted w) !! x) as [m|] eqn:Em; [|done]. destruct (Htg _ _ Em) as (f & Hf & _). rewrite all_other in Hf by set_solver. destruct (Hroles _ _ Hf) as ([_ Hok] & _). set_solver. }
  split_and!.
  - intros data Hd. destruct (Hk "timestamp") as [Hq|(d & Hq & Hc)]; [done|apply Hf1; by rewrite <- Hq|]. assert (d = data) as -> by congruence.
    destruct Hc as [(_ & ts & Hdoc & Ht)|[([=] & _)|(m & _ & Hm)]]; [|rewrite Hno in Hm by set_solver; done]. assert (ts = pub_timestamp_md (rel_pub R)) as -> by congruence. exists (pub_timestamp_md (rel_pub R)).
    split; [done|]. split; [by eapply root_payload|]. intros _. destruct Hnew as [-> |Hnew]; [by left|right]. destruct Hnew as (H1 & H2 & _). split; [done|]. by exists (pub_snapshot_info (rel_pub R)).
  - intros data Hd. destruct (Hk "snapshot") as [Hq|(d & Hq & Hc)]; [done| |].
    { destruct (Hf2 data) as (sn & H1 & H2 & H3); [by rewrite <- Hq|]. exists sn. split; [done|]. split; [done|]. intros Hs. destruct (H3 Hs) as [->|[H4 H5]]; [by left|right]. split; [done|]. destruct H5 as [H5|H5]; [by left|right]. by apply (expired_later sn now). }
    assert (d = data) as -> by congruence. destruct Hc as [([=] & _)|[(_ & sn & Hdoc & Ht)|(m & _ & Hm)]]; [|rewrite Hno in Hm by set_solver; done]. assert (sn = pub_snapshot_md (rel_pub R)) as -> by congruence. exists (pub_snapshot_md (rel_pub R)).
    split; [done|]. split; [by eapply root_payload|]. intros _. destruct Hnew as [-> |Hnew]; [by left|]. destruct Hnew as (_ & _ & H3 & H4 & _).
    destruct (decide (sn_version (md_signed (pub_snapshot_md (rel_pub R))) = mf_version (pub_snapshot_info (rel_pub R')))) as [Hv|Hv]; [left; by apply H4|right; split; [done|by left]].
  - intros data Hd. destruct (Hk "targets") as [Hq|(d & Hq & Hc)]; [done| |].
    { intros Hm. destruct (Hf3 data) as (m & H1 & H2 & H3); [by rewrite <- Hq|done|]. exists m. split; [done|]. split; [done|]. intros Hs. destruct (H3 Hs) as [->|[H4|H4]]; [by left|by right; left|right; right]. by apply (expired_later m now). }
    assert (d = data) as -> by congruence. destruct Hc as [([=] & _)|[([=] & _)|(m & Hdoc & Hm)]]. assert (m = pub_targets_md (rel_pub R)) as -> by congruence. intros _. exists (pub_targets_md (rel_pub R)).
    split; [done|]. split; [by eapply root_payload|]. intros _. destruct Hnew as [-> |Hnew]; [by left|]. destruct Hnew as (_ & _ & _ & _ & H5 & _).
    destruct (decide (tg_version (md_signed (pub_targets_md (rel_pub R))) = mf_version (pub_targets_info (rel_pub R')))) as [Hv|Hv]; [left; by apply H5|by right; left].
  - intros name f data Hf Hd. destruct (Hnames _ _ Hf) as [_ Hok]. destruct (Hk name) as [Hq|(d & Hq & Hc)]; [set_solver| |].
    { intros Hm. destruct (Hf4 name f data Hf) as (m & H1 & H2 & H3); [by rewrite <- Hq|done|]. exists m. split; [done|]. split; [done|]. intros n0 fn Hfn Hs. destruct (H3 n0 fn Hfn Hs) as [->|[H4|H4]]; [by left|by right; left|right; right]. by apply (expired_later m now). }
    assert (d = data) as -> by congruence. destruct Hc as [(-> & _)|[(-> & _)|(m & Hdoc & Hm)]]; [set_solver..|]. destruct (Htg _ _ Hm) as (g & Hg & ->). rewrite all_other in Hg by set_solver.
    intros _. exists (rf_md g). split; [done|]. destruct (Hroles _ _ Hg) as (_ & _ & _ & _ & _ & _ & _ & Hp). split; [done|]. intros _ _ _ _. destruct Hnew as [-> |Hnew]; [left; congruence|]. destruct Hnew as (_ & _ & _ & _ & _ & H6).
    destruct (decide (tg_version (md_signed (rf_md g)) = mf_version (rf_info f))) as [Hv|Hv]; [left; by apply (H6 name)|by right; left].
Qed.

Context (Hline : timeline E c r0 r clock Rs n).
Definition ready (i : ios) : Prop := client_ready E c r0 r (clock (io_trace i)) (drop (n (io_trace i)) Rs) i.
Lemma line_names R name f : R ∈ Rs -> rel_roles R !! name = Some f -> role_name_ok name.
Proof. intros HR. destruct Hline as (_ & Hr & _). by apply Hr. Qed.
Lemma line_publishing i : publishing E c (io_trace i) r0 r (clock (io_trace i)) (drop (n (io_trace i)) Rs).
Proof.
  destruct Hline as (_ & Hr & Hmono & Hlive). split.
  - intros R (j & Hj)%elem_of_list_lookup. rewrite lookup_drop in Hj. apply elem_of_list_lookup_2 in Hj. destruct (Hr _ Hj) as [[H1 H2] _]. split.
    + intros k data r1 Hk. destruct (H1 k data r1 Hk) as [? Hs]. split; [done|]. intros tr len _. apply Hs. by exists tr.
    + intros tr len _. apply H2. by exists tr.
  - intros tr Htr. destruct (Hlive tr) as (R & HR & Hsd & Hup & Hann). destruct (Hmono _ _ Htr) as [Hn Hc]. exists R. split; [|split; [by apply (sound_before _ (clock tr))|done]].
    apply (elem_of_list_lookup_2 _ (n tr - n (io_trace i))%nat). rewrite lookup_drop. by replace (n (io_trace i) + (n tr - n (io_trace i)))%nat with (n tr) by lia.
Qed.
Lemma timestamp_number j k R R' : Rs !! j = Some R -> Rs !! k = Some R' -> pub_timestamp_md (rel_pub R) = pub_timestamp_md (rel_pub R') -> j = k.
Proof.
  intros Hj Hk Hq. destruct Hline as (Hnew & _). destruct (Nat.lt_trichotomy j k) as [Hl|[?|Hl]]; [|done|].
  - destruct (Hnew j k R R' Hl Hj Hk) as [Hlt _]. rewrite Hq in Hlt. lia.
  - destruct (Hnew k j R' R Hl Hk Hj) as [Hlt _]. rewrite Hq in Hlt. lia.
Qed.
(** one session *)
Lemma session i : ready i -> exists k R i1 t w1 tr0, Rs !! k = Some R /\ sound_release c r0 r (clock (io_trace i)) R /\ stays_up E c r R tr0 /\ later tr0 (wtr w1) /\ (n (io_trace i) <= k <= n (wtr w1))%nat /\
  updater_new E c (clock (io_trace i)) i = (i1, Ok t) /\ refresh E c (mkWorld t i1) = (w1, Ok tt) /\ up_to_date r (rel_pub R) (w_trusted w1) /\ Inv (moved tr0 E) c r (rel_pub R) (clock (io_trace i)) (rel_roles R) w1 /\
  (forall w2, used E c R w1 w2 -> ready (w_io w2) /\ later (wtr w1) (wtr w2)) /\
  k = n tr0 /\ later (io_trace i) tr0 /\ exists w2, load_root E c (mkWorld t i1) = (w2, Ok tt) /\ tr0 = asks_timestamp E c w2.
Proof.
  intros Hready. pose proof (line_publishing i) as Hpub. destruct (live_started E c r0 r _ _ i Hpub Hready) as (R & i1 & t & w1 & tr0 & HR & Hsd & Hup & Hann & Hl0 & Hl1 & Hnew & Href & Hutd & HI & w2' & Hload & Htr0).
  pose proof HR as (j & Hj)%elem_of_list_lookup. rewrite lookup_drop in Hj. set (k := (n (io_trace i) + j)%nat) in *.
  assert (k = n tr0) as Hk.
  { destruct Hline as (_ & _ & _ & Hlive). destruct (Hlive tr0) as (R2 & HR2 & ((_ & _ & ([Hd2 _] & _ & _) & _) & _) & _ & Hann2). destruct Hsd as ((_ & _ & ([Hd1 _] & _ & _) & _) & _). apply (timestamp_number k (n tr0) R R2 Hj HR2).
    set (len := Z.max (Z.of_nat (String.length (pub_timestamp (rel_pub R)))) (Z.of_nat (String.length (pub_timestamp (rel_pub R2))))). pose proof (Hann len ltac:(lia)) as H1. pose proof (Hann2 len ltac:(lia)) as H2. assert (pub_timestamp (rel_pub R) = pub_timestamp (rel_pub R2)) as Hq by congruence. rewrite <- Hq in Hd2. congruence. }
  destruct Hline as (Hord & Hroots & Hmono & Hlive). exists k, R, i1, t, w1, tr0. do 4 (split; [done|]). split; [split; [lia|]; rewrite Hk; by apply Hmono|]. do 4 (split; [done|]). split; [|split; [exact Hk|split; [exact Hl0|by exists w2']]].
  intros w2 Hused. destruct (live_used E c r0 r _ R tr0 w1 w2 Hsd Hup Hused Hl1 HI) as [Hl2 HI2].
  assert (later (wtr w1) (wtr w2)) as Hl12.
  { clear -Hused. induction Hused as [|path w w1 w2 o _ Hinfo _ IH|tf data fp p w w1 w2 o _ Hfile Hown Hdl _ IH]; [apply later_refl|..]; (eapply later_trans; [|exact IH]).
    - destruct (when_info E c (wtr w) path w (later_refl _)) as [_ H]. by rewrite Hinfo in H.
    - destruct (when_download E c (wtr w) tf fp "" w (later_refl _)) as [_ H]. by rewrite Hdl in H. }
  split; [|done]. assert (later (io_trace i) (wtr w2)) as Hli by (eapply later_trans; [exact Hl0|]; by eapply later_trans).
  destruct (Hmono _ _ Hli) as [_ Hclock]. destruct (Hmono _ _ Hl2) as [Hn2 _]. destruct Hready as (Ha1 & Ha2 & Ha3 & Ha4 & _ & Hcache).
  assert (is_Some (t_targets (w_trusted w1) !! "targets")) as Htop.
  { destruct HI as (_ & _ & _ & _ & _ & Htop & _). by exists (pub_targets_md (rel_pub R)). }
  pose proof (used_stored E c R w1 w2 Hused Htop) as Hst.
  split_and!; try done; [by destruct HI2 as (_ & _ & _ & _ & _ & _ & Hw & _)|].
  intros R' (j' & Hj')%elem_of_list_lookup. rewrite lookup_drop in Hj'. set (k' := (n (io_trace (w_io w2)) + j')%nat) in *. assert (k <= k')%nat as Hkk by (unfold k', wtr in *; lia).
  apply (fits_after (moved tr0 E) (clock (io_trace i)) _ R R' i (w_io w2) w2 Hsd Hclock); [|by apply Hroots, (elem_of_list_lookup_2 _ k')|done| |].
  - destruct (decide (k = k')) as [Hq|Hq]; [left; rewrite <- Hq in Hj'; congruence|right; apply (Hord k k'); [lia|done|done]].
  - intros x Hx. eapply kept_more; [exact Hst|]. rewrite <- (new_cached E c _ _ _ _ x Hnew Hx). apply (refresh_kept E c (mkWorld t i1) w1 x); [|done|done]. by destruct Hsd as (_ & [? _] & _).
  - apply Hcache. apply (elem_of_list_lookup_2 _ (k' - n (io_trace i))%nat). rewrite lookup_drop. by replace (n (io_trace i) + (k' - n (io_trace i)))%nat with k' by lia.
Qed.
Lemma life_ready i ks i' : ready i -> life E c r clock Rs i ks i' -> ready i' /\ later (io_trace i) (io_trace i') /\ (forall k, k ∈ ks -> (n (io_trace i) <= k <= n (io_trace i'))%nat) /\ (forall a b j k, ks !! a = Some j -> ks !! b = Some k -> (a <= b)%nat -> (j <= k)%nat).
Proof.
  intros Hi. induction 1 as [|ks i0 i1 t w1 w2 k R Hlife IH Hnew Href HR Hutd Hused].
  - split; [done|]. split; [apply later_refl|]. split; [set_solver|]. intros a b j k [=].
  - destruct IH as (Hr0 & Hl0 & Hks & Hord). destruct (session i0 Hr0) as (k2 & R2 & i2 & t2 & w3 & tr0 & HR2 & Hsd & Hup & Hl1 & Hk & Hnew2 & Href2 & Hutd2 & HI & Hgo & _).
    rewrite Hnew in Hnew2. injection Hnew2 as <- <-. rewrite Href in Href2. injection Href2 as <-.
    assert (k2 = k) as ->. { apply (timestamp_number k2 k R2 R HR2 HR). destruct Hutd as (_ & H1 & _), Hutd2 as (_ & H2 & _). congruence. }
    assert (R2 = R) as -> by congruence. destruct (Hgo w2 Hused) as [Hr2 Hl2]. destruct Hline as (_ & _ & Hmono & _). destruct (Hmono _ _ Hl2) as [Hn2 _]. change (io_trace (w_io w2)) with (wtr w2).
    assert (later (io_trace i0) (wtr w2)) as Hl3.
    { eapply later_trans; [|exact Hl2]. destruct (when_new E c (io_trace i0) (clock (io_trace i0)) i0 (later_refl _)) as [_ Hx]. rewrite Hnew in Hx. eapply later_trans; [exact Hx|]. destruct (when_refresh E c (io_trace i1) (mkWorld t i1) (later_refl _)) as [_ Hy]. by rewrite Href in Hy. }
    destruct (Hmono _ _ Hl0) as [Hn0 _]. destruct (Hmono _ _ Hl3) as [Hn3 _]. split; [done|]. split; [by eapply later_trans|]. split.
    + intros j [Hj|Hj%elem_of_list_singleton]%elem_of_app; [apply Hks in Hj; lia|subst j; lia].
    + intros a b j j2 Ha Hb Hab. apply lookup_app_Some in Hb as [Hb|[Hlb Hb]].
      * assert (a < List.length ks)%nat by (apply lookup_lt_Some in Hb; lia). rewrite lookup_app_l in Ha by done. by apply (Hord a b).
      * apply list_lookup_singleton_Some in Hb as [_ <-]. apply lookup_app_Some in Ha as [Ha|[_ Ha]]; [apply elem_of_list_lookup_2, Hks in Ha; lia|]. apply list_lookup_singleton_Some in Ha as [_ <-]. done.
Qed.
End Life.
