(** * Proofs about Refresh: repeated refresh (C70), rollback protection (C62), disabled cache (C66), cached files (C69) *)
From stdpp Require Import base gmap strings list.
From Coq Require Import ZArith Lia Ascii String.
From Verif Require Import GoBase GoStr GoTime Types Marshal Keys Metadata TrustedMetadata Fetcher Updater SpecBasic SpecTrusted SpecUpdater.
From Verif Require Import StrProofs PathProofs DelegProofs SigProofs BasicProofs TrustedProofs EventProofs UpdaterProofs WalkProofs BlockProofs ApiProofs RootProofs.
Open Scope Z_scope.

Section Refresh.
Context {CR : Crypto} (E : env) (c : config).

(** ** C70: nothing is replaced once a snapshot is loaded *)
Lemma root_loop_again fuel : forall next w w' o, is_Some (t_timestamp (w_trusted w)) -> root_loop E c fuel next w = (w', o) -> w_trusted w' = w_trusted w.
Proof.
  induction fuel as [|fuel IH]; intros next w w' o [ts Hts] H; cbn [root_loop] in H; [by injection H as <- <-|].
  apply satt_inv in H as [(w1 & data & H1 & H)|[(w1 & e & H1 & H)|[H1 ->]]]; apply lift_inv in H1 as [_ H1]; [| |done].
  - destruct (workflow_order (w_trusted w1)) as [Hw _]. rewrite <- H1 in Hts. destruct (Hw ts data Hts) as [msg Hm].
    apply sbind_inv in H as [(w2 & r & H2 & H)|[(e & H2 & ->)|[H2 ->]]]; apply on_trusted_inv in H2 as [H2 _]; rewrite Hm in H2; [done| |done]. injection H2 as H2 _. by rewrite <- H2.
  - destruct (http_status e) as [s|]; [destruct (_ || _)|]; by injection H as <- <-.
Qed.
Lemma refresh_again w w' o : is_Some (t_timestamp (w_trusted w)) -> is_Some (t_snapshot (w_trusted w)) -> refresh E c w = (w', o) ->
  w_trusted w' = w_trusted w /\ o <> Ok tt.
Proof.
  intros Hts [sn Hsn] H. unfold refresh in H. destruct (c_unsafe_local c).
  - unfold unsafe_refresh in H. apply sbind_inv in H as [(w1 & d1 & H1 & H)|[(e & H1 & ->)|[H1 ->]]]; apply lift_inv in H1 as [_ H1]; [|by split..].
    destruct (workflow_order (w_trusted w1)) as (_ & Hw & _). rewrite <- H1 in Hsn. destruct (Hw sn d1 Hsn) as [msg Hm].
    apply sbind_inv in H as [(w2 & r & H2 & H)|[(e & H2 & ->)|[H2 ->]]]; apply on_trusted_inv in H2 as [H2 _]; rewrite Hm in H2; [done| |done]. injection H2 as H2 _. by rewrite <- H2.
  - unfold online_refresh in H.
    apply sbind_inv in H as [(w1 & u & H1 & H)|[(e & H1 & ->)|[H1 ->]]]; unfold load_root in H1; apply root_loop_again in H1; try done.
    assert (forall w2 o2, load_timestamp E c w1 = (w2, o2) -> w_trusted w2 = w_trusted w1 /\ o2 <> Ok tt) as Hlt.
    { clear H. intros w2 o2 H. rewrite <- H1 in Hsn. unfold load_timestamp in H.
      assert (forall w3, w_trusted w3 = w_trusted w1 -> forall data, exists msg, update_timestamp (w_trusted w3) data = (w_trusted w3, Err (ErrRuntime msg))) as Hup.
      { intros w3 Hw3 data. destruct (workflow_order (w_trusted w3)) as (_ & Hw & _). rewrite <- Hw3 in Hsn. apply (Hw sn data Hsn). }
      assert (forall w3, w_trusted w3 = w_trusted w1 -> (do data := lift (download_metadata E c TIMESTAMP (c_timestamp_max c) "") in
        try r := on_trusted (fun t => update_timestamp t data) in
        match r with inr e => if errors_is e (ErrEqualVersionNumber "") then sret tt else sout (Err e) | inl _ => lift (persist_metadata E c TIMESTAMP data) end) w3 = (w2, o2) -> w_trusted w2 = w_trusted w1 /\ o2 <> Ok tt) as Hrest.
      { clear H. intros w3 Hw3 H. apply sbind_inv in H as [(w4 & d1 & H4 & H)|[(e & H4 & ->)|[H4 ->]]]; apply lift_inv in H4 as [_ H4]; rewrite Hw3 in H4; [|by split..].
        destruct (Hup w4 H4 d1) as [msg Hm]. apply satt_inv in H as [(w5 & r & H5 & H)|[(w5 & e & H5 & H)|[H5 ->]]]; apply on_trusted_inv in H5 as [H5 _]; rewrite Hm in H5; [done| |done].
        injection H5 as H5 <-. cbn in H. injection H as <- <-. split; [congruence|done]. }
      apply satt_inv in H as [(w3 & d1 & H3 & H)|[(w3 & e & H3 & H)|[H3 ->]]]; apply lift_inv in H3 as [_ H3]; [| |by split].
      - destruct (Hup w3 H3 d1) as [msg Hm]. apply sbind_inv in H as [(w4 & u4 & H4 & H)|[(e & H4 & ->)|[H4 ->]]];
          (apply satt_inv in H4 as [(w5 & r & H5 & H4)|[(w5 & e5 & H5 & H4)|[H5 H4]]]; apply on_trusted_inv in H5 as [H5 _]; rewrite Hm in H5; [done| |done]);
          injection H5 as H5 <-; cbn in H4; try done; injection H4 as <- _; (split; [congruence|done]).
      - apply sbind_inv in H as [(w4 & u4 & H4 & H)|[(e' & [=] & _)|[[=] _]]]. injection H4 as <-. by apply (Hrest w3). }
    apply sbind_inv in H as [(w2 & u2 & H2 & H)|[(e & H2 & ->)|[H2 ->]]]; apply Hlt in H2 as [H2 Hne]; [by destruct u2|split; [congruence|done]..].
Qed.

(** ** C62: the cached timestamp protects against rollback *)
Definition timestamp_tail : M unit :=
  do data := lift (download_metadata E c TIMESTAMP (c_timestamp_max c) "") in
  try r := on_trusted (fun t => update_timestamp t data) in
  match r with inr e => if errors_is e (ErrEqualVersionNumber "") then sret tt else sout (Err e) | inl _ => lift (persist_metadata E c TIMESTAMP data) end.
Lemma timestamp_tail_steps w w' o : timestamp_tail w = (w', o) -> ksteps E c (KAfterRoot c) w w'.
Proof.
  intros H. assert (allowed_download c (w_trusted w) (url_of c TIMESTAMP "") (c_timestamp_max c)) as Ha by (right; by left).
  apply sbind_inv in H as [(w2 & data & H2 & H)|[(e & H2 & ->)|[H2 ->]]]; (eapply (download_ks E c (KAfterRoot c)) in H2 as [H2 _]; [|exact Ha|by eexists _, _; split; [|reflexivity]; auto]); [|done|done].
  eapply ks_trans; [exact H2|]. apply satt_inv in H as [(w3 & r & H3 & H)|[(w3 & e & H3 & H)|[H3 ->]]]; (apply (timestamp_ks E c (KAfterRoot c)) in H3 as [H3 Hh]; [|exact I]); [| |done].
  - eapply ks_trans; [exact H3|]. apply (persist_ks E c (KAfterRoot c)) in H as [H _]; [done|by eapply Hh|by left].
  - destruct (errors_is _ _); inj H; done.
Qed.
Definition timestamp_local (data : string) : M unit :=
  try r := on_trusted (fun t => update_timestamp t data) in
  match r with inl _ => sret tt | inr e => if errors_is e (ErrRepository "") then sret tt else sout (Err e) end.
Lemma timestamp_local_inv data w w' o : timestamp_local data w = (w', o) ->
  w_trusted w' = fst (update_timestamp (w_trusted w) data) /\ w_io w' = w_io w /\ ksteps E c (KAfterRoot c) w w'.
Proof.
  intros H. apply satt_inv in H as [(w3 & r & H3 & H2)|[(w3 & e3 & H3 & H2)|[H3 ->]]]; pose proof H3 as H3'; apply on_trusted_inv in H3 as [H3 Hi3]; (apply (timestamp_ks E c (KAfterRoot c)) in H3' as [H3' _]; [|exact I]); rewrite H3; cbn.
  - by injection H2 as <- <-.
  - destruct (errors_is _ _); by injection H2 as <- <-.
  - done.
Qed.
Lemma load_timestamp_split w w' o : load_timestamp E c w = (w', o) -> exists w1 r, lift (load_local E c TIMESTAMP) w = (w1, r) /\
  match r with
  | Ok data => exists w2 o2, timestamp_local data w1 = (w2, o2) /\ ((o2 = Ok tt /\ timestamp_tail w2 = (w', o)) \/ (o2 <> Ok tt /\ w' = w2 /\ o = o2))
  | Err _ => timestamp_tail w1 = (w', o)
  | Panic => w' = w1 /\ o = Panic
  end.
Proof.
  unfold load_timestamp. intros H. apply satt_inv in H as [(w1 & data & H1 & H)|[(w1 & e & H1 & H)|[H1 ->]]].
  - exists w1, (Ok data). split; [done|]. apply sbind_inv in H as [(w2 & [] & H2 & H)|[(e & H2 & ->)|[H2 ->]]]; (eexists _, _; split; [exact H2|]); [by left|by right..].
  - exists w1, (Err e). split; [done|]. apply sbind_inv in H as [(w2 & u & H2 & H)|[(e' & [=] & _)|[[=] _]]]. by injection H2 as <-.
  - by exists w', Panic.
Qed.
(** loadTimestamp with a usable cached timestamp: it is trusted first *)
Lemma load_timestamp_cached w w' o data ts0 rest : load_timestamp E c w = (w', o) -> t_timestamp (w_trusted w) = None -> t_snapshot (w_trusted w) = None ->
  ~ expired_at (t_root (w_trusted w)) (t_ref (w_trusted w)) -> document data ts0 -> root_signs (t_root (w_trusted w)) "timestamp" ts0 ->
  happened (w_io w) (w_io w') (EvRead (local_name c "timestamp") (Ok data) :: rest) ->
  exists w1, w_trusted w1 = set_timestamp (w_trusted w) ts0 /\ io_disk (w_io w1) = io_disk (w_io w) /\ ksteps E c (KAfterRoot c) w1 w'.
Proof.
  intros H Hts Hsn Hx Hd Hs Hread. apply load_timestamp_split in H as (w1 & r & H1 & H).
  assert (io_disk (w_io w1) = io_disk (w_io w)) as Hdisk by (unfold lift, load_local, read_file in H1; by injection H1 as <- _).
  apply load_local_events in H1 as [He Ht1].
  assert (ksteps E c (KAfterRoot c) w1 w') as Hk.
  { destruct r as [d|e|]; [|by eapply timestamp_tail_steps|destruct H as [-> _]; constructor]. destruct H as (w2 & o2 & H2 & H). apply timestamp_local_inv in H2 as (_ & _ & H2).
    destruct H as [[_ H]|(_ & -> & _)]; [|done]. eapply ks_trans; [exact H2|]. by eapply timestamp_tail_steps. }
  apply ksteps_blocks in Hk as (bs & [Hk _] & _). pose proof (happened_app _ _ _ _ _ He Hk) as Hall. unfold happened in Hread, Hall. rewrite Hread in Hall. apply app_inv_head in Hall. injection Hall as <- _.
  destruct H as (w2 & o2 & H2 & H). apply timestamp_local_inv in H2 as (Ht2 & Hi2 & _).
  assert (timestamp_ok (w_trusted w1) data ts0) as Hok by (rewrite Ht1; split_and!; try done; intros old; by rewrite Hts).
  exists w2. split; [|split; [by rewrite Hi2|]].
  - rewrite Ht2. destruct (update_timestamp_cases (w_trusted w1) data) as [(ts & Hok' & Hf & _)|(Hn & _)]; [|by destruct (Hn ts0)]. rewrite Hf, Ht1. by rewrite (timestamp_ok_fun _ _ _ _ Hok Hok').
  - destruct H as [[_ H]|(_ & -> & _)]; [by eapply timestamp_tail_steps|constructor].
Qed.
Lemma no_new_targets K w w' n : ksteps E c K w w' -> (forall data dl, ~ K (KCall (UpdateDelegated data n dl))) -> t_targets (w_trusted w) !! n = None -> t_targets (w_trusted w') !! n = None.
Proof.
  intros H HK Hn. induction H as [|k w1 w2 _ IH Hk Hs]; [done|]. apply ustep_trusted in Hs as [-> |(cl & -> & _ & _ & -> & _)]; [done|].
  destruct cl as [data|data|order data tr|data role dl].
  - rewrite fst_perform_rt. unfold update_root. repeat case_match; done.
  - rewrite fst_perform_ts. unfold update_timestamp. repeat case_match; done.
  - rewrite fst_perform_sn. unfold update_snapshot. repeat case_match; done.
  - rewrite fst_perform_tg. unfold update_delegated_targets. destruct (check_new_targets _ data role dl); cbn; try done. rewrite lookup_insert_ne; [done|]. intros ->. by apply (HK data dl).
Qed.
Lemma cache_name_plain role : cache_name c role = in_dir (c_metadata_dir c) (query_escape role +:+ ".json").
Proof. unfold cache_name. apply path_join_plain, json_plain, query_escape_no_slash. Qed.
Lemma cache_name_inj r r' : cache_name c r = cache_name c r' -> r = r'.
Proof. rewrite !cache_name_plain. intros H%in_dir_inj. apply app_inv_tail_s in H. by apply query_escape_inj. Qed.
(** from a state that trusts [ts0], the cached timestamp file changes to newer ones only *)
Lemma timestamp_file_newer w w' ts0 : ksteps E c (KAfterRoot c) w w' -> t_timestamp (w_trusted w) = Some ts0 -> in_int64 (rt_version (md_signed (t_root (w_trusted w)))) = true ->
  t_targets (w_trusted w) !! "timestamp" = None ->
  io_disk (w_io w') !! cache_name c "timestamp" = io_disk (w_io w) !! cache_name c "timestamp" \/
  exists data ts, io_disk (w_io w') !! cache_name c "timestamp" = Some data /\ document data ts /\ ts_version (md_signed ts0) <= ts_version (md_signed ts).
Proof.
  intros Hk Hts Hv Hn. pose proof (no_new_targets _ _ _ "timestamp" Hk) as Hnn. apply ksteps_blocks in Hk as (bs & [_ Hd] & Hb).
  destruct (blocks_crash E c _ _ _ _ (cache_name c "timestamp") Hb) with (d := io_disk (w_io w)) (d' := io_disk (w_io w')) as [H|(role & data & t1 & Hk & Hq & Hl & [Hp1 Hp2] & Hh)].
  - intros Ht. by apply (tmp_not_cache E c _ "timestamp" Ht).
  - rewrite Hd. apply crash_whole.
  - by left.
  - right. apply cache_name_inj in Hq as <-. destruct Hh as [[[=] _]|[[_ (ts & Hts1 & Hdoc)]|[[[=] _]|(m & Hm & _)]]].
    + exists data, ts. split; [done|]. split; [done|]. destruct (timestamp_history _ _ ts0 (dcalls_calls _ _ Hp1) Hv Hts) as (new & Hnew & Hle & _). rewrite Hts1 in Hnew. injection Hnew as <-. destruct Hle as [-> |?]; lia.
    + apply (dcalls_targets_keep _ _ _ _ Hp2) in Hm. rewrite Hnn in Hm; [done| |done]. cbn. by intros ? ? [? _].
Qed.
Lemma local_name_plain role : plain_name role -> local_name c role = in_dir (c_metadata_dir c) role +:+ ".json".
Proof. intros H. unfold local_name, json_of. by rewrite path_join_plain. Qed.
Lemma local_name_inj r r' : plain_name r -> plain_name r' -> local_name c r = local_name c r' -> r = r'.
Proof. intros H H'. rewrite !local_name_plain by done. intros Hq%app_inv_tail_s. by apply in_dir_inj in Hq. Qed.
Lemma blocks_reads K t t' bs p r : Forall (block E c K t t') bs -> EvRead p r ∈ List.concat bs -> K (KRead p).
Proof.
  intros Hbs He. destruct (blocks_in _ _ _ _ _ _ _ Hbs He) as (b & Hb & Hin). destruct Hb as [p' r' Hk|u l r' t1 Hk Hp Ha| |role data evs t1 Hk Hp Hh Hpe].
  - apply elem_of_list_singleton in Hin. by injection Hin as -> _.
  - by apply elem_of_list_singleton in Hin.
  - by apply elem_of_list_singleton in Hin.
  - destruct (persist_in _ _ _ _ _ _ Hpe Hin) as (q & _ & [?|[[? ?]|[?|[[? ?]|?]]]]); congruence.
Qed.
Lemma ksteps_reads K w w' evs p r : ksteps E c K w w' -> happened (w_io w) (w_io w') evs -> EvRead p r ∈ evs -> K (KRead p).
Proof.
  intros Hk He Hin. apply ksteps_blocks in Hk as (bs & [He' _] & Hb). unfold happened in *. rewrite He in He'. apply app_inv_head in He' as ->. by eapply blocks_reads.
Qed.
(** the reads behind loadTimestamp *)
Definition KLater (k : kind) : Prop :=
  match k with
  | KRead p => p = local_name c "snapshot" \/ p = local_name c "targets"
  | _ => KAfterRoot c k
  end.
Lemma later_after_root k : KLater k -> KAfterRoot c k.
Proof. by destruct k. Qed.
Definition after_timestamp : M unit := do _ := load_snapshot E c in do _ := load_targets E c TARGETS ROOT in sret tt.
Lemma after_timestamp_steps w w' o : after_timestamp w = (w', o) -> ksteps E c KLater w w'.
Proof.
  unfold after_timestamp. intros H.
  apply sbind_inv in H as [(w3 & u3 & H3 & H)|[(e & H3 & ->)|[H3 ->]]]; (apply (load_snapshot_steps_gen E c KLater) in H3; [|by left|exact I|intros; exact I|intros; eexists _, _; split; [|reflexivity]; auto|right; by left]); [|done|done].
  apply sbind_inv in H as [(w4 & m & H4 & H)|[(e & H4 & ->)|[H4 ->]]]; (apply (load_targets_steps E c KLater) in H4 as [H4 Hm]; [|by right|intros v l; eexists _, _; split; [|reflexivity]; auto|done|by right; right|by left]).
  - inj H. by eapply ks_trans.
  - by eapply ks_trans.
  - by eapply ks_trans.
Qed.
Lemma happened_fun i i' a b : happened i i' a -> happened i i' b -> a = b.
Proof. unfold happened. intros -> H. by apply app_inv_head in H. Qed.
Lemma plain_top role : role = "timestamp" \/ role = "snapshot" \/ role = "targets" -> plain_name role.
Proof. by intros [->|[->| ->]]. Qed.
Lemma timestamp_read_first w w' o evs data : load_timestamp E c w = (w', o) -> happened (w_io w) (w_io w') evs -> EvRead (local_name c "timestamp") (Ok data) ∈ evs ->
  exists rest, evs = EvRead (local_name c "timestamp") (Ok data) :: rest.
Proof.
  intros H He Hin. apply load_timestamp_split in H as (w1 & r & H1 & H). apply load_local_events in H1 as [H1 Ht1].
  set (K k := match k with KRead _ => False | _ => KAfterRoot c k end).
  assert (forall w w' o, timestamp_tail w = (w', o) -> ksteps E c K w w') as Htail.
  { clear. intros w w' o H. assert (allowed_download c (w_trusted w) (url_of c TIMESTAMP "") (c_timestamp_max c)) as Ha by (right; by left).
    apply sbind_inv in H as [(w2 & data & H2 & H)|[(e & H2 & ->)|[H2 ->]]]; (eapply (download_ks E c K) in H2 as [H2 _]; [|exact Ha|by eexists _, _; split; [|reflexivity]; auto]); [|done|done].
    eapply ks_trans; [exact H2|]. apply satt_inv in H as [(w3 & r & H3 & H)|[(w3 & e & H3 & H)|[H3 ->]]]; (apply (timestamp_ks E c K) in H3 as [H3 Hh]; [|exact I]); [| |done].
    - eapply ks_trans; [exact H3|]. apply (persist_ks E c K) in H as [H _]; [done|by eapply Hh|by left].
    - destruct (errors_is _ _); inj H; done. }
  assert (exists evs2, happened (w_io w1) (w_io w') evs2 /\ forall p r, EvRead p r ∉ evs2) as (evs2 & He2 & Hno).
  { assert (forall w2, ksteps E c K w2 w' -> exists evs2, happened (w_io w2) (w_io w') evs2 /\ forall p r, EvRead p r ∉ evs2) as Hks.
    { intros w2 Hk. apply ksteps_blocks in Hk as (bs & [Hk _] & Hb). exists (List.concat bs). split; [done|]. intros p r' Hp. by apply (blocks_reads _ _ _ _ _ _ Hb) in Hp. }
    destruct r as [d|e|]; [|by apply Hks, (Htail _ _ _ H)|destruct H as [-> _]; apply Hks; constructor].
    destruct H as (w2 & o2 & H2 & H). apply timestamp_local_inv in H2 as (_ & Hi2 & _). rewrite <- Hi2. destruct H as [[_ H]|(_ & -> & _)]; apply Hks; [by eapply Htail|constructor]. }
  pose proof (happened_fun _ _ _ _ He (happened_app _ _ _ _ _ H1 He2)) as ->. apply elem_of_cons in Hin as [[= <-]|Hin]; [by eexists|]. by apply Hno in Hin.
Qed.
Lemma root_stage w w' o : load_root E c w = (w', o) -> reachable (w_trusted w) ->
  reachable (w_trusted w') /\ t_timestamp (w_trusted w') = t_timestamp (w_trusted w) /\ t_snapshot (w_trusted w') = t_snapshot (w_trusted w) /\ t_targets (w_trusted w') = t_targets (w_trusted w) /\
  t_ref (w_trusted w') = t_ref (w_trusted w) /\ forall role, role <> "root" -> io_disk (w_io w') !! cache_name c role = io_disk (w_io w) !! cache_name c role.
Proof.
  intros H%load_root_steps_root Hr. split.
  { destruct Hr as (data & now & t0 & Hn & Hc). exists data, now, t0. split; [done|]. apply ksteps_calls in H. apply dcalls_calls in H. clear -Hc H. induction H; [done|]. constructor; auto. }
  split_and!.
  1-4: clear Hr; induction H as [|k w1 w2 _ IH Hk Hs]; [done|]; rewrite <- IH; apply ustep_trusted in Hs as [-> |(cl & -> & _ & _ & -> & _)]; [done|]; destruct cl; try done; rewrite fst_perform_rt; unfold update_root; repeat case_match; done.
  intros role Hrole. apply ksteps_blocks in H as (bs & [_ Hd] & Hb).
  destruct (blocks_crash E c _ _ _ _ (cache_name c role) Hb) with (d := io_disk (w_io w)) (d' := io_disk (w_io w')) as [H|(role' & data & t1 & Hk & Hq & _)].
  - intros Ht. by apply (tmp_not_cache E c _ role Ht).
  - rewrite Hd. apply crash_whole.
  - done.
  - apply cache_name_inj in Hq. cbn in Hk. congruence.
Qed.
Lemma refresh_rollback w w' o evs data ts0 : refresh E c w = (w', o) -> c_unsafe_local c = false -> reachable (w_trusted w) ->
  t_timestamp (w_trusted w) = None -> t_snapshot (w_trusted w) = None -> t_targets (w_trusted w) = ∅ ->
  happened (w_io w) (w_io w') evs -> EvRead (local_name c "timestamp") (Ok data) ∈ evs -> document data ts0 ->
  root_signs (t_root (w_trusted w')) "timestamp" ts0 -> ~ expired_at (t_root (w_trusted w')) (t_ref (w_trusted w')) ->
  (exists ts, t_timestamp (w_trusted w') = Some ts /\ ts_version (md_signed ts0) <= ts_version (md_signed ts)) /\
  (io_disk (w_io w') !! cache_name c "timestamp" = io_disk (w_io w) !! cache_name c "timestamp" \/
   exists data ts, io_disk (w_io w') !! cache_name c "timestamp" = Some data /\ document data ts /\ ts_version (md_signed ts0) <= ts_version (md_signed ts)).
Proof.
  intros H Hu Hr Hts Hsn Htg He Hin Hdoc Hs Hx. unfold refresh in H. rewrite Hu, online_refresh_split in H.
  assert (forall w1 o1, load_root E c w = (w1, o1) -> exists evs1, happened (w_io w) (w_io w1) evs1 /\ forall p r, EvRead p r ∉ evs1) as Hroot.
  { intros w1 o1 H1%load_root_steps_root. apply ksteps_blocks in H1 as (bs & [Hk _] & Hb). exists (List.concat bs). split; [done|]. intros p r' Hp. by apply (blocks_reads _ _ _ _ _ _ Hb) in Hp. }
  apply sbind_inv in H as [(w1 & [] & H1 & H)|[(e & H1 & ->)|[H1 ->]]]; destruct (Hroot _ _ H1) as (evs1 & He1 & Hno1).
  2: { rewrite (happened_fun _ _ _ _ He He1) in Hin. by apply Hno1 in Hin. }
  2: { rewrite (happened_fun _ _ _ _ He He1) in Hin. by apply Hno1 in Hin. }
  apply root_stage in H1 as (Hr1 & Hts1 & Hsn1 & Htg1 & Href1 & Hdisk1); [|done].
  pose proof H as Hk. apply after_root_steps in Hk as [Hk _]. pose proof (ksteps_root_keep E c _ _ _ Hk) as Hroot1. rewrite Hroot1 in Hs, Hx by (by intros ? []).
  assert (t_ref (w_trusted w') = t_ref (w_trusted w1)) as Href2.
  { clear -Hk. apply ksteps_calls in Hk. induction Hk as [|t t' cl _ IH _ _]; [done|]. rewrite <- IH.
    destruct cl as [data|data|order data tr|data role dl]; rewrite ?fst_perform_rt, ?fst_perform_ts, ?fst_perform_sn, ?fst_perform_tg; unfold update_root, update_timestamp, update_snapshot, update_delegated_targets; repeat case_match; done. }
  rewrite Href2 in Hx.
  assert (exists w2, t_timestamp (w_trusted w2) = Some ts0 /\ t_targets (w_trusted w2) = ∅ /\ in_int64 (rt_version (md_signed (t_root (w_trusted w2)))) = true /\ io_disk (w_io w2) = io_disk (w_io w1) /\ ksteps E c (KAfterRoot c) w2 w') as (w2 & Hts2 & Htg2 & Hv2 & Hd2 & Hk2).
  { assert (forall w3 o3, load_timestamp E c w1 = (w3, o3) -> (exists evs3, happened (w_io w1) (w_io w3) evs3 /\ EvRead (local_name c "timestamp") (Ok data) ∈ evs3) ->
      exists w2, t_timestamp (w_trusted w2) = Some ts0 /\ t_targets (w_trusted w2) = ∅ /\ in_int64 (rt_version (md_signed (t_root (w_trusted w2)))) = true /\ io_disk (w_io w2) = io_disk (w_io w1) /\ ksteps E c (KAfterRoot c) w2 w3) as Hlt.
    { intros w3 o3 H3 (evs3 & He3 & Hin3). destruct (timestamp_read_first _ _ _ _ _ H3 He3 Hin3) as [rest ->].
      destruct (load_timestamp_cached _ _ _ data ts0 rest H3) as (w2 & Ht2 & Hd2 & Hk2); try done; [by rewrite Hts1|by rewrite Hsn1|].
      exists w2. rewrite Ht2. cbn. rewrite Htg1, Htg. split_and!; try done. by apply reachable_range. }
    unfold after_root in H. apply sbind_inv in H as [(w3 & [] & H3 & H)|[(e & H3 & ->)|[H3 ->]]].
    - fold after_timestamp in H. apply after_timestamp_steps in H. pose proof H3 as H3k. apply load_timestamp_steps in H3k. apply ksteps_blocks in H3k as (bs3 & [He3 _] & _).
      pose proof H as Hk4. apply ksteps_blocks in Hk4 as (bs4 & [He4 _] & Hb4).
      pose proof (happened_fun _ _ _ _ He (happened_app _ _ _ _ _ He1 (happened_app _ _ _ _ _ He3 He4))) as ->.
      apply elem_of_app in Hin as [Hin|Hin]; [by apply Hno1 in Hin|]. apply elem_of_app in Hin as [Hin|Hin].
      + destruct (Hlt _ _ H3) as (w2 & ? & ? & ? & ? & ?); [eauto|]. exists w2. split_and!; try done. eapply ks_trans; [done|]. eapply ks_mono; [|exact H]. apply later_after_root.
      + apply (blocks_reads _ _ _ _ _ _ Hb4) in Hin. cbn in Hin. destruct Hin as [Hin|Hin]; apply local_name_inj in Hin; try done; apply plain_top; auto.
    - pose proof H3 as H3k. apply load_timestamp_steps in H3k. apply ksteps_blocks in H3k as (bs3 & [He3 _] & _).
      pose proof (happened_fun _ _ _ _ He (happened_app _ _ _ _ _ He1 He3)) as ->. apply elem_of_app in Hin as [Hin|Hin]; [by apply Hno1 in Hin|]. eapply Hlt; eauto.
    - pose proof H3 as H3k. apply load_timestamp_steps in H3k. apply ksteps_blocks in H3k as (bs3 & [He3 _] & _).
      pose proof (happened_fun _ _ _ _ He (happened_app _ _ _ _ _ He1 He3)) as ->. apply elem_of_app in Hin as [Hin|Hin]; [by apply Hno1 in Hin|]. eapply Hlt; eauto. }
  split.
  - pose proof (ksteps_calls _ _ _ _ _ Hk2) as Hc. destruct (timestamp_history _ _ ts0 (dcalls_calls _ _ Hc) Hv2 Hts2) as (new & Hnew & Hle & _). exists new. split; [done|]. destruct Hle as [-> |?]; lia.
  - destruct (timestamp_file_newer _ _ _ Hk2 Hts2 Hv2) as [Hf|Hf]; [by rewrite Htg2| |by right]. left. rewrite Hf, Hd2. by apply Hdisk1.
Qed.
End Refresh.
