(** * Proofs about clients of a repository that publishes new roots meanwhile *)
From stdpp Require Import base gmap strings list.
From Coq Require Import ZArith Lia Ascii String.
From Verif Require Import GoBase GoStr GoTime Types Marshal Keys Metadata TrustedMetadata Fetcher Updater SpecBasic SpecSig SpecDeleg SpecTrusted SpecUpdater SpecReach SpecLive SpecRotate.
From Verif Require Import BasicProofs TrustedProofs UpdaterProofs WalkProofs RefreshProofs HonestProofs ReachProofs LiveProofs.
Open Scope Z_scope.

Section Rotate.
Context {CR : Crypto} (E : env) (c : config).
Lemma updates_at l : forall r0 r j data r1, root_updates r0 l r -> l !! j = Some (data, r1) ->
  document data r1 /\ root_signs (root_number r0 l j) "root" r1 /\ root_signs r1 "root" r1 /\ rt_version (md_signed r1) = rt_version (md_signed r0) + 1 + Z.of_nat j.
Proof.
  induction l as [|[d s] l IH]; intros r0 r j data r1 Hu Hj; [done|]. inversion Hu as [|? ? ? ? ? Hdoc Hs1 Hs2 Hv Hu']; subst. destruct j as [|j]; [injection Hj as -> ->; split_and!; [done..|lia]|].
  destruct (IH _ _ _ _ _ Hu' Hj) as (H1 & H2 & H3 & H4). split_and!; [done| |done|lia]. destruct j as [|j]; [done|]. cbn in *. by destruct (l !! j) as [[? ?]|] eqn:El; [|apply lookup_ge_None in El; apply lookup_lt_Some in Hj; lia].
Qed.
Lemma number_version r0 r l k : root_updates r0 l r -> (k <= List.length l)%nat -> rt_version (md_signed (root_number r0 l k)) = rt_version (md_signed r0) + Z.of_nat k.
Proof.
  intros Hu Hk. destruct k as [|k]; [cbn; lia|]. destruct (l !! k) as [[data r1]|] eqn:El; [|apply lookup_ge_None in El; lia]. cbn [root_number]. rewrite El. destruct (updates_at _ _ _ _ _ _ Hu El) as (_ & _ & _ & ->). lia.
Qed.
(** the loop stops with a root that was the newest one at some moment *)
Lemma root_loop_moving start r0 roots m r : root_updates r0 roots r -> roots_appear E c start r0 roots m -> in_int64 (rt_version (md_signed r0)) = true -> forall fuel j w,
  t_root (w_trusted w) = root_number r0 roots j -> t_timestamp (w_trusted w) = None -> (List.length roots <= j + fuel)%nat -> (j <= m (wtr w))%nat -> rt_version (md_signed r0) + Z.of_nat (j + fuel) < 2 ^ 63 - 1 ->
  later start (wtr w) -> disk_works E c (io_disk (w_io w)) ->
  exists k i', root_loop E c fuel (rt_version (md_signed r0) + 1 + Z.of_nat j) w = (mkWorld (set_root (w_trusted w) (root_number r0 roots k)) i', Ok tt) /\ (m (wtr w) <= k <= m (io_trace i'))%nat /\
    disk_works E c (io_disk i') /\ same_but c "root" (io_disk (w_io w)) (io_disk i') /\ later (wtr w) (io_trace i').
Proof.
  intros Hu (_ & Hm & Hup & Hend & Hsize & _) Hr0. apply in_int64_spec in Hr0. induction fuel as [|fuel IH]; intros j w Hroot Hts Hf Hj Hv Hl Hd.
  - pose proof (Hm _ _ Hl (later_refl _)) as Hmm. exists j, (w_io w). cbn [root_loop]. rewrite <- Hroot, set_root_eta. destruct w as [t i]. split; [done|]. unfold wtr in *. cbn in *. split; [lia|]. split; [done|]. split; [by intros ? ?|apply later_refl].
  - cbn [root_loop]. set (tr := wtr w) in *. destruct (decide (j < m tr)%nat) as [Hlt|Hge].
    + pose proof (Hm _ _ Hl (later_refl _)) as Hmm. destruct (roots !! j) as [[data r1]|] eqn:Ej; [|apply lookup_ge_None in Ej; lia]. destruct (updates_at _ _ _ _ _ _ Hu Ej) as (Hdoc & Hs1 & Hs2 & Hver).
      pose proof (Hup tr j data r1 (c_root_max c) Hl Ej Hlt (Hsize _ _ _ Ej)) as Hnet.
      assert (exists i1, lift (download_metadata E c ROOT (c_root_max c) (fmt_dec (rt_version (md_signed r0) + 1 + Z.of_nat j))) w = (mkWorld (w_trusted w) i1, Ok data) /\ io_disk i1 = io_disk (w_io w) /\ later tr (io_trace i1)) as (i1 & Hrun1 & Hdisk1 & Hl1).
      { unfold lift, download_metadata. change (metadata_url c ROOT) with (url_of c "root"). unfold fetch. unfold tr, wtr in Hnet. rewrite Hnet. eexists. split; [reflexivity|]. split; [done|apply later_log, later_refl]. }
      rewrite (satt_run _ _ _ _ _ Hrun1).
      assert (on_trusted (fun t => update_root t data) (mkWorld (w_trusted w) i1) = (mkWorld (set_root (w_trusted w) r1) i1, Ok r1)) as Hrun2.
      { unfold on_trusted. cbn [w_trusted]. assert (rt_version (md_signed (t_root (w_trusted w))) = rt_version (md_signed r0) + Z.of_nat j) as Hvj by (rewrite Hroot; eapply number_version; [exact Hu|lia]).
        destruct (update_root_spec (w_trusted w) data (set_root (w_trusted w) r1) r1) as [_ Hspec]; [rewrite Hvj; apply in_int64_spec; lia|]. rewrite Hspec; [done|]. split; [|by apply root_replaced_iff].
        split; [done|]. split; [done|]. split; [by rewrite Hroot|]. split; [left; lia|done]. }
      rewrite (sbind_run _ _ _ _ _ Hrun2). destruct (persist_run E c ROOT data (mkWorld (set_root (w_trusted w) r1) i1)) as (i3 & Hrun3 & Hw3 & Hs3); [cbn; by rewrite Hdisk1|]. rewrite (sbind_run _ _ _ _ _ Hrun3). cbn [w_trusted w_io] in *.
      assert (later tr (io_trace i3)) as Hl3.
      { destruct (when_lift tr (persist_metadata E c ROOT data) (persist_metadata E c ROOT data)) with (s := mkWorld (set_root (w_trusted w) r1) i1) as [_ Hx]; [intros i Hi; split; [done|]; by apply (when_persist E c tr)|exact Hl1|]. rewrite Hrun3 in Hx. exact Hx. }
      assert (wrap64 (rt_version (md_signed r0) + 1 + Z.of_nat j + 1) = rt_version (md_signed r0) + 1 + Z.of_nat (S j)) as -> by (rewrite wrap64_id; [lia|apply in_int64_spec; lia]).
      pose proof (Hm _ _ Hl Hl3) as Hm3.
      destruct (IH (S j) (mkWorld (set_root (w_trusted w) r1) i3)) as (k & i4 & Hrun4 & Hk & Hw4 & Hs4 & Hl4); cbn [w_trusted w_io set_root t_root t_timestamp] in *; try done; unfold wtr in *; cbn [w_io] in *.
      * cbn [root_number]. by rewrite Ej.
      * lia.
      * lia.
      * lia.
      * eapply later_trans; [exact Hl|exact Hl3].
      * exists k, i4. rewrite Hrun4. split; [done|]. fold tr. split; [lia|]. split; [done|]. split; [intros q Hq; rewrite Hs4, Hs3 by done; by rewrite Hdisk1|]. eapply later_trans; [exact Hl3|exact Hl4].
    + assert (m tr = j) as Hmj by lia. destruct (Hend tr (c_root_max c) Hl) as (e & He & Hnf). rewrite Hmj in He.
      assert (exists i', lift (download_metadata E c ROOT (c_root_max c) (fmt_dec (rt_version (md_signed r0) + 1 + Z.of_nat j))) w = (mkWorld (w_trusted w) i', Err e) /\ io_disk i' = io_disk (w_io w) /\ later tr (io_trace i')) as (i' & Hrun & Hdisk & Hl1).
      { unfold lift, download_metadata. change (metadata_url c ROOT) with (url_of c "root"). unfold fetch. unfold tr, wtr in He. rewrite He. eexists. split; [reflexivity|]. split; [done|apply later_log, later_refl]. }
      rewrite (satt_err _ _ _ _ _ Hrun). exists j, i'. rewrite <- Hroot, set_root_eta. split; [destruct (not_found_status e Hnf) as [-> | ->]; done|]. pose proof (Hm _ _ Hl Hl1). split; [lia|]. rewrite Hdisk. split; [done|]. split; [by intros ? ?|done].
Qed.

(** ** From the root on *)
Lemma after_root r0 r now i1 i2 R : let t0 := mkTrusted r0 None None ∅ now in let w2 := mkWorld (set_root t0 r) i2 in let tr0 := asks_timestamp E c w2 in
  load_root E c (mkWorld t0 i1) = (w2, Ok tt) -> disk_works E c (io_disk i2) -> sound_release c r0 r now R -> stays_up E c r R tr0 -> announces E c tr0 R ->
  file_is c (io_disk i2) "timestamp" (cached_timestamp r (rel_pub R)) -> file_is c (io_disk i2) "snapshot" (cached_snapshot r now (rel_pub R)) -> file_is c (io_disk i2) "targets" (cached_targets r now (rel_pub R)) ->
  (forall name f, rel_roles R !! name = Some f -> file_is c (io_disk i2) name (cached_role (rel_pub R) now (rel_roles R) name f)) ->
  exists w1, refresh E c (mkWorld t0 i1) = (w1, Ok tt) /\ later tr0 (wtr w1) /\ up_to_date r (rel_pub R) (w_trusted w1) /\ Inv (moved tr0 E) c r (rel_pub R) now (rel_roles R) w1.
Proof.
  intros t0 w2 tr0 Hrun1 Hw2 Hsd Hup Hts Hf1 Hf2 Hf3 Hf4. pose proof Hsd as (Hh & Hcf & Hlt & Hls & Hlg & _ & _).
  pose proof Hh as (Hu & Hxr & (Hd1 & Hs1 & Hx1) & (Hnm & Hm2 & Hv2) & (Hd2 & Hs2 & Hx2) & (Hl & Hm3 & Hv3) & (Hd3 & Hs3 & Hx3)).
  destruct (load_timestamp_honest (pinned tr0 E) c (rel_pub R) w2) as (i3 & Hrun2 & Hw3 & Hb2); cbn [w2 t0 w_trusted w_io set_root t_root t_ref t_timestamp t_snapshot]; try done.
  { intros tr len Hlen. cbn. by apply Hts. }
  pose proof (timestamp_pinned E c w2) as Hpin. fold tr0 in Hpin. rewrite Hpin in Hrun2. cbn [w_io w2] in Hb2.
  assert (later tr0 (io_trace i3)) as Hl3.
  { pose proof (timestamp_later E c w2) as Hl3. rewrite Hrun2 in Hl3. exact Hl3. }
  set (E' := moved tr0 E). assert (forall role Q, role <> "timestamp" -> file_is c (io_disk i2) role Q -> file_is c (io_disk i3) role Q) as Hk2 by (intros role Q Hne HQ data; rewrite Hb2 by done; apply HQ).
  destruct (load_snapshot_honest E' c (rel_pub R) (mkWorld (set_timestamp (set_root t0 r) (pub_timestamp_md (rel_pub R))) i3)) as (i4 & Hrun3 & Hw4 & Hb3); cbn [t0 w_trusted w_io set_root set_timestamp t_root t_ref t_timestamp t_snapshot t_targets]; try done.
  { split_and!; cbn; try done. apply moved_serves. apply Hup. }
  { by apply Hk2. }
  destruct (when_snapshot E c tr0 (mkWorld (set_timestamp (set_root t0 r) (pub_timestamp_md (rel_pub R))) i3) Hl3) as [Hq3 Hl4]. fold E' in Hq3. rewrite Hrun3 in Hq3. rewrite Hq3 in Hl4. cbn [fst] in Hl4.
  assert (forall role Q, role <> "snapshot" -> file_is c (io_disk i3) role Q -> file_is c (io_disk i4) role Q) as Hk3 by (intros role Q Hne HQ data; rewrite Hb3 by done; apply HQ).
  set (t3 := set_snapshot (set_timestamp (set_root t0 r) (pub_timestamp_md (rel_pub R))) (pub_snapshot_md (rel_pub R))).
  destruct (load_targets_honest E' c (rel_pub R) (mkWorld t3 i4)) as (i5 & Hrun4 & Hw5 & Hb4); cbn [t3 t0 w_trusted w_io set_root set_snapshot set_timestamp t_root t_ref t_timestamp t_snapshot t_targets]; try done.
  { split_and!; cbn; try done. apply moved_serves. apply Hup. }
  { by apply Hk3, Hk2. }
  destruct (when_targets E c tr0 TARGETS ROOT (mkWorld t3 i4) Hl4) as [Hq4 Hl5]. fold E' in Hq4. rewrite Hrun4 in Hq4. rewrite Hq4 in Hl5. cbn [fst] in Hl5.
  exists (mkWorld (set_targets t3 "targets" (pub_targets_md (rel_pub R))) i5). split.
  { unfold refresh. destruct Hcf as [-> _]. unfold online_refresh. rewrite (sbind_run _ _ _ _ _ Hrun1). rewrite (sbind_run _ _ _ _ _ Hrun2). cbn [w2 w_trusted]. rewrite (sbind_run _ _ _ _ _ Hq3). cbn [w_trusted]. fold t3. by rewrite (sbind_run _ _ _ _ _ Hq4). }
  split; [done|]. assert (up_to_date r (rel_pub R) (set_targets t3 "targets" (pub_targets_md (rel_pub R)))) as Hutd by done. split; [exact Hutd|].
  apply up_to_date_inv; try done. intros name f Hf. assert (role_name_ok name) as [_ Hno] by (apply (serving_roles E c r0 r now tr0 R Hsd Hup _ _ Hf)).
  intros data. cbn [w_io]. rewrite Hb4 by (intros ->; apply Hno; set_solver). cbn [w_io]. apply Hk3; [intros ->; apply Hno; set_solver|]. apply Hk2; [intros ->; apply Hno; set_solver|]. by apply Hf4.
Qed.

(** ** New and Refresh *)
Lemma used_under roots k R w w' : used E c R w w' -> used E c (under roots k R) w w'.
Proof. induction 1 as [|path w w1 w2 o Hfol Hinfo _ IH|tf data fp p w w1 w2 o Hin Hfile Hown Hdl _ IH]; [constructor|by eapply used_search|by eapply used_download]. Qed.
Lemma under_up r roots k R tr : stays_up E c r R tr -> stays_up E c r (under roots k R) tr.
Proof. exact id. Qed.
Lemma rotating_started r0 roots m now Rs i : rotating E c (io_trace i) r0 roots m now Rs ->
  (forall k, (m (io_trace i) <= k <= List.length roots)%nat -> client_ready E c r0 (root_number r0 roots k) now (map (under roots k) Rs) i) ->
  exists k R i' t w1 tr0, R ∈ Rs /\ (m (io_trace i) <= k <= m (wtr w1))%nat /\ sound_release c r0 (root_number r0 roots k) now (under roots k R) /\ stays_up E c (root_number r0 roots k) (under roots k R) tr0 /\ later tr0 (wtr w1) /\
    updater_new E c now i = (i', Ok t) /\ refresh E c (mkWorld t i') = (w1, Ok tt) /\ up_to_date (root_number r0 roots k) (rel_pub (under roots k R)) (w_trusted w1) /\
    Inv (moved tr0 E) c (root_number r0 roots k) (rel_pub (under roots k R)) now (rel_roles (under roots k R)) w1.
Proof.
  intros [Hroots Hlive] Hready. pose proof Hroots as ((rl & Hu) & Hm & _ & _ & _ & Hrot & Hbound). pose proof (Hm _ _ (later_refl _) (later_refl _)) as Hm0.
  destruct (Hready (m (io_trace i))) as (Hdoc & Hself & Hu1 & Hu2 & Hw & _); [lia|].
  destruct (new_honest E c r0 now i) as (i1 & Hn & Hw1 & Hb0); try done.
  assert (later (io_trace i) (io_trace i1)) as Hlt1.
  { destruct (when_new E c (io_trace i) now i (later_refl _)) as [_ Hlt1]. by rewrite Hn in Hlt1. }
  set (t0 := mkTrusted r0 None None ∅ now) in *.
  pose proof (document_range _ _ Hdoc) as Hr. apply in_int64_spec in Hr as Hr'. pose proof (Hm _ _ (later_refl _) Hlt1) as Hm1.
  destruct (root_loop_moving (io_trace i) r0 roots m rl Hu Hroots Hr (Z.to_nat (c_max_root_rotations c)) 0 (mkWorld t0 i1)) as (k & i2 & Hrun & Hk & Hw2 & Hb1 & Hl2); try done; unfold wtr in *; cbn [w_io w_trusted] in *; [lia|lia|lia|].
  assert (load_root E c (mkWorld t0 i1) = (mkWorld (set_root t0 (root_number r0 roots k)) i2, Ok tt)) as Hrun1.
  { unfold load_root. cbn [w_trusted t0 t_root]. rewrite (wrap64_id (rt_version (md_signed r0) + 1)) by (apply in_int64_spec; lia). rewrite wrap64_id by (apply in_int64_spec; lia).
    replace (rt_version (md_signed r0) + 1 + c_max_root_rotations c - (rt_version (md_signed r0) + 1)) with (c_max_root_rotations c) by lia. rewrite Z.add_0_r in Hrun. exact Hrun. }
  set (r := root_number r0 roots k) in *. set (w2 := mkWorld (set_root t0 r) i2). set (tr0 := asks_timestamp E c w2).
  assert (later (io_trace i2) tr0) as Hl0 by (unfold tr0, asks_timestamp, load_local, read_file; apply later_app).
  assert (later (io_trace i) (io_trace i2)) as Hli2 by (eapply later_trans; [exact Hlt1|exact Hl2]).
  assert (later (io_trace i) tr0) as Hli0 by (eapply later_trans; [exact Hli2|exact Hl0]).
  pose proof (Hm _ _ Hli2 Hl0) as Hm2.
  destruct (Hlive tr0 Hli0) as (R & HR & Hts & Hall). destruct (Hall k) as [Hsd Hup]; [lia|]. fold r in Hsd, Hup.
  destruct (Hready k) as (_ & _ & _ & _ & _ & Hcache); [lia|]. destruct (Hcache (under roots k R)) as (Hf1 & Hf2 & Hf3 & Hf4); [by apply elem_of_list_fmap_1|]. fold r in Hf1, Hf2, Hf3.
  assert (forall role Q, role <> "root" -> file_is c (io_disk i) role Q -> file_is c (io_disk i2) role Q) as Hk1.
  { intros role Q Hne HQ data. rewrite Hb1, Hb0 by done. apply HQ. }
  destruct (after_root r0 r now i1 i2 (under roots k R)) as (w1 & Href & Hl & Hutd & HI); try done.
  1-3: by apply Hk1.
  { intros name f Hf. assert (role_name_ok name) as [_ Hno] by (apply (serving_roles E c r0 r now tr0 (under roots k R) Hsd Hup _ _ Hf)). apply Hk1; [intros ->; apply Hno; set_solver|]. intros d Hd. by apply (Hf4 name f). }
  exists k, R, i1, t0, w1, tr0. split; [done|]. split; [|done]. pose proof (Hm _ _ Hli0 Hl). unfold wtr in *. lia.
Qed.
End Rotate.
