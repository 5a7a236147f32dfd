(** * Proofs about working offline from the cache of an earlier refresh *)
From stdpp Require Import base gmap strings list.
From Coq Require Import ZArith Lia Ascii String.
From Verif Require Import GoBase GoStr GoTime Types Marshal Keys Metadata TrustedMetadata Fetcher Updater SpecBasic SpecSig SpecDeleg SpecTrusted SpecUpdater SpecOffline.
From Verif Require Import SigProofs BasicProofs EventProofs PathProofs UpdaterProofs WalkProofs RefreshProofs HonestProofs ReachProofs LiveProofs LifeProofs TrustedProofs.
Open Scope Z_scope.

Section Online.
Context {CR : Crypto} (E : env) (c : config) (Hcache : c_disable_cache c = false).
Lemma persist_there role data i i' : persist_metadata E c role data i = (i', Ok tt) -> io_disk i' !! cache_name c role = Some data.
Proof.
  intros H. destruct (persist_shape E c role data i i' _ H) as (evs & [_ Hd] & _ & Hok & _). destruct (Hok eq_refl) as [[? _]|(p & Hp & ->)]; [congruence|].
  rewrite Hd. cbn. rewrite lookup_same. apply lookup_same.
Qed.
Lemma top_local role : role = "timestamp" \/ role = "snapshot" \/ role = "targets" -> local_name c role = cache_name c role.
Proof. intros [->|[->| ->]]; apply local_cache; done. Qed.
Lemma local_there role i i' data : load_local E c role i = (i', Ok data) -> local_name c role = cache_name c role -> io_disk i !! cache_name c role = Some data /\ io_disk i' = io_disk i.
Proof. unfold load_local, read_file. intros H Hn. injection H as <- H. rewrite Hn in H. split; [|done]. destruct (io_disk i !! cache_name c role) as [d|]; [|done]. destruct (e_io E (io_trace i)); [|done]. by injection H as ->. Qed.

Lemma update_root_only t data t' o : update_root t data = (t', o) -> exists r, t' = set_root t r.
Proof.
  unfold update_root. destruct (t_timestamp t); [intros [= <- _]; exists (t_root t); by rewrite set_root_eta|].
  match goal with |- context [match ?o with Ok r => _ | Err _ => _ | Panic => _ end] => destruct o as [r|e|] end; intros [= <- _]; [by exists r|exists (t_root t); by rewrite set_root_eta..].
Qed.
Lemma root_loop_only fuel : forall next w w' o, root_loop E c fuel next w = (w', o) -> exists r, w_trusted w' = set_root (w_trusted w) r.
Proof.
  induction fuel as [|fuel IH]; intros next w w' o; cbn [root_loop]; [intros [= <- _]; exists (t_root (w_trusted w)); by rewrite set_root_eta|]. intros H.
  apply satt_inv in H as [(w1 & data & H1 & H)|[(w1 & e & H1 & H)|[H1 ->]]]; apply lift_inv in H1 as [_ Ht1].
  - apply sbind_inv in H as [(w2 & m & H2 & H)|[(e & H2 & ->)|[H2 ->]]]; apply on_trusted_inv in H2 as [[r2 H2]%update_root_only _]; rewrite Ht1 in H2; [|by exists r2..].
    apply sbind_inv in H as [(w3 & u & H3 & H)|[(e & H3 & ->)|[H3 ->]]]; apply lift_inv in H3 as [_ Ht3]; rewrite H2 in Ht3; [|by exists r2..].
    apply IH in H as [r H]. exists r. by rewrite H, Ht3.
  - exists (t_root (w_trusted w)). rewrite set_root_eta, <- Ht1. destruct (http_status e) as [s|]; [destruct (_ || _)|]; by injection H as <- _.
  - exists (t_root (w_trusted w)). by rewrite set_root_eta.
Qed.

(** the root that is used is the cached one *)
Definition root_there (w : world) : Prop := exists data, cached c w "root" = Some data /\ document data (t_root (w_trusted w)) /\ root_signs (t_root (w_trusted w)) "root" (t_root (w_trusted w)).
Lemma update_root_doc t data t' r : update_root t data = (t', Ok r) -> document data r /\ root_signs r "root" r /\ t' = set_root t r.
Proof.
  unfold update_root. destruct (t_timestamp t); [done|].
  match goal with |- context [match ?o with Ok r => _ | Err _ => _ | Panic => _ end] => destruct o as [r'|e|] eqn:Eo end; [|done..]. intros [= <- <-].
  apply obind_ok in Eo as (r0 & Hb & Eo). apply obind_ok in Eo as ([] & Ht & Eo). apply obind_ok in Eo as ([] & _ & Eo). destruct (_ =? _); [|done]. apply obind_ok in Eo as ([] & Hv & Eo). injection Eo as <-.
  split; [split; [done|by apply check_signed_type_ok]|]. split; [by apply root_signs_ok|done].
Qed.
Lemma root_loop_there fuel : forall next w w', root_there w -> root_loop E c fuel next w = (w', Ok tt) -> root_there w'.
Proof.
  induction fuel as [|fuel IH]; intros next w w' Hw; cbn [root_loop]; [by intros [= <-]|]. intros H.
  apply satt_inv in H as [(w1 & data & H1 & H)|[(w1 & e & H1 & H)|[_ [=]]]]; apply lift_inv in H1 as [H1%fetch_disk Ht1].
  - apply sbind_inv in H as [(w2 & r & H2 & H)|[(e & _ & [=])|[_ [=]]]]; apply on_trusted_inv in H2 as [(Hd & Hs & H2)%update_root_doc Hi2].
    apply sbind_inv in H as [(w3 & [] & H3 & H)|[(e & _ & [=])|[_ [=]]]]; apply lift_inv in H3 as [H3%persist_there Ht3]. revert H. apply IH. exists data. unfold cached. rewrite Ht3, H2. done.
  - assert (w' = w1) as ->. { destruct (http_status e) as [s|]; [destruct (_ || _)|]; by injection H. } destruct Hw as (d & Hd & Hx). exists d. unfold cached. rewrite H1, Ht1. done.
Qed.
Lemma new_root_there now i i' t : updater_new E c now i = (i', Ok t) -> root_there (mkWorld t i').
Proof.
  unfold updater_new. destruct (_ || _); [done|]. intros H. apply sbind_inv in H as [(i1 & t1 & Ht & H)|[(e & _ & [=])|[_ [=]]]]. injection Ht as _ Ht. apply sbind_inv in H as [(i2 & u & _ & H)|[(e & _ & [=])|[_ [=]]]].
  apply sbind_inv in H as [(i3 & [] & Hp & H)|[(e & _ & [=])|[_ [=]]]]. injection H as <- <-. apply persist_there in Hp. apply tm_new_spec in Ht as (r & Hd & Hs & ->). by exists (c_trusted_root c).
Qed.

(** the timestamp that is used is the cached one *)
Lemma timestamp_cached w w' : t_timestamp (w_trusted w) = None -> load_timestamp E c w = (w', Ok tt) ->
  t_timestamp (w_trusted w') = None \/ exists data ts, cached c w' "timestamp" = Some data /\ document data ts /\ w_trusted w' = set_timestamp (w_trusted w) ts /\ root_signs (t_root (w_trusted w)) "timestamp" ts.
Proof.
  unfold load_timestamp, cached. intros Hnone H. apply satt_inv in H as H1.
  assert (exists w1, timestamp_tail E c w1 = (w', Ok tt) /\ (w_trusted w1 = w_trusted w \/ exists data ts, io_disk (w_io w1) !! cache_name c "timestamp" = Some data /\ document data ts /\ w_trusted w1 = set_timestamp (w_trusted w) ts /\ root_signs (t_root (w_trusted w)) "timestamp" ts)) as (w1 & Ht & H0).
  { destruct H1 as [(w1 & data & Hl & Hk)|[(w1 & e & Hl & Hk)|[_ [=]]]]; apply lift_inv in Hl as [Hl Hlt].
    - apply sbind_inv in Hk as [(w2 & u & Hh & Hk)|[(e & _ & [=])|[_ [=]]]]. exists w2. split; [exact Hk|].
      apply local_there in Hl as [Hl Hl2]; [|apply top_local; by left].
      assert (exists o, on_trusted (fun t => update_timestamp t data) w1 = (w2, o)) as (o & Hu).
      { apply satt_inv in Hh as [(w3 & m & Hu & Hh)|[(w3 & e & Hu & Hh)|[_ [=]]]]; [injection Hh as <- _; by eexists|]. destruct (errors_is e (ErrRepository "")); [injection Hh as <- _; by eexists|done]. }
      apply on_trusted_inv in Hu as [Hu Hio]. rewrite Hlt in Hu. destruct (update_timestamp_cases (w_trusted w) data) as [(ts & Hok & Hs & _)|(_ & Hs & _)]; rewrite Hu in Hs; cbn [fst] in Hs; [right|by left].
      exists data, ts. rewrite Hio, Hl2. destruct Hok as (_ & _ & Hd & Hsig & _). done.
    - exists w1. split; [exact Hk|by left]. }
  clear H H1. unfold timestamp_tail in Ht. apply sbind_inv in Ht as [(w2 & data & Hf & Ht)|[(e & _ & [=])|[_ [=]]]]. apply lift_inv in Hf as [Hf%fetch_disk Hft].
  assert (forall ts, set_timestamp (w_trusted w1) ts = set_timestamp (w_trusted w) ts /\ t_root (w_trusted w1) = t_root (w_trusted w)) as Hset. { intros ts. destruct H0 as [->|(? & ? & _ & _ & -> & _)]; done. }
  apply satt_inv in Ht as [(w3 & m & Hu & Ht)|[(w3 & e & Hu & Ht)|[_ [=]]]]; apply on_trusted_inv in Hu as [Hu Hio].
  - right. apply lift_inv in Ht as [Hp Htr]. apply persist_there in Hp. exists data, m. split; [exact Hp|]. apply update_timestamp_spec in Hu as ((_ & _ & Hdoc & Hsig & _) & _ & Hrep%timestamp_replaced_iff).
    destruct (Hset m) as [Hs1 Hs2]. rewrite Hft in Hrep, Hsig. rewrite Hs2 in Hsig. rewrite Htr, Hrep, Hs1. done.
  - destruct (errors_is e (ErrEqualVersionNumber "")) eqn:Ee; [|done]. injection Ht as <-.
    destruct (update_timestamp_cases (w_trusted w2) data) as [(ts & _ & _ & [[_ Hx]|(_ & msg & Hx)])|(_ & Hs & _)]; [rewrite Hu in Hx; discriminate Hx| |].
    + rewrite Hu in Hx. cbn [snd] in Hx. injection Hx as ->. exfalso. revert Ee. unfold errors_is, err_is_method. rewrite !bool_decide_false by done. cbn. done.
    + rewrite Hu in Hs. cbn [fst] in Hs. rewrite Hs, Hft. destruct H0 as [->|(d & ts & H1 & H2 & H3 & H4)]; [by left|right]. exists d, ts. rewrite Hio, Hf. done.
Qed.
Lemma snapshot_cached w w' : t_snapshot (w_trusted w) = None -> load_snapshot E c w = (w', Ok tt) ->
  exists ts data sn, t_timestamp (w_trusted w) = Some ts /\ ~ expired_at ts (t_ref (w_trusted w)) /\ cached c w' "snapshot" = Some data /\ document data sn /\ w_trusted w' = set_snapshot (w_trusted w) sn /\
    root_signs (t_root (w_trusted w)) "snapshot" sn /\ final_snapshot (w_trusted w) sn /\ (cached c w "snapshot" = Some data \/ exists f, names_snapshot ts f /\ matches_file f data).
Proof.
  unfold load_snapshot, cached. intros Hnone H. apply satt_inv in H.
  assert (forall w1, (w_trusted w1 = w_trusted w \/ exists sn, w_trusted w1 = set_snapshot (w_trusted w) sn) -> snapshot_tail E c w1 = (w', Ok tt) ->
    exists ts data sn, t_timestamp (w_trusted w) = Some ts /\ ~ expired_at ts (t_ref (w_trusted w)) /\ io_disk (w_io w') !! cache_name c "snapshot" = Some data /\ document data sn /\ w_trusted w' = set_snapshot (w_trusted w) sn /\
    root_signs (t_root (w_trusted w)) "snapshot" sn /\ final_snapshot (w_trusted w) sn /\ (io_disk (w_io w) !! cache_name c "snapshot" = Some data \/ exists f, names_snapshot ts f /\ matches_file f data)) as Htail.
  { intros w1 Hw1 Ht. unfold snapshot_tail in Ht. apply sbind_inv in Ht as [(w2 & t & Hg & Ht)|[(e & _ & [=])|[_ [=]]]]. injection Hg as <- <-.
    destruct (t_timestamp (w_trusted w1)) as [ts|] eqn:Ets; [|done]. destruct (snapshot_meta ts) as [f|]; [|done]. cbv zeta in Ht.
    apply sbind_inv in Ht as [(w2 & data & Hf & Ht)|[(e & _ & [=])|[_ [=]]]]. apply lift_inv in Hf as [_ Htf]. apply sbind_inv in Ht as [(w3 & sn & Hu & Ht)|[(e & _ & [=])|[_ [=]]]].
    apply upd_snapshot_inv in Hu as (order & Ho & Hu & _). apply update_snapshot_spec in Hu as (Hok & Hfin & Hrep%snapshot_replaced_iff); [|done]. apply lift_inv in Ht as [Hp%persist_there Htr].
    destruct Hok as (ts' & Hts & _ & Hx & [Hm|Hm] & Hdoc & Hsig & _); [done|]. exists ts', data, sn. rewrite Htf in Hts, Hx, Hsig, Hfin, Hrep. rewrite Htr, Hrep.
    destruct Hw1 as [Hw1|[sn' Hw1]]; rewrite Hw1 in Hts, Hx, Hsig, Hfin |- *; do 7 (split; [done|]); by right. }
  destruct H as [(w1 & data & Hl & Hk)|[(w1 & e & Hl & Hk)|[_ [=]]]]; apply lift_inv in Hl as [Hl Htr1].
  - apply local_there in Hl as [Hl Hl2]; [|apply top_local; by right; left]. apply sbind_inv in Hk as [(w2 & b & Hh & Hk)|[(e & _ & [=])|[_ [=]]]].
    apply satt_inv in Hh as [(w3 & sn & Hu & Hh)|[(w3 & e & Hu & Hh)|[_ [=]]]].
    + injection Hh as <- <-. injection Hk as <-. apply upd_snapshot_inv in Hu as (order & Ho & Hu & Hio). apply update_snapshot_spec in Hu as ((ts & Hts & _ & Hx & _ & Hdoc & Hsig & _) & Hfin & Hrep%snapshot_replaced_iff); [|done].
      rewrite Htr1 in Hts, Hx, Hsig, Hfin, Hrep. exists ts, data, sn. rewrite Hio. cbn [log io_disk]. rewrite Hl2. do 7 (split; [done|]). by left.
    + destruct (errors_is e (ErrRepository "")); [|done]. injection Hh as <- <-. apply (Htail w3); [|exact Hk]. apply upd_snapshot_inv in Hu as (order & Ho & Hu & _). rewrite Htr1 in Hu.
      destruct (update_snapshot_cases order (w_trusted w) data true Ho) as [(sn & _ & Hs & _)|(_ & Hs & _)]; rewrite Hu in Hs; cbn [fst] in Hs; [right; by exists sn|by left].
  - apply sbind_inv in Hk as [(w2 & b & Hh & Hk)|[(e' & _ & [=])|[_ [=]]]]. injection Hh as <- <-. apply (Htail w1); [by left|done].
Qed.
Lemma targets_cached w w' tg : t_targets (w_trusted w) !! "targets" = None -> load_targets E c "targets" "root" w = (w', Ok tg) ->
  exists data, cached c w' "targets" = Some data /\ targets_ok (w_trusted w) data "targets" "root" tg /\ w_trusted w' = set_targets (w_trusted w) "targets" tg.
Proof.
  unfold load_targets, cached. intros Hnone H. apply sbind_inv in H as [(w0 & t & Hg & H)|[(e & [=] & _)|[[=] _]]]. injection Hg as <- <-. rewrite Hnone in H. apply satt_inv in H.
  assert (forall w1, w_trusted w1 = w_trusted w -> role_tail E c "targets" "root" w1 = (w', Ok tg) ->
    exists data, io_disk (w_io w') !! cache_name c "targets" = Some data /\ targets_ok (w_trusted w) data "targets" "root" tg /\ w_trusted w' = set_targets (w_trusted w) "targets" tg) as Htail.
  { intros w1 Hw1 Ht. unfold role_tail in Ht. apply sbind_inv in Ht as [(w2 & t & Hg & Ht)|[(e & _ & [=])|[_ [=]]]]. injection Hg as <- <-.
    destruct (t_snapshot (w_trusted w1)) as [sn|]; [|done]. destruct (mget (sn_meta (md_signed sn)) (json_of "targets")) as [[f|]|]; [|done..]. cbv zeta in Ht.
    apply sbind_inv in Ht as [(w2 & data & Hf & Ht)|[(e & _ & [=])|[_ [=]]]]. apply lift_inv in Hf as [_ Htf]. apply sbind_inv in Ht as [(w3 & m & Hu & Ht)|[(e & _ & [=])|[_ [=]]]].
    apply sbind_inv in Ht as [(w4 & u & Hp & Ht)|[(e & _ & [=])|[_ [=]]]]. injection Ht as <- <-. apply on_trusted_inv in Hu as [Hu _]. destruct u. apply lift_inv in Hp as [Hp%persist_there Htr].
    rewrite Htf, Hw1 in Hu. apply update_delegated_spec in Hu as [Hok Hrep%targets_replaced_iff]. exists data. rewrite Htr. done. }
  destruct H as [(w1 & data & Hl & Hk)|[(w1 & e & Hl & Hk)|[_ [=]]]]; apply lift_inv in Hl as [Hl Htr1].
  - apply local_there in Hl as [Hl Hl2]; [|apply top_local; by right; right]. apply sbind_inv in Hk as [(w2 & b & Hh & Hk)|[(e & _ & [=])|[_ [=]]]].
    apply satt_inv in Hh as [(w3 & m & Hu & Hh)|[(w3 & e & Hu & Hh)|[_ [=]]]]; apply on_trusted_inv in Hu as [Hu Hio]; rewrite Htr1 in Hu.
    + injection Hh as <- <-. injection Hk as <- <-. apply update_delegated_spec in Hu as [Hok Hrep%targets_replaced_iff]. exists data. rewrite Hio, Hl2. done.
    + destruct (errors_is e (ErrRepository "")); [|done]. injection Hh as <- <-. apply (Htail w3); [|exact Hk].
      destruct (update_delegated_cases (w_trusted w) data "targets" "root") as [(m & _ & Hs)|(_ & Hs & _)]; rewrite Hu in Hs; [discriminate Hs|exact Hs].
  - apply sbind_inv in Hk as [(w2 & b & Hh & Hk)|[(e' & _ & [=])|[_ [=]]]]. injection Hh as <- <-. apply (Htail w1); [done|done].
Qed.

Lemma refresh_cached w w' : c_unsafe_local c = false -> t_timestamp (w_trusted w) = None -> t_snapshot (w_trusted w) = None -> t_targets (w_trusted w) = ∅ -> root_there w -> refresh E c w = (w', Ok tt) -> root_there w' /\
  exists dts dsn dtg ts sn tg, cache_holds c (io_disk (w_io w')) dts dsn dtg /\ document dts ts /\ document dsn sn /\ document dtg tg /\ trusts_these (w_trusted w') ts sn tg /\
    root_vouches (t_root (w_trusted w')) ts sn tg /\ (exists fs, names_snapshot ts fs /\ sn_version (md_signed sn) = mf_version fs) /\
    (exists ft, lists_file sn "targets.json" ft /\ matches_file ft dtg /\ tg_version (md_signed tg) = mf_version ft) /\
    (cached c w "snapshot" = Some dsn \/ exists f, names_snapshot ts f /\ matches_file f dsn).
Proof.
  intros Hu N1 N2 N3 R0. unfold refresh. rewrite Hu. unfold online_refresh. intros H.
  apply sbind_inv in H as [(w1 & [] & H1 & H)|[(e & _ & [=])|[_ [=]]]]. assert (cached c w1 "snapshot" = cached c w "snapshot") as K1 by (by eapply root_loop_cached). pose proof (root_loop_there _ _ _ _ R0 H1) as R1. apply root_loop_only in H1 as [r1 H1].
  apply sbind_inv in H as [(w2 & [] & H2 & H)|[(e & _ & [=])|[_ [=]]]]. assert (cached c w2 "snapshot" = cached c w "snapshot") as K2 by (rewrite <- K1; destruct (timestamp_stored E c _ _ "snapshot" H2) as [?|[? _]]; done). assert (cached c w2 "root" = cached c w1 "root") as KR2 by (destruct (timestamp_stored E c _ _ "root" H2) as [?|[? _]]; done). apply timestamp_cached in H2; [|by rewrite H1].
  apply sbind_inv in H as [(w3 & [] & H3 & H)|[(e & _ & [=])|[_ [=]]]]. pose proof (snapshot_stored E c w2 w3 "timestamp" H3) as [_ K3]. assert (cached c w3 "root" = cached c w2 "root") as KR3 by (destruct (snapshot_stored E c w2 w3 "root" H3) as [_ [?|[? _]]]; done).
  assert (t_snapshot (w_trusted w2) = None /\ t_targets (w_trusted w2) !! "targets" = None \/ t_timestamp (w_trusted w2) = None) as Hw2. { destruct H2 as [?|(? & ? & _ & _ & -> & _)]; [by right|left]. rewrite H1. cbn. rewrite N3. done. }
  assert (t_snapshot (w_trusted w2) = None) as Hs2.
  { destruct Hw2 as [[? _]|Hn]; [done|]. exfalso. clear H2 K3 H. unfold load_snapshot in H3. apply satt_inv in H3.
    assert (forall data b wa wb m, t_timestamp (w_trusted wa) = None -> upd_snapshot E data b wa <> (wb, Ok m)) as Hno. { intros data b wa wb m Ha (order & Ho & Hx & _)%upd_snapshot_inv. apply update_snapshot_spec in Hx as ((ts & Hts & _) & _); [congruence|done]. }
    assert (forall wa, t_timestamp (w_trusted wa) = None -> snapshot_tail E c wa <> (w3, Ok tt)) as Ht. { intros wa Ha Hx. unfold snapshot_tail in Hx. apply sbind_inv in Hx as [(wb & t & Hg & Hx)|[(e & _ & [=])|[_ [=]]]]. injection Hg as <- <-. rewrite Ha in Hx. done. }
    destruct H3 as [(wa & data & Hl & Hk)|[(wa & e & Hl & Hk)|[_ [=]]]]; apply lift_inv in Hl as [_ Hl].
    - apply sbind_inv in Hk as [(wb & b & Hh & Hk)|[(e & _ & [=])|[_ [=]]]]. apply satt_inv in Hh as [(wc & m & Hx & Hh)|[(wc & e & Hx & Hh)|[_ [=]]]].
      + apply Hno in Hx; [done|]. by rewrite Hl.
      + destruct (errors_is e (ErrRepository "")); [|done]. injection Hh as <- <-. apply Ht in Hk; [done|]. apply upd_snapshot_inv in Hx as (order & Ho & Hx & _).
        destruct (update_snapshot_cases order (w_trusted wa) data true Ho) as [(sn & _ & Hs & _)|(_ & Hs & _)]; rewrite Hx in Hs; cbn [fst] in Hs; rewrite Hs; cbn; by rewrite Hl.
    - apply sbind_inv in Hk as [(wb & b & Hh & Hk)|[(e' & _ & [=])|[_ [=]]]]. injection Hh as <- <-. apply Ht in Hk; [done|]. by rewrite Hl. }
  apply snapshot_cached in H3 as (ts & dsn & sn & Hts & Hx & C3 & D3 & T3 & S3 & F3 & M3); [|done].
  destruct H2 as [?|(dts & ts' & C2 & D2 & T2 & S2)]; [congruence|]. assert (ts' = ts) as -> by (rewrite T2 in Hts; by injection Hts).
  apply sbind_inv in H as [(w4 & tg & H4 & H)|[(e & _ & [=])|[_ [=]]]]. injection H as <-. pose proof (targets_stored E c _ _ _ _ _ H4) as (_ & _ & K4).
  change TARGETS with "targets" in H4. change ROOT with "root" in H4. apply targets_cached in H4 as (dtg & C4 & Hok & T4); [|rewrite T3, T2, H1; cbn; by rewrite N3].
  assert (forall x, x <> "targets" -> t_targets (w_trusted w4) !! x = None) as Hno. { intros x Hx'. rewrite T4, T3, T2, H1. cbn. rewrite N3. eapply eq_trans; [apply (lookup_insert_ne (M := gmap string)); congruence|apply (lookup_empty (M := gmap string))]. }
  destruct Hok as (sn' & ft & Hsn' & _ & Hft & Hm & D4 & Hsg & Hv & _). rewrite T3 in Hsn'. injection Hsn' as <-.
  split. { destruct R1 as (d & Hd & Hx'). exists d. destruct (K4 "root") as [K|(d' & m & _ & _ & K)]; [|rewrite Hno in K; done]. rewrite K, KR3, KR2, T4. cbn. rewrite T3. cbn. rewrite T2. cbn. done. }
  exists dts, dsn, dtg, ts, sn, tg.
  split; [|split; [done|split; [done|split; [done|]]]].
  - unfold cache_holds, cached in *. split; [|split; [|done]].
    + destruct (K4 "timestamp") as [K|(d & m & _ & _ & K)]; [|rewrite Hno in K; done]. unfold cached in K. rewrite K. destruct K3 as [K3|[? _]]; [|done]. by rewrite K3.
    + destruct (K4 "snapshot") as [K|(d & m & _ & _ & K)]; [|rewrite Hno in K; done]. unfold cached in K. by rewrite K.
  - split; [rewrite T4, T3, T2; split; [done|split; [done|apply (lookup_insert (M := gmap string))]]|]. split; [|split; [|split; [by exists ft|by rewrite <- K2]]].
    + rewrite T4. cbn. rewrite T3. cbn. split; [by rewrite T2|]. split; [done|]. destruct Hsg as [[_ Hsg]|[? _]]; [|done]. by rewrite T3 in Hsg.
    + destruct F3 as (_ & ts' & f & Hts' & Hf & Hvf). exists f. split; [|done]. congruence.
Qed.
End Online.

Section Offline.
Context {CR : Crypto} (E : env) (c : config) (Hio : forall tr, e_io E tr = true).
Lemma read_there role w data : local_name c role = cache_name c role -> cached c w role = Some data -> exists i', lift (load_local E c role) w = (mkWorld (w_trusted w) i', Ok data) /\ io_disk i' = io_disk (w_io w).
Proof. intros Hn Hd. unfold lift, load_local, read_file. rewrite Hn. unfold cached in Hd. rewrite Hd, Hio. eexists. split; [reflexivity|done]. Qed.
(** a local refresh succeeds exactly if the three files pass the three checks *)
Lemma unsafe_exact w dts dsn dtg ts sn tg : t_timestamp (w_trusted w) = None -> t_snapshot (w_trusted w) = None -> t_targets (w_trusted w) = ∅ ->
  cache_holds c (io_disk (w_io w)) dts dsn dtg -> document dts ts -> document dsn sn -> document dtg tg ->
  (exists fs, names_snapshot ts fs /\ sn_version (md_signed sn) = mf_version fs) -> (exists ft, lists_file sn "targets.json" ft /\ matches_file ft dtg /\ tg_version (md_signed tg) = mf_version ft) ->
  exists w' o, unsafe_refresh E c w = (w', o) /\
    (o = Ok tt <-> root_vouches (t_root (w_trusted w)) ts sn tg /\ all_fresh (t_ref (w_trusted w)) (t_root (w_trusted w)) ts sn tg /\ exists fs, names_snapshot ts fs /\ matches_file fs dsn) /\
    (o = Ok tt -> t_root (w_trusted w') = t_root (w_trusted w) /\ trusts_these (w_trusted w') ts sn tg).
Proof.
  intros N1 N2 N3 (C1 & C2 & C3) D1 D2 D3 (fs & Hfs & Hvs) (ft & Hft & Hmt & Hvt). destruct (unsafe_refresh E c w) as [w' o] eqn:H. exists w', o. split; [done|].
  set (t := w_trusted w) in *. set (t1 := set_timestamp t ts). set (t2 := set_snapshot t1 sn). set (t3 := set_targets t2 "targets" tg).
  destruct (read_there "timestamp" w dts) as (i1 & R1 & I1); [apply top_local; by left|done|].
  assert (t_targets t !! "targets" = None) as N4 by (rewrite N3; apply (lookup_empty (M := gmap string))).
  split; [split|].
  - intros ->. unfold unsafe_refresh in H. rewrite (sbind_run _ _ _ _ _ R1) in H.
    apply sbind_inv in H as [(w2 & ts' & H2 & H)|[(e & H2 & [=])|[H2 [=]]]]. apply on_trusted_inv in H2 as [H2 Hi2]. cbn [w_trusted w_io] in H2, Hi2. fold t in H2.
    apply update_timestamp_spec in H2 as ((_ & X1 & D1' & S1 & _) & X2 & R2%timestamp_replaced_iff). assert (ts' = ts) as -> by (destruct D1, D1'; congruence). fold t1 in R2.
    destruct (read_there "snapshot" w2 dsn) as (i3 & R3 & I3); [apply top_local; by right; left|unfold cached; by rewrite Hi2, I1|]. rewrite (sbind_run _ _ _ _ _ R3) in H.
    apply sbind_inv in H as [(w4 & sn' & H4 & H)|[(e & H4 & [=])|[H4 [=]]]]. apply upd_snapshot_inv in H4 as (order & Ho & H4 & Hi4). cbn [w_trusted w_io] in H4, Hi4. rewrite R2 in H4.
    apply update_snapshot_spec in H4 as ((ts' & Hts' & _ & _ & Hm & D2' & S2 & _) & (X3 & _) & R4%snapshot_replaced_iff); [|done]. injection Hts' as <-. assert (sn' = sn) as -> by (destruct D2, D2'; congruence). fold t2 in R4.
    destruct (read_there "targets" w4 dtg) as (i5 & R5 & I5); [apply top_local; by right; right|unfold cached; rewrite Hi4; cbn [log io_disk]; by rewrite I3, Hi2, I1|]. rewrite (sbind_run _ _ _ _ _ R5) in H.
    apply sbind_inv in H as [(w6 & tg' & H6 & H)|[(e & H6 & [=])|[H6 [=]]]]. apply on_trusted_inv in H6 as [H6 Hi6]. cbn [w_trusted w_io] in H6. rewrite R4 in H6.
    apply update_delegated_spec in H6 as [(sn' & f & _ & _ & _ & _ & D3' & S3 & _ & X4) _]. assert (tg' = tg) as -> by (destruct D3, D3'; congruence).
    destruct S3 as [[_ S3]|[? _]]; [|done]. destruct Hm as [?|Hm]; [done|]. done.
  - intros ((S1 & S2 & S3) & (X1 & X2 & X3 & X4) & (fs' & Hfs' & Hms)). unfold unsafe_refresh in H. rewrite (sbind_run _ _ _ _ _ R1) in H.
    assert (update_timestamp t dts = (t1, Ok ts)) as U1. { apply update_timestamp_spec. split; [|split; [done|by apply timestamp_replaced_iff]]. split; [done|]. split; [done|]. split; [done|]. split; [done|]. intros old Hold. congruence. }
    assert (on_trusted (fun t => update_timestamp t dts) (mkWorld (w_trusted w) i1) = (mkWorld t1 i1, Ok ts)) as O1. { unfold on_trusted. cbn [w_trusted w_io]. fold t. by rewrite U1. }
    rewrite (sbind_run _ _ _ _ _ O1) in H. destruct (read_there "snapshot" (mkWorld t1 i1) dsn) as (i3 & R3 & I3); [apply top_local; by right; left|unfold cached; cbn [w_io]; by rewrite I1|]. rewrite (sbind_run _ _ _ _ _ R3) in H.
    assert (final_snapshot t1 sn) as F by (split; [done|]; by exists ts, fs).
    destruct (upd_snapshot_run E dsn false t1 i3 t2 (Ok sn)) as (i4 & O2 & I4). { intros order Ho. apply update_snapshot_spec; [done|]. split; [|split; [done|by apply snapshot_replaced_iff]]. exists ts. split; [done|]. split; [done|]. split; [done|]. split; [right; by exists fs'|]. split; [done|]. split; [done|]. intros old Hold. cbn in Hold. congruence. }
    cbn [w_trusted] in H. rewrite (sbind_run _ _ _ _ _ O2) in H.
    destruct (read_there "targets" (mkWorld t2 i4) dtg) as (i5 & R5 & I5); [apply top_local; by right; right|unfold cached; cbn [w_io] in *; by rewrite I4, I3, I1|]. rewrite (sbind_run _ _ _ _ _ R5) in H.
    assert (update_delegated_targets t2 dtg "targets" "root" = (t3, Ok tg)) as U3. { apply update_delegated_spec. split; [|by apply targets_replaced_iff]. exists sn, ft. split; [done|]. split; [done|]. split; [done|]. split; [done|]. split; [done|]. split; [by left|done]. }
    assert (on_trusted (fun t => update_delegated_targets t dtg TARGETS ROOT) (mkWorld t2 i5) = (mkWorld t3 i5, Ok tg)) as O3. { unfold on_trusted. cbn [w_trusted w_io]. change TARGETS with "targets". change ROOT with "root". by rewrite U3. }
    cbn [w_trusted] in H. rewrite (sbind_run _ _ _ _ _ O3) in H. by injection H as _ <-.
  - intros ->. unfold unsafe_refresh in H. rewrite (sbind_run _ _ _ _ _ R1) in H.
    apply sbind_inv in H as [(w2 & ts' & H2 & H)|[(e & H2 & [=])|[H2 [=]]]]. apply on_trusted_inv in H2 as [H2 Hi2]. cbn [w_trusted w_io] in H2, Hi2. fold t in H2.
    apply update_timestamp_spec in H2 as ((_ & X1 & D1' & S1 & _) & X2 & R2%timestamp_replaced_iff). assert (ts' = ts) as -> by (destruct D1, D1'; congruence). fold t1 in R2.
    destruct (read_there "snapshot" w2 dsn) as (i3 & R3 & I3); [apply top_local; by right; left|unfold cached; by rewrite Hi2, I1|]. rewrite (sbind_run _ _ _ _ _ R3) in H.
    apply sbind_inv in H as [(w4 & sn' & H4 & H)|[(e & H4 & [=])|[H4 [=]]]]. apply upd_snapshot_inv in H4 as (order & Ho & H4 & Hi4). cbn [w_trusted w_io] in H4, Hi4. rewrite R2 in H4.
    apply update_snapshot_spec in H4 as ((ts' & Hts' & _ & _ & Hm & D2' & S2 & _) & (X3 & _) & R4%snapshot_replaced_iff); [|done]. injection Hts' as <-. assert (sn' = sn) as -> by (destruct D2, D2'; congruence). fold t2 in R4.
    destruct (read_there "targets" w4 dtg) as (i5 & R5 & I5); [apply top_local; by right; right|unfold cached; rewrite Hi4; cbn [log io_disk]; by rewrite I3, Hi2, I1|]. rewrite (sbind_run _ _ _ _ _ R5) in H.
    apply sbind_inv in H as [(w6 & tg' & H6 & H)|[(e & H6 & [=])|[H6 [=]]]]. apply on_trusted_inv in H6 as [H6 Hi6]. cbn [w_trusted w_io] in H6. rewrite R4 in H6.
    apply update_delegated_spec in H6 as [(sn' & f & _ & _ & _ & _ & D3' & S3 & _ & X4) R6%targets_replaced_iff]. assert (tg' = tg) as -> by (destruct D3, D3'; congruence). injection H as <-.
    change TARGETS with "targets" in R6. fold t3 in R6. rewrite R6. split; [done|]. split; [done|]. split; [done|]. apply (lookup_insert (M := gmap string)).
Qed.
End Offline.

Section Both.
Context {CR : Crypto} (E : env) (c : config).
Lemma new_started now i i' t : updater_new E c now i = (i', Ok t) -> exists r, document (c_trusted_root c) r /\ root_signs r "root" r /\ t = mkTrusted r None None ∅ now /\ c_trusted_root c <> "" /\ c_metadata_url c <> "".
Proof.
  unfold updater_new. destruct (String.eqb_spec (c_trusted_root c) "") as [|H1]; [done|]. destruct (String.eqb_spec (c_metadata_url c) "") as [|H2]; [done|]. cbn [orb]. intros H.
  apply sbind_inv in H as [(i1 & t1 & Ht & H)|[(e & _ & [=])|[_ [=]]]]. injection Ht as _ Ht. apply sbind_inv in H as [(i2 & u & _ & H)|[(e & _ & [=])|[_ [=]]]]. apply sbind_inv in H as [(i3 & u' & _ & H)|[(e & _ & [=])|[_ [=]]]]. injection H as _ <-.
  apply tm_new_spec in Ht as (r & Hd & Hs & ->). by exists r.
Qed.
Lemma offline_exact now i i1 t w : c_disable_cache c = false -> c_unsafe_local c = false -> updater_new E c now i = (i1, Ok t) -> refresh E c (mkWorld t i1) = (w, Ok tt) ->
  exists drt dts dsn dtg ts sn tg, io_disk (w_io w) !! cache_name c "root" = Some drt /\ cache_holds c (io_disk (w_io w)) dts dsn dtg /\
  document drt (t_root (w_trusted w)) /\ document dts ts /\ document dsn sn /\ document dtg tg /\ trusts_these (w_trusted w) ts sn tg /\ root_vouches (t_root (w_trusted w)) ts sn tg /\
  (io_disk i !! cache_name c "snapshot" = Some dsn \/ exists f, names_snapshot ts f /\ matches_file f dsn) /\
  forall E' c' now' i' root r, goes_offline c c' root -> (root = c_trusted_root c /\ r = t_root t \/ root = drt /\ r = t_root (w_trusted w)) -> cache_holds c (io_disk i') dts dsn dtg -> disk_works E' c' (io_disk i') ->
    exists i2 t2 w2 o, updater_new E' c' now' i' = (i2, Ok t2) /\ refresh E' c' (mkWorld t2 i2) = (w2, o) /\
      (o = Ok tt <-> root_vouches r ts sn tg /\ all_fresh now' r ts sn tg /\ exists fs, names_snapshot ts fs /\ matches_file fs dsn) /\
      (o = Ok tt -> t_root (w_trusted w2) = r /\ trusts_these (w_trusted w2) ts sn tg).
Proof.
  intros Hc Hu Hnew Hr. pose proof (new_root_there E c Hc _ _ _ _ Hnew) as R0. destruct (new_started _ _ _ _ Hnew) as (r0 & Hdr & Hsr & -> & Hne1 & Hne2).
  destruct (refresh_cached E c Hc (mkWorld (mkTrusted r0 None None ∅ now) i1) w Hu eq_refl eq_refl eq_refl R0 Hr) as ((drt & Hrt & Hdrt & Hsrt) & dts & dsn & dtg & ts & sn & tg & HC & D1 & D2 & D3 & HH & HV & Hs & Ht & Hm).
  exists drt, dts, dsn, dtg, ts, sn, tg. do 8 (split; [done|]).
  split. { destruct Hm as [Hm|?]; [left|by right]. rewrite <- Hm. unfold cached. cbn [w_io]. symmetry. by eapply new_cached. } intros E' c' now' i' root r (G1 & G2 & G3 & G4 & G5 & G6) Hroot HC' Hw.
  assert (document root r /\ root_signs r "root" r) as [Hdr' Hsr'] by (destruct Hroot as [[-> ->]|[-> ->]]; done).
  assert (root <> "") as Hne by (intros ->; by destruct Hdr').
  destruct (new_honest E' c' r now' i') as (i2 & Hn2 & Hw2 & Hsame); [by rewrite G1|done|by rewrite G2|by rewrite G1|done|].
  assert (forall x, cache_name c' x = cache_name c x) as Hname by (intros x; unfold cache_name; by rewrite G3).
  assert (forall tr, e_io E' tr = true) as Hio by (destruct Hw as [?|(_ & _ & ? & _)]; [congruence|done]).
  destruct (unsafe_exact E' c' Hio (mkWorld (mkTrusted r None None ∅ now') i2) dts dsn dtg ts sn tg) as (w2 & o & Hrun & Hiff & Hok); try done.
  { destruct HC' as (A1 & A2 & A3). unfold cache_holds. cbn [w_io]. rewrite !Hsame, !Hname by done. done. }
  exists i2, (mkTrusted r None None ∅ now'), w2, o. split; [exact Hn2|]. split; [unfold refresh; by rewrite G6|]. split; [exact Hiff|exact Hok].
Qed.
End Both.
