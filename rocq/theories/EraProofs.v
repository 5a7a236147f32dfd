(** * Proofs about many sessions with a repository that publishes new roots *)
From stdpp Require Import base gmap strings list.
From Coq Require Import ZArith Lia Ascii String.
From Verif Require Import GoBase GoStr GoTime Types Marshal Keys Metadata TrustedMetadata Fetcher Updater SpecBasic SpecSig SpecDeleg SpecTrusted SpecUpdater SpecReach SpecLive SpecRotate SpecEra.
From Verif Require Import BasicProofs TrustedProofs UpdaterProofs WalkProofs RefreshProofs HonestProofs ReachProofs LiveProofs LifeProofs RotateProofs.
Open Scope Z_scope.

Section Started.
Context {CR : Crypto} (E : env) (c : config).
(** after its roots, Refresh reaches the moment at which it asks for the timestamp *)
Lemma refresh_asks w w2 : c_unsafe_local c = false -> load_root E c w = (w2, Ok tt) -> later (asks_timestamp E c w2) (wtr (fst (refresh E c w))).
Proof.
  intros Hu Hrun. set (tr0 := asks_timestamp E c w2). unfold refresh. rewrite Hu. unfold online_refresh. rewrite (sbind_run _ _ _ _ _ Hrun). unfold sbind at 1. pose proof (timestamp_later E c w2) as Hl. fold tr0 in Hl.
  destruct (load_timestamp E c w2) as [w3 [[]|e|]]; [|exact Hl..]. cbn [fst] in Hl.
  assert (when tr0 wtr (do _ := load_snapshot E c in do _ := load_targets E c TARGETS ROOT in sret tt) (do _ := load_snapshot (moved tr0 E) c in do _ := load_targets (moved tr0 E) c TARGETS ROOT in sret tt)) as Hw.
  { apply when_bind; [apply when_snapshot|]. intros _. apply when_bind; [apply when_targets|]. intros _. apply when_sret. }
  exact (proj2 (Hw w3 Hl)).
Qed.
Lemma era_started r0 roots m now Rs i : roots_appear E c (io_trace i) r0 roots m -> c_unsafe_local c = false ->
  (forall k, (m (io_trace i) <= k <= List.length roots)%nat -> client_ready E c r0 (root_number r0 roots k) now (map (under roots k) Rs) i) ->
  (forall i1 t w1 out tr, updater_new E c now i = (i1, Ok t) -> refresh E c (mkWorld t i1) = (w1, out) -> later (io_trace i) tr -> later tr (wtr w1) -> exists R, R ∈ Rs /\ announces E c tr R /\
    forall k, (m (io_trace i) <= k <= m tr)%nat -> sound_release c r0 (root_number r0 roots k) now (under roots k R) /\ stays_up E c (root_number r0 roots k) R tr) ->
  exists k R i' t w1 tr0, R ∈ Rs /\ (m (io_trace i) <= k <= m (wtr w1))%nat /\ (k <= List.length roots)%nat /\ sound_release c r0 (root_number r0 roots k) now (under roots k R) /\ stays_up E c (root_number r0 roots k) (under roots k R) tr0 /\ announces E c tr0 R /\ later (io_trace i) tr0 /\ later tr0 (wtr w1) /\
    updater_new E c now i = (i', Ok t) /\ refresh E c (mkWorld t i') = (w1, Ok tt) /\ up_to_date (root_number r0 roots k) (rel_pub (under roots k R)) (w_trusted w1) /\
    Inv (moved tr0 E) c (root_number r0 roots k) (rel_pub (under roots k R)) now (rel_roles (under roots k R)) w1 /\
    exists wr, load_root E c (mkWorld t i') = (wr, Ok tt) /\ tr0 = asks_timestamp E c wr.
Proof.
  intros Hroots Hloc Hready Hlive. pose proof Hroots as ((rl & Hu) & Hm & _ & _ & _ & Hrot & Hbound). pose proof (Hm _ _ (later_refl _) (later_refl _)) as Hm0.
  destruct (Hready (m (io_trace i))) as (Hdoc & Hself & Hu1 & Hu2 & Hw & _); [lia|].
  destruct (new_honest E c r0 now i) as (i1 & Hn & Hw1 & Hb0); try done.
  assert (later (io_trace i) (io_trace i1)) as Hlt1.
  { destruct (when_new E c (io_trace i) now i (later_refl _)) as [_ Hlt1]. by rewrite Hn in Hlt1. }
  set (t0 := mkTrusted r0 None None ∅ now) in *.
  pose proof (document_range _ _ Hdoc) as Hr. apply in_int64_spec in Hr as Hr'. pose proof (Hm _ _ (later_refl _) Hlt1) as Hm1.
  destruct (root_loop_moving E c (io_trace i) r0 roots m rl Hu Hroots Hr (Z.to_nat (c_max_root_rotations c)) 0 (mkWorld t0 i1)) as (k & i2 & Hrun & Hk & Hw2 & Hb1 & Hl2); try done; unfold wtr in *; cbn [w_io w_trusted] in *; [lia|lia|lia|].
  assert (load_root E c (mkWorld t0 i1) = (mkWorld (set_root t0 (root_number r0 roots k)) i2, Ok tt)) as Hrun1.
  { unfold load_root. cbn [w_trusted t0 t_root]. rewrite (wrap64_id (rt_version (md_signed r0) + 1)) by (apply in_int64_spec; lia). rewrite wrap64_id by (apply in_int64_spec; lia).
    replace (rt_version (md_signed r0) + 1 + c_max_root_rotations c - (rt_version (md_signed r0) + 1)) with (c_max_root_rotations c) by lia. rewrite Z.add_0_r in Hrun. exact Hrun. }
  set (r := root_number r0 roots k) in *. set (w2 := mkWorld (set_root t0 r) i2). set (tr0 := asks_timestamp E c w2).
  assert (later (io_trace i2) tr0) as Hl0 by (unfold tr0, asks_timestamp, load_local, read_file; apply later_app).
  assert (later (io_trace i) (io_trace i2)) as Hli2 by (eapply later_trans; [exact Hlt1|exact Hl2]).
  assert (later (io_trace i) tr0) as Hli0 by (eapply later_trans; [exact Hli2|exact Hl0]).
  pose proof (Hm _ _ Hli2 Hl0) as Hm2.
  assert (later tr0 (wtr (fst (refresh E c (mkWorld t0 i1))))) as Hask by (apply refresh_asks; [exact Hloc|exact Hrun1]). destruct (refresh E c (mkWorld t0 i1)) as [wx outx] eqn:Hwx. destruct (Hlive i1 t0 wx outx tr0 Hn Hwx Hli0 Hask) as (R & HR & Hts & Hall). rewrite <- Hwx in *. destruct (Hall k) as [Hsd Hup]; [lia|]. fold r in Hsd, Hup.
  destruct (Hready k) as (_ & _ & _ & _ & _ & Hcache); [lia|]. destruct (Hcache (under roots k R)) as (Hf1 & Hf2 & Hf3 & Hf4); [by apply elem_of_list_fmap_1|]. fold r in Hf1, Hf2, Hf3.
  assert (forall role Q, role <> "root" -> file_is c (io_disk i) role Q -> file_is c (io_disk i2) role Q) as Hk1.
  { intros role Q Hne HQ data. rewrite Hb1, Hb0 by done. apply HQ. }
  destruct (after_root E c r0 r now i1 i2 (under roots k R)) as (w1 & Href & Hl & Hutd & HI); try done.
  1-3: by apply Hk1.
  { intros name f Hf. assert (role_name_ok name) as [_ Hno] by (apply (serving_roles E c r0 r now tr0 (under roots k R) Hsd Hup _ _ Hf)). apply Hk1; [intros ->; apply Hno; clear; set_solver|]. intros d Hd. by apply (Hf4 name f). }
  exists k, R, i1, t0, w1, tr0. split; [done|]. pose proof (Hm _ _ Hli0 Hl). split; [unfold wtr in *; lia|]. split; [unfold wtr in *; lia|]. do 9 (split; [done|]). by exists w2.
Qed.

End Started.

Section Era.
Context {CR : Crypto} (E : env) (c : config) (r0 : metadata root_t).
(** what a session with one root leaves in the cache is fine for every other root *)
Lemma fits_across r r' E' now now' R R' i i' w : sound_release c r0 r now R -> now <= now' -> R' = R \/ newer R R' -> (forall name f, rel_roles R' !! name = Some f -> role_name_ok name) -> Inv E' c r (rel_pub R) now (rel_roles R) w ->
  (forall x, x <> "root" -> kept w (io_disk i !! cache_name c x) (io_disk i' !! cache_name c x) x) -> fits c r' R' now i -> fits c r' R' now' i'.
Proof.
  intros Hsd Hn Hnew Hnames (_ & Hts & Hsn & _ & Htg & Htop & _ & _) Hk (Hf1 & Hf2 & Hf3 & Hf4).
  pose proof Hsd as ((_ & _ & (_ & Hs1 & _) & (Hnm & _ & Hv2) & (_ & Hs2 & _) & (_ & _ & Hv3) & (_ & Hs3 & _)) & _ & _ & _ & _ & Hroles & _).
  assert (forall x, x ∈ ["root"; "timestamp"; "snapshot"] -> t_targets (w_trusted w) !! x = None) as Hno.
  { intros x Hx. destruct (t_targets (w_trusted w) !! x) as [m|] eqn:Em; [|done]. destruct (Htg _ _ Em) as (f & Hf & _). rewrite all_other in Hf by set_solver. destruct (Hroles _ _ Hf) as ([_ Hok] & _). set_solver. }
  split_and!.
  - intros data Hd. destruct (Hk "timestamp") as [Hq|(d & Hq & Hc)]; [done|apply Hf1; by rewrite <- Hq|]. assert (d = data) as -> by congruence.
    destruct Hc as [(_ & ts & Hdoc & Ht)|[([=] & _)|(m & _ & Hm)]]; [|rewrite Hno in Hm by set_solver; done]. assert (ts = pub_timestamp_md (rel_pub R)) as -> by congruence. exists (pub_timestamp_md (rel_pub R)).
    split; [done|]. split; [by eapply root_payload|]. intros _. destruct Hnew as [-> |Hnew]; [by left|right]. destruct Hnew as (H1 & H2 & _). split; [done|]. by exists (pub_snapshot_info (rel_pub R)).
  - intros data Hd. destruct (Hk "snapshot") as [Hq|(d & Hq & Hc)]; [done| |].
    { destruct (Hf2 data) as (sn & H1 & H2 & H3); [by rewrite <- Hq|]. exists sn. split; [done|]. split; [done|]. intros Hs. destruct (H3 Hs) as [->|[H4 H5]]; [by left|right]. split; [done|]. destruct H5 as [H5|H5]; [by left|right]. by apply (expired_later sn now). }
    assert (d = data) as -> by congruence. destruct Hc as [([=] & _)|[(_ & sn & Hdoc & Ht)|(m & _ & Hm)]]; [|rewrite Hno in Hm by set_solver; done]. assert (sn = pub_snapshot_md (rel_pub R)) as -> by congruence. exists (pub_snapshot_md (rel_pub R)).
    split; [done|]. split; [by eapply root_payload|]. intros _. destruct Hnew as [-> |Hnew]; [by left|]. destruct Hnew as (_ & _ & H3 & H4 & _).
    destruct (decide (sn_version (md_signed (pub_snapshot_md (rel_pub R))) = mf_version (pub_snapshot_info (rel_pub R')))) as [Hv|Hv]; [left; by apply H4|right; split; [done|by left]].
  - intros data Hd. destruct (Hk "targets") as [Hq|(d & Hq & Hc)]; [done| |].
    { intros Hm. destruct (Hf3 data) as (m & H1 & H2 & H3); [by rewrite <- Hq|done|]. exists m. split; [done|]. split; [done|]. intros Hs. destruct (H3 Hs) as [->|[H4|H4]]; [by left|by right; left|right; right]. by apply (expired_later m now). }
    assert (d = data) as -> by congruence. destruct Hc as [([=] & _)|[([=] & _)|(m & Hdoc & Hm)]]. assert (m = pub_targets_md (rel_pub R)) as -> by congruence. intros _. exists (pub_targets_md (rel_pub R)).
    split; [done|]. split; [by eapply root_payload|]. intros _. destruct Hnew as [-> |Hnew]; [by left|]. destruct Hnew as (_ & _ & _ & _ & H5 & _).
    destruct (decide (tg_version (md_signed (pub_targets_md (rel_pub R))) = mf_version (pub_targets_info (rel_pub R')))) as [Hv|Hv]; [left; by apply H5|by right; left].
  - intros name f data Hf Hd. destruct (Hnames _ _ Hf) as [_ Hok]. destruct (Hk name) as [Hq|(d & Hq & Hc)]; [set_solver| |].
    { intros Hm. destruct (Hf4 name f data Hf) as (m & H1 & H2 & H3); [by rewrite <- Hq|done|]. exists m. split; [done|]. split; [done|]. intros n0 fn Hfn Hs. destruct (H3 n0 fn Hfn Hs) as [->|[H4|H4]]; [by left|by right; left|right; right]. by apply (expired_later m now). }
    assert (d = data) as -> by congruence. destruct Hc as [(-> & _)|[(-> & _)|(m & Hdoc & Hm)]]; [set_solver..|]. destruct (Htg _ _ Hm) as (g & Hg & ->). rewrite all_other in Hg by set_solver.
    intros _. exists (rf_md g). split; [done|]. destruct (Hroles _ _ Hg) as (_ & _ & _ & _ & _ & _ & _ & Hp). split; [done|]. intros _ _ _ _. destruct Hnew as [-> |Hnew]; [left; congruence|]. destruct Hnew as (_ & _ & _ & _ & _ & H6).
    destruct (decide (tg_version (md_signed (rf_md g)) = mf_version (rf_info f))) as [Hv|Hv]; [left; by apply (H6 name)|by right; left].
Qed.

Context (roots : list (string * metadata root_t)) (m o n : trace -> nat) (clock : trace -> Z) (Rs : list release) (Hline : overlapping E c r0 roots m o n clock Rs) (Hloc : c_unsafe_local c = false).
Notation rk k := (root_number r0 roots k).
Notation ready_all := (ready_for_all E c r0 roots m n clock Rs).
Lemma era_roots start : roots_appear E c start r0 roots m.
Proof.
  destruct Hline as ((H1 & H2 & H3 & H4 & H5 & H6) & _). assert (forall tr, later [] tr) as Ha by (intros tr; by exists tr).
  split; [done|]. split; [intros tr tr' _; by apply H2|]. split; [intros tr i data r len _; by apply H3|]. split; [intros tr len _; by apply H4|]. done.
Qed.
Lemma era_number j k R R' : Rs !! j = Some R -> Rs !! k = Some R' -> pub_timestamp_md (rel_pub R) = pub_timestamp_md (rel_pub R') -> j = k.
Proof.
  intros Hj Hk Hq. destruct Hline as (_ & Hnew & _). destruct (Nat.lt_trichotomy j k) as [Hl|[?|Hl]]; [|done|].
  - destruct (Hnew j k R R' Hl Hj Hk) as [Hlt _]. rewrite Hq in Hlt. lia.
  - destruct (Hnew k j R' R Hl Hk Hj) as [Hlt _]. rewrite Hq in Hlt. lia.
Qed.
Lemma era_root j k : (j <= List.length roots)%nat -> (k <= List.length roots)%nat -> rk j = rk k -> j = k.
Proof.
  intros Hj Hk Hq. destruct Hline as (((r & Hu) & _) & _). pose proof (number_version r0 r roots j Hu Hj) as H1. pose proof (number_version r0 r roots k Hu Hk) as H2. rewrite Hq in H1. lia.
Qed.
Lemma newer_under k R R' : newer R R' -> newer (under roots k R) (under roots k R').
Proof. exact id. Qed.
Lemma era_session i : ready_all i -> in_time E c m o (clock (io_trace i)) i -> exists k j R i1 t w1 tr0, (k <= List.length roots)%nat /\ Rs !! j = Some R /\ sound_release c r0 (rk k) (clock (io_trace i)) (under roots k R) /\ stays_up E c (rk k) (under roots k R) tr0 /\ later tr0 (wtr w1) /\
  (m (io_trace i) <= k <= m (wtr w1))%nat /\ (n (io_trace i) <= j <= n (wtr w1))%nat /\ updater_new E c (clock (io_trace i)) i = (i1, Ok t) /\ refresh E c (mkWorld t i1) = (w1, Ok tt) /\ up_to_date (rk k) (rel_pub R) (w_trusted w1) /\
  Inv (moved tr0 E) c (rk k) (rel_pub (under roots k R)) (clock (io_trace i)) (rel_roles (under roots k R)) w1 /\
  (forall w2, used E c R w1 w2 -> ready_all (w_io w2) /\ later (wtr w1) (wtr w2)) /\
  j = n tr0 /\ exists wr, load_root E c (mkWorld t i1) = (wr, Ok tt) /\ tr0 = asks_timestamp E c wr.
Proof.
  intros Hready Htime. destruct Hline as (Hroots0 & Hord & Hnames & Hmono & Hlive). pose proof (era_roots (io_trace i)) as Hroots. pose proof Hroots as (_ & Hm & _).
  destruct (era_started E c r0 roots m (clock (io_trace i)) (drop (n (io_trace i)) Rs) i Hroots Hloc Hready) as (k & R & i1 & t & w1 & tr0 & HR & Hk & Hkl & Hsd & Hup & Hann & Hl0 & Hl1 & Hnew & Href & Hutd & HI & Hwr).
  { intros i1 t w1 out tr Hnew Href Htr Htr'. pose proof (Htime i1 t w1 out tr Hnew Href Htr Htr') as Ho. destruct (Hlive tr) as (R & HR & Hann & Hall). destruct (Hmono _ _ Htr) as [Hn Hc]. exists R. split; [|split; [done|]].
    - apply (elem_of_list_lookup_2 _ (n tr - n (io_trace i))%nat). rewrite lookup_drop. by replace (n (io_trace i) + (n tr - n (io_trace i)))%nat with (n tr) by lia.
    - intros k Hk. destruct (Hall k) as [Hs Hu]; [lia|]. split; [by apply (sound_before c r0 _ _ (clock tr))|done]. }
  pose proof HR as (j0 & Hj)%elem_of_list_lookup. rewrite lookup_drop in Hj. set (j := (n (io_trace i) + j0)%nat) in *.
  assert (j = n tr0) as Hjn.
  { destruct (Hlive tr0) as (R2 & HR2 & Hann2 & Hall2). assert (document (pub_timestamp (rel_pub R2)) (pub_timestamp_md (rel_pub R2))) as [Hd2 _].
    { assert (o tr0 <= m (io_trace i))%nat as Ho by (by apply (Htime i1 t w1 (Ok tt))). pose proof (Hm _ _ (later_refl _) Hl0). destruct (Hall2 (m tr0)) as [((_ & _ & (Hd & _) & _) & _) _]; [lia|]. exact Hd. }
    destruct Hsd as ((_ & _ & ([Hd1 _] & _ & _) & _) & _). apply (era_number j (n tr0) R R2 Hj HR2).
    set (len := Z.max (Z.of_nat (String.length (pub_timestamp (rel_pub R)))) (Z.of_nat (String.length (pub_timestamp (rel_pub R2))))). pose proof (Hann len ltac:(lia)) as H1. pose proof (Hann2 len ltac:(lia)) as H2. assert (pub_timestamp (rel_pub R) = pub_timestamp (rel_pub R2)) as Hq by congruence. rewrite <- Hq in Hd2. cbn [under rel_pub pub_timestamp pub_timestamp_md] in Hd1. congruence. }
  exists k, j, R, i1, t, w1, tr0. do 5 (split; [done|]). split; [exact Hk|]. split; [split; [lia|]; rewrite Hjn; by apply Hmono|]. do 2 (split; [done|]). split; [exact Hutd|]. split; [done|]. split; [|done].
  intros w2 Hused. pose proof (used_under E c roots k R w1 w2 Hused) as Hused'. destruct (live_used E c r0 (rk k) _ (under roots k R) tr0 w1 w2 Hsd Hup Hused' Hl1 HI) as [Hl2 HI2].
  assert (later (wtr w1) (wtr w2)) as Hl12.
  { clear -Hused. induction Hused as [|path w w1 w2 o _ Hinfo _ IH|tf data fp p w w1 w2 o _ Hfile Hown Hdl _ IH]; [apply later_refl|..]; (eapply later_trans; [|exact IH]).
    - destruct (when_info E c (wtr w) path w (later_refl _)) as [_ H]. by rewrite Hinfo in H.
    - destruct (when_download E c (wtr w) tf fp "" w (later_refl _)) as [_ H]. by rewrite Hdl in H. }
  split; [|done]. assert (later (io_trace i) (wtr w2)) as Hli by (eapply later_trans; [exact Hl0|]; by eapply later_trans).
  destruct (Hmono _ _ Hli) as [Hni Hclock]. destruct (Hmono _ _ Hl2) as [Hn2 _]. pose proof (Hm _ _ (later_refl _) Hli) as Hm2.
  assert (is_Some (t_targets (w_trusted w1) !! "targets")) as Htop.
  { destruct HI as (_ & _ & _ & _ & _ & Htop & _). by exists (pub_targets_md (rel_pub R)). }
  pose proof (used_stored E c R w1 w2 Hused Htop) as Hst.
  intros k' Hk'. destruct (Hready k') as (Ha1 & Ha2 & Ha3 & Ha4 & _ & Hcache); [unfold wtr in *; lia|].
  split; [exact Ha1|]. split; [exact Ha2|]. split; [exact Ha3|]. split; [exact Ha4|]. split; [by destruct HI2 as (_ & _ & _ & _ & _ & _ & Hw & _)|].
  intros R' (R1 & -> & HR1)%elem_of_list_fmap. pose proof HR1 as (j' & Hj')%elem_of_list_lookup. rewrite lookup_drop in Hj'. set (jj := (n (io_trace (w_io w2)) + j')%nat) in *. assert (j <= jj)%nat as Hjj by (unfold jj, wtr in *; lia).
  assert (forall now x, fits c (rk k') (under roots k R1) now x -> fits c (rk k') (under roots k' R1) now x) as Hsame by (intros now x Hx; exact Hx). assert (forall now x, fits c (rk k') (under roots k' R1) now x -> fits c (rk k') (under roots k R1) now x) as Hsame' by (intros now x Hx; exact Hx).
  apply Hsame. apply (fits_across (rk k) (rk k') (moved tr0 E) (clock (io_trace i)) _ (under roots k R) (under roots k R1) i (w_io w2) w2 Hsd Hclock).
  - destruct (decide (j = jj)) as [Hq|Hq]; [left; rewrite <- Hq in Hj'; assert (R1 = R) as -> by congruence; done|right; apply newer_under, (Hord j jj); [lia|done|done]].
  - intros name f Hf. apply (Hnames R1 name f); [by apply (elem_of_list_lookup_2 _ jj)|exact Hf].
  - done.
  - intros x Hx. eapply kept_more; [exact Hst|]. rewrite <- (new_cached E c _ _ _ _ x Hnew Hx). apply (refresh_kept E c (mkWorld t i1) w1 x); [exact Hloc|done|done].
  - apply Hsame'. apply Hcache. apply elem_of_list_fmap_1. apply (elem_of_list_lookup_2 _ (jj - n (io_trace i))%nat). rewrite lookup_drop. unfold wtr in Hni. by replace (n (io_trace i) + (jj - n (io_trace i)))%nat with jj by (unfold jj; lia).
Qed.
(** the numbers of roots and releases in order *)
Definition in_order (p q : nat * nat) : Prop := (p.1 <= q.1 /\ p.2 <= q.2)%nat.
Lemma era_life i ks i' : ready_all i -> long_life E c r0 roots m o clock Rs i ks i' -> ready_all i' /\ later (io_trace i) (io_trace i') /\ (forall p, p ∈ ks -> in_order p (m (io_trace i'), n (io_trace i'))) /\ (forall a b p q, ks !! a = Some p -> ks !! b = Some q -> (a <= b)%nat -> in_order p q).
Proof.
  intros Hi. induction 1 as [|ks i0 i1 t w1 w2 k j R Hlife IH Htime Hnew Href Hkl HR Hutd Hused].
  - split; [done|]. split; [apply later_refl|]. split; [set_solver|]. intros a b p q [=].
  - destruct IH as (Hr0 & Hl0 & Hks & Hord). destruct (era_session i0 Hr0 Htime) as (k2 & j2 & R2 & i2 & t2 & w3 & tr0 & Hkl2 & HR2 & Hsd & Hup & Hl1 & Hk & Hj & Hnew2 & Href2 & Hutd2 & HI & Hgo & _).
    rewrite Hnew in Hnew2. injection Hnew2 as <- <-. rewrite Href in Href2. injection Href2 as <-.
    assert (j2 = j) as ->. { apply (era_number j2 j R2 R HR2 HR). destruct Hutd as (_ & H1 & _), Hutd2 as (_ & H2 & _). congruence. }
    assert (k2 = k) as ->. { apply era_root; [done|done|]. destruct Hutd as (H1 & _), Hutd2 as (H2 & _). congruence. }
    assert (R2 = R) as -> by congruence. destruct (Hgo w2 Hused) as [Hr2 Hl2]. pose proof (era_roots []) as (_ & Hm & _). destruct Hline as (_ & _ & _ & Hmono & _). assert (forall tr, later [] tr) as Hany by (intros tr; by exists tr).
    destruct (Hmono _ _ Hl2) as [Hn2 _]. pose proof (Hm _ _ (Hany _) Hl2) as Hm2. change (io_trace (w_io w2)) with (wtr w2).
    assert (later (io_trace i0) (wtr w2)) as Hl3.
    { eapply later_trans; [|exact Hl2]. destruct (when_new E c (io_trace i0) (clock (io_trace i0)) i0 (later_refl _)) as [_ Hx]. rewrite Hnew in Hx. eapply later_trans; [exact Hx|]. destruct (when_refresh E c (io_trace i1) (mkWorld t i1) (later_refl _)) as [_ Hy]. by rewrite Href in Hy. }
    destruct (Hmono _ _ Hl3) as [Hn3 _]. pose proof (Hm _ _ (Hany _) Hl3) as Hm3. split; [done|]. split; [by eapply later_trans|]. split.
    + intros p [Hp|Hp%elem_of_list_singleton]%elem_of_app; [destruct (Hks _ Hp) as [H1 H2]; cbn in H1, H2|subst p]; split; cbn; lia.
    + intros a b p q Ha Hb Hab. apply lookup_app_Some in Hb as [Hb|[Hlb Hb]].
      * assert (a < List.length ks)%nat by (apply lookup_lt_Some in Hb; lia). rewrite lookup_app_l in Ha by done. by apply (Hord a b).
      * apply list_lookup_singleton_Some in Hb as [_ <-]. apply lookup_app_Some in Ha as [Ha|[_ Ha]]; [apply elem_of_list_lookup_2, Hks in Ha as [H1 H2]; cbn in H1, H2; split; cbn; lia|]. apply list_lookup_singleton_Some in Ha as [_ <-]. done.
Qed.
End Era.
