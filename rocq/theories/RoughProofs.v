(** * Proofs about interrupted sessions with a repository that publishes new roots *)
From stdpp Require Import base gmap strings list.
From Coq Require Import ZArith Lia Ascii String.
From Verif Require Import GoBase GoStr GoTime Types Marshal Keys Metadata TrustedMetadata Fetcher Updater SpecBasic SpecSig SpecDeleg SpecTrusted SpecUpdater SpecReach SpecLive SpecRotate SpecEra SpecCut SpecRough.
From Verif Require Import BasicProofs TrustedProofs UpdaterProofs WalkProofs RefreshProofs HonestProofs ReachProofs LiveProofs LifeProofs RotateProofs CutProofs EraProofs.
Open Scope Z_scope.

(** a cache that stays the same fits as before *)
Lemma fits_quiet {CR : Crypto} (c : config) (r : metadata root_t) R now now' i i' : now <= now' -> (forall name f, rel_roles R !! name = Some f -> role_name_ok name) -> (forall x, x <> "root" -> io_disk i' !! cache_name c x = io_disk i !! cache_name c x) -> fits c r R now i -> fits c r R now' i'.
Proof.
  intros Hn Hnames Hk (Hf1 & Hf2 & Hf3 & Hf4). split_and!.
  - intros data Hd. rewrite Hk in Hd by done. by apply Hf1.
  - intros data Hd. rewrite Hk in Hd by done. destruct (Hf2 data Hd) as (sn & H1 & H2 & H3). exists sn. split; [done|]. split; [done|]. intros Hs. destruct (H3 Hs) as [->|[H4 H5]]; [by left|right]. split; [done|]. destruct H5 as [H5|H5]; [by left|right]. by apply (expired_later sn now).
  - intros data Hd. rewrite Hk in Hd by done. intros Hm. destruct (Hf3 data Hd Hm) as (m & H1 & H2 & H3). exists m. split; [done|]. split; [done|]. intros Hs. destruct (H3 Hs) as [->|[H4|H4]]; [by left|by right; left|right; right]. by apply (expired_later m now).
  - intros name f data Hf Hd. destruct (Hnames _ _ Hf) as [_ Hok]. rewrite Hk in Hd by set_solver. intros Hm. destruct (Hf4 name f data Hf Hd Hm) as (m & H1 & H2 & H3). exists m. split; [done|]. split; [done|]. intros n0 fn Hfn Hs. destruct (H3 n0 fn Hfn Hs) as [->|[H4|H4]]; [by left|by right; left|right; right]. by apply (expired_later m now).
Qed.

Section Rough.
Context {CR : Crypto} (E : env) (c : config) (r0 : metadata root_t).
Context (roots : list (string * metadata root_t)) (m o n : trace -> nat) (clock : trace -> Z) (Rs : list release) (Hline : overlapping E c r0 roots m o n clock Rs) (Hloc : c_unsafe_local c = false).
Notation rk k := (root_number r0 roots k).
Notation ready_all := (ready_for_all E c r0 roots m n clock Rs).
Lemma rough_ready i i1 t w1 w2 k j R evs evs1 d d' tr : ready_all i -> in_time E c m o (clock (io_trace i)) i -> updater_new E c (clock (io_trace i)) i = (i1, Ok t) -> refresh E c (mkWorld t i1) = (w1, Ok tt) ->
  (k <= List.length roots)%nat -> Rs !! j = Some R -> up_to_date (rk k) (rel_pub R) (w_trusted w1) -> used E c R w1 w2 -> happened i (w_io w2) evs -> cut (io_disk i) evs evs1 d ->
  (forall role, d' !! cache_name c role = d !! cache_name c role) -> disk_works E c d' -> later (io_trace i ++ evs1) tr -> ready_all (mkIos d' tr).
Proof.
  intros Hready Htime Hnew Href Hkl HR Hutd Hused Hev Hcut Hd' Hw Hl. destruct (era_session E c r0 roots m o n clock Rs Hline Hloc i Hready Htime) as (k2 & j2 & R2 & i2 & t2 & w3 & tr0 & Hkl2 & HR2 & Hsd & Hup & Hl1 & Hk & Hj & Hnew2 & Href2 & Hutd2 & HI & Hgo & Hjn & wr & Hroot & Htr0).
  rewrite Hnew in Hnew2. injection Hnew2 as <- <-. rewrite Href in Href2. injection Href2 as <-.
  assert (j2 = j) as ->. { apply (era_number E c r0 roots m o n clock Rs Hline j2 j R2 R HR2 HR). destruct Hutd as (_ & H1 & _), Hutd2 as (_ & H2 & _). congruence. }
  assert (k2 = k) as ->. { apply (era_root E c r0 roots m o n clock Rs Hline); [done|done|]. destruct Hutd as (H1 & _), Hutd2 as (H2 & _). congruence. }
  assert (R2 = R) as -> by congruence.
  pose proof (used_under E c roots k R w1 w2 Hused) as Hused'. destruct (live_used E c r0 (rk k) _ (under roots k R) tr0 w1 w2 Hsd Hup Hused' Hl1 HI) as [Hl2 HI2].
  assert (is_Some (t_targets (w_trusted w1) !! "targets")) as Htop.
  { destruct HI as (_ & _ & _ & _ & _ & Htop & _). by exists (pub_targets_md (rel_pub R)). }
  assert (forall x, x ∈ ["root"; "timestamp"; "snapshot"] -> t_targets (w_trusted w2) !! x = None) as Hno.
  { pose proof Hsd as (_ & _ & _ & _ & _ & Hroles & _). pose proof HI2 as (_ & _ & _ & _ & Htg & _). intros x Hx. destruct (t_targets (w_trusted w2) !! x) as [md|] eqn:Em; [|done]. destruct (Htg _ _ Em) as (f & Hf & _). rewrite all_other in Hf by set_solver. destruct (Hroles _ _ Hf) as ([_ Hok] & _). set_solver. }
  destruct (session_atomic E c _ i i1 t w1 w2 R wr Hloc Hnew Href Hused Htop (Hno "timestamp" ltac:(set_solver)) (Hno "snapshot" ltac:(set_solver)) Hroot) as (iq & Hiq & [(evsq & [Hq1 Hq2] & Hqc) Hqs] & (evsr & [Hr1 Hr2] & Hrc)).
  assert (evs = evsq ++ evsr) as ->. { unfold happened in *. rewrite Hr1, Hq1 in Hev. rewrite <- app_assoc in Hev. by apply app_inv_head in Hev. }
  pose proof (era_roots E c r0 roots m o n clock Rs Hline (io_trace i)) as (_ & Hm & _). pose proof Hline as (_ & Hord & Hnames & Hmono & _). assert (later (io_trace i) tr) as Hli by (eapply later_trans; [|exact Hl]; by exists evs1). destruct (Hmono _ _ Hli) as [Hni Hclock]. pose proof (Hm _ _ (later_refl _) Hli) as Hm2.
  pose proof (used_stored E c R w1 w2 Hused Htop) as Hst. intros k' Hk'. cbn [io_trace] in Hk'. destruct (Hready k') as (Ha1 & Ha2 & Ha3 & Ha4 & _ & Hcache); [lia|]. split; [exact Ha1|]. split; [exact Ha2|]. split; [exact Ha3|]. split; [exact Ha4|]. split; [exact Hw|]. cbn [io_trace io_disk].
  intros R' (R1 & -> & HR1)%elem_of_list_fmap. pose proof HR1 as (j' & Hj')%elem_of_list_lookup. rewrite lookup_drop in Hj'. set (jj := (n tr + j')%nat) in *.
  assert (fits c (rk k') (under roots k' R1) (clock (io_trace i)) i) as Hfit.
  { apply Hcache. apply elem_of_list_fmap_1. apply (elem_of_list_lookup_2 _ (jj - n (io_trace i))%nat). rewrite lookup_drop. by replace (n (io_trace i) + (jj - n (io_trace i)))%nat with jj by lia. }
  assert (forall name f, rel_roles R1 !! name = Some f -> role_name_ok name) as Hnames1 by (intros name f; apply Hnames; by apply (elem_of_list_lookup_2 _ jj)).
  assert (fits c (rk k') (under roots k' R1) (clock tr) (mkIos d' tr)) as Hgoal; [|exact Hgoal]. apply cut_app in Hcut as [Hcut|(b1 & -> & Hcut)].
  - apply (fits_quiet c (rk k') (under roots k' R1) (clock (io_trace i)) _ i); [done|exact Hnames1| |done]. intros x Hx. cbn [io_disk]. rewrite Hd'. apply cut_crash in Hcut. destruct (Hqc _ Hcut x Hx) as [?|Hq]; [done|]. rewrite Hq. by apply Hqs.
  - assert (later tr0 tr) as Hlt. { eapply later_trans; [|exact Hl]. exists b1. rewrite Htr0, <- Hiq. unfold happened in Hq1. by rewrite Hq1, app_assoc. }
    destruct (Hmono _ _ Hlt) as [Hn0 _]. assert (j <= jj)%nat as Hjj by (unfold jj; lia).
    assert (forall now x, fits c (rk k') (under roots k R1) now x -> fits c (rk k') (under roots k' R1) now x) as Hsame by (intros now x Hx; exact Hx). assert (forall now x, fits c (rk k') (under roots k' R1) now x -> fits c (rk k') (under roots k R1) now x) as Hsame' by (intros now x Hx; exact Hx).
    apply Hsame. apply (fits_across c r0 (rk k) (rk k') (moved tr0 E) (clock (io_trace i)) _ (under roots k R) (under roots k R1) i _ w2 Hsd Hclock).
    + destruct (decide (j = jj)) as [Hq|Hq]; [left; rewrite <- Hq in Hj'; assert (R1 = R) as -> by congruence; done|right; apply newer_under, (Hord j jj); [lia|done|done]].
    + exact Hnames1.
    + done.
    + intros x Hx. cbn [io_disk]. rewrite Hd'. apply cut_crash in Hcut. rewrite <- Hq2 in Hcut. destruct (Hrc _ Hcut x Hx) as [Hq|Hq]; rewrite Hq; [left; by apply Hqs|]. change (kept w2 (io_disk i !! cache_name c x) (cached c w2 x) x).
      eapply kept_more; [exact Hst|]. rewrite <- (new_cached E c _ _ _ _ x Hnew Hx). by apply (refresh_kept E c (mkWorld t i1) w1 x).
    + by apply Hsame'.
Qed.
Lemma rough_life_ready i ks i' : ready_all i -> rough_life E c r0 roots m o clock Rs i ks i' -> ready_all i' /\ later (io_trace i) (io_trace i') /\ (forall p, p ∈ ks -> in_order p (m (io_trace i'), n (io_trace i'))) /\ (forall a b p q, ks !! a = Some p -> ks !! b = Some q -> (a <= b)%nat -> in_order p q).
Proof.
  pose proof (era_roots E c r0 roots m o n clock Rs Hline []) as (_ & Hm & _). pose proof Hline as (_ & _ & _ & Hmono & _). assert (forall tr, later [] tr) as Hany by (intros tr; by exists tr).
  intros Hi. induction 1 as [|ks i0 i1 t w1 w2 k j R Hlife IH Htime Hnew Href Hkl HR Hutd Hused|ks i0 i1 t w1 w2 k j R evs evs1 d d' tr Hlife IH Htime Hnew Href Hkl HR Hutd Hused Hev Hcut Hd' Hw Hl].
  - split; [done|]. split; [apply later_refl|]. split; [set_solver|]. intros a b p q [=].
  - destruct IH as (Hr0 & Hl0 & Hks & Hord). assert (long_life E c r0 roots m o clock Rs i0 ([] ++ [(k, j)]) (w_io w2)) as Hone by (eapply long_again; [apply long_begins|done..]).
    destruct (era_session E c r0 roots m o n clock Rs Hline Hloc i0 Hr0 Htime) as (k2 & j2 & R2 & i2 & t2 & w3 & tr0 & Hkl2 & HR2 & _ & _ & _ & Hk & Hj & Hnew2 & Href2 & Hutd2 & _).
    rewrite Hnew in Hnew2. injection Hnew2 as <- <-. rewrite Href in Href2. injection Href2 as <-.
    assert (j2 = j) as ->. { apply (era_number E c r0 roots m o n clock Rs Hline j2 j R2 R HR2 HR). destruct Hutd as (_ & H1 & _), Hutd2 as (_ & H2 & _). congruence. }
    assert (k2 = k) as ->. { apply (era_root E c r0 roots m o n clock Rs Hline); [done|done|]. destruct Hutd as (H1 & _), Hutd2 as (H2 & _). congruence. }
    destruct (era_life E c r0 roots m o n clock Rs Hline Hloc i0 _ _ Hr0 Hone) as (Hr2 & Hl2 & Hk2 & _). destruct (Hk2 (k, j) ltac:(clear; set_solver)) as [Hk3 Hj3]. cbn in Hk3, Hj3.
    destruct (Hmono _ _ Hl2) as [Hn2 _]. pose proof (Hm _ _ (Hany _) Hl2) as Hm2. split; [done|]. split; [by eapply later_trans|]. split.
    + intros p [Hp|Hp%elem_of_list_singleton]%elem_of_app; [destruct (Hks _ Hp) as [H1 H2]; cbn in H1, H2|subst p]; split; cbn; lia.
    + intros a b p q Ha Hb Hab. apply lookup_app_Some in Hb as [Hb|[Hlb Hb]].
      * assert (a < List.length ks)%nat by (apply lookup_lt_Some in Hb; lia). rewrite lookup_app_l in Ha by done. by apply (Hord a b).
      * apply list_lookup_singleton_Some in Hb as [_ <-]. apply lookup_app_Some in Ha as [Ha|[_ Ha]]; [apply elem_of_list_lookup_2, Hks in Ha as [H1 H2]; cbn in H1, H2; split; cbn; lia|]. apply list_lookup_singleton_Some in Ha as [_ <-]. done.
  - destruct IH as (Hr0 & Hl0 & Hks & Hord). assert (later (io_trace i0) tr) as Hl1 by (eapply later_trans; [|exact Hl]; by exists evs1). destruct (Hmono _ _ Hl1) as [Hn1 _]. pose proof (Hm _ _ (Hany _) Hl1) as Hm1.
    split; [by apply (rough_ready i0 i1 t w1 w2 k j R evs evs1 d)|]. split; [by eapply later_trans|]. split; [|done]. intros p [H1 H2]%Hks. cbn in H1, H2. split; cbn; lia.
Qed.
End Rough.
