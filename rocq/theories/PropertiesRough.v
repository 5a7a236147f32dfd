(** * A client recovers from interruptions while roots and releases are published (C127) *)
From stdpp Require Import base gmap strings list.
From Coq Require Import ZArith Lia Ascii String.
From Verif Require Import GoBase GoStr GoTime Types Marshal Keys Metadata TrustedMetadata Fetcher Updater SpecBasic SpecSig SpecDeleg SpecTrusted SpecUpdater SpecReach SpecLive SpecRotate SpecEra SpecCut SpecRough.
From Verif Require Import BasicProofs TrustedProofs LiveProofs LifeProofs RotateProofs EraProofs CutProofs RoughProofs Toy Examples ExamplesUpdater ExamplesHonest PropertiesLive PropertiesRotate PropertiesEra PropertiesCut.
Open Scope Z_scope.

(** C127: a client is used again and again, and may be interrupted after any event of a session, also in the middle of a
    write, while the repository publishes new roots and new releases and gives up old roots.  If the next session ends
    Refresh before the root that was the newest at its start is given up, New and Refresh succeed, whatever the
    interruptions left in the cache.  It sees a root and a release that are not older than any it saw before, nor than the
    newest at its start, and serves all of that release.  Hypotheses: SpecEra.v, SpecRough.v. *)
Theorem C127_recovers {CR : Crypto} E c r0 roots m o n clock Rs i ks i' : c_unsafe_local c = false -> overlapping E c r0 roots m o n clock Rs -> ready_for_all E c r0 roots m n clock Rs i -> rough_life E c r0 roots m o clock Rs i ks i' ->
  (forall a b k j k' j', ks !! a = Some (k, j) -> ks !! b = Some (k', j') -> (a <= b)%nat -> (k <= k' /\ j <= j')%nat) /\
  (in_time E c m o (clock (io_trace i')) i' ->
   exists k j R i1 t w1, Rs !! j = Some R /\ updater_new E c (clock (io_trace i')) i' = (i1, Ok t) /\ refresh E c (mkWorld t i1) = (w1, Ok tt) /\ up_to_date (root_number r0 roots k) (rel_pub R) (w_trusted w1) /\
     (forall k' j', (k', j') ∈ ks -> (k' <= k /\ j' <= j)%nat) /\ (m (io_trace i') <= k <= m (io_trace (w_io w1)))%nat /\ (n (io_trace i') <= j <= n (io_trace (w_io w1)))%nat /\
     forall w, used E c R w1 w -> serves_release E c (root_number r0 roots k) (clock (io_trace i')) R w).
Proof.
  intros Hloc Hline Hi Hlife. destruct (rough_life_ready E c r0 roots m o n clock Rs Hline Hloc i ks i' Hi Hlife) as (Hr & _ & Hks & Hord). split; [intros a b k j k' j' Ha Hb Hab; exact (Hord a b _ _ Ha Hb Hab)|].
  intros Htime. destruct (era_session E c r0 roots m o n clock Rs Hline Hloc i' Hr Htime) as (k & j & R & i1 & t & w1 & tr0 & Hkl & HR & Hsd & Hup & Hl & Hk & Hj & Hnew & Href & Hutd & HI & _). exists k, j, R, i1, t, w1. do 4 (split; [done|]).
  split; [intros k' j' Hin; destruct (Hks _ Hin) as [H1 H2]; cbn in H1, H2; lia|]. split; [exact Hk|]. split; [exact Hj|]. intros w Hused. apply (used_under E c roots k) in Hused.
  destruct (live_used E c r0 _ _ (under roots k R) tr0 w1 w Hsd Hup Hused Hl HI) as [Hl2 HI2]. exact (inv_serves E c r0 _ _ (under roots k R) tr0 w Hsd Hup Hl2 HI2).
Qed.
Print Assumptions C127_recovers.

(** ** Concrete interruptions *)
Lemma gen_rough {CR : Crypto} E c r0 roots m o n clock Rs q (tidied : disk -> disk) : c_unsafe_local c = false -> overlapping E c r0 roots m o n clock Rs -> ready_for_all E c r0 roots m n clock Rs no_files ->
  in_time E c m o (clock []) no_files -> (forall d role, tidied d !! cache_name c role = d !! cache_name c role) -> (forall d, disk_works E c (tidied d)) -> (m [] <= List.length roots)%nat ->
  exists i1 t w1, updater_new E c (clock []) no_files = (i1, Ok t) /\ refresh E c (mkWorld t i1) = (w1, Ok tt) /\
    rough_life E c r0 roots m o clock Rs no_files [] (mkIos (tidied (replay ∅ (take q (io_trace (w_io w1))))) (take q (io_trace (w_io w1)))).
Proof.
  intros Hloc Hline Hi Htime Ht1 Ht2 Hm. destruct (era_session E c r0 roots m o n clock Rs Hline Hloc no_files Hi Htime) as (k & j & R & i1 & t & w1 & tr0 & Hkl & HR & _ & _ & _ & _ & _ & Hnew & Href & Hutd & _).
  exists i1, t, w1. split; [exact Hnew|]. split; [exact Href|]. set (evs := io_trace (w_io w1)).
  eapply (rough_cut _ _ _ _ _ _ _ _ _ [] no_files i1 t w1 w1 k j R evs (take q evs) (replay ∅ (take q evs))); [apply rough_begins|exact Htime|exact Hnew|exact Href|exact Hkl|exact HR|exact Hutd|apply used_not|reflexivity| |apply Ht1|apply Ht2|].
  - exists (drop q evs). split; [by rewrite take_drop|]. left. reflexivity.
  - exists []. by rewrite app_nil_r.
Qed.
Lemma gen_rough_case before after d2 dx ts sn tg ts' sn' tg' T q : gen_ok ex_config before after d2 dx ts sn tg ts' sn' tg' true = true -> newer_b ts sn tg ts' sn' [] [] = true -> c_unsafe_local ex_config = false ->
  (forall d, disk_works (phased before after T) ex_config (cleaned d)) ->
  exists r0 r Rs i1 t w1, overlapping (phased before after T) ex_config r0 [(d2, r)] (lv_number T) (ro_oldest true T) (lv_number T) (fun _ => ex_now) Rs /\
    ready_for_all (phased before after T) ex_config r0 [(d2, r)] (lv_number T) (lv_number T) (fun _ => ex_now) Rs no_files /\
    updater_new (phased before after T) ex_config ex_now no_files = (i1, Ok t) /\ refresh (phased before after T) ex_config (mkWorld t i1) = (w1, Ok tt) /\
    rough_life (phased before after T) ex_config r0 [(d2, r)] (lv_number T) (ro_oldest true T) (fun _ => ex_now) Rs no_files [] (mkIos (cleaned (replay ∅ (take q (io_trace (w_io w1))))) (take q (io_trace (w_io w1)))).
Proof.
  intros Hb Hn Hloc Hw. destruct (gen_era _ _ _ _ _ _ _ _ _ _ _ T Hb Hn) as (r0 & r & Rs & H1 & H2 & _).
  assert (lv_number T [] <= List.length [(d2, r)])%nat as Hm by (unfold lv_number; destruct (Nat.ltb _ _); cbn; lia).
  destruct (gen_rough _ _ _ _ _ _ _ _ _ q cleaned Hloc H1 H2 (C126_in_time _ T _ _) cleaned_cached Hw Hm) as (i1 & t & w1 & H3 & H4 & H5). exists r0, r, Rs, i1, t, w1. split; [exact H1|]. split; [exact H2|]. split; [exact H3|]. split; [exact H4|exact H5].
Qed.
(** all hypotheses of C127_recovers, for a root that appears after [T] events and a session that is interrupted after [q] *)
Example C127_case T q : exists r0 r Rs i1 t w1, overlapping (ro_env [pkB; pkC] T) ex_config r0 [(bytes_of ro_root, r)] (lv_number T) (ro_oldest true T) (lv_number T) (fun _ => ex_now) Rs /\
  ready_for_all (ro_env [pkB; pkC] T) ex_config r0 [(bytes_of ro_root, r)] (lv_number T) (lv_number T) (fun _ => ex_now) Rs no_files /\
  updater_new (ro_env [pkB; pkC] T) ex_config ex_now no_files = (i1, Ok t) /\ refresh (ro_env [pkB; pkC] T) ex_config (mkWorld t i1) = (w1, Ok tt) /\
  rough_life (ro_env [pkB; pkC] T) ex_config r0 [(bytes_of ro_root, r)] (lv_number T) (ro_oldest true T) (fun _ => ex_now) Rs no_files [] (mkIos (cleaned (replay ∅ (take q (io_trace (w_io w1))))) (take q (io_trace (w_io w1)))).
Proof. refine (gen_rough_case _ _ _ _ _ _ _ _ _ _ T q ro_both ro_newer_both eq_refl _). intros d. apply cleaned_works; reflexivity. Qed.
(** A first session is interrupted after any of its events, and root 2 and release 5 appear during it (after [T] events):
    every second session succeeds.  With root 1 it asked for the roots before root 2 appeared. *)
Definition c127_second (pks : list pubkey) (T : nat) :=
  match session_of ex_config (ro_env pks T) no_files with
  | Some (_, i) => remove_dups (map (fun q => let evs := take q (io_trace i) in option_map fst (session_of ex_config (ro_env pks T) (mkIos (cleaned (replay ∅ evs)) evs))) (seq 0 (S (List.length (io_trace i)))))
  | None => []
  end.
Example C127_runs : map (c127_second [pkB; pkC]) [6; 22]%nat =
  [[Some (1, Some 5, Some 5, [("targets", 5)]); Some (2, Some 5, Some 5, [("targets", 5)])];
   [Some (1, Some 4, Some 4, [("targets", 4)]); Some (1, Some 5, Some 5, [("targets", 5)]); Some (2, Some 5, Some 5, [("targets", 5)])]].
Proof. vm_compute. reflexivity. Qed.
