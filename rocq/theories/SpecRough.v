(** * Clients whose sessions are interrupted while the repository publishes roots and releases (C127) *)
From stdpp Require Import base gmap strings list.
From Coq Require Import ZArith Ascii String.
From Verif Require Import GoBase GoStr GoTime Types Marshal Keys Metadata TrustedMetadata Fetcher Updater SpecBasic SpecSig SpecDeleg SpecTrusted SpecUpdater SpecReach SpecLive SpecRotate SpecEra SpecCut.
Open Scope Z_scope.

Section SpecRough.
Context {CR : Crypto} (E : env) (c : config).
(** The client is started again and again, each time in time.  It refreshes and is used, for a while; or it is interrupted,
    after any of the events of such a session: also while it stores one of several new root files.  Before the next start
    other things may happen to the disk and in the world ([tr]): more roots and releases may be published, and older roots
    given up.  But the cached metadata files stay as they are, and left-over temporary files are gone.  [ks] are the
    numbers of the roots and releases that the uninterrupted sessions saw, the latest last. *)
Inductive rough_life (r0 : metadata root_t) (roots : list (string * metadata root_t)) (m o : trace -> nat) (clock : trace -> Z) (Rs : list release) (i : ios) : list (nat * nat) -> ios -> Prop :=
  | rough_begins : rough_life r0 roots m o clock Rs i [] i
  | rough_again ks i0 i1 t w1 w2 k j R : rough_life r0 roots m o clock Rs i ks i0 -> in_time E c m o (clock (io_trace i0)) i0 -> updater_new E c (clock (io_trace i0)) i0 = (i1, Ok t) -> refresh E c (mkWorld t i1) = (w1, Ok tt) ->
      (k <= List.length roots)%nat -> Rs !! j = Some R -> up_to_date (root_number r0 roots k) (rel_pub R) (w_trusted w1) -> used E c R w1 w2 -> rough_life r0 roots m o clock Rs i (app ks [(k, j)]) (w_io w2)
  | rough_cut ks i0 i1 t w1 w2 k j R evs evs1 d d' tr : rough_life r0 roots m o clock Rs i ks i0 -> in_time E c m o (clock (io_trace i0)) i0 -> updater_new E c (clock (io_trace i0)) i0 = (i1, Ok t) -> refresh E c (mkWorld t i1) = (w1, Ok tt) ->
      (k <= List.length roots)%nat -> Rs !! j = Some R -> up_to_date (root_number r0 roots k) (rel_pub R) (w_trusted w1) -> used E c R w1 w2 ->
      happened i0 (w_io w2) evs -> cut (io_disk i0) evs evs1 d ->
      (forall role, d' !! cache_name c role = d !! cache_name c role) -> disk_works E c d' -> later (app (io_trace i0) evs1) tr -> rough_life r0 roots m o clock Rs i ks (mkIos d' tr).
End SpecRough.
