(** * Clients whose sessions are interrupted while the repository publishes *)
From stdpp Require Import base gmap strings list.
From Coq Require Import ZArith Ascii String.
From Verif Require Import GoBase GoStr GoTime Types Marshal Keys Metadata TrustedMetadata Fetcher Updater SpecBasic SpecSig SpecDeleg SpecTrusted SpecUpdater SpecReach SpecLive.
Open Scope Z_scope.

(** the process stops after the events [done] of [evs], with the files [d']: the next write may have got any part of its
    data out *)
Definition cut (d : disk) (evs done : list event) (d' : disk) : Prop :=
  exists rest, evs = app done rest /\
    (d' = replay d done \/ exists p data rest' n, rest = EvWrite p data :: rest' /\ d' = <[p := str_take n data]> (replay d done)).

Section SpecCut.
Context {CR : Crypto} (E : env) (c : config).
(** The client is started again and again.  Each time it refreshes and is used, for a while; or it is interrupted, after
    any of the events of such a session.  Before the next start other things may happen to the disk and in the world
    ([tr]), but the cached metadata files stay as they are, and left-over temporary files are gone.  [ks] are the
    numbers of the releases that the uninterrupted sessions saw, the latest last. *)
Inductive hard_life (r : metadata root_t) (clock : trace -> Z) (Rs : list release) (i : ios) : list nat -> ios -> Prop :=
  | hard_begins : hard_life r clock Rs i [] i
  | hard_again ks i0 i1 t w1 w2 k R : hard_life r clock Rs i ks i0 -> updater_new E c (clock (io_trace i0)) i0 = (i1, Ok t) -> refresh E c (mkWorld t i1) = (w1, Ok tt) ->
      Rs !! k = Some R -> up_to_date r (rel_pub R) (w_trusted w1) -> used E c R w1 w2 -> hard_life r clock Rs i (app ks [k]) (w_io w2)
  | hard_cut ks i0 i1 t w1 w2 k R evs evs1 d d' tr : hard_life r clock Rs i ks i0 -> updater_new E c (clock (io_trace i0)) i0 = (i1, Ok t) -> refresh E c (mkWorld t i1) = (w1, Ok tt) ->
      Rs !! k = Some R -> up_to_date r (rel_pub R) (w_trusted w1) -> used E c R w1 w2 ->
      happened i0 (w_io w2) evs -> cut (io_disk i0) evs evs1 d ->
      (forall role, d' !! cache_name c role = d !! cache_name c role) -> disk_works E c d' -> later (app (io_trace i0) evs1) tr -> hard_life r clock Rs i ks (mkIos d' tr).
End SpecCut.
