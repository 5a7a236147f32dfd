(** * A repository that publishes roots and releases, and a client that is used again and again (C126) *)
From stdpp Require Import base gmap strings list.
From Coq Require Import ZArith Ascii String.
From Verif Require Import GoBase GoStr GoTime Types Marshal Keys Metadata TrustedMetadata Fetcher Updater SpecBasic SpecSig SpecDeleg SpecTrusted SpecUpdater SpecReach SpecLive SpecRotate.
Open Scope Z_scope.

Section SpecEra.
Context {CR : Crypto} (E : env) (c : config).
(** At the moment [tr], [m tr] of the root updates are on the server, and release number [n tr] is announced.  It is
    correctly signed for the newest root, and still for the older ones back to number [o tr]: earlier roots are given up.
    Releases are unexpired by the clock that clients read. *)
Definition overlapping (r0 : metadata root_t) (roots : list (string * metadata root_t)) (m o n : trace -> nat) (clock : trace -> Z) (Rs : list release) : Prop :=
  roots_appear E c [] r0 roots m /\
  (forall i j R R', (i < j)%nat -> Rs !! i = Some R -> Rs !! j = Some R' -> newer R R') /\
  (forall R name f, R ∈ Rs -> rel_roles R !! name = Some f -> role_name_ok name) /\
  (forall tr tr', later tr tr' -> (n tr <= n tr')%nat /\ clock tr <= clock tr') /\
  (forall tr, exists R, Rs !! n tr = Some R /\ announces E c tr R /\
     forall k, (o tr <= k <= m tr)%nat -> sound_release c r0 (root_number r0 roots k) (clock tr) (under roots k R) /\ stays_up E c (root_number r0 roots k) R tr).
(** a client that starts in [i] ends Refresh before the root that was the newest at its start is given up *)
Definition in_time (m o : trace -> nat) (now : Z) (i : ios) : Prop :=
  forall i1 t w1 out tr, updater_new E c now i = (i1, Ok t) -> refresh E c (mkWorld t i1) = (w1, out) -> later (io_trace i) tr -> later tr (io_trace (w_io w1)) -> (o tr <= m (io_trace i))%nat.
(** the cache fits the releases from now on, for all roots from now on *)
Definition ready_for_all (r0 : metadata root_t) (roots : list (string * metadata root_t)) (m n : trace -> nat) (clock : trace -> Z) (Rs : list release) (i : ios) : Prop :=
  forall k, (m (io_trace i) <= k <= List.length roots)%nat -> client_ready E c r0 (root_number r0 roots k) (clock (io_trace i)) (map (under roots k) (drop (n (io_trace i)) Rs)) i.
(** the client is started again and again, each time in time, and refreshes and is used; the list has the numbers of the
    roots and of the releases it saw, the latest last *)
Inductive long_life (r0 : metadata root_t) (roots : list (string * metadata root_t)) (m o : trace -> nat) (clock : trace -> Z) (Rs : list release) (i : ios) : list (nat * nat) -> ios -> Prop :=
  | long_begins : long_life r0 roots m o clock Rs i [] i
  | long_again ks i0 i1 t w1 w2 k j R : long_life r0 roots m o clock Rs i ks i0 -> in_time m o (clock (io_trace i0)) i0 -> updater_new E c (clock (io_trace i0)) i0 = (i1, Ok t) -> refresh E c (mkWorld t i1) = (w1, Ok tt) ->
      (k <= List.length roots)%nat -> Rs !! j = Some R -> up_to_date (root_number r0 roots k) (rel_pub R) (w_trusted w1) -> used E c R w1 w2 -> long_life r0 roots m o clock Rs i (app ks [(k, j)]) (w_io w2).
End SpecEra.
