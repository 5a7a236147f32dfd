(** * Specification for C118: clients that come back to the repository simulator *)
From stdpp Require Import base gmap strings list.
From Coq Require Import ZArith Ascii String.
From Verif Require Import GoBase GoStr GoTime Types Keys Metadata TrustedMetadata Fetcher Updater Simulator SpecTrusted SpecUpdater SpecReach SpecSimulator.
Open Scope Z_scope.

(** a configured client, with any cache that it can use *)
Definition client_of (E : env) (c : config) (root : string) (i : ios) : Prop :=
  c_trusted_root c = root /\ c_unsafe_local c = false /\ c_metadata_url c <> "" /\ c_targets_url c <> "" /\ disk_works E c (io_disk i) /\
  0 <= c_max_delegations c /\ 0 <= c_max_root_rotations c < 2 ^ 62.
(** between two visits of the client the targets were left alone, or their version was increased *)
Definition careful (S S' : sim) : Prop :=
  sm_targets S' = sm_targets S \/ tg_version (md_signed (sm_targets S)) < tg_version (md_signed (sm_targets S')).
(** the cached metadata files are the same *)
Definition same_cache (c : config) (d d' : disk) : Prop :=
  forall role, role ∈ ["timestamp"; "snapshot"; "targets"] -> d' !! cache_name c role = d !! cache_name c role.

(** acts, and an UpdateSnapshot at the end *)
Definition round (h : list (trace * trace * act)) (tr1 tr2 : trace) : list (trace * trace * act) := h ++ [((tr1, tr2), DoUpdateSnapshot)].
Section SpecReturn.
Context {CR : Crypto} (E : env) (key : string -> signer) (path_of : string -> option string) (c : config) (e : gotime) (root : string).
(** the client can visit the simulator as it is now *)
Definition can_visit (E2 : env) (now : Z) (i : ios) (S : sim) : Prop :=
  fetches_from E E2 path_of c S /\ fits E c S /\ client_of E2 c root i /\ Z.of_nat (List.length (sm_roots S)) <= 1 + c_max_root_rotations c /\ now <= instant e.
(** [visited S0 h S d]: from the new simulator [S0], the acts [h] led to [S]; at some moments the client visited the
    simulator, the last of them right now (or never), and its cache is now [d] *)
Inductive visited (S0 : sim) : list (trace * trace * act) -> sim -> disk -> Prop :=
  | visited_never : visited S0 [] S0 ∅
  | visited_again h S d h' tr1 tr2 S' E2 now i i' t w d' :
      visited S0 h S d -> Forall (fun x => sensible x.2) h' -> perform_all E key (round h' tr1 tr2) S = Ok S' -> d = ∅ \/ careful S S' ->
      io_disk i = d -> can_visit E2 now i S' -> updater_new E2 c now i = (i', Ok t) -> refresh E2 c (mkWorld t i') = (w, Ok tt) ->
      same_cache c (io_disk (w_io w)) d' -> visited S0 (h ++ round h' tr1 tr2) S' d'.
End SpecReturn.
