(** * Specification for C112-C117: the repository simulator as a source of metadata and targets *)
From stdpp Require Import base gmap strings list.
From Coq Require Import ZArith Ascii String.
From Verif Require Import GoBase GoStr GoTime Types Keys Metadata TrustedMetadata Fetcher Updater ExampleRepos Simulator SpecUtf8 SpecRound SpecTrusted SpecUpdater SpecReach.
Open Scope Z_scope.

(** what a test does to a simulator: call its methods and assign to its exported fields.  A new root rotates the keys of
    the given roles, sets ConsistentSnapshot, increments the version and is published. *)
Inductive act :=
  | AddTargetFile (path data : string)
  | SetTargetsVersion (v : Z)
  | SetComputeHashes (b : bool)
  | SetPrefixTargets (b : bool)
  | DoUpdateTimestamp
  | DoUpdateSnapshot
  | NewRoot (roles : list string) (consistent : bool).
Definition set_prefix (S : sim) (b : bool) : sim :=
  mkSim (sm_delegates S) (sm_roots S) (sm_signers S) (sm_files S) (sm_compute S) b (sm_targets S) (sm_snapshot S) (sm_timestamp S) (sm_root S) (sm_local S) (sm_keys S).
Definition with_targets_version (m : metadata targets_t) (v : Z) : metadata targets_t :=
  let x := md_signed m in set_signed m (mkTargets (tg_type x) (tg_spec x) v (tg_expires x) (tg_targets x) (tg_delegations x) (tg_unrec x)).
Definition with_consistent (m : metadata root_t) (b : bool) : metadata root_t :=
  let x := md_signed m in set_signed m (mkRoot (rt_type x) (rt_spec x) b (rt_version x) (rt_expires x) (rt_keys x) (rt_roles x) (rt_unrec x)).
Definition next_root (m : metadata root_t) : metadata root_t :=
  set_signed m (set_root_version (wrap64 (rt_version (md_signed m) + 1)) (md_signed m)).

Section SpecSimulator.
Context {CR : Crypto} (E : env) (key : string -> signer).
Fixpoint rotate_all (roles : list string) (S : sim) : outcome sim :=
  match roles with [] => Ok S | r :: roles => let! S := rotate_keys key r S in rotate_all roles S end.
(** the traces only fix the orders of map iterations *)
Definition perform (tr tr' : trace) (a : act) (S : sim) : outcome sim :=
  match a with
  | AddTargetFile path data => add_target "targets" data path S
  | SetTargetsVersion v => Ok (set_targets S (with_targets_version (sm_targets S) v))
  | SetComputeHashes b => Ok (set_compute S b)
  | SetPrefixTargets b => Ok (set_prefix S b)
  | DoUpdateTimestamp => sim_update_timestamp E tr S
  | DoUpdateSnapshot => sim_update_snapshot E tr tr' S
  | NewRoot roles b => let! S := rotate_all roles S in publish_root E tr (set_sim_root S (next_root (with_consistent (sm_root S) b)))
  end.
Fixpoint perform_all (l : list (trace * trace * act)) (S : sim) : outcome sim :=
  match l with [] => Ok S | (tr, tr', a) :: l => let! S := perform tr tr' a S in perform_all l S end.
(** arguments that Go programs can pass and JSON files can hold; the keys of the root role are not rotated *)
Definition sensible (a : act) : Prop :=
  match a with
  | AddTargetFile path data => utf8_text path /\ Z.of_nat (String.length data) < 2 ^ 63
  | SetTargetsVersion v => int_ok v
  | NewRoot roles _ => forall r, r ∈ roles -> r ∈ ["timestamp"; "snapshot"; "targets"]
  | _ => True
  end.
(** the number of key pairs that the acts make *)
Definition keys_made (a : act) : nat := match a with NewRoot roles _ => List.length roles | _ => 0 end.
Definition all_keys (l : list (trace * trace * act)) : list string :=
  map (fun n => fmt_dec (Z.of_nat n)) (seq 0 (4 + sum_list (map (fun x => keys_made x.2) l))).

(** the data that the target [path] was last added with *)
Fixpoint last_added (l : list (trace * trace * act)) (path : string) : option string :=
  match l with
  | [] => None
  | (_, a) :: l =>
      match last_added l path, a with
      | Some data, _ => Some data
      | None, AddTargetFile p data => if String.eqb p path then Some data else None
      | None, _ => None
      end
  end.
(** the client downloads from the simulator: its fetcher, and the names of the metadata files below its metadata URL *)
Definition fetches_from (E2 : env) (path_of : string -> option string) (c : config) (S : sim) : Prop :=
  (forall tr url len, e_net E2 tr url len = sim_download E path_of tr S url len) /\
  forall role, role ∈ ["root"; "timestamp"; "snapshot"; "targets"] ->
    path_of (with_slash (c_metadata_url c) +:+ role +:+ ".json") = Some (sm_local S +:+ "/metadata/" +:+ role +:+ ".json") /\
    forall v, path_of (with_slash (c_metadata_url c) +:+ fmt_dec v +:+ "." +:+ role +:+ ".json") = Some (sm_local S +:+ "/metadata/" +:+ fmt_dec v +:+ "." +:+ role +:+ ".json").
(** no metadata file of the simulator is larger than the client allows (or than a Go string can be) *)
Definition fits (c : config) (S : sim) : Prop :=
  forall tr role max version data, (role, max) ∈ [("root", c_root_max c); ("timestamp", c_timestamp_max c); ("snapshot", c_snapshot_max c); ("targets", c_targets_max c)] ->
    fetch_metadata E tr S role version = Ok data -> Z.of_nat (String.length data) <= max /\ Z.of_nat (String.length data) < 2 ^ 63.
(** the trusted set has the content of the simulator's objects, as far as JSON keeps it *)
Definition follows (S : sim) (t : trusted) : Prop :=
  md_signed (t_root t) = signed_kept (md_signed (sm_root S)) /\
  (exists ts, t_timestamp t = Some ts /\ md_signed ts = signed_kept (md_signed (sm_timestamp S))) /\
  (exists sn, t_snapshot t = Some sn /\ md_signed sn = signed_kept (md_signed (sm_snapshot S))) /\
  exists tg, t_targets t = {["targets" := tg]} /\ md_signed tg = signed_kept (md_signed (sm_targets S)).
(** GetTargetInfo finds the length and the hashes of the file last added under each name, and no others *)
Definition finds_added (E2 : env) (c : config) (l : list (trace * trace * act)) (w : world) : Prop :=
  forall path, match last_added l path with
               | Some data => exists tf, get_target_info E2 c path w = (w, Ok (Some tf)) /\ tf_path tf = path /\ matches_target tf data
               | None => exists e, get_target_info E2 c path w = (w, Err e)
               end.
End SpecSimulator.
