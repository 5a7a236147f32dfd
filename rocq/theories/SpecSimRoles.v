(** * Specification for C119: delegations that are added to the simulator's top-level targets *)
From stdpp Require Import base gmap strings list.
From Coq Require Import ZArith Ascii String.
From Verif Require Import GoBase GoStr GoTime Types Keys Metadata TrustedMetadata Fetcher Updater Simulator SpecUtf8 SpecRound SpecTrusted SpecUpdater SpecReach SpecSimulator.
Open Scope Z_scope.

(** what a test does to a simulator: any act of [SpecSimulator], or AddDelegation("targets", role, content) *)
Inductive step :=
  | Act (tr tr' : trace) (a : act)
  | Delegate (role : delegatedrole) (content : targets_t).
Fixpoint take_steps {CR : Crypto} (E : env) (key : string -> signer) (l : list step) (S : sim) : outcome sim :=
  match l with
  | [] => Ok S
  | Act tr tr' a :: l => let! S := perform E key tr tr' a S in take_steps E key l S
  | Delegate r x :: l => let! S := add_delegation key "targets" r x S in take_steps E key l S
  end.
Definition acts (l : list step) : list (trace * trace * act) := omap (fun s => match s with Act tr tr' a => Some (tr, tr', a) | _ => None end) l.
Definition delegations_of (l : list step) : list (delegatedrole * targets_t) := omap (fun s => match s with Delegate r x => Some (r, x) | _ => None end) l.
(** the key pairs that a new simulator, the acts and the delegations make *)
Definition keys_for (l : list step) : list string :=
  map (fun n => fmt_dec (Z.of_nat n)) (seq 0 (4 + sum_list (map (fun x => keys_made x.2) (acts l)) + List.length (delegations_of l))).
Definition absent (u : unrec) : Prop := mmap u = ∅.
Definition dotless (s : string) : Prop := string_any (Ascii.eqb ".") s = false.
(** a role as tests make it: a plain name without dots; no keys yet; one signature is enough; no unknown fields *)
Definition fresh_role (r : delegatedrole) : Prop :=
  role_name_ok (dr_name r) /\ dotless (dr_name r) /\ delegatedrole_wf r /\ absent (dr_unrec r) /\ slist (dr_keyids r) = [] /\ dr_threshold r = 1.
(** targets metadata that JSON can hold, without unknown fields and without delegations *)
Definition leaf_content (x : targets_t) : Prop :=
  targets_wf x /\ tg_type x = "targets" /\ absent (tg_unrec x) /\ (forall n f, mget (tg_targets x) n = Some (Some f) -> absent (tf_unrec f) /\ tf_custom f = None) /\ tg_delegations x = None.
(** the client finds the file of role [name] where it looks for it, and it is not larger than the client allows *)
Definition role_reachable {CR : Crypto} (E : env) (path_of : string -> option string) (c : config) (S : sim) (name : string) : Prop :=
  path_of (with_slash (c_metadata_url c) +:+ name +:+ ".json") = Some (sm_local S +:+ "/metadata/" +:+ name +:+ ".json") /\
  (forall v, path_of (with_slash (c_metadata_url c) +:+ fmt_dec v +:+ "." +:+ name +:+ ".json") = Some (sm_local S +:+ "/metadata/" +:+ fmt_dec v +:+ "." +:+ name +:+ ".json")) /\
  forall tr version data, fetch_metadata E tr S name version = Ok data -> Z.of_nat (String.length data) <= c_targets_max c /\ Z.of_nat (String.length data) < 2 ^ 63.
(** the role is delegated [path], and its metadata lists it *)
Definition covers {CR : Crypto} (r : delegatedrole) (path : string) : Prop := is_delegated_path r path = true.
Definition knows (x : targets_t) (path : string) (tf : targetfile) : Prop := mget (tg_targets x) path = Some (Some tf).
Definition same_file (path : string) (tf tf' : targetfile) : Prop := tf_path tf' = path /\ tf_length tf' = tf_length tf /\ tf_hashes tf' = tf_hashes tf.
(** what GetTargetInfo may return for [path]: what was added to the top-level targets, if anything; else what a delegated
    role lists that is delegated the path; else an error.  A terminating role that does not list it may hide others *)
Definition answer {CR : Crypto} (l : list step) (path : string) (o : outcome (option targetfile)) : Prop :=
  match last_added (acts l) path with
  | Some data => exists tf, o = Ok (Some tf) /\ tf_path tf = path /\ matches_target tf data
  | None =>
      (exists r x tf tf', (r, x) ∈ delegations_of l /\ covers r path /\ knows x path tf /\ o = Ok (Some tf') /\ same_file path tf tf') \/
      ((exists e, o = Err e) /\ ((forall r x tf, (r, x) ∈ delegations_of l -> covers r path -> ~ knows x path tf) \/ exists r x, (r, x) ∈ delegations_of l /\ covers r path /\ dr_terminating r = true /\ forall tf, ~ knows x path tf))
  end.
