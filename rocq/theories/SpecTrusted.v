(** * Specification of the trusted metadata set (C38-C50): the client workflow in terms of documents, signatures,
      versions and expiry, independent of the order of the code's checks *)
From stdpp Require Import base gmap strings list.
From Coq Require Import ZArith String.
From Verif Require Import GoBase GoTime Types Marshal Keys Metadata TrustedMetadata SpecSig SpecBasic.
Open Scope Z_scope.

Section SpecTrusted.
Context {CR : Crypto}.

(** a threshold of the keys that root metadata [r] (targets metadata [d]) lists for role [name] has signed [m] *)
Definition root_signs {D} `{RoleTy D} (r : metadata root_t) (name : string) (m : metadata D) : Prop :=
  exists keys ids thr, root_delegates (md_signed r) name keys ids thr /\
    accepts keys ids thr (default [] (md_sigs m)) (signing_payload (md_signed m)).
Definition targets_signs {D} `{RoleTy D} (d : metadata targets_t) (name : string) (m : metadata D) : Prop :=
  exists keys ids thr, targets_delegates (md_signed d) name keys ids thr /\
    accepts keys ids thr (default [] (md_sigs m)) (signing_payload (md_signed m)).
(** [data] is a document of the role type T with content [m] *)
Definition document {T} `{RoleTy T} (data : string) (m : metadata T) : Prop :=
  from_bytes data = Ok m /\ signed_type (md_signed m) = role_name.
Definition expired_at {T} `{RoleTy T} (m : metadata T) (now : Z) : Prop := instant (signed_expires (md_signed m)) < now.
(** the timestamp's entry for the snapshot; a snapshot's entry for a file *)
Definition names_snapshot (ts : metadata timestamp_t) (f : metafile) : Prop :=
  exists meta, ts_meta (md_signed ts) = Some meta /\ meta !! "snapshot.json" = Some (Some f).
Definition lists_file (sn : metadata snapshot_t) (file : string) (f : metafile) : Prop :=
  exists meta, sn_meta (md_signed sn) = Some meta /\ meta !! file = Some (Some f).
(** a file of that name is mentioned, possibly without a description (null) *)
Definition mentions_file (sn : metadata snapshot_t) (file : string) : Prop :=
  exists meta o, sn_meta (md_signed sn) = Some meta /\ meta !! file = Some o.
Definition matches_file (f : metafile) (data : string) : Prop :=
  hashes_ok (mf_hashes f) data /\ (mf_length f = 0 \/ mf_length f = Z.of_nat (String.length data)).
(** 64-bit successor: the largest version number wraps around *)
Definition next_version (v v' : Z) : Prop := (v < 2 ^ 63 - 1 /\ v' = v + 1) \/ (v = 2 ^ 63 - 1 /\ v' = - 2 ^ 63).
(** every file the old snapshot mentions is still listed, with a version at least as high *)
Definition no_rollback (old new : metadata snapshot_t) : Prop :=
  forall file, mentions_file old file -> exists o n, lists_file old file o /\ lists_file new file n /\ mf_version o <= mf_version n.

(** ** What each update accepts *)
Definition root_ok (t : trusted) (data : string) (r : metadata root_t) : Prop :=
  t_timestamp t = None /\ document data r /\ root_signs (t_root t) "root" r /\
  next_version (rt_version (md_signed (t_root t))) (rt_version (md_signed r)) /\ root_signs r "root" r.
Definition timestamp_ok (t : trusted) (data : string) (ts : metadata timestamp_t) : Prop :=
  t_snapshot t = None /\ ~ expired_at (t_root t) (t_ref t) /\ document data ts /\ root_signs (t_root t) "timestamp" ts /\
  forall old, t_timestamp t = Some old ->
    ts_version (md_signed old) < ts_version (md_signed ts) /\
    exists fo fn, names_snapshot old fo /\ names_snapshot ts fn /\ mf_version fo <= mf_version fn.
Definition snapshot_ok (t : trusted) (data : string) (is_trusted : bool) (sn : metadata snapshot_t) : Prop :=
  exists ts, t_timestamp t = Some ts /\ t_targets t !! "targets" = None /\ ~ expired_at ts (t_ref t) /\
    (is_trusted = true \/ exists f, names_snapshot ts f /\ matches_file f data) /\
    document data sn /\ root_signs (t_root t) "snapshot" sn /\
    forall old, t_snapshot t = Some old -> no_rollback old sn.
(** the snapshot may be used: unexpired and of the version the timestamp names *)
Definition final_snapshot (t : trusted) (sn : metadata snapshot_t) : Prop :=
  ~ expired_at sn (t_ref t) /\ exists ts f, t_timestamp t = Some ts /\ names_snapshot ts f /\ sn_version (md_signed sn) = mf_version f.
Definition targets_ok (t : trusted) (data role delegator : string) (m : metadata targets_t) : Prop :=
  exists sn f, t_snapshot t = Some sn /\ final_snapshot t sn /\
    lists_file sn (String.append role ".json") f /\ matches_file f data /\ document data m /\
    ((delegator = "root" /\ root_signs (t_root t) role m) \/
     (delegator <> "root" /\ exists d, t_targets t !! delegator = Some d /\ targets_signs d role m)) /\
    tg_version (md_signed m) = mf_version f /\ ~ expired_at m (t_ref t).

(** ** The effect of replacing one role *)
Definition root_replaced (t t' : trusted) (r : metadata root_t) : Prop :=
  t_root t' = r /\ t_timestamp t' = t_timestamp t /\ t_snapshot t' = t_snapshot t /\ t_targets t' = t_targets t /\ t_ref t' = t_ref t.
Definition timestamp_replaced (t t' : trusted) (ts : metadata timestamp_t) : Prop :=
  t_root t' = t_root t /\ t_timestamp t' = Some ts /\ t_snapshot t' = t_snapshot t /\ t_targets t' = t_targets t /\ t_ref t' = t_ref t.
Definition snapshot_replaced (t t' : trusted) (sn : metadata snapshot_t) : Prop :=
  t_root t' = t_root t /\ t_timestamp t' = t_timestamp t /\ t_snapshot t' = Some sn /\ t_targets t' = t_targets t /\ t_ref t' = t_ref t.
Definition targets_replaced (t t' : trusted) (role : string) (m : metadata targets_t) : Prop :=
  t_root t' = t_root t /\ t_timestamp t' = t_timestamp t /\ t_snapshot t' = t_snapshot t /\ t_ref t' = t_ref t /\
  t_targets t' !! role = Some m /\ forall other, other <> role -> t_targets t' !! other = t_targets t !! other.

(** ** Sequences of calls *)
Inductive call :=
  | UpdateRoot (data : string)
  | UpdateTimestamp (data : string)
  | UpdateSnapshot (order : list (string * option metafile) -> list (string * option metafile)) (data : string) (is_trusted : bool)
  | UpdateDelegated (data role delegator : string).
(** Go iterates over a map in some order *)
Definition proper_call (c : call) : Prop :=
  match c with UpdateSnapshot order _ _ => forall l, order l ≡ₚ l | _ => True end.
(** the state after a call, and whether it returned without error *)
Definition perform (t : trusted) (c : call) : trusted * outcome unit :=
  match c with
  | UpdateRoot data => let '(t', o) := update_root t data in (t', omap_ (fun _ => tt) o)
  | UpdateTimestamp data => let '(t', o) := update_timestamp t data in (t', omap_ (fun _ => tt) o)
  | UpdateSnapshot order data tr => let '(t', o) := update_snapshot order t data tr in (t', omap_ (fun _ => tt) o)
  | UpdateDelegated data role delegator => let '(t', o) := update_delegated_targets t data role delegator in (t', omap_ (fun _ => tt) o)
  end.
(** any sequence of calls, whatever they return *)
Inductive calls : trusted -> trusted -> Prop :=
  | calls_nil t : calls t t
  | calls_step t t' c : calls t t' -> proper_call c -> calls t (fst (perform t' c)).
Definition reachable (t : trusted) : Prop := exists data now t0, tm_new data now = Ok t0 /\ calls t0 t.

(** calls as the client makes them: no role is loaded twice, and root is the delegator of the first loaded role only
    if that role is targets *)
Definition disciplined (t : trusted) (c : call) : Prop :=
  match c with
  | UpdateDelegated _ role delegator =>
      t_targets t !! role = None /\ (delegator = "root" -> role = "targets" \/ is_Some (t_targets t !! "targets"))
  | _ => True
  end.
Inductive disciplined_calls : trusted -> trusted -> Prop :=
  | dcalls_nil t : disciplined_calls t t
  | dcalls_step t t' c : disciplined_calls t t' -> proper_call c -> disciplined t' c -> disciplined_calls t (fst (perform t' c)).

(** ** Chains *)
(** [r'] is reached from [r] by [n] root updates *)
Inductive root_chain : nat -> metadata root_t -> metadata root_t -> Prop :=
  | chain_nil r : root_chain 0 r r
  | chain_step n r r1 r2 : root_chain n r r1 -> root_signs r1 "root" r2 -> root_signs r2 "root" r2 ->
      next_version (rt_version (md_signed r1)) (rt_version (md_signed r2)) -> root_chain (S n) r r2.
(** a chain of delegations leads from the trusted root to the loaded role [name] *)
Inductive authorised (t : trusted) : string -> Prop :=
  | auth_root name m : t_targets t !! name = Some m -> root_signs (t_root t) name m -> authorised t name
  | auth_delegated d dm name m : authorised t d -> t_targets t !! d = Some dm -> t_targets t !! name = Some m ->
      targets_signs dm name m -> authorised t name.

(** ** Consistency of what is loaded *)
(** targets metadata [m] loaded as role [name] is what snapshot [sn] describes *)
Definition as_listed (sn : metadata snapshot_t) (name : string) (m : metadata targets_t) : Prop :=
  exists f data, lists_file sn (String.append name ".json") f /\ document data m /\ matches_file f data /\ tg_version (md_signed m) = mf_version f.
(** [m] is signed for role [name] by what the trusted set holds: the root for targets, else a loaded role *)
Definition vouched_for (t : trusted) (name : string) (m : metadata targets_t) : Prop :=
  root_signs (t_root t) name m \/ exists d dm, t_targets t !! d = Some dm /\ targets_signs dm name m.

(** ** Well-formed documents: no null keys or roles, ed25519 keys of 32 bytes *)
Definition proper_keys (keys : gomap (option key)) : Prop :=
  (forall id, mget keys id <> Some None) /\ forall id pk, resolves keys id pk -> proper_pk pk.
Definition proper_root (r : metadata root_t) : Prop :=
  (forall name, mget (rt_roles (md_signed r)) name <> Some None) /\ proper_keys (rt_keys (md_signed r)).
Definition proper_targets (m : metadata targets_t) : Prop :=
  forall d, tg_delegations (md_signed m) = Some d -> proper_keys (d_keys d).
End SpecTrusted.
