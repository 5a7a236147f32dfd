(** * Specification of the updater (C51-C74): API calls, sessions, what may be observed *)
From stdpp Require Import base gmap strings list.
From Coq Require Import ZArith Ascii String.
From Verif Require Import GoBase GoStr GoTime Types Marshal Keys Metadata TrustedMetadata Fetcher Updater SpecBasic SpecTrusted.
Open Scope Z_scope.

(** ** API calls and sessions *)
Inductive api :=
  | Refresh
  | GetTargetInfo (path : string)
  | DownloadTarget (tf : targetfile) (file_path base_url : string)
  | FindCachedTarget (tf : targetfile) (file_path : string).
Section SpecUpdater.
Context {CR : Crypto} (E : env) (c : config).
Definition call_api (a : api) (w : world) : world * outcome unit :=
  match a with
  | Refresh => refresh E c w
  | GetTargetInfo p => let '(w', o) := get_target_info E c p w in (w', omap_ (fun _ => tt) o)
  | DownloadTarget tf p u => let '(w', o) := download_target E c tf p u w in (w', omap_ (fun _ => tt) o)
  | FindCachedTarget tf p => let '(w', o) := lift (find_cached_target E c tf p) w in (w', omap_ (fun _ => tt) o)
  end.
(** an updater made at time [now] and used in any way; between the calls anything may happen to the files and on the
    network *)
Inductive session (now : Z) : world -> Prop :=
  | session_new i i' t : updater_new E c now i = (i', Ok t) -> session now (mkWorld t i')
  | session_api w a : session now w -> session now (fst (call_api a w))
  | session_files w i : session now w -> session now (mkWorld (w_trusted w) i).

(** ** What happened between two worlds *)
Definition happened (i i' : ios) (evs : list event) : Prop := io_trace i' = io_trace i ++ evs.
(** the files as the events leave them *)
Definition apply_event (d : disk) (e : event) : disk :=
  match e with
  | EvCreate p => <[p := ""]> d
  | EvWrite p data => <[p := data]> d
  | EvRename a b => match d !! a with Some x => <[b := x]> (delete a d) | None => d end
  | EvRemove a => delete a d
  | _ => d
  end.
Definition replay (d : disk) (evs : list event) : disk := fold_left apply_event evs d.
(** the process stops: any prefix of the events happened, the next write may have got any part of its data out *)
Definition crash (d : disk) (evs : list event) (d' : disk) : Prop :=
  exists evs1 evs2, evs = evs1 ++ evs2 /\
    (d' = replay d evs1 \/
     exists p data rest n, evs2 = EvWrite p data :: rest /\ d' = <[p := str_take n data]> (replay d evs1)).
(** the trusted set went from [t] to [t'] by API calls of the trusted set, [t1] being one of the states in between *)
Definition passed (t t1 t' : trusted) : Prop := disciplined_calls t t1 /\ disciplined_calls t1 t'.
(** the trusted set holds the content of [data] for role [role] *)
Definition holds (t : trusted) (role data : string) : Prop :=
  (role = "root" /\ document data (t_root t)) \/
  (role = "timestamp" /\ exists ts, t_timestamp t = Some ts /\ document data ts) \/
  (role = "snapshot" /\ exists sn, t_snapshot t = Some sn /\ document data sn) \/
  (exists m, t_targets t !! role = Some m /\ document data m).

(** ** Downloads *)
(** the signed length, or the configured maximum if there is none *)
Definition limit (signed max : Z) (len : Z) : Prop := (signed <> 0 /\ len = signed) \/ (signed = 0 /\ len = max).
Definition versioned (t : trusted) (v : Z) (s : string) : Prop :=
  (rt_consistent (md_signed (t_root t)) = true /\ s = fmt_dec v) \/ (rt_consistent (md_signed (t_root t)) = false /\ s = "").
(** <url>/<role>.json or <url>/<version>.<role>.json *)
Definition url_of (role version : string) : string :=
  (if has_suffix "/" (c_metadata_url c) then c_metadata_url c else c_metadata_url c +:+ "/") +:+
  (if String.eqb version "" then query_escape role +:+ ".json" else version +:+ "." +:+ query_escape role +:+ ".json").
Definition allowed_download (t : trusted) (url : string) (len : Z) : Prop :=
  (exists v, url = url_of "root" (fmt_dec v) /\ len = c_root_max c) \/
  (url = url_of "timestamp" "" /\ len = c_timestamp_max c) \/
  (exists ts f v, t_timestamp t = Some ts /\ names_snapshot ts f /\ limit (mf_length f) (c_snapshot_max c) len /\
     versioned t (mf_version f) v /\ url = url_of "snapshot" v) \/
  (exists sn role f v, t_snapshot t = Some sn /\ lists_file sn (String.append role ".json") f /\ limit (mf_length f) (c_targets_max c) len /\
     versioned t (mf_version f) v /\ url = url_of role v).

(** ** Refresh *)
(** a complete, fresh and mutually consistent set of top-level metadata *)
Definition top_level_set (t : trusted) : Prop :=
  exists ts sn tg fs ft, t_timestamp t = Some ts /\ t_snapshot t = Some sn /\ t_targets t !! "targets" = Some tg /\
    ~ expired_at (t_root t) (t_ref t) /\ ~ expired_at ts (t_ref t) /\ ~ expired_at sn (t_ref t) /\ ~ expired_at tg (t_ref t) /\
    names_snapshot ts fs /\ sn_version (md_signed sn) = mf_version fs /\
    lists_file sn "targets.json" ft /\ tg_version (md_signed tg) = mf_version ft /\
    root_signs (t_root t) "root" (t_root t) /\ root_signs (t_root t) "timestamp" ts /\ root_signs (t_root t) "snapshot" sn /\ root_signs (t_root t) "targets" tg.
(** an HTTP error, possibly wrapped *)
Inductive http_error (status : Z) : gerr -> Prop :=
  | http_here url : http_error status (ErrDownloadHTTP status url)
  | http_wrapped msg e : http_error status e -> http_error status (EWrap msg e).
Definition not_found (e : gerr) : Prop := http_error 404 e \/ http_error 403 e.
(** the downloads with their results, in order; how many succeeded *)
Fixpoint gets (evs : list event) : list (string * outcome string) :=
  match evs with [] => [] | EvGet url _ r :: evs => (url, r) :: gets evs | _ :: evs => gets evs end.
Fixpoint successes (l : list (string * outcome string)) : Z :=
  match l with [] => 0 | (_, Ok _) :: l => 1 + successes l | _ :: l => successes l end.
(** downloads of the root versions N+1, N+2, ... where all but the last succeed *)
Definition consecutive (N : Z) (l : list (string * outcome string)) : Prop :=
  forall i u r, l !! i = Some (u, r) -> u = url_of "root" (fmt_dec (N + 1 + Z.of_nat i)) /\
    (S i < List.length l -> exists data, r = Ok data)%nat.

(** ** The search for a target *)
(** targets metadata [m] has an entry for [path] (null is an entry too) *)
Definition entry (m : metadata targets_t) (path : string) (o : option targetfile) : Prop :=
  exists l, tg_targets (md_signed m) = Some l /\ l !! path = Some o.
(** [m] delegates [path] to role [name]: by the last of the listed roles of that name whose paths or prefixes match, or
    by its hash bins *)
Definition delegated (m : metadata targets_t) (path name : string) (terminating : bool) : Prop :=
  exists d, tg_delegations (md_signed m) = Some d /\
    ((exists l1 r l2, d_roles d = Some (l1 ++ r :: l2) /\ dr_name r = name /\ dr_terminating r = terminating /\ is_delegated_path r path = true /\
        forall r', r' ∈ l2 -> dr_name r' = name -> is_delegated_path r' path = false) \/
     (d_roles d = None /\ exists s bins, d_succinct d = Some s /\ succinct_roles_for s path = Ok bins /\ bins !! name = Some terminating)).
(** the delegations of [m] for [path] in some order, each once, up to the first terminating one *)
Definition children (m : metadata targets_t) (path : string) (names : list string) (terminating : bool) : Prop :=
  exists order, NoDup (map fst order) /\ (forall n t, (n, t) ∈ order <-> delegated m path n t) /\
    ((terminating = false /\ names = map fst order /\ forall n t, (n, t) ∈ order -> t = false) \/
     (terminating = true /\ exists pre n post, order = pre ++ (n, true) :: post /\ names = map fst pre ++ [n] /\ forall n' t, (n', t) ∈ pre -> t = false)).
(** how a search ends: a role has an entry; all roles to search have been searched; a terminating delegation has been
    searched without result; the budget is used up; a role could not be loaded or its delegations not be evaluated *)
Inductive verdict := Found (o : option targetfile) | Exhausted | Stopped | OutOfBudget | Failed.
(** pre-order depth-first search through [todo], [seen] having been inspected before; inspects [inspected], in this order *)
Inductive search (t : trusted) (path : string) : list string -> list string -> list string -> verdict -> Prop :=
  | search_nil seen : search t path seen [] [] Exhausted
  | search_budget seen todo : search t path seen todo [] OutOfBudget
  | search_seen seen r todo l v : r ∈ seen -> search t path seen todo l v -> search t path seen (r :: todo) l v
  | search_failed seen r todo : r ∉ seen -> search t path seen (r :: todo) [r] Failed
  | search_found seen r todo m o : r ∉ seen -> t_targets t !! r = Some m -> entry m path o -> search t path seen (r :: todo) [r] (Found o)
  | search_below seen r todo m names term l v : r ∉ seen -> t_targets t !! r = Some m -> (forall o, ~ entry m path o) -> children m path names term ->
      search t path (r :: seen) names l v -> v <> Exhausted -> search t path seen (r :: todo) (r :: l) v
  | search_terminated seen r todo m names l : r ∉ seen -> t_targets t !! r = Some m -> (forall o, ~ entry m path o) -> children m path names true ->
      search t path (r :: seen) names l Exhausted -> search t path seen (r :: todo) (r :: l) Stopped
  | search_next seen r todo m names l l' v : r ∉ seen -> t_targets t !! r = Some m -> (forall o, ~ entry m path o) -> children m path names false ->
      search t path (r :: seen) names l Exhausted -> search t path (l ++ r :: seen) todo l' v -> search t path seen (r :: todo) (r :: l ++ l') v.
(** why the search may get stuck at role [r]: it is not loaded, its delegations cannot be evaluated, or (with a local
    cache) a file operation failed *)
Definition storing_failed (evs : list event) : Prop :=
  c_disable_cache c = false /\ (e_cwd E = None \/ (exists op p, EvFail op p ∈ evs) \/ exists p, EvRemove p ∈ evs).
Definition stuck (evs : list event) (t : trusted) (path r : string) : Prop :=
  t_targets t !! r = None \/ (exists m d, t_targets t !! r = Some m /\ tg_delegations (md_signed m) = Some d /\ forall roles, roles_for_target d path <> Ok roles) \/ storing_failed evs.
(** loaded roles that delegate [path] one to the next lead from [r] to [r'] *)
Inductive leads (t : trusted) (path : string) (r : string) : string -> Prop :=
  | leads_refl : is_Some (t_targets t !! r) -> leads t path r r
  | leads_step r1 m r2 term : leads t path r r1 -> t_targets t !! r1 = Some m -> delegated m path r2 term -> is_Some (t_targets t !! r2) -> leads t path r r2.
(** the same, where each role on the way is signed with the keys its predecessor lists for it, the first one with those
    of the root *)
Inductive signed_chain (t : trusted) (path : string) : string -> Prop :=
  | chain_top m : t_targets t !! "targets" = Some m -> root_signs (t_root t) "targets" m -> signed_chain t path "targets"
  | chain_next r1 m1 r2 m2 term : signed_chain t path r1 -> t_targets t !! r1 = Some m1 -> delegated m1 path r2 term ->
      t_targets t !! r2 = Some m2 -> targets_signs m1 r2 m2 -> signed_chain t path r2.

(** ** An honest repository *)
(** root metadata [r] is updated in steps to [r']: each new root is signed by its predecessor and itself *)
Inductive root_updates : metadata root_t -> list (string * metadata root_t) -> metadata root_t -> Prop :=
  | no_updates r : root_updates r [] r
  | one_update r data r1 l r' : document data r1 -> root_signs r "root" r1 -> root_signs r1 "root" r1 ->
      rt_version (md_signed r1) = rt_version (md_signed r) + 1 -> root_updates r1 l r' -> root_updates r ((data, r1) :: l) r'.
(** what a repository publishes: files and their content *)
Record publication := mkPublication {
  pub_roots : list (string * metadata root_t);
  pub_timestamp : string; pub_timestamp_md : metadata timestamp_t;
  pub_snapshot : string; pub_snapshot_md : metadata snapshot_t;
  pub_targets : string; pub_targets_md : metadata targets_t;
  pub_snapshot_info : metafile;  (* what the timestamp says about the snapshot *)
  pub_targets_info : metafile }. (* what the snapshot says about the targets *)
(** correctly signed, unexpired and mutually consistent for clients that trust root [r0]; [r] is the newest root *)
Definition honest (r0 r : metadata root_t) (now : Z) (P : publication) : Prop :=
  root_updates r0 (pub_roots P) r /\ ~ expired_at r now /\
  (document (pub_timestamp P) (pub_timestamp_md P) /\ root_signs r "timestamp" (pub_timestamp_md P) /\ ~ expired_at (pub_timestamp_md P) now) /\
  (names_snapshot (pub_timestamp_md P) (pub_snapshot_info P) /\ matches_file (pub_snapshot_info P) (pub_snapshot P) /\ sn_version (md_signed (pub_snapshot_md P)) = mf_version (pub_snapshot_info P)) /\
  (document (pub_snapshot P) (pub_snapshot_md P) /\ root_signs r "snapshot" (pub_snapshot_md P) /\ ~ expired_at (pub_snapshot_md P) now) /\
  (lists_file (pub_snapshot_md P) "targets.json" (pub_targets_info P) /\ matches_file (pub_targets_info P) (pub_targets P) /\ tg_version (md_signed (pub_targets_md P)) = mf_version (pub_targets_info P)) /\
  (document (pub_targets P) (pub_targets_md P) /\ root_signs r "targets" (pub_targets_md P) /\ ~ expired_at (pub_targets_md P) now).
(** the server answers requests for [url] with [data] unless the client allows less *)
Definition serves (url data : string) : Prop := forall tr len, Z.of_nat (String.length data) <= len -> e_net E tr url len = Ok data.
Definition version_in_url (r : metadata root_t) (v : Z) : string := if rt_consistent (md_signed r) then fmt_dec v else "".
(** the publication is on the server, under the names clients ask for, and within the sizes they allow *)
Definition on_server (r0 r : metadata root_t) (P : publication) : Prop :=
  (forall i data r1, pub_roots P !! i = Some (data, r1) -> Z.of_nat (String.length data) <= c_root_max c /\ serves (url_of "root" (fmt_dec (rt_version (md_signed r0) + 1 + Z.of_nat i))) data) /\
  (forall tr len, exists e, e_net E tr (url_of "root" (fmt_dec (rt_version (md_signed r) + 1))) len = Err e /\ not_found e) /\
  (Z.of_nat (String.length (pub_timestamp P)) <= c_timestamp_max c /\ serves (url_of "timestamp" "") (pub_timestamp P)) /\
  ((mf_length (pub_snapshot_info P) = 0 -> Z.of_nat (String.length (pub_snapshot P)) <= c_snapshot_max c) /\
   serves (url_of "snapshot" (version_in_url r (mf_version (pub_snapshot_info P)))) (pub_snapshot P)) /\
  ((mf_length (pub_targets_info P) = 0 -> Z.of_nat (String.length (pub_targets P)) <= c_targets_max c) /\
   serves (url_of "targets" (version_in_url r (mf_version (pub_targets_info P)))) (pub_targets P)).
(** files can be written, unless the cache is disabled and none is *)
Definition disk_works (d : disk) : Prop :=
  c_disable_cache c = true \/
  (c_metadata_dir c <> "" /\ c_targets_dir c <> "" /\ (forall tr, e_io E tr = true) /\
   exists cwd, e_cwd E = Some cwd /\ forall n, d !! (cwd +:+ "/tuf_tmp" +:+ fmt_dec n) = None).
(** the client's configuration can follow the publication *)
Definition can_follow (r0 : metadata root_t) (P : publication) : Prop :=
  c_unsafe_local c = false /\ Z.of_nat (List.length (pub_roots P)) <= c_max_root_rotations c /\ rt_version (md_signed r0) + c_max_root_rotations c < 2 ^ 63 - 1.
(** a cached file: of the right type with a signable content, and if properly signed then not from another history *)
Definition cached_timestamp (r : metadata root_t) (P : publication) (data : string) : Prop :=
  exists ts, document data ts /\ (exists p, signing_payload (md_signed ts) = Ok p) /\
    (root_signs r "timestamp" ts -> ts = pub_timestamp_md P \/
      (ts_version (md_signed ts) < ts_version (md_signed (pub_timestamp_md P)) /\ exists f, names_snapshot ts f /\ mf_version f <= mf_version (pub_snapshot_info P))).
Definition cached_snapshot (r : metadata root_t) (now : Z) (P : publication) (data : string) : Prop :=
  exists sn, document data sn /\ (exists p, signing_payload (md_signed sn) = Ok p) /\
    (root_signs r "snapshot" sn -> sn = pub_snapshot_md P \/
      (no_rollback sn (pub_snapshot_md P) /\ (sn_version (md_signed sn) <> mf_version (pub_snapshot_info P) \/ expired_at sn now))).
(** for targets, anything that does not have the length and hashes that the snapshot lists *)
Definition cached_targets (r : metadata root_t) (now : Z) (P : publication) (data : string) : Prop :=
  matches_file (pub_targets_info P) data -> exists m, document data m /\ (exists p, signing_payload (md_signed m) = Ok p) /\
    (root_signs r "targets" m -> m = pub_targets_md P \/ tg_version (md_signed m) <> mf_version (pub_targets_info P) \/ expired_at m now).
(** the trusted set is what is published *)
Definition up_to_date (r : metadata root_t) (P : publication) (t : trusted) : Prop :=
  t_root t = r /\ t_timestamp t = Some (pub_timestamp_md P) /\ t_snapshot t = Some (pub_snapshot_md P) /\ t_targets t = {["targets" := pub_targets_md P]}.

(** ** Target files *)
(** the file a target is stored in: the given one, else the one derived from the target's path *)
Definition file_for (tf : targetfile) (given p : string) : Prop :=
  (given <> "" /\ p = given) \/ (given = "" /\ target_file_path E c tf = Ok p).
(** [data] has the length and all hashes of the target info *)
Definition matches_target (tf : targetfile) (data : string) : Prop :=
  hashes_ok (tf_hashes tf) data /\ tf_length tf = Z.of_nat (String.length data).

(** the URLs downloaded, in order *)
Fixpoint downloads (evs : list event) : list string :=
  match evs with [] => [] | EvGet url _ _ :: evs => url :: downloads evs | _ :: evs => downloads evs end.
End SpecUpdater.
