(** * Updater: metadata/updater/updater.go *)
From stdpp Require Import base gmap strings list.
From Coq Require Import ZArith Ascii String.
From Verif Require Import GoBase GoStr Json GoTime Types Marshal Keys Glob Metadata TrustedMetadata Fetcher.
Open Scope Z_scope.

(** ** The outside world *)
(** Everything an updater does to the outside, in order.  File operations are logged whether they succeed or not.
    [EvChoice] marks one iteration over a Go map (each may use another order). *)
Inductive event :=
  | EvGet (url : string) (maxlen : Z) (res : outcome string)   (* Fetcher.DownloadFile *)
  | EvRead (path : string) (res : outcome string)              (* readFile *)
  | EvMkdir (path : string) (ok : bool)                        (* os.MkdirAll *)
  | EvCreate (path : string)                                   (* a new empty file, os.CreateTemp *)
  | EvWrite (path data : string)                               (* the file now has this content, os.WriteFile *)
  | EvRename (from to : string)                                (* os.Rename, atomic *)
  | EvRemove (path : string)                                   (* os.Remove *)
  | EvFail (op path : string)                                  (* a file operation that failed without effect *)
  | EvChoice.
Definition trace := list event.
Definition disk := gmap string string.

(** The environment: answers may depend on everything that happened before.  Nothing is assumed about the network and
    the file system: any download may return anything, any file operation may fail, a failed write may leave any
    prefix of the data.  [e_order] is Go's map iteration order, a permutation. *)
Record env := mkEnv {
  e_net : trace -> string -> Z -> outcome string;
  e_io : trace -> bool;                         (* does the next file operation succeed? *)
  e_partial : trace -> option nat;              (* bytes a failing write leaves; None: file untouched *)
  e_cwd : option string;                        (* os.Getwd; None: it fails *)
  e_rand : trace -> Z;                          (* random part of temporary file names *)
  e_url_join : string -> string -> outcome string; (* url.JoinPath for bases that are not plain paths *)
  e_order : forall A, trace -> list (string * A) -> list (string * A);
  e_order_perm : forall A tr l, e_order A tr l ≡ₚ l }.

(** state of the outside world: file contents and the log *)
Record ios := mkIos { io_disk : disk; io_trace : trace }.
Definition IO (A : Type) := ios -> ios * outcome A.
(** state of one updater *)
Record world := mkWorld { w_trusted : trusted; w_io : ios }.
Definition M (A : Type) := world -> world * outcome A.

(** ** State-and-error monads (Go statements in sequence, [if err != nil { return err }]) *)
Definition sret {S A} (a : A) : S -> S * outcome A := fun s => (s, Ok a).
Definition sout {S A} (o : outcome A) : S -> S * outcome A := fun s => (s, o).
Definition sbind {S A B} (m : S -> S * outcome A) (f : A -> S -> S * outcome B) : S -> S * outcome B :=
  fun s => match m s with
           | (s', Ok a) => f a s'
           | (s', Err e) => (s', Err e)
           | (s', Panic) => (s', Panic)
           end.
(** run [m] and hand its error to the continuation *)
Definition satt {S A B} (m : S -> S * outcome A) (f : A + gerr -> S -> S * outcome B) : S -> S * outcome B :=
  fun s => match m s with
           | (s', Ok a) => f (inl a) s'
           | (s', Err e) => f (inr e) s'
           | (s', Panic) => (s', Panic)
           end.
Notation "'do' x := m 'in' k" := (sbind m (fun x => k))
  (at level 200, x name, m at level 100, k at level 200, right associativity).
Notation "'try' x := m 'in' k" := (satt m (fun x => k))
  (at level 200, x name, m at level 100, k at level 200, right associativity).
Definition lift {A} (m : IO A) : M A := fun w => let '(i, o) := m (w_io w) in (mkWorld (w_trusted w) i, o).
(** an operation of the trusted set *)
Definition on_trusted {A} (f : trusted -> upd A) : M A := fun w => let '(t, o) := f (w_trusted w) in (mkWorld t (w_io w), o).
Definition get_trusted : M trusted := fun w => (w, Ok (w_trusted w)).

(** ** Files and downloads *)
Section IO.
Context (E : env).
Definition log (d : disk) (i : ios) (e : event) : ios := mkIos d (io_trace i ++ [e]).

(** readFile: updater.go:661-672 *)
Definition read_file (p : string) : IO string := fun i =>
  let r := match io_disk i !! p with
           | Some data => if e_io E (io_trace i) then Ok data else Err (EOther "read")
           | None => Err (EOther "no such file")
           end in
  (log (io_disk i) i (EvRead p r), r).
(** os.MkdirAll; directories themselves are not modelled (a later operation may fail for want of a directory) *)
Definition mkdir_all (p : string) : IO unit := fun i =>
  let ok := negb (String.eqb p "") && e_io E (io_trace i) in
  (log (io_disk i) i (EvMkdir p ok), if ok then Ok tt else Err (EOther "mkdir")).
(** os.CreateTemp(dir, "tuf_tmp"): never an existing file *)
Definition create_temp (dir : string) : IO string := fun i =>
  let p := dir +:+ "/tuf_tmp" +:+ fmt_dec (e_rand E (io_trace i)) in
  if e_io E (io_trace i) && bool_decide (io_disk i !! p = None)
  then (log (<[p := ""]> (io_disk i)) i (EvCreate p), Ok p)
  else (log (io_disk i) i (EvFail "create" p), Err (EOther "create")).
(** os.WriteFile *)
Definition write_file (p data : string) : IO unit := fun i =>
  if e_io E (io_trace i) then (log (<[p := data]> (io_disk i)) i (EvWrite p data), Ok tt)
  else match e_partial E (io_trace i) with
       | Some n => (log (<[p := str_take n data]> (io_disk i)) i (EvWrite p (str_take n data)), Err (EOther "write"))
       | None => (log (io_disk i) i (EvFail "write" p), Err (EOther "write"))
       end.
(** os.Rename *)
Definition rename (a b : string) : IO unit := fun i =>
  match io_disk i !! a with
  | Some data => if e_io E (io_trace i)
                 then (log (<[b := data]> (delete a (io_disk i))) i (EvRename a b), Ok tt)
                 else (log (io_disk i) i (EvFail "rename" a), Err (EOther "rename"))
  | None => (log (io_disk i) i (EvFail "rename" a), Err (EOther "rename"))
  end.
(** os.Remove *)
Definition remove (a : string) : IO unit := fun i =>
  if e_io E (io_trace i) then (log (delete a (io_disk i)) i (EvRemove a), Ok tt)
  else (log (io_disk i) i (EvFail "remove" a), Err (EOther "remove")).
(** cfg.Fetcher.DownloadFile *)
Definition fetch (url : string) (maxlen : Z) : IO string := fun i =>
  let r := e_net E (io_trace i) url maxlen in (log (io_disk i) i (EvGet url maxlen r), r).
(** one iteration over a map *)
Definition iterate {A} (m : gomap A) : IO (list (string * A)) := fun i =>
  (log (io_disk i) i EvChoice, Ok (e_order E A (io_trace i) (mlist m))).

(** ensureTrailingSlash: updater.go:646-651 *)
Definition ensure_slash (u : string) : string := if has_suffix "/" u then u else u +:+ "/".

(** url.JoinPath(base, elem) for a base that is a plain path (nothing in it that url.Parse would treat specially or
    escape) and an elem without a slash, as used in updater.go:627: net/url JoinPath cleans the joined path, does not
    climb above the root, and leaves escaped elements alone. *)
Definition plain_char (a : ascii) : bool :=
  is_digit a || is_lower a || is_upper a || existsb (Ascii.eqb a) ["-"; "_"; "."; "~"; "/"; "$"; "&"; "+"; ","; ";"; "="; "@"]%char.
Definition plain_base (b : string) : bool := string_all plain_char b && negb (has_prefix "//" b).
Definition url_join (base elem : string) : outcome string :=
  if plain_base base then
    if has_prefix "/" base then Ok (path_join [base; elem])
    else Ok (str_drop 1 (path_join ["/" +:+ base; elem]))
  else e_url_join E base elem.

(** config.EnsurePathsExist: config.go:76-88 *)
Definition ensure_paths (c : config) : IO unit :=
  if c_disable_cache c then sret tt
  else do _ := mkdir_all (c_metadata_dir c) in mkdir_all (c_targets_dir c).

(** persistMetadata: updater.go:573-606 *)
Definition cache_name (c : config) (role : string) : string :=
  path_join [c_metadata_dir c; json_of (query_escape role)].
Definition persist_metadata (c : config) (role data : string) : IO unit :=
  if c_disable_cache c then sret tt
  else
    do cwd := sout (match e_cwd E with Some d => Ok d | None => Err (EOther "getwd") end) in
    do tmp := create_temp cwd in
    try w := write_file tmp data in
    match w with
    | inr e => try _ := remove tmp in sout (Err e)
    | inl _ => rename tmp (cache_name c role)
    end.

(** downloadMetadata: updater.go:609-618 *)
Definition metadata_url (c : config) (role version : string) : string :=
  ensure_slash (c_metadata_url c) +:+
  (if String.eqb version "" then json_of (query_escape role) else version +:+ "." +:+ json_of (query_escape role)).
Definition download_metadata (c : config) (role : string) (length : Z) (version : string) : IO string :=
  fetch (metadata_url c role version) length.

(** generateTargetFilePath: updater.go:621-628 *)
Definition target_file_path (c : config) (tf : targetfile) : outcome string :=
  if String.eqb (c_targets_dir c) "" && negb (c_disable_cache c)
  then Err (ErrValue "LocalTargetsDir must be set if filepath is not given")
  else url_join (c_targets_dir c) (query_escape (tf_path tf)).

(** loadLocalMetadata(filepath.Join(LocalMetadataDir, role)): updater.go:631-633 and its callers *)
Definition local_name (c : config) (role : string) : string := json_of (path_join [c_metadata_dir c; role]).
Definition load_local (c : config) (role : string) : IO string := read_file (local_name c role).
End IO.

Section Updater.
Context {CR : Crypto} (E : env) (c : config).

(** UpdateSnapshot with the map order of the moment *)
Definition upd_snapshot (data : string) (flag : bool) : M (metadata snapshot_t) := fun w =>
  let i' := log (io_disk (w_io w)) (w_io w) EvChoice in
  on_trusted (fun t => update_snapshot (e_order E (option metafile) (io_trace (w_io w))) t data flag) (mkWorld (w_trusted w) i').

(** New: updater.go:65-92.  [now] is the clock reading. *)
Definition updater_new (now : Z) : IO trusted :=
  if String.eqb (c_trusted_root c) "" || String.eqb (c_metadata_url c) ""
  then sout (Err (EOther "no initial trusted root metadata or remote URL provided"))
  else
    do t := sout (tm_new (c_trusted_root c) now) in
    do _ := ensure_paths E c in
    do _ := persist_metadata E c ROOT (c_trusted_root c) in
    sret t.

(** errors.As(err, *ErrDownloadHTTP) *)
Fixpoint http_status (e : gerr) : option Z :=
  match e with
  | ErrDownloadHTTP status _ => Some status
  | EWrap _ e => http_status e
  | _ => None
  end.
(** loadRoot: updater.go:469-504.  [fuel] counts the remaining iterations: the loop runs from version+1 up to, not
    including, version+1+MaxRootRotations (64-bit arithmetic). *)
Fixpoint root_loop (fuel : nat) (next : Z) : M unit :=
  match fuel with
  | O => sret tt
  | S fuel =>
      try r := lift (download_metadata E c ROOT (c_root_max c) (fmt_dec next)) in
      match r with
      | inr e =>
          match http_status e with
          | Some status => if (status =? 404) || (status =? 403) then sret tt else sout (Err e)
          | None => sout (Err e)
          end
      | inl data =>
          do _ := on_trusted (fun t => update_root t data) in
          do _ := lift (persist_metadata E c ROOT data) in
          root_loop fuel (wrap64 (next + 1))
      end
  end.
Definition load_root : M unit := fun w =>
  let lower := wrap64 (rt_version (md_signed (t_root (w_trusted w))) + 1) in
  let upper := wrap64 (lower + c_max_root_rotations c) in
  root_loop (Z.to_nat (upper - lower)) lower w.

(** loadTimestamp: updater.go:292-337 *)
Definition load_timestamp : M unit :=
  try l := lift (load_local E c TIMESTAMP) in
  do _ := match l with
          | inr _ => sret tt
          | inl data =>
              try r := on_trusted (fun t => update_timestamp t data) in
              match r with
              | inl _ => sret tt
              | inr e => if errors_is e (ErrRepository "") then sret tt else sout (Err e)
              end
          end in
  do data := lift (download_metadata E c TIMESTAMP (c_timestamp_max c) "") in
  try r := on_trusted (fun t => update_timestamp t data) in
  match r with
  | inr e => if errors_is e (ErrEqualVersionNumber "") then sret tt else sout (Err e)
  | inl _ => lift (persist_metadata E c TIMESTAMP data)
  end.

(** loadSnapshot: updater.go:340-398 *)
Definition consistent (t : trusted) : bool := rt_consistent (md_signed (t_root t)).
Definition load_snapshot : M unit :=
  try l := lift (load_local E c SNAPSHOT) in
  do local := match l with
              | inr _ => sret false
              | inl data =>
                  try r := upd_snapshot data true in
                  match r with
                  | inl _ => sret true
                  | inr e => if errors_is e (ErrRepository "") then sret false else sout (Err e)
                  end
              end in
  if local : bool then sret tt
  else
    do t := get_trusted in
    match t_timestamp t with
    | None => sout (Err (EOther "trusted timestamp not set"))
    | Some ts =>
        match snapshot_meta ts with
        | None => sout Panic
        | Some f =>
            let length := if mf_length f =? 0 then c_snapshot_max c else mf_length f in
            let version := if consistent t then fmt_dec (mf_version f) else "" in
            do data := lift (download_metadata E c SNAPSHOT length version) in
            do _ := upd_snapshot data false in
            lift (persist_metadata E c SNAPSHOT data)
        end
    end.

(** loadTargets: updater.go:401-464 *)
Definition load_targets (role parent : string) : M (metadata targets_t) :=
  do t := get_trusted in
  match t_targets t !! role with
  | Some m => sret m
  | None =>
      try l := lift (load_local E c role) in
      do local := match l with
                  | inr _ => sret None
                  | inl data =>
                      try r := on_trusted (fun t => update_delegated_targets t data role parent) in
                      match r with
                      | inl m => sret (Some m)
                      | inr e => if errors_is e (ErrRepository "") then sret None else sout (Err e)
                      end
                  end in
      match local with
      | Some m => sret m
      | None =>
          do t := get_trusted in
          match t_snapshot t with
          | None => sout (Err (EOther "trusted snapshot not set"))
          | Some sn =>
              match mget (sn_meta (md_signed sn)) (json_of role) with
              | Some (Some f) =>
                  let length := if mf_length f =? 0 then c_targets_max c else mf_length f in
                  let version := if consistent t then fmt_dec (mf_version f) else "" in
                  do data := lift (download_metadata E c role length version) in
                  do m := on_trusted (fun t => update_delegated_targets t data role parent) in
                  do _ := lift (persist_metadata E c role data) in
                  sret m
              | _ => sout Panic
              end
          end
      end
  end.

(** Refresh: updater.go:109-180 *)
Definition online_refresh : M unit :=
  do _ := load_root in
  do _ := load_timestamp in
  do _ := load_snapshot in
  do _ := load_targets TARGETS ROOT in
  sret tt.
Definition unsafe_refresh : M unit :=
  do data := lift (load_local E c TIMESTAMP) in
  do _ := on_trusted (fun t => update_timestamp t data) in
  do data := lift (load_local E c SNAPSHOT) in
  do _ := upd_snapshot data false in
  do data := lift (load_local E c TARGETS) in
  do _ := on_trusted (fun t => update_delegated_targets t data TARGETS ROOT) in
  sret tt.
Definition refresh : M unit := if c_unsafe_local c then unsafe_refresh else online_refresh.

(** the children of a role in iteration order, cut after the first terminating one: updater.go:545-554 *)
Fixpoint take_children (l : list (string * bool)) : list string * bool :=
  match l with
  | [] => ([], false)
  | (n, true) :: _ => ([n], true)
  | (n, false) :: l => let '(ns, t) := take_children l in (n :: ns, t)
  end.
(** preOrderDepthFirstWalk: updater.go:509-570.  The work list is kept top first.  Skipping a visited role shortens the
    work list, visiting one uses up [fuel] = remaining visits, so the walk is a recursion on [fuel] with an inner
    recursion on the work list. *)
Fixpoint skip_visited (visited : gset string) (todo : list (string * string)) : list (string * string) :=
  match todo with
  | [] => []
  | (role, parent) :: rest => if decide (role ∈ visited) then skip_visited visited rest else todo
  end.
Fixpoint walk (fuel : nat) (target : string) (visited : gset string) (todo : list (string * string)) : M (option targetfile) :=
  match fuel with
  | O => sout (Err (EOther "target not found"))
  | S fuel =>
      match skip_visited visited todo with
      | [] => sout (Err (EOther "target not found"))
      | (role, parent) :: rest =>
          do m := load_targets role parent in
          match mget (tg_targets (md_signed m)) target with
          | Some tf => sret tf
          | None =>
              let visited := {[role]} ∪ visited in
              match tg_delegations (md_signed m) with
              | None => walk fuel target visited rest
              | Some d =>
                  do roles := sout (roles_for_target d target) in
                  do order := lift (iterate E (Some roles)) in
                  let '(children, term) := take_children order in
                  walk fuel target visited (map (fun n => (n, role)) children ++ (if term : bool then [] else rest))
              end
          end
      end
  end.
(** the loop runs while at most MaxDelegations roles were visited, so MaxDelegations+1 roles are inspected *)
Definition pre_order_walk (target : string) : M (option targetfile) :=
  walk (Z.to_nat (c_max_delegations c + 1)) target ∅ [(TARGETS, ROOT)].

(** GetTargetInfo: updater.go:189-198; a nil result (a null target entry) cannot occur for parsed metadata *)
Definition get_target_info (target : string) : M (option targetfile) :=
  do t := get_trusted in
  do _ := match t_targets t !! TARGETS with None => refresh | Some _ => sret tt end in
  pre_order_walk target.

(** the URL path of a target: updater.go:217-233.  [h] is the first hash in iteration order *)
Definition prefixed_path (path h : string) : string :=
  match cut_on "/" path with
  | None => h +:+ "." +:+ path
  | Some (dir, base) => dir +:+ "/" +:+ h +:+ "." +:+ base
  end.
Definition first_hash (l : list (string * string)) : string := match l with [] => "" | (_, v) :: _ => hex_encode v end.
(** DownloadTarget: updater.go:201-256 *)
Definition download_target (tf : targetfile) (file_path base_url : string) : M (string * string) :=
  do file_path := sout (if String.eqb file_path "" then target_file_path E c tf else Ok file_path) in
  do base_url := sout (if String.eqb base_url "" then
                         if String.eqb (c_targets_url c) "" then Err (ErrValue "targetBaseURL must be set in either DownloadTarget() or the Updater struct")
                         else Ok (ensure_slash (c_targets_url c))
                       else Ok (ensure_slash base_url)) in
  do t := get_trusted in
  do path := (if consistent t && c_prefix_hash c then
                do hs := lift (iterate E (tf_hashes tf)) in sret (prefixed_path (tf_path tf) (first_hash hs))
              else sret (tf_path tf)) in
  do data := lift (fetch E (base_url +:+ path) (tf_length tf)) in
  do _ := sout (targetfile_verify tf data) in
  do _ := (if c_disable_cache c then sret tt else lift (write_file E file_path data)) in
  sret (file_path, data).

(** FindCachedTarget: updater.go:259-289; a cached target that is missing or wrong gives an empty result *)
Definition find_cached_target (tf : targetfile) (file_path : string) : IO (string * string) :=
  if c_disable_cache c then sret ("", "")
  else
    do p := sout (if String.eqb file_path "" then target_file_path E c tf else Ok file_path) in
    try r := read_file E p in
    match r with
    | inr _ => sret ("", "")
    | inl data =>
        match targetfile_verify tf data with
        | Ok _ => sret (p, data)
        | Err _ => sret ("", "")
        | Panic => sout Panic
        end
    end.

(** GetTopLevelTargets: updater.go:636-638; nil dereference before a refresh *)
Definition top_level_targets (t : trusted) : outcome (gomap (option targetfile)) :=
  match t_targets t !! TARGETS with Some m => Ok (tg_targets (md_signed m)) | None => Panic end.
End Updater.
