(** * Cli: the example client examples/cli/tuf-client (commands init, get and reset) *)
From stdpp Require Import base gmap strings list.
From Coq Require Import ZArith Ascii String.
From Verif Require Import GoBase GoStr Json GoTime Types Marshal Keys Glob Metadata TrustedMetadata Fetcher Updater.
Open Scope Z_scope.

(** DefaultMetadataDir, DefaultDownloadDir: cmd/root.go:21-24 *)
Definition METADATA_DIR : string := "tuf_metadata".
Definition DOWNLOAD_DIR : string := "tuf_download".
Section Cli.
Context {CR : Crypto} (E : env).
(** os.Getwd *)
Definition getwd : IO string := sout (match e_cwd E with Some d => Ok d | None => Err (EOther "getwd") end).
(** files in directory [dir], at any depth *)
Definition below (dir : string) (d : disk) : list string := List.filter (has_prefix (dir +:+ "/")) (map fst (map_to_list d)).
(** os.Mkdir: fails if the directory exists.  Directories are not modelled, but one with a file in it exists; whether one
    without does is up to [e_io]. *)
Definition mkdir (p : string) : IO unit := fun i =>
  let ok := match below p (io_disk i) with [] => e_io E (io_trace i) | _ => false end in
  (log (io_disk i) i (EvMkdir p ok), if ok then Ok tt else Err (EOther "mkdir")).
(** os.Stat: may fail or not, as an empty directory may exist or not (what it says is only used to stop early) *)
Definition stat (p : string) : IO unit := fun i =>
  (log (io_disk i) i EvChoice, if e_io E (io_trace i) then Ok tt else Err (EOther "stat")).
(** a relative path is relative to the working directory *)
Definition absolute (cwd p : string) : string := if has_prefix "/" p then p else path_join [cwd; p].

(** prepareEnvironment: cmd/init.go:103-124 *)
Definition prepare_environment : IO string :=
  do cwd := getwd in
  do _ := mkdir (path_join [cwd; METADATA_DIR]) in
  do _ := mkdir (path_join [cwd; DOWNLOAD_DIR]) in
  sret (path_join [cwd; METADATA_DIR]).
(** fetchTrustedRoot: cmd/init.go:127-159.  The HTTP status is not looked at and the length is not limited. *)
Definition no_limit : Z := 2 ^ 63 - 1.
Definition fetch_trusted_root (url dir : string) : IO string :=
  do u := sout (url_join E url "1.root.json") in
  do data := fetch E u no_limit in
  do _ := write_file E (path_join [dir; "root.json"]) data in
  sret dir.
(** InitializeCmd: cmd/init.go:50-100; [root_path] is the flag --file, [now] the clock reading in trustedmetadata.New *)
Definition init_cmd (url root_path : string) (now : Z) : IO unit :=
  do dir := prepare_environment in
  do cwd := getwd in
  do path := (if String.eqb root_path "" then do dir := fetch_trusted_root url dir in sret (dir +:+ "/" +:+ ROOT +:+ ".json")
              else sret root_path) in
  do data := read_file E (absolute cwd path) in
  do _ := sout (tm_new data now) in
  if String.eqb root_path "" then sret tt else write_file E (path_join [dir; root_path]) data.

(** run a method of an updater with the trusted set [t]; its final trusted set is dropped with the updater *)
Definition with_updater {A} (t : trusted) (m : M A) : IO A := fun i => let '(w, o) := m (mkWorld t i) in (w_io w, o).
(** the flags of get: --url, --turl, --nonprefixed *)
Record get_flags := mkFlags { g_url : string; g_turl : string; g_nonprefixed : bool }.
(** the updater configuration of GetCmd: cmd/get.go:75-83, verifyEnv: cmd/get.go:131-141; everything else as config.New
    sets it *)
Definition get_config (f : get_flags) (cwd root : string) : outcome config :=
  let! c := config_new (url_join E (g_url f) "targets") (g_url f) root in
  Ok (mkConfig (c_max_root_rotations c) (c_max_delegations c) (c_root_max c) (c_timestamp_max c) (c_snapshot_max c) (c_targets_max c)
    (c_trusted_root c) (path_join [cwd; METADATA_DIR]) (path_join [cwd; DOWNLOAD_DIR]) (c_metadata_url c)
    (if String.eqb (g_turl f) "" then g_url f else g_turl f) (c_disable_cache c) (negb (g_nonprefixed f)) (c_unsafe_local c)).
(** the part of GetCmd that uses the updater: cmd/get.go:91-122; the path printed at the end.  A null entry for the target
    is a nil *TargetFiles without error, which FindCachedTarget dereferences. *)
Definition get_target (c : config) (target : string) : M string :=
  do _ := refresh E c in
  do o := get_target_info E c target in
  match o with
  | None => sout Panic
  | Some tf =>
      do found := lift (find_cached_target E c tf "") in
      if negb (String.eqb (fst found) "") then sret (fst found)
      else do got := download_target E c tf "" "" in sret (fst got)
  end.
(** GetCmd: cmd/get.go:57-123; verifyEnv: cmd/get.go:125-159 *)
Definition get_cmd (f : get_flags) (target : string) (now : Z) : IO string :=
  do cwd := getwd in
  let dir := path_join [cwd; METADATA_DIR] in
  do _ := stat dir in
  do _ := stat (path_join [cwd; DOWNLOAD_DIR]) in
  do _ := stat (dir +:+ "/" +:+ ROOT +:+ ".json") in
  do root := read_file E (path_join [dir; "root.json"]) in
  do c := sout (get_config f cwd root) in
  do t := updater_new E c now in
  with_updater t (get_target c target).

(** os.RemoveAll: every file in the directory (or the file of that name); one that cannot be removed stays, and the
    error is ignored *)
Fixpoint remove_each (l : list string) : IO unit :=
  match l with [] => sret tt | p :: l => try _ := remove E p in remove_each l end.
Definition remove_all (dir : string) : IO unit := fun i =>
  remove_each (match io_disk i !! dir with Some _ => [dir] | None => [] end ++ below dir (io_disk i)) i.
(** askForConfirmation: cmd/reset.go:72-88.  [answers] are the lines typed, None is one that fmt.Scanln rejects (the
    program exits then, and at the end of the input).  The answer and the remaining lines. *)
(** strings.ToLower; characters outside ASCII are left alone, none of them has a lower case form in the answers *)
Fixpoint lower (s : string) : string :=
  match s with EmptyString => EmptyString | String a s => String (if is_upper a then zb (bz a + 32) else a) (lower s) end.
Fixpoint ask (answers : list (option string)) : outcome (bool * list (option string)) :=
  match answers with
  | [] | None :: _ => Err (EOther "exit")
  | Some a :: rest =>
      if String.eqb (lower a) "y" || String.eqb (lower a) "yes" then Ok (true, rest)
      else if String.eqb (lower a) "n" || String.eqb (lower a) "no" then Ok (false, rest)
      else ask rest
  end.
(** ResetCmd: cmd/reset.go:40-70 *)
Definition reset_cmd (force : bool) (answers : list (option string)) : IO unit :=
  do cwd := getwd in
  do a := sout (if force then Ok (true, answers) else ask answers) in
  do _ := (if fst a then remove_all (path_join [cwd; METADATA_DIR]) else sret tt) in
  do b := sout (if force then Ok (true, snd a) else ask (snd a)) in
  if fst b then remove_all (path_join [cwd; DOWNLOAD_DIR]) else sret tt.
End Cli.
