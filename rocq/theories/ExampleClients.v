(** * ExampleClients: the programs examples/client and examples/multirepo/client *)
From stdpp Require Import base gmap strings list.
From Coq Require Import ZArith Ascii String.
From Verif Require Import GoBase GoStr Json GoTime Types Marshal Keys Glob Metadata TrustedMetadata Fetcher Updater Cli MultiRepo.
Open Scope Z_scope.

Section ExampleClients.
Context {CR : Crypto} (E : env).
(** ** examples/client/client_example.go *)
(** The addresses and the target name are constants there (lines 31-35); here they are parameters.  Log messages are left
    out. *)
(** InitEnvironment: client_example.go:66-88, with generateRandomFolder = false.  The errors of os.Mkdir are ignored. *)
Definition init_environment : IO string :=
  do cwd := getwd E in
  let tmp := path_join [cwd; "tmp"] in
  try _ := mkdir E tmp in
  try _ := mkdir E (path_join [tmp; "download"]) in
  sret tmp.
(** os.Stat of a file: true if there is no error.  It may fail although the file is there. *)
Definition stat_file (p : string) : IO bool := fun i =>
  match io_disk i !! p with
  | Some _ => if e_io E (io_trace i) then (log (io_disk i) i EvChoice, Ok true) else (log (io_disk i) i (EvFail "stat" p), Ok false)
  | None => (log (io_disk i) i EvChoice, Ok false)
  end.
(** InitTrustOnFirstUse: client_example.go:91-130.  The HTTP status is not looked at and the length is not limited. *)
Definition init_trust_on_first_use (url dir : string) : IO unit :=
  do there := stat_file (path_join [dir; "root.json"]) in
  if there then sret tt
  else
    do u := sout (url_join E url "1.root.json") in
    do data := fetch E u no_limit in
    write_file E (path_join [dir; "root.json"]) data.
(** the configuration of DownloadTarget: client_example.go:143-150 *)
Definition example_config (url turl dir root : string) : outcome config :=
  let! c := config_new (url_join E url "targets") url root in
  Ok (mkConfig (c_max_root_rotations c) (c_max_delegations c) (c_root_max c) (c_timestamp_max c) (c_snapshot_max c) (c_targets_max c)
    (c_trusted_root c) dir (path_join [dir; "download"]) (c_metadata_url c) turl (c_disable_cache c) true (c_unsafe_local c)).
(** the part of DownloadTarget that uses the updater: client_example.go:158-187; the path it logs.  Found or not in the
    cache, the target is downloaded.  A null entry is a nil *TargetFiles, which FindCachedTarget dereferences. *)
Definition example_target (c : config) (target : string) : M string :=
  do _ := refresh E c in
  do o := get_target_info E c target in
  match o with
  | None => sout Panic
  | Some tf =>
      do _ := lift (find_cached_target E c tf "") in
      do got := download_target E c tf "" "" in
      sret (fst got)
  end.
(** DownloadTarget: client_example.go:135-188 *)
Definition example_download (url turl dir target : string) (now : Z) : IO string :=
  do root := read_file E (path_join [dir; "root.json"]) in
  do c := sout (example_config url turl dir root) in
  do t := updater_new E c now in
  with_updater t (example_target c target).
(** main: client_example.go:39-63.  Errors are logged and the program goes on; the directory is "" if InitEnvironment
    failed. *)
Definition example_main (url turl target : string) (now : Z) : IO string :=
  try d := init_environment in
  let dir := match d with inl d => d | inr _ => "" end in
  try _ := init_trust_on_first_use url dir in
  example_download url turl dir target now.

(** ** examples/multirepo/client/client_example.go *)
(** [range up.GetTopLevelTargets()]: client_example.go:123 *)
Definition listed_targets : M (list (string * option targetfile)) := fun w =>
  match top_level_targets (w_trusted w) with
  | Ok l => lift (iterate E l) w
  | Err e => (w, Err e)
  | Panic => (w, Panic)
  end.
(** filepath.Split(path): the part up to and including the last separator *)
Definition split_dir (p : string) : string :=
  match rev (split_on "/" p) with _ :: ((_ :: _) as l) => join_str "/" (rev l) +:+ "/" | _ => "" end.
(** the loop of BootstrapTUF: client_example.go:123-156 *)
Fixpoint bootstrap_targets (c : config) (dir : string) (l : list (string * option targetfile)) (got : string * gmap string string) : M (string * gmap string string) :=
  match l with
  | [] => sret got
  | (name, o) :: l =>
      match o with
      | None => sout Panic
      | Some tf =>
          do _ := lift (find_cached_target E c tf "") in
          let place := path_join [dir; name] in
          do _ := lift (mkdir_all E (split_dir place)) in
          do r := download_target E c tf place "" in
          let data := snd r in
          bootstrap_targets c dir l
            (if String.eqb name "map.json" then (data, snd got)
             else (fst got, <[match split_on "/" name with s :: _ => s | [] => "" end := data]> (snd got)))
      end
  end.
(** the configuration of BootstrapTUF: client_example.go:102-108 *)
Definition bootstrap_config (url turl cwd root : string) : outcome config :=
  let! c := config_new (url_join E url "targets") url root in
  Ok (mkConfig (c_max_root_rotations c) (c_max_delegations c) (c_root_max c) (c_timestamp_max c) (c_snapshot_max c) (c_targets_max c)
    (c_trusted_root c) (path_join [cwd; "bootstrap"]) (path_join [cwd; "bootstrap/targets"]) (c_metadata_url c) turl (c_disable_cache c) (c_prefix_hash c) (c_unsafe_local c)).
(** BootstrapTUF: client_example.go:77-159: the map file and the trusted root of each repository *)
Definition bootstrap (url turl : string) (now : Z) : IO (string * gmap string string) :=
  do cwd := getwd E in
  let dir := path_join [cwd; "bootstrap/targets"] in
  do _ := mkdir_all E dir in
  do root := read_file E (path_join [cwd; "root.json"]) in
  do c := sout (bootstrap_config url turl cwd root) in
  do t := updater_new E c now in
  with_updater t (do _ := refresh E c in do l := listed_targets in bootstrap_targets c dir l ("", ∅)).
(** InitMultiRepoTUF: client_example.go:161-179; [now] is the clock reading *)
Definition multi_config (cwd text : string) (roots : gmap string string) : outcome mrconfig :=
  let! mc := mr_new_config text (Some roots) in
  Ok (mkMrConfig (mc_map mc) (mc_roots mc) (path_join [cwd; "metadata"]) (path_join [cwd; "download"]) (mc_disable_cache mc)).
(** the rest of main: client_example.go:55-74 *)
Definition multi_target (rm : repomap) (target : string) : MR (string * string) :=
  do _ := mr_refresh E in
  do g := mr_get_target_info E rm target in
  mr_download_target E (snd g) (fst g) "" "".
(** main: client_example.go:35-75; [now1] and [now2] are the clock readings of the two steps.  An error is a panic in the
    program; here it stays an error, so that it can be told from a crash. *)
Definition multi_main (url turl target : string) (now1 now2 : Z) : IO (string * string) :=
  do got := bootstrap url turl now1 in
  do cwd := getwd E in
  do mc := sout (multi_config cwd (fst got) (snd got)) in
  do cls := mr_new E now2 mc in
  fun i => let '(s, o) := multi_target (mc_map mc) target (mkMr cls i) in (mr_io s, o).
End ExampleClients.
Example split_dir_case : map split_dir ["/a/b/c"; "c"; "/c"; "a/"] = ["/a/b/"; ""; "/"; "a/"].
Proof. vm_compute. reflexivity. Qed.
