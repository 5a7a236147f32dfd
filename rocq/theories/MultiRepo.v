(** * Multi-repository client: metadata/multirepo/multirepo.go *)
From stdpp Require Import base gmap strings list.
From Coq Require Import ZArith Ascii String.
From Verif Require Import GoBase GoStr Json GoTime Types Marshal Keys Glob Metadata TrustedMetadata Fetcher Updater.
Open Scope Z_scope.

(** multirepo.go:26-36; the mapping list holds pointers *)
Record mapping := mkMapping { mp_paths : goslice string; mp_repos : goslice string; mp_threshold : Z; mp_terminating : bool }.
Record repomap := mkRepoMap { rm_repos : gomap (goslice string); rm_mapping : goslice (option mapping) }.
(** multirepo.go:39-45 *)
Record mrconfig := mkMrConfig {
  mc_map : repomap; mc_roots : gomap string; mc_metadata_dir : string; mc_targets_dir : string; mc_disable_cache : bool }.

Definition mapping_zero := mkMapping None None 0 false.
Definition mapping_fields : fields mapping :=
  [("paths", fun j x => let! v := dec_strings j (mp_paths x) in Ok (mkMapping v (mp_repos x) (mp_threshold x) (mp_terminating x)));
   ("repositories", fun j x => let! v := dec_strings j (mp_repos x) in Ok (mkMapping (mp_paths x) v (mp_threshold x) (mp_terminating x)));
   ("threshold", fun j x => let! v := dec_int j (mp_threshold x) in Ok (mkMapping (mp_paths x) (mp_repos x) v (mp_terminating x)));
   ("terminating", fun j x => let! v := dec_bool j (mp_terminating x) in Ok (mkMapping (mp_paths x) (mp_repos x) (mp_threshold x) v))].
(** a pointer element is reused if it is not nil *)
Definition dec_mapping (j : json) (old : option mapping) : outcome (option mapping) :=
  match j with
  | JNull => Ok None
  | _ => let! m := decode_struct mapping_fields (default mapping_zero old) j in Ok (Some m)
  end.
Definition repomap_zero := mkRepoMap None None.
Definition repomap_fields : fields repomap :=
  [("repositories", fun j x => let! v := dec_map (fun j => dec_strings j None) j (rm_repos x) in Ok (mkRepoMap v (rm_mapping x)));
   ("mapping", fun j x => let! v := dec_slice dec_mapping None j (rm_mapping x) in Ok (mkRepoMap (rm_repos x) v))].

(** NewConfig: multirepo.go:60-85.  A map file that is null leaves a nil pointer which is dereferenced. *)
Definition mr_new_config (repo_map : string) (roots : gomap string) : outcome mrconfig :=
  if String.eqb repo_map "" || bool_decide (mmap roots = ∅) then Err (EOther "no map file and/or trusted root metadata is provided")
  else match parse_json repo_map with
       | None => Err (EOther "invalid JSON")
       | Some JNull => Panic
       | Some j =>
           let! m := decode_struct repomap_fields repomap_zero j in
           if forallb (fun kv => bool_decide (is_Some (mget roots kv.1))) (mlist (rm_repos m))
           then Ok (mkMrConfig m roots "" "" false)
           else Err (EOther "no trusted root metadata provided for repository")
       end.

(** One TUF client per repository, all on the same file system. *)
Record client := mkClient { cl_cfg : config; cl_trusted : trusted }.
Record mrstate := mkMr { mr_clients : gmap string client; mr_io : ios }.
Definition MR (A : Type) := mrstate -> mrstate * outcome A.
Definition mr_lift {A} (m : IO A) : MR A := fun s => let '(i, o) := m (mr_io s) in (mkMr (mr_clients s) i, o).
(** call a method of the client of a repository; a missing client is a nil pointer *)
Definition on_client {A} (repo : string) (f : config -> M A) : MR A := fun s =>
  match mr_clients s !! repo with
  | None => (s, Panic)
  | Some cl =>
      let '(w, o) := f (cl_cfg cl) (mkWorld (cl_trusted cl) (mr_io s)) in
      (mkMr (<[repo := mkClient (cl_cfg cl) (w_trusted w)]> (mr_clients s)) (w_io w), o)
  end.

Section MultiRepo.
Context {CR : Crypto} (E : env).

(** MultiRepoConfig.EnsurePathsExist: multirepo.go:333-344 *)
Definition mr_ensure_paths (mc : mrconfig) : IO unit :=
  if mc_disable_cache mc then sret tt
  else do _ := mkdir_all E (mc_metadata_dir mc) in mkdir_all E (mc_targets_dir mc).

(** initTUFClients: multirepo.go:103-155, for one repository.  repoURL[0] panics on an empty list.
    [now] is the clock reading. *)
Definition init_client (now : Z) (mc : mrconfig) (name : string) (urls : goslice string) : IO client :=
  match slist urls with
  | [] => sout Panic
  | u :: _ =>
      match mget (mc_roots mc) name with
      | None => sout (Err (EOther "failed to get trusted root metadata from config for repository"))
      | Some root =>
          let mdir := path_join [mc_metadata_dir mc; name] in
          let tdir := if String.eqb (mc_targets_dir mc) "" then path_join [mdir; "targets"] else mc_targets_dir mc in
          do _ := mr_ensure_paths mc in
          do c := sout (config_new (url_join E u "targets") u root) in
          let c := mkConfig (c_max_root_rotations c) (c_max_delegations c) (c_root_max c) (c_timestamp_max c)
                     (c_snapshot_max c) (c_targets_max c) (c_trusted_root c) mdir tdir (c_metadata_url c) (c_targets_url c)
                     (mc_disable_cache mc) (c_prefix_hash c) (c_unsafe_local c) in
          try t := updater_new E c now in
          match t with
          | inl t => sret (mkClient c t)
          | inr e => sout (Err (EWrap "failed to create Updater instance" e))
          end
      end
  end.
Fixpoint init_clients (now : Z) (mc : mrconfig) (l : list (string * goslice string)) (acc : gmap string client) : IO (gmap string client) :=
  match l with
  | [] => sret acc
  | (name, urls) :: l =>
      do cl := init_client now mc name urls in init_clients now mc l (<[name := cl]> acc)
  end.
(** New: multirepo.go:88-100 *)
Definition mr_new (now : Z) (mc : mrconfig) : IO (gmap string client) :=
  do l := iterate E (rm_repos (mc_map mc)) in init_clients now mc l ∅.

(** Refresh: multirepo.go:158-170 *)
Fixpoint mr_refresh_list (l : list string) : MR unit :=
  match l with
  | [] => sret tt
  | name :: l => do _ := on_client name (fun c => refresh E c) in mr_refresh_list l
  end.
Definition mr_refresh : MR unit := fun s =>
  let '(i, o) := iterate E (Some (mr_clients s)) (mr_io s) in
  match o with
  | Ok l => mr_refresh_list (map fst l) (mkMr (mr_clients s) i)
  | Err e => (mkMr (mr_clients s) i, Err e)
  | Panic => (mkMr (mr_clients s) i, Panic)
  end.

(** ** GetTargetInfo: multirepo.go:210-301 *)
Definition group := (targetfile * list string)%type.
(** multirepo.go:237-257: add one repository's answer to the groups *)
Definition add_answer (repo : string) (info : targetfile) (gs : list group) : list group :=
  if existsb (fun g : group => targetfile_equal g.1 info) gs then
    map (fun g : group =>
           if targetfile_equal g.1 info then
             if decide (repo ∈ g.2) then g else (g.1, g.2 ++ [repo])
           else g) gs
  else gs ++ [(info, [repo])].
(** multirepo.go:228-259: ask all repositories of a mapping; errors are skipped.  A nil info cannot come from parsed
    metadata and is treated as a panic. *)
Fixpoint collect (repos : list string) (target : string) (gs : list group) : MR (list group) :=
  match repos with
  | [] => sret gs
  | repo :: repos =>
      try r := on_client repo (fun c => get_target_info E c target) in
      match r with
      | inr _ => collect repos target gs
      | inl None => sout Panic
      | inl (Some info) => collect repos target (add_answer repo info gs)
      end
  end.
(** multirepo.go:262-280: [result = &target] takes the address of the loop variable, which (go 1.21, see go.mod) is
    one variable for the whole loop: after the loop it holds the last group. *)
Fixpoint pick (threshold : Z) (gs : list group) (found : bool) (var : option group) : outcome (option group) :=
  match gs with
  | [] => Ok (if found then var else None)
  | g :: gs =>
      if threshold <=? Z.of_nat (List.length g.2) then
        if found then Err (EOther "more than one target info matching the necessary threshold value")
        else pick threshold gs true (Some g)
      else pick threshold gs found (Some g)
  end.
Definition consensus (threshold : Z) (gs : list group) : outcome (option group) := pick threshold gs false None.

(** multirepo.go:216-294, the paths of one mapping: [inl] an answer, [inr true] terminated *)
Fixpoint try_paths (m : mapping) (paths : list string) (target : string) : MR (group + bool) :=
  match paths with
  | [] => sret (inr false)
  | p :: paths =>
      do matched := sout (glob_match p target) in
      if matched : bool then
        do gs := collect (slist (mp_repos m)) target [] in
        do r := sout (consensus (mp_threshold m) gs) in
        match r with
        | Some g => sret (inl g)
        | None => if mp_terminating m then sret (inr true) else try_paths m paths target
        end
      else try_paths m paths target
  end.
Fixpoint try_mappings (ms : list (option mapping)) (target : string) : MR group :=
  match ms with
  | [] => sout (Err (EOther "target info not found"))
  | None :: _ => sout Panic
  | Some m :: ms =>
      do r := try_paths m (slist (mp_paths m)) target in
      match r with
      | inl g => sret g
      | inr true => sout (Err (EOther "target info not found"))
      | inr false => try_mappings ms target
      end
  end.
Definition mr_get_target_info (rm : repomap) (target : string) : MR group := try_mappings (slist (rm_mapping rm)) target.

(** ** GetTopLevelTargets: multirepo.go:173-205 *)
Fixpoint add_top_level (rm : repomap) (names : list string) (acc : gmap string targetfile) : MR (gmap string targetfile) :=
  match names with
  | [] => sret acc
  | n :: names =>
      do g := mr_get_target_info rm n in
      match acc !! n with
      | Some v => if targetfile_equal v g.1 then add_top_level rm names acc else sout (Err (EOther "target name conflict"))
      | None => add_top_level rm names (<[n := g.1]> acc)
      end
  end.
Fixpoint top_level_clients (rm : repomap) (clients : list string) (acc : gmap string targetfile) : MR (gmap string targetfile) :=
  match clients with
  | [] => sret acc
  | name :: clients =>
      do m := on_client name (fun _ w => (w, top_level_targets (w_trusted w))) in
      do l := mr_lift (iterate E m) in
      do acc' := add_top_level rm (map fst l) acc in
      top_level_clients rm clients acc'
  end.
Definition mr_top_level_targets (rm : repomap) : MR (gmap string targetfile) := fun s =>
  sbind (mr_lift (iterate E (Some (mr_clients s)))) (fun l => top_level_clients rm (map fst l) ∅) s.

(** ** DownloadTarget: multirepo.go:304-331 *)
Fixpoint mr_download_target (repos : list string) (tf : targetfile) (file_path base_url : string) : MR (string * string) :=
  match repos with
  | [] => sout (Err (EOther "failed to download target file"))
  | repo :: repos =>
      do r := on_client repo (fun c => lift (find_cached_target E c tf file_path)) in
      if negb (String.eqb r.1 "") && negb (String.eqb r.2 "") then sret r
      else
        try d := on_client repo (fun c => download_target E c tf file_path base_url) in
        match d with
        | inl r => sret r
        | inr _ => mr_download_target repos tf file_path base_url
        end
  end.
End MultiRepo.
