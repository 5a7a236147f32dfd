(** * Simulator: testutils/simulator/repository_simulator.go, an in-memory repository that serves clients as their Fetcher *)
From stdpp Require Import base gmap strings list.
From Coq Require Import ZArith Ascii String.
From Verif Require Import GoBase GoStr Json GoTime Types Marshal Keys Glob Metadata TrustedMetadata Fetcher Updater ExampleClients ExampleRepos.
Open Scope Z_scope.

(** RepositorySimulator: repository_simulator.go:91-109.  Left out: the dump directory, FetchTracker (a log of the
    requests) and SafeExpiry (an argument below).  Signatures of the four objects are replaced whenever they are served,
    so the ones left there by the last request are left out too.  [sm_keys] counts the key pairs made so far. *)
Record sim := mkSim {
  sm_delegates : gmap string (metadata targets_t);
  sm_roots : list string;
  sm_signers : gmap string (gmap string signer);
  sm_files : gmap string (string * targetfile);
  sm_compute : bool;
  sm_prefix : bool;
  sm_targets : metadata targets_t;
  sm_snapshot : metadata snapshot_t;
  sm_timestamp : metadata timestamp_t;
  sm_root : metadata root_t;
  sm_local : string;
  sm_keys : nat }.
Definition set_delegates (S : sim) x := mkSim x (sm_roots S) (sm_signers S) (sm_files S) (sm_compute S) (sm_prefix S) (sm_targets S) (sm_snapshot S) (sm_timestamp S) (sm_root S) (sm_local S) (sm_keys S).
Definition set_roots (S : sim) x := mkSim (sm_delegates S) x (sm_signers S) (sm_files S) (sm_compute S) (sm_prefix S) (sm_targets S) (sm_snapshot S) (sm_timestamp S) (sm_root S) (sm_local S) (sm_keys S).
Definition set_signers (S : sim) x := mkSim (sm_delegates S) (sm_roots S) x (sm_files S) (sm_compute S) (sm_prefix S) (sm_targets S) (sm_snapshot S) (sm_timestamp S) (sm_root S) (sm_local S) (sm_keys S).
Definition set_files (S : sim) x := mkSim (sm_delegates S) (sm_roots S) (sm_signers S) x (sm_compute S) (sm_prefix S) (sm_targets S) (sm_snapshot S) (sm_timestamp S) (sm_root S) (sm_local S) (sm_keys S).
Definition set_compute (S : sim) x := mkSim (sm_delegates S) (sm_roots S) (sm_signers S) (sm_files S) x (sm_prefix S) (sm_targets S) (sm_snapshot S) (sm_timestamp S) (sm_root S) (sm_local S) (sm_keys S).
Definition set_targets (S : sim) x := mkSim (sm_delegates S) (sm_roots S) (sm_signers S) (sm_files S) (sm_compute S) (sm_prefix S) x (sm_snapshot S) (sm_timestamp S) (sm_root S) (sm_local S) (sm_keys S).
Definition set_sim_snapshot (S : sim) x := mkSim (sm_delegates S) (sm_roots S) (sm_signers S) (sm_files S) (sm_compute S) (sm_prefix S) (sm_targets S) x (sm_timestamp S) (sm_root S) (sm_local S) (sm_keys S).
Definition set_sim_timestamp (S : sim) x := mkSim (sm_delegates S) (sm_roots S) (sm_signers S) (sm_files S) (sm_compute S) (sm_prefix S) (sm_targets S) (sm_snapshot S) x (sm_root S) (sm_local S) (sm_keys S).
Definition set_sim_root (S : sim) x := mkSim (sm_delegates S) (sm_roots S) (sm_signers S) (sm_files S) (sm_compute S) (sm_prefix S) (sm_targets S) (sm_snapshot S) (sm_timestamp S) x (sm_local S) (sm_keys S).
Definition set_keys (S : sim) x := mkSim (sm_delegates S) (sm_roots S) (sm_signers S) (sm_files S) (sm_compute S) (sm_prefix S) (sm_targets S) (sm_snapshot S) (sm_timestamp S) (sm_root S) (sm_local S) x.

(** log.Fatal, log.Fatalf: the process ends *)
Definition fatal {A} : outcome A := Err (EOther "exit").

Section Simulator.
Context {CR : Crypto} (E : env).
(** CreateKey: repository_simulator.go:208-219.  The key pairs are parameters: the n-th one made is [key (fmt_dec n)].
    [path_of] is the Path that url.Parse finds in a URL; if it fails the nil result is dereferenced. *)
Context (key : string -> signer) (path_of : string -> option string).

(** AddSigner: repository_simulator.go:221-226 *)
Definition add_signer (role id : string) (s : signer) (S : sim) : sim :=
  set_signers S (<[role := <[id := s]> (default ∅ (sm_signers S !! role))]> (sm_signers S)).
(** CreateKey, KeyFromPublicKey, AddKey (its error is only logged), AddSigner: repository_simulator.go:157-168, 236-245 *)
Definition new_root_key (role : string) (S : sim) : outcome sim :=
  let s := key (fmt_dec (Z.of_nat (sm_keys S))) in
  match public_part s with
  | Ok k =>
      let! x := match root_add_key (md_signed (sm_root S)) k role with Ok x => Ok x | Err _ => Ok (md_signed (sm_root S)) | Panic => Panic end in
      let! i := key_id k in
      Ok (add_signer role i s (set_keys (set_sim_root S (set_signed (sm_root S) x)) (Datatypes.S (sm_keys S))))
  | Err _ => fatal
  | Panic => Panic
  end.
Fixpoint new_root_keys (roles : list string) (S : sim) : outcome sim :=
  match roles with [] => Ok S | r :: roles => let! S := new_root_key r S in new_root_keys roles S end.

(** for _, signer := range Signers[role] { Sign }: errors are only logged.  [tr] fixes the order of the iteration. *)
Fixpoint sign_each {T} `{RoleTy T} (l : list signer) (m : metadata T) : outcome (metadata T) :=
  match l with
  | [] => Ok m
  | s :: l => match sign s m with (_, Panic) => Panic | (m', _) => sign_each l m' end
  end.
Definition signers_in_order (tr : trace) (S : sim) (role : string) : list signer :=
  map snd (e_order E signer tr (map_to_list (default ∅ (sm_signers S !! role)))).
(** PublishRoot: repository_simulator.go:250-265.  If the metadata cannot be written, nothing is appended but an empty file. *)
Definition publish_root (tr : trace) (S : sim) : outcome sim :=
  let! m := sign_each (signers_in_order tr S "root") (clear_signatures (sm_root S)) in
  match to_bytes m with
  | Ok b => Ok (set_roots S (sm_roots S ++ [b]))
  | Err _ => Ok (set_roots S (sm_roots S ++ [""]))
  | Panic => Panic
  end.
(** NewRepository, setupMinimalValidRepository: repository_simulator.go:112-172 *)
Definition top_level_roles : list string := ["root"; "timestamp"; "snapshot"; "targets"].
Definition new_repository (tr : trace) (expires : gotime) (local : string) : outcome sim :=
  let! S := new_root_keys top_level_roles
    (mkSim ∅ [] ∅ ∅ false true (Targets expires) (Snapshot expires) (Timestamp expires) (Root expires) local 0) in
  publish_root tr S.

(** RotateKeys: repository_simulator.go:229-247.  An unknown role is a nil pointer. *)
Definition rotate_keys (role : string) (S : sim) : outcome sim :=
  let x := md_signed (sm_root S) in
  match mget (rt_roles x) role with
  | Some (Some r) =>
      let x := with_roles x (rt_keys x) (Some (<[role := Some (with_keyids r (Some []))]> (mmap (rt_roles x)))) in
      let S := set_sim_root S (set_signed (sm_root S) x) in
      let S := set_signers S (match sm_signers S !! role with Some _ => <[role := ∅]> (sm_signers S) | None => sm_signers S end) in
      new_root_keys (repeat role (Z.to_nat (r_threshold r))) S
  | _ => Panic
  end.

(** ** Serving *)
(** signMetadata: repository_simulator.go:406-423 *)
Definition serve {T} `{RoleTy T} (tr : trace) (S : sim) (role : string) (m : metadata T) : outcome string :=
  let! m := sign_each (signers_in_order tr S role) (clear_signatures m) in to_bytes m.
(** FetchMetadata: repository_simulator.go:375-404 *)
Definition fetch_metadata (tr : trace) (S : sim) (role : string) (version : Z) : outcome string :=
  if String.eqb role "root" then
    if (Z.of_nat (List.length (sm_roots S)) <? version) && (0 <? version) then Err (ErrDownloadHTTP 404 "")
    else if version - 1 <? 0 then Panic
    else match sm_roots S !! Z.to_nat (version - 1) with Some b => Ok b | None => Panic end
  else if String.eqb role "timestamp" then serve tr S role (sm_timestamp S)
  else if String.eqb role "snapshot" then serve tr S role (sm_snapshot S)
  else if String.eqb role "targets" then serve tr S role (sm_targets S)
  else match sm_delegates S !! role with
       | Some m => serve tr S role m
       | None => Err (ErrDownloadHTTP 404 "")
       end.
(** contains: repository_simulator.go:364-371; the bytes of the hash are compared with the characters of the text *)
Definition among_hashes (hs : gomap string) (h : string) : bool := existsb (fun kv => String.eqb kv.2 h) (mlist hs).
(** FetchTarget: repository_simulator.go:351-362 *)
Definition fetch_target (S : sim) (path hash : string) : outcome string :=
  match sm_files S !! path with
  | None => Err (EOther "no target")
  | Some (data, tf) => if negb (String.eqb hash "") && negb (among_hashes (tf_hashes tf) hash) then Err (EOther "hash mismatch") else Ok data
  end.
(** lastIndex: repository_simulator.go:267-272, with sep = "/".  strings.SplitAfterN(s, sep, n) with n one less than the number of parts:
    none for n = 0, the whole string for n = 1 (the accesses to res[0], res[1] are out of range), else n pieces, each but
    the last with its separator. *)
Definition last_index (s : string) : outcome (string * string) :=
  match split_on "/" s with
  | a :: b :: [c] => Ok (a +:+ "/", b +:+ "/" +:+ c)
  | a :: b :: _ :: _ :: _ => Ok (a +:+ "/", b +:+ "/")
  | _ => Panic
  end.
(** partition: repository_simulator.go:274-296, with delimiter "." *)
Definition partition_dot (s : string) : string * string :=
  match split_on "." s with
  | [role] => ("", role)
  | [version; role] => (version, role)
  | [version; a; b] => (version, if String.eqb a "" && String.eqb b "" then "." else "")
  | [version; a; b; c] => (version, if String.eqb a "" && String.eqb b "" && String.eqb c "" then ".." else "")
  | _ => ("", "")
  end.
(** strconv.Atoi when the error is only logged: 0 for text that is no number, the nearest int for one out of range *)
Definition atoi_value (s : string) : Z :=
  let clamp (neg : bool) (o : option Z) := match o with Some z => if neg then Z.max (- two63) (- z) else Z.min (two63 - 1) z | None => 0 end in
  match s with
  | String "+" t => clamp false (parse_nat_base 10 t)
  | String "-" t => clamp true (parse_nat_base 10 t)
  | _ => clamp false (parse_nat_base 10 s)
  end.
(** the name of a metadata file without .json, and what is served for it: repository_simulator.go:314-329 *)
Definition fetch_named (tr : trace) (S : sim) (name : string) : outcome string :=
  let '(version, role) := partition_dot name in
  if String.eqb role "root" || (rt_consistent (md_signed (sm_root S)) && negb (String.eqb name "timestamp"))
  then fetch_metadata tr S role (atoi_value version)
  else fetch_metadata tr S name (-1).
(** the path of a target file: repository_simulator.go:330-345 *)
Definition fetch_target_at (S : sim) (path : string) : outcome string :=
  let! p := last_index path in
  let '(hash, file) := if rt_consistent (md_signed (sm_root S)) && sm_prefix S then partition_dot p.2 else ("", p.2) in
  fetch_target S (p.1 +:+ "/" +:+ file) hash.
(** fetch: repository_simulator.go:311-347; other paths give no data and no error *)
Definition sim_fetch (tr : trace) (S : sim) (url : string) : outcome string :=
  match path_of url with
  | None => Panic
  | Some p =>
      let p := trim_prefix (sm_local S) p in
      match strip_prefix "/metadata/" p with
      | Some name =>
          if has_suffix ".json" name then fetch_named tr S (str_take (String.length name - 5) name)
          else Ok ""
      | None => match strip_prefix "/targets/" p with Some path => fetch_target_at S path | None => Ok "" end
      end
  end.
(** DownloadFile: repository_simulator.go:298-309 *)
Definition sim_download (tr : trace) (S : sim) (url : string) (maxlen : Z) : outcome string :=
  let! data := sim_fetch tr S url in
  if maxlen <? str_len data then Err (ErrDownloadLengthMismatch "Downloaded bytes exceeding the maximum allowed length") else Ok data.

(** ** Publishing *)
(** computeHashesAndLength: repository_simulator.go:425-434; without the flag an empty map and 0.  An error is only logged:
    the hash is then that of no data.  The length is an int64: no string is longer than that. *)
Definition file_info (tr : trace) (S : sim) (role : string) (version : Z) : outcome metafile :=
  if sm_compute S then
    match fetch_metadata tr S role (-1) with
    | Ok data => Ok (mkMetaFile (wrap64 (str_len data)) (Some {["sha256" := sha256 data]}) version None)
    | Err _ => Ok (mkMetaFile 0 (Some {["sha256" := sha256 ""]}) version None)
    | Panic => Panic
    end
  else Ok (mkMetaFile 0 (Some ∅) version None).
(** UpdateTimestamp: repository_simulator.go:438-451 *)
Definition sim_update_timestamp (tr : trace) (S : sim) : outcome sim :=
  let x := md_signed (sm_timestamp S) in
  let! f := file_info tr S "snapshot" (sn_version (md_signed (sm_snapshot S))) in
  let! l := mset "snapshot.json" (Some f) (ts_meta x) in
  Ok (set_sim_timestamp S (set_signed (sm_timestamp S) (mkTimestamp (ts_type x) (ts_spec x) (wrap64 (ts_version x + 1)) (ts_expires x) l (ts_unrec x)))).
(** AllTargets: repository_simulator.go:191-206 (a goroutine and an unbuffered channel; here the list it sends), one entry at a time:
    repository_simulator.go:456-468 *)
Fixpoint list_roles (tr : trace) (S : sim) (l : list (string * Z)) (meta : gomap (option metafile)) : outcome (gomap (option metafile)) :=
  match l with
  | [] => Ok meta
  | (role, v) :: l =>
      let! f := file_info tr S role v in
      let! meta := mset (role +:+ ".json") (Some f) meta in
      list_roles tr S l meta
  end.
Definition all_targets (tr : trace) (S : sim) : list (string * Z) :=
  (tg_type (md_signed (sm_targets S)), tg_version (md_signed (sm_targets S))) ::
  map (fun kv => (kv.1, tg_version (md_signed kv.2))) (e_order E (metadata targets_t) tr (map_to_list (sm_delegates S))).
(** UpdateSnapshot: repository_simulator.go:455-471.  [tr'] is the order in which the snapshot is signed. *)
Definition sim_update_snapshot (tr tr' : trace) (S : sim) : outcome sim :=
  let x := md_signed (sm_snapshot S) in
  let! l := list_roles tr S (all_targets tr S) (sn_meta x) in
  sim_update_timestamp tr' (set_sim_snapshot S (set_signed (sm_snapshot S) (mkSnapshot (sn_type x) (sn_spec x) (wrap64 (sn_version x + 1)) (sn_expires x) l (sn_unrec x)))).

(** getDelegator: repository_simulator.go:474-480.  For a delegated role it is a pointer to a copy of the struct in the
    map: assignments to its fields are lost, the maps and pointers in it are shared. *)
Definition get_delegator (S : sim) (name : string) : targets_t :=
  if String.eqb name "targets" then md_signed (sm_targets S)
  else match sm_delegates S !! name with Some m => md_signed m | None => mkTargets "" "" 0 time_zero None None None end.
Definition set_delegator (S : sim) (name : string) (x : targets_t) : sim :=
  if String.eqb name "targets" then set_targets S (set_signed (sm_targets S) x)
  else match sm_delegates S !! name with Some m => set_delegates S (<[name := set_signed m x]> (sm_delegates S)) | None => S end.
(** AddTarget: repository_simulator.go:483-494; the map of targets is shared, if there is one *)
Definition add_target (role data path : string) (S : sim) : outcome sim :=
  let x := get_delegator S role in
  let! tf := match targetfile_from_bytes path data ["sha256"] with Ok tf => Ok tf | _ => Panic end in
  let! l := mset path (Some tf) (tg_targets x) in
  let S := set_delegator S role (mkTargets (tg_type x) (tg_spec x) (tg_version x) (tg_expires x) l (tg_delegations x) (tg_unrec x)) in
  Ok (set_files S (<[path := (data, tf)]> (sm_files S))).
(** AddDelegation: repository_simulator.go:497-529.  If the delegated delegator has no Delegations yet, the new one is
    assigned to a field of the copy. *)
Definition no_delegations : delegations := mkDelegations (Some ∅) (Some []) None None.
Definition add_delegation (delegator : string) (role : delegatedrole) (content : targets_t) (S : sim) : outcome sim :=
  let x := get_delegator S delegator in
  match option_map d_succinct (tg_delegations x) with
  | Some (Some _) => fatal
  | _ =>
      let d := default no_delegations (tg_delegations x) in
      let d := mkDelegations (d_keys d) (Some (slist (d_roles d) ++ [role])) (d_succinct d) (d_unrec d) in
      let s := key (fmt_dec (Z.of_nat (sm_keys S))) in
      match public_part s with
      | Ok k =>
          let x' := with_delegations x d in
          let! x' := match targets_add_key x' k (dr_name role) with Ok y => Ok y | Err _ => Ok x' | Panic => Panic end in
          let! i := key_id k in
          let kept := String.eqb delegator "targets" || match tg_delegations x with Some _ => true | None => false end in
          let S := if kept then set_delegator S delegator x' else S in
          let S := add_signer (dr_name role) i s (set_keys S (Datatypes.S (sm_keys S))) in
          Ok (match sm_delegates S !! dr_name role with
              | Some _ => S
              | None => set_delegates S (<[dr_name role := mkMetadata content None (Some ∅)]> (sm_delegates S))
              end)
      | Err _ => fatal
      | Panic => Panic
      end
  end.
(** AddSuccinctRoles: repository_simulator.go:535-565.  The new Delegations has no map of keys. *)
Fixpoint add_bins (names : list string) (id : string) (s : signer) (expires : gotime) (S : sim) : sim :=
  match names with
  | [] => S
  | n :: names =>
      let S := set_delegates S (<[n := mkMetadata (mkTargets "" "" 0 expires None None None) None None]> (sm_delegates S)) in
      add_bins names id s expires (add_signer n id s S)
  end.
Definition add_succinct_roles (delegator : string) (bits : Z) (prefix : string) (expires : gotime) (S : sim) : outcome sim :=
  let x := get_delegator S delegator in
  match tg_delegations x with
  | Some (mkDelegations _ (Some _) _ _) => fatal
  | _ =>
      let s := key (fmt_dec (Z.of_nat (sm_keys S))) in
      match public_part s with
      | Ok k =>
          let r := mkSuccinctRoles (Some []) 1 bits prefix None in
          let! i := key_id k in
          let S := add_bins (get_roles r) i s expires S in
          let x := with_delegations x (mkDelegations None None (Some r) None) in
          let! x' := match targets_add_key x k "targets" with Ok y => Ok y | Err _ => Ok x | Panic => Panic end in
          Ok (if String.eqb delegator "targets" then set_delegator S delegator x' else S)
      | Err _ => fatal
      | Panic => Panic
      end
  end.
End Simulator.
