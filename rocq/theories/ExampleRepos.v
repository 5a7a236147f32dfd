(** * ExampleRepos: the programs examples/multirepo/repository and examples/repository, which make repositories *)
From stdpp Require Import base gmap strings list.
From Coq Require Import ZArith Ascii String.
From Verif Require Import GoBase GoStr Json GoTime Types Marshal Keys Glob Metadata TrustedMetadata Fetcher Updater Files Cli ExampleClients.
Open Scope Z_scope.

Section ExampleRepos.
Context {CR : Crypto} (E : env).
(** Generated key pairs are parameters: [key name] is the signer that signature.LoadSigner makes of a private key, with
    its public key.  So are the results of helperExpireIn.  [roles], the in-memory store, only keeps the pointers
    (Repository.v); here each role is a variable.  An error is a panic in the programs; here it stays an error, so that it
    can be told from a crash. *)
Context (key : string -> signer) (expires : string -> gotime).

(** KeyFromPublicKey(private.Public()), then AddKey *)
Definition public_part (s : signer) : outcome Types.key := let! pk := sg_public s in key_from_public_key pk.
Definition add_public (s : signer) (name : string) (x : root_t) : outcome root_t :=
  let! k := public_part s in root_add_key x k name.
(** Sign, with the updated object as the result *)
Definition signed_with {T} `{RoleTy T} (s : signer) (m : metadata T) : outcome (metadata T) :=
  match sign s m with (m', Ok _) => Ok m' | (_, Err e) => Err e | (_, Panic) => Panic end.
Fixpoint signed_with_all {T} `{RoleTy T} (l : list signer) (m : metadata T) : outcome (metadata T) :=
  match l with [] => Ok m | s :: l => let! m := signed_with s m in signed_with_all l m end.
(** assignments to fields of Signed *)
Definition set_signed {T} (m : metadata T) (x : T) : metadata T := mkMetadata x (md_sigs m) (md_unrec m).
Definition set_target (name : string) (tf : targetfile) (m : metadata targets_t) : outcome (metadata targets_t) :=
  let x := md_signed m in
  let! l := mset name (Some tf) (tg_targets x) in
  Ok (set_signed m (mkTargets (tg_type x) (tg_spec x) (tg_version x) (tg_expires x) l (tg_delegations x) (tg_unrec x))).
(** "%d.%s.json" *)
Definition versioned_name (v : Z) (role : string) : string := fmt_dec v +:+ "." +:+ role +:+ ".json".
(** the loop that adds a key for each top-level role: generate_metadata.go:66-80, basic_repository.go:125-139 *)
Fixpoint add_keys (names : list string) (x : root_t) : outcome root_t :=
  match names with [] => Ok x | n :: names => let! x := add_public (key n) n x in add_keys names x end.
Definition key_loop : list string := ["targets"; "snapshot"; "timestamp"; "root"].

(** ** examples/multirepo/repository/generate_metadata.go *)
(** filepath.Split(path): the part after the last separator *)
Definition split_file (p : string) : string := List.last (split_on "/" p) "".
(** copyHashPrefixed: generate_metadata.go:181-192; filepath.Split is [split_dir], [split_file] *)
Definition copy_hash_prefixed (src hash : string) : IO unit :=
  do data := read_file E src in
  write_file E (path_join [split_dir src; hash +:+ "." +:+ split_file src]) data.
(** generate_metadata.go:45-50 *)
Fixpoint copy_all (src : string) (l : list (string * string)) : IO unit :=
  match l with [] => sret tt | (_, h) :: l => do _ := copy_hash_prefixed src (hex_encode h) in copy_all src l end.
(** generate_metadata.go:38-51, helperGetPathForTarget: 171-179.  strings.TrimPrefix drops the prefix if it is there. *)
Definition trim_prefix (p s : string) : string := default s (strip_prefix p s).
Fixpoint list_targets (names : list string) (m : metadata targets_t) : IO (metadata targets_t) :=
  match names with
  | [] => sret m
  | name :: names =>
      do cwd := getwd E in
      let place := path_join [cwd; name] in
      do tf := targetfile_from_file E place ["sha256"] in
      do m := sout (set_target (trim_prefix "targets/" name) tf m) in
      do hs := iterate E (tf_hashes tf) in
      do _ := copy_all place hs in
      list_targets names m
  end.
Definition target_names : list string := ["targets/map.json"; "targets/sigstore-tuf-root/root.json"; "targets/staging/root.json"].
(** the four top-level roles, signed: generate_metadata.go:53-103 *)
Definition signed_roles (tg : metadata targets_t) : outcome (metadata targets_t * metadata snapshot_t * metadata timestamp_t * metadata root_t) :=
  let! x := add_keys key_loop (md_signed (Root (expires "root"))) in
  let! tg := signed_with (key "targets") tg in
  let! sn := signed_with (key "snapshot") (Snapshot (expires "snapshot")) in
  let! ts := signed_with (key "timestamp") (Timestamp (expires "timestamp")) in
  let! r := signed_with (key "root") (set_signed (Root (expires "root")) x) in
  Ok (tg, sn, ts, r).
(** main: generate_metadata.go:28-163 *)
Definition generate_main : IO unit :=
  do tg := list_targets target_names (Targets (expires "targets")) in
  do all := sout (signed_roles tg) in
  let '(tg, sn, ts, r) := all in
  do cwd := getwd E in
  let dir := path_join [cwd; "metadata"] in
  do _ := to_file E tg (path_join [dir; versioned_name (tg_version (md_signed tg)) "targets"]) true in
  do _ := to_file E sn (path_join [dir; versioned_name (sn_version (md_signed sn)) "snapshot"]) true in
  do _ := to_file E ts (path_join [dir; "timestamp.json"]) true in
  do _ := to_file E r (path_join [dir; versioned_name (rt_version (md_signed r)) "root"]) true in
  do _ := to_file E r (path_join [dir; "../../client/root.json"]) true in
  do _ := sout (verify_delegate r "root" r) in
  do _ := sout (verify_delegate r "targets" tg) in
  do _ := sout (verify_delegate r "snapshot" sn) in
  sout (verify_delegate r "timestamp" ts).

(** ** examples/repository/basic_repository.go *)
Definition set_threshold (name : string) (n : Z) (x : root_t) : outcome root_t :=
  match mget (rt_roles x) name with
  | Some (Some r) => Ok (with_roles x (rt_keys x) (Some (<[name := Some (mkRole (r_keyids r) n (r_unrec r))]> (mmap (rt_roles x)))))
  | _ => Panic
  end.
Definition set_root_version (v : Z) (x : root_t) : root_t :=
  mkRoot (rt_type x) (rt_spec x) (rt_consistent x) v (rt_expires x) (rt_keys x) (rt_roles x) (rt_unrec x).
(** os.MkdirTemp(dir, "tmp"): a new directory *)
Definition mkdir_temp (dir : string) : IO string := fun i =>
  let p := dir +:+ "/tmp" +:+ fmt_dec (e_rand E (io_trace i)) in
  let '(i', o) := mkdir E p i in (i', let! _ := o in Ok p).
(** the first root metadata, in memory: basic_repository.go:121-164 *)
Definition first_root : outcome root_t :=
  let! x := add_keys key_loop (md_signed (Root (expires "root"))) in
  let! x := add_public (key "another") "root" x in
  set_threshold "root" 2 x.
(** the delegation to go-scripts: basic_repository.go:311-336; Key.ID() of the fresh key.  The error of KeyFromPublicKey is dropped there and the
    nil key dereferenced; here it is passed on. *)
Definition script_delegations : outcome delegations :=
  let! k := public_part (key "go-scripts") in
  let! i := key_id k in
  Ok (mkDelegations (Some {[i := Some (key_cache i k)]})
        (Some [mkDelegatedRole "go-scripts" (Some [i]) 1 true None (Some ["*.go"]) None]) None None).
Definition target_name : string := "basic_repository.go".
(** targets metadata without the target, with the delegation, a later expiry and the next version: basic_repository.go:323-351 *)
Definition delegating (d : delegations) (m : metadata targets_t) : metadata targets_t :=
  let x := md_signed m in
  set_signed m (mkTargets (tg_type x) (tg_spec x) (tg_version x + 1) (expires "targets2") (mdel target_name (tg_targets x)) (Some d) (tg_unrec x)).
(** snapshot and timestamp that follow: basic_repository.go:354-360 *)
Definition next_snapshot (tg : metadata targets_t) (m : metadata snapshot_t) : outcome (metadata snapshot_t) :=
  let x := md_signed m in
  let! l := mset "targets.json" (Some (MetaFile (tg_version (md_signed tg)))) (sn_meta x) in
  let! l := mset "go-scripts.json" (Some (MetaFile 1)) l in
  Ok (set_signed m (mkSnapshot (sn_type x) (sn_spec x) (sn_version x + 1) (sn_expires x) l (sn_unrec x))).
Definition next_timestamp (sn : metadata snapshot_t) (m : metadata timestamp_t) : outcome (metadata timestamp_t) :=
  let x := md_signed m in
  let! l := mset "snapshot.json" (Some (MetaFile (sn_version (md_signed sn)))) (ts_meta x) in
  Ok (set_signed m (mkTimestamp (ts_type x) (ts_spec x) (ts_version x + 1) (ts_expires x) l (ts_unrec x))).
(** root key rotation: basic_repository.go:421-443 *)
Definition rotated_root (m : metadata root_t) : outcome (metadata root_t) :=
  let! old := public_part (key "root") in
  let! i := key_id old in
  let! x := root_revoke_key (md_signed m) i "root" in
  let! x := add_public (key "new") "root" x in
  Ok (clear_signatures (set_signed m (set_root_version (rt_version x + 1) x))).
(** more keys and a higher threshold: basic_repository.go:497-531 *)
Definition grown_root (m : metadata root_t) : outcome (metadata root_t) :=
  let! x := add_public (key "rsa") "root" (md_signed m) in
  let! x := add_public (key "ecdsa") "root" x in
  let! x := set_threshold "root" 4 x in
  Ok (clear_signatures (set_signed m (set_root_version (rt_version x + 1) x))).
(** main: basic_repository.go:49-577, in four steps.  First release: 61-285 *)
Definition basic_first : IO (string * (targetfile * metadata targets_t * metadata snapshot_t * metadata timestamp_t * metadata root_t)) :=
  do cwd := getwd E in
  do tf := targetfile_from_file E (path_join [cwd; target_name]) ["sha256"] in
  do tg := sout (set_target target_name tf (Targets (expires "targets"))) in
  do x := sout first_root in
  do tg := sout (signed_with (key "targets") tg) in
  do sn := sout (signed_with (key "snapshot") (Snapshot (expires "snapshot"))) in
  do ts := sout (signed_with (key "timestamp") (Timestamp (expires "timestamp"))) in
  do r := sout (signed_with (key "root") (set_signed (Root (expires "root")) x)) in
  do cwd := getwd E in
  do dir := mkdir_temp cwd in
  do _ := to_file E tg (path_join [dir; versioned_name (tg_version (md_signed tg)) "targets"]) true in
  do _ := to_file E sn (path_join [dir; versioned_name (sn_version (md_signed sn)) "snapshot"]) true in
  do _ := to_file E ts (path_join [dir; "timestamp.json"]) true in
  do _ := to_file E r (path_join [dir; versioned_name (rt_version (md_signed r)) "root"]) true in
  do r := from_file (T := root_t) E (path_join [dir; "1.root.json"]) in
  do r := sout (signed_with (key "another") r) in
  do _ := to_file E r (path_join [dir; "1.root.json"]) true in
  do _ := sout (verify_delegate r "root" r) in
  do _ := sout (verify_delegate r "targets" tg) in
  do _ := sout (verify_delegate r "snapshot" sn) in
  do _ := sout (verify_delegate r "timestamp" ts) in
  sret (dir, (tf, tg, sn, ts, r)).
(** Second release, with a delegation: 296-409 *)
Definition basic_second (dir : string) (tf : targetfile) (tg : metadata targets_t) (sn : metadata snapshot_t) (ts : metadata timestamp_t) :
    IO (metadata targets_t * metadata snapshot_t * metadata timestamp_t * metadata targets_t) :=
  do go := sout (set_target target_name tf (Targets (expires "go-scripts"))) in
  do d := sout script_delegations in
  let tg := delegating d tg in
  do sn := sout (next_snapshot tg sn) in
  do ts := sout (next_timestamp sn ts) in
  do tg := sout (signed_with (key "targets") (clear_signatures tg)) in
  do _ := to_file E tg (path_join [dir; versioned_name (tg_version (md_signed tg)) "targets"]) true in
  do sn := sout (signed_with (key "snapshot") (clear_signatures sn)) in
  do _ := to_file E sn (path_join [dir; versioned_name (sn_version (md_signed sn)) "snapshot"]) true in
  do ts := sout (signed_with (key "timestamp") (clear_signatures ts)) in
  do _ := to_file E ts (path_join [dir; "timestamp.json"]) true in
  do go := sout (signed_with (key "go-scripts") (clear_signatures go)) in
  do _ := to_file E go (path_join [dir; versioned_name (tg_version (md_signed go)) "go-scripts"]) true in
  sret (tg, sn, ts, go).
(** Root key rotation: 421-492 *)
Definition basic_rotate (dir : string) (tg : metadata targets_t) (sn : metadata snapshot_t) (ts : metadata timestamp_t) (go : metadata targets_t) (r : metadata root_t) : IO (metadata root_t) :=
  do r := sout (rotated_root r) in
  do r := sout (signed_with_all [key "root"; key "another"; key "new"] r) in
  do _ := to_file E r (path_join [dir; versioned_name (rt_version (md_signed r)) "root"]) true in
  do _ := sout (verify_delegate r "root" r) in
  do _ := sout (verify_delegate r "targets" tg) in
  do _ := sout (verify_delegate r "snapshot" sn) in
  do _ := sout (verify_delegate r "timestamp" ts) in
  do _ := sout (verify_delegate tg "go-scripts" go) in
  sret r.
(** Different key types: 497-575 *)
Definition basic_grow (dir : string) (r : metadata root_t) : IO unit :=
  do r := sout (grown_root r) in
  do r := sout (signed_with_all [key "root"; key "another"; key "new"; key "rsa"; key "ecdsa"] r) in
  do _ := sout (verify_delegate r "root" r) in
  to_file E r (path_join [dir; versioned_name (rt_version (md_signed r)) "root"]) true.
(** the directory that is printed *)
Definition basic_main : IO string :=
  do first := basic_first in
  let '(dir, (tf, tg, sn, ts, r)) := first in
  do second := basic_second dir tf tg sn ts in
  let '(tg, sn, ts, go) := second in
  do r := basic_rotate dir tg sn ts go r in
  do _ := basic_grow dir r in
  sret dir.
End ExampleRepos.
