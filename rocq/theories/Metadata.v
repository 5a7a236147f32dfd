(** * Metadata API: metadata/metadata.go *)
From stdpp Require Import base gmap strings list.
From Coq Require Import ZArith Ascii String.
From Verif Require Import GoBase GoStr Json GoTime Types Marshal Keys Glob.
Open Scope Z_scope.

(** ** Constructors: metadata.go:40-153.  The expiry time is always passed (the default is the current time). *)
Definition new_role : role := mkRole (Some []) 1 None.
Definition Root (expires : gotime) : metadata root_t :=
  mkMetadata (mkRoot ROOT SPECIFICATION_VERSION true 1 expires (Some ∅)
    (Some (<[ROOT := Some new_role]> (<[SNAPSHOT := Some new_role]> (<[TARGETS := Some new_role]>
       (<[TIMESTAMP := Some new_role]> ∅))))) None) (Some []) None.
Definition Snapshot (expires : gotime) : metadata snapshot_t :=
  mkMetadata (mkSnapshot SNAPSHOT SPECIFICATION_VERSION 1 expires
    (Some {["targets.json" := Some (mkMetaFile 0 None 1 None)]}) None) (Some []) None.
Definition Timestamp (expires : gotime) : metadata timestamp_t :=
  mkMetadata (mkTimestamp TIMESTAMP SPECIFICATION_VERSION 1 expires
    (Some {["snapshot.json" := Some (mkMetaFile 0 None 1 None)]}) None) (Some []) None.
Definition Targets (expires : gotime) : metadata targets_t :=
  mkMetadata (mkTargets TARGETS SPECIFICATION_VERSION 1 expires (Some ∅) None None) (Some []) None.
Definition TargetFile : targetfile := mkTargetFile 0 (Some ∅) None "" None.
Definition MetaFile (version : Z) : metafile := mkMetaFile 0 (Some ∅) (if version <? 1 then 1 else version) None.

(** ** IsExpired: metadata.go:381-403 (the same for all four types) *)
Definition is_expired {T} `{RoleTy T} (x : T) (ref : Z) : bool := after ref (signed_expires x).

Section Metadata.
Context {CR : Crypto}.

(** ** Length and hashes *)
(** metadata.go:815-824 *)
Definition verify_length (data : string) (length : Z) : outcome unit :=
  if length =? str_len data then Ok tt else Err (ErrLengthOrHashMismatch "length verification failed").
(** the hash functions selected by name: metadata.go:481-488, 830-837 *)
Definition hash_of (alg : string) : option (string -> string) :=
  if String.eqb alg "sha256" then Some sha256
  else if String.eqb alg "sha512" then Some sha512 else None.
(** metadata.go:827-844.  The iteration order only selects which of several mismatches is reported. *)
Fixpoint verify_hash_list (data : string) (l : list (string * string)) : outcome unit :=
  match l with
  | [] => Ok tt
  | (k, v) :: l =>
      match hash_of k with
      | None => Err (ErrLengthOrHashMismatch "hash verification failed - unknown hashing algorithm")
      | Some h => if String.eqb (hex_encode v) (hex_encode (h data)) then verify_hash_list data l
                  else Err (ErrLengthOrHashMismatch "hash verification failed - mismatch for algorithm")
      end
  end.
Definition verify_hashes (data : string) (h : hashes) : outcome unit := verify_hash_list data (mlist h).
(** MetaFiles.VerifyLengthHashes: metadata.go:407-422; the receiver is a pointer and may be nil *)
Definition metafile_verify (f : option metafile) (data : string) : outcome unit :=
  match f with
  | None => Panic
  | Some f =>
      let! _ := if decide (mmap (mf_hashes f) = ∅) then Ok tt else verify_hashes data (mf_hashes f) in
      if mf_length f =? 0 then Ok tt else verify_length data (mf_length f)
  end.
(** TargetFiles.VerifyLengthHashes: metadata.go:426-436 *)
Definition targetfile_verify (f : targetfile) (data : string) : outcome unit :=
  let! _ := verify_hashes data (tf_hashes f) in verify_length data (tf_length f).

(** Hashes.Equal: metadata.go:799-812 *)
Fixpoint hashes_equal_loop (source : hashes) (l : list (string * string)) (checked : bool) : bool :=
  match l with
  | [] => checked
  | (typ, h) :: l =>
      match mget source typ with
      | Some h' => if String.eqb h' h then hashes_equal_loop source l true else false
      | None => hashes_equal_loop source l checked
      end
  end.
Definition hashes_equal (source expected : hashes) : bool := hashes_equal_loop source (mlist expected) false.
(** TargetFiles.Equal: metadata.go:439-444 *)
Definition targetfile_equal (source expected : targetfile) : bool :=
  (tf_length source =? tf_length expected) && hashes_equal (tf_hashes source) (tf_hashes expected).

(** TargetFiles.FromBytes: metadata.go:464-497 *)
Fixpoint add_hashes (data : string) (algs : list string) (m : gmap string string) : outcome (gmap string string) :=
  match algs with
  | [] => Ok m
  | a :: algs =>
      match hash_of a with
      | Some h => add_hashes data algs (<[a := h data]> m)
      | None => Err (ErrValue "failed generating TargetFile - unsupported hashing algorithm")
      end
  end.
Definition targetfile_from_bytes (path data : string) (algs : list string) : outcome targetfile :=
  let algs := match algs with [] => ["sha256"] | _ => algs end in
  let! m := add_hashes data algs ∅ in
  Ok (mkTargetFile (str_len data) (Some m) None path None).

(** ** Loading and saving *)
(** checkType: metadata.go:878-907 (on the parsed document; failed type assertions panic) *)
Definition check_type {T} `{RoleTy T} (j : json) : outcome unit :=
  let! m := decode_dict j in
  match mget m "signed" with
  | Some (JObj l) =>
      match (list_to_map l : gmap string json) !! "_type" with
      | Some (JStr s) => if String.eqb role_name s then Ok tt else Err (ErrValue "expected metadata type")
      | _ => Panic
      end
  | _ => Panic
  end.
(** checkUniqueSignatures: metadata.go:866-875 *)
Fixpoint unique_sigs (seen : list string) (l : list signature) : outcome unit :=
  match l with
  | [] => Ok tt
  | s :: l => if decide (sig_keyid s ∈ seen) then Err (ErrValue "multiple signatures found for key ID")
              else unique_sigs (seen ++ [sig_keyid s]) l
  end.
(** fromBytes: metadata.go:848-863, on a parsed document and on bytes *)
Definition from_json {T} `{RoleTy T} (j : json) : outcome (metadata T) :=
  let! _ := check_type (T := T) j in
  let! m := metadata_unmarshal j in
  let! _ := unique_sigs [] (slist (md_sigs m)) in
  Ok m.
Definition from_bytes {T} `{RoleTy T} (data : string) : outcome (metadata T) :=
  match parse_json data with
  | None => Err (EOther "invalid JSON")
  | Some j => from_json j
  end.
(** ToBytes(false): metadata.go:187-193, the compact form; the indented form is [to_bytes_fmt] in Files.v *)
Definition to_bytes {T} `{RoleTy T} (m : metadata T) : outcome string :=
  let! j := metadata_marshal m in Ok (print_json j).

(** ** Signing and verification *)
(** payload that is signed: cjson.EncodeCanonical(meta.Signed) *)
Definition signing_payload {T} `{RoleTy T} (x : T) : outcome string :=
  let! j := signed_marshal x in encode_canonical j.
(** sigstore signature.Signer *)
Record signer := mkSigner { sg_public : outcome pubkey; sg_sign : string -> outcome string }.
(** Sign: metadata.go:206-237 *)
Definition sign {T} `{RoleTy T} (s : signer) (m : metadata T) : metadata T * outcome signature :=
  match (let! payload := signing_payload (md_signed m) in
         match sg_sign s payload with
         | Ok sb =>
             let! publ := sg_public s in
             let! k := key_from_public_key publ in
             let! i := key_id k in
             Ok (mkSignature i sb None)
         | Err _ => Err (ErrUnsignedMetadata "problem signing metadata")
         | Panic => Panic
         end) with
  | Ok sg => (mkMetadata (md_signed m) (Some (slist (md_sigs m) ++ [sg])) (md_unrec m), Ok sg)
  | o => (m, o)
  end.
(** ClearSignatures: metadata.go:500-503 *)
Definition clear_signatures {T} (m : metadata T) : metadata T := mkMetadata (md_signed m) (Some []) (md_unrec m).

(** What a delegator says about a delegated role: key table, key IDs, threshold.  metadata.go:251-292.
    A nil [*Role] in the map is dereferenced (panic). *)
Record delegation := mkDelegation { dg_keys : gomap (option key); dg_keyids : list string; dg_threshold : Z }.
Definition no_delegation {A} : outcome A := Err (ErrValue "no delegation found").
Definition root_delegation (x : root_t) (name : string) : outcome delegation :=
  match mget (rt_roles x) name with
  | None => no_delegation
  | Some None => Panic
  | Some (Some r) => Ok (mkDelegation (rt_keys x) (slist (r_keyids r)) (r_threshold r))
  end.
Fixpoint find_role (l : list delegatedrole) (name : string) : option delegatedrole :=
  match l with
  | [] => None
  | r :: l => if String.eqb (dr_name r) name then Some r else find_role l name
  end.
Definition targets_delegation (x : targets_t) (name : string) : outcome delegation :=
  match tg_delegations x with
  | None => Err (ErrValue "no delegations found")
  | Some d =>
      match d_roles d, d_succinct d with
      | Some l, _ =>
          match find_role l name with
          | None => no_delegation
          | Some r => Ok (mkDelegation (d_keys d) (slist (dr_keyids r)) (dr_threshold r))
          end
      | None, Some s => Ok (mkDelegation (d_keys d) (slist (sr_keyids s)) (sr_threshold s))
      | None, None => Ok (mkDelegation (d_keys d) [] 0)
      end
  end.
Class Delegator (T : Type) := delegation_of : T -> string -> outcome delegation.
Global Instance root_delegator : Delegator root_t := root_delegation.
Global Instance targets_delegator : Delegator targets_t := targets_delegation.
(** metadata.go:286-287 *)
Definition not_a_delegator {T} (x : T) (name : string) : outcome delegation :=
  Err (ErrType "call is valid only on delegator metadata (should be either root or targets)").
Global Instance snapshot_delegator : Delegator snapshot_t := not_a_delegator.
Global Instance timestamp_delegator : Delegator timestamp_t := not_a_delegator.

(** the last signature with that key ID, the zero Signature if there is none: metadata.go:320-324 *)
Fixpoint last_sig (l : list signature) (keyid : string) (acc : string) : string :=
  match l with
  | [] => acc
  | s :: l => last_sig l keyid (if String.eqb (sig_keyid s) keyid then sig_sig s else acc)
  end.
(** metadata.go:294-371: the set of key IDs that verified *)
Fixpoint verify_loop {D} `{RoleTy D} (keys : gomap (option key)) (dm : metadata D) (ids : list string)
    (acc : gset string) : outcome (gset string) :=
  match ids with
  | [] => Ok acc
  | id :: ids =>
      match mget keys id with
      | None => Err (ErrValue "key with ID not found in keyids")
      | Some None => Panic
      | Some (Some k) =>
          let! pk := to_public_key k in
          let! payload := signing_payload (md_signed dm) in
          let! ok := verify_signature pk payload (last_sig (slist (md_sigs dm)) id "") in
          verify_loop keys dm ids (if ok : bool then {[id]} ∪ acc else acc)
      end
  end.
(** VerifyDelegate: metadata.go:241-379 *)
Definition verify_delegation {D} `{RoleTy D} (dg : delegation) (dm : metadata D) : outcome unit :=
  match dg_keyids dg with
  | [] => no_delegation
  | ids =>
      let! s := verify_loop (dg_keys dg) dm ids ∅ in
      if Z.of_nat (size s) <? dg_threshold dg then Err (ErrUnsignedMetadata "not enough signatures") else Ok tt
  end.
Definition verify_delegate {T D} `{Delegator T} `{RoleTy D} (m : metadata T) (name : string) (dm : metadata D) : outcome unit :=
  let! dg := delegation_of (md_signed m) name in verify_delegation dg dm.

(** ** Delegated paths *)
(** isTargetInPathPattern: metadata.go:530-548; errors of filepath.Match count as no match *)
Definition seg_match (pat seg : string) : bool := match glob_match pat seg with Ok b => b | _ => false end.
Fixpoint segs_match (pats segs : list string) : bool :=
  match pats, segs with
  | [], [] => true
  | p :: pats, s :: segs => seg_match p s && segs_match pats segs
  | _, _ => false
  end.
Definition path_in_pattern (target pattern : string) : bool :=
  segs_match (split_on "/" pattern) (split_on "/" target).
(** DelegatedRole.IsDelegatedPath: metadata.go:507-527; its error is always nil *)
Definition is_delegated_path (r : delegatedrole) (target : string) : bool :=
  match slist (dr_paths r), slist (dr_hash_prefixes r) with
  | (_ :: _) as ps, _ => existsb (path_in_pattern target) ps
  | [], hs => existsb (fun h => has_prefix h (b64url_encode (sha256 target))) hs
  end.

(** ** Succinct roles *)
(** the first four bytes, big endian *)
Definition be32 (s : string) : Z :=
  match s with
  | String a (String b (String c (String d _))) => ((bz a * 256 + bz b) * 256 + bz c) * 256 + bz d
  | _ => 0
  end.
(** int(math.Pow(2, float64(n))): exact for 0 <= n <= 62; 0 for negative n; out-of-range conversions give the
    smallest int64 (amd64) *)
Definition pow2_int (n : Z) : Z := if n <? 0 then 0 else if n <=? 62 then 2 ^ n else - two63.
(** SuccinctRoles.GetSuffixLen: metadata.go:610-613 *)
Definition suffix_len (r : succinctroles) : Z * Z :=
  let bins := pow2_int (sr_bit_length r) in (str_len (fmt_hex (wrap64 (bins - 1))), bins).
Definition bin_name (r : succinctroles) (w n : Z) : string := sr_name_prefix r +:+ "-" +:+ fmt_hex_pad w n.
(** SuccinctRoles.GetRolesForTarget: metadata.go:573-596.  For negative bit lengths math.Pow(2, n) - 1 truncates to 0.
    A negative shift count panics; the shift is computed in 64-bit arithmetic. *)
Definition succinct_roles_for (r : succinctroles) (target : string) : outcome (gmap string bool) :=
  let b := sr_bit_length r in
  let shift := wrap64 (32 - b) in
  if shift <? 0 then Panic
  else
    let w := str_len (fmt_hex (if b <? 0 then 0 else 2 ^ b - 1)) in
    let bin := if 32 <=? shift then 0 else be32 (sha256 target) / 2 ^ shift in
    Ok {[bin_name r w bin := true]}.
(** SuccinctRoles.GetRoles: metadata.go:599-608 *)
Definition get_roles (r : succinctroles) : list string :=
  let '(w, bins) := suffix_len r in map (bin_name r w) (seqZ 0 bins).
(** SuccinctRoles.IsDelegatedRole: metadata.go:617-641 *)
Definition is_delegated_role (r : succinctroles) (name : string) : bool :=
  let '(w, bins) := suffix_len r in
  match strip_prefix (sr_name_prefix r +:+ "-") name with
  | None => false
  | Some suffix =>
      if str_len suffix =? w then
        match parse_int 16 suffix with
        | Some v => (0 <=? v) && (v <? bins)
        | None => false
        end
      else false
  end.
(** Delegations.GetRolesForTarget: metadata.go:552-567; the result is a Go map *)
Definition roles_for_target (d : delegations) (target : string) : outcome (gmap string bool) :=
  match d_roles d, d_succinct d with
  | Some l, _ =>
      Ok (fold_left (fun m r => if is_delegated_path r target then <[dr_name r := dr_terminating r]> m else m) l ∅)
  | None, Some s => succinct_roles_for s target
  | None, None => Ok ∅
  end.

(** ** Key management *)
Definition with_keyids (r : role) (l : goslice string) : role := mkRole l (r_threshold r) (r_unrec r).
Definition with_roles (x : root_t) (keys : gomap (option key)) (roles : gomap (option role)) : root_t :=
  mkRoot (rt_type x) (rt_spec x) (rt_consistent x) (rt_version x) (rt_expires x) keys roles (rt_unrec x).
Definition add_id (i : string) (l : goslice string) : goslice string :=
  if decide (i ∈ slist l) then l else Some (slist l ++ [i]).
(** RootType.AddKey: metadata.go:647-659 *)
Definition root_add_key (x : root_t) (k : key) (name : string) : outcome root_t :=
  match mget (rt_roles x) name with
  | None => Err (ErrValue "role doesn't exist")
  | Some None => Panic
  | Some (Some r) =>
      let! i := key_id k in
      let! keys := mset i (Some (key_cache i k)) (rt_keys x) in
      Ok (with_roles x keys
            (Some (<[name := Some (with_keyids r (add_id i (r_keyids r)))]> (mmap (rt_roles x)))))
  end.
Definition remove_id (i : string) (l : goslice string) : goslice string := Some (filter (fun k => k <> i) (slist l)).
(** does some role of the list use the key?  A nil role panics when reached. *)
Fixpoint used_by_roles (i : string) (l : list (string * option role)) : outcome bool :=
  match l with
  | [] => Ok false
  | (_, None) :: _ => Panic
  | (_, Some r) :: l => if decide (i ∈ slist (r_keyids r)) then Ok true else used_by_roles i l
  end.
(** RootType.RevokeKey: metadata.go:664-691.  If the map holds nil roles the result depends on Go's iteration order;
    the model uses one order. *)
Definition root_revoke_key (x : root_t) (i name : string) : outcome root_t :=
  match mget (rt_roles x) name with
  | None => Err (ErrValue "role doesn't exist")
  | Some None => Panic
  | Some (Some r) =>
      if decide (i ∈ slist (r_keyids r)) then
        let roles := <[name := Some (with_keyids r (remove_id i (r_keyids r)))]> (mmap (rt_roles x)) in
        let! used := used_by_roles i (map_to_list roles) in
        Ok (with_roles x (if used : bool then rt_keys x else mdel i (rt_keys x)) (Some roles))
      else Err (ErrValue "key is not used by role")
  end.

Definition with_dr_keyids (r : delegatedrole) (l : goslice string) : delegatedrole :=
  mkDelegatedRole (dr_name r) l (dr_threshold r) (dr_terminating r) (dr_hash_prefixes r) (dr_paths r) (dr_unrec r).
Definition with_sr_keyids (r : succinctroles) (l : goslice string) : succinctroles :=
  mkSuccinctRoles l (sr_threshold r) (sr_bit_length r) (sr_name_prefix r) (sr_unrec r).
Definition with_delegations (x : targets_t) (d : delegations) : targets_t :=
  mkTargets (tg_type x) (tg_spec x) (tg_version x) (tg_expires x) (tg_targets x) (Some d) (tg_unrec x).
(** metadata.go:706-718: the first role of that name that does not have the key yet gets it; also reports whether
    such a role and whether any role of that name was found *)
Fixpoint add_to_first (i name : string) (l : list delegatedrole) : list delegatedrole * bool * bool :=
  match l with
  | [] => ([], false, false)
  | r :: l =>
      if String.eqb (dr_name r) name then
        if decide (i ∈ slist (dr_keyids r)) then
          let '(l', added, _) := add_to_first i name l in (r :: l', added, true)
        else (with_dr_keyids r (Some (slist (dr_keyids r) ++ [i])) :: l, true, true)
      else let '(l', added, found) := add_to_first i name l in (r :: l', added, found)
  end.
(** TargetsType.AddKey: metadata.go:697-734.  If no role matches, the key ID is never computed. *)
Definition targets_add_key (x : targets_t) (k : key) (name : string) : outcome targets_t :=
  match tg_delegations x with
  | None => Err (ErrValue "delegated role doesn't exist")
  | Some d =>
      match d_roles d, d_succinct d with
      | Some l, _ =>
          if existsb (fun r => String.eqb (dr_name r) name) l then
            let! i := key_id k in
            let '(l', _, _) := add_to_first i name l in
            let! keys := mset i (Some (key_cache i k)) (d_keys d) in
            Ok (with_delegations x (mkDelegations keys (Some l') (d_succinct d) (d_unrec d)))
          else Err (ErrValue "delegated role doesn't exist")
      | None, Some s =>
          let! i := key_id k in
          let! keys := mset i (Some (key_cache i k)) (d_keys d) in
          Ok (with_delegations x (mkDelegations keys None (Some (with_sr_keyids s (add_id i (sr_keyids s)))) (d_unrec d)))
      | None, None =>
          let! i := key_id k in
          let! keys := mset i (Some (key_cache i k)) (d_keys d) in
          Ok (with_delegations x (mkDelegations keys None None (d_unrec d)))
      end
  end.
(** metadata.go:747-773: the first role of that name; [None] if there is none, [Some None] if it does not use the key *)
Fixpoint remove_from_first (i name : string) (l : list delegatedrole) : option (option (list delegatedrole)) :=
  match l with
  | [] => None
  | r :: l =>
      if String.eqb (dr_name r) name then
        if decide (i ∈ slist (dr_keyids r)) then Some (Some (with_dr_keyids r (remove_id i (dr_keyids r)) :: l))
        else Some None
      else match remove_from_first i name l with
           | Some (Some l') => Some (Some (r :: l'))
           | o => o
           end
  end.
(** TargetsType.RevokeKey: metadata.go:739-796 *)
Definition targets_revoke_key (x : targets_t) (i name : string) : outcome targets_t :=
  match tg_delegations x with
  | None => Err (ErrValue "delegated role doesn't exist")
  | Some d =>
      match d_roles d, d_succinct d with
      | Some l, _ =>
          match remove_from_first i name l with
          | None => Err (ErrValue "delegated role doesn't exist")
          | Some None => Err (ErrValue "key is not used by role")
          | Some (Some l') =>
              let used := existsb (fun r => bool_decide (i ∈ slist (dr_keyids r))) l' in
              Ok (with_delegations x (mkDelegations (if used then d_keys d else mdel i (d_keys d)) (Some l') (d_succinct d) (d_unrec d)))
          end
      | None, Some s =>
          if decide (i ∈ slist (sr_keyids s)) then
            Ok (with_delegations x (mkDelegations (mdel i (d_keys d)) None (Some (with_sr_keyids s (remove_id i (sr_keyids s)))) (d_unrec d)))
          else Err (ErrValue "key is not used by SuccinctRoles")
      | None, None => Err (ErrValue "delegated role doesn't exist")
      end
  end.
End Metadata.
