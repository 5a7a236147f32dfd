(** * Trusted metadata set: metadata/trustedmetadata/trustedmetadata.go *)
From stdpp Require Import base gmap strings list.
From Coq Require Import ZArith Ascii String.
From Verif Require Import GoBase GoStr Json GoTime Types Marshal Keys Glob Metadata.
Open Scope Z_scope.

(** trustedmetadata.go:22-28.  [Root] is never nil after [New]; the targets map has no nil entries. *)
Record trusted := mkTrusted {
  t_root : metadata root_t;
  t_snapshot : option (metadata snapshot_t);
  t_timestamp : option (metadata timestamp_t);
  t_targets : gmap string (metadata targets_t);
  t_ref : Z }.
Definition set_root (t : trusted) r := mkTrusted r (t_snapshot t) (t_timestamp t) (t_targets t) (t_ref t).
Definition set_snapshot (t : trusted) s := mkTrusted (t_root t) (Some s) (t_timestamp t) (t_targets t) (t_ref t).
Definition set_timestamp (t : trusted) s := mkTrusted (t_root t) (t_snapshot t) (Some s) (t_targets t) (t_ref t).
Definition set_targets (t : trusted) n m := mkTrusted (t_root t) (t_snapshot t) (t_timestamp t) (<[n := m]> (t_targets t)) (t_ref t).

Definition json_of (role : string) : string := role +:+ ".json".

(** An update returns the new state and the result: the state may change although an error is returned. *)
Definition upd (A : Type) := (trusted * outcome A)%type.

Section Trusted.
Context {CR : Crypto}.

(** The [Signed.Type] check done after every FromBytes (e.g. trustedmetadata.go:64-66) *)
Definition check_signed_type {T} `{RoleTy T} (m : metadata T) : outcome unit :=
  if String.eqb (signed_type (md_signed m)) role_name then Ok tt
  else Err (ErrRepository "expected another metadata type").

(** loadTrustedRoot, New: trustedmetadata.go:34-46, 330-351 *)
Definition tm_new (data : string) (now : Z) : outcome trusted :=
  let! r := from_bytes (T := root_t) data in
  let! _ := check_signed_type r in
  let! _ := verify_delegate r ROOT r in
  Ok (mkTrusted r None None ∅ now).

(** UpdateRoot: trustedmetadata.go:51-85 *)
Definition update_root (t : trusted) (data : string) : upd (metadata root_t) :=
  match t_timestamp t with
  | Some _ => (t, Err (ErrRuntime "cannot update root after timestamp"))
  | None =>
      match (let! r := from_bytes (T := root_t) data in
             let! _ := check_signed_type r in
             let! _ := verify_delegate (t_root t) ROOT r in
             if rt_version (md_signed r) =? wrap64 (rt_version (md_signed (t_root t)) + 1) then
               let! _ := verify_delegate r ROOT r in Ok r
             else Err (ErrBadVersionNumber "bad version number")) with
      | Ok r => (set_root t r, Ok r)
      | o => (t, o)
      end
  end.

(** checkFinalTimestamp: trustedmetadata.go:154-159 *)
Definition check_final_timestamp (t : trusted) : outcome unit :=
  match t_timestamp t with
  | None => Panic
  | Some ts => if is_expired (md_signed ts) (t_ref t) then Err (ErrExpiredMetadata "timestamp.json is expired") else Ok tt
  end.

(** Meta["snapshot.json"] of a timestamp, dereferenced: nil if missing or null *)
Definition snapshot_meta (ts : metadata timestamp_t) : option metafile :=
  match mget (ts_meta (md_signed ts)) (json_of SNAPSHOT) with Some (Some f) => Some f | _ => None end.

(** UpdateTimestamp: trustedmetadata.go:93-151 *)
Definition check_new_timestamp (t : trusted) (ts : metadata timestamp_t) : outcome unit :=
  match t_timestamp t with
  | None => Ok tt
  | Some old =>
      if ts_version (md_signed ts) <? ts_version (md_signed old) then Err (ErrBadVersionNumber "new timestamp version")
      else if ts_version (md_signed ts) =? ts_version (md_signed old) then Err (ErrEqualVersionNumber "new timestamp version equals the old one")
      else match snapshot_meta ts, snapshot_meta old with
           | Some n, Some o => if mf_version n <? mf_version o then Err (ErrBadVersionNumber "new snapshot version") else Ok tt
           | _, _ => Panic
           end
  end.
Definition update_timestamp (t : trusted) (data : string) : upd (metadata timestamp_t) :=
  match t_snapshot t with
  | Some _ => (t, Err (ErrRuntime "cannot update timestamp after snapshot"))
  | None =>
      if is_expired (md_signed (t_root t)) (t_ref t) then (t, Err (ErrExpiredMetadata "final root.json is expired"))
      else
        match (let! ts := from_bytes (T := timestamp_t) data in
               let! _ := check_signed_type ts in
               let! _ := verify_delegate (t_root t) TIMESTAMP ts in
               let! _ := check_new_timestamp t ts in Ok ts) with
        | Ok ts => let t' := set_timestamp t ts in (t', let! _ := check_final_timestamp t' in Ok ts)
        | o => (t, o)
        end
  end.

(** checkFinalSnapshot: trustedmetadata.go:241-250 *)
Definition check_final_snapshot (t : trusted) : outcome unit :=
  match t_snapshot t, t_timestamp t with
  | Some sn, Some ts =>
      if is_expired (md_signed sn) (t_ref t) then Err (ErrExpiredMetadata "snapshot.json is expired")
      else match snapshot_meta ts with
           | None => Panic
           | Some f => if sn_version (md_signed sn) =? mf_version f then Ok tt else Err (ErrBadVersionNumber "snapshot version")
           end
  | _, _ => Panic
  end.

(** UpdateSnapshot, rollback check: trustedmetadata.go:206-221.  [order] is the order in which Go iterates over the
    old snapshot's map. *)
Fixpoint check_rollback (new : gomap (option metafile)) (old : list (string * option metafile)) : outcome unit :=
  match old with
  | [] => Ok tt
  | (name, info) :: old =>
      match mget new name with
      | None => Err (ErrRepository "new snapshot is missing info")
      | Some n =>
          match n, info with
          | Some n, Some o => if mf_version n <? mf_version o then Err (ErrBadVersionNumber "expected version") else check_rollback new old
          | _, _ => Panic
          end
      end
  end.
(** UpdateSnapshot: trustedmetadata.go:169-238 *)
Definition update_snapshot (order : list (string * option metafile) -> list (string * option metafile))
    (t : trusted) (data : string) (is_trusted : bool) : upd (metadata snapshot_t) :=
  match t_timestamp t with
  | None => (t, Err (ErrRuntime "cannot update snapshot before timestamp"))
  | Some ts =>
      match t_targets t !! TARGETS with
      | Some _ => (t, Err (ErrRuntime "cannot update snapshot after targets"))
      | None =>
          match (let! _ := check_final_timestamp t in
                 let! _ := if is_trusted then Ok tt else metafile_verify (snapshot_meta ts) data in
                 let! sn := from_bytes (T := snapshot_t) data in
                 let! _ := check_signed_type sn in
                 let! _ := verify_delegate (t_root t) SNAPSHOT sn in
                 let! _ := match t_snapshot t with
                           | None => Ok tt
                           | Some old => check_rollback (sn_meta (md_signed sn)) (order (mlist (sn_meta (md_signed old))))
                           end in
                 Ok sn) with
          | Ok sn => let t' := set_snapshot t sn in (t', let! _ := check_final_snapshot t' in Ok sn)
          | o => (t, o)
          end
      end
  end.

(** UpdateDelegatedTargets: trustedmetadata.go:258-325 *)
Definition check_new_targets (t : trusted) (data role delegator : string) : outcome (metadata targets_t) :=
  match t_snapshot t with
  | None => Err (ErrRuntime "cannot load targets before snapshot")
  | Some sn =>
      let! _ := check_final_snapshot t in
      if negb (String.eqb delegator ROOT) && negb (bool_decide (is_Some (t_targets t !! delegator)))
      then Err (ErrRuntime "cannot load targets before delegator")
      else
        match mget (sn_meta (md_signed sn)) (json_of role) with
        | None => Err (ErrRepository "snapshot does not contain information for role")
        | Some info =>
            let! _ := metafile_verify info data in
            let! m := from_bytes (T := targets_t) data in
            let! _ := check_signed_type m in
            let! _ := if String.eqb delegator ROOT then verify_delegate (t_root t) role m
                      else match t_targets t !! delegator with
                           | Some d => verify_delegate d role m
                           | None => Panic
                           end in
            match info with
            | None => Panic
            | Some f =>
                if tg_version (md_signed m) =? mf_version f then
                  if is_expired (md_signed m) (t_ref t) then Err (ErrExpiredMetadata "new role is expired") else Ok m
                else Err (ErrBadVersionNumber "expected role version")
            end
        end
  end.
Definition update_delegated_targets (t : trusted) (data role delegator : string) : upd (metadata targets_t) :=
  match check_new_targets t data role delegator with
  | Ok m => (set_targets t role m, Ok m)
  | o => (t, o)
  end.
(** UpdateTargets: trustedmetadata.go:253-255 *)
Definition update_targets (t : trusted) (data : string) : upd (metadata targets_t) :=
  update_delegated_targets t data TARGETS ROOT.
End Trusted.
