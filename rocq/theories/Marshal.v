(** * Serialisation: metadata/marshal.go on top of encoding/json *)
From stdpp Require Import base gmap strings list.
From Coq Require Import ZArith Ascii String.
From Verif Require Import GoBase GoStr Json GoTime Types.
Open Scope Z_scope.

(** ** encoding/json: decoding into structs (decode.go [object], [array], [literalStore]) *)

(** Folded form used to match member names case-insensitively (fold.go): ASCII letters to upper case, U+017F to S,
    U+212A to K. *)
Fixpoint fold_key (s : string) : string :=
  match s with
  | EmptyString => EmptyString
  | String c r =>
      if is_lower c then String (zb (bz c - 32)) (fold_key r)
      else match r with
           | String c1 r1 =>
               if (bz c =? 197) && (bz c1 =? 191) then String "S" (fold_key r1)
               else match r1 with
                    | String c2 r2 =>
                        if (bz c =? 226) && (bz c1 =? 132) && (bz c2 =? 170) then String "K" (fold_key r2)
                        else String c (fold_key r)
                    | EmptyString => String c (fold_key r)
                    end
           | EmptyString => s1 c
           end
  end.

Definition decerr {A} : outcome A := Err (EOther "json: cannot unmarshal value").

(** a struct is described by its JSON field names and what decoding a value into each field does *)
Definition fields (T : Type) := list (string * (json -> T -> outcome T)).
Fixpoint field_exact {T} (fs : fields T) (k : string) : option (json -> T -> outcome T) :=
  match fs with
  | [] => None
  | (n, f) :: fs => if String.eqb n k then Some f else field_exact fs k
  end.
Fixpoint field_fold {T} (fs : fields T) (fk : string) : option (json -> T -> outcome T) :=
  match fs with
  | [] => None
  | (n, f) :: fs => if String.eqb (fold_key n) fk then Some f else field_fold fs fk
  end.
(** exact name first, else first field whose folded name is equal *)
Definition field_lookup {T} (fs : fields T) (k : string) : option (json -> T -> outcome T) :=
  match field_exact fs k with Some f => Some f | None => field_fold fs (fold_key k) end.
(** members are processed in document order; unknown members are skipped *)
Fixpoint decode_members {T} (fs : fields T) (l : list (string * json)) (x : T) : outcome T :=
  match l with
  | [] => Ok x
  | (k, v) :: l =>
      match field_lookup fs k with
      | Some f => let! x' := f v x in decode_members fs l x'
      | None => decode_members fs l x
      end
  end.
(** [json.Unmarshal(data, &s)] for a struct without an UnmarshalJSON method.  Go continues after a type mismatch and
    reports the first one at the end; the model stops at once.  The result is an error either way; the one place
    where continuing could turn the error into a panic is treated in [metadata_fields]. *)
Definition decode_struct {T} (fs : fields T) (x : T) (j : json) : outcome T :=
  match j with
  | JNull => Ok x
  | JObj l => decode_members fs l x
  | _ => decerr
  end.

(** strings, integers, booleans: null is a no-op *)
Definition dec_string (j : json) (old : string) : outcome string :=
  match j with JNull => Ok old | JStr s | JEsc s => Ok s | _ => decerr end.
Definition dec_int (j : json) (old : Z) : outcome Z :=
  match j with JNull => Ok old | JNum l => of_option (EOther "json: number") (parse_int 10 l) | _ => decerr end.
Definition dec_bool (j : json) (old : bool) : outcome bool :=
  match j with JNull => Ok old | JBool b => Ok b | _ => decerr end.
(** [time.Time.UnmarshalJSON] sees the raw literal, so a string with escapes never parses *)
Definition dec_time (j : json) (old : gotime) : outcome gotime :=
  match j with
  | JNull => Ok old
  | JStr s => of_option (EOther "parsing time") (parse_time s)
  | _ => decerr
  end.
(** marshal.go:531-542 HexBytes.UnmarshalJSON (raw literal as well; null is an error) *)
Definition hexbytes_unmarshal (j : json) : outcome string :=
  match j with
  | JStr s => of_option (EOther "encoding/hex") (hex_decode s)
  | _ => Err (EOther "tuf: invalid JSON hex bytes")
  end.
(** [map[string]V]: null gives nil; an object is merged into the existing map (duplicate members) *)
Fixpoint dec_map_members {V} (d : json -> outcome V) (l : list (string * json)) (m : gmap string V)
  : outcome (gmap string V) :=
  match l with
  | [] => Ok m
  | (k, v) :: l => let! x := d v in dec_map_members d l (<[k := x]> m)
  end.
Definition dec_map {V} (d : json -> outcome V) (j : json) (old : gomap V) : outcome (gomap V) :=
  match j with
  | JNull => Ok None
  | JObj l => let! m := dec_map_members d l (mmap old) in Ok (Some m)
  | _ => decerr
  end.
(** slices: null gives nil; element i is decoded onto the old element i (duplicate members).  Simplification: stale
    elements between length and capacity of an older, longer array are not modelled. *)
Fixpoint dec_elems {A} (d : json -> A -> outcome A) (zero : A) (l : list json) (old : list A) : outcome (list A) :=
  match l with
  | [] => Ok []
  | j :: l =>
      let! x := d j (match old with a :: _ => a | [] => zero end) in
      let! r := dec_elems d zero l (match old with _ :: t => t | [] => [] end) in
      Ok (x :: r)
  end.
Definition dec_slice {A} (d : json -> A -> outcome A) (zero : A) (j : json) (old : goslice A) : outcome (goslice A) :=
  match j with
  | JNull => Ok None
  | JArr l => let! r := dec_elems d zero l (slist old) in Ok (Some r)
  | _ => decerr
  end.
(** pointer to a type with an UnmarshalJSON method: null gives nil *)
Definition dec_ptr {A} (d : json -> outcome A) (j : json) : outcome (option A) :=
  match j with JNull => Ok None | _ => let! a := d j in Ok (Some a) end.

(** fields not in [names] *)
Definition del_all (names : list string) (m : unrec) : unrec := fold_left (fun m n => mdel n m) names m.

(** ** Encoding *)
(** the dictionary that every MarshalJSON method builds: unrecognised fields first, then known fields override;
    [json.Marshal] writes map members in key order *)
Definition obj_of (u : unrec) (known : list (string * json)) : json := JObj (obj_norm (mlist u ++ known)).
Definition enc_int (z : Z) : json := JNum (fmt_dec z).
Definition enc_map {V} (f : V -> json) (m : gomap V) : json :=
  match m with None => JNull | Some m => JObj (obj_norm (map (fun kv => (kv.1, f kv.2)) (map_to_list m))) end.
Definition enc_slice {A} (f : A -> json) (l : goslice A) : json :=
  match l with None => JNull | Some l => JArr (map f l) end.
Definition enc_ptr {A} (f : A -> json) (p : option A) : json := match p with None => JNull | Some a => f a end.
Definition enc_hex (b : string) : json := JStr (hex_encode b).  (* marshal.go:544-550 *)
Definition enc_hashes (h : hashes) : json := enc_map enc_hex h.
(** [time.Time.MarshalJSON] *)
Definition enc_time (t : gotime) : outcome json :=
  match print_time t with Some s => Ok (JStr s) | None => Err (EOther "Time.MarshalJSON") end.

(** sequencing of element encoders that can fail *)
Fixpoint oseq {A} (l : list (outcome A)) : outcome (list A) :=
  match l with
  | [] => Ok []
  | o :: l => let! a := o in let! r := oseq l in Ok (a :: r)
  end.
Definition enc_slice_o {A} (f : A -> outcome json) (l : goslice A) : outcome json :=
  match l with None => Ok JNull | Some l => let! r := oseq (map f l) in Ok (JArr r) end.

(** ** KeyVal: marshal.go:368-392 *)
Definition keyval_marshal (x : keyval) : json := obj_of (kv_unrec x) [("public", JStr (kv_public x))].
Definition keyval_fields : fields keyval :=
  [("public", fun j x => let! s := dec_string j (kv_public x) in Ok (mkKeyVal s (kv_unrec x)))].
Definition keyval_unmarshal (j : json) : outcome keyval :=
  let! a := decode_struct keyval_fields keyval_zero j in
  let! dict := decode_dict j in
  Ok (mkKeyVal (kv_public a) (del_all ["public"] dict)).

(** ** Key: marshal.go:239-268 *)
Definition key_marshal (x : key) : json :=
  obj_of (k_unrec x)
    [("keytype", JStr (k_type x)); ("scheme", JStr (k_scheme x)); ("keyval", keyval_marshal (k_val x))].
Definition key_fields : fields key :=
  [("keytype", fun j x => let! s := dec_string j (k_type x) in Ok (mkKey s (k_scheme x) (k_val x) (k_id x) (k_unrec x)));
   ("scheme", fun j x => let! s := dec_string j (k_scheme x) in Ok (mkKey (k_type x) s (k_val x) (k_id x) (k_unrec x)));
   ("keyval", fun j x => let! v := keyval_unmarshal j in Ok (mkKey (k_type x) (k_scheme x) v (k_id x) (k_unrec x)))].
Definition key_unmarshal (j : json) : outcome key :=
  let! a := decode_struct key_fields key_zero j in
  let! dict := decode_dict j in
  Ok (mkKey (k_type a) (k_scheme a) (k_val a) (k_id a) (del_all ["keytype"; "scheme"; "keyval"] dict)).

(** ** Signature: marshal.go:340-366 *)
Definition signature_marshal (x : signature) : json :=
  obj_of (sig_unrec x) [("keyid", JStr (sig_keyid x)); ("sig", enc_hex (sig_sig x))].
Definition signature_fields : fields signature :=
  [("keyid", fun j x => let! s := dec_string j (sig_keyid x) in Ok (mkSignature s (sig_sig x) (sig_unrec x)));
   ("sig", fun j x => let! s := hexbytes_unmarshal j in Ok (mkSignature (sig_keyid x) s (sig_unrec x)))].
Definition signature_unmarshal (j : json) : outcome signature :=
  let! a := decode_struct signature_fields signature_zero j in
  let! dict := decode_dict j in
  Ok (mkSignature (sig_keyid a) (sig_sig a) (del_all ["keyid"; "sig"] dict)).

Definition dec_strings := dec_slice dec_string "".
Definition enc_strings (l : goslice string) : json := enc_slice JStr l.

(** ** Role: marshal.go:394-420 *)
Definition role_marshal (x : role) : json :=
  obj_of (r_unrec x) [("keyids", enc_strings (r_keyids x)); ("threshold", enc_int (r_threshold x))].
Definition role_fields : fields role :=
  [("keyids", fun j x => let! s := dec_strings j (r_keyids x) in Ok (mkRole s (r_threshold x) (r_unrec x)));
   ("threshold", fun j x => let! n := dec_int j (r_threshold x) in Ok (mkRole (r_keyids x) n (r_unrec x)))].
Definition role_unmarshal (j : json) : outcome role :=
  let! a := decode_struct role_fields role_zero j in
  let! dict := decode_dict j in
  Ok (mkRole (r_keyids a) (r_threshold a) (del_all ["keyids"; "threshold"] dict)).

(** ** MetaFiles: marshal.go:172-205 *)
Definition metafile_marshal (x : metafile) : json :=
  obj_of (mf_unrec x)
    ((if mf_length x =? 0 then [] else [("length", enc_int (mf_length x))]) ++
     (if decide (mmap (mf_hashes x) = ∅) then [] else [("hashes", enc_hashes (mf_hashes x))]) ++
     [("version", enc_int (mf_version x))]).
Definition metafile_fields : fields metafile :=
  [("length", fun j x => let! n := dec_int j (mf_length x) in Ok (mkMetaFile n (mf_hashes x) (mf_version x) (mf_unrec x)));
   ("hashes", fun j x => let! h := dec_map hexbytes_unmarshal j (mf_hashes x) in
                         Ok (mkMetaFile (mf_length x) h (mf_version x) (mf_unrec x)));
   ("version", fun j x => let! n := dec_int j (mf_version x) in Ok (mkMetaFile (mf_length x) (mf_hashes x) n (mf_unrec x)))].
Definition metafile_unmarshal (j : json) : outcome metafile :=
  let! a := decode_struct metafile_fields metafile_zero j in
  let! dict := decode_dict j in
  Ok (mkMetaFile (mf_length a) (mf_hashes a) (mf_version a) (del_all ["length"; "hashes"; "version"] dict)).

(** ** TargetFiles: marshal.go:207-237.  [Custom] is a [json.RawMessage]: the tree is kept (null gives nil).
    Simplification: the way characters are escaped inside the raw text is not kept, only their value. *)
Definition targetfile_marshal (x : targetfile) : json :=
  obj_of (tf_unrec x)
    ([("length", enc_int (tf_length x)); ("hashes", enc_hashes (tf_hashes x))] ++
     match tf_custom x with Some c => [("custom", c)] | None => [] end).
Definition targetfile_fields : fields targetfile :=
  [("length", fun j x => let! n := dec_int j (tf_length x) in
                         Ok (mkTargetFile n (tf_hashes x) (tf_custom x) (tf_path x) (tf_unrec x)));
   ("hashes", fun j x => let! h := dec_map hexbytes_unmarshal j (tf_hashes x) in
                         Ok (mkTargetFile (tf_length x) h (tf_custom x) (tf_path x) (tf_unrec x)));
   ("custom", fun j x => let! c := dec_ptr (fun j => Ok (unesc j)) j in
                         Ok (mkTargetFile (tf_length x) (tf_hashes x) c (tf_path x) (tf_unrec x)))].
Definition targetfile_unmarshal (j : json) : outcome targetfile :=
  let! a := decode_struct targetfile_fields targetfile_zero j in
  let! dict := decode_dict j in
  Ok (mkTargetFile (tf_length a) (tf_hashes a) (tf_custom a) (tf_path a) (del_all ["length"; "hashes"; "custom"] dict)).

(** ** DelegatedRole: marshal.go:456-497 *)
Definition delegatedrole_marshal (x : delegatedrole) : outcome json :=
  match dr_paths x, dr_hash_prefixes x with
  | Some _, Some _ => Err (EWrap "json: error calling MarshalJSON" (ErrValue "failed to marshal: not allowed to have both paths and path_hash_prefixes present"))
  | p, h =>
      Ok (obj_of (dr_unrec x)
        ([("name", JStr (dr_name x)); ("keyids", enc_strings (dr_keyids x)); ("threshold", enc_int (dr_threshold x));
          ("terminating", JBool (dr_terminating x))] ++
         match p, h with
         | Some _, _ => [("paths", enc_strings p)]
         | None, Some _ => [("path_hash_prefixes", enc_strings h)]
         | None, None => []
         end))
  end.
Definition delegatedrole_fields : fields delegatedrole :=
  [("name", fun j x => let! s := dec_string j (dr_name x) in
      Ok (mkDelegatedRole s (dr_keyids x) (dr_threshold x) (dr_terminating x) (dr_hash_prefixes x) (dr_paths x) (dr_unrec x)));
   ("keyids", fun j x => let! s := dec_strings j (dr_keyids x) in
      Ok (mkDelegatedRole (dr_name x) s (dr_threshold x) (dr_terminating x) (dr_hash_prefixes x) (dr_paths x) (dr_unrec x)));
   ("threshold", fun j x => let! n := dec_int j (dr_threshold x) in
      Ok (mkDelegatedRole (dr_name x) (dr_keyids x) n (dr_terminating x) (dr_hash_prefixes x) (dr_paths x) (dr_unrec x)));
   ("terminating", fun j x => let! b := dec_bool j (dr_terminating x) in
      Ok (mkDelegatedRole (dr_name x) (dr_keyids x) (dr_threshold x) b (dr_hash_prefixes x) (dr_paths x) (dr_unrec x)));
   ("path_hash_prefixes", fun j x => let! s := dec_strings j (dr_hash_prefixes x) in
      Ok (mkDelegatedRole (dr_name x) (dr_keyids x) (dr_threshold x) (dr_terminating x) s (dr_paths x) (dr_unrec x)));
   ("paths", fun j x => let! s := dec_strings j (dr_paths x) in
      Ok (mkDelegatedRole (dr_name x) (dr_keyids x) (dr_threshold x) (dr_terminating x) (dr_hash_prefixes x) s (dr_unrec x)))].
Definition delegatedrole_unmarshal (j : json) : outcome delegatedrole :=
  let! a := decode_struct delegatedrole_fields delegatedrole_zero j in
  let! dict := decode_dict j in
  Ok (mkDelegatedRole (dr_name a) (dr_keyids a) (dr_threshold a) (dr_terminating a) (dr_hash_prefixes a) (dr_paths a)
       (del_all ["name"; "keyids"; "threshold"; "terminating"; "paths"; "path_hash_prefixes"] dict)).

(** ** SuccinctRoles: marshal.go:499-529 *)
Definition succinct_marshal (x : succinctroles) : json :=
  obj_of (sr_unrec x)
    [("keyids", enc_strings (sr_keyids x)); ("threshold", enc_int (sr_threshold x));
     ("bit_length", enc_int (sr_bit_length x)); ("name_prefix", JStr (sr_name_prefix x))].
Definition succinct_fields : fields succinctroles :=
  [("keyids", fun j x => let! s := dec_strings j (sr_keyids x) in
      Ok (mkSuccinctRoles s (sr_threshold x) (sr_bit_length x) (sr_name_prefix x) (sr_unrec x)));
   ("threshold", fun j x => let! n := dec_int j (sr_threshold x) in
      Ok (mkSuccinctRoles (sr_keyids x) n (sr_bit_length x) (sr_name_prefix x) (sr_unrec x)));
   ("bit_length", fun j x => let! n := dec_int j (sr_bit_length x) in
      Ok (mkSuccinctRoles (sr_keyids x) (sr_threshold x) n (sr_name_prefix x) (sr_unrec x)));
   ("name_prefix", fun j x => let! s := dec_string j (sr_name_prefix x) in
      Ok (mkSuccinctRoles (sr_keyids x) (sr_threshold x) (sr_bit_length x) s (sr_unrec x)))].
Definition succinct_unmarshal (j : json) : outcome succinctroles :=
  let! a := decode_struct succinct_fields succinct_zero j in
  let! dict := decode_dict j in
  Ok (mkSuccinctRoles (sr_keyids a) (sr_threshold a) (sr_bit_length a) (sr_name_prefix a)
       (del_all ["keyids"; "threshold"; "bit_length"; "name_prefix"] dict)).

Definition enc_keys (m : gomap (option key)) : json := enc_map (enc_ptr key_marshal) m.
Definition dec_keys := dec_map (dec_ptr key_unmarshal).

(** ** Delegations: marshal.go:422-454 *)
Definition delegations_marshal (x : delegations) : outcome json :=
  let! tail := match d_roles x, d_succinct x with
               | Some l, _ => let! r := oseq (map delegatedrole_marshal l) in Ok [("roles", JArr r)]
               | None, Some s => Ok [("succinct_roles", succinct_marshal s)]
               | None, None => Ok []
               end in
  Ok (obj_of (d_unrec x) (("keys", enc_keys (d_keys x)) :: tail)).
Definition delegations_fields : fields delegations :=
  [("keys", fun j x => let! m := dec_keys j (d_keys x) in Ok (mkDelegations m (d_roles x) (d_succinct x) (d_unrec x)));
   ("roles", fun j x => let! l := dec_slice (fun j _ => delegatedrole_unmarshal j) delegatedrole_zero j (d_roles x) in
                        Ok (mkDelegations (d_keys x) l (d_succinct x) (d_unrec x)));
   ("succinct_roles", fun j x => let! s := dec_ptr succinct_unmarshal j in
                        Ok (mkDelegations (d_keys x) (d_roles x) s (d_unrec x)))].
Definition delegations_unmarshal (j : json) : outcome delegations :=
  let! a := decode_struct delegations_fields delegations_zero j in
  let! dict := decode_dict j in
  Ok (mkDelegations (d_keys a) (d_roles a) (d_succinct a) (del_all ["keys"; "roles"; "succinct_roles"] dict)).

(** ** RootType: marshal.go:23-59 *)
Definition root_marshal (x : root_t) : outcome json :=
  let! e := enc_time (rt_expires x) in
  Ok (obj_of (rt_unrec x)
    [("_type", JStr (rt_type x)); ("spec_version", JStr (rt_spec x));
     ("consistent_snapshot", JBool (rt_consistent x)); ("version", enc_int (rt_version x)); ("expires", e);
     ("keys", enc_keys (rt_keys x)); ("roles", enc_map (enc_ptr role_marshal) (rt_roles x))]).
Definition root_fields : fields root_t :=
  [("_type", fun j x => let! v := dec_string j (rt_type x) in
      Ok (mkRoot v (rt_spec x) (rt_consistent x) (rt_version x) (rt_expires x) (rt_keys x) (rt_roles x) (rt_unrec x)));
   ("spec_version", fun j x => let! v := dec_string j (rt_spec x) in
      Ok (mkRoot (rt_type x) v (rt_consistent x) (rt_version x) (rt_expires x) (rt_keys x) (rt_roles x) (rt_unrec x)));
   ("consistent_snapshot", fun j x => let! v := dec_bool j (rt_consistent x) in
      Ok (mkRoot (rt_type x) (rt_spec x) v (rt_version x) (rt_expires x) (rt_keys x) (rt_roles x) (rt_unrec x)));
   ("version", fun j x => let! v := dec_int j (rt_version x) in
      Ok (mkRoot (rt_type x) (rt_spec x) (rt_consistent x) v (rt_expires x) (rt_keys x) (rt_roles x) (rt_unrec x)));
   ("expires", fun j x => let! v := dec_time j (rt_expires x) in
      Ok (mkRoot (rt_type x) (rt_spec x) (rt_consistent x) (rt_version x) v (rt_keys x) (rt_roles x) (rt_unrec x)));
   ("keys", fun j x => let! v := dec_keys j (rt_keys x) in
      Ok (mkRoot (rt_type x) (rt_spec x) (rt_consistent x) (rt_version x) (rt_expires x) v (rt_roles x) (rt_unrec x)));
   ("roles", fun j x => let! v := dec_map (dec_ptr role_unmarshal) j (rt_roles x) in
      Ok (mkRoot (rt_type x) (rt_spec x) (rt_consistent x) (rt_version x) (rt_expires x) (rt_keys x) v (rt_unrec x)))].
Definition root_names := ["_type"; "spec_version"; "consistent_snapshot"; "version"; "expires"; "keys"; "roles"].
Definition root_unmarshal (j : json) : outcome root_t :=
  let! a := decode_struct root_fields root_zero j in
  let! dict := decode_dict j in
  Ok (mkRoot (rt_type a) (rt_spec a) (rt_consistent a) (rt_version a) (rt_expires a) (rt_keys a) (rt_roles a)
       (del_all root_names dict)).

Definition enc_meta (m : gomap (option metafile)) : json := enc_map (enc_ptr metafile_marshal) m.
Definition dec_meta := dec_map (dec_ptr metafile_unmarshal).
Definition meta_names := ["_type"; "spec_version"; "version"; "expires"; "meta"].

(** ** SnapshotType: marshal.go:61-93 *)
Definition snapshot_marshal (x : snapshot_t) : outcome json :=
  let! e := enc_time (sn_expires x) in
  Ok (obj_of (sn_unrec x)
    [("_type", JStr (sn_type x)); ("spec_version", JStr (sn_spec x)); ("version", enc_int (sn_version x));
     ("expires", e); ("meta", enc_meta (sn_meta x))]).
Definition snapshot_fields : fields snapshot_t :=
  [("_type", fun j x => let! v := dec_string j (sn_type x) in
      Ok (mkSnapshot v (sn_spec x) (sn_version x) (sn_expires x) (sn_meta x) (sn_unrec x)));
   ("spec_version", fun j x => let! v := dec_string j (sn_spec x) in
      Ok (mkSnapshot (sn_type x) v (sn_version x) (sn_expires x) (sn_meta x) (sn_unrec x)));
   ("version", fun j x => let! v := dec_int j (sn_version x) in
      Ok (mkSnapshot (sn_type x) (sn_spec x) v (sn_expires x) (sn_meta x) (sn_unrec x)));
   ("expires", fun j x => let! v := dec_time j (sn_expires x) in
      Ok (mkSnapshot (sn_type x) (sn_spec x) (sn_version x) v (sn_meta x) (sn_unrec x)));
   ("meta", fun j x => let! v := dec_meta j (sn_meta x) in
      Ok (mkSnapshot (sn_type x) (sn_spec x) (sn_version x) (sn_expires x) v (sn_unrec x)))].
Definition snapshot_unmarshal (j : json) : outcome snapshot_t :=
  let! a := decode_struct snapshot_fields snapshot_zero j in
  let! dict := decode_dict j in
  Ok (mkSnapshot (sn_type a) (sn_spec a) (sn_version a) (sn_expires a) (sn_meta a) (del_all meta_names dict)).

(** ** TimestampType: marshal.go:95-127 *)
Definition timestamp_marshal (x : timestamp_t) : outcome json :=
  let! e := enc_time (ts_expires x) in
  Ok (obj_of (ts_unrec x)
    [("_type", JStr (ts_type x)); ("spec_version", JStr (ts_spec x)); ("version", enc_int (ts_version x));
     ("expires", e); ("meta", enc_meta (ts_meta x))]).
Definition timestamp_fields : fields timestamp_t :=
  [("_type", fun j x => let! v := dec_string j (ts_type x) in
      Ok (mkTimestamp v (ts_spec x) (ts_version x) (ts_expires x) (ts_meta x) (ts_unrec x)));
   ("spec_version", fun j x => let! v := dec_string j (ts_spec x) in
      Ok (mkTimestamp (ts_type x) v (ts_version x) (ts_expires x) (ts_meta x) (ts_unrec x)));
   ("version", fun j x => let! v := dec_int j (ts_version x) in
      Ok (mkTimestamp (ts_type x) (ts_spec x) v (ts_expires x) (ts_meta x) (ts_unrec x)));
   ("expires", fun j x => let! v := dec_time j (ts_expires x) in
      Ok (mkTimestamp (ts_type x) (ts_spec x) (ts_version x) v (ts_meta x) (ts_unrec x)));
   ("meta", fun j x => let! v := dec_meta j (ts_meta x) in
      Ok (mkTimestamp (ts_type x) (ts_spec x) (ts_version x) (ts_expires x) v (ts_unrec x)))].
Definition timestamp_unmarshal (j : json) : outcome timestamp_t :=
  let! a := decode_struct timestamp_fields timestamp_zero j in
  let! dict := decode_dict j in
  Ok (mkTimestamp (ts_type a) (ts_spec a) (ts_version a) (ts_expires a) (ts_meta a) (del_all meta_names dict)).

(** ** TargetsType: marshal.go:129-170 *)
Definition targets_marshal (x : targets_t) : outcome json :=
  let! e := enc_time (tg_expires x) in
  let! d := match tg_delegations x with
            | Some d => let! j := delegations_marshal d in Ok [("delegations", j)]
            | None => Ok []
            end in
  Ok (obj_of (tg_unrec x)
    ([("_type", JStr (tg_type x)); ("spec_version", JStr (tg_spec x)); ("version", enc_int (tg_version x));
      ("expires", e); ("targets", enc_map (enc_ptr targetfile_marshal) (tg_targets x))] ++ d)).
Definition targets_fields : fields targets_t :=
  [("_type", fun j x => let! v := dec_string j (tg_type x) in
      Ok (mkTargets v (tg_spec x) (tg_version x) (tg_expires x) (tg_targets x) (tg_delegations x) (tg_unrec x)));
   ("spec_version", fun j x => let! v := dec_string j (tg_spec x) in
      Ok (mkTargets (tg_type x) v (tg_version x) (tg_expires x) (tg_targets x) (tg_delegations x) (tg_unrec x)));
   ("version", fun j x => let! v := dec_int j (tg_version x) in
      Ok (mkTargets (tg_type x) (tg_spec x) v (tg_expires x) (tg_targets x) (tg_delegations x) (tg_unrec x)));
   ("expires", fun j x => let! v := dec_time j (tg_expires x) in
      Ok (mkTargets (tg_type x) (tg_spec x) (tg_version x) v (tg_targets x) (tg_delegations x) (tg_unrec x)));
   ("targets", fun j x => let! v := dec_map (dec_ptr targetfile_unmarshal) j (tg_targets x) in
      Ok (mkTargets (tg_type x) (tg_spec x) (tg_version x) (tg_expires x) v (tg_delegations x) (tg_unrec x)));
   ("delegations", fun j x => let! v := dec_ptr delegations_unmarshal j in
      Ok (mkTargets (tg_type x) (tg_spec x) (tg_version x) (tg_expires x) (tg_targets x) v (tg_unrec x)))].
Definition targets_names := ["_type"; "spec_version"; "version"; "expires"; "targets"; "delegations"].
Definition set_path (n : string) (f : targetfile) : targetfile :=
  mkTargetFile (tf_length f) (tf_hashes f) (tf_custom f) n (tf_unrec f).
(** marshal.go:153-156: assigning the path through a nil pointer panics *)
Definition populate_paths (m : gomap (option targetfile)) : outcome (gomap (option targetfile)) :=
  match m with
  | None => Ok None
  | Some m => if decide (map_Forall (fun _ o => o <> None) m)
              then Ok (Some (map_imap (fun n o => Some (option_map (set_path n) o)) m)) else Panic
  end.
Definition targets_unmarshal (j : json) : outcome targets_t :=
  let! a := decode_struct targets_fields targets_zero j in
  let! tgts := populate_paths (tg_targets a) in
  let! dict := decode_dict j in
  Ok (mkTargets (tg_type a) (tg_spec a) (tg_version a) (tg_expires a) tgts (tg_delegations a) (del_all targets_names dict)).

(** ** The four role types as instances of one interface (types.go:20-22 [Roles]) *)
Class RoleTy (T : Type) := {
  role_name : string;
  signed_marshal : T -> outcome json;
  signed_unmarshal : json -> outcome T;
  signed_zero : T;
  signed_type : T -> string;
  signed_version : T -> Z;
  signed_expires : T -> gotime }.
Global Instance root_role : RoleTy root_t :=
  {| role_name := ROOT; signed_marshal := root_marshal; signed_unmarshal := root_unmarshal; signed_zero := root_zero;
     signed_type := rt_type; signed_version := rt_version; signed_expires := rt_expires |}.
Global Instance snapshot_role : RoleTy snapshot_t :=
  {| role_name := SNAPSHOT; signed_marshal := snapshot_marshal; signed_unmarshal := snapshot_unmarshal; signed_zero := snapshot_zero;
     signed_type := sn_type; signed_version := sn_version; signed_expires := sn_expires |}.
Global Instance timestamp_role : RoleTy timestamp_t :=
  {| role_name := TIMESTAMP; signed_marshal := timestamp_marshal; signed_unmarshal := timestamp_unmarshal; signed_zero := timestamp_zero;
     signed_type := ts_type; signed_version := ts_version; signed_expires := ts_expires |}.
Global Instance targets_role : RoleTy targets_t :=
  {| role_name := TARGETS; signed_marshal := targets_marshal; signed_unmarshal := targets_unmarshal; signed_zero := targets_zero;
     signed_type := tg_type; signed_version := tg_version; signed_expires := tg_expires |}.

(** ** Metadata[T]: marshal.go:270-338 *)
Definition metadata_marshal {T} `{RoleTy T} (x : metadata T) : outcome json :=
  let! s := signed_marshal (md_signed x) in
  Ok (obj_of (md_unrec x) [("signed", s); ("signatures", enc_slice signature_marshal (md_sigs x))]).
(** The struct with fields Signed and Signatures, plus whether a type mismatch was recorded: Go goes on decoding
    after "signatures" has the wrong JSON type, and a later "signed" member can still panic. *)
Record mdec (T : Type) := mkMdec { mx_signed : T; mx_sigs : goslice signature; mx_saved : bool }.
Arguments mkMdec {T}.
Arguments mx_signed {T}.
Arguments mx_sigs {T}.
Arguments mx_saved {T}.
Definition metadata_fields {T} `{RoleTy T} : fields (mdec T) :=
  [("signed", fun j x => let! s := signed_unmarshal j in Ok (mkMdec s (mx_sigs x) (mx_saved x)));
   ("signatures", fun j x =>
      match j with
      | JNull | JArr _ =>
          let! l := dec_slice (fun j _ => signature_unmarshal j) signature_zero j (mx_sigs x) in
          Ok (mkMdec (mx_signed x) l (mx_saved x))
      | _ => Ok (mkMdec (mx_signed x) (mx_sigs x) true)
      end)].
Definition metadata_unmarshal {T} `{RoleTy T} (j : json) : outcome (metadata T) :=
  let! m := decode_dict j in
  let! d := decode_struct metadata_fields (mkMdec signed_zero None false) j in
  if mx_saved d then decerr
  else Ok (mkMetadata (mx_signed d) (mx_sigs d) (del_all ["signed"; "signatures"] m)).
