(** * Downloads and configuration: metadata/fetcher/fetcher.go, metadata/config/config.go *)
From stdpp Require Import base gmap strings list.
From Coq Require Import ZArith Ascii String.
From Verif Require Import GoBase GoStr.
Open Scope Z_scope.

(** What [http.Client.Do] hands back.  [rs_length] is the Content-Length header ("" if absent), [rs_body] the bytes the
    body delivers before it ends; it ends with an error if [rs_broken].  Simplification: the error is delivered by a
    Read of its own, after all bytes. *)
Record response := mkResponse { rs_status : Z; rs_length : string; rs_body : string; rs_broken : bool }.

(** [io.ReadAll(io.LimitReader(body, n))]: reading stops after [n] bytes (at once if n <= 0), an error is only seen if
    it comes before *)
Definition read_limited (body : string) (broken : bool) (n : Z) : outcome string :=
  if n <=? 0 then Ok ""
  else if n <=? str_len body then Ok (str_take (Z.to_nat n) body)
  else if broken then Err (EOther "unexpected EOF") else Ok body.

(** DefaultFetcher.DownloadFile: fetcher.go:36-83.  [res] is the result of http.NewRequest and client.Do (including the
    timeout); the computation of maxLength+1 wraps around. *)
Definition download_file (res : outcome response) (url : string) (maxlen : Z) : outcome string :=
  let! r := res in
  if rs_status r =? 200 then
    let! _ := if String.eqb (rs_length r) "" then Ok tt
              else match parse_int 10 (rs_length r) with
                   | None => Err (EOther "strconv.ParseInt")
                   | Some n => if maxlen <? n then Err (ErrDownloadLengthMismatch "length is larger than expected") else Ok tt
                   end in
    let! data := read_limited (rs_body r) (rs_broken r) (wrap64 (maxlen + 1)) in
    if maxlen <? str_len data then Err (ErrDownloadLengthMismatch "length is larger than expected") else Ok data
  else Err (ErrDownloadHTTP (rs_status r) url).

(** UpdaterConfig: config.go:21-43, without the fetcher (it is part of the environment) *)
Record config := mkConfig {
  c_max_root_rotations : Z;
  c_max_delegations : Z;
  c_root_max : Z;
  c_timestamp_max : Z;
  c_snapshot_max : Z;
  c_targets_max : Z;
  c_trusted_root : string;
  c_metadata_dir : string;
  c_targets_dir : string;
  c_metadata_url : string;
  c_targets_url : string;
  c_disable_cache : bool;
  c_prefix_hash : bool;
  c_unsafe_local : bool }.

(** config.New: config.go:47-74; [targets_url] is url.JoinPath(remoteURL, "targets") *)
Definition config_new (targets_url : outcome string) (remote_url root_bytes : string) : outcome config :=
  let! t := targets_url in
  Ok (mkConfig 32 32 512000 16384 2000000 5000000 root_bytes "" "" remote_url t false true false).
