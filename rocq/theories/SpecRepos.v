(** * Specification of the example programs that make repositories (C110, C111) *)
From stdpp Require Import base gmap strings list.
From Coq Require Import ZArith String.
From Verif Require Import GoBase GoStr GoTime Types Keys Metadata TrustedMetadata Fetcher Updater SpecUtf8 SpecRound SpecSig SpecTrusted SpecUpdater SpecReach.
Open Scope Z_scope.

(** ** Files and directories *)
(** /a/b/c for the list of a, b and c *)
Definition abs_path (l : list string) : string := "/" +:+ join_str "/" l.
(** a name of a file or directory *)
Definition entry_name (s : string) : Prop := s ∉ [""; "."; ".."] /\ ~ exists a b, s = a +:+ "/" +:+ b.
(** an absolute path, without "." and ".." *)
Definition abs_dir (l : list string) : Prop := Forall entry_name l.
(** file [name] of directory [dir]; [name] may be a path in it *)
Definition file_in (dir : list string) (name : string) : string := abs_path dir +:+ "/" +:+ name.
(** a web server: it delivers the files of the directory [dir], and for other names it says that there are none *)
Definition serves_dir (E : env) (d : disk) (dir : list string) (url : string) : Prop :=
  forall name, match d !! file_in dir name with
               | Some data => serves E (with_slash url +:+ name) data
               | None => forall tr len, exists e, e_net E tr (with_slash url +:+ name) len = Err e /\ not_found e
               end.

Section SpecRepos.
Context {CR : Crypto}.
(** the public parts of the keys are written as text (hexadecimal digits or PEM) *)
Definition text_keys (key : string -> signer) : Prop :=
  forall n pk k, sg_public (key n) = Ok pk -> key_from_public_key pk = Ok k -> utf8_text (kv_public (k_val k)).
(** a client that trusts the root file [root], with an empty cache *)
Definition new_client (E : env) (c : config) (root : string) (i : ios) : Prop :=
  c_trusted_root c = root /\ c_unsafe_local c = false /\ c_metadata_url c <> "" /\ c_targets_url c <> "" /\ io_disk i = ∅ /\ disk_works E c (io_disk i) /\
  0 <= c_max_delegations c /\ 0 <= c_max_root_rotations c < 2 ^ 62.
(** the metadata files in [dir] are not larger than the client allows *)
Definition within_limits (c : config) (d : disk) (dir : list string) : Prop :=
  forall name data, d !! file_in dir name = Some data -> Z.of_nat (String.length data) <= Z.min (Z.min (c_root_max c) (c_timestamp_max c)) (Z.min (c_snapshot_max c) (c_targets_max c)).
(** an updater made at time [now] finds the target [name] and downloads [data] *)
Definition delivers (E : env) (c : config) (now : Z) (i : ios) (name data : string) : Prop :=
  exists tf, tf_path tf = name /\ matches_target tf data /\
    forall fp p, file_for E c tf fp p -> exists i' t w w', updater_new E c now i = (i', Ok t) /\ get_target_info E c name (mkWorld t i') = (w, Ok (Some tf)) /\
      download_target E c tf fp "" w = (w', Ok (p, data)).
(** the signers for these names work, with keys of supported types that have an ID, and the IDs are different *)
Definition keys_work (key : string -> signer) (names : list string) : Prop :=
  (forall n, n ∈ names -> exists p id, working_signer (key n) p /\ proper_pk p /\ signer_keyid (key n) id) /\
  forall n n' id, n ∈ names -> n' ∈ names -> signer_keyid (key n) id -> signer_keyid (key n') id -> n = n'.
End SpecRepos.
