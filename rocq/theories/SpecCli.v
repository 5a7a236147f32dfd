(** * Specification of the example client (C99-C102) *)
From stdpp Require Import base gmap strings list.
From Coq Require Import ZArith String.
From Verif Require Import GoBase GoStr Types Keys Metadata TrustedMetadata Fetcher Updater Cli SpecBasic SpecTrusted SpecUpdater SpecHistory.
Open Scope Z_scope.

(** the client's two directories in the working directory *)
Definition metadata_dir (cwd : string) : string := path_join [cwd; "tuf_metadata"].
Definition download_dir (cwd : string) : string := path_join [cwd; "tuf_download"].
(** [p] is a file in directory [dir], at any depth, or [dir] itself *)
Definition within (dir p : string) : Prop := p = dir \/ exists s, p = dir +:+ "/" +:+ s.
(** the metadata directory's root file *)
Definition trusted_root_file (cwd : string) : string := root_json (metadata_dir cwd).

Section SpecCli.
Context {CR : Crypto}.
(** [data] is the target [path], for a client that trusts root [r] at time [now]: its length and hashes are in an entry for
    [path], in metadata reached by delegations for [path], of a complete, fresh and consistent set of metadata whose root
    is a successor of [r] *)
Definition authentic (r : metadata root_t) (now : Z) (path data : string) : Prop :=
  exists t role m tf n, root_chain n r (t_root t) /\ t_ref t = now /\ top_level_set t /\
    leads t path "targets" role /\ t_targets t !! role = Some m /\ entry m path (Some tf) /\
    (exists sn, t_snapshot t = Some sn /\ as_listed sn role m) /\ ~ expired_at m now /\ authorised t role /\
    matches_target tf data.
(** any number of [get] commands in the directory [cwd], each with its own environment, flags, target and clock, each
    finished, failed or interrupted at any point; between them files other than the root file may change *)
Inductive get_commands (cwd : string) (d0 : disk) : disk -> Prop :=
  | gets_none : get_commands cwd d0 d0
  | gets_run d E f target now tr i' o evs d' : get_commands cwd d0 d -> e_cwd E = Some cwd ->
      get_cmd E f target now (mkIos d tr) = (i', o) -> happened (mkIos d tr) i' evs -> crash d evs d' -> get_commands cwd d0 d'
  | gets_files d d' : get_commands cwd d0 d -> d' !! trusted_root_file cwd = d !! trusted_root_file cwd -> get_commands cwd d0 d'.
End SpecCli.

(** ** The questions of reset *)
Definition says_yes : list string := ["y"; "Y"; "yes"; "yeS"; "yEs"; "yES"; "Yes"; "YeS"; "YEs"; "YES"].
Definition says_no : list string := ["n"; "N"; "no"; "nO"; "No"; "NO"].
(** typing the lines [l] answers a question with [b] and leaves the lines [l'] for the next one; lines that are neither yes
    nor no are ignored *)
Inductive reply : list (option string) -> bool -> list (option string) -> Prop :=
  | reply_yes a l : a ∈ says_yes -> reply (Some a :: l) true l
  | reply_no a l : a ∈ says_no -> reply (Some a :: l) false l
  | reply_other a l b l' : a ∉ says_yes -> a ∉ says_no -> reply l b l' -> reply (Some a :: l) b l'.
