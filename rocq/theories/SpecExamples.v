(** * Specification of the example programs (C105, C106) *)
From stdpp Require Import base gmap strings list.
From Coq Require Import ZArith String.
From Verif Require Import GoBase GoStr Types Keys Metadata TrustedMetadata Fetcher Updater Cli ExampleClients SpecBasic SpecTrusted SpecUpdater SpecHistory SpecCli.
Open Scope Z_scope.

(** the directory that the client example works in *)
Definition example_dir (cwd : string) : string := path_join [cwd; "tmp"].
Definition example_root (cwd : string) : string := root_json (example_dir cwd).
(** os.Stat failed for a file that is there *)
Definition stat_failed (p : string) (evs : list event) : Prop := EvFail "stat" p ∈ evs.

Section SpecExamples.
Context {CR : Crypto}.
(** any number of runs of the program in the working directory [cwd], each with its own environment, addresses, target and
    clock, each finished, failed or interrupted; between them files other than the root file may change *)
Inductive example_runs (cwd : string) (d0 : disk) : disk -> Prop :=
  | runs_none : example_runs cwd d0 d0
  | runs_run d E url turl target now tr i' o evs d' : example_runs cwd d0 d -> e_cwd E = Some cwd ->
      example_main E url turl target now (mkIos d tr) = (i', o) -> happened (mkIos d tr) i' evs -> ~ stat_failed (example_root cwd) evs -> crash d evs d' -> example_runs cwd d0 d'
  | runs_files d d' : example_runs cwd d0 d -> d' !! example_root cwd = d !! example_root cwd -> example_runs cwd d0 d'.
End SpecExamples.

(** ** The multi-repository example: its first step *)
(** the root file in the working directory that all trust comes from *)
Definition anchor (cwd : string) : string := path_join [cwd; "root.json"].
(** the part of a target's name before the first slash: the repository it belongs to *)
Definition repository_of (name repo : string) : Prop :=
  (name = repo \/ exists rest, name = repo +:+ "/" +:+ rest) /\ ~ exists a b, repo = a +:+ "/" +:+ b.
Section SpecBootstrap.
Context {CR : Crypto}.
(** complete, fresh, consistent metadata whose root is a successor of [r], with the targets metadata [tg] *)
Definition published_under (r : metadata root_t) (now : Z) (tg : metadata targets_t) : Prop :=
  exists t n, root_chain n r (t_root t) /\ t_ref t = now /\ top_level_set t /\ t_targets t !! "targets" = Some tg.
End SpecBootstrap.
