(** * Specification of client histories (C97, C98): programs that are restarted, interrupted and restarted again *)
From stdpp Require Import base gmap strings list.
From Coq Require Import ZArith String.
From Verif Require Import GoBase GoStr Types Keys Metadata TrustedMetadata Fetcher Updater SpecBasic SpecTrusted SpecUpdater.
Open Scope Z_scope.

(** a client is not running (only its files are left), or it runs with an updater made from [c] in world [w] *)
Inductive client := Stopped (d : disk) | Running (E : env) (c : config) (w : world).
Definition files (s : client) : disk := match s with Stopped d => d | Running _ _ w => io_disk (w_io w) end.
Section SpecHistory.
Context {CR : Crypto} (dir : string).
(** the file in the metadata directory [dir] that holds the trusted root between two runs *)
Definition root_json : string := path_join [dir; "root.json"].
(** a configuration with the metadata directory [dir] and the trusted root metadata [data]; the rest may be anything *)
Definition trusting (data : string) (c : config) : Prop := c_metadata_dir c = dir /\ c_trusted_root c = data.
(** target files are not stored over the root file *)
Definition spares_root (E : env) (c : config) (a : api) : Prop :=
  forall tf p u, a = DownloadTarget tf p u -> ~ file_for E c tf p root_json.

(** All that can happen to a client that takes its trusted root from the metadata directory each time it starts, beginning
    with the files [d0].  Every run has its own environment, clock and configuration.  Runs may be interrupted at any
    point, and files other than the root file may change at any time. *)
Inductive history (d0 : disk) : client -> Prop :=
  | hist_begin : history d0 (Stopped d0)
  | hist_start E c now d data tr i' t : history d0 (Stopped d) -> d !! root_json = Some data -> trusting data c ->
      updater_new E c now (mkIos d tr) = (i', Ok t) -> history d0 (Running E c (mkWorld t i'))
  | hist_start_stopped E c now d data tr i' o evs d' : history d0 (Stopped d) -> d !! root_json = Some data -> trusting data c ->
      updater_new E c now (mkIos d tr) = (i', o) -> happened (mkIos d tr) i' evs -> crash d evs d' -> history d0 (Stopped d')
  | hist_call E c w a w' o : history d0 (Running E c w) -> spares_root E c a -> call_api E c a w = (w', o) -> history d0 (Running E c w')
  | hist_call_stopped E c w a w' o evs d' : history d0 (Running E c w) -> spares_root E c a -> call_api E c a w = (w', o) ->
      happened (w_io w) (w_io w') evs -> crash (io_disk (w_io w)) evs d' -> history d0 (Stopped d')
  | hist_stop E c w : history d0 (Running E c w) -> history d0 (Stopped (io_disk (w_io w)))
  | hist_files d d' : history d0 (Stopped d) -> d' !! root_json = d !! root_json -> history d0 (Stopped d')
  | hist_files_running E c w i : history d0 (Running E c w) -> io_disk i !! root_json = io_disk (w_io w) !! root_json -> history d0 (Running E c (mkWorld (w_trusted w) i)).
End SpecHistory.
