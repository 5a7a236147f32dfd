(** * Specification of clients that share their files (C104) *)
From stdpp Require Import base gmap strings list.
From Coq Require Import ZArith String.
From Verif Require Import GoBase GoStr GoTime Types Marshal Keys Metadata TrustedMetadata Fetcher Updater SpecBasic SpecTrusted SpecUpdater.
Open Scope Z_scope.

Section SpecShared.
Context {CR : Crypto}.
(** file names that updaters use for temporary files *)
Definition temporary (p : string) : Prop := exists dir n, p = dir +:+ "/tuf_tmp" +:+ fmt_dec n.
(** a target is not stored over cached metadata or a temporary file *)
Definition own_place (E : env) (c : config) (a : api) : Prop :=
  forall tf given u p, a = DownloadTarget tf given u -> file_for E c tf given p -> ~ temporary p /\ forall c' role, p <> cache_name c' role.
(** what one client does on the disk: it makes updaters, with any configuration, and uses them.  As other clients may
    change files at any time, each call starts from any world: a call reads a metadata file at most once, before it
    stores it, so what it does is what it would do alone on a disk that holds in each file what it reads there.  [stored file data]: before the client stored [data] in
    the metadata file [file] it had verified it, and held it as trusted metadata *)
Inductive client (stored : string -> string -> Prop) : list event -> Prop :=
  | client_stops : client stored []
  | client_new E c now i i' o evs rest : updater_new E c now i = (i', o) -> happened i i' evs ->
      (forall t, tm_new (c_trusted_root c) now = Ok t -> stored (cache_name c "root") (c_trusted_root c)) ->
      client stored rest -> client stored (evs ++ rest)
  | client_call E c a w w' o evs rest : call_api E c a w = (w', o) -> happened (w_io w) (w_io w') evs -> own_place E c a ->
      (forall role data t, passed (w_trusted w) t (w_trusted w') -> holds t role data -> stored (cache_name c role) data) ->
      client stored rest -> client stored (evs ++ rest).
(** a complete metadata document *)
Definition whole (data : string) : Prop :=
  (exists m : metadata root_t, document data m) \/ (exists m : metadata timestamp_t, document data m) \/ (exists m : metadata snapshot_t, document data m) \/ (exists m : metadata targets_t, document data m).
(** several clients run at the same time on one disk, one event of one of them at a time.  A file is created only if there
    is none of that name (O_EXCL); the data of a write become visible bit by bit.  Each client may stop at any time *)
Inductive together : disk -> list (list event) -> disk -> Prop :=
  | together_now d clients : together d clients d
  | together_event d clients k e rest d' : clients !! k = Some (e :: rest) -> (forall p, e = EvCreate p -> d !! p = None) ->
      together (apply_event d e) (<[k := rest]> clients) d' -> together d clients d'
  | together_part d clients k p data rest n d' : clients !! k = Some (EvWrite p data :: rest) -> together (<[p := str_take n data]> d) clients d' -> together d clients d'.
End SpecShared.
