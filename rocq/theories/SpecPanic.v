(** * Specification of crash freedom (C92) *)
From stdpp Require Import base gmap strings list.
From Coq Require Import ZArith String.
From Verif Require Import GoBase Types Marshal Keys Metadata TrustedMetadata Fetcher Updater SpecSig SpecTrusted SpecUpdater SpecResilience.
Open Scope Z_scope.

Section Panic.
Context {CR : Crypto}.
(** bytes that do not trip the parser, and whose content, for each type of metadata they might be used as, has no null
    entries, proper keys, a snapshot entry in a timestamp and at most 32 bits of hash bins *)
Definition tame_root (data : string) : Prop := from_bytes (T := root_t) data <> Panic /\ forall r, from_bytes data = Ok r -> proper_root r.
Definition tame_timestamp (data : string) : Prop := from_bytes (T := timestamp_t) data <> Panic /\ forall ts, from_bytes data = Ok ts -> exists f, names_snapshot ts f.
Definition tame_snapshot (data : string) : Prop :=
  from_bytes (T := snapshot_t) data <> Panic /\ forall sn, from_bytes data = Ok sn -> forall file, mentions_file sn file -> exists f, lists_file sn file f.
Definition tame_targets (data : string) : Prop :=
  from_bytes (T := targets_t) data <> Panic /\ forall m, from_bytes data = Ok m -> proper_targets m /\
    forall d s, tg_delegations (md_signed m) = Some d -> d_succinct d = Some s -> 0 <= sr_bit_length s <= 32.
Definition tame (data : string) : Prop := tame_root data /\ tame_timestamp data /\ tame_snapshot data /\ tame_targets data.
(** the injected fetcher and the library's URL join do not panic themselves *)
Definition calm (E : env) : Prop := (forall tr url len, e_net E tr url len <> Panic) /\ forall a b, e_url_join E a b <> Panic.
(** [role] is the top-level targets role, or a loaded role delegates [path] to it *)
Definition wanted (t : trusted) (path role : string) : Prop := role = "targets" \/ exists d dm b, t_targets t !! d = Some dm /\ delegated dm path role b.
(** the trusted snapshot does not list it *)
Definition unlisted (t : trusted) (role : string) : Prop := exists sn, t_snapshot t = Some sn /\ forall f, ~ lists_file sn (String.append role ".json") f.
End Panic.
