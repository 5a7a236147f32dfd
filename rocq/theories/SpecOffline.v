(** * Specification of working offline from the cache of an earlier refresh (C121) *)
From stdpp Require Import base gmap strings list.
From Coq Require Import ZArith String.
From Verif Require Import GoBase GoTime Types Marshal Keys Metadata TrustedMetadata Fetcher Updater SpecBasic SpecSig SpecTrusted SpecUpdater.
Open Scope Z_scope.

Section SpecOffline.
Context {CR : Crypto}.
(** the updater holds these three top-level documents *)
Definition trusts_these (t : trusted) (ts : metadata timestamp_t) (sn : metadata snapshot_t) (tg : metadata targets_t) : Prop :=
  t_timestamp t = Some ts /\ t_snapshot t = Some sn /\ t_targets t !! "targets" = Some tg.
(** the metadata directory holds these contents for the three roles *)
Definition cache_holds (c : config) (d : disk) (dts dsn dtg : string) : Prop :=
  d !! cache_name c "timestamp" = Some dts /\ d !! cache_name c "snapshot" = Some dsn /\ d !! cache_name c "targets" = Some dtg.
(** the root's keys for the three roles have signed them *)
Definition root_vouches (r : metadata root_t) (ts : metadata timestamp_t) (sn : metadata snapshot_t) (tg : metadata targets_t) : Prop :=
  root_signs r "timestamp" ts /\ root_signs r "snapshot" sn /\ root_signs r "targets" tg.
(** nothing of it is expired *)
Definition all_fresh (now : Z) (r : metadata root_t) (ts : metadata timestamp_t) (sn : metadata snapshot_t) (tg : metadata targets_t) : Prop :=
  ~ expired_at r now /\ ~ expired_at ts now /\ ~ expired_at sn now /\ ~ expired_at tg now.
(** the same client, but with the setting that allows it to work from local metadata only, and with the given root *)
Definition goes_offline (c c' : config) (root : string) : Prop :=
  c_trusted_root c' = root /\ c_metadata_url c' = c_metadata_url c /\ c_metadata_dir c' = c_metadata_dir c /\
  c_targets_dir c' = c_targets_dir c /\ c_disable_cache c' = false /\ c_unsafe_local c' = true.
End SpecOffline.
