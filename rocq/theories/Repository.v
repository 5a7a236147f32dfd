(** * In-memory repository store: metadata/repository/repository.go *)
From stdpp Require Import base gmap strings.
From Verif Require Import Types.

(** repository.go:19-31; pointers may be nil *)
Record repository := mkRepository {
  rp_root : option (metadata root_t);
  rp_snapshot : option (metadata snapshot_t);
  rp_timestamp : option (metadata timestamp_t);
  rp_targets : gmap string (option (metadata targets_t)) }.
Definition repo_new : repository := mkRepository None None None ∅.
(** repository.go:34-71 *)
Definition repo_root (r : repository) := rp_root r.
Definition repo_set_root (m : option (metadata root_t)) (r : repository) := mkRepository m (rp_snapshot r) (rp_timestamp r) (rp_targets r).
Definition repo_snapshot (r : repository) := rp_snapshot r.
Definition repo_set_snapshot (m : option (metadata snapshot_t)) (r : repository) := mkRepository (rp_root r) m (rp_timestamp r) (rp_targets r).
Definition repo_timestamp (r : repository) := rp_timestamp r.
Definition repo_set_timestamp (m : option (metadata timestamp_t)) (r : repository) := mkRepository (rp_root r) (rp_snapshot r) m (rp_targets r).
(** a missing map entry reads as nil *)
Definition repo_targets (name : string) (r : repository) : option (metadata targets_t) := default None (rp_targets r !! name).
Definition repo_set_targets (name : string) (m : option (metadata targets_t)) (r : repository) :=
  mkRepository (rp_root r) (rp_snapshot r) (rp_timestamp r) (<[name := m]> (rp_targets r)).
