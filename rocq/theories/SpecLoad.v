(** * Specification of loading, saving and loading again (C17): documents without look-alike member names *)
From stdpp Require Import base gmap strings list.
From Coq Require Import ZArith Ascii String.
From Verif Require Import GoBase GoStr Json GoTime Types Marshal Metadata SpecUtf8 SpecText SpecSerial SpecRound SpecExtra.
Open Scope Z_scope.

(** no unrecognised name equals one of the known [names] up to letter case (and the Kelvin sign and long s) *)
Definition clear_names (names : list string) (u : unrec) : Prop := forall k v, mget u k = Some v -> forall n, n ∈ names -> fold_key n <> fold_key k.
Definition all_ptrs {V} (P : V -> Prop) (m : gomap (option V)) : Prop := forall k x, mget m k = Some (Some x) -> P x.

Definition keyval_clear (x : keyval) : Prop := clear_names in_keyval (kv_unrec x).
Definition key_clear (x : key) : Prop := keyval_clear (k_val x) /\ clear_names in_key (k_unrec x).
Definition signature_clear (x : signature) : Prop := clear_names in_signature (sig_unrec x).
Definition role_clear (x : role) : Prop := clear_names in_role (r_unrec x).
Definition metafile_clear (x : metafile) : Prop := clear_names in_metafile (mf_unrec x).
Definition targetfile_clear (x : targetfile) : Prop := clear_names in_targetfile (tf_unrec x).
Definition delegatedrole_clear (x : delegatedrole) : Prop := clear_names in_delegatedrole (dr_unrec x).
Definition succinct_clear (x : succinctroles) : Prop := clear_names in_succinct (sr_unrec x).
Definition delegations_clear (x : delegations) : Prop :=
  all_ptrs key_clear (d_keys x) /\ Forall delegatedrole_clear (slist (d_roles x)) /\ (forall s, d_succinct x = Some s -> succinct_clear s) /\
  clear_names in_delegations (d_unrec x).
Definition root_clear (x : root_t) : Prop :=
  all_ptrs key_clear (rt_keys x) /\ all_ptrs role_clear (rt_roles x) /\ clear_names in_root (rt_unrec x).
Definition snapshot_clear (x : snapshot_t) : Prop := all_ptrs metafile_clear (sn_meta x) /\ clear_names in_snapshot (sn_unrec x).
Definition timestamp_clear (x : timestamp_t) : Prop := all_ptrs metafile_clear (ts_meta x) /\ clear_names in_snapshot (ts_unrec x).
Definition targets_clear (x : targets_t) : Prop :=
  all_ptrs targetfile_clear (tg_targets x) /\ (forall d, tg_delegations x = Some d -> delegations_clear d) /\ clear_names in_targets (tg_unrec x).

Class ClearSpec (T : Type) := { signed_clear : T -> Prop }.
Global Instance root_clear_spec : ClearSpec root_t := {| signed_clear := root_clear |}.
Global Instance snapshot_clear_spec : ClearSpec snapshot_t := {| signed_clear := snapshot_clear |}.
Global Instance timestamp_clear_spec : ClearSpec timestamp_t := {| signed_clear := timestamp_clear |}.
Global Instance targets_clear_spec : ClearSpec targets_t := {| signed_clear := targets_clear |}.
(** the same for a whole document *)
Definition metadata_clear {T} `{ClearSpec T} (m : metadata T) : Prop :=
  signed_clear (md_signed m) /\ Forall signature_clear (slist (md_sigs m)) /\ clear_names in_metadata (md_unrec m).
(** the four role types *)
Inductive tuf_role_c : forall T : Type, RoleTy T -> SignedSpec T -> ClearSpec T -> Prop :=
  | is_root_c : tuf_role_c root_t _ _ _
  | is_snapshot_c : tuf_role_c snapshot_t _ _ _
  | is_timestamp_c : tuf_role_c timestamp_t _ _ _
  | is_targets_c : tuf_role_c targets_t _ _ _.
