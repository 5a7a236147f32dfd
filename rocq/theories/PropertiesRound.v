(** * Properties C09, C10, C15, C17, C19: saving and loading again, and what a signature covers *)
From stdpp Require Import base gmap strings list.
From Coq Require Import ZArith Lia Ascii String.
From Verif Require Import GoBase GoStr Json GoTime Types Marshal Keys Metadata SpecUtf8 Utf8Proofs SpecText JsonText SpecSerial JsonProofs SerialProofs SpecRound RoundBase RoundProofs RoundStructs CanonProofs RoundKept.
Open Scope Z_scope.

(** a targets document that uses everything *)
Definition rx_key : key := mkKey "ed25519" "ed25519" (mkKeyVal "ab12" (Some {["note" := JStr "x"]})) "" (Some {["keyid_hash_algorithms" := JArr [JStr "sha256"]]}).
Definition rx_roles : list delegatedrole :=
  [mkDelegatedRole "d" (Some ["k1"]) 1 true None (Some ["a/*"; "b"]) (Some ∅);
   mkDelegatedRole "e" (Some []) 2 false (Some ["0f"]) None (Some {["more" := JObj [("z", JNull)]]})].
Definition rx_succinct : succinctroles := mkSuccinctRoles (Some ["k1"]) 1 3 "bin" None.
Definition rx_custom : json := JObj [("b", JNum "1"); ("a", JStr "é")].
Definition rx_signed (roles : goslice delegatedrole) (succ : option succinctroles) (extra : unrec) : targets_t :=
  mkTargets "targets" "1.0.31" 3 (mkTime 2030 2 28 12 0 59 0 0)
    (Some {["a/b.txt" := Some (mkTargetFile 5 (Some {["sha256" := "xyz"]}) (Some rx_custom) "" (Some {["u" := JNum "-7"]}))]})
    (Some (mkDelegations (Some {["k1" := Some rx_key]}) roles succ None)) extra.
Definition rx (roles : goslice delegatedrole) (succ : option succinctroles) (extra : unrec) : metadata targets_t :=
  mkMetadata (rx_signed roles succ extra) (Some [mkSignature "k1" "sig" None]) (Some {["x-top" := JBool true]}).

Lemma text_e_acute : utf8_text "é".
Proof. change "é" with (str_of [192 + 3; 128 + 41] +:+ ""). eapply utf8_cons; [apply char2; lia|constructor]. Qed.
Lemma extra_none names : extra_ok names None. Proof. by intros k v H. Qed.
Lemma extra_empty names : extra_ok names (Some ∅). Proof. intros k v H. cbn in H. by rewrite lookup_empty in H. Qed.
Lemma extra_single names k v : utf8_text k -> held_value v -> Forall (fun n => fold_key n <> fold_key k) names -> extra_ok names (Some {[k := v]}).
Proof. intros Hk Hv Hn k' v' H. cbn in H. apply lookup_singleton_Some in H as [<- <-]. split_and!; [done|done|]. by rewrite Forall_forall in Hn. Qed.
Lemma ptrs_single {V} (P : V -> Prop) k x : utf8_text k -> P x -> ptrs_ok P (Some {[k := Some x]}).
Proof. intros Hk Hx k' o H. cbn in H. apply lookup_singleton_Some in H as [<- <-]. split; [done|]. by intros y [= <-]. Qed.
Lemma hashes_single k v : utf8_text k -> hashes_ok (Some {[k := v]}).
Proof. intros Hk k' v' H. cbn in H. by apply lookup_singleton_Some in H as [<- _]. Qed.
Ltac text := first [exact text_e_acute|apply plain_text; reflexivity].
Ltac held := split; [vm_compute; reflexivity|split; cbn; repeat split; text].
Ltac extra := first [apply extra_none|apply extra_empty|apply extra_single; [text|held|repeat constructor; discriminate]].
Ltac strs := unfold strs_ok; cbn; repeat constructor; text.
Lemma rx_key_wf : key_wf rx_key.
Proof. split_and!; [text|text|split; [text|extra]|extra]. Qed.
Lemma rx_roles_wf : Forall delegatedrole_wf rx_roles.
Proof.
  apply Forall_cons_2; [|apply Forall_cons_2; [|apply Forall_nil_2]].
  - split_and!; [text|strs|done|strs|strs|by left|extra].
  - split_and!; [text|strs|done|strs|strs|by right|extra].
Qed.
Lemma rx_succinct_wf : succinct_wf rx_succinct.
Proof. split_and!; [strs|done|done|text|extra]. Qed.
Lemma rx_custom_ok : custom_ok rx_custom.
Proof. split; [done|]. split; [done|]. split; [cbn; repeat split; vm_compute; discriminate|]. split; [cbn; repeat split|]. cbn. split_and!; try done; text. Qed.
Lemma rx_signed_wf roles succ extra : roles = None \/ roles = Some rx_roles -> succ = None \/ succ = Some rx_succinct -> extra_ok targets_names extra -> targets_wf (rx_signed roles succ extra).
Proof.
  intros Hr Hs Hu. split_and!; [text|text|done|vm_compute; repeat split; try reflexivity; intros [=]| | | |exact Hu].
  - apply ptrs_single; [text|]. split_and!; [done|by apply hashes_single; text|by intros c [= <-]; apply rx_custom_ok|extra].
  - intros k H. cbn in H. by apply lookup_singleton_Some in H as [_ H].
  - intros d [= <-]. split_and!.
    + apply ptrs_single; [text|]. apply rx_key_wf.
    + destruct Hr as [-> | ->]; [apply Forall_nil_2|apply rx_roles_wf].
    + cbn. intros s _ ->. destruct Hs as [Hs|[= ->]]; [done|]. apply rx_succinct_wf.
    + extra.
Qed.
Lemma rx_wf roles succ extra : roles = None \/ roles = Some rx_roles -> succ = None \/ succ = Some rx_succinct -> extra_ok targets_names extra -> metadata_wf (rx roles succ extra).
Proof.
  intros Hr Hs Hu. split; [by apply rx_signed_wf|]. split; [done|]. split; [|split; [|extra]].
  - apply Forall_cons_2; [|apply Forall_nil_2]. split; [text|extra].
  - apply NoDup_singleton.
Qed.
Lemma shallow_b {T} {RT : RoleTy T} (m : metadata T) : (match metadata_marshal m with Ok j => jdepth j <=? max_nesting_depth | _ => false end) = true -> shallow m.
Proof. intros H j Hj. rewrite Hj in H. by apply Z.leb_le in H. Qed.

(** ** C10 *)
(** Saving and loading any well-formed metadata of the four types gives back everything but the details that
    [metadata_kept] drops (nil or empty maps of unrecognised fields, cached key IDs, paths of targets) *)
Theorem C10_round_trip {T} {RT : RoleTy T} {SS : SignedSpec T} (m : metadata T) : tuf_role T RT SS -> metadata_wf m -> shallow m ->
  exists b, to_bytes m = Ok b /\ from_bytes b = Ok (metadata_kept m).
Proof. intros H%tuf_role_rt. exact (save_load m H). Qed.
Print Assumptions C10_round_trip.
(** so a value that has the form of loaded values comes back unchanged *)
Theorem C10_round_trip_exact {T} {RT : RoleTy T} {SS : SignedSpec T} (m : metadata T) : tuf_role T RT SS -> metadata_wf m -> shallow m -> metadata_kept m = m ->
  exists b, to_bytes m = Ok b /\ from_bytes b = Ok m.
Proof. intros H%tuf_role_rt Hm Hs Hk. destruct (save_load m H Hm Hs) as (b & Hb & Hl). exists b. by rewrite Hk in Hl. Qed.
Print Assumptions C10_round_trip_exact.
Example C10_nonvacuous : metadata_wf (rx (Some rx_roles) None None) /\ shallow (rx (Some rx_roles) None None) /\ tuf_role targets_t _ _ /\
  metadata_kept (metadata_kept (rx (Some rx_roles) None None)) = metadata_kept (rx (Some rx_roles) None None).
Proof. split; [apply rx_wf; [by right|by left|apply extra_none]|]. split; [apply shallow_b; vm_compute; reflexivity|]. split; [constructor|]. apply metadata_kept_idem. constructor. Qed.
(** Taken literally it fails: a value made by the constructors has nil maps of unrecognised fields, a loaded one has
    empty maps *)
Theorem C10_literal_refuted : exists (m : metadata targets_t) b m', metadata_wf m /\ to_bytes m = Ok b /\ from_bytes b = Ok m' /\ m' <> m.
Proof.
  destruct (C10_round_trip (rx None None None) is_targets) as (b & Hb & Hm).
  - apply rx_wf; [by left|by left|apply extra_none].
  - apply shallow_b. vm_compute. reflexivity.
  - exists (rx None None None), b, (metadata_kept (rx None None None)). split; [apply rx_wf; [by left|by left|apply extra_none]|]. split; [done|]. split; [done|]. discriminate.
Qed.
Print Assumptions C10_literal_refuted.

(** ** C19 *)
(** either kind of delegations survives; with both, the succinct roles are lost *)
Theorem C19_delegations (m : metadata targets_t) : metadata_wf m -> shallow m ->
  exists b m', to_bytes m = Ok b /\ from_bytes b = Ok m' /\
    forall d, tg_delegations (md_signed m) = Some d ->
    exists d', tg_delegations (md_signed m') = Some d' /\
      d_roles d' = option_map (map delegatedrole_kept) (d_roles d) /\
      (d_roles d = None -> d_succinct d' = option_map succinct_kept (d_succinct d)) /\
      (d_roles d <> None -> d_succinct d' = None) /\
      forall id, mget (d_keys d') id = option_map (option_map key_kept) (mget (d_keys d) id).
Proof.
  intros Hm Hs. destruct (save_load m targets_signed_rt Hm Hs) as (b & Hb & Hl). exists b, (metadata_kept m). split; [done|]. split; [done|]. intros d Hd. cbn. rewrite Hd. eexists. split; [done|]. cbn.
  split; [done|]. split; [by intros ->|]. split; [by destruct (d_roles d)|]. intros id. destruct (d_keys d) as [ks|]; [|done]. cbn. rewrite lookup_fmap. by destruct (ks !! id).
Qed.
Print Assumptions C19_delegations.
Theorem C19_no_delegations (m : metadata targets_t) : metadata_wf m -> shallow m -> tg_delegations (md_signed m) = None ->
  exists b m', to_bytes m = Ok b /\ from_bytes b = Ok m' /\ tg_delegations (md_signed m') = None.
Proof.
  intros Hm Hs Hd. destruct (save_load m targets_signed_rt Hm Hs) as (b & Hb & Hl). exists b, (metadata_kept m). split; [done|]. split; [done|]. cbn. by rewrite Hd.
Qed.
Print Assumptions C19_no_delegations.
Example C19_nonvacuous :
  let both := rx (Some rx_roles) (Some rx_succinct) None in let succ := rx None (Some rx_succinct) None in
  metadata_wf both /\ shallow both /\ metadata_wf succ /\ shallow succ.
Proof.
  split; [apply rx_wf; [by right|by right|apply extra_none]|]. split; [apply shallow_b; vm_compute; reflexivity|].
  split; [apply rx_wf; [by left|by right|apply extra_none]|]. apply shallow_b; vm_compute; reflexivity.
Qed.

(** ** C09 *)
Theorem C09_root (x y : root_t) p : root_wf x -> root_wf y -> signing_payload x = Ok p -> signing_payload y = Ok p -> root_kept x = root_kept y.
Proof. exact (root_payload_inj x y p). Qed.
Print Assumptions C09_root.
Theorem C09_snapshot (x y : snapshot_t) p : snapshot_wf x -> snapshot_wf y -> signing_payload x = Ok p -> signing_payload y = Ok p -> snapshot_kept x = snapshot_kept y.
Proof. exact (snapshot_payload_inj x y p). Qed.
Print Assumptions C09_snapshot.
Theorem C09_timestamp (x y : timestamp_t) p : timestamp_wf x -> timestamp_wf y -> signing_payload x = Ok p -> signing_payload y = Ok p -> timestamp_kept x = timestamp_kept y.
Proof. exact (timestamp_payload_inj x y p). Qed.
Print Assumptions C09_timestamp.
(** for targets the order of the members of custom data is not part of the payload *)
Theorem C09_targets (x y : targets_t) p : targets_wf x -> targets_wf y -> signing_payload x = Ok p -> signing_payload y = Ok p ->
  targets_kept (targets_canon x) = targets_kept (targets_canon y).
Proof. exact (targets_payload_inj x y p). Qed.
Print Assumptions C09_targets.
(** documents of different role types never have the same payload *)
Theorem C09_role_types {T1 T2} {R1 : RoleTy T1} {S1 : SignedSpec T1} {R2 : RoleTy T2} {S2 : SignedSpec T2} (x : T1) (y : T2) p :
  tuf_role T1 R1 S1 -> tuf_role T2 R2 S2 -> signed_wf x -> signed_wf y -> signing_payload x = Ok p -> signing_payload y = Ok p -> signed_type x = signed_type y.
Proof. exact (payload_type x y p). Qed.
Print Assumptions C09_role_types.
Lemma payload_ne (a b : outcome string) : (match a, b with Ok a, Ok b => String.eqb a b | _, _ => true end = false) -> a <> b.
Proof. intros H ->. destruct b as [b| |]; [by rewrite String.eqb_refl in H|done..]. Qed.
Example C09_nonvacuous : targets_wf (rx_signed (Some rx_roles) None None) /\ (exists p, signing_payload (rx_signed (Some rx_roles) None None) = Ok p) /\
  signing_payload (rx_signed (Some rx_roles) None None) <> signing_payload (rx_signed (Some rx_roles) None (Some {["u" := JNull]})).
Proof.
  split; [apply rx_signed_wf; [by right|by left|apply extra_none]|]. split.
  - destruct (signing_payload (rx_signed (Some rx_roles) None None)) as [p| |] eqn:E; [by exists p|exfalso..].
    + assert (match signing_payload (rx_signed (Some rx_roles) None None) with Ok _ => true | _ => false end = true) as H by (vm_compute; reflexivity). by rewrite E in H.
    + assert (match signing_payload (rx_signed (Some rx_roles) None None) with Ok _ => true | _ => false end = true) as H by (vm_compute; reflexivity). by rewrite E in H.
  - apply payload_ne. vm_compute. reflexivity.
Qed.
