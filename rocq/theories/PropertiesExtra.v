(** * Property C15: members that are not part of the TUF format *)
From stdpp Require Import base gmap strings list.
From Coq Require Import ZArith Lia Ascii String.
From Verif Require Import GoBase GoStr Json GoTime Types Marshal Keys Metadata SpecUtf8 SpecText SpecSerial SpecRound RoundStructs CanonProofs SpecExtra ExtraProofs PropertiesRound.
Open Scope Z_scope.

(** ** C15 *)
(** Reading any object of the format keeps every other member, with its value (numbers as 64-bit floats, so exactly when
    they are integers up to 2^53) *)
Theorem C15_read :
  (keeps_extra (metadata_unmarshal (T := root_t)) in_metadata md_unrec /\ keeps_extra (metadata_unmarshal (T := snapshot_t)) in_metadata md_unrec /\
   keeps_extra (metadata_unmarshal (T := timestamp_t)) in_metadata md_unrec /\ keeps_extra (metadata_unmarshal (T := targets_t)) in_metadata md_unrec) /\
  (keeps_extra root_unmarshal in_root rt_unrec /\ keeps_extra snapshot_unmarshal in_snapshot sn_unrec /\
   keeps_extra timestamp_unmarshal in_snapshot ts_unrec /\ keeps_extra targets_unmarshal in_targets tg_unrec) /\
  keeps_extra signature_unmarshal in_signature sig_unrec /\ keeps_extra key_unmarshal in_key k_unrec /\ keeps_extra keyval_unmarshal in_keyval kv_unrec /\
  keeps_extra role_unmarshal in_role r_unrec /\ keeps_extra metafile_unmarshal in_metafile mf_unrec /\ keeps_extra targetfile_unmarshal in_targetfile tf_unrec /\
  keeps_extra delegations_unmarshal in_delegations d_unrec /\ keeps_extra delegatedrole_unmarshal in_delegatedrole dr_unrec /\
  keeps_extra succinct_unmarshal in_succinct sr_unrec.
Proof.
  exact (conj (conj metadata_keeps (conj metadata_keeps (conj metadata_keeps metadata_keeps)))
        (conj (conj root_keeps (conj snapshot_keeps (conj timestamp_keeps targets_keeps)))
        (conj signature_keeps (conj key_keeps (conj keyval_keeps (conj role_keeps (conj metafile_keeps (conj targetfile_keeps
        (conj delegations_keeps (conj delegatedrole_keeps succinct_keeps)))))))))).
Qed.
Print Assumptions C15_read.
(** and writing it writes them all, once, and no others *)
Theorem C15_written :
  (writes_extra (metadata_marshal (T := root_t)) in_metadata md_unrec /\ writes_extra (metadata_marshal (T := snapshot_t)) in_metadata md_unrec /\
   writes_extra (metadata_marshal (T := timestamp_t)) in_metadata md_unrec /\ writes_extra (metadata_marshal (T := targets_t)) in_metadata md_unrec) /\
  (writes_extra root_marshal in_root rt_unrec /\ writes_extra snapshot_marshal in_snapshot sn_unrec /\
   writes_extra timestamp_marshal in_snapshot ts_unrec /\ writes_extra targets_marshal in_targets tg_unrec) /\
  writes_extra (fun x => Ok (signature_marshal x)) in_signature sig_unrec /\ writes_extra (fun x => Ok (key_marshal x)) in_key k_unrec /\
  writes_extra (fun x => Ok (keyval_marshal x)) in_keyval kv_unrec /\ writes_extra (fun x => Ok (role_marshal x)) in_role r_unrec /\
  writes_extra (fun x => Ok (metafile_marshal x)) in_metafile mf_unrec /\ writes_extra (fun x => Ok (targetfile_marshal x)) in_targetfile tf_unrec /\
  writes_extra delegations_marshal in_delegations d_unrec /\ writes_extra delegatedrole_marshal in_delegatedrole dr_unrec /\
  writes_extra (fun x => Ok (succinct_marshal x)) in_succinct sr_unrec.
Proof.
  exact (conj (conj metadata_writes (conj metadata_writes (conj metadata_writes metadata_writes)))
        (conj (conj root_writes (conj snapshot_writes (conj timestamp_writes targets_writes)))
        (conj signature_writes (conj key_writes (conj keyval_writes (conj role_writes (conj metafile_writes (conj targetfile_writes
        (conj delegations_writes (conj delegatedrole_writes succinct_writes)))))))))).
Qed.
Print Assumptions C15_written.
(** They are in the signed payload: its text contains the member, in canonical form *)
Definition payload_has (p k : string) (v : json) : Prop :=
  exists a c v', encode_canonical v = Ok v' /\ p = a +:+ cj_str k +:+ ":" +:+ v' +:+ c.
Theorem C15_payload :
  (forall (x : root_t) p k v, root_wf x -> signing_payload x = Ok p -> k ∉ in_root -> mget (rt_unrec x) k = Some v -> payload_has p k v) /\
  (forall (x : snapshot_t) p k v, snapshot_wf x -> signing_payload x = Ok p -> k ∉ in_snapshot -> mget (sn_unrec x) k = Some v -> payload_has p k v) /\
  (forall (x : timestamp_t) p k v, timestamp_wf x -> signing_payload x = Ok p -> k ∉ in_snapshot -> mget (ts_unrec x) k = Some v -> payload_has p k v) /\
  (forall (x : targets_t) p k v, targets_wf x -> signing_payload x = Ok p -> k ∉ in_targets -> mget (tg_unrec x) k = Some v -> payload_has p k v).
Proof.
  exact (conj (fun x p k v => payload_extra in_root rt_unrec x p k v is_root root_writes)
        (conj (fun x p k v => payload_extra in_snapshot sn_unrec x p k v is_snapshot snapshot_writes)
        (conj (fun x p k v => payload_extra in_snapshot ts_unrec x p k v is_timestamp timestamp_writes)
              (fun x p k v => payload_extra in_targets tg_unrec x p k v is_targets targets_writes)))).
Qed.
Print Assumptions C15_payload.
(** and documents that differ in such a member (here: at the top level of the signed part; C09 covers the others) have
    different payloads *)
Theorem C15_signed :
  (forall (x y : root_t) p k, root_wf x -> root_wf y -> signing_payload x = Ok p -> signing_payload y = Ok p -> mget (rt_unrec x) k = mget (rt_unrec y) k) /\
  (forall (x y : snapshot_t) p k, snapshot_wf x -> snapshot_wf y -> signing_payload x = Ok p -> signing_payload y = Ok p -> mget (sn_unrec x) k = mget (sn_unrec y) k) /\
  (forall (x y : timestamp_t) p k, timestamp_wf x -> timestamp_wf y -> signing_payload x = Ok p -> signing_payload y = Ok p -> mget (ts_unrec x) k = mget (ts_unrec y) k) /\
  (forall (x y : targets_t) p k, targets_wf x -> targets_wf y -> signing_payload x = Ok p -> signing_payload y = Ok p -> mget (tg_unrec x) k = mget (tg_unrec y) k).
Proof.
  split_and!; intros x y p k Hx Hy Px Py; apply kept_extra_mget.
  - exact (f_equal rt_unrec (root_payload_inj x y p Hx Hy Px Py)).
  - exact (f_equal sn_unrec (snapshot_payload_inj x y p Hx Hy Px Py)).
  - exact (f_equal ts_unrec (timestamp_payload_inj x y p Hx Hy Px Py)).
  - exact (f_equal tg_unrec (targets_payload_inj x y p Hx Hy Px Py)).
Qed.
Print Assumptions C15_signed.
(** Taken literally it fails: the integer 2^53 + 1 of an extra member is read as 2^53, and that is what is saved and
    checked against signatures *)
Theorem C15_value_refuted : exists (l : list (string * json)) x, role_unmarshal (JObj l) = Ok x /\ last_member l "x" (JNum "9007199254740993") /\
  mget (r_unrec x) "x" = Some (JNum "9007199254740992").
Proof.
  exists [("keyids", JArr []); ("threshold", JNum "1"); ("x", JNum "9007199254740993")].
  assert (last_member [("keyids", JArr []); ("threshold", JNum "1"); ("x", JNum "9007199254740993")] "x" (JNum "9007199254740993")) as HL.
  { exists [("keyids", JArr []); ("threshold", JNum "1")], []. split; [reflexivity|by apply Forall_nil_2]. }
  destruct (role_unmarshal _) as [x| |] eqn:E; [|exfalso..].
  - exists x. split; [reflexivity|]. split; [exact HL|].
    assert (match role_unmarshal (JObj [("keyids", JArr []); ("threshold", JNum "1"); ("x", JNum "9007199254740993")]) with Ok x => mget (r_unrec x) "x" | _ => None end
      = Some (JNum "9007199254740992")) as H by (vm_compute; reflexivity). by rewrite E in H.
  - assert (match role_unmarshal (JObj [("keyids", JArr []); ("threshold", JNum "1"); ("x", JNum "9007199254740993")]) with Err _ => true | _ => false end = false) as H by (vm_compute; reflexivity). by rewrite E in H.
  - assert (match role_unmarshal (JObj [("keyids", JArr []); ("threshold", JNum "1"); ("x", JNum "9007199254740993")]) with Panic => true | _ => false end = false) as H by (vm_compute; reflexivity). by rewrite E in H.
Qed.
Print Assumptions C15_value_refuted.
(** a target file with three extra members, one of them twice *)
Example C15_case :
  match targetfile_unmarshal (JObj [("u", JNull); ("length", JNum "5"); ("hashes", JObj []); ("y", JObj [("b", JNum "1.50"); ("a", JEsc "z")]); ("u", JNum "7")]) with
  | Ok x => mget (tf_unrec x) "u" = Some (JNum "7") /\ mget (tf_unrec x) "y" = Some (JObj [("a", JStr "z"); ("b", JNum "1.5")]) /\ mget (tf_unrec x) "length" = None /\
      targetfile_marshal x = JObj [("hashes", JObj []); ("length", JNum "5"); ("u", JNum "7"); ("y", JObj [("a", JStr "z"); ("b", JNum "1.5")])]
  | _ => False
  end.
Proof. vm_compute. auto. Qed.
Lemma rx_extra_wf : targets_wf (rx_signed (Some rx_roles) None (Some {["u" := JNum "12"]})).
Proof. apply rx_signed_wf; [by right|by left|]. unfold targets_names. extra. Qed.
Example C15_payload_case : exists p, signing_payload (rx_signed (Some rx_roles) None (Some {["u" := JNum "12"]})) = Ok p /\ payload_has p "u" (JNum "12").
Proof.
  destruct (signing_payload (rx_signed (Some rx_roles) None (Some {["u" := JNum "12"]}))) as [p| |] eqn:E; [|exfalso..].
  - exists p. split; [done|]. destruct C15_payload as (_ & _ & _ & H). refine (H _ p "u" (JNum "12") rx_extra_wf E _ _); [unfold in_targets; set_solver|]. cbn. by rewrite lookup_singleton.
  - assert (match signing_payload (rx_signed (Some rx_roles) None (Some {["u" := JNum "12"]})) with Ok _ => true | _ => false end = true) as H by (vm_compute; reflexivity). by rewrite E in H.
  - assert (match signing_payload (rx_signed (Some rx_roles) None (Some {["u" := JNum "12"]})) with Ok _ => true | _ => false end = true) as H by (vm_compute; reflexivity). by rewrite E in H.
Qed.
