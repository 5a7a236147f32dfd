(** * Properties C11-C14, C18: loading documents *)
From stdpp Require Import base gmap strings list.
From Coq Require Import ZArith Ascii String.
From Verif Require Import GoBase GoStr Json GoTime Types Marshal Keys Metadata SpecSig SpecSerial SigProofs JsonProofs SerialProofs Toy Examples.
Open Scope Z_scope.

Definition q : string := String """"%char "".
(** a document given by its signed member and its signatures *)
Definition doc (signed sigs : json) : string := print_json (JObj [("signed", signed); ("signatures", sigs)]).
Definition ok_b {A} (o : outcome A) : bool := match o with Ok _ => true | _ => false end.
Definition panic_b {A} (o : outcome A) : bool := match o with Panic => true | _ => false end.
Lemma panic_b_true {A} (o : outcome A) : panic_b o = true -> o = Panic. Proof. by destruct o. Qed.
Lemma ok_b_true {A} (o : outcome A) : ok_b o = true -> exists a, o = Ok a. Proof. destruct o; eauto; done. Qed.
Definition ts_doc (extra : list (string * json)) (sigs : list json) : string :=
  doc (JObj ([("_type", JStr "timestamp"); ("version", JNum "1"); ("spec_version", JStr "1.0.31"); ("expires", JStr "2030-01-01T00:00:00Z"); ("meta", JObj [])] ++ extra)) (JArr sigs).
Definition sig_json (id : string) : json := JObj [("keyid", JStr id); ("sig", JStr "00")].

(** ** C11 *)
Theorem C11_accepted_has_type {T} {RT : RoleTy T} (data : string) (m : metadata T) :
  from_bytes data = Ok m -> exists j, parse_json data = Some j /\ doc_type j role_name.
Proof. intros (j & ? & _ & ? & _)%from_bytes_ok. by exists j. Qed.
Print Assumptions C11_accepted_has_type.
Theorem C11_other_type_rejected {T} {RT : RoleTy T} (data : string) j s :
  parse_json data = Some j -> numbers_ok j -> doc_type j s -> s <> role_name -> exists msg, from_bytes (T := T) data = Err (ErrValue msg).
Proof. exact (from_bytes_wrong_type data j s). Qed.
Print Assumptions C11_other_type_rejected.
(** with a number that no float holds the document is rejected as well, whatever its type *)
Theorem C11_other_type_never_accepted {T} {RT : RoleTy T} (data : string) j s (m : metadata T) :
  parse_json data = Some j -> doc_type j s -> s <> role_name -> from_bytes data <> Ok m.
Proof. exact (from_bytes_never data j s m). Qed.
Print Assumptions C11_other_type_never_accepted.
Example C11_nonvacuous : ok_b (from_bytes (T := timestamp_t) (ts_doc [] [])) = true /\
  (exists j, parse_json (ts_doc [] []) = Some j /\ numbers_ok j /\ doc_type j "timestamp" /\ "timestamp" <> role_name (T := root_t)).
Proof.
  split; [vm_compute; done|]. eexists. split; [vm_compute; done|]. split; [vm_compute; split_and!; try done; by intros ?|]. split; [|done].
  eexists _, _, _. split; [done|]. split; [apply mem_map_some; vm_compute; reflexivity|]. split; [apply mem_map_some; vm_compute; reflexivity|done].
Qed.

(** ** C12: what FromBytes reports.  Refuted: member names are matched in any letter case, the check is exact *)
Theorem C12_loaded_type_refuted : exists (data : string) (m : metadata targets_t), from_bytes data = Ok m /\ signed_type (md_signed m) = "snapshot".
Proof.
  set (data := doc (JObj [("_type", JStr "targets"); ("_TYPE", JStr "snapshot")]) (JArr [])).
  destruct (from_bytes (T := targets_t) data) as [m| |] eqn:E.
  - exists data, m. split; [done|]. assert (match from_bytes (T := targets_t) data with Ok m => String.eqb (tg_type (md_signed m)) "snapshot" | _ => false end = true) as H by (vm_compute; done).
    rewrite E in H. by apply String.eqb_eq in H.
  - exfalso. assert (ok_b (from_bytes (T := targets_t) data) = true) as H by (vm_compute; done). by rewrite E in H.
  - exfalso. assert (ok_b (from_bytes (T := targets_t) data) = true) as H by (vm_compute; done). by rewrite E in H.
Qed.
Print Assumptions C12_loaded_type_refuted.
(** It holds for documents that do not also use another spelling of "signed" or "_type" *)
Theorem C12_loaded_type {T} {RT : RoleTy T} {TF : TypeField T} (data : string) (m : metadata T) l l' :
  from_bytes data = Ok m -> parse_json data = Some (JObj l) -> no_lookalike "signed" l -> last_member l "signed" (JObj l') -> no_lookalike "_type" l' ->
  signed_type (md_signed m) = role_name.
Proof. exact (loaded_type data m l l'). Qed.
Print Assumptions C12_loaded_type.
(** the class is inhabited by all four types *)
Theorem C12_loaded_type_all (data : string) l l' :
  parse_json data = Some (JObj l) -> no_lookalike "signed" l -> last_member l "signed" (JObj l') -> no_lookalike "_type" l' ->
  (forall m, from_bytes data = Ok m -> rt_type (md_signed m) = "root") /\ (forall m, from_bytes data = Ok m -> ts_type (md_signed m) = "timestamp") /\
  (forall m, from_bytes data = Ok m -> sn_type (md_signed m) = "snapshot") /\ (forall m, from_bytes data = Ok m -> tg_type (md_signed m) = "targets").
Proof. intros Hp H1 H2 H3. split_and!; intros m Hm; exact (loaded_type data m l l' Hm Hp H1 H2 H3). Qed.
Print Assumptions C12_loaded_type_all.
Definition no_lookalike_b (name : string) (l : list (string * json)) : bool := forallb (fun kv => String.eqb kv.1 name || negb (String.eqb (fold_key kv.1) (fold_key name))) l.
Lemma no_lookalike_b_spec name l : no_lookalike_b name l = true -> no_lookalike name l.
Proof.
  unfold no_lookalike_b. intros H k v Hin [Hne Hf]. rewrite forallb_forall in H. specialize (H (k, v)). rewrite <- elem_of_list_In in H. specialize (H Hin). cbn in H.
  destruct (String.eqb_spec k name); [done|]. destruct (String.eqb_spec (fold_key k) (fold_key name)); done.
Qed.
Example C12_nonvacuous : ok_b (from_bytes (T := timestamp_t) (ts_doc [("x", JNull)] [sig_json "a"])) = true /\
  exists l l', parse_json (ts_doc [("x", JNull)] [sig_json "a"]) = Some (JObj l) /\ no_lookalike "signed" l /\ last_member l "signed" (JObj l') /\ no_lookalike "_type" l'.
Proof.
  split; [vm_compute; done|]. eexists _, _. split; [vm_compute; done|]. split; [by apply no_lookalike_b_spec|]. split; [|].
  - apply mem_map_some. vm_compute. reflexivity.
  - by apply no_lookalike_b_spec.
Qed.

(** ** C13 *)
Theorem C13_unique_signatures {T} {RT : RoleTy T} (data : string) (m : metadata T) : from_bytes data = Ok m -> unique_key_ids m.
Proof. by intros (j & _ & _ & _ & _ & ?)%from_bytes_ok. Qed.
Print Assumptions C13_unique_signatures.
Theorem C13_duplicates_rejected {T} {RT : RoleTy T} (data : string) j (m : metadata T) :
  parse_json data = Some j -> numbers_ok j -> doc_type j role_name -> metadata_unmarshal j = Ok m -> ~ unique_key_ids m -> exists msg, from_bytes (T := T) data = Err (ErrValue msg).
Proof. exact (from_bytes_duplicate data j m). Qed.
Print Assumptions C13_duplicates_rejected.
(** exactly these documents are accepted *)
Theorem C13_accepts_exactly {T} {RT : RoleTy T} (data : string) (m : metadata T) :
  from_bytes data = Ok m <-> exists j, parse_json data = Some j /\ numbers_ok j /\ doc_type j role_name /\ metadata_unmarshal j = Ok m /\ unique_key_ids m.
Proof. exact (from_bytes_ok data m). Qed.
Print Assumptions C13_accepts_exactly.
Example C13_nonvacuous : ok_b (from_bytes (T := timestamp_t) (ts_doc [] [sig_json "a"; sig_json "b"])) = true /\
  (exists msg, from_bytes (T := timestamp_t) (ts_doc [] [sig_json "a"; sig_json "b"; sig_json "a"]) = Err (ErrValue msg)).
Proof. split; [vm_compute; done|]. eexists. vm_compute. done. Qed.
Example C13_nonvacuous_duplicate : exists j m, parse_json (ts_doc [] [sig_json "a"; sig_json "a"]) = Some j /\ metadata_unmarshal (T := timestamp_t) j = Ok m /\ ~ unique_key_ids m.
Proof.
  eexists _, _. split; [vm_compute; done|]. split; [vm_compute; done|]. unfold unique_key_ids. cbn. intros (Hx & _)%NoDup_cons. apply Hx. left.
Qed.

(** ** C14.  Refuted: an object without a signed object, or a signed object without a string _type, makes checkType panic *)
Theorem C14_no_panic_refuted : from_bytes (T := root_t) "{}" = Panic /\ from_bytes (T := root_t) "null" = Panic /\
  from_bytes (T := snapshot_t) (doc (JStr "x") JNull) = Panic /\ from_bytes (T := timestamp_t) (doc (JObj [("_type", JNum "1")]) JNull) = Panic.
Proof. split_and!; apply panic_b_true; vm_compute; done. Qed.
Print Assumptions C14_no_panic_refuted.
(** and so does a null target *)
Theorem C14_null_target_refuted : from_bytes (T := targets_t) (doc (JObj [("_type", JStr "targets"); ("targets", JObj [("x", JNull)])]) JNull) = Panic.
Proof. apply panic_b_true. vm_compute. done. Qed.
Print Assumptions C14_null_target_refuted.
(** exactly when: root, snapshot and timestamp *)
Theorem C14_panics_exactly {T} {RT : RoleTy T} {NP : LoadNoPanic T} (data : string) : from_bytes (T := T) data = Panic <->
  exists j, parse_json data = Some j /\ numbers_ok j /\ (j = JNull \/ exists l, j = JObj l) /\ forall s, ~ doc_type j s.
Proof. exact (from_bytes_panic data). Qed.
Print Assumptions C14_panics_exactly.
Theorem C14_panics_exactly_all (data : string) (P := exists j, parse_json data = Some j /\ numbers_ok j /\ (j = JNull \/ exists l, j = JObj l) /\ forall s, ~ doc_type j s) :
  (from_bytes (T := root_t) data = Panic <-> P) /\ (from_bytes (T := snapshot_t) data = Panic <-> P) /\ (from_bytes (T := timestamp_t) data = Panic <-> P).
Proof. split_and!; exact (from_bytes_panic data). Qed.
Print Assumptions C14_panics_exactly_all.
(** targets: no panic on any document with a string _type and without null targets *)
Theorem C14_targets_no_panic (data : string) j s : parse_json data = Some j -> doc_type j s -> ~ null_target j -> from_bytes (T := targets_t) data <> Panic.
Proof. exact (from_bytes_targets_np data j s). Qed.
Print Assumptions C14_targets_no_panic.
Theorem C14_targets_untyped (data : string) j : parse_json data = Some j -> numbers_ok j -> j = JNull \/ (exists l, j = JObj l) -> (forall s, ~ doc_type j s) -> from_bytes (T := targets_t) data = Panic.
Proof. exact (from_bytes_untyped_panic data j). Qed.
Print Assumptions C14_targets_untyped.
(** bytes that are not JSON are an error for every type *)
Theorem C14_not_json {T} {RT : RoleTy T} (data : string) : parse_json data = None -> exists e, from_bytes (T := T) data = Err e.
Proof. intros H. unfold from_bytes. rewrite H. by eexists. Qed.
Print Assumptions C14_not_json.
Definition null_free (l : list (string * json)) : bool := forallb (fun kv => match kv.2 with JNull => false | _ => true end) l.
Example C14_nonvacuous : exists data j, parse_json data = Some j /\ doc_type j "targets" /\ ~ null_target j /\ ok_b (from_bytes (T := targets_t) data) = true.
Proof.
  exists (doc (JObj [("_type", JStr "targets"); ("targets", JObj [("x", JObj [("length", JNum "3")])]); ("x", JNull)]) JNull).
  eexists. split; [vm_compute; done|]. split; [|split; [|vm_compute; done]].
  - eexists _, _, _. split; [done|]. split; [apply mem_map_some; vm_compute; reflexivity|]. split; [apply mem_map_some; vm_compute; reflexivity|done].
  - intros (l & k & s & ks & ts & n & [= <-] & Hs & Hk & Hts & Hks & Hn). apply elem_of_cons in Hs as [[= -> ->]|Hs].
    + repeat (apply elem_of_cons in Hts as [Hts|Hts]; [try done; injection Hts as -> ->|]); [|by apply elem_of_nil in Hts].
      apply elem_of_cons in Hn as [?|Hn]; [done|by apply elem_of_nil in Hn].
    + apply elem_of_cons in Hs as [?|Hs]; [done|by apply elem_of_nil in Hs].
Qed.

(** ** C18 *)
Theorem C18_cannot_write (m : metadata targets_t) : both_restrictions (md_signed m) -> exists e, to_bytes m = Err e.
Proof. exact (both_to_bytes m). Qed.
Print Assumptions C18_cannot_write.
Theorem C18_cannot_sign {CR : Crypto} (s : signer) (m : metadata targets_t) : both_restrictions (md_signed m) -> exists e, sign s m = (m, Err e).
Proof. exact (both_sign s m). Qed.
Print Assumptions C18_cannot_sign.
(** never verified, by a delegator of any kind *)
Theorem C18_never_verified {CR : Crypto} {T} {D : Delegator T} (m : metadata T) name (dm : metadata targets_t) : both_restrictions (md_signed dm) -> verify_delegate m name dm <> Ok tt.
Proof. exact (both_verify_delegate m name dm). Qed.
Print Assumptions C18_never_verified.
(** and an error, unless the delegator maps the role or a key ID to null (a panic: C07) *)
Theorem C18_verify_error {CR : Crypto} (m : metadata root_t) name keys ids thr (dm : metadata targets_t) : both_restrictions (md_signed dm) ->
  root_delegates (md_signed m) name keys ids thr -> (forall id, id ∈ ids -> mget keys id <> Some None) -> exists e, verify_delegate m name dm = Err e.
Proof. exact (both_verify_root m name keys ids thr dm). Qed.
Print Assumptions C18_verify_error.
Theorem C18_verify_error_targets {CR : Crypto} (m : metadata targets_t) name keys ids thr (dm : metadata targets_t) : both_restrictions (md_signed dm) ->
  targets_delegates (md_signed m) name keys ids thr -> ids <> [] -> (forall id, id ∈ ids -> mget keys id <> Some None) -> exists e, verify_delegate m name dm = Err e.
Proof. exact (both_verify_targets m name keys ids thr dm). Qed.
Print Assumptions C18_verify_error_targets.
(** an empty list counts as present: a role with only one of the two is written *)
Definition c18_role (p h : goslice string) : delegatedrole := mkDelegatedRole "d" (Some ["k1"]) 1 false h p None.
Definition c18_targets (r : delegatedrole) : targets_t := mkTargets "targets" "1.0.31" 1 t2030 (Some ∅) (Some (mkDelegations (Some ∅) (Some [c18_role None (Some ["00"]); r]) None None)) None.
Example C18_nonvacuous : both_restrictions (c18_targets (c18_role (Some []) (Some []))) /\
  ok_b (to_bytes (mkMetadata (c18_targets (c18_role (Some ["a"]) None)) None None)) = true.
Proof.
  split; [|vm_compute; done]. eexists _, _, (c18_role (Some []) (Some [])), _, _. split; [done|]. split; [done|]. split; [right; left|]. done.
Qed.
