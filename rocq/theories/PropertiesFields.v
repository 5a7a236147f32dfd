(** * Property C124: what the fields of a document are after reading it *)
From stdpp Require Import base gmap strings list.
From Coq Require Import ZArith Ascii String Lia.
From Verif Require Import GoBase GoStr Json GoTime Types Marshal Keys Metadata TrustedMetadata Fetcher Updater SpecSerial SpecSig SpecTrusted SpecFields FieldsProofs Toy Examples ExamplesUpdater PropertiesTrusted.
Open Scope Z_scope.

(** ** C124 *)
(** the two parts of a document *)
Theorem C124_document {T} {RT : RoleTy T} : reads_field (metadata_unmarshal (T := T)) "signed" md_signed signed_zero (is_read signed_unmarshal) /\
  reads_field (metadata_unmarshal (T := T)) "signatures" md_sigs None (is_list (is_read signature_unmarshal)).
Proof. exact metadata_reads. Qed.
Print Assumptions C124_document.
(** the signed parts of the four roles *)
Theorem C124_signed :
  (reads_field root_unmarshal "_type" rt_type "" is_text /\ reads_field root_unmarshal "spec_version" rt_spec "" is_text /\
   reads_field root_unmarshal "consistent_snapshot" rt_consistent false is_bool /\ reads_field root_unmarshal "version" rt_version 0 is_int /\
   reads_field root_unmarshal "expires" rt_expires year_one is_time /\
   reads_field root_unmarshal "keys" rt_keys None (is_map (fun _ => is_optional (is_read key_unmarshal))) /\
   reads_field root_unmarshal "roles" rt_roles None (is_map (fun _ => is_optional (is_read role_unmarshal)))) /\
  (reads_field snapshot_unmarshal "_type" sn_type "" is_text /\ reads_field snapshot_unmarshal "spec_version" sn_spec "" is_text /\
   reads_field snapshot_unmarshal "version" sn_version 0 is_int /\ reads_field snapshot_unmarshal "expires" sn_expires year_one is_time /\
   reads_field snapshot_unmarshal "meta" sn_meta None (is_map (fun _ => is_optional (is_read metafile_unmarshal)))) /\
  (reads_field timestamp_unmarshal "_type" ts_type "" is_text /\ reads_field timestamp_unmarshal "spec_version" ts_spec "" is_text /\
   reads_field timestamp_unmarshal "version" ts_version 0 is_int /\ reads_field timestamp_unmarshal "expires" ts_expires year_one is_time /\
   reads_field timestamp_unmarshal "meta" ts_meta None (is_map (fun _ => is_optional (is_read metafile_unmarshal)))) /\
  (reads_field targets_unmarshal "_type" tg_type "" is_text /\ reads_field targets_unmarshal "spec_version" tg_spec "" is_text /\
   reads_field targets_unmarshal "version" tg_version 0 is_int /\ reads_field targets_unmarshal "expires" tg_expires year_one is_time /\
   reads_field targets_unmarshal "delegations" tg_delegations None (is_optional (is_read delegations_unmarshal)) /\
   reads_field targets_unmarshal "targets" tg_targets None
     (is_map (fun k w y => exists a, targetfile_unmarshal w = Ok a /\ y = Some (mkTargetFile (tf_length a) (tf_hashes a) (tf_custom a) k (tf_unrec a))))).
Proof. exact (conj root_reads (conj snapshot_reads (conj timestamp_reads targets_reads))). Qed.
Print Assumptions C124_signed.
(** and everything inside them *)
Theorem C124_parts :
  (reads_field signature_unmarshal "keyid" sig_keyid "" is_text /\ reads_field signature_unmarshal "sig" sig_sig "" is_hex_text) /\
  (reads_field key_unmarshal "keytype" k_type "" is_text /\ reads_field key_unmarshal "scheme" k_scheme "" is_text /\
   reads_field key_unmarshal "keyval" k_val (mkKeyVal "" None) (is_read keyval_unmarshal)) /\
  reads_field keyval_unmarshal "public" kv_public "" is_text /\
  (reads_field role_unmarshal "keyids" r_keyids None (is_list is_text) /\ reads_field role_unmarshal "threshold" r_threshold 0 is_int) /\
  (reads_field metafile_unmarshal "length" mf_length 0 is_int /\ reads_field metafile_unmarshal "hashes" mf_hashes None (is_map (fun _ => is_hex_text)) /\
   reads_field metafile_unmarshal "version" mf_version 0 is_int) /\
  (reads_field targetfile_unmarshal "length" tf_length 0 is_int /\ reads_field targetfile_unmarshal "hashes" tf_hashes None (is_map (fun _ => is_hex_text)) /\
   reads_field targetfile_unmarshal "custom" tf_custom None (is_optional (fun v c => c = unesc v))) /\
  (reads_field delegatedrole_unmarshal "name" dr_name "" is_text /\ reads_field delegatedrole_unmarshal "keyids" dr_keyids None (is_list is_text) /\
   reads_field delegatedrole_unmarshal "threshold" dr_threshold 0 is_int /\ reads_field delegatedrole_unmarshal "terminating" dr_terminating false is_bool /\
   reads_field delegatedrole_unmarshal "paths" dr_paths None (is_list is_text) /\ reads_field delegatedrole_unmarshal "path_hash_prefixes" dr_hash_prefixes None (is_list is_text)) /\
  (reads_field succinct_unmarshal "keyids" sr_keyids None (is_list is_text) /\ reads_field succinct_unmarshal "threshold" sr_threshold 0 is_int /\
   reads_field succinct_unmarshal "bit_length" sr_bit_length 0 is_int /\ reads_field succinct_unmarshal "name_prefix" sr_name_prefix "" is_text) /\
  (reads_field delegations_unmarshal "keys" d_keys None (is_map (fun _ => is_optional (is_read key_unmarshal))) /\
   reads_field delegations_unmarshal "roles" d_roles None (is_list (is_read delegatedrole_unmarshal)) /\
   reads_field delegations_unmarshal "succinct_roles" d_succinct None (is_optional (is_read succinct_unmarshal))).
Proof.
  exact (conj signature_reads (conj key_reads (conj keyval_public (conj role_reads (conj metafile_reads (conj targetfile_reads (conj delegatedrole_reads (conj succinct_reads delegations_reads)))))))).
Qed.
Print Assumptions C124_parts.

(** ** Documents without an expiration time have expired *)
Definition lacks_expiry (data : string) : Prop :=
  exists l s, parse_json data = Some (JObj l) /\ only_member l "signed" (JObj s) /\ no_member s "expires".
Lemma lacking {T} {RT : RoleTy T} data (m : metadata T) now : reads_field (signed_unmarshal (T := T)) "expires" signed_expires year_one is_time ->
  from_bytes data = Ok m -> lacks_expiry data -> instant year_one < now -> expired_at m now.
Proof.
  intros Hr Hm (l & s & Hp & Hs & He) Hn. unfold from_bytes in Hm. rewrite Hp in Hm. unfold from_json in Hm. peel Hm. injection Hm as <-.
  unfold expired_at. erewrite signed_expires_reads; [exact Hn|exact Hr|eassumption|exact Hs|exact He].
Qed.
Theorem C124_expires data now : lacks_expiry data -> instant year_one < now ->
  (forall m : metadata root_t, from_bytes data = Ok m -> expired_at m now) /\ (forall m : metadata timestamp_t, from_bytes data = Ok m -> expired_at m now) /\
  (forall m : metadata snapshot_t, from_bytes data = Ok m -> expired_at m now) /\ (forall m : metadata targets_t, from_bytes data = Ok m -> expired_at m now).
Proof.
  intros Hl Hn. destruct C124_signed as ((_ & _ & _ & _ & Hr & _) & (_ & _ & _ & Hs & _) & (_ & _ & _ & Ht & _) & (_ & _ & _ & Hg & _)).
  split_and!; intros m Hm; (eapply lacking; [|exact Hm|exact Hl|exact Hn]); assumption.
Qed.
Print Assumptions C124_expires.

(** ** Missing versions and thresholds are accepted *)
(** the member [n] taken out of the object that the names [path] lead to *)
Fixpoint without (path : list string) (n : string) (j : json) : json :=
  match j with
  | JObj l => match path with
              | [] => JObj (List.filter (fun kv => negb (String.eqb kv.1 n)) l)
              | p :: path => JObj (List.map (fun kv => if String.eqb kv.1 p then (kv.1, without path n kv.2) else kv) l)
              end
  | _ => j
  end.
Definition text_without (path : list string) (n : string) (data : string) : string := match parse_json data with Some j => print_json (without path n j) | None => "" end.
(** the object that the names lead to, if each is the only member of its name *)
Fixpoint follow (path : list string) (j : json) : option json := match path, j with [], _ => Some j | p :: path, JObj l => match sole l p with Some v => follow path v | None => None end | _, _ => None end.
Definition lacks_in (path : list string) (n : string) (data : string) : bool :=
  match parse_json data with Some j => match follow path j with Some (JObj s) => lacks s n | _ => false end | None => false end.
Inductive leads_to : list string -> json -> json -> Prop :=
  | leads_here j : leads_to [] j j
  | leads_down p path l v j : only_member l p v -> leads_to path v j -> leads_to (p :: path) (JObj l) j.
Lemma follow_leads path : Forall (fun p => plain_field p = true) path -> forall j v, follow path j = Some v -> leads_to path j v.
Proof.
  induction 1 as [|p path Hp _ IH]; intros j v H; [injection H as <-; constructor|]. cbn in H. destruct j as [| | | | | |l]; try discriminate H. destruct (sole l p) as [w|] eqn:Hs; [|discriminate H].
  econstructor; [apply sole_ok; [exact Hp|exact Hs]|by apply IH].
Qed.
Lemma lacks_in_ok path n data : Forall (fun p => plain_field p = true) path -> plain_field n = true -> lacks_in path n data = true ->
  exists j s, parse_json data = Some j /\ leads_to path j (JObj s) /\ no_member s n.
Proof.
  intros Hp Hn H. unfold lacks_in in H. destruct (parse_json data) as [j|]; [|discriminate H]. destruct (follow path j) as [[| | | | | |s]|] eqn:Hf; try discriminate H.
  exists j, s. split; [done|]. split; [by apply follow_leads|by apply lacks_ok].
Qed.
Definition unversioned : string := text_without ["signed"] "version" (bytes_of (ex_timestamp_v 0)).
Theorem C124_version_refuted : exists (CR : Crypto) (t t' : trusted) (data : string) (ts : metadata timestamp_t) j s,
  reachable t /\ parse_json data = Some j /\ leads_to ["signed"] j (JObj s) /\ no_member s "version" /\ update_timestamp t data = (t', Ok ts).
Proof.
  exists toy_crypto. destruct (run_reachable (fun t => is_ok (snd (update_timestamp t unversioned)) = true) (bytes_of (ex_root 1)) ex_now []) as (t & Hr & H); [constructor|vm_compute; reflexivity|].
  destruct (lacks_in_ok ["signed"] "version" unversioned) as (j & s & Hj & Hs & Hv); [repeat constructor|reflexivity|vm_compute; reflexivity|].
  destruct (update_timestamp t unversioned) as [t' [ts|?|]] eqn:E; [|discriminate H..]. exists t, t', unversioned, ts, j, s. auto.
Qed.
Print Assumptions C124_version_refuted.
(** a root whose targets role has no threshold: any file is acceptable as targets metadata, without a signature *)
Definition lax_root_t : root_t :=
  mkRoot ROOT SPECIFICATION_VERSION true 1 t2030 ex_keys
    (Some (<[ROOT := ex_role [idA; idB] 2]> (<[TIMESTAMP := ex_role [idB] 1]> (<[SNAPSHOT := ex_role [idC] 1]> (<[TARGETS := ex_role [idA] 0]> ∅))))) None.
Definition lax_root : string := text_without ["signed"; "roles"; "targets"] "threshold" (bytes_of (sign_all [pkA; pkB] (unsigned lax_root_t))).
Theorem C124_threshold_refuted : exists (CR : Crypto) (root targets : string) (t : trusted) (tg : metadata targets_t) (now : Z) j s,
  parse_json root = Some j /\ leads_to ["signed"; "roles"; "targets"] j (JObj s) /\ no_member s "threshold" /\ tm_new root now = Ok t /\
  from_bytes targets = Ok tg /\ md_sigs tg = Some [] /\ verify_delegate (t_root t) TARGETS tg = Ok tt.
Proof.
  exists toy_crypto, lax_root, (bytes_of (unsigned (md_signed ex_targets))).
  destruct (lacks_in_ok ["signed"; "roles"; "targets"] "threshold" lax_root) as (j & s & Hj & Hs & Hv); [repeat constructor|reflexivity|vm_compute; reflexivity|].
  assert (match tm_new lax_root ex_now, from_bytes (T := targets_t) (bytes_of (unsigned (md_signed ex_targets))) with
          | Ok t, Ok tg => md_sigs tg = Some [] /\ verify_delegate (t_root t) TARGETS tg = Ok tt | _, _ => False end) as H by (vm_compute; auto).
  destruct (tm_new lax_root ex_now) as [t|?|] eqn:E1; [|destruct H..]. destruct (from_bytes _) as [tg|?|] eqn:E2; [|destruct H..]. destruct H as [H1 H2].
  exists t, tg, ex_now, j, s. auto 10.
Qed.
Print Assumptions C124_threshold_refuted.
(** In full: a client with such a root as its trusted root, and with nothing cached, refreshes and offers a target that is
    listed in targets metadata without any signature. *)
Definition lax_targets : string := bytes_of (unsigned (md_signed ex_targets)).
Definition lax_snapshot : string := bytes_of (sign_all [pkC] (unsigned (mkSnapshot SNAPSHOT SPECIFICATION_VERSION 7 t2030 (Some {["targets.json" := ex_meta 5 lax_targets]}) None))).
Definition lax_timestamp : string := bytes_of (sign_all [pkB] (unsigned (mkTimestamp TIMESTAMP SPECIFICATION_VERSION 9 t2030 (Some {["snapshot.json" := ex_meta 7 lax_snapshot]}) None))).
Definition lax_files : list (string * string) := [("https://r/timestamp.json", lax_timestamp); ("https://r/7.snapshot.json", lax_snapshot); ("https://r/5.targets.json", lax_targets)].
Definition offers_unsigned {CR : Crypto} (E : env) (c : config) (now : Z) (i : ios) (path : string) : bool :=
  match updater_new E c now i with
  | (i1, Ok t) => match refresh E c (mkWorld t i1) with
                  | (w1, Ok _) => match get_target_info E c path w1 with
                                  | (w2, Ok (Some _)) => match t_targets (w_trusted w2) !! "targets" with Some tg => match md_sigs tg with Some [] => true | _ => false end | None => false end && Nat.eqb (size (t_targets (w_trusted w2))) 1
                                  | _ => false
                                  end
                  | _ => false
                  end
  | _ => false
  end.
Lemma offers_ok {CR : Crypto} E c now i path : offers_unsigned E c now i path = true -> exists i1 t w1 w2 tf tg, updater_new E c now i = (i1, Ok t) /\ refresh E c (mkWorld t i1) = (w1, Ok tt) /\
  get_target_info E c path w1 = (w2, Ok (Some tf)) /\ t_targets (w_trusted w2) !! "targets" = Some tg /\ size (t_targets (w_trusted w2)) = 1%nat /\ md_sigs tg = Some [].
Proof.
  unfold offers_unsigned. destruct (updater_new E c now i) as [i1 [t| |]]; [|done..]. destruct (refresh E c (mkWorld t i1)) as [w1 [[]| |]] eqn:Hr; [|done..]. destruct (get_target_info E c path w1) as [w2 [[tf|]| |]] eqn:Hg; [|done..].
  destruct (t_targets (w_trusted w2) !! "targets") as [tg|] eqn:Ht; [|done]. destruct (md_sigs tg) as [[|]|] eqn:Hm; [|done..]. intros Hs. apply Nat.eqb_eq in Hs. by exists i1, t, w1, w2, tf, tg.
Qed.
Lemma lax_offers : offers_unsigned (ex_env lax_files) (ex_config_with lax_root false false) ex_now no_files "top" = true.
Proof. vm_compute. reflexivity. Qed.
Theorem C124_unsigned_refuted : exists (CR : Crypto) (E : env) (c : config) (now : Z) (i : ios) (path : string) j s,
  parse_json (c_trusted_root c) = Some j /\ leads_to ["signed"; "roles"; "targets"] j (JObj s) /\ no_member s "threshold" /\ io_disk i = ∅ /\
  exists i1 t w1 w2 tf tg, updater_new E c now i = (i1, Ok t) /\ refresh E c (mkWorld t i1) = (w1, Ok tt) /\
    get_target_info E c path w1 = (w2, Ok (Some tf)) /\ t_targets (w_trusted w2) !! "targets" = Some tg /\ size (t_targets (w_trusted w2)) = 1%nat /\ md_sigs tg = Some [].
Proof.
  destruct (lacks_in_ok ["signed"; "roles"; "targets"] "threshold" lax_root) as (j & s & Hj & Hs & Hv); [repeat constructor|reflexivity|vm_compute; reflexivity|].
  exists toy_crypto, (ex_env lax_files), (ex_config_with lax_root false false), ex_now, no_files, "top", j, s. split; [exact Hj|]. split; [exact Hs|]. split; [exact Hv|]. split; [reflexivity|]. exact (offers_ok _ _ _ _ _ lax_offers).
Qed.
Print Assumptions C124_unsigned_refuted.

(** Documents to read: the example timestamp has each of its members once, and is read with them; without its expiration
    time it is read, too, and has expired *)
Definition stale : string := text_without ["signed"] "expires" (bytes_of ex_timestamp).
Example C124_case :
  match parse_json (bytes_of ex_timestamp), from_bytes (T := timestamp_t) (bytes_of ex_timestamp) with
  | Some j, Ok m => (match follow ["signed"; "version"] j with Some (JNum v) => String.eqb v "9" | _ => false end) && (ts_version (md_signed m) =? 9) &&
      (match follow ["signed"; "expires"] j with Some (JStr v) => String.eqb v "2030-01-01T00:00:00Z" | _ => false end) && (instant (ts_expires (md_signed m)) =? instant t2030)
  | _, _ => false
  end = true /\
  is_ok (from_bytes (T := timestamp_t) stale) = true /\ lacks_expiry stale /\ instant year_one < ex_now /\
  (spells "Expires" "expires" /\ ~ spells "expired" "expires").
Proof.
  split; [vm_compute; reflexivity|]. split; [vm_compute; reflexivity|]. split.
  - destruct (lacks_in_ok ["signed"] "expires" stale) as (j & s & Hj & Hs & Hv); [repeat constructor|reflexivity|vm_compute; reflexivity|].
    inversion Hs as [|p path l v j' Ho Hl]; subst. inversion Hl; subst. exists l, s. auto.
  - split; [vm_compute; reflexivity|]. split; [apply fold_spells; [reflexivity|vm_compute; reflexivity]|]. intros H. apply spells_fold in H; [|reflexivity]. vm_compute in H. discriminate H.
Qed.
