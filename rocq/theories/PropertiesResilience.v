(** * Property C95: attackers who hold too few keys cannot make the client trust what no owner signed *)
From stdpp Require Import base gmap strings list.
From Coq Require Import ZArith Lia String.
From Verif Require Import GoBase GoStr Json GoTime Types Marshal Keys Metadata TrustedMetadata Fetcher Updater SpecSig SpecBasic SpecTrusted SpecUpdater SpecResilience
  SigProofs TrustedProofs UpdaterProofs ApiProofs ClaimProofs FedProofs ResilienceProofs Toy Examples ExamplesUpdater ExamplesShown.
Open Scope Z_scope.

(** ** One verification *)
Theorem C95_verify_root {CR : Crypto} stolen made {D} `{RoleTy D} (r : metadata root_t) name (m : metadata D) :
  verify_delegate r name m = Ok tt -> unforged stolen made m -> root_safe stolen r name -> root_vouches stolen made r name m.
Proof. intros Hv. apply root_honest. by apply root_signs_ok. Qed.
Print Assumptions C95_verify_root.
Theorem C95_verify_targets {CR : Crypto} stolen made {D} `{RoleTy D} (d : metadata targets_t) name (m : metadata D) :
  verify_delegate d name m = Ok tt -> unforged stolen made m -> targets_safe stolen d name -> targets_vouches stolen made d name m.
Proof. intros Hv. apply targets_honest. by apply targets_signs_ok. Qed.
Print Assumptions C95_verify_targets.
(** refuted when stolen keys are counted rather than key IDs: a single stolen key meets a threshold of 2 *)
Definition c95_root : metadata root_t :=
  unsigned (mkRoot ROOT "1.0" true 1 t2030 (Some (<["k1" := Some (toy_key pkA)]> (<["k2" := Some (toy_key pkA)]> ∅)))
    (Some {[TARGETS := ex_role ["k1"; "k2"] 2]}) None).
Definition c95_targets : metadata targets_t :=
  let sg := match signing_payload (md_signed ex_targets) with Ok p => toy_sig pkA p | _ => "" end in
  mkMetadata (md_signed ex_targets) (Some [mkSignature "k1" sg None; mkSignature "k2" sg None]) None.
Theorem C95_keys_refuted : exists (CR : Crypto) (stolen : pubkey -> bool) (made : pubkey -> string -> Prop) (r : metadata root_t) (m : metadata targets_t),
  verify_delegate r "targets" m = Ok tt /\ unforged stolen made m /\
  (exists keys ids, root_delegates (md_signed r) "targets" keys ids 2) /\ (forall pk pk', stolen pk = true -> stolen pk' = true -> pk = pk') /\
  ~ root_vouches stolen made r "targets" m.
Proof.
  exists toy_crypto, (fun pk => bool_decide (pk = pkA)), (fun _ _ => True), c95_root, c95_targets.
  split; [vm_compute; reflexivity|]. split; [intros pk p sig _ _ _; by right|]. split; [|split].
  - exists (rt_keys (md_signed c95_root)), ["k1"; "k2"], {[TARGETS := ex_role ["k1"; "k2"] 2]}, (mkRole (Some ["k1"; "k2"]) 2 None).
    split; [reflexivity|]. split; [vm_compute; reflexivity|]. repeat split; reflexivity.
  - intros pk pk' H1%bool_decide_eq_true H2%bool_decide_eq_true. congruence.
  - intros (keys & ids & thr & (roles & ro & Hr & Hl & -> & -> & ->) & id & pk & p & Hid & Hres & Hst & _).
    assert (roles = {[TARGETS := ex_role ["k1"; "k2"] 2]}) as -> by (injection Hr; intros; congruence). clear Hr.
    assert (ro = mkRole (Some ["k1"; "k2"]) 2 None) as -> by (vm_compute in Hl; congruence). clear Hl. cbn in Hid.
    assert (match mget (rt_keys (md_signed c95_root)) "k1", mget (rt_keys (md_signed c95_root)) "k2" with
            | Some (Some k1), Some (Some k2) => to_public_key k1 = Ok pkA /\ to_public_key k2 = Ok pkA | _, _ => False end) as Hk by (vm_compute; auto).
    destruct Hres as (m & k & Hm & Hk' & Hp). change (rt_keys (md_signed c95_root)) with (Some m) in Hk || rewrite Hm in Hk. unfold mget in Hk.
    assert (to_public_key k = Ok pkA) as Hp'.
    { apply elem_of_cons in Hid as [->|[->|[]%elem_of_nil]%elem_of_cons]; rewrite Hk' in Hk; repeat case_match; simplify_eq; tauto. }
    rewrite Hp in Hp'. injection Hp' as ->. by rewrite bool_decide_eq_true_2 in Hst.
Qed.
Print Assumptions C95_keys_refuted.

(** ** A session of the client: whatever the server sends, what the client holds for an intact role, reached over intact
    roles, was signed by an honest owner of one of the keys listed for it *)
Theorem C95_session {CR : Crypto} stolen made (intact shown : string -> Prop) E c now w r0 :
  genuine stolen made shown -> intact "root" -> careful_roots stolen made shown intact -> careful_targets stolen made shown intact ->
  from_bytes (c_trusted_root c) = Ok r0 -> (forall name, intact name -> root_safe stolen r0 name) ->
  shown_session shown E c now w ->
  (t_root (w_trusted w) = r0 \/ approved stolen made (t_root (w_trusted w))) /\
  (forall ts, t_timestamp (w_trusted w) = Some ts -> intact "timestamp" -> root_vouches stolen made (t_root (w_trusted w)) "timestamp" ts) /\
  (forall sn, t_snapshot (w_trusted w) = Some sn -> intact "snapshot" -> root_vouches stolen made (t_root (w_trusted w)) "snapshot" sn) /\
  (forall m, t_targets (w_trusted w) !! "targets" = Some m -> intact "targets" -> root_vouches stolen made (t_root (w_trusted w)) "targets" m) /\
  (forall name m, t_targets (w_trusted w) !! name = Some m -> exists l, trail (w_trusted w) name l /\ (Forall intact l -> vouched_trail stolen made (w_trusted w) name l)).
Proof. intros H1 H2 H3 H4 H5 H6 H7. exact (session_resilient stolen made intact shown H1 H2 H3 H4 E c now w r0 H7 H5 H6). Qed.
Print Assumptions C95_session.
(** what GetTargetInfo answers is in metadata reached like that *)
Theorem C95_target {CR : Crypto} stolen made (intact shown : string -> Prop) E c now w w' r0 path o :
  genuine stolen made shown -> intact "root" -> careful_roots stolen made shown intact -> careful_targets stolen made shown intact ->
  from_bytes (c_trusted_root c) = Ok r0 -> (forall name, intact name -> root_safe stolen r0 name) ->
  shown_session shown E c now w -> (forall data, received (io_trace (w_io w')) data -> shown data) -> get_target_info E c path w = (w', Ok o) ->
  exists tf name m l, o = Some tf /\ t_targets (w_trusted w') !! name = Some m /\ entry m path (Some tf) /\ trail (w_trusted w') name l /\
    (Forall intact l -> vouched_trail stolen made (w_trusted w') name l /\ approved stolen made m).
Proof.
  intros H1 H2 H3 H4 H5 H6 H7 H8 Hg. destruct (shown_calls shown E c now w H7) as [Hs _].
  destruct (info_authorised E c now w w' path o Hs Hg) as (tf & name & m & -> & _ & _ & Hm & He).
  assert (shown_session shown E c now w') as H7'. { apply (shown_api shown E c now w (GetTargetInfo path) w' (Ok tt)); [done| |done]. unfold call_api. by rewrite Hg. }
  destruct (session_resilient stolen made intact shown H1 H2 H3 H4 E c now w' r0 H7' H5 H6) as (_ & _ & _ & _ & H). destruct (H name m Hm) as (l & Hl & Hv).
  exists tf, name, m, l. split; [done|]. split; [done|]. split; [done|]. split; [done|]. intros Hi. split; [by apply Hv|]. eapply vtrail_loaded; [by apply Hv|done].
Qed.
Print Assumptions C95_target.

(** ** A concrete case: key B is stolen (it signs timestamp and d1, and is one of the two root keys), and the server sends a
    timestamp made with it *)
Definition c95_payload : string := match signing_payload (md_signed (ex_timestamp_v 10)) with Ok p => p | _ => "" end.
Definition c95_stolen (pk : pubkey) : bool := bool_decide (pk = pkB) || String.eqb (toy_sig pk c95_payload) (toy_sig pkB c95_payload).
Definition payload_of {T} `{RoleTy T} (m : metadata T) : string := match signing_payload (md_signed m) with Ok p => p | _ => "" end.
Definition c95_honest : list string := [payload_of (ex_root 1); payload_of (ex_root 2); payload_of ex_snapshot; payload_of ex_targets; payload_of ex_d1].
Definition c95_made (pk : pubkey) (p : string) : Prop := p ∈ c95_honest.
Definition c95_files : list (string * string) :=
  [("https://r/2.root.json", bytes_of (ex_root 2)); ("https://r/timestamp.json", bytes_of (ex_timestamp_v 10)); ("https://r/7.snapshot.json", bytes_of ex_snapshot);
   ("https://r/5.targets.json", bytes_of ex_targets); ("https://r/3.d1.json", bytes_of ex_d1)].
Definition c95_shown (data : string) : Prop := data ∈ map snd c95_files.
Definition c95_weak : list string := ["timestamp"; "d1"].
Definition unforged_b {T} `{RoleTy T} (m : metadata T) : bool :=
  match signing_payload (md_signed m) with
  | Ok p => bool_decide (p ∈ c95_honest) || (String.eqb p c95_payload && forallb (fun s => String.eqb (sig_sig s) (toy_sig pkB c95_payload)) (default [] (md_sigs m)))
  | _ => true end.
Lemma unforged_sound {T} `{RoleTy T} (m : metadata T) : unforged_b m = true -> unforged c95_stolen c95_made m.
Proof.
  unfold unforged_b, unforged. intros H1 pk p sig Hp Hs Hv. rewrite Hp in H1. apply orb_prop in H1 as [H1|H1]; [right; by apply bool_decide_eq_true in H1|].
  apply andb_prop in H1 as [He H1]. apply String.eqb_eq in He as ->. left. unfold c95_stolen. apply orb_true_intro. right. cbn [raw_verify toy_crypto] in Hv. apply String.eqb_eq in Hv as ->.
  destruct Hs as [Hs|(s & Hin & Hs)].
  - exfalso. assert (String.length (toy_sig pk c95_payload) = 32%nat) as Hl by apply toy_hash_length. rewrite Hs in Hl. discriminate.
  - rewrite forallb_forall in H1. rewrite <-Hs. apply H1. by apply elem_of_list_In.
Qed.
Example C95_case :
  genuine c95_stolen c95_made c95_shown /\ careful_roots c95_stolen c95_made c95_shown (fun n => n ∉ c95_weak) /\ careful_targets c95_stolen c95_made c95_shown (fun n => n ∉ c95_weak) /\
  (exists r0, from_bytes (c_trusted_root ex_config) = Ok r0 /\ forall name, name ∉ c95_weak -> root_safe c95_stolen r0 name) /\
  (exists w, shown_session c95_shown (ex_env_turned c95_files) ex_config ex_now w /\ loaded_roles (w_trusted w) = (2, Some 10, Some 7, [("d1", 3); ("targets", 5)])) /\
  c95_stolen pkA = false /\ c95_stolen pkB = true /\ c95_stolen pkC = false.
Proof.
  split; [|split; [|split; [|split; [|split]]]].
  - split; [|split; [|split]]; intros data m Hd Hm; apply unforged_sound.
    all: refine (shown_check (map snd c95_files) unforged_b _ data m Hd Hm); vm_compute; reflexivity.
  - intros data r Hd Hr _. apply root_safe_sound. refine (shown_check (map snd c95_files) (root_safe_b c95_stolen c95_weak) _ data r Hd Hr). vm_compute. reflexivity.
  - intros data r Hd Hr _. apply targets_safe_sound. refine (shown_check (map snd c95_files) (targets_safe_b c95_stolen c95_weak) _ data r Hd Hr). vm_compute. reflexivity.
  - destruct (from_bytes (c_trusted_root ex_config)) as [r0| |] eqn:Hr.
    + exists r0. split; [reflexivity|]. apply root_safe_sound. refine (shown_check [c_trusted_root ex_config] (root_safe_b c95_stolen c95_weak) _ _ r0 (elem_of_list_here _ _) Hr). vm_compute. reflexivity.
    + exfalso. assert (match from_bytes (T := root_t) (c_trusted_root ex_config) with Ok _ => true | _ => false end = true) as H by (vm_compute; reflexivity). rewrite Hr in H. discriminate.
    + exfalso. assert (match from_bytes (T := root_t) (c_trusted_root ex_config) with Ok _ => true | _ => false end = true) as H by (vm_compute; reflexivity). rewrite Hr in H. discriminate.
  - apply (shown_case (map snd c95_files) (ex_env_turned c95_files) ex_config no_files (GetTargetInfo "a/x") (fun w => loaded_roles (w_trusted w) = (2, Some 10, Some 7, [("d1", 3); ("targets", 5)]))).
    vm_compute. split; reflexivity.
  - vm_compute. auto.
Qed.
