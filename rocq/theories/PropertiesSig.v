(** * Properties C01-C08: signatures and delegation *)
From stdpp Require Import base gmap strings list.
From Coq Require Import ZArith String.
From Verif Require Import GoBase GoStr Json GoTime Types Marshal Keys Metadata TrustedMetadata SpecSig SigProofs Toy Examples.
Open Scope Z_scope.

(** stating a fact about two documents loaded from bytes *)
Lemma loaded2 {CR : Crypto} {S T} `{RoleTy S} `{RoleTy T} (P : metadata S -> metadata T -> Prop) b1 b2 :
  match from_bytes b1, from_bytes b2 with Ok m, Ok dm => P m dm | _, _ => False end ->
  exists m dm, from_bytes b1 = Ok m /\ from_bytes b2 = Ok dm /\ P m dm.
Proof. destruct (from_bytes b1), (from_bytes b2); try done. eauto. Qed.
Definition pk_of {CR : Crypto} (keys : gomap (option key)) (id : string) : outcome pubkey :=
  match mget keys id with Some (Some k) => to_public_key k | _ => Panic end.
Lemma pk_of_resolves {CR : Crypto} keys id pk : resolves keys id pk -> pk_of keys id = Ok pk.
Proof. intros (m & k & -> & Hk & Hp). unfold pk_of, mget. by rewrite Hk. Qed.
Definition is_Some_b {A} (x : option A) : bool := match x with Some _ => true | None => false end.

(** what a successful verification means for the keys, key IDs and threshold of the role *)
Lemma root_accepts {CR : Crypto} {D} {RD : RoleTy D} (x : metadata root_t) name keys ids thr (dm : metadata D) :
  root_delegates (md_signed x) name keys ids thr -> verify_delegate x name dm = Ok tt -> accepts keys ids thr (default [] (md_sigs dm)) (signing_payload (md_signed dm)).
Proof. intros Hd (k & i & t & Hd' & Ha)%verify_delegate_root_ok. by destruct (root_delegates_fun _ _ _ _ _ _ _ _ Hd Hd') as (<- & <- & <-). Qed.
Lemma targets_accepts {CR : Crypto} {D} {RD : RoleTy D} (x : metadata targets_t) name keys ids thr (dm : metadata D) :
  targets_delegates (md_signed x) name keys ids thr -> verify_delegate x name dm = Ok tt -> accepts keys ids thr (default [] (md_sigs dm)) (signing_payload (md_signed dm)).
Proof. intros Hd (k & i & t & Hd' & Ha)%verify_delegate_targets_ok. by destruct (targets_delegates_fun _ _ _ _ _ _ _ _ Hd Hd') as (<- & <- & <-). Qed.

(** ** C01 *)
Theorem C01_verify_delegate_root {CR : Crypto} {D} {RD : RoleTy D} (m : metadata root_t) (name : string) (dm : metadata D) :
  verify_delegate m name dm = Ok tt <->
  exists keys ids thr, root_delegates (md_signed m) name keys ids thr /\
    accepts keys ids thr (default [] (md_sigs dm)) (signing_payload (md_signed dm)).
Proof. exact (verify_delegate_root_ok m name dm). Qed.
Print Assumptions C01_verify_delegate_root.
Theorem C01_verify_delegate_targets {CR : Crypto} {D} {RD : RoleTy D} (m : metadata targets_t) (name : string) (dm : metadata D) :
  verify_delegate m name dm = Ok tt <->
  exists keys ids thr, targets_delegates (md_signed m) name keys ids thr /\
    accepts keys ids thr (default [] (md_sigs dm)) (signing_payload (md_signed dm)).
Proof. exact (verify_delegate_targets_ok m name dm). Qed.
Print Assumptions C01_verify_delegate_targets.
(** snapshot and timestamp metadata delegate nothing *)
Theorem C01_no_other_delegators {CR : Crypto} {D} {RD : RoleTy D} (sn : metadata snapshot_t) (ts : metadata timestamp_t) (name : string) (dm : metadata D) :
  (exists msg, verify_delegate sn name dm = Err (ErrType msg)) /\ (exists msg, verify_delegate ts name dm = Err (ErrType msg)).
Proof. exact (conj (ex_intro _ _ eq_refl) (ex_intro _ _ eq_refl)). Qed.
Print Assumptions C01_no_other_delegators.
(** too few signatures are reported as unsigned metadata *)
Theorem C01_threshold_not_met {CR : Crypto} {D} {RD : RoleTy D} keys ids thr (dm : metadata D) p :
  ids <> [] -> (forall id, id ∈ ids -> exists pk, resolves keys id pk /\ proper_pk pk) ->
  signing_payload (md_signed dm) = Ok p -> ~ threshold_signed keys ids thr (default [] (md_sigs dm)) p ->
  exists msg, verify_delegation (mkDelegation keys ids thr) dm = Err (ErrUnsignedMetadata msg).
Proof. exact (threshold_not_met keys ids thr dm p). Qed.
Print Assumptions C01_threshold_not_met.
Example C01_case :
  verify_delegate (ex_root 1) ROOT (ex_root 2) = Ok tt /\ verify_delegate ex_targets "d1" ex_d1 = Ok tt /\
  is_ok (verify_delegate (ex_root 1) ROOT (sign_all [pkA] (unsigned (ex_root_t 2)))) = false.
Proof. vm_compute. auto. Qed.

(** ** C02 *)
Theorem C02_ids_as_a_set_root {CR : Crypto} {D} {RD : RoleTy D} (x x' : metadata root_t) name keys ids ids' thr (dm : metadata D) :
  root_delegates (md_signed x) name keys ids thr -> root_delegates (md_signed x') name keys ids' thr ->
  (forall id, id ∈ ids <-> id ∈ ids') ->
  verify_delegate x name dm = Ok tt <-> verify_delegate x' name dm = Ok tt.
Proof. exact (same_ids_same_success x x' name keys ids ids' thr dm). Qed.
Print Assumptions C02_ids_as_a_set_root.
Theorem C02_ids_as_a_set_targets {CR : Crypto} {D} {RD : RoleTy D} (x x' : metadata targets_t) name keys ids ids' thr (dm : metadata D) :
  targets_delegates (md_signed x) name keys ids thr -> targets_delegates (md_signed x') name keys ids' thr ->
  (forall id, id ∈ ids <-> id ∈ ids') ->
  verify_delegate x name dm = Ok tt <-> verify_delegate x' name dm = Ok tt.
Proof. exact (same_ids_same_success_targets x x' name keys ids ids' thr dm). Qed.
Print Assumptions C02_ids_as_a_set_targets.
(** the threshold is bounded by the number of different listed key IDs for which there is a signature *)
Theorem C02_count_root {CR : Crypto} {D} {RD : RoleTy D} (x : metadata root_t) name keys ids thr (dm : metadata D) :
  root_delegates (md_signed x) name keys ids thr -> (forall pk p, raw_verify pk p "" = false) -> verify_delegate x name dm = Ok tt ->
  thr <= Z.of_nat (size ((list_to_set ids ∩ list_to_set (map sig_keyid (default [] (md_sigs dm)))) : gset string)).
Proof. exact (fun Hd H Hv => accepts_count keys ids thr _ _ H (root_accepts x name keys ids thr dm Hd Hv)). Qed.
Print Assumptions C02_count_root.
Theorem C02_count_targets {CR : Crypto} {D} {RD : RoleTy D} (x : metadata targets_t) name keys ids thr (dm : metadata D) :
  targets_delegates (md_signed x) name keys ids thr -> (forall pk p, raw_verify pk p "" = false) -> verify_delegate x name dm = Ok tt ->
  thr <= Z.of_nat (size ((list_to_set ids ∩ list_to_set (map sig_keyid (default [] (md_sigs dm)))) : gset string)).
Proof. exact (fun Hd H Hv => accepts_count keys ids thr _ _ H (targets_accepts x name keys ids thr dm Hd Hv)). Qed.
Print Assumptions C02_count_targets.
(** listing A twice with threshold 2: one signature by A, or two under A's key ID, do not suffice *)
Definition c02_root : metadata root_t :=
  unsigned (mkRoot ROOT "1.0" true 1 t2030 ex_keys (Some {[TARGETS := ex_role [idA; idA; idB] 2]}) None).
Example C02_case :
  is_ok (verify_delegate c02_root TARGETS (sign_all [pkA; pkA] ex_d1)) = true (* A and B *) /\
  is_ok (verify_delegate c02_root TARGETS (sign_all [pkA; pkA; pkA] (unsigned (md_signed ex_d1)))) = false.
Proof. vm_compute. auto. Qed.

(** ** C03 *)
Theorem C03_other_signatures_irrelevant_root {CR : Crypto} {D} {RD : RoleTy D} (x : metadata root_t) name keys ids thr (dm dm' : metadata D) :
  root_delegates (md_signed x) name keys ids thr ->
  md_signed dm = md_signed dm' ->
  (forall id, id ∈ ids -> filter (fun s => sig_keyid s = id) (default [] (md_sigs dm)) = filter (fun s => sig_keyid s = id) (default [] (md_sigs dm'))) ->
  verify_delegate x name dm = verify_delegate x name dm'.
Proof.
  intros Hd Hs Hf. unfold verify_delegate.
  unfold delegation_of, root_delegator.
  rewrite (proj2 (root_delegation_spec (md_signed x) name (mkDelegation keys ids thr)) Hd). cbn [obind].
  apply verify_delegation_ext; [exact Hs|]. intros id Hid. rewrite last_sig_filter.
  rewrite (last_sig_filter (slist (md_sigs dm'))). f_equal. exact (Hf id Hid).
Qed.
Print Assumptions C03_other_signatures_irrelevant_root.
Theorem C03_other_signatures_irrelevant_targets {CR : Crypto} {D} {RD : RoleTy D} (x : metadata targets_t) name keys ids thr (dm dm' : metadata D) :
  targets_delegates (md_signed x) name keys ids thr -> ids <> [] ->
  md_signed dm = md_signed dm' ->
  (forall id, id ∈ ids -> filter (fun s => sig_keyid s = id) (default [] (md_sigs dm)) = filter (fun s => sig_keyid s = id) (default [] (md_sigs dm'))) ->
  verify_delegate x name dm = verify_delegate x name dm'.
Proof.
  intros Hd Hne Hs Hf. unfold verify_delegate.
  destruct (proj2 (targets_delegation_spec (md_signed x) name (mkDelegation keys ids thr)) (conj Hd Hne)) as [E _].
  unfold delegation_of, targets_delegator. rewrite E. cbn [obind].
  apply verify_delegation_ext; [exact Hs|]. intros id Hid. rewrite last_sig_filter.
  rewrite (last_sig_filter (slist (md_sigs dm'))). f_equal. exact (Hf id Hid).
Qed.
Print Assumptions C03_other_signatures_irrelevant_targets.
Example C03_case : verify_delegate (ex_root 1) TARGETS ex_targets = verify_delegate (ex_root 1) TARGETS (sign_all [pkC; pkB] ex_targets)
  /\ is_ok (verify_delegate (ex_root 1) TARGETS ex_targets) = true.
Proof. vm_compute. auto. Qed.

(** ** C04: refuted as stated (a threshold of 0 is accepted from the document); true for thresholds from 1 *)
Definition c04_root : metadata root_t :=
  unsigned (mkRoot ROOT "1.0" true 1 t2030 ex_keys (Some {[TARGETS := ex_role [idA] 0]}) None).
Theorem C04_refuted : exists (CR : Crypto) (root_bytes targets_bytes : string) (m : metadata root_t) (dm : metadata targets_t),
  from_bytes root_bytes = Ok m /\ from_bytes targets_bytes = Ok dm /\
  verify_delegate m TARGETS dm = Ok tt /\ md_sigs dm = Some [].
Proof.
  exists toy_crypto, (bytes_of c04_root), (bytes_of (unsigned (md_signed ex_targets))).
  apply (loaded2 (fun m dm => verify_delegate m TARGETS dm = Ok tt /\ md_sigs dm = Some [])). vm_compute. auto.
Qed.
Print Assumptions C04_refuted.
Theorem C04_positive_root {CR : Crypto} {D} {RD : RoleTy D} (x : metadata root_t) name keys ids thr (dm : metadata D) :
  root_delegates (md_signed x) name keys ids thr -> 1 <= thr -> verify_delegate x name dm = Ok tt ->
  exists id p, id ∈ ids /\ signing_payload (md_signed dm) = Ok p /\ signed_by keys (default [] (md_sigs dm)) p id.
Proof. exact (fun Hd H Hv => accepts_one keys ids thr _ _ H (root_accepts x name keys ids thr dm Hd Hv)). Qed.
Print Assumptions C04_positive_root.
Theorem C04_positive_targets {CR : Crypto} {D} {RD : RoleTy D} (x : metadata targets_t) name keys ids thr (dm : metadata D) :
  targets_delegates (md_signed x) name keys ids thr -> 1 <= thr -> verify_delegate x name dm = Ok tt ->
  exists id p, id ∈ ids /\ signing_payload (md_signed dm) = Ok p /\ signed_by keys (default [] (md_sigs dm)) p id.
Proof. exact (fun Hd H Hv => accepts_one keys ids thr _ _ H (targets_accepts x name keys ids thr dm Hd Hv)). Qed.
Print Assumptions C04_positive_targets.
Example C04_case : verify_delegate (ex_root 1) ROOT (ex_root 2) = Ok tt /\ verify_delegate ex_targets "d1" ex_d1 = Ok tt /\
  match root_delegation (ex_root_t 1) ROOT, targets_delegation (md_signed ex_targets) "d1" with Ok a, Ok b => (dg_threshold a, dg_threshold b) | _, _ => (0, 0) end = (2, 1) /\
  is_ok (verify_delegate ex_targets "d1" (unsigned (md_signed ex_d1))) = false.
Proof. vm_compute. auto. Qed.

(** ** C05: refuted (one key listed under two IDs); true when different listed IDs are different keys *)
Definition c05_root : metadata root_t :=
  unsigned (mkRoot ROOT "1.0" true 1 t2030 (Some (<["k1" := Some (toy_key pkA)]> (<["k2" := Some (toy_key pkA)]> ∅)))
    (Some {[TARGETS := ex_role ["k1"; "k2"] 2]}) None).
Definition c05_targets : metadata targets_t :=
  let sg := match signing_payload (md_signed ex_targets) with Ok p => toy_sig pkA p | _ => "" end in
  mkMetadata (md_signed ex_targets) (Some [mkSignature "k1" sg None; mkSignature "k2" sg None]) None.
Theorem C05_refuted : exists (CR : Crypto) (root_bytes targets_bytes : string) (m : metadata root_t) (dm : metadata targets_t) keys ids (pk : pubkey),
  from_bytes root_bytes = Ok m /\ from_bytes targets_bytes = Ok dm /\
  root_delegates (md_signed m) TARGETS keys ids 2 /\ verify_delegate m TARGETS dm = Ok tt /\
  forall id pk', id ∈ ids -> resolves keys id pk' -> pk' = pk.
Proof.
  exists toy_crypto, (bytes_of c05_root), (bytes_of c05_targets).
  destruct (loaded2 (CR := toy_crypto) (fun (m : metadata root_t) (dm : metadata targets_t) =>
      verify_delegate m TARGETS dm = Ok tt /\
      match root_delegation (md_signed m) TARGETS with Ok dg => dg_keyids dg = ["k1"; "k2"] /\ dg_threshold dg = 2 | _ => False end /\
      pk_of (rt_keys (md_signed m)) "k1" = Ok pkA /\ pk_of (rt_keys (md_signed m)) "k2" = Ok pkA)
      (bytes_of c05_root) (bytes_of c05_targets)) as (m & dm & H1 & H2 & H3 & H4 & H5 & H6); [vm_compute; auto|].
  exists m, dm, (rt_keys (md_signed m)), ["k1"; "k2"], pkA.
  split; [exact H1|]. split; [exact H2|]. split; [|split; [exact H3|]].
  - destruct (root_delegation (md_signed m) TARGETS) as [dg| |] eqn:E; [|destruct H4..]. destruct H4 as [Ei Et].
    apply root_delegation_spec in E. destruct E as (r & ro & Ea & Eb & Ec & Ed & Ee). exists r, ro.
    split; [exact Ea|]. split; [exact Eb|]. split; [reflexivity|].
    exact (conj (eq_trans (eq_sym Ei) Ed) (eq_trans (eq_sym Et) Ee)).
  - intros id pk' Hid Hr%pk_of_resolves. clear H1 H2 H3 H4. apply elem_of_cons in Hid as [->|[->|[]%elem_of_nil]%elem_of_cons]; congruence.
Qed.
Print Assumptions C05_refuted.
Theorem C05_distinct_keys_root {CR : Crypto} {D} {RD : RoleTy D} (x : metadata root_t) name keys ids thr (dm : metadata D) :
  root_delegates (md_signed x) name keys ids thr -> (forall i j pk, i ∈ ids -> j ∈ ids -> resolves keys i pk -> resolves keys j pk -> i = j) -> verify_delegate x name dm = Ok tt ->
  exists p (pks : list pubkey), signing_payload (md_signed dm) = Ok p /\ NoDup pks /\ thr <= Z.of_nat (List.length pks) /\
    forall pk, pk ∈ pks -> exists id sig, id ∈ ids /\ resolves keys id pk /\ last_signature (default [] (md_sigs dm)) id sig /\ raw_verify pk p sig = true.
Proof. exact (fun Hd H Hv => accepts_distinct keys ids thr _ _ H (root_accepts x name keys ids thr dm Hd Hv)). Qed.
Print Assumptions C05_distinct_keys_root.
Theorem C05_distinct_keys_targets {CR : Crypto} {D} {RD : RoleTy D} (x : metadata targets_t) name keys ids thr (dm : metadata D) :
  targets_delegates (md_signed x) name keys ids thr -> (forall i j pk, i ∈ ids -> j ∈ ids -> resolves keys i pk -> resolves keys j pk -> i = j) -> verify_delegate x name dm = Ok tt ->
  exists p (pks : list pubkey), signing_payload (md_signed dm) = Ok p /\ NoDup pks /\ thr <= Z.of_nat (List.length pks) /\
    forall pk, pk ∈ pks -> exists id sig, id ∈ ids /\ resolves keys id pk /\ last_signature (default [] (md_sigs dm)) id sig /\ raw_verify pk p sig = true.
Proof. exact (fun Hd H Hv => accepts_distinct keys ids thr _ _ H (targets_accepts x name keys ids thr dm Hd Hv)). Qed.
Print Assumptions C05_distinct_keys_targets.
Lemma two_ids {CR : Crypto} keys a b pa pb : pk_of keys a = Ok pa -> pk_of keys b = Ok pb -> pa <> pb ->
  forall i j pk, i ∈ [a; b] -> j ∈ [a; b] -> resolves keys i pk -> resolves keys j pk -> i = j.
Proof.
  intros Ha Hb Hne i j pk Hi Hj Hri%pk_of_resolves Hrj%pk_of_resolves. apply elem_of_cons in Hi as [->|[->|[]%elem_of_nil]%elem_of_cons]; apply elem_of_cons in Hj as [->|[->|[]%elem_of_nil]%elem_of_cons]; congruence.
Qed.
Example C05_case : verify_delegate (ex_root 1) ROOT (ex_root 2) = Ok tt /\
  match root_delegation (ex_root_t 1) ROOT with Ok dg => dg_keyids dg = [idA; idB] | _ => False end /\
  forall i j pk, i ∈ [idA; idB] -> j ∈ [idA; idB] -> resolves ex_keys i pk -> resolves ex_keys j pk -> i = j.
Proof.
  split; [vm_compute; reflexivity|]. split; [vm_compute; reflexivity|]. apply (two_ids ex_keys idA idB pkA pkB); [vm_compute; reflexivity|vm_compute; reflexivity|]. intros H. apply (f_equal (fun pk => match pk with PkEd25519 r => r | _ => "" end)) in H. vm_compute in H. discriminate H.
Qed.

(** ** C06: refuted (any role name passes for succinct roles); standard delegations only cover listed names *)
Definition c06_targets : metadata targets_t :=
  unsigned (mkTargets TARGETS "1.0" 1 t2030 (Some ∅)
    (Some (mkDelegations ex_keys None (Some (mkSuccinctRoles (Some [idB]) 1 4 "bin" None)) None)) None).
Theorem C06_refuted : exists (CR : Crypto) (b1 b2 : string) (m dm : metadata targets_t) (s : succinctroles) (name : string),
  from_bytes b1 = Ok m /\ from_bytes b2 = Ok dm /\
  (exists d, tg_delegations (md_signed m) = Some d /\ d_succinct d = Some s) /\
  ~ name ∈ get_roles s /\ verify_delegate m name dm = Ok tt.
Proof.
  exists toy_crypto, (bytes_of c06_targets), (bytes_of ex_d1).
  destruct (loaded2 (CR := toy_crypto) (fun (m dm : metadata targets_t) =>
      verify_delegate m "no-bin-at-all" dm = Ok tt /\
      bool_decide ("no-bin-at-all" ∈ default [] (d ← tg_delegations (md_signed m); s ← d_succinct d; Some (get_roles s))) = false /\
      is_Some_b (d ← tg_delegations (md_signed m); d_succinct d) = true)
      (bytes_of c06_targets) (bytes_of ex_d1)) as (m & dm & H1 & H2 & H3 & H4 & H5); [vm_compute; auto|].
  destruct (tg_delegations (md_signed m)) as [d|] eqn:Hd; [|discriminate H5]. cbn in H4, H5.
  destruct (d_succinct d) as [s|] eqn:Hs; [|discriminate H5]. cbn in H4. apply bool_decide_eq_false in H4.
  exists m, dm, s, "no-bin-at-all". split; [exact H1|]. split; [exact H2|]. split; [exists d; auto|]. split; [exact H4|exact H3].
Qed.
Print Assumptions C06_refuted.
Theorem C06_standard_delegations {CR : Crypto} {D} {RD : RoleTy D} (m : metadata targets_t) (d : delegations) l name (dm : metadata D) :
  tg_delegations (md_signed m) = Some d -> d_roles d = Some l ->
  verify_delegate m name dm = Ok tt -> exists r, r ∈ l /\ dr_name r = name.
Proof.
  intros Hd Hl (keys & ids & thr & (d' & Hd' & _ & Hc) & _)%verify_delegate_targets_ok.
  destruct Hc as [(l1 & r & l2 & Hr & _ & Hn & _)|(s & Hr & _)].
  - exists r. split; [|exact Hn]. assert (l = l1 ++ r :: l2) as -> by congruence. set_solver.
  - congruence.
Qed.
Print Assumptions C06_standard_delegations.

(** ** C07: refuted (a null key, or an ed25519 key of wrong length, panics); exactly these cases panic *)
Definition c07_root : metadata root_t :=
  unsigned (mkRoot ROOT "1.0" true 1 t2030 (Some {["k" := None]}) (Some {[TARGETS := ex_role ["k"] 1]}) None).
Definition c07_root_short : metadata root_t :=
  unsigned (mkRoot ROOT "1.0" true 1 t2030 (Some {["k" := Some (mkKey "ed25519" "ed25519" (mkKeyVal "ab" None) "" None)]})
    (Some {[TARGETS := ex_role ["k"] 1]}) None).
Theorem C07_refuted : exists (CR : Crypto) (b1 b1' b2 : string) (m m' : metadata root_t) (dm : metadata targets_t),
  from_bytes b1 = Ok m /\ from_bytes b1' = Ok m' /\ from_bytes b2 = Ok dm /\
  verify_delegate m TARGETS dm = Panic /\ verify_delegate m' TARGETS dm = Panic.
Proof.
  exists toy_crypto, (bytes_of c07_root), (bytes_of c07_root_short), (bytes_of ex_targets).
  destruct (loaded2 (CR := toy_crypto) (fun (m : metadata root_t) (dm : metadata targets_t) => verify_delegate m TARGETS dm = Panic)
      (bytes_of c07_root) (bytes_of ex_targets)) as (m & dm & H1 & H2 & H3); [vm_compute; auto|].
  destruct (loaded2 (CR := toy_crypto) (fun (m : metadata root_t) (dm : metadata targets_t) => verify_delegate m TARGETS dm = Panic)
      (bytes_of c07_root_short) (bytes_of ex_targets)) as (m' & dm' & H1' & H2' & H3'); [vm_compute; auto|].
  assert (Ok dm = Ok dm') as [= <-] by exact (eq_trans (eq_sym H2) H2').
  exists m, m', dm. split; [exact H1|]. split; [exact H1'|]. split; [exact H2|]. split; [exact H3|exact H3'].
Qed.
Print Assumptions C07_refuted.
Theorem C07_no_panic_root {CR : Crypto} {D} {RD : RoleTy D} {NP : NoPanic D} (m : metadata root_t) name (dm : metadata D) :
  mget (rt_roles (md_signed m)) name <> Some None ->
  (forall id, mget (rt_keys (md_signed m)) id <> Some None) ->
  (forall id pk, resolves (rt_keys (md_signed m)) id pk -> proper_pk pk) ->
  verify_delegate m name dm <> Panic.
Proof.
  intros Hr Hk Hp. unfold verify_delegate. apply obind_no_panic.
  - unfold delegation_of, root_delegator, root_delegation. destruct (mget (rt_roles (md_signed m)) name) as [[r|]|]; done.
  - intros dg Hdg. apply root_delegation_spec in Hdg as (roles & r & _ & _ & Heq & _).
    apply verify_delegation_no_panic; rewrite ?Heq; [apply signing_payload_no_panic|auto|intros; by eapply Hp].
Qed.
Print Assumptions C07_no_panic_root.
Theorem C07_no_panic_targets {CR : Crypto} {D} {RD : RoleTy D} {NP : NoPanic D} (m : metadata targets_t) name (dm : metadata D) :
  (forall d id, tg_delegations (md_signed m) = Some d -> mget (d_keys d) id <> Some None) ->
  (forall d id pk, tg_delegations (md_signed m) = Some d -> resolves (d_keys d) id pk -> proper_pk pk) ->
  verify_delegate m name dm <> Panic.
Proof.
  intros Hk Hp. unfold verify_delegate, delegation_of, targets_delegator, targets_delegation.
  destruct (tg_delegations (md_signed m)) as [d|]; [|done].
  assert (forall ids thr, verify_delegation (mkDelegation (d_keys d) ids thr) dm <> Panic) as Hv.
  { intros ids thr. apply verify_delegation_no_panic; cbn; [apply signing_payload_no_panic|auto|intros; by eapply Hp]. }
  destruct (d_roles d) as [l|]; [destruct (find_role l name)|destruct (d_succinct d)]; cbn; try done; apply Hv.
Qed.
Print Assumptions C07_no_panic_targets.
(** exact description of the panicking calls for one list of key IDs *)
Theorem C07_panic_iff {CR : Crypto} {D} {RD : RoleTy D} {NP : NoPanic D} keys ids (dm : metadata D) :
  verify_loop keys dm ids ∅ = Panic <->
  exists l1 id l2, ids = l1 ++ id :: l2 /\
    (forall i, i ∈ l1 -> exists pk, resolves keys i pk /\ proper_pk pk) /\
    (l1 <> [] -> exists p, signing_payload (md_signed dm) = Ok p) /\
    (mget keys id = Some None \/
     exists raw p, resolves keys id (PkEd25519 raw) /\ String.length raw <> 32%nat /\ signing_payload (md_signed dm) = Ok p).
Proof. exact (verify_loop_panic keys dm ids ∅ (signing_payload_no_panic _)). Qed.
Print Assumptions C07_panic_iff.
Example C07_case : verify_delegate (ex_root 1) ROOT (ex_root 1) <> Panic.
Proof. vm_compute. discriminate. Qed.

(** ** C08 *)
Theorem C08_signed_then_verified {CR : Crypto} {D} {RD : RoleTy D} (m : metadata root_t) name keys ids thr
    (signers : list signer) (dm : metadata D) (payload : string) (good : list string) :
  root_delegates (md_signed m) name keys ids thr -> ids <> [] ->
  (forall id, id ∈ ids -> exists pk, resolves keys id pk /\ proper_pk pk) ->
  signing_payload (md_signed dm) = Ok payload ->
  NoDup good -> thr <= Z.of_nat (List.length good) ->
  (forall id, id ∈ good -> id ∈ ids /\ exists s, s ∈ signers /\ signer_keyid s id) ->
  (forall s id pk, s ∈ signers -> id ∈ good -> signer_keyid s id -> resolves keys id pk -> working_signer s pk) ->
  verify_delegate m name (sign_by signers dm) = Ok tt.
Proof.
  intros Hd Hne Hres Hp Hnd Hlen Hg Hw. apply verify_delegate_root_ok. exists keys, ids, thr. split; [exact Hd|].
  exact (sign_verify keys ids thr signers dm payload good Hp Hne Hres Hnd Hlen Hg Hw).
Qed.
Print Assumptions C08_signed_then_verified.
Theorem C08_signed_then_verified_targets {CR : Crypto} {D} {RD : RoleTy D} (m : metadata targets_t) name keys ids thr
    (signers : list signer) (dm : metadata D) (payload : string) (good : list string) :
  targets_delegates (md_signed m) name keys ids thr -> ids <> [] ->
  (forall id, id ∈ ids -> exists pk, resolves keys id pk /\ proper_pk pk) ->
  signing_payload (md_signed dm) = Ok payload ->
  NoDup good -> thr <= Z.of_nat (List.length good) ->
  (forall id, id ∈ good -> id ∈ ids /\ exists s, s ∈ signers /\ signer_keyid s id) ->
  (forall s id pk, s ∈ signers -> id ∈ good -> signer_keyid s id -> resolves keys id pk -> working_signer s pk) ->
  verify_delegate m name (sign_by signers dm) = Ok tt.
Proof.
  intros Hd Hne Hres Hp Hnd Hlen Hg Hw. apply verify_delegate_targets_ok. exists keys, ids, thr. split; [exact Hd|].
  exact (sign_verify keys ids thr signers dm payload good Hp Hne Hres Hnd Hlen Hg Hw).
Qed.
Print Assumptions C08_signed_then_verified_targets.
(** the toy signers work, and the example root verifies in any signing order *)
Example C08_case :
  working_signer (toy_signer pkA) pkA /\ signer_keyid (toy_signer pkA) idA /\
  is_ok (verify_delegate (ex_root 1) ROOT (sign_by (map toy_signer [pkC; pkB; pkA]) (unsigned (ex_root_t 1)))) = true.
Proof.
  split.
  { split; [reflexivity|]. intros msg. eexists. split; [reflexivity|]. apply String.eqb_refl. }
  split; [|vm_compute; reflexivity]. exists pkA, (toy_key pkA). vm_compute. auto.
Qed.
