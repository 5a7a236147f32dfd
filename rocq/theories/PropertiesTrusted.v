(** * Properties C38-C50 (and the second half of C12): the trusted metadata set *)
From stdpp Require Import base gmap strings list.
From Coq Require Import ZArith String.
From Verif Require Import GoBase GoStr Json GoTime Types Marshal Keys Metadata TrustedMetadata SpecSig SpecBasic SpecTrusted SigProofs BasicProofs TrustedProofs Toy Examples.
Open Scope Z_scope.

(** running a list of calls from a fresh trusted set, for the concrete cases *)
Definition run {CR : Crypto} (t : trusted) (cs : list call) : trusted := fold_left (fun t c => fst (perform t c)) cs t.
Lemma run_calls {CR : Crypto} cs : forall t t', calls t t' -> Forall proper_call cs -> calls t (run t' cs).
Proof. induction cs as [|c cs IH]; intros t t' Hc Hp; [exact Hc|]. inversion Hp; subst. apply IH; [by constructor|done]. Qed.
Lemma run_reachable {CR : Crypto} (P : trusted -> Prop) data now cs : Forall proper_call cs ->
  match tm_new data now with Ok t0 => P (run t0 cs) | _ => False end -> exists t, reachable t /\ P t.
Proof.
  intros Hp H. destruct (tm_new data now) as [t0| |] eqn:E; [|destruct H..]. exists (run t0 cs). split; [|exact H].
  exists data, now, t0. split; [exact E|]. apply run_calls; [constructor|exact Hp].
Qed.
(** the trusted set after loading the example repository *)
Definition is_Some_b {A} (x : option A) : bool := match x with Some _ => true | None => false end.
Definition same_order (l : list (string * option metafile)) := l.
Lemma same_order_proper l : same_order l ≡ₚ l. Proof. reflexivity. Qed.
Definition ex_calls : list call :=
  [UpdateRoot (bytes_of (ex_root 2)); UpdateTimestamp (bytes_of ex_timestamp); UpdateSnapshot same_order (bytes_of ex_snapshot) false;
   UpdateDelegated (bytes_of ex_targets) "targets" "root"; UpdateDelegated (bytes_of ex_d1) "d1" "targets"].
Lemma ex_calls_proper : Forall proper_call ex_calls.
Proof. repeat constructor; exact same_order_proper. Qed.
(** names of the loaded targets roles and the versions of the top-level roles *)
Definition loaded (t : trusted) : Z * option Z * option Z * list (string * Z) :=
  (rt_version (md_signed (t_root t)), (fun x => ts_version (md_signed x)) <$> t_timestamp t, (fun x => sn_version (md_signed x)) <$> t_snapshot t,
   (fun p => (p.1, tg_version (md_signed p.2))) <$> map_to_list (t_targets t)).

(** ** C12, second part: whatever was fed, every held object has the type of its role *)
Theorem C12_held_types {CR : Crypto} t : reachable t ->
  rt_type (md_signed (t_root t)) = "root" /\
  (forall ts, t_timestamp t = Some ts -> ts_type (md_signed ts) = "timestamp") /\
  (forall sn, t_snapshot t = Some sn -> sn_type (md_signed sn) = "snapshot") /\
  (forall name m, t_targets t !! name = Some m -> tg_type (md_signed m) = "targets").
Proof. exact (types_inv t). Qed.
Print Assumptions C12_held_types.
Example C12_held_case : exists t, reachable t /\ loaded t = (2, Some 9, Some 7, [("d1", 3); ("targets", 5)]).
Proof. apply (run_reachable (fun t => loaded t = _) (bytes_of (ex_root 1)) ex_now ex_calls ex_calls_proper). vm_compute. reflexivity. Qed.

(** ** C38 *)
Theorem C38_root_chain {CR : Crypto} data now t0 t : tm_new data now = Ok t0 -> calls t0 t -> exists n, root_chain n (t_root t0) (t_root t).
Proof. exact (fun Hn Hc => root_chain_calls t0 t Hc (new_range data now t0 Hn)). Qed.
Print Assumptions C38_root_chain.
(** every link of the chain adds one to the version, as long as the largest 64-bit number is not exceeded *)
Theorem C38_chain_versions {CR : Crypto} data now t0 t : tm_new data now = Ok t0 -> calls t0 t -> exists n, root_chain n (t_root t0) (t_root t) /\
  (rt_version (md_signed (t_root t0)) + Z.of_nat n < 2 ^ 63 -> rt_version (md_signed (t_root t)) = rt_version (md_signed (t_root t0)) + Z.of_nat n).
Proof. intros Hn Hc. destruct (root_chain_calls t0 t Hc (new_range data now t0 Hn)) as [n H]. exists n. split; [exact H|]. exact (root_chain_version n _ _ H). Qed.
Print Assumptions C38_chain_versions.
(** refuted for the largest version number: the successor accepted is the smallest one *)
Theorem C38_overflow_refuted : exists (CR : Crypto) data now data' t0 t r, tm_new data now = Ok t0 /\ update_root t0 data' = (t, Ok r) /\
  rt_version (md_signed (t_root t0)) = 2 ^ 63 - 1 /\ rt_version (md_signed r) = - 2 ^ 63.
Proof.
  exists toy_crypto, (bytes_of (ex_root (2 ^ 63 - 1))), ex_now, (bytes_of (ex_root (- 2 ^ 63))).
  enough (match tm_new (bytes_of (ex_root (2 ^ 63 - 1))) ex_now with
          | Ok t0 => match update_root t0 (bytes_of (ex_root (- 2 ^ 63))) with
                     | (t, Ok r) => rt_version (md_signed (t_root t0)) = 2 ^ 63 - 1 /\ rt_version (md_signed r) = - 2 ^ 63
                     | _ => False end
          | _ => False end) as H.
  - destruct (tm_new _ _) as [t0| |]; [|destruct H..]. destruct (update_root t0 _) as [t o] eqn:Hu. destruct o as [r| |]; [|destruct H..]. exists t0, t, r. exact (conj eq_refl (conj Hu H)).
  - vm_compute. auto.
Qed.
Print Assumptions C38_overflow_refuted.
Example C38_case : exists t, reachable t /\ loaded t = (4, None, None, []).
Proof.
  apply (run_reachable (fun t => loaded t = _) (bytes_of (ex_root 1)) ex_now
    [UpdateRoot (bytes_of (ex_root 2)); UpdateRoot (bytes_of (ex_root 4)); UpdateRoot (bytes_of (ex_root 3)); UpdateRoot (bytes_of (ex_root 4))]); [repeat constructor|].
  vm_compute. reflexivity.
Qed.

(** ** C39 *)
Theorem C39_workflow_order {CR : Crypto} t :
  (forall ts data, t_timestamp t = Some ts -> exists msg, update_root t data = (t, Err (ErrRuntime msg))) /\
  (forall sn data, t_snapshot t = Some sn -> exists msg, update_timestamp t data = (t, Err (ErrRuntime msg))) /\
  (forall order data tr, t_timestamp t = None \/ is_Some (t_targets t !! "targets") -> exists msg, update_snapshot order t data tr = (t, Err (ErrRuntime msg))) /\
  (forall data role dl, t_snapshot t = None -> exists msg, update_delegated_targets t data role dl = (t, Err (ErrRuntime msg))) /\
  (forall sn data role dl, t_snapshot t = Some sn -> final_snapshot t sn -> dl <> "root" -> t_targets t !! dl = None ->
     exists msg, update_delegated_targets t data role dl = (t, Err (ErrRuntime msg))).
Proof. exact (workflow_order t). Qed.
Print Assumptions C39_workflow_order.
(** if the snapshot is expired or mismatches, loading before the delegator fails with that error instead *)
Theorem C39_delegator_first {CR : Crypto} t data role dl :
  is_Some (t_timestamp t) -> (forall ts, t_timestamp t = Some ts -> exists f, names_snapshot ts f) ->
  dl <> "root" -> t_targets t !! dl = None -> exists e, update_delegated_targets t data role dl = (t, Err e).
Proof. exact (unloaded_delegator t data role dl). Qed.
Print Assumptions C39_delegator_first.
Example C39_case : exists t, reachable t /\
  (is_ok (snd (update_root t (bytes_of (ex_root 3)))), is_ok (snd (update_timestamp t (bytes_of (ex_timestamp_v 10)))),
   is_ok (snd (update_snapshot same_order t (bytes_of ex_snapshot) true)), is_ok (snd (update_delegated_targets t (bytes_of ex_d1) "d1" "d2")),
   is_ok (snd (update_delegated_targets t (bytes_of ex_d1) "d1" "targets"))) = (false, false, false, false, true).
Proof.
  apply (run_reachable (fun t => (_, _, _, _, _) = _) (bytes_of (ex_root 1)) ex_now ex_calls ex_calls_proper). vm_compute. reflexivity.
Qed.

(** ** C40 *)
Theorem C40_timestamp_history {CR : Crypto} t t' old : reachable t -> calls t t' -> t_timestamp t = Some old ->
  exists new, t_timestamp t' = Some new /\ (new = old \/ ts_version (md_signed old) < ts_version (md_signed new)) /\
    forall fo, names_snapshot old fo -> exists fn, names_snapshot new fn /\ mf_version fo <= mf_version fn.
Proof. exact (fun Hr Hc => timestamp_history t t' old Hc (reachable_range t Hr)). Qed.
Print Assumptions C40_timestamp_history.
Example C40_case : exists t, reachable t /\ loaded t = (1, Some 11, None, []).
Proof.
  apply (run_reachable (fun t => loaded t = _) (bytes_of (ex_root 1)) ex_now
    (map (fun v => UpdateTimestamp (bytes_of (ex_timestamp_v v))) [9; 8; 9; 11; 10])); [repeat constructor|].
  vm_compute. reflexivity.
Qed.

(** ** C41 *)
Theorem C41_equal_version {CR : Crypto} t data ts old : t_snapshot t = None -> ~ expired_at (t_root t) (t_ref t) -> t_timestamp t = Some old ->
  document data ts -> root_signs (t_root t) "timestamp" ts -> ts_version (md_signed ts) = ts_version (md_signed old) ->
  exists msg, update_timestamp t data = (t, Err (ErrEqualVersionNumber msg)).
Proof. exact (equal_timestamp t data ts old). Qed.
Print Assumptions C41_equal_version.
Example C41_case : exists t, reachable t /\
  (match snd (update_timestamp t (bytes_of (ex_timestamp_v 9))) with Err (ErrEqualVersionNumber _) => true | _ => false end) = true.
Proof.
  apply (run_reachable (fun t => _ = true) (bytes_of (ex_root 1)) ex_now [UpdateTimestamp (bytes_of (ex_timestamp_v 9))]); [repeat constructor|].
  vm_compute. reflexivity.
Qed.

(** ** C42 *)
Theorem C42_snapshot_history {CR : Crypto} t t' old : reachable t -> calls t t' -> t_snapshot t = Some old ->
  exists new, t_snapshot t' = Some new /\ (new = old \/ no_rollback old new).
Proof. exact (fun Hr Hc => snapshot_history t t' old Hc (reachable_range t Hr)). Qed.
Print Assumptions C42_snapshot_history.
(** a snapshot that drops or rolls back a file of the trusted one is refused, in whatever order the files are compared *)
Definition c42_snapshot (version v : Z) (names : list string) : metadata snapshot_t :=
  sign_all [pkC] (unsigned (mkSnapshot SNAPSHOT SPECIFICATION_VERSION version t2030
    (Some (list_to_map (map (fun n => (n, Some (mkMetaFile 0 None v None))) names))) None)).
Definition c42_timestamp (version : Z) : metadata timestamp_t :=
  sign_all [pkB] (unsigned (mkTimestamp TIMESTAMP SPECIFICATION_VERSION 1 t2030
    (Some (<["snapshot.json" := Some (mkMetaFile 0 None version None)]> ∅)) None)).
Example C42_case : exists t, reachable t /\
  (loaded t, is_ok (snd (update_snapshot same_order t (bytes_of (c42_snapshot 2 3 ["a.json"])) false)),
   is_ok (snd (update_snapshot same_order t (bytes_of (c42_snapshot 2 2 ["a.json"; "b.json"])) false)),
   is_ok (snd (update_snapshot same_order t (bytes_of (c42_snapshot 2 4 ["a.json"; "b.json"; "c.json"])) false))) =
  ((1, Some 1, Some 1, []), false, false, true).
Proof.
  apply (run_reachable (fun t => (_, _, _, _) = _) (bytes_of (ex_root 1)) ex_now
    [UpdateTimestamp (bytes_of (c42_timestamp 2)); UpdateSnapshot same_order (bytes_of (c42_snapshot 1 3 ["a.json"; "b.json"])) true]);
    [repeat constructor; exact same_order_proper|].
  vm_compute. reflexivity.
Qed.

(** ** C43 *)
Theorem C43_snapshot_agrees {CR : Crypto} order t data tr t' sn : (forall l, order l ≡ₚ l) -> update_snapshot order t data tr = (t', Ok sn) ->
  exists ts f, t_timestamp t = Some ts /\ names_snapshot ts f /\ sn_version (md_signed sn) = mf_version f /\ ~ expired_at sn (t_ref t) /\
    root_signs (t_root t) "snapshot" sn /\ (tr = false -> matches_file f data) /\ document data sn.
Proof.
  intros Ho H. apply (update_snapshot_spec order t data tr t' sn Ho) in H as ((ts0 & Hts0 & _ & _ & Htr & Hd & Hs & _) & (Hx & ts & f & Hts & Hf & Hv) & _).
  assert (ts0 = ts) as -> by congruence. exists ts, f. split; [done|]. split; [done|]. split; [done|]. split; [done|]. split; [done|]. split; [|done].
  intros ->. destruct Htr as [|(f' & Hf' & Hm)]; [done|]. assert (f' = f) as -> by (apply snapshot_meta_spec in Hf, Hf'; congruence). exact Hm.
Qed.
Print Assumptions C43_snapshot_agrees.
Example C43_case : exists t, reachable t /\
  (is_ok (snd (update_snapshot same_order t (bytes_of ex_snapshot) false)), is_ok (snd (update_snapshot same_order t (bytes_of (ex_snapshot_v 8)) true)),
   is_ok (snd (update_snapshot same_order t (bytes_of (sign_all [pkA] (unsigned (md_signed ex_snapshot)))) true))) = (true, false, false).
Proof.
  apply (run_reachable (fun t => (_, _, _) = _) (bytes_of (ex_root 1)) ex_now [UpdateTimestamp (bytes_of ex_timestamp)]); [repeat constructor|].
  vm_compute. reflexivity.
Qed.

(** ** C44 *)
Theorem C44_targets_agree {CR : Crypto} t data role dl t' m : update_delegated_targets t data role dl = (t', Ok m) ->
  exists sn f, t_snapshot t = Some sn /\ lists_file sn (String.append role ".json") f /\ matches_file f data /\ document data m /\
    tg_version (md_signed m) = mf_version f /\ ~ expired_at m (t_ref t) /\
    ((dl = "root" /\ root_signs (t_root t) role m) \/ (dl <> "root" /\ exists d, t_targets t !! dl = Some d /\ targets_signs d role m)).
Proof.
  intros H. apply update_delegated_spec in H as ((sn & f & Hs & _ & Hl & Hm & Hd & Hsig & Hv & Hx) & _). exists sn, f.
  exact (conj Hs (conj Hl (conj Hm (conj Hd (conj Hv (conj Hx Hsig)))))).
Qed.
Print Assumptions C44_targets_agree.
(** for calls as the client makes them, everything loaded agrees with the current snapshot *)
Theorem C44_loaded_agree {CR : Crypto} data now t0 t name m : tm_new data now = Ok t0 -> disciplined_calls t0 t -> t_targets t !! name = Some m ->
  exists sn, t_snapshot t = Some sn /\ final_snapshot t sn /\ as_listed sn name m /\ ~ expired_at m (t_ref t) /\ vouched_for t name m.
Proof.
  intros Hn Hc Hm. destruct (dinv_disciplined t0 t Hc (ex_intro _ data (ex_intro _ now Hn))) as (_ & _ & _ & H). destruct (H name m Hm) as (sn & H1 & H2 & H3 & H4 & H5 & _).
  exists sn. exact (conj H1 (conj H2 (conj H3 (conj H4 H5)))).
Qed.
Print Assumptions C44_loaded_agree.
(** refuted for arbitrary sequences of calls: a role loaded with root as its delegator survives a change of the snapshot *)
Definition c44_root : metadata root_t := sign_all [pkA; pkB] (unsigned (mkRoot ROOT SPECIFICATION_VERSION true 1 t2030 ex_keys
    (Some (<[ROOT := ex_role [idA; idB] 2]> (<[TIMESTAMP := ex_role [idB] 1]>
      (<[SNAPSHOT := ex_role [idC] 1]> (<[TARGETS := ex_role [idA] 1]> (<["extra" := ex_role [idA] 1]> ∅)))))) None)).
Definition c44_targets (v : Z) : metadata targets_t := sign_all [pkA] (unsigned (mkTargets TARGETS SPECIFICATION_VERSION v t2030 (Some ∅) None None)).
Definition c44_calls : list call := [UpdateTimestamp (bytes_of (c42_timestamp 2)); UpdateSnapshot same_order (bytes_of (c42_snapshot 2 3 ["extra.json"])) false;
  UpdateDelegated (bytes_of (c44_targets 3)) "extra" "root"; UpdateSnapshot same_order (bytes_of (c42_snapshot 2 4 ["extra.json"])) false].
Theorem C44_refuted : exists (CR : Crypto) t name m sn, reachable t /\ t_targets t !! name = Some m /\ t_snapshot t = Some sn /\ ~ as_listed sn name m.
Proof.
  exists toy_crypto.
  destruct (run_reachable (fun t => match t_targets t !! "extra", t_snapshot t with
                                    | Some m, Some sn => match mget (sn_meta (md_signed sn)) "extra.json" with
                                                         | Some (Some f) => (tg_version (md_signed m) =? mf_version f) = false
                                                         | _ => False end
                                    | _, _ => False end) (bytes_of c44_root) ex_now c44_calls) as (t & Hr & H).
  - repeat constructor; exact same_order_proper.
  - vm_compute. reflexivity.
  - destruct (t_targets t !! "extra") as [m|] eqn:Em; [|destruct H]. destruct (t_snapshot t) as [sn|] eqn:Es; [|destruct H].
    destruct (mget (sn_meta (md_signed sn)) "extra.json") as [[f|]|] eqn:Ef; [|destruct H..].
    exists t, "extra", m, sn. split; [exact Hr|]. split; [exact Em|]. split; [exact Es|]. intros (f' & d & Hf & _ & _ & Hv).
    apply lists_file_mget in Hf. change ("extra" +:+ ".json")%string with "extra.json" in Hf. rewrite Ef in Hf. injection Hf as <-. apply Z.eqb_neq in H. exact (H Hv).
Qed.
Print Assumptions C44_refuted.
(** the example sequence is disciplined *)
Fixpoint disciplined_all {CR : Crypto} (t : trusted) (cs : list call) : Prop :=
  match cs with [] => True | c :: cs => disciplined t c /\ disciplined_all (fst (perform t c)) cs end.
Lemma run_disciplined {CR : Crypto} cs : forall t t', disciplined_calls t t' -> Forall proper_call cs -> disciplined_all t' cs -> disciplined_calls t (run t' cs).
Proof. induction cs as [|c cs IH]; intros t t' Hc Hp Hd; [exact Hc|]. inversion Hp; subst. destruct Hd as [Hd1 Hd2]. apply IH; [by constructor|done|done]. Qed.
Definition disciplined_b (t : trusted) (c : call) : bool :=
  match c with
  | UpdateDelegated _ role delegator =>
      negb (is_Some_b (t_targets t !! role)) && (negb (String.eqb delegator "root") || String.eqb role "targets" || is_Some_b (t_targets t !! "targets"))
  | _ => true
  end.
Lemma disciplined_b_ok t c : disciplined_b t c = true -> disciplined t c.
Proof.
  destruct c as [| | |data role delegator]; try done. cbn. intros [H1 H2]%andb_prop. split; [by destruct (t_targets t !! role)|]. intros ->.
  apply orb_prop in H2 as [[H2|H2%String.eqb_eq]%orb_prop|H2]; [done|by left|]. right. by destruct (t_targets t !! "targets").
Qed.
Fixpoint disciplined_all_b {CR : Crypto} (t : trusted) (cs : list call) : bool :=
  match cs with [] => true | c :: cs => disciplined_b t c && disciplined_all_b (fst (perform t c)) cs end.
Lemma disciplined_all_b_ok {CR : Crypto} cs : forall t, disciplined_all_b t cs = true -> disciplined_all t cs.
Proof. induction cs as [|c cs IH]; intros t; [done|]. intros [H1 H2]%andb_prop. split; [by apply disciplined_b_ok|by apply IH]. Qed.
Example C44_case : exists data now t0 t, tm_new data now = Ok t0 /\ disciplined_calls t0 t /\ is_Some_b (t_targets t !! "d1") = true.
Proof.
  enough (match tm_new (bytes_of (ex_root 1)) ex_now with Ok t0 => disciplined_all_b t0 ex_calls && is_Some_b (t_targets (run t0 ex_calls) !! "d1") | _ => false end = true) as H.
  - destruct (tm_new (bytes_of (ex_root 1)) ex_now) as [t0| |] eqn:E; [|discriminate H..]. apply andb_prop in H as [H1 H2].
    exists (bytes_of (ex_root 1)), ex_now, t0, (run t0 ex_calls). split; [exact E|]. split; [|exact H2]. apply run_disciplined; [constructor|exact ex_calls_proper|by apply disciplined_all_b_ok].
  - vm_compute. reflexivity.
Qed.

(** ** C45 *)
Theorem C45_failed_calls {CR : Crypto} t c t' e : reachable t -> proper_call c -> perform t c = (t', Err e) ->
  t' = t \/
  (exists data ts, c = UpdateTimestamp data /\ timestamp_ok t data ts /\ expired_at ts (t_ref t) /\ timestamp_replaced t t' ts) \/
  (exists order data tr sn, c = UpdateSnapshot order data tr /\ snapshot_ok t data tr sn /\
     (expired_at sn (t_ref t) \/ exists ts f, t_timestamp t = Some ts /\ names_snapshot ts f /\ sn_version (md_signed sn) <> mf_version f) /\ snapshot_replaced t t' sn).
Proof. exact (fun Hr => failed_calls t c t' e (reachable_range t Hr)). Qed.
Print Assumptions C45_failed_calls.
Theorem C45_kept_timestamp {CR : Crypto} t data ts : timestamp_ok t data ts -> expired_at ts (t_ref t) ->
  exists t' msg, update_timestamp t data = (t', Err (ErrExpiredMetadata msg)) /\ timestamp_replaced t t' ts.
Proof. exact (kept_timestamp t data ts). Qed.
Print Assumptions C45_kept_timestamp.
Theorem C45_kept_snapshot {CR : Crypto} order t data tr sn : (forall l, order l ≡ₚ l) -> snapshot_ok t data tr sn ->
  (expired_at sn (t_ref t) -> exists t' msg, update_snapshot order t data tr = (t', Err (ErrExpiredMetadata msg)) /\ snapshot_replaced t t' sn) /\
  (~ expired_at sn (t_ref t) -> (exists ts f, t_timestamp t = Some ts /\ names_snapshot ts f /\ sn_version (md_signed sn) <> mf_version f) ->
     exists t' msg, update_snapshot order t data tr = (t', Err (ErrBadVersionNumber msg)) /\ snapshot_replaced t t' sn).
Proof. exact (kept_snapshot order t data tr sn). Qed.
Print Assumptions C45_kept_snapshot.
(** even a call that panics leaves the state alone, except for a trusted snapshot under a timestamp that names none *)
Theorem C45_panicked_calls {CR : Crypto} t c : reachable t -> proper_call c -> snd (perform t c) = Panic ->
  fst (perform t c) = t \/ exists order data sn, c = UpdateSnapshot order data true /\ snapshot_ok t data true sn /\ snapshot_replaced t (fst (perform t c)) sn /\
    exists ts, t_timestamp t = Some ts /\ forall f, ~ names_snapshot ts f.
Proof. exact (fun Hr => panicked_calls t c (reachable_range t Hr)). Qed.
Print Assumptions C45_panicked_calls.
Example C45_case : exists t, reachable t /\ loaded t = (1, Some 1, Some 1, []) /\
  (match snd (update_delegated_targets t (bytes_of ex_targets) "targets" "root") with Err (ErrBadVersionNumber _) => true | _ => false end) = true.
Proof.
  apply (run_reachable (fun t => _ /\ _) (bytes_of (ex_root 1)) ex_now
    [UpdateTimestamp (bytes_of (c42_timestamp 2)); UpdateSnapshot same_order (bytes_of (c42_snapshot 1 5 ["targets.json"])) false]);
    [repeat constructor; exact same_order_proper|].
  vm_compute. auto.
Qed.

(** ** C46 *)
Theorem C46_expired_blocks {CR : Crypto} t :
  (forall data, expired_at (t_root t) (t_ref t) -> t_snapshot t = None -> exists msg, update_timestamp t data = (t, Err (ErrExpiredMetadata msg))) /\
  (forall data, expired_at (t_root t) (t_ref t) -> exists e, update_timestamp t data = (t, Err e)) /\
  (forall ts order data tr, t_timestamp t = Some ts -> expired_at ts (t_ref t) -> exists e, update_snapshot order t data tr = (t, Err e)) /\
  (forall sn ts data role dl, t_snapshot t = Some sn -> t_timestamp t = Some ts ->
     expired_at sn (t_ref t) \/ (exists f, names_snapshot ts f /\ sn_version (md_signed sn) <> mf_version f) ->
     exists e, update_delegated_targets t data role dl = (t, Err e)).
Proof. exact (expired_blocks t). Qed.
Print Assumptions C46_expired_blocks.
Theorem C46_loaded_unexpired {CR : Crypto} t : reachable t ->
  (forall ts, t_timestamp t = Some ts -> ~ expired_at (t_root t) (t_ref t)) /\
  (forall sn, t_snapshot t = Some sn -> exists ts, t_timestamp t = Some ts /\ ~ expired_at ts (t_ref t)) /\
  (forall name m, t_targets t !! name = Some m -> ~ expired_at m (t_ref t)).
Proof.
  intros Hr. destruct (toplevel_inv t Hr) as (_ & H1 & H2 & H3). split; [intros ts Hts; exact (proj2 (H1 ts Hts))|].
  split; [intros sn Hsn; exact (proj2 (H2 sn Hsn))|intros name m Hm; exact (proj1 (H3 name m Hm))].
Qed.
Print Assumptions C46_loaded_unexpired.
Definition late : Z := instant (mkTime 2031 1 1 0 0 0 0 0).
Example C46_case : exists t, reachable t /\ expired_at (t_root t) (t_ref t).
Proof.
  apply (run_reachable (fun t => expired_at (t_root t) (t_ref t)) (bytes_of (ex_root 1)) late []); [constructor|]. vm_compute. reflexivity.
Qed.

(** ** C47 *)
Theorem C47_top_level_signed {CR : Crypto} t : reachable t ->
  root_signs (t_root t) "root" (t_root t) /\
  (forall ts, t_timestamp t = Some ts -> root_signs (t_root t) "timestamp" ts) /\
  (forall sn, t_snapshot t = Some sn -> root_signs (t_root t) "snapshot" sn).
Proof.
  intros Hr. destruct (toplevel_inv t Hr) as (H0 & H1 & H2 & _). split; [exact H0|].
  split; [intros ts Hts; exact (proj1 (H1 ts Hts))|intros sn Hsn; exact (proj1 (H2 sn Hsn))].
Qed.
Print Assumptions C47_top_level_signed.
(** for calls as the client makes them a chain of delegations leads to every loaded role *)
Theorem C47_delegation_chain {CR : Crypto} data now t0 t : tm_new data now = Ok t0 -> disciplined_calls t0 t ->
  (forall m, t_targets t !! "targets" = Some m -> root_signs (t_root t) "targets" m) /\
  (forall name m, t_targets t !! name = Some m -> authorised t name).
Proof.
  intros Hn Hc. destruct (dinv_disciplined t0 t Hc (ex_intro _ data (ex_intro _ now Hn))) as (_ & _ & H1 & H). split; [exact H1|].
  intros name m Hm. destruct (H name m Hm) as (sn & _ & _ & _ & _ & _ & Ha). exact Ha.
Qed.
Print Assumptions C47_delegation_chain.
(** refuted for arbitrary sequences of calls: loading the delegator again, with other delegations, keeps the delegated role *)
Definition c47_targets (ids : list string) : metadata targets_t :=
  sign_all [pkA] (unsigned (mkTargets TARGETS SPECIFICATION_VERSION 3 t2030 (Some ∅)
    (Some (mkDelegations ex_keys (Some [ex_dr "d1" ids false ["a/*"]]) None None)) None)).
Definition c47_calls : list call := [UpdateTimestamp (bytes_of (c42_timestamp 2)); UpdateSnapshot same_order (bytes_of (c42_snapshot 2 3 ["targets.json"; "d1.json"])) false;
  UpdateDelegated (bytes_of (c47_targets [idB])) "targets" "root"; UpdateDelegated (bytes_of ex_d1) "d1" "targets"; UpdateDelegated (bytes_of (c47_targets [idC])) "targets" "root"].
Theorem C47_refuted : exists (CR : Crypto) t name m, reachable t /\ t_targets t !! name = Some m /\ ~ vouched_for t name m.
Proof.
  exists toy_crypto.
  destruct (run_reachable (fun t => match t_targets t !! "d1" with
                                    | Some m => is_ok (verify_delegate (t_root t) "d1" m) = false /\
                                                bool_decide (map_Forall (fun _ dm => is_ok (verify_delegate dm "d1" m) = false) (t_targets t)) = true
                                    | None => False end) (bytes_of (ex_root 1)) ex_now c47_calls) as (t & Hr & H).
  - repeat constructor; exact same_order_proper.
  - vm_compute. auto.
  - destruct (t_targets t !! "d1") as [m|] eqn:Em; [|destruct H]. destruct H as [H1 H2]. apply bool_decide_eq_true in H2.
    exists t, "d1", m. split; [exact Hr|]. split; [exact Em|]. intros [Hv|(d & dm & Hd & Hv)].
    + apply root_signs_ok in Hv. rewrite Hv in H1. discriminate H1.
    + apply targets_signs_ok in Hv. specialize (H2 d dm Hd). cbn beta in H2. rewrite Hv in H2. discriminate H2.
Qed.
Print Assumptions C47_refuted.

(** ** C48: refuted; no panic for well-formed documents *)
Definition c48_timestamp : metadata timestamp_t := sign_all [pkB] (unsigned (mkTimestamp TIMESTAMP SPECIFICATION_VERSION 1 t2030 (Some ∅) None)).
Theorem C48_refuted : exists (CR : Crypto), (exists data now, tm_new data now = Panic) /\
  (exists t data order, reachable t /\ (forall l, order l ≡ₚ l) /\ snd (update_snapshot order t data false) = Panic) /\
  (exists t data, reachable t /\ snd (update_timestamp t data) = Panic).
Proof.
  exists toy_crypto. split; [exists "{}", 0; vm_compute; reflexivity|]. split.
  - destruct (run_reachable (fun t => snd (update_snapshot same_order t (bytes_of ex_snapshot) false) = Panic) (bytes_of (ex_root 1)) ex_now [UpdateTimestamp (bytes_of c48_timestamp)]) as (t & Hr & H).
    + repeat constructor.
    + vm_compute. reflexivity.
    + exists t, (bytes_of ex_snapshot), same_order. exact (conj Hr (conj same_order_proper H)).
  - destruct (run_reachable (fun t => snd (update_timestamp t (bytes_of ex_timestamp)) = Panic) (bytes_of (ex_root 1)) ex_now [UpdateTimestamp (bytes_of c48_timestamp)]) as (t & Hr & H).
    + repeat constructor.
    + vm_compute. reflexivity.
    + exists t, (bytes_of ex_timestamp). exact (conj Hr H).
Qed.
Print Assumptions C48_refuted.
Theorem C48_new_no_panic {CR : Crypto} data now : from_bytes (T := root_t) data <> Panic -> (forall r, from_bytes data = Ok r -> proper_root r) -> tm_new data now <> Panic.
Proof. exact (tm_new_np data now). Qed.
Print Assumptions C48_new_no_panic.
Theorem C48_root_no_panic {CR : Crypto} t data : from_bytes (T := root_t) data <> Panic -> (forall r, from_bytes data = Ok r -> proper_root r) ->
  proper_root (t_root t) -> snd (update_root t data) <> Panic.
Proof. exact (update_root_np t data). Qed.
Print Assumptions C48_root_no_panic.
Theorem C48_timestamp_no_panic {CR : Crypto} t data : from_bytes (T := timestamp_t) data <> Panic -> proper_root (t_root t) ->
  (forall old ts, t_timestamp t = Some old -> from_bytes data = Ok ts -> exists fo fn, names_snapshot old fo /\ names_snapshot ts fn) ->
  snd (update_timestamp t data) <> Panic.
Proof. exact (update_timestamp_np t data). Qed.
Print Assumptions C48_timestamp_no_panic.
Theorem C48_snapshot_no_panic {CR : Crypto} order t data tr : (forall l, order l ≡ₚ l) -> from_bytes (T := snapshot_t) data <> Panic -> proper_root (t_root t) ->
  (forall ts, t_timestamp t = Some ts -> exists f, names_snapshot ts f) ->
  (forall old sn, t_snapshot t = Some old -> from_bytes data = Ok sn ->
     forall file, mget (sn_meta (md_signed old)) file <> Some None /\ mget (sn_meta (md_signed sn)) file <> Some None) ->
  snd (update_snapshot order t data tr) <> Panic.
Proof. exact (update_snapshot_np order t data tr). Qed.
Print Assumptions C48_snapshot_no_panic.
Theorem C48_targets_no_panic {CR : Crypto} t data role dl : from_bytes (T := targets_t) data <> Panic -> proper_root (t_root t) ->
  (forall d, t_targets t !! dl = Some d -> proper_targets d) ->
  (forall sn, t_snapshot t = Some sn -> mget (sn_meta (md_signed sn)) (String.append role ".json") <> Some None /\
     exists ts f, t_timestamp t = Some ts /\ names_snapshot ts f) ->
  snd (update_delegated_targets t data role dl) <> Panic.
Proof. exact (update_delegated_np t data role dl). Qed.
Print Assumptions C48_targets_no_panic.

(** ** C49 *)
Theorem C49_new {CR : Crypto} data now t :
  tm_new data now = Ok t <-> exists r, document data r /\ root_signs r "root" r /\ t = mkTrusted r None None ∅ now.
Proof. exact (tm_new_spec data now t). Qed.
Print Assumptions C49_new.
Example C49_case : is_ok (tm_new (bytes_of (ex_root 1)) late) = true /\ is_ok (tm_new (bytes_of (sign_all [pkA] (unsigned (ex_root_t 1)))) ex_now) = false /\
  is_ok (tm_new (bytes_of ex_targets) ex_now) = false.
Proof. vm_compute. auto. Qed.

(** ** C50 *)
Theorem C50_update_root {CR : Crypto} t data t' r : in_int64 (rt_version (md_signed (t_root t))) = true ->
  update_root t data = (t', Ok r) <-> root_ok t data r /\ root_replaced t t' r.
Proof. exact (update_root_spec t data t' r). Qed.
Print Assumptions C50_update_root.
(** versions of reachable roots are 64-bit numbers *)
Theorem C50_root_range {CR : Crypto} t : reachable t -> in_int64 (rt_version (md_signed (t_root t))) = true.
Proof. exact (reachable_range t). Qed.
Print Assumptions C50_root_range.
Theorem C50_update_timestamp {CR : Crypto} t data t' ts :
  update_timestamp t data = (t', Ok ts) <-> timestamp_ok t data ts /\ ~ expired_at ts (t_ref t) /\ timestamp_replaced t t' ts.
Proof. exact (update_timestamp_spec t data t' ts). Qed.
Print Assumptions C50_update_timestamp.
Theorem C50_update_snapshot {CR : Crypto} order t data tr t' sn : (forall l, order l ≡ₚ l) ->
  update_snapshot order t data tr = (t', Ok sn) <-> snapshot_ok t data tr sn /\ final_snapshot t sn /\ snapshot_replaced t t' sn.
Proof. exact (update_snapshot_spec order t data tr t' sn). Qed.
Print Assumptions C50_update_snapshot.
Theorem C50_update_delegated {CR : Crypto} t data role dl t' m :
  update_delegated_targets t data role dl = (t', Ok m) <-> targets_ok t data role dl m /\ targets_replaced t t' role m.
Proof. exact (update_delegated_spec t data role dl t' m). Qed.
Print Assumptions C50_update_delegated.
Theorem C50_update_targets {CR : Crypto} t data t' m :
  update_targets t data = (t', Ok m) <-> targets_ok t data "targets" "root" m /\ targets_replaced t t' "targets" m.
Proof. exact (update_delegated_spec t data "targets" "root" t' m). Qed.
Print Assumptions C50_update_targets.
