(** * C120: what may depend on the iteration order of Go's maps *)
From stdpp Require Import base gmap strings list.
From Coq Require Import ZArith Lia String.
From Verif Require Import GoBase GoStr Json GoTime Types Marshal Keys Metadata TrustedMetadata Fetcher Updater SpecBasic SpecTrusted SpecUpdater SpecOrder.
From Verif Require Import UpdaterProofs WalkProofs SearchProofs FinalProofs OrderProofs TrustedProofs Toy Examples ExamplesUpdater PropertiesUpdater.
Open Scope Z_scope.

(** A new updater does not depend on the order at all.  The same calls on the same updater with the same network, files
    and random numbers give the same answers, downloads and files under every two orders, unless a call panics.  Errors
    stay errors.  The condition on searches and downloads is only needed where a role delegates a path to two roles or
    a target has two hashes. *)
Theorem C120_order {CR : Crypto} E order perm c :
  (forall now, updater_new (reordered E order perm) c now = updater_new E c now) /\
  forall calls w w1 answers1 w2 answers2,
    ask_all E c calls w = (w1, answers1) -> ask_all (reordered E order perm) c calls w = (w2, answers2) ->
    Forall (choiceless c (w_trusted w1)) calls -> Forall (fun a => ~ panics a) answers1 -> Forall (fun a => ~ panics a) answers2 ->
    w1 = w2 /\ Forall2 alike answers1 answers2.
Proof. split; [reflexivity|]. intros calls w w1 l1 w2 l2. exact (sessions_agree E order perm c calls w w1 l1 w2 l2). Qed.
Print Assumptions C120_order.

(** a refresh, a search through two delegations and a download *)
Definition c120_calls : list api := [Refresh; GetTargetInfo "a/x"; DownloadTarget (ex_file "hello") "/t/x" "https://t"].
Definition shown_answer (a : answer) : string :=
  match a with Refreshed (Ok _) => "refreshed" | Info (Ok (Some tf)) => "found " +:+ fmt_dec (tf_length tf) | File (Ok (p, d)) => p +:+ ": " +:+ d | Refreshed Panic | Info Panic | File Panic => "panic" | _ => "error" end.
Lemma shown_no_panic l : Forall (fun s => s <> "panic") (map shown_answer l) -> Forall (fun a => ~ panics a) l.
Proof. induction l as [|a l IH]; intros H; constructor; [|by apply IH; inversion H]. intros [->|[->| ->]]; by inversion H. Qed.
Lemma one_file_hash data : one_hash (ex_file data).
Proof. intros a1 h1 a2 h2 (m & [= <-] & H1) (m' & [= <-] & H2). apply lookup_singleton_Some in H1 as [<- _]. apply lookup_singleton_Some in H2 as [<- _]. done. Qed.
Example C120_case : exists w w1 answers1 w2 answers2, let E := ex_env (("https://t/" +:+ prefixed_path "" (hex_encode (sha256 "hello")), "hello") :: mk_files one_path) in
  ask_all E ex_config c120_calls w = (w1, answers1) /\ ask_all (reordered E turn_order turn_order_perm) ex_config c120_calls w = (w2, answers2) /\
  Forall (choiceless ex_config (w_trusted w1)) c120_calls /\ Forall (fun a => ~ panics a) answers1 /\ Forall (fun a => ~ panics a) answers2 /\
  map shown_answer answers1 = ["refreshed"; "found 5"; "/t/x: hello"].
Proof.
  set (E := ex_env (("https://t/" +:+ prefixed_path "" (hex_encode (sha256 "hello")), "hello") :: mk_files one_path)).
  set (w := mkWorld (mkTrusted (ex_root 1) None None ∅ ex_now) no_files).
  enough (match ask_all E ex_config c120_calls w, ask_all (reordered E turn_order turn_order_perm) ex_config c120_calls w with
          | (w1, l1), (w2, l2) => one_way_b (w_trusted w1) "a/x" = true /\ map shown_answer l1 = ["refreshed"; "found 5"; "/t/x: hello"] /\ map shown_answer l2 = ["refreshed"; "found 5"; "/t/x: hello"] end) as H.
  { exists w. destruct (ask_all E ex_config c120_calls w) as [w1 l1] eqn:G1. destruct (ask_all (reordered E turn_order turn_order_perm) ex_config c120_calls w) as [w2 l2] eqn:G2. destruct H as (H1 & H2 & H3).
    exists w1, l1, w2, l2. cbn zeta. split; [exact G1|]. split; [exact G2|]. split; [|split; [apply shown_no_panic; rewrite H2; repeat constructor; discriminate|split; [apply shown_no_panic; rewrite H3; repeat constructor; discriminate|exact H2]]].
    constructor; [exact I|]. constructor; [|constructor; [|constructor]].
    - apply one_way_check in H1. intros role m n1 b1 n2 b2 Hm Hd1 Hd2. exact (proj1 (H1 role m n1 b1 n2 b2 Hm Hd1 Hd2)).
    - intros _. apply one_file_hash. }
  vm_compute. split; [reflexivity|]. split; reflexivity.
Qed.

(** ** Refuted: the kind of the error, and whether there is a panic, do depend on the order *)
(** a cached snapshot and a newer one on the server that drops one file and lists another one with a lower version or
    with null *)
Definition c120_old : metadata snapshot_t := sign_all [pkC] (unsigned (mkSnapshot SNAPSHOT SPECIFICATION_VERSION 6 t2030
  (Some (<["targets.json" := ex_meta 5 (bytes_of ex_targets)]> (<["d1.json" := ex_meta 3 (bytes_of ex_d1)]> (<["gone.json" := ex_meta 1 ""]> ∅)))) None)).
Definition c120_new (d1 : option metafile) : metadata snapshot_t := sign_all [pkC] (unsigned (mkSnapshot SNAPSHOT SPECIFICATION_VERSION 7 t2030
  (Some (<["targets.json" := ex_meta 5 (bytes_of ex_targets)]> (<["d1.json" := d1]> ∅))) None)).
Definition c120_timestamp (d1 : option metafile) : metadata timestamp_t := sign_all [pkB] (unsigned (mkTimestamp TIMESTAMP SPECIFICATION_VERSION 9 t2030
  (Some (<["snapshot.json" := ex_meta 7 (bytes_of (c120_new d1))]> ∅)) None)).
Definition c120_env (d1 : option metafile) : env := ex_env [("https://r/timestamp.json", bytes_of (c120_timestamp d1)); ("https://r/7.snapshot.json", bytes_of (c120_new d1))].
Definition c120_cache : ios := files_of [("/m/snapshot.json", bytes_of c120_old)].
Definition error_kind (o : outcome unit) : option (option bool) :=
  match o with Ok _ => None | Err e => Some (Some (errors_is e (ErrRepository ""))) | Panic => Some None end.
Lemma c120_runs d1 k1 k2 : match started (c120_env d1) ex_config c120_cache with
    | Some w => error_kind (snd (refresh (c120_env d1) ex_config w)) = k1 /\ error_kind (snd (refresh (reordered (c120_env d1) turn_order turn_order_perm) ex_config w)) = k2
    | None => False end ->
  exists w w1 o1 w2 o2, session (c120_env d1) ex_config ex_now w /\ refresh (c120_env d1) ex_config w = (w1, o1) /\ refresh (reordered (c120_env d1) turn_order turn_order_perm) ex_config w = (w2, o2) /\ error_kind o1 = k1 /\ error_kind o2 = k2.
Proof.
  intros H. destruct (started (c120_env d1) ex_config c120_cache) as [w|] eqn:Hw; [|destruct H]. destruct H as [H1 H2].
  destruct (refresh (c120_env d1) ex_config w) as [w1 o1] eqn:G1. destruct (refresh (reordered (c120_env d1) turn_order turn_order_perm) ex_config w) as [w2 o2] eqn:G2.
  exists w, w1, o1, w2, o2. split; [exact (started_session _ _ _ _ Hw)|]. split; [exact G1|]. split; [exact G2|]. split; [exact H1|exact H2].
Qed.
(** the same refresh reports a repository error in one order and not in the other *)
Theorem C120_error_refuted : exists (CR : Crypto) E order perm c now w w1 e1 w2 e2, session E c now w /\
  refresh E c w = (w1, Err e1) /\ refresh (reordered E order perm) c w = (w2, Err e2) /\ errors_is e1 (ErrRepository "") = true /\ errors_is e2 (ErrRepository "") = false.
Proof.
  destruct (c120_runs (ex_meta 2 "") (Some (Some true)) (Some (Some false))) as (w & w1 & o1 & w2 & o2 & Hs & G1 & G2 & H1 & H2); [vm_compute; split; reflexivity|].
  exists toy_crypto, (c120_env (ex_meta 2 "")), turn_order, turn_order_perm, ex_config, ex_now, w, w1.
  destruct o1 as [|e1|]; [discriminate H1| |discriminate H1]. destruct o2 as [|e2|]; [discriminate H2| |discriminate H2].
  exists e1, w2, e2. split; [exact Hs|]. split; [exact G1|]. split; [exact G2|]. cbn [error_kind] in H1, H2. split; [congruence|congruence].
Qed.
Print Assumptions C120_error_refuted.
(** the same refresh panics in one order and returns an error in the other *)
Theorem C120_panic_refuted : exists (CR : Crypto) E order perm c now w w1 w2 e2, session E c now w /\
  refresh E c w = (w1, Panic) /\ refresh (reordered E order perm) c w = (w2, Err e2).
Proof.
  destruct (c120_runs None (Some None) (Some (Some false))) as (w & w1 & o1 & w2 & o2 & Hs & G1 & G2 & H1 & H2); [vm_compute; split; reflexivity|].
  exists toy_crypto, (c120_env None), turn_order, turn_order_perm, ex_config, ex_now, w, w1.
  destruct o1 as [|e1|]; [discriminate H1|discriminate H1|]. destruct o2 as [|e2|]; [discriminate H2| |discriminate H2].
  exists w2, e2. split; [exact Hs|]. split; [exact G1|exact G2].
Qed.
Print Assumptions C120_panic_refuted.
