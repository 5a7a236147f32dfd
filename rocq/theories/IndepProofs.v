(** * With the cache disabled, which files matter (C66) *)
From stdpp Require Import base gmap strings list.
From Coq Require Import ZArith Ascii String.
From Verif Require Import GoBase GoStr GoTime Types Marshal Keys Metadata TrustedMetadata Fetcher Updater SpecBasic SpecTrusted SpecUpdater.
Open Scope Z_scope.

Section Indep.
Context {CR : Crypto} (E : env) (c : config) (R : string -> Prop).
Context (Hoff : c_disable_cache c = true).
(** the same trusted set and history, and the same local files for the roles in [R] *)
Definition same_files (d d' : disk) : Prop := forall role, R role -> d !! local_name c role = d' !! local_name c role.
Definition io_sim (i i' : ios) : Prop := io_trace i = io_trace i' /\ same_files (io_disk i) (io_disk i').
Definition sim (w w' : world) : Prop := w_trusted w = w_trusted w' /\ io_sim (w_io w) (w_io w').
(** [m] behaves the same in similar worlds *)
Definition indep {S A} (rel : S -> S -> Prop) (m : S -> S * outcome A) : Prop :=
  forall s s', rel s s' -> rel (fst (m s)) (fst (m s')) /\ snd (m s) = snd (m s').
Lemma indep_sret {S A} rel (a : A) : indep (S := S) rel (sret a).
Proof. intros s s' H. done. Qed.
Lemma indep_sout {S A} rel (o : outcome A) : indep (S := S) rel (sout o).
Proof. intros s s' H. done. Qed.
Lemma indep_sbind {S A B} rel (m : S -> S * outcome A) (f : A -> S -> S * outcome B) : indep rel m -> (forall a, indep rel (f a)) -> indep rel (sbind m f).
Proof.
  intros Hm Hf s s' H. unfold sbind. destruct (Hm _ _ H) as [H1 H2]. destruct (m s) as [s1 o1], (m s') as [s2 o2]. cbn [fst snd] in *. subst o2. destruct o1; [by apply Hf|done|done].
Qed.
Lemma indep_satt {S A B} rel (m : S -> S * outcome A) (f : A + gerr -> S -> S * outcome B) : indep rel m -> (forall a, indep rel (f a)) -> indep rel (satt m f).
Proof.
  intros Hm Hf s s' H. unfold satt. destruct (Hm _ _ H) as [H1 H2]. destruct (m s) as [s1 o1], (m s') as [s2 o2]. cbn [fst snd] in *. subst o2. destruct o1; [by apply Hf|by apply Hf|done].
Qed.
Lemma indep_lift {A} (m : IO A) : indep io_sim m -> indep sim (lift m).
Proof.
  intros Hm [t i] [t' i'] [H1 H2]. cbn [w_trusted w_io] in *. subst t'. unfold lift. cbn [w_io]. destruct (Hm _ _ H2) as [H3 H4]. destruct (m i), (m i'). cbn [fst snd w_trusted w_io] in *. done.
Qed.
Lemma indep_on_trusted {A} (f : trusted -> upd A) : indep sim (on_trusted f).
Proof. intros [t i] [t' i'] [H1 H2]. cbn [w_trusted w_io] in *. subst t'. unfold on_trusted. cbn [w_trusted w_io]. destruct (f t). done. Qed.
Lemma indep_get {A} (f : trusted -> world -> world * outcome A) : (forall t, indep sim (f t)) -> indep sim (sbind get_trusted f).
Proof. intros Hf w w' H. unfold sbind, get_trusted. cbn. destruct H as [H1 H2]. rewrite H1. by apply Hf. Qed.
Lemma indep_read role : R role -> indep io_sim (load_local E c role).
Proof.
  intros Hr i i' [H1 H2]. unfold load_local, read_file. rewrite H1, (H2 _ Hr). split; [|done]. split; cbn; [by rewrite H1|exact H2].
Qed.
Lemma indep_fetch u n : indep io_sim (fetch E u n).
Proof. intros i i' [H1 H2]. unfold fetch. cbn. rewrite H1. split; [split; [cbn; by rewrite H1|exact H2]|done]. Qed.
Lemma indep_iterate {A} (m : gomap A) : indep io_sim (iterate E m).
Proof. intros i i' [H1 H2]. unfold iterate. cbn. rewrite H1. split; [split; [cbn; by rewrite H1|exact H2]|done]. Qed.
Lemma indep_persist role data : indep io_sim (persist_metadata E c role data).
Proof. unfold persist_metadata. rewrite Hoff. apply indep_sret. Qed.
Lemma indep_upd_snapshot data flag : indep sim (upd_snapshot E data flag).
Proof.
  intros [t i] [t' i'] [H1 [H2 H3]]. cbn [w_trusted w_io] in *. subst t'. unfold upd_snapshot, on_trusted. cbn [w_trusted w_io]. rewrite H2. destruct (update_snapshot _ t data flag). split; [|done]. split; [done|]. split; [cbn; by rewrite H2|exact H3].
Qed.
Create HintDb ind.
Hint Resolve indep_sret indep_sout indep_lift indep_on_trusted indep_read indep_fetch indep_iterate indep_persist indep_upd_snapshot : ind.
Ltac ind := repeat first [ progress eauto with ind | apply indep_get; intros | apply indep_sbind; [|intros] | apply indep_satt; [|intros]
  | match goal with |- indep _ (match ?x with _ => _ end) => destruct x end ].
Lemma indep_root_loop fuel : forall next, indep sim (root_loop E c fuel next).
Proof.
  induction fuel as [|fuel IH]; intros next; cbn [root_loop]; [apply indep_sret|]. unfold download_metadata. ind.
Qed.
Lemma indep_load_root : indep sim (load_root E c).
Proof. intros w w' H. unfold load_root. destruct H as [H1 H2]. rewrite H1. by apply indep_root_loop. Qed.
Lemma indep_load_timestamp : R "timestamp" -> indep sim (load_timestamp E c).
Proof. intros HR. unfold load_timestamp, download_metadata, TIMESTAMP. ind. Qed.
Lemma indep_load_snapshot : R "snapshot" -> indep sim (load_snapshot E c).
Proof. intros HR. unfold load_snapshot, download_metadata, SNAPSHOT. cbv zeta. ind. Qed.
Lemma indep_load_targets role parent : R role -> indep sim (load_targets E c role parent).
Proof. intros HR. unfold load_targets, download_metadata. cbv zeta. ind. Qed.
Lemma indep_refresh : R "timestamp" -> R "snapshot" -> R "targets" -> indep sim (refresh E c).
Proof.
  intros H1 H2 H3. unfold refresh. destruct (c_unsafe_local c).
  - unfold unsafe_refresh, TIMESTAMP, SNAPSHOT, TARGETS. ind.
  - unfold online_refresh. pose proof indep_load_root. pose proof (indep_load_timestamp H1). pose proof (indep_load_snapshot H2). pose proof (indep_load_targets TARGETS ROOT H3). ind.
Qed.
Lemma indep_walk fuel target : (forall role, R role) -> forall visited todo, indep sim (walk E c fuel target visited todo).
Proof.
  intros HR. induction fuel as [|fuel IH]; intros visited todo; cbn [walk]; [apply indep_sout|]. destruct (skip_visited visited todo) as [|[role parent] rest]; [apply indep_sout|].
  apply indep_sbind; [by apply indep_load_targets|]. intros m. destruct (mget (tg_targets (md_signed m)) target); [apply indep_sret|]. cbv zeta. destruct (tg_delegations (md_signed m)); [|done].
  ind.
Qed.
Lemma indep_get_target_info target : (forall role, R role) -> indep sim (get_target_info E c target).
Proof.
  intros HR. unfold get_target_info. apply indep_get. intros t. apply indep_sbind; [|intros; unfold pre_order_walk; by apply indep_walk]. destruct (t_targets t !! TARGETS); [apply indep_sret|]. by apply indep_refresh.
Qed.
Lemma indep_download tf p u : indep sim (download_target E c tf p u).
Proof. unfold download_target. rewrite Hoff. ind. Qed.
End Indep.
