(** * Everything the updater hands to the trusted set has been downloaded or read from the cache before *)
From stdpp Require Import base gmap strings list.
From Coq Require Import ZArith Lia String.
From Verif Require Import GoBase GoStr GoTime Types Marshal Keys Metadata TrustedMetadata Fetcher Updater SpecSig SpecBasic SpecTrusted SpecUpdater SpecResilience TrustedProofs UpdaterProofs.
Open Scope Z_scope.

Section Fed.
Context {CR : Crypto} (E : env) (c : config).

Definition grows (i i' : ios) : Prop := exists evs, io_trace i' = io_trace i ++ evs.
Definition fed (w w' : world) : Prop := grows (w_io w) (w_io w') /\ calls_on (received (io_trace (w_io w'))) (w_trusted w) (w_trusted w').
Lemma grows_refl i : grows i i. Proof. exists []. by rewrite app_nil_r. Qed.
Lemma grows_trans i1 i2 i3 : grows i1 i2 -> grows i2 i3 -> grows i1 i3.
Proof. intros [e1 H1] [e2 H2]. exists (e1 ++ e2). by rewrite H2, H1, app_assoc. Qed.
Lemma grows_log d i e : grows i (log d i e). Proof. by exists [e]. Qed.
Lemma received_mono i i' data : grows i i' -> received (io_trace i) data -> received (io_trace i') data.
Proof. intros [evs ->] [(u & l & H)|(p & H)]; [left; exists u, l|right; exists p]; set_solver. Qed.
Lemma calls_on_mono (P Q : string -> Prop) t t' : (forall d, P d -> Q d) -> calls_on P t t' -> calls_on Q t t'.
Proof. intros H Hc. induction Hc; [constructor|econstructor; eauto]. Qed.
Lemma calls_on_trans P t1 t2 t3 : calls_on P t1 t2 -> calls_on P t2 t3 -> calls_on P t1 t3.
Proof. intros H1 H2. induction H2; [done|econstructor; eauto]. Qed.
Lemma fed_refl w : fed w w. Proof. split; [apply grows_refl|constructor]. Qed.
Lemma fed_trans w1 w2 w3 : fed w1 w2 -> fed w2 w3 -> fed w1 w3.
Proof.
  intros [G1 C1] [G2 C2]. split; [by eapply grows_trans|]. eapply calls_on_trans; [|exact C2]. eapply calls_on_mono; [|exact C1].
  intros d. by apply received_mono.
Qed.

(** triples: [m], started where [P] holds, only feeds received data; its result satisfies [Q] *)
Definition tr {A} (P : world -> Prop) (m : M A) (Q : A -> world -> Prop) : Prop :=
  forall w w' o, P w -> m w = (w', o) -> fed w w' /\ forall a, o = Ok a -> Q a w'.
Definition any {A} : A -> world -> Prop := fun _ _ => True.
Definition got : string -> world -> Prop := fun data w => received (io_trace (w_io w)) data.
Lemma tr_bind {A B} P (m : M A) Q (f : A -> M B) Q' : tr P m Q -> (forall a, tr (Q a) (f a) Q') -> tr P (sbind m f) Q'.
Proof.
  intros Hm Hf w w' o HP H. unfold sbind in H. destruct (m w) as [w1 o1] eqn:E1. destruct (Hm _ _ _ HP E1) as [F1 HQ]. destruct o1 as [a|e|].
  - destruct (Hf a _ _ _ (HQ a eq_refl) H) as [F2 HQ']. split; [by eapply fed_trans|done].
  - inversion H; subst. by split.
  - inversion H; subst. by split.
Qed.
Lemma tr_try {A B} P (m : M A) Q (f : A + gerr -> M B) Q' : tr P m Q -> (forall a, tr (Q a) (f (inl a)) Q') -> (forall e, tr (fun _ => True) (f (inr e)) Q') -> tr P (satt m f) Q'.
Proof.
  intros Hm Hf He w w' o HP H. unfold satt in H. destruct (m w) as [w1 o1] eqn:E1. destruct (Hm _ _ _ HP E1) as [F1 HQ]. destruct o1 as [a|e|].
  - destruct (Hf a _ _ _ (HQ a eq_refl) H) as [F2 HQ']. split; [by eapply fed_trans|done].
  - destruct (He e _ _ _ I H) as [F2 HQ']. split; [by eapply fed_trans|done].
  - inversion H; subst. by split.
Qed.
Lemma tr_ret {A} P (a : A) : tr P (sret a) any.
Proof. intros w w' o _ H. inversion H; subst. split; [apply fed_refl|done]. Qed.
Lemma tr_out {A} P (o : outcome A) : tr P (sout o) any.
Proof. intros w w' o' _ H. inversion H; subst. split; [apply fed_refl|done]. Qed.
Lemma tr_get P : tr P get_trusted any.
Proof. intros w w' o _ H. inversion H; subst. split; [apply fed_refl|done]. Qed.
Lemma tr_any {A} (P P' : world -> Prop) (m : M A) Q : (forall w, P w -> P' w) -> tr P' m Q -> tr P m Q.
Proof. intros H Hm w w' o HP. apply Hm. by apply H. Qed.
Lemma tr_post {A} (P : world -> Prop) (m : M A) Q : tr P m Q -> tr P m any.
Proof. intros Hm w w' o HP Hr. destruct (Hm _ _ _ HP Hr) as [F _]. by split. Qed.

(** file operations and downloads *)
Definition quiet {A} (m : IO A) : Prop := forall i i' o, m i = (i', o) -> grows i i'.
Lemma quiet_lift {A} (m : IO A) P : quiet m -> tr P (lift m) any.
Proof. intros Hq w w' o _ [H Ht]%lift_inv. split; [|done]. split; [by eapply Hq|]. rewrite Ht. constructor. Qed.
Lemma quiet_bind {A B} (m : IO A) (f : A -> IO B) : quiet m -> (forall a, quiet (f a)) -> quiet (sbind m f).
Proof.
  intros Hm Hf i i' o H. unfold sbind in H. destruct (m i) as [i1 o1] eqn:E1. apply Hm in E1. destruct o1 as [a|e|]; [|by inversion H; subst..].
  apply Hf in H. by eapply grows_trans.
Qed.
Lemma quiet_try {A B} (m : IO A) (f : A + gerr -> IO B) : quiet m -> (forall a, quiet (f a)) -> quiet (satt m f).
Proof.
  intros Hm Hf i i' o H. unfold satt in H. destruct (m i) as [i1 o1] eqn:E1. apply Hm in E1. destruct o1 as [a|e|]; [| |by inversion H; subst].
  all: apply Hf in H; by eapply grows_trans.
Qed.
Lemma quiet_out {A} (o : outcome A) : quiet (sout o). Proof. intros i i' o' H. inversion H; subst. apply grows_refl. Qed.
Lemma quiet_ret {A} (a : A) : quiet (sret a). Proof. intros i i' o' H. inversion H; subst. apply grows_refl. Qed.
Ltac quiet_op := intros i i' o H; inversion H; subst; repeat case_match; simplify_eq; apply grows_log.
Lemma quiet_create d : quiet (create_temp E d).
Proof. intros i i' o H. unfold create_temp in H. case_match; inversion H; subst; apply grows_log. Qed.
Lemma quiet_write p data : quiet (write_file E p data).
Proof. intros i i' o H. unfold write_file in H. repeat case_match; inversion H; subst; apply grows_log. Qed.
Lemma quiet_rename a b : quiet (rename E a b).
Proof. intros i i' o H. unfold rename in H. repeat case_match; inversion H; subst; apply grows_log. Qed.
Lemma quiet_remove a : quiet (remove E a).
Proof. intros i i' o H. unfold remove in H. repeat case_match; inversion H; subst; apply grows_log. Qed.
Lemma quiet_read p : quiet (read_file E p).
Proof. intros i i' o H. unfold read_file in H. inversion H; subst. apply grows_log. Qed.
Lemma quiet_fetch u l : quiet (fetch E u l).
Proof. intros i i' o H. unfold fetch in H. inversion H; subst. apply grows_log. Qed.
Lemma quiet_iterate {A} (m : gomap A) : quiet (iterate E m).
Proof. intros i i' o H. unfold iterate in H. inversion H; subst. apply grows_log. Qed.
Lemma quiet_persist role data : quiet (persist_metadata E c role data).
Proof.
  unfold persist_metadata. destruct (c_disable_cache c); [apply quiet_ret|]. apply quiet_bind; [apply quiet_out|]. intros cwd. apply quiet_bind; [apply quiet_create|]. intros tmp.
  apply quiet_try; [apply quiet_write|]. intros [u|e]; [apply quiet_rename|]. apply quiet_try; [apply quiet_remove|]. intros _. apply quiet_out.
Qed.
Lemma tr_load P role : tr P (lift (load_local E c role)) got.
Proof.
  intros w w' o _ [H Ht]%lift_inv. unfold load_local, read_file in H. inversion H; subst. split; [split|].
  - rewrite <-H1. apply grows_log.
  - rewrite Ht. constructor.
  - intros data Hd. right. exists (local_name c role). rewrite <-H1. cbn. rewrite Hd. set_solver.
Qed.
Lemma tr_download P role len v : tr P (lift (download_metadata E c role len v)) got.
Proof.
  intros w w' o _ [H Ht]%lift_inv. unfold download_metadata, fetch in H. inversion H; subst. split; [split|].
  - rewrite <-H1. apply grows_log.
  - rewrite Ht. constructor.
  - intros data Hd. left. exists (metadata_url c role v), len. rewrite <-H1. cbn. rewrite Hd. set_solver.
Qed.

(** calls of the trusted set *)
Lemma tr_call {A} (f : trusted -> upd A) cl : (forall t, perform t cl = (let '(t', o) := f t in (t', omap_ (fun _ => tt) o))) -> proper_call cl -> tr (got (call_data cl)) (on_trusted f) any.
Proof.
  intros Hp Hpr w w' o Hg [H Hi]%on_trusted_inv. split; [|done]. split; [rewrite Hi; apply grows_refl|]. rewrite Hi.
  assert (w_trusted w' = fst (perform (w_trusted w) cl)) as ->. { by rewrite Hp, H. }
  econstructor; [constructor|done|exact Hg].
Qed.
Lemma tr_root data : tr (got data) (on_trusted (fun t => update_root t data)) any.
Proof. by apply (tr_call _ (UpdateRoot data)). Qed.
Lemma tr_timestamp data : tr (got data) (on_trusted (fun t => update_timestamp t data)) any.
Proof. by apply (tr_call _ (UpdateTimestamp data)). Qed.
Lemma tr_targets data role parent : tr (got data) (on_trusted (fun t => update_delegated_targets t data role parent)) any.
Proof. by apply (tr_call _ (UpdateDelegated data role parent)). Qed.
Lemma tr_snapshot data flag : tr (got data) (upd_snapshot E data flag) any.
Proof.
  intros w w' o Hg H. unfold upd_snapshot in H. set (w1 := mkWorld _ _) in H.
  assert (fed w w1) as F1. { split; [apply grows_log|constructor]. }
  assert (got data w1) as Hg1. { by eapply received_mono; [apply F1|]. }
  assert (proper_call (UpdateSnapshot (e_order E (option metafile) (io_trace (w_io w))) data flag)) as Hpr. { intros l. apply e_order_perm. }
  destruct (tr_call (fun t => update_snapshot (e_order E (option metafile) (io_trace (w_io w))) t data flag) (UpdateSnapshot (e_order E (option metafile) (io_trace (w_io w))) data flag) (fun t => eq_refl) Hpr w1 w' o Hg1 H) as [F2 _].
  split; [by eapply fed_trans|done].
Qed.

Lemma tr_root_loop fuel next : tr (fun _ => True) (root_loop E c fuel next) any.
Proof.
  revert next. induction fuel as [|fuel IH]; intros next; cbn [root_loop]; [apply tr_ret|]. apply (tr_try _ _ got); [apply tr_download| |].
  - intros data. apply (tr_bind _ _ any); [apply tr_root|]. intros r. apply (tr_bind _ _ any); [apply quiet_lift, quiet_persist|]. intros u. by eapply tr_any; [|apply IH].
  - intros e. repeat case_match; first [apply tr_ret|apply tr_out].
Qed.
Lemma tr_load_root : tr (fun _ => True) (load_root E c) any.
Proof. intros w w' o HP H. unfold load_root in H. by apply (tr_root_loop _ _ _ _ _ I H). Qed.
Lemma tr_load_timestamp : tr (fun _ => True) (load_timestamp E c) any.
Proof.
  unfold load_timestamp. apply (tr_try _ _ got); [apply tr_load| |].
  all: intros x; apply (tr_bind _ _ any); [|intros u; apply (tr_bind _ _ got); [apply tr_download|]; intros data; apply (tr_try _ _ any); [apply tr_timestamp|intros ts; apply quiet_lift, quiet_persist|intros e; case_match; first [apply tr_ret|apply tr_out]]].
  - apply (tr_try _ _ any); [apply tr_timestamp|intros ts; apply tr_ret|intros e; case_match; first [apply tr_ret|apply tr_out]].
  - apply tr_ret.
Qed.
Lemma tr_load_snapshot : tr (fun _ => True) (load_snapshot E c) any.
Proof.
  unfold load_snapshot. apply (tr_try _ _ got); [apply tr_load| |].
  all: intros x; apply (tr_bind _ _ any).
  2,4: intros [|]; [apply tr_ret|]; apply (tr_bind _ _ any); [apply tr_get|]; intros t; destruct (t_timestamp t) as [ts|]; [|apply tr_out]; destruct (snapshot_meta ts) as [f|]; [|apply tr_out];
    apply (tr_bind _ _ got); [apply tr_download|]; intros data; apply (tr_bind _ _ any); [apply tr_snapshot|]; intros sn; apply quiet_lift, quiet_persist.
  - apply (tr_try _ _ any); [apply tr_snapshot|intros ts; apply tr_ret|intros e; case_match; first [apply tr_ret|apply tr_out]].
  - apply tr_ret.
Qed.
Lemma tr_load_targets role parent : tr (fun _ => True) (load_targets E c role parent) any.
Proof.
  unfold load_targets. apply (tr_bind _ _ any); [apply tr_get|]. intros t. destruct (t_targets t !! role) as [m|]; [apply tr_ret|].
  apply (tr_try _ _ got); [apply tr_load| |].
  all: intros x; apply (tr_bind _ _ any).
  2,4: intros [m|]; [apply tr_ret|]; apply (tr_bind _ _ any); [apply tr_get|]; intros t'; destruct (t_snapshot t') as [sn|]; [|apply tr_out]; destruct (mget _ _) as [[f|]|]; [|apply tr_out..];
    apply (tr_bind _ _ got); [apply tr_download|]; intros data; apply (tr_bind _ _ any); [apply tr_targets|]; intros m; apply (tr_bind _ _ any); [apply quiet_lift, quiet_persist|]; intros u; apply tr_ret.
  - apply (tr_try _ _ any); [apply tr_targets|intros ts; apply tr_ret|intros e; case_match; first [apply tr_ret|apply tr_out]].
  - apply tr_ret.
Qed.
Lemma tr_refresh : tr (fun _ => True) (refresh E c) any.
Proof.
  unfold refresh. destruct (c_unsafe_local c).
  - unfold unsafe_refresh. apply (tr_bind _ _ got); [apply tr_load|]. intros d1. apply (tr_bind _ _ any); [apply tr_timestamp|]. intros ?.
    apply (tr_bind _ _ got); [apply tr_load|]. intros d2. apply (tr_bind _ _ any); [apply tr_snapshot|]. intros ?.
    apply (tr_bind _ _ got); [apply tr_load|]. intros d3. apply (tr_bind _ _ any); [apply tr_targets|]. intros ?. apply tr_ret.
  - unfold online_refresh. apply (tr_bind _ _ any); [apply tr_load_root|]. intros ?. apply (tr_bind _ _ any); [eapply tr_any; [|apply tr_load_timestamp]; done|]. intros ?.
    apply (tr_bind _ _ any); [eapply tr_any; [|apply tr_load_snapshot]; done|]. intros ?. apply (tr_bind _ _ any); [eapply tr_any; [|apply tr_load_targets]; done|]. intros ?. apply tr_ret.
Qed.
Lemma tr_walk fuel target visited todo : tr (fun _ => True) (walk E c fuel target visited todo) any.
Proof.
  revert visited todo. induction fuel as [|fuel IH]; intros visited todo; cbn [walk]; [apply tr_out|]. destruct (skip_visited visited todo) as [|[role parent] rest]; [apply tr_out|].
  apply (tr_bind _ _ any); [apply tr_load_targets|]. intros m. destruct (mget _ _) as [tf|]; [apply tr_ret|]. destruct (tg_delegations (md_signed m)) as [d|]; [|eapply tr_any; [|apply IH]; done].
  apply (tr_bind _ _ any); [apply tr_out|]. intros roles. apply (tr_bind _ _ any); [apply quiet_lift, quiet_iterate|]. intros order. destruct (take_children order) as [ch term].
  eapply tr_any; [|apply IH]; done.
Qed.
Lemma tr_info target : tr (fun _ => True) (get_target_info E c target) any.
Proof.
  unfold get_target_info. apply (tr_bind _ _ any); [apply tr_get|]. intros t. apply (tr_bind _ _ any).
  - destruct (t_targets t !! TARGETS); [apply tr_ret|]. eapply tr_any; [|apply tr_refresh]; done.
  - intros ?. unfold pre_order_walk. eapply tr_any; [|apply tr_walk]; done.
Qed.
Lemma tr_download_target tf p u : tr (fun _ => True) (download_target E c tf p u) any.
Proof.
  unfold download_target. apply (tr_bind _ _ any); [apply tr_out|]. intros fp. apply (tr_bind _ _ any); [apply tr_out|]. intros bu. apply (tr_bind _ _ any); [apply tr_get|]. intros t.
  apply (tr_bind _ _ any). { destruct (_ && _); [|apply tr_ret]. apply (tr_bind _ _ any); [apply quiet_lift, quiet_iterate|]. intros hs. apply tr_ret. } intros path.
  apply (tr_bind _ _ any); [apply quiet_lift, quiet_fetch|]. intros data. apply (tr_bind _ _ any); [apply tr_out|]. intros ?. apply (tr_bind _ _ any).
  { destruct (c_disable_cache c); [apply tr_ret|apply quiet_lift, quiet_write]. } intros ?. apply tr_ret.
Qed.
Lemma quiet_find tf p : quiet (find_cached_target E c tf p).
Proof.
  unfold find_cached_target. destruct (c_disable_cache c); [apply quiet_ret|]. apply quiet_bind; [apply quiet_out|]. intros q. apply quiet_try; [apply quiet_read|].
  intros [data|e]; [|apply quiet_ret]. repeat case_match; first [apply quiet_ret|apply quiet_out].
Qed.
Lemma api_fed a w w' o : call_api E c a w = (w', o) -> fed w w'.
Proof.
  destruct a as [|p|tf p u|tf p]; unfold call_api.
  - intros H. by apply (tr_refresh _ _ _ I H).
  - destruct (get_target_info E c p w) as [w1 o1] eqn:H1. intros H. inversion H; subst. by apply (tr_info _ _ _ _ I H1).
  - destruct (download_target E c tf p u w) as [w1 o1] eqn:H1. intros H. inversion H; subst. by apply (tr_download_target _ _ _ _ _ _ I H1).
  - destruct (lift (find_cached_target E c tf p) w) as [w1 o1] eqn:H1. intros H. inversion H; subst. by apply (quiet_lift _ (fun _ => True) (quiet_find tf p) _ _ _ I H1).
Qed.
End Fed.
