(** * Proofs about clients of a repository that publishes meanwhile *)
From stdpp Require Import base gmap strings list.
From Coq Require Import ZArith Lia Ascii String.
From Verif Require Import GoBase GoStr GoTime Types Marshal Keys Metadata TrustedMetadata Fetcher Updater SpecBasic SpecSig SpecDeleg SpecTrusted SpecUpdater SpecReach SpecLive.
From Verif Require Import BasicProofs TrustedProofs UpdaterProofs WalkProofs RefreshProofs HonestProofs ReachProofs.
Open Scope Z_scope.

Lemma later_refl tr : later tr tr.
Proof. exists []. by rewrite app_nil_r. Qed.
Lemma later_trans t1 t2 t3 : later t1 t2 -> later t2 t3 -> later t1 t3.
Proof. intros [l ->] [k ->]. exists (app l k). by rewrite app_assoc. Qed.
Lemma later_app tr evs : later tr (app tr evs).
Proof. by exists evs. Qed.
(** ** The environment from some moment on *)
(** [moved tr E] answers at any time as [E] does at [tr] or later, and at [tr] or later exactly as [E] does *)
Definition moved (tr0 : trace) (E : env) : env :=
  mkEnv (fun tr => e_net E (app tr0 (skipn (List.length tr0) tr))) (e_io E) (e_partial E) (e_cwd E) (e_rand E) (e_url_join E) (e_order E) (e_order_perm E).
Lemma moved_net tr0 E tr : later tr0 tr -> e_net (moved tr0 E) tr = e_net E tr.
Proof. intros [l ->]. cbn. by rewrite skipn_app, skipn_all, Nat.sub_diag. Qed.
Lemma moved_serves tr0 E url data : serves_from E tr0 url data -> serves (moved tr0 E) url data.
Proof. intros H tr len Hl. cbn. apply H; [apply later_app|done]. Qed.

Section Agree.
Context {CR : Crypto} (E : env) (c : config) (tr0 : trace).
Notation E' := (moved tr0 E).
Definition when {S A} (tr : S -> trace) (m m' : S -> S * outcome A) : Prop :=
  forall s, later tr0 (tr s) -> m s = m' s /\ later tr0 (tr (fst (m s))).
Definition wtr (w : world) : trace := io_trace (w_io w).
Lemma when_ret {S A} (tr : S -> trace) (o : outcome A) : when tr (sout o) (sout o).
Proof. by intros s H. Qed.
Lemma when_sret {S A} (tr : S -> trace) (a : A) : when tr (sret a) (sret a).
Proof. by intros s H. Qed.
Lemma when_bind {S A B} (tr : S -> trace) (m m' : S -> S * outcome A) (f f' : A -> S -> S * outcome B) : when tr m m' -> (forall a, when tr (f a) (f' a)) -> when tr (sbind m f) (sbind m' f').
Proof. intros Hm Hf s Hs. unfold sbind. destruct (Hm s Hs) as [<- Hl]. destruct (m s) as [s1 [a|e|]]; [by apply Hf|done..]. Qed.
Lemma when_try {S A B} (tr : S -> trace) (m m' : S -> S * outcome A) (f f' : A + gerr -> S -> S * outcome B) : when tr m m' -> (forall a, when tr (f a) (f' a)) -> when tr (satt m f) (satt m' f').
Proof. intros Hm Hf s Hs. unfold satt. destruct (Hm s Hs) as [<- Hl]. destruct (m s) as [s1 [a|e|]]; [by apply Hf..|done]. Qed.
Lemma when_lift {A} (m m' : IO A) : when io_trace m m' -> when wtr (lift m) (lift m').
Proof. intros H w Hw. unfold lift. destruct (H (w_io w) Hw) as [<- Hl]. by destruct (m (w_io w)) as [i o]. Qed.
Lemma when_trusted {A} (f : trusted -> upd A) : when wtr (on_trusted f) (on_trusted f).
Proof. intros w Hw. unfold on_trusted. by destruct (f (w_trusted w)) as [t o]. Qed.
Lemma when_get : when wtr get_trusted get_trusted.
Proof. by intros w Hw. Qed.
Lemma later_log d i e : later tr0 (io_trace i) -> later tr0 (io_trace (log d i e)).
Proof. intros H. eapply later_trans; [exact H|apply later_app]. Qed.
Lemma when_fetch url len : when io_trace (fetch E url len) (fetch E' url len).
Proof. intros i Hi. unfold fetch. rewrite moved_net by done. split; [done|]. by apply later_log. Qed.
Lemma when_read p : when io_trace (read_file E p) (read_file E' p).
Proof. intros i Hi. split; [done|]. by apply later_log. Qed.
Lemma when_iterate {A} (m : gomap A) : when io_trace (iterate E m) (iterate E' m).
Proof. intros i Hi. split; [done|]. by apply later_log. Qed.
Lemma when_write p data : when io_trace (write_file E p data) (write_file E' p data).
Proof. intros i Hi. split; [done|]. unfold write_file. destruct (e_io E (io_trace i)); [by apply later_log|]. destruct (e_partial E (io_trace i)); by apply later_log. Qed.
Lemma when_persist role data : when io_trace (persist_metadata E c role data) (persist_metadata E' c role data).
Proof.
  intros i Hi. split; [done|]. assert (when io_trace (persist_metadata E c role data) (persist_metadata E c role data)) as H; [|by apply H].
  unfold persist_metadata. destruct (c_disable_cache c); [apply when_sret|]. apply when_bind; [apply when_ret|]. intros cwd. apply when_bind.
  { intros j Hj. split; [done|]. unfold create_temp. cbv zeta. destruct (_ && _); by apply later_log. }
  intros tmp. apply when_try.
  { intros j Hj. split; [done|]. by apply when_write. }
  intros [u|e].
  - intros j Hj. split; [done|]. unfold rename. destruct (io_disk j !! tmp); [|by apply later_log]. destruct (e_io E (io_trace j)); by apply later_log.
  - apply when_try; [|intros ?; apply when_ret]. intros j Hj. split; [done|]. unfold remove. destruct (e_io E (io_trace j)); by apply later_log.
Qed.
Lemma when_upd_snapshot data flag : when wtr (upd_snapshot E data flag) (upd_snapshot E' data flag).
Proof.
  intros w Hw. split; [done|]. unfold upd_snapshot, on_trusted. cbn [w_trusted w_io]. destruct (update_snapshot _ _ _ _) as [t o]. cbn [fst]. unfold wtr. cbn [w_io]. by apply later_log.
Qed.
Ltac agree :=
  repeat match goal with
  | |- when _ (sbind _ _) (sbind _ _) => apply when_bind; [|intros ?]
  | |- when _ (satt _ _) (satt _ _) => apply when_try; [|intros ?]
  | |- when _ (sret _) (sret _) => apply when_sret
  | |- when _ (sout _) (sout _) => apply when_ret
  | |- when _ get_trusted get_trusted => apply when_get
  | |- when _ (lift _) (lift _) => apply when_lift
  | |- when _ (on_trusted _) (on_trusted _) => apply when_trusted
  | |- when _ (read_file _ _) _ => apply when_read
  | |- when _ (load_local _ _ _) _ => apply when_read
  | |- when _ (fetch _ _ _) _ => apply when_fetch
  | |- when _ (download_metadata _ _ _ _ _) _ => apply when_fetch
  | |- when _ (persist_metadata _ _ _ _) _ => apply when_persist
  | |- when _ (write_file _ _ _) _ => apply when_write
  | |- when _ (iterate _ _) _ => apply when_iterate
  | |- when _ (upd_snapshot _ _ _) _ => apply when_upd_snapshot
  | |- when _ (match ?x with _ => _ end) _ => destruct x
  end.
Lemma when_snapshot : when wtr (load_snapshot E c) (load_snapshot E' c).
Proof. unfold load_snapshot. agree. Qed.
Lemma when_targets role parent : when wtr (load_targets E c role parent) (load_targets E' c role parent).
Proof. unfold load_targets. agree. Qed.
Lemma when_walk fuel target : forall visited todo, when wtr (walk E c fuel target visited todo) (walk E' c fuel target visited todo).
Proof.
  induction fuel as [|fuel IH]; intros visited todo; cbn [walk]; [apply when_ret|]. destruct (skip_visited visited todo) as [|[role parent] rest]; [apply when_ret|].
  apply when_bind; [apply when_targets|]. intros m. destruct (mget (tg_targets (md_signed m)) target); [apply when_sret|]. destruct (tg_delegations (md_signed m)) as [d|]; [|apply IH].
  apply when_bind; [apply when_ret|]. intros roles. apply when_bind; [apply when_lift, when_iterate|]. intros order. destruct (take_children order) as [children term]. apply IH.
Qed.
Lemma when_root_loop fuel : forall next, when wtr (root_loop E c fuel next) (root_loop E' c fuel next).
Proof. induction fuel as [|fuel IH]; intros next; cbn [root_loop]; agree. apply IH. Qed.
Lemma when_timestamp : when wtr (load_timestamp E c) (load_timestamp E' c).
Proof. unfold load_timestamp. agree. Qed.
Lemma when_refresh : when wtr (refresh E c) (refresh E' c).
Proof.
  unfold refresh. destruct (c_unsafe_local c); [unfold unsafe_refresh; agree|]. unfold online_refresh. apply when_bind; [intros w Hw; by apply when_root_loop|]. intros _.
  apply when_bind; [apply when_timestamp|]. intros _. apply when_bind; [apply when_snapshot|]. intros _. apply when_bind; [apply when_targets|]. intros _. apply when_sret.
Qed.
Lemma when_info path : when wtr (get_target_info E c path) (get_target_info E' c path).
Proof.
  unfold get_target_info. apply when_bind; [apply when_get|]. intros t. apply when_bind; [destruct (t_targets t !! TARGETS); [apply when_sret|apply when_refresh]|]. intros _. apply when_walk.
Qed.
Lemma when_download tf fp u : when wtr (download_target E c tf fp u) (download_target E' c tf fp u).
Proof. unfold download_target. agree. Qed.
Lemma when_mkdir p : when io_trace (mkdir_all E p) (mkdir_all E' p).
Proof. intros i Hi. split; [done|]. by apply later_log. Qed.
Lemma when_new now : when io_trace (updater_new E c now) (updater_new E' c now).
Proof.
  unfold updater_new. destruct (_ || _); [apply when_ret|]. apply when_bind; [apply when_ret|]. intros t. apply when_bind.
  { unfold ensure_paths. destruct (c_disable_cache c); [apply when_sret|]. apply when_bind; [apply when_mkdir|]. intros _. apply when_mkdir. }
  intros _. apply when_bind; [apply when_persist|]. intros _. apply when_sret.
Qed.
Lemma when_asked paths w w' : asked E c paths w w' -> later tr0 (wtr w) -> asked E' c paths w w' /\ later tr0 (wtr w').
Proof.
  induction 1 as [|path paths w w1 w2 o Hg H IH]; intros Hw; [split; [constructor|done]|]. destruct (when_info path w Hw) as [Hq Hl]. rewrite Hg in Hq, Hl. destruct (IH Hl) as [H1 H2].
  split; [|done]. eapply asked_one; [by symmetry|done].
Qed.
End Agree.

(** ** The timestamp *)
(** the answers of one moment at all times *)
Definition pinned (tr0 : trace) (E : env) : env :=
  mkEnv (fun _ => e_net E tr0) (e_io E) (e_partial E) (e_cwd E) (e_rand E) (e_url_join E) (e_order E) (e_order_perm E).
Section Live.
Context {CR : Crypto} (E : env) (c : config).
(** the moment at which the timestamp is requested *)
Definition asks_timestamp (w : world) : trace := io_trace (fst (load_local E c TIMESTAMP (w_io w))).
Definition ts_head (l : string + gerr) : M unit :=
  match l with
  | inr _ => sret tt
  | inl data =>
      try r := on_trusted (fun t => update_timestamp t data) in
      match r with
      | inl _ => sret tt
      | inr e => if errors_is e (ErrRepository "") then sret tt else sout (Err e)
      end
  end.
Lemma ts_head_trace l w : wtr (fst (ts_head l w)) = wtr w.
Proof. destruct l as [data|e]; [|done]. cbn [ts_head]. unfold satt, on_trusted. destruct (update_timestamp (w_trusted w) data) as [t [m|e|]]; [done| |done]. by destruct (errors_is e (ErrRepository "")). Qed.
Lemma timestamp_pinned w : load_timestamp (pinned (asks_timestamp w) E) c w = load_timestamp E c w.
Proof.
  set (tr1 := asks_timestamp w).
  assert (forall w', wtr w' = tr1 -> timestamp_tail (pinned tr1 E) c w' = timestamp_tail E c w') as Hk.
  { intros w' Hw'. unfold timestamp_tail, sbind, lift, download_metadata, fetch. unfold wtr in Hw'. rewrite Hw'. reflexivity. }
  change (load_timestamp (pinned tr1 E) c w) with ((try l := lift (load_local E c TIMESTAMP) in do _ := ts_head l in timestamp_tail (pinned tr1 E) c) w).
  change (load_timestamp E c w) with ((try l := lift (load_local E c TIMESTAMP) in do _ := ts_head l in timestamp_tail E c) w).
  assert (forall l w1, wtr w1 = tr1 -> (do _ := ts_head l in timestamp_tail (pinned tr1 E) c) w1 = (do _ := ts_head l in timestamp_tail E c) w1) as Hgo.
  { intros l w1 Hw1. unfold sbind. pose proof (ts_head_trace l w1) as Hh. destruct (ts_head l w1) as [w2 [u|e|]]; [|done..]. apply Hk. cbn [fst] in Hh. by rewrite Hh. }
  unfold satt, lift. assert (io_trace (fst (load_local E c TIMESTAMP (w_io w))) = tr1) as Htr by done.
  destruct (load_local E c TIMESTAMP (w_io w)) as [i [data|e|]]; [by apply Hgo..|done].
Qed.
Lemma timestamp_later w : later (asks_timestamp w) (wtr (fst (load_timestamp E c w))).
Proof.
  set (tr1 := asks_timestamp w). change (load_timestamp E c w) with ((try l := lift (load_local E c TIMESTAMP) in do _ := ts_head l in timestamp_tail E c) w).
  assert (forall l, when tr1 wtr (do _ := ts_head l in timestamp_tail E c) (do _ := ts_head l in timestamp_tail (moved tr1 E) c)) as Hwh.
  { intros l. apply when_bind. { intros w1 Hw1. split; [done|]. by rewrite ts_head_trace. } intros _. unfold timestamp_tail.
    apply when_bind; [apply when_lift, when_fetch|]. intros data. apply when_try; [apply when_trusted|]. intros [m|e]; [apply when_lift, when_persist|]. destruct (errors_is e (ErrEqualVersionNumber "")); [apply when_sret|apply when_ret]. }
  unfold satt, lift. assert (io_trace (fst (load_local E c TIMESTAMP (w_io w))) = tr1) as Htr by done.
  destruct (load_local E c TIMESTAMP (w_io w)) as [i [data|e|]]; cbn [fst] in Htr.
  - apply Hwh. unfold wtr. cbn [w_io]. rewrite Htr. apply later_refl.
  - apply Hwh. unfold wtr. cbn [w_io]. rewrite Htr. apply later_refl.
  - cbn [fst]. unfold wtr. cbn [w_io]. rewrite Htr. apply later_refl.
Qed.

(** ** New and Refresh *)
Context (r0 r : metadata root_t) (now : Z) (Rs : list release).
Lemma serving_roles tr0 R : sound_release c r0 r now R -> stays_up E c r R tr0 -> forall name f, rel_roles R !! name = Some f -> role_name_ok name /\ role_served (moved tr0 E) c r (rel_pub R) now name f.
Proof.
  intros (_ & _ & _ & _ & _ & Hroles & _) (_ & _ & Hup & _) name f Hf. destruct (Hroles _ _ Hf) as (H1 & H2 & H3 & H4 & H5 & H6 & H7 & _). split; [done|]. split_and!; try done. apply moved_serves. by apply Hup.
Qed.
Lemma snapshot_ready R : sound_release c r0 r now R -> snapshot_usable (rel_pub R) now.
Proof. intros ((_ & _ & _ & (H1 & _ & H2) & (_ & _ & H3) & _) & _). done. Qed.
(** after the start, the client is up to date with one release, which stays up *)
Lemma live_started i : publishing E c (io_trace i) r0 r now Rs -> client_ready E c r0 r now Rs i ->
  exists R i' t w1 tr0, R ∈ Rs /\ sound_release c r0 r now R /\ stays_up E c r R tr0 /\ announces E c tr0 R /\ later (io_trace i) tr0 /\ later tr0 (wtr w1) /\
    updater_new E c now i = (i', Ok t) /\ refresh E c (mkWorld t i') = (w1, Ok tt) /\ up_to_date r (rel_pub R) (w_trusted w1) /\ Inv (moved tr0 E) c r (rel_pub R) now (rel_roles R) w1 /\
    exists w2, load_root E c (mkWorld t i') = (w2, Ok tt) /\ tr0 = asks_timestamp w2.
Proof.
  intros (Hroots & Hlive) (Hdoc & Hself & Hu1 & Hu2 & Hw & Hcache).
  destruct (new_honest E c r0 now i) as (i1 & Hn & Hw1 & Hb0); try done.
  assert (later (io_trace i) (io_trace i1)) as Hlt1.
  { destruct (when_new E c (io_trace i) now i (later_refl _)) as [_ Hlt1]. by rewrite Hn in Hlt1. }
  destruct (Hlive _ (later_refl _)) as (R1 & HR1 & ((Hupd1 & _) & Hcf1 & _) & _ & _). destruct (Hroots _ HR1) as [Hup1 Hend].
  set (t0 := mkTrusted r0 None None ∅ now) in *. set (w0 := mkWorld t0 i1).
  (* the root metadata *)
  assert (exists i2, load_root E c w0 = (mkWorld (set_root t0 r) i2, Ok tt) /\ disk_works E c (io_disk i2) /\ same_but c "root" (io_disk i1) (io_disk i2) /\ later (io_trace i) (io_trace i2)) as (i2 & Hrun1 & Hw2 & Hb1 & Hlt2).
  { destruct Hcf1 as (_ & Hrot & Hbound). pose proof (document_range _ _ Hdoc) as Hr. unfold load_root. cbn [w0 w_trusted t0 t_root]. apply in_int64_spec in Hr as Hr'.
    rewrite (wrap64_id (rt_version (md_signed r0) + 1)) by (apply in_int64_spec; lia). rewrite wrap64_id by (apply in_int64_spec; lia).
    set (fuel := Z.to_nat _). destruct (root_loop_honest (moved (io_trace i) E) c (pub_roots (rel_pub R1)) fuel w0 r) as (i2 & Hrun & Hw2 & Hb1); try done; cbn [w0 w_trusted t0 t_root]; [unfold fuel; lia|lia|..].
    - intros j data r1 Hj. destruct (Hup1 j data r1 Hj) as [? ?]. split; [done|]. by apply moved_serves.
    - intros tr len. cbn. apply Hend, later_app.
    - destruct (when_root_loop E c (io_trace i) fuel (rt_version (md_signed r0) + 1) w0 Hlt1) as [Hq Hl]. cbn [w0 w_trusted t0 t_root] in Hrun. fold t0 in Hrun. fold w0 in Hrun. rewrite Hrun in Hq. rewrite Hq in Hl. exists i2. done. }
  set (w2 := mkWorld (set_root t0 r) i2) in *. set (tr0 := asks_timestamp w2).
  assert (later (io_trace i) tr0) as Hlt0 by (eapply later_trans; [exact Hlt2|unfold tr0, asks_timestamp, load_local, read_file; apply later_app]).
  destruct (Hlive tr0 Hlt0) as (R & HR & Hsd & Hup & Hts). pose proof Hsd as (Hh & Hcf & Hlt & Hls & Hlg & _ & _).
  pose proof Hh as (Hu & Hxr & (Hd1 & Hs1 & Hx1) & (Hnm & Hm2 & Hv2) & (Hd2 & Hs2 & Hx2) & (Hl & Hm3 & Hv3) & (Hd3 & Hs3 & Hx3)). destruct (Hcache _ HR) as (Hf1 & Hf2 & Hf3 & Hf4).
  assert (forall role Q, role <> "root" -> file_is c (io_disk i) role Q -> file_is c (io_disk i2) role Q) as Hk1.
  { intros role Q Hne HQ data. rewrite Hb1, Hb0 by done. apply HQ. }
  (* the timestamp *)
  destruct (load_timestamp_honest (pinned tr0 E) c (rel_pub R) w2) as (i3 & Hrun2 & Hw3 & Hb2); cbn [w2 t0 w_trusted w_io set_root t_root t_ref t_timestamp t_snapshot]; try done.
  { intros tr len Hlen. cbn. by apply Hts. }
  { apply Hk1; [done|]. exact Hf1. }
  pose proof (timestamp_pinned w2) as Hpin. fold tr0 in Hpin. rewrite Hpin in Hrun2. cbn [w_io w2] in Hb2.
  assert (later tr0 (io_trace i3)) as Hl3.
  { pose proof (timestamp_later w2) as Hl3. rewrite Hrun2 in Hl3. exact Hl3. }
  set (E' := moved tr0 E). assert (forall role Q, role <> "timestamp" -> file_is c (io_disk i2) role Q -> file_is c (io_disk i3) role Q) as Hk2 by (intros role Q Hne HQ data; rewrite Hb2 by done; apply HQ).
  (* the snapshot and the targets *)
  destruct (load_snapshot_honest E' c (rel_pub R) (mkWorld (set_timestamp (set_root t0 r) (pub_timestamp_md (rel_pub R))) i3)) as (i4 & Hrun3 & Hw4 & Hb3); cbn [t0 w_trusted w_io set_root set_timestamp t_root t_ref t_timestamp t_snapshot t_targets]; try done.
  { split_and!; cbn; try done. apply moved_serves. apply Hup. }
  { apply Hk2, Hk1; [done|done|]. exact Hf2. }
  destruct (when_snapshot E c tr0 (mkWorld (set_timestamp (set_root t0 r) (pub_timestamp_md (rel_pub R))) i3) Hl3) as [Hq3 Hl4]. fold E' in Hq3. rewrite Hrun3 in Hq3. rewrite Hq3 in Hl4. cbn [fst] in Hl4.
  assert (forall role Q, role <> "snapshot" -> file_is c (io_disk i3) role Q -> file_is c (io_disk i4) role Q) as Hk3 by (intros role Q Hne HQ data; rewrite Hb3 by done; apply HQ).
  set (t3 := set_snapshot (set_timestamp (set_root t0 r) (pub_timestamp_md (rel_pub R))) (pub_snapshot_md (rel_pub R))).
  destruct (load_targets_honest E' c (rel_pub R) (mkWorld t3 i4)) as (i5 & Hrun4 & Hw5 & Hb4); cbn [t3 t0 w_trusted w_io set_root set_snapshot set_timestamp t_root t_ref t_timestamp t_snapshot t_targets]; try done.
  { split_and!; cbn; try done. apply moved_serves. apply Hup. }
  { apply Hk3, Hk2, Hk1; [done..|]. exact Hf3. }
  destruct (when_targets E c tr0 TARGETS ROOT (mkWorld t3 i4) Hl4) as [Hq4 Hl5]. fold E' in Hq4. rewrite Hrun4 in Hq4. rewrite Hq4 in Hl5. cbn [fst] in Hl5.
  exists R, i1, t0, (mkWorld (set_targets t3 "targets" (pub_targets_md (rel_pub R))) i5), tr0. do 6 (split; [done|]). split; [exact Hn|]. split.
  { unfold refresh. destruct Hcf as [-> _]. unfold online_refresh. rewrite (sbind_run _ _ _ _ _ Hrun1). rewrite (sbind_run _ _ _ _ _ Hrun2). cbn [w2 w_trusted]. rewrite (sbind_run _ _ _ _ _ Hq3). cbn [w_trusted]. fold t3. by rewrite (sbind_run _ _ _ _ _ Hq4). }
  assert (up_to_date r (rel_pub R) (set_targets t3 "targets" (pub_targets_md (rel_pub R)))) as Hutd by done. split; [exact Hutd|]. split; [|exists w2; split; [exact Hrun1|reflexivity]].
  apply up_to_date_inv; try done. intros name f Hf. assert (role_name_ok name) as [_ Hno] by (apply (serving_roles tr0 R Hsd Hup _ _ Hf)).
  intros data. cbn [w_io]. rewrite Hb4 by (intros ->; apply Hno; set_solver). cbn [w_io]. apply Hk3; [intros ->; apply Hno; set_solver|]. apply Hk2; [intros ->; apply Hno; set_solver|]. apply Hk1; [intros ->; apply Hno; set_solver|]. intros d Hd. by apply Hf4.
Qed.

(** ** Searches and downloads *)
Lemma live_search R tr0 path w w' o : sound_release c r0 r now R -> stays_up E c r R tr0 -> later tr0 (wtr w) -> Inv (moved tr0 E) c r (rel_pub R) now (rel_roles R) w ->
  delegations_follow (all_roles (rel_pub R) (rel_roles R)) path -> get_target_info E c path w = (w', o) ->
  later tr0 (wtr w') /\ Inv (moved tr0 E) c r (rel_pub R) now (rel_roles R) w' /\ exists l v, search (everything r (rel_pub R) (rel_roles R) now) path [] ["targets"] l v /\ v <> Failed /\ (List.length l <= budget c)%nat /\ walked (budget c) l v o.
Proof.
  intros Hsd Hup Hlt HI Hf1 Hinfo. pose proof (serving_roles _ _ Hsd Hup) as Hroles. pose proof (snapshot_ready _ Hsd) as Hsn.
  destruct (info_honest (moved tr0 E) c r (rel_pub R) now (rel_roles R) Hroles Hsn path w Hf1 HI) as (w2 & o2 & l & v & Hg & HI3 & Hrest).
  destruct (when_info E c tr0 path w Hlt) as [Hq Hl2]. rewrite Hinfo in Hq, Hl2. pose proof (eq_trans Hq Hg) as [= -> ->]. split; [done|]. split; [done|]. by exists l, v.
Qed.
Lemma live_download R tr0 w tf data fp p : sound_release c r0 r now R -> stays_up E c r R tr0 -> later tr0 (wtr w) -> Inv (moved tr0 E) c r (rel_pub R) now (rel_roles R) w ->
  c_targets_url c <> "" -> (tf, data) ∈ rel_files R -> file_for E c tf fp p ->
  exists w', download_target E c tf fp "" w = (w', Ok (p, data)) /\ (c_disable_cache c = false -> io_disk (w_io w') !! p = Some data).
Proof.
  intros Hsd Hup Hlt HI Hu Hin Hfile. pose proof Hsd as (_ & _ & _ & _ & _ & _ & Hfiles). destruct (Hfiles _ _ Hin) as (Hm & Hhash & Hslash). pose proof Hup as (_ & _ & _ & Hserve). destruct (Hserve _ _ Hin) as [Hs1 Hs2].
  destruct HI as (HI1 & _ & _ & _ & _ & _ & HI2 & _).
  destruct (download_honest (moved tr0 E) c r tf fp p data w HI1 HI2 Hu) as (w' & Hdl & _ & Hst); try done.
  { split; [done|]. split; [intros H; by apply moved_serves, Hs1|]. intros H1 H2 alg dig name Hl Hn. by eapply moved_serves, Hs2. }
  destruct (when_download E c tr0 tf fp "" w Hlt) as [Hq _]. exists w'. by rewrite Hq.
Qed.
(** a download changes nothing but the file it is for *)
Lemma download_elsewhere tf fp p w w' o : file_for E c tf fp p -> download_target E c tf fp "" w = (w', o) -> w_trusted w' = w_trusted w /\ forall q, q <> p -> io_disk (w_io w') !! q = io_disk (w_io w) !! q.
Proof.
  intros Hf. unfold download_target. assert ((if String.eqb fp "" then target_file_path E c tf else Ok fp) = Ok p) as -> by (destruct Hf as [[Hne ->]|[-> Hf]]; [by destruct (String.eqb_spec fp "")|done]).
  rewrite (sbind_run _ _ w w p) by done. cbn [String.eqb]. destruct (String.eqb (c_targets_url c) "").
  { unfold sbind at 1, sout. intros [= <- <-]. done. }
  rewrite (sbind_run _ _ w w (ensure_slash (c_targets_url c))) by done. rewrite (sbind_run _ _ w w (w_trusted w)) by done.
  assert (exists w1 path, (if consistent (w_trusted w) && c_prefix_hash c then do hs := lift (iterate E (tf_hashes tf)) in sret (prefixed_path (tf_path tf) (first_hash hs)) else sret (tf_path tf)) w = (w1, Ok path) /\
    w_trusted w1 = w_trusted w /\ io_disk (w_io w1) = io_disk (w_io w)) as (w1 & path & Hrun & Ht1 & Hd1).
  { destruct (_ && _); [|by exists w, (tf_path tf)]. eexists _, _. split; [unfold sbind, lift, iterate; reflexivity|done]. }
  rewrite (sbind_run _ _ _ _ _ Hrun). clear Hrun. unfold sbind, lift, fetch. destruct (e_net E _ _ _) as [data|e|]; [|intros [= <- <-]; cbn; by rewrite Ht1, Hd1..]. cbn [w_trusted w_io].
  destruct (sout (targetfile_verify tf data) _) as [w2 [u|e|]] eqn:Hv; unfold sout in Hv; injection Hv as <- Hv; [|intros [= <- <-]; cbn; by rewrite Ht1, Hd1..].
  destruct (c_disable_cache c); [unfold sret; intros [= <- <-]; cbn; by rewrite Ht1, Hd1|]. unfold write_file. cbn [w_io io_disk log io_trace].
  destruct (e_io E _); [|destruct (e_partial E _)]; intros [= <- <-]; cbn [w_trusted w_io io_disk log]; (split; [done|]); intros q Hq; rewrite ?Hd1; try done; by apply lookup_other.
Qed.
Lemma inv_elsewhere E' P D w w' : Inv E' c r P now D w -> w_trusted w' = w_trusted w -> disk_works E' c (io_disk (w_io w')) -> (forall role, io_disk (w_io w') !! cache_name c role = io_disk (w_io w) !! cache_name c role) -> Inv E' c r P now D w'.
Proof.
  intros (H1 & H2 & H3 & H4 & H5 & H6 & H7 & H8) Ht Hw Hd. unfold Inv. rewrite Ht. split_and!; try done. intros name f Hf Hn data. rewrite Hd. rewrite Ht in Hn. by apply H8.
Qed.
Lemma live_used R tr0 w w' : sound_release c r0 r now R -> stays_up E c r R tr0 -> used E c R w w' -> later tr0 (wtr w) -> Inv (moved tr0 E) c r (rel_pub R) now (rel_roles R) w ->
  later tr0 (wtr w') /\ Inv (moved tr0 E) c r (rel_pub R) now (rel_roles R) w'.
Proof.
  intros Hsd Hup. induction 1 as [|path w w1 w2 o Hfol Hinfo _ IH|tf data fp p w w1 w2 o Hin Hfile Hown Hdl _ IH]; intros Hlt HI; [done|apply IH..].
  - by apply (live_search R tr0 path w w1 o).
  - by apply (live_search R tr0 path w w1 o).
  - destruct (when_download E c tr0 tf fp "" w Hlt) as [_ Hl]. by rewrite Hdl in Hl.
  - destruct (download_elsewhere _ _ _ _ _ _ Hfile Hdl) as [Ht Hd]. destruct Hown as [Ho1 Ho2]. pose proof HI as (_ & _ & _ & _ & _ & _ & Hw & _). eapply inv_elsewhere; [exact HI|done| |].
    + destruct Hw as [Hw|(Hw1 & Hw2 & Hw3 & cwd & Hw4 & Hw5)]; [by left|right]. split_and!; try done. exists cwd. split; [done|]. intros k. eapply eq_trans; [apply Hd|apply Hw5]. intros Hq. by apply (Ho2 cwd k).
    + intros role. apply Hd. intros Hq. by apply (Ho1 role).
Qed.
End Live.
