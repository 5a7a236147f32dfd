(** * C122: clients that are interrupted while the repository publishes *)
From stdpp Require Import base gmap strings list.
From Coq Require Import ZArith Lia Ascii String.
From Verif Require Import GoBase GoStr GoTime Types Marshal Keys Metadata TrustedMetadata Fetcher Updater SpecBasic SpecSig SpecDeleg SpecTrusted SpecUpdater SpecReach SpecLive SpecOffline SpecCut.
From Verif Require Import BasicProofs PathProofs BlockProofs LiveProofs LifeProofs CutProofs Toy Examples ExamplesUpdater ExamplesHonest PropertiesLive PropertiesOffline.
Open Scope Z_scope.

(** A client of a repository that publishes one release after the other, as in C109, but any of whose sessions may be
    interrupted at any point, even in the middle of a write.  The releases that it sees are in order.  Its next session
    succeeds: it sees a release at least as new as those seen before and as the one that is current when it starts, and
    all its searches and downloads are served from that release.  No interruption leaves a cache that locks it out. *)
Theorem C122_recovers {CR : Crypto} E c r0 r clock Rs n i ks i' : timeline E c r0 r clock Rs n -> client_ready E c r0 r (clock (io_trace i)) (drop (n (io_trace i)) Rs) i -> hard_life E c r clock Rs i ks i' ->
  (forall a b j k, ks !! a = Some j -> ks !! b = Some k -> (a <= b)%nat -> (j <= k)%nat) /\
  exists k R i1 t w1, Rs !! k = Some R /\ updater_new E c (clock (io_trace i')) i' = (i1, Ok t) /\ refresh E c (mkWorld t i1) = (w1, Ok tt) /\ up_to_date r (rel_pub R) (w_trusted w1) /\
    (forall j, j ∈ ks -> (j <= k)%nat) /\ (n (io_trace i') <= k <= n (io_trace (w_io w1)))%nat /\ forall w, used E c R w1 w -> serves_release E c r (clock (io_trace i')) R w.
Proof.
  intros Hline Hi Hlife. destruct (hard_ready E c r0 r clock Rs n Hline i ks i' Hi Hlife) as (Hr & _ & Hks & Hord). split; [done|].
  destruct (session E c r0 r clock Rs n Hline i' Hr) as (k & R & i1 & t & w1 & tr0 & HR & Hsd & Hup & Hl & Hk & Hnew & Href & Hutd & HI & _). exists k, R, i1, t, w1. do 4 (split; [done|]).
  split; [intros j Hj; apply Hks in Hj; lia|]. split; [exact Hk|]. intros w Hused. destruct (live_used E c r0 r _ R tr0 w1 w Hsd Hup Hused Hl HI) as [Hl2 HI2]. by apply (inv_serves E c r0 r _ R tr0).
Qed.
Print Assumptions C122_recovers.

(** ** Concrete interruptions *)
(** temporary files are removed *)
Definition cleaned (d : disk) : disk := filter (fun p => String.prefix "/w/" (fst p) = false) d.
Lemma cleaned_cached d role : cleaned d !! cache_name ex_config role = d !! cache_name ex_config role.
Proof.
  assert (String.prefix "/w/" (cache_name ex_config role) = false) as Hp.
  { unfold cache_name, json_of. rewrite path_join_plain by (apply json_plain, query_escape_no_slash). rewrite in_dir_prefix. reflexivity. }
  unfold cleaned. destruct (d !! cache_name ex_config role) as [x|] eqn:Hx; [by apply map_filter_lookup_Some|]. apply map_filter_lookup_None. by left.
Qed.
Lemma cleaned_works E d : (forall tr, e_io E tr = true) -> e_cwd E = Some "/w" -> disk_works E ex_config (cleaned d).
Proof.
  intros H1 H2. right. split; [done|]. split; [done|]. split; [done|]. exists "/w". split; [done|]. intros n. unfold cleaned. apply map_filter_lookup_None. right. intros x _. cbn. done.
Qed.
(** all hypotheses, with a first session that is interrupted after any number of events *)
Example C122_case T m : (0 < T)%nat -> exists r0 r R R' i evs, timeline (lv_env T) ex_config r0 r (fun _ => ex_now) [R; R'] (lv_number T) /\
  client_ready (lv_env T) ex_config r0 r ex_now (drop (lv_number T (io_trace no_files)) [R; R']) no_files /\ hard_life (lv_env T) ex_config r (fun _ => ex_now) [R; R'] no_files [] i /\
  io_trace i = take m evs /\ io_disk i = cleaned (replay ∅ (take m evs)).
Proof.
  intros HT. destruct (lv_case T) as (r0 & r & R & R' & tf & tf' & H1 & H2 & H3 & H3' & H4 & H4').
  assert (client_ready (lv_env T) ex_config r0 r ex_now (drop (lv_number T (io_trace no_files)) [R; R']) no_files) as Hready by (destruct T; [lia|exact H2]).
  destruct (C109_follows _ _ _ _ _ _ _ _ [] _ H1 Hready (life_begins _ _ _ _ _ _)) as (_ & k & Rk & i1 & t & w1 & HR & Hnew & Href & Hutd & _ & _ & Hsr).
  assert (delegations_follow (all_roles (rel_pub Rk) (rel_roles Rk)) "a/x") as Hf.
  { destruct (lookup_two _ _ _ _ HR) as [Hx|Hx]; rewrite Hx; [exact H4|exact H4']. }
  destruct (get_target_info (lv_env T) ex_config "a/x" w1) as [w2 o] eqn:Hg. set (evs := io_trace (w_io w2)).
  exists r0, r, R, R', (mkIos (cleaned (replay ∅ (take m evs))) (take m evs)), evs. split; [exact H1|]. split; [exact Hready|]. split; [|split; reflexivity].
  eapply (hard_cut _ _ _ _ _ _ [] no_files i1 t w1 w2 k Rk evs (take m evs) (replay ∅ (take m evs))); [apply hard_begins|exact Hnew|exact Href|exact HR|exact Hutd| | | | | |].
  - eapply used_search; [exact Hf|exact Hg|apply used_not].
  - reflexivity.
  - exists (drop m evs). split; [by rewrite take_drop|]. left. reflexivity.
  - intros role. apply cleaned_cached.
  - apply cleaned_works; reflexivity.
  - exists []. by rewrite app_nil_r.
Qed.
(** A first session gets release 4.  Release 5 is out when the second one starts, which is interrupted after any of its
    events; the third gets release 5. *)
Definition c122_events (i j : ios) : list event := drop (List.length (io_trace i)) (io_trace j).
Definition c122_after (E : env) (i j : ios) (m : nat) : ios := let evs := take m (c122_events i j) in mkIos (cleaned (replay (io_disk i) evs)) (io_trace i ++ evs).
Definition c122_third (T : nat) : option (nat * list (option (Z * option Z * option Z * list (string * Z) * string))) :=
  o ← lv_run (lv_env T) no_files; o' ← lv_run (lv_env T) o.2;
  Some (List.length (c122_events o.2 o'.2), remove_dups (map (fun m => lv_shown (lv_run (lv_env T) (c122_after (lv_env T) o.2 o'.2 m))) (seq 0 (S (List.length (c122_events o.2 o'.2)))))).
Example C122_runs : c122_third 12 = Some (36%nat, [Some (2, Some 5, Some 5, [("d1", 5); ("targets", 5)], "world")]).
Proof. vm_compute. reflexivity. Qed.

(** ** Refuted for clients that go offline *)
(** A cache with which the client could work offline is useless for that after an interrupted session: it holds the
    timestamp of the new release and the snapshot of the old one. *)
Definition c122_run {CR : Crypto} (E : env) (c : config) (i : ios) : option (world * outcome unit) :=
  match updater_new E c ex_now i with (i1, Ok t) => Some (refresh E c (mkWorld t i1)) | _ => None end.
(** the refresh before, offline on what it leaves, the next refresh, and offline on what is left if it is cut after [m] events *)
Lemma c122_check E m :
  match c122_run E ex_config no_files with
  | Some (w, Ok _) =>
      match c122_run E c121_offline (mkIos (io_disk (w_io w)) []), c122_run E ex_config (w_io w) with
      | Some (_, Ok _), Some (w', Ok _) =>
          match c122_run E c121_offline (mkIos (replay (io_disk (w_io w)) (take m (c122_events (w_io w) (w_io w')))) []) with Some (_, Err _) => true | _ => false end
      | _, _ => false
      end
  | _ => false
  end = true ->
  exists i1 t w i2 t2 w2 i3 t3 w3 evs i4 t4 w4 e, updater_new E ex_config ex_now no_files = (i1, Ok t) /\ refresh E ex_config (mkWorld t i1) = (w, Ok tt) /\
    updater_new E c121_offline ex_now (mkIos (io_disk (w_io w)) []) = (i2, Ok t2) /\ refresh E c121_offline (mkWorld t2 i2) = (w2, Ok tt) /\
    updater_new E ex_config ex_now (w_io w) = (i3, Ok t3) /\ refresh E ex_config (mkWorld t3 i3) = (w3, Ok tt) /\ evs = c122_events (w_io w) (w_io w3) /\
    updater_new E c121_offline ex_now (mkIos (replay (io_disk (w_io w)) (take m evs)) []) = (i4, Ok t4) /\ refresh E c121_offline (mkWorld t4 i4) = (w4, Err e).
Proof.
  unfold c122_run. destruct (updater_new E ex_config ex_now no_files) as [i1 [t| |]] eqn:H1; [|intros [=]..]. destruct (refresh E ex_config (mkWorld t i1)) as [w [[]| |]] eqn:H2; [|intros [=]..].
  destruct (updater_new E c121_offline ex_now (mkIos (io_disk (w_io w)) [])) as [i2 [t2| |]] eqn:H3; [|intros [=]..]. destruct (refresh E c121_offline (mkWorld t2 i2)) as [w2 [[]| |]] eqn:H4; [|intros [=]..].
  destruct (updater_new E ex_config ex_now (w_io w)) as [i3 [t3| |]] eqn:H5; [|intros [=]..]. destruct (refresh E ex_config (mkWorld t3 i3)) as [w3 [[]| |]] eqn:H6; [|intros [=]..].
  destruct (updater_new E c121_offline ex_now (mkIos (replay _ _) [])) as [i4 [t4| |]] eqn:H7; [|intros [=]..]. destruct (refresh E c121_offline (mkWorld t4 i4)) as [w4 [|e|]] eqn:H8; [intros [=]| |intros [=]]. intros _.
  exists i1, t, w, i2, t2, w2, i3, t3, w3, (c122_events (w_io w) (w_io w3)), i4, t4, w4, e. split; [reflexivity|]. split; [exact H2|]. split; [exact H3|]. split; [exact H4|]. split; [exact H5|]. split; [exact H6|]. split; [reflexivity|]. split; [exact H7|exact H8].
Qed.
Lemma c122_happened {CR : Crypto} E c now i i1 t w1 : updater_new E c now i = (i1, Ok t) -> refresh E c (mkWorld t i1) = (w1, Ok tt) -> happened i (w_io w1) (c122_events i (w_io w1)).
Proof.
  intros Hnew Href. destruct (when_new E c (io_trace i) now i (later_refl _)) as [_ Hx]. rewrite Hnew in Hx. destruct (when_refresh E c (io_trace i1) (mkWorld t i1) (later_refl _)) as [_ Hy]. rewrite Href in Hy. cbn [fst] in Hx, Hy.
  destruct (later_trans _ _ _ Hx Hy) as [evs Hevs]. unfold happened, c122_events. unfold wtr in Hevs. rewrite Hevs. by rewrite drop_app.
Qed.
Theorem C122_offline_refuted : exists (CR : Crypto) E c c' now i i1 t w i2 t2 w2 i3 t3 w3 evs evs1 d i4 t4 w4 e, goes_offline c c' (c_trusted_root c) /\
  updater_new E c now i = (i1, Ok t) /\ refresh E c (mkWorld t i1) = (w, Ok tt) /\
  updater_new E c' now (mkIos (io_disk (w_io w)) []) = (i2, Ok t2) /\ refresh E c' (mkWorld t2 i2) = (w2, Ok tt) /\
  updater_new E c now (w_io w) = (i3, Ok t3) /\ refresh E c (mkWorld t3 i3) = (w3, Ok tt) /\ happened (w_io w) (w_io w3) evs /\ cut (io_disk (w_io w)) evs evs1 d /\
  updater_new E c' now (mkIos d []) = (i4, Ok t4) /\ refresh E c' (mkWorld t4 i4) = (w4, Err e).
Proof.
  destruct (c122_check (lv_env 12) 15) as (i1 & t & w & i2 & t2 & w2 & i3 & t3 & w3 & evs & i4 & t4 & w4 & e & H1 & H2 & H3 & H4 & H5 & H6 & Hevs & H7 & H8); [vm_compute; reflexivity|].
  exists toy_crypto, (lv_env 12), ex_config, c121_offline, ex_now, no_files, i1, t, w, i2, t2, w2, i3, t3, w3, evs, (take 15 evs), (replay (io_disk (w_io w)) (take 15 evs)), i4, t4, w4, e.
  split; [exact c121_goes|]. split; [exact H1|]. split; [exact H2|]. split; [exact H3|]. split; [exact H4|]. split; [exact H5|]. split; [exact H6|]. split; [rewrite Hevs; exact (c122_happened _ _ _ _ _ _ _ H5 H6)|].
  split; [|split; [exact H7|exact H8]]. exists (drop 15 evs). split; [symmetry; apply take_drop|]. left. reflexivity.
Qed.
Print Assumptions C122_offline_refuted.
