(** * Proofs about the updater: every API call is a sequence of justified steps *)
From stdpp Require Import base gmap strings list.
From Coq Require Import ZArith Lia Ascii String.
From Verif Require Import GoBase GoStr GoTime Types Marshal Keys Metadata TrustedMetadata Fetcher Updater SpecBasic SpecTrusted SpecUpdater.
From Verif Require Import StrProofs PathProofs SigProofs TrustedProofs.
Open Scope Z_scope.

Section Updater.
Context {CR : Crypto} (E : env) (c : config).

(** ** Steps *)
Inductive kind := KRead (p : string) | KGet (url : string) (len : Z) | KChoice | KCall (cl : call) | KPersist (role data : string) | KWrite (p data : string).
Inductive ustep (w : world) : kind -> world -> Prop :=
  | u_read p : ustep w (KRead p) (fst (lift (read_file E p) w))
  | u_get url len : allowed_download c (w_trusted w) url len -> ustep w (KGet url len) (fst (lift (fetch E url len) w))
  | u_choice : ustep w KChoice (mkWorld (w_trusted w) (log (io_disk (w_io w)) (w_io w) EvChoice))
  | u_call cl : proper_call cl -> disciplined (w_trusted w) cl -> ustep w (KCall cl) (mkWorld (fst (perform (w_trusted w) cl)) (w_io w))
  | u_persist role data : holds (w_trusted w) role data -> ustep w (KPersist role data) (fst (lift (persist_metadata E c role data) w)).
Inductive ksteps (K : kind -> Prop) (w : world) : world -> Prop :=
  | ks_nil : ksteps K w w
  | ks_step k w1 w2 : ksteps K w w1 -> K k -> ustep w1 k w2 -> ksteps K w w2.
Lemma ks_one (K : kind -> Prop) w k w' : K k -> ustep w k w' -> ksteps K w w'.
Proof. intros Hk Hs. eapply ks_step; [constructor|done|done]. Qed.
Lemma ks_trans K w1 w2 w3 : ksteps K w1 w2 -> ksteps K w2 w3 -> ksteps K w1 w3.
Proof. intros H1 H2. induction H2 as [|k wa wb _ IH Hk Hs]; [done|]. by eapply ks_step. Qed.
Lemma ks_mono (K K' : kind -> Prop) w w' : (forall k, K k -> K' k) -> ksteps K w w' -> ksteps K' w w'.
Proof. intros Hm H. induction H as [|k wa wb _ IH Hk Hs]; [constructor|]. eapply ks_step; eauto. Qed.

(** ** Facts kept by steps *)
Lemma ustep_trusted w k w' : ustep w k w' -> w_trusted w' = w_trusted w \/ exists cl, k = KCall cl /\ proper_call cl /\ disciplined (w_trusted w) cl /\ w_trusted w' = fst (perform (w_trusted w) cl) /\ w_io w' = w_io w.
Proof.
  destruct 1 as [p|url len Ha| |cl Hp Hd|role data Hh]; [left|left|left|right|left].
  - done.
  - done.
  - done.
  - eauto 10.
  - unfold lift. by destruct (persist_metadata E c role data (w_io w)).
Qed.
Lemma ksteps_calls K w w' : ksteps K w w' -> disciplined_calls (w_trusted w) (w_trusted w').
Proof.
  induction 1 as [|k w1 w2 _ IH Hk Hs]; [constructor|]. apply ustep_trusted in Hs as [->|(cl & _ & Hp & Hd & -> & _)]; [done|]. by constructor.
Qed.
Lemma perform_targets_keep t cl n m : disciplined t cl -> t_targets t !! n = Some m -> t_targets (fst (perform t cl)) !! n = Some m.
Proof.
  intros Hd Hm. destruct cl as [data|data|order data tr|data role dl]; cbn [disciplined] in Hd.
  - rewrite fst_perform_rt. unfold update_root. repeat case_match; done.
  - rewrite fst_perform_ts. unfold update_timestamp. repeat case_match; done.
  - rewrite fst_perform_sn. unfold update_snapshot. repeat case_match; done.
  - rewrite fst_perform_tg. unfold update_delegated_targets. destruct (check_new_targets t data role dl); cbn; try done. rewrite lookup_insert_ne; [done|]. intros ->. destruct Hd as [Hd _]. congruence.
Qed.
Lemma dcalls_targets_keep t t' n m : disciplined_calls t t' -> t_targets t !! n = Some m -> t_targets t' !! n = Some m.
Proof. induction 1 as [|t t' cl _ IH Hp Hd]; [done|]. intros Hm. apply perform_targets_keep; auto. Qed.
Lemma ksteps_targets_keep K w w' n m : ksteps K w w' -> t_targets (w_trusted w) !! n = Some m -> t_targets (w_trusted w') !! n = Some m.
Proof. intros H. apply dcalls_targets_keep. by eapply ksteps_calls. Qed.

(** ** Single operations as steps *)
Lemma on_trusted_perform {A} (f : trusted -> upd A) cl w : (forall t, perform t cl = (let '(t', o) := f t in (t', omap_ (fun _ => tt) o))) ->
  fst (on_trusted f w) = mkWorld (fst (perform (w_trusted w) cl)) (w_io w).
Proof. intros H. unfold on_trusted. rewrite H. by destruct (f (w_trusted w)). Qed.
Lemma call_root_step w data : ustep w (KCall (UpdateRoot data)) (fst (on_trusted (fun t => update_root t data) w)).
Proof. rewrite (on_trusted_perform _ (UpdateRoot data)) by done. by constructor. Qed.
Lemma call_timestamp_step w data : ustep w (KCall (UpdateTimestamp data)) (fst (on_trusted (fun t => update_timestamp t data) w)).
Proof. rewrite (on_trusted_perform _ (UpdateTimestamp data)) by done. by constructor. Qed.
Lemma call_targets_step w data role parent : t_targets (w_trusted w) !! role = None -> (parent = "root" -> role = "targets" \/ is_Some (t_targets (w_trusted w) !! "targets")) ->
  ustep w (KCall (UpdateDelegated data role parent)) (fst (on_trusted (fun t => update_delegated_targets t data role parent) w)).
Proof. intros H1 H2. rewrite (on_trusted_perform _ (UpdateDelegated data role parent)) by done. by constructor. Qed.
Lemma call_snapshot_steps (K : kind -> Prop) w data flag : K KChoice -> (forall order, K (KCall (UpdateSnapshot order data flag))) -> ksteps K w (fst (upd_snapshot E data flag w)).
Proof.
  intros Hc Hk. eapply ks_step; [eapply ks_one; [exact Hc|constructor]|apply (Hk (e_order E (option metafile) (io_trace (w_io w))))|].
  unfold upd_snapshot. rewrite (on_trusted_perform _ (UpdateSnapshot (e_order E (option metafile) (io_trace (w_io w))) data flag)) by done. constructor; [|done]. intros l. apply e_order_perm.
Qed.
Lemma download_step w role len v : allowed_download c (w_trusted w) (url_of c role v) len -> ustep w (KGet (url_of c role v) len) (fst (lift (download_metadata E c role len v) w)).
Proof.
  intros H. assert (download_metadata E c role len v = fetch E (url_of c role v) len) as ->; [|by constructor].
  unfold download_metadata, url_of, metadata_url, ensure_slash, json_of. done.
Qed.
Lemma load_local_step w role : ustep w (KRead (local_name c role)) (fst (lift (load_local E c role) w)).
Proof. constructor. Qed.

(** ** Results of single operations *)
Lemma update_root_ok t data t' r : update_root t data = (t', Ok r) -> holds t' "root" data.
Proof.
  unfold update_root. destruct (t_timestamp t); [done|]. intros H. left. split; [done|].
  destruct (from_bytes data) as [r0| |] eqn:E0; cbn [obind] in H; try done. destruct (check_signed_type r0) as [[]| |] eqn:E1; cbn [obind] in H; try done.
  destruct (verify_delegate (t_root t) ROOT r0); cbn [obind] in H; try done. destruct (_ =? _); [|done]. destruct (verify_delegate r0 ROOT r0); cbn [obind] in H; try done.
  injection H as <- <-. split; [done|]. by apply check_signed_type_ok.
Qed.
Lemma update_timestamp_ok_holds t data t' ts : update_timestamp t data = (t', Ok ts) -> holds t' "timestamp" data.
Proof. intros (Hok & _ & (_ & H & _))%update_timestamp_spec. right; left. split; [done|]. exists ts. split; [done|apply Hok]. Qed.
Lemma update_snapshot_ok_holds order t data tr t' sn : (forall l, order l ≡ₚ l) -> update_snapshot order t data tr = (t', Ok sn) -> holds t' "snapshot" data.
Proof.
  intros Ho H. apply update_snapshot_spec in H as ((ts & _ & _ & _ & _ & Hd & _) & _ & (_ & _ & H & _)); [|done]. right; right; left. split; [done|]. by exists sn.
Qed.
Lemma update_delegated_ok_holds t data role dl t' m : update_delegated_targets t data role dl = (t', Ok m) -> holds t' role data /\ t_targets t' !! role = Some m.
Proof.
  intros ((sn & f & _ & _ & _ & _ & Hd & _) & (_ & _ & _ & _ & H & _))%update_delegated_spec. split; [|done]. right; right; right. by exists m.
Qed.
Lemma update_delegated_err t data role dl t' o : update_delegated_targets t data role dl = (t', o) -> (forall m, o <> Ok m) -> t' = t.
Proof.
  intros H Hno. destruct (update_delegated_cases t data role dl) as [(m & _ & Hm)|(_ & Hm & _)].
  - rewrite Hm in H. injection H as <- <-. by destruct (Hno m).
  - by rewrite H in Hm.
Qed.
Lemma upd_snapshot_inv w data flag w' o : upd_snapshot E data flag w = (w', o) -> exists order, (forall l, order l ≡ₚ l) /\
  update_snapshot order (w_trusted w) data flag = (w_trusted w', o) /\ w_io w' = log (io_disk (w_io w)) (w_io w) EvChoice.
Proof.
  unfold upd_snapshot, on_trusted. cbn. destruct (update_snapshot _ _ _ _) as [t' o'] eqn:Eu. intros [= <- <-]. cbn. exists (e_order E (option metafile) (io_trace (w_io w))). split; [apply e_order_perm|done].
Qed.
Lemma on_trusted_inv {A} (f : trusted -> upd A) w w' o : on_trusted f w = (w', o) -> f (w_trusted w) = (w_trusted w', o) /\ w_io w' = w_io w.
Proof. unfold on_trusted. destruct (f (w_trusted w)) as [t' o']. by intros [= <- <-]. Qed.
Lemma lift_inv {A} (m : IO A) w w' o : lift m w = (w', o) -> m (w_io w) = (w_io w', o) /\ w_trusted w' = w_trusted w.
Proof. unfold lift. destruct (m (w_io w)) as [i' o']. by intros [= <- <-]. Qed.
Lemma fst_eq {A B} (p : A * B) a b : p = (a, b) -> fst p = a. Proof. by intros ->. Qed.
Lemma sbind_inv {S A B} (m : S -> S * outcome A) (f : A -> S -> S * outcome B) s s' o : sbind m f s = (s', o) ->
  (exists s1 a, m s = (s1, Ok a) /\ f a s1 = (s', o)) \/ (exists e, m s = (s', Err e) /\ o = Err e) \/ (m s = (s', Panic) /\ o = Panic).
Proof. unfold sbind. destruct (m s) as [s1 [a|e|]]; [eauto 10| |]; intros [= <- <-]; eauto 10. Qed.
Lemma satt_inv {S A B} (m : S -> S * outcome A) (f : A + gerr -> S -> S * outcome B) s s' o : satt m f s = (s', o) ->
  (exists s1 a, m s = (s1, Ok a) /\ f (inl a) s1 = (s', o)) \/ (exists s1 e, m s = (s1, Err e) /\ f (inr e) s1 = (s', o)) \/ (m s = (s', Panic) /\ o = Panic).
Proof. unfold satt. destruct (m s) as [s1 [a|e|]]; [eauto 10|eauto 10|]; intros [= <- <-]; eauto 10. Qed.

(** ** Which steps each part makes *)
Definition toplevel (role : string) : Prop := role = "root" \/ role = "timestamp" \/ role = "snapshot" \/ role = "targets".
(** Refresh: top-level roles only *)
Definition KRefresh (k : kind) : Prop :=
  match k with
  | KWrite _ _ => False
  | KPersist role _ => toplevel role
  | KCall (UpdateDelegated _ role dl) => role = "targets" /\ dl = "root"
  | _ => True
  end.
(** Refresh behind the root update *)
Definition KAfterRoot (k : kind) : Prop :=
  match k with
  | KWrite _ _ => False
  | KGet url _ => exists role v, (role = "timestamp" \/ role = "snapshot" \/ role = "targets") /\ url = url_of c role v
  | KPersist role _ => role = "timestamp" \/ role = "snapshot" \/ role = "targets"
  | KCall (UpdateRoot _) => False
  | KCall (UpdateDelegated _ role dl) => role = "targets" /\ dl = "root"
  | _ => True
  end.
Lemma after_root_refresh k : KAfterRoot k -> KRefresh k.
Proof. destruct k as [| | |[]|role data|]; cbn; try done. unfold toplevel. tauto. Qed.
(** unsafe local refresh: no network, nothing persisted *)
Definition KLocal (k : kind) : Prop :=
  match k with KRead _ | KChoice => True | KCall (UpdateDelegated _ role dl) => role = "targets" /\ dl = "root" | KCall _ => True | _ => False end.
(** the search for a target: only targets metadata *)
Definition KSearch (k : kind) : Prop :=
  match k with
  | KWrite _ _ => False
  | KCall cl => match cl with UpdateDelegated _ _ _ => True | _ => False end
  | _ => True
  end.

Ltac inj H := injection H; clear H; intros; subst.
Lemma download_ks (K : kind -> Prop) w w1 o role len v : lift (download_metadata E c role len v) w = (w1, o) -> allowed_download c (w_trusted w) (url_of c role v) len ->
  K (KGet (url_of c role v) len) -> ksteps K w w1 /\ w_trusted w1 = w_trusted w.
Proof. intros H Ha Hk. split; [|by apply lift_inv in H as [_ ?]]. rewrite <- (fst_eq _ _ _ H). eapply ks_one; [exact Hk|by apply download_step]. Qed.
Lemma local_ks (K : kind -> Prop) w w1 o role : lift (load_local E c role) w = (w1, o) -> K (KRead (local_name c role)) -> ksteps K w w1 /\ w_trusted w1 = w_trusted w.
Proof. intros H Hk. split; [|by apply lift_inv in H as [_ ?]]. rewrite <- (fst_eq _ _ _ H). eapply ks_one; [exact Hk|apply load_local_step]. Qed.
Lemma persist_ks (K : kind -> Prop) w w1 o role data : lift (persist_metadata E c role data) w = (w1, o) -> holds (w_trusted w) role data -> K (KPersist role data) -> ksteps K w w1 /\ w_trusted w1 = w_trusted w.
Proof. intros H Hh Hk. split; [|by apply lift_inv in H as [_ ?]]. rewrite <- (fst_eq _ _ _ H). eapply ks_one; [exact Hk|by constructor]. Qed.
Lemma root_ks (K : kind -> Prop) w w1 o data : on_trusted (fun t => update_root t data) w = (w1, o) -> K (KCall (UpdateRoot data)) -> ksteps K w w1 /\ (forall r, o = Ok r -> holds (w_trusted w1) "root" data).
Proof.
  intros H Hk. split; [rewrite <- (fst_eq _ _ _ H); eapply ks_one; [exact Hk|apply call_root_step]|]. intros r ->. apply on_trusted_inv in H as [H _]. by eapply update_root_ok.
Qed.
Lemma timestamp_ks (K : kind -> Prop) w w1 o data : on_trusted (fun t => update_timestamp t data) w = (w1, o) -> K (KCall (UpdateTimestamp data)) -> ksteps K w w1 /\ (forall r, o = Ok r -> holds (w_trusted w1) "timestamp" data).
Proof.
  intros H Hk. split; [rewrite <- (fst_eq _ _ _ H); eapply ks_one; [exact Hk|apply call_timestamp_step]|]. intros r ->. apply on_trusted_inv in H as [H _]. by eapply update_timestamp_ok_holds.
Qed.
Lemma snapshot_ks (K : kind -> Prop) w w1 o data flag : upd_snapshot E data flag w = (w1, o) -> K KChoice -> (forall order, K (KCall (UpdateSnapshot order data flag))) ->
  ksteps K w w1 /\ (forall r, o = Ok r -> holds (w_trusted w1) "snapshot" data).
Proof.
  intros H Hc Hk. split; [rewrite <- (fst_eq _ _ _ H); by apply call_snapshot_steps|]. intros r ->. apply upd_snapshot_inv in H as (order & Ho & H & _). by eapply update_snapshot_ok_holds.
Qed.
Lemma targets_ks (K : kind -> Prop) w w1 o data role parent : on_trusted (fun t => update_delegated_targets t data role parent) w = (w1, o) -> K (KCall (UpdateDelegated data role parent)) ->
  t_targets (w_trusted w) !! role = None -> (parent = "root" -> role = "targets" \/ is_Some (t_targets (w_trusted w) !! "targets")) ->
  ksteps K w w1 /\ (forall m, o = Ok m -> holds (w_trusted w1) role data /\ t_targets (w_trusted w1) !! role = Some m) /\ ((forall m, o <> Ok m) -> w_trusted w1 = w_trusted w).
Proof.
  intros H Hk H1 H2. split; [rewrite <- (fst_eq _ _ _ H); eapply ks_one; [exact Hk|by apply call_targets_step]|]. apply on_trusted_inv in H as [H _]. split.
  - intros m ->. by eapply update_delegated_ok_holds.
  - intros Hno. by eapply update_delegated_err.
Qed.

(** the root update *)
Definition KRoot (k : kind) : Prop :=
  match k with
  | KGet url _ => exists v, url = url_of c "root" v
  | KCall (UpdateRoot _) => True
  | KPersist role _ => role = "root"
  | _ => False
  end.
Lemma root_loop_steps fuel next w w' o : root_loop E c fuel next w = (w', o) -> ksteps KRoot w w'.
Proof.
  revert next w; induction fuel as [|fuel IH]; intros next w; cbn [root_loop]; [intros [= <- <-]; constructor|].
  assert (allowed_download c (w_trusted w) (url_of c ROOT (fmt_dec next)) (c_root_max c)) as Ha by (left; by eexists).
  intros H. apply satt_inv in H as [(w1 & data & H1 & H)|[(w1 & e & H1 & H)|[H1 ->]]]; (eapply (download_ks KRoot) in H1 as [Hd _]; [|exact Ha|by eexists]).
  - eapply ks_trans; [exact Hd|]. apply sbind_inv in H as [(w2 & r & H2 & H)|[(e & H2 & ->)|[H2 ->]]]; (apply (root_ks KRoot) in H2 as [H2 Hh]; [|exact I]); [|done|done].
    eapply ks_trans; [exact H2|]. apply sbind_inv in H as [(w3 & u & H3 & H)|[(e & H3 & ->)|[H3 ->]]]; (apply (persist_ks KRoot) in H3 as [H3 _]; [|by eapply Hh|done]); [|done|done].
    eapply ks_trans; [exact H3|]. by eapply IH.
  - destruct (http_status e) as [st|]; [destruct ((st =? 404) || (st =? 403))|]; inj H; done.
  - done.
Qed.
Lemma load_root_steps_root w w' o : load_root E c w = (w', o) -> ksteps KRoot w w'.
Proof. unfold load_root. apply root_loop_steps. Qed.
Lemma load_root_steps w w' o : load_root E c w = (w', o) -> ksteps KRefresh w w'.
Proof. intros H%load_root_steps_root. eapply ks_mono; [|exact H]. intros [| | |[]|role data|]; cbn; try done. intros ->. by left. Qed.
Lemma load_timestamp_steps w w' o : load_timestamp E c w = (w', o) -> ksteps KAfterRoot w w'.
Proof.
  unfold load_timestamp. intros H.
  assert (forall w w' o, (do data := lift (download_metadata E c TIMESTAMP (c_timestamp_max c) "") in
    try r := on_trusted (fun t => update_timestamp t data) in
    match r with inr e => if errors_is e (ErrEqualVersionNumber "") then sret tt else sout (Err e) | inl _ => lift (persist_metadata E c TIMESTAMP data) end) w = (w', o) -> ksteps KAfterRoot w w') as Hrest.
  { clear. intros w w' o H. assert (allowed_download c (w_trusted w) (url_of c TIMESTAMP "") (c_timestamp_max c)) as Ha by (right; by left).
    apply sbind_inv in H as [(w2 & data & H2 & H)|[(e & H2 & ->)|[H2 ->]]]; (eapply (download_ks KAfterRoot) in H2 as [H2 _]; [|exact Ha|by eexists _, _; split; [|reflexivity]; auto]); [|done|done].
    eapply ks_trans; [exact H2|]. apply satt_inv in H as [(w3 & r & H3 & H)|[(w3 & e & H3 & H)|[H3 ->]]]; (apply (timestamp_ks KAfterRoot) in H3 as [H3 Hh]; [|exact I]); [| |done].
    - eapply ks_trans; [exact H3|]. apply (persist_ks KAfterRoot) in H as [H _]; [done|by eapply Hh|by left].
    - destruct (errors_is _ _); inj H; done. }
  apply satt_inv in H as [(w1 & data & H1 & H)|[(w1 & e & H1 & H)|[H1 ->]]]; (apply (local_ks KAfterRoot) in H1 as [H1 _]; [|exact I]); [| |done].
  - eapply ks_trans; [exact H1|]. apply sbind_inv in H as [(w2 & u & H2 & H)|H].
    + eapply ks_trans; [|by eapply Hrest]. apply satt_inv in H2 as [(w3 & r & H3 & H2)|[(w3 & e & H3 & H2)|[H3 H2]]]; [| |done]; (apply (timestamp_ks KAfterRoot) in H3 as [H3 _]; [|exact I]).
      * by inj H2.
      * destruct (errors_is _ _); inj H2; done.
    + assert (exists o1, (try r := on_trusted (fun t => update_timestamp t data) in
        match r with inl _ => sret tt | inr e => if errors_is e (ErrRepository "") then sret tt else sout (Err e) end) w1 = (w', o1)) as [o1 H2] by (destruct H as [(? & ? & _)|[? _]]; eauto).
      apply satt_inv in H2 as [(w3 & r & H3 & H2)|[(w3 & e & H3 & H2)|[H3 H2]]]; (apply (timestamp_ks KAfterRoot) in H3 as [H3 _]; [|exact I]); [| |done].
      * by inj H2.
      * destruct (errors_is _ _); inj H2; done.
  - eapply ks_trans; [exact H1|]. apply sbind_inv in H as [(w2 & u & H2 & H)|[(? & [=] & _)|[[=] _]]]. inj H2. by eapply Hrest.
Qed.

Lemma limit_if signed max : limit signed max (if signed =? 0 then max else signed).
Proof. unfold limit. destruct (Z.eqb_spec signed 0); auto. Qed.
Lemma versioned_if t v : versioned t v (if consistent t then fmt_dec v else "").
Proof. unfold versioned, consistent. destruct (rt_consistent _); auto. Qed.
Lemma load_snapshot_steps_gen (K : kind -> Prop) w w' o : load_snapshot E c w = (w', o) ->
  K (KRead (local_name c "snapshot")) -> K KChoice -> (forall order data flag, K (KCall (UpdateSnapshot order data flag))) -> (forall v l, K (KGet (url_of c "snapshot" v) l)) -> (forall data, K (KPersist "snapshot" data)) ->
  ksteps K w w'.
Proof.
  unfold load_snapshot. intros H K1 K2 K3 K4 K5. apply satt_inv in H as [(w1 & data & H1 & H)|[(w1 & e & H1 & H)|[H1 ->]]]; (apply (local_ks K) in H1 as [H1 _]; [|exact K1]); [| |done]; (eapply ks_trans; [exact H1|]).
  - assert (forall w2 o1, (try r := upd_snapshot E data true in
        match r with inl _ => sret true | inr e => if errors_is e (ErrRepository "") then sret false else sout (Err e) end) w1 = (w2, o1) -> ksteps K w1 w2) as Hloc.
    { intros w2 o1 H2. apply satt_inv in H2 as [(w3 & r & H3 & H2)|[(w3 & e & H3 & H2)|[H3 H2]]]; (apply (snapshot_ks K) in H3 as [H3 _]; [|exact K2|intros; apply K3]); [| |done].
      - by inj H2.
      - destruct (errors_is _ _); inj H2; done. }
    apply sbind_inv in H as [(w2 & local & H2 & H)|[(e & H2 & ->)|[H2 ->]]]; apply Hloc in H2; [|done|done]. eapply ks_trans; [exact H2|]. clear Hloc H2 H1 w1.
    destruct local; [inj H; constructor|]. revert w2 H. intros w2 H.
    apply sbind_inv in H as [(w3 & t & H3 & H)|[(e & [=] & _)|[[=] _]]]. unfold get_trusted in H3. inj H3.
    destruct (t_timestamp (w_trusted w3)) as [ts|] eqn:Ets; [|inj H; constructor]. destruct (snapshot_meta ts) as [f|] eqn:Ef; [|inj H; constructor]. apply snapshot_meta_spec in Ef.
    assert (allowed_download c (w_trusted w3) (url_of c SNAPSHOT (if consistent (w_trusted w3) then fmt_dec (mf_version f) else "")) (if mf_length f =? 0 then c_snapshot_max c else mf_length f)) as Ha.
    { right; right; left. exists ts, f, (if consistent (w_trusted w3) then fmt_dec (mf_version f) else ""). split_and!; [done|done|apply limit_if|apply versioned_if|done]. }
    apply sbind_inv in H as [(w4 & data' & H4 & H)|[(e & H4 & ->)|[H4 ->]]]; (eapply (download_ks K) in H4 as [H4 _]; [|exact Ha|apply K4]); [|done|done].
    eapply ks_trans; [exact H4|]. apply sbind_inv in H as [(w5 & sn & H5 & H)|[(e & H5 & ->)|[H5 ->]]]; (apply (snapshot_ks K) in H5 as [H5 Hh]; [|exact K2|intros; apply K3]); [|done|done].
    eapply ks_trans; [exact H5|]. apply (persist_ks K) in H as [H _]; [done|by eapply Hh|apply K5].
  - apply sbind_inv in H as [(w2 & local & H2 & H)|[(? & [=] & _)|[[=] _]]]. inj H2. clear H1. rename w2 into w1.
    apply sbind_inv in H as [(w3 & t & H3 & H)|[(e' & [=] & _)|[[=] _]]]. unfold get_trusted in H3. inj H3.
    destruct (t_timestamp (w_trusted w3)) as [ts|] eqn:Ets; [|inj H; constructor]. destruct (snapshot_meta ts) as [f|] eqn:Ef; [|inj H; constructor]. apply snapshot_meta_spec in Ef.
    assert (allowed_download c (w_trusted w3) (url_of c SNAPSHOT (if consistent (w_trusted w3) then fmt_dec (mf_version f) else "")) (if mf_length f =? 0 then c_snapshot_max c else mf_length f)) as Ha.
    { right; right; left. exists ts, f, (if consistent (w_trusted w3) then fmt_dec (mf_version f) else ""). split_and!; [done|done|apply limit_if|apply versioned_if|done]. }
    apply sbind_inv in H as [(w4 & data' & H4 & H)|[(e' & H4 & ->)|[H4 ->]]]; (eapply (download_ks K) in H4 as [H4 _]; [|exact Ha|apply K4]); [|done|done].
    eapply ks_trans; [exact H4|]. apply sbind_inv in H as [(w5 & sn & H5 & H)|[(e' & H5 & ->)|[H5 ->]]]; (apply (snapshot_ks K) in H5 as [H5 Hh]; [|exact K2|intros; apply K3]); [|done|done].
    eapply ks_trans; [exact H5|]. apply (persist_ks K) in H as [H _]; [done|by eapply Hh|apply K5].
Qed.
Lemma load_snapshot_steps w w' o : load_snapshot E c w = (w', o) -> ksteps KAfterRoot w w'.
Proof. intros H. eapply load_snapshot_steps_gen; [exact H|exact I|exact I|intros; exact I| |]; cbn; eauto 10. Qed.
(** loadTargets, for any set of steps that includes the reads, downloads, calls and persists of this role *)
Lemma load_targets_steps (K : kind -> Prop) role parent w w' o : load_targets E c role parent w = (w', o) ->
  K (KRead (local_name c role)) -> (forall v l, K (KGet (url_of c role v) l)) -> (forall data, K (KCall (UpdateDelegated data role parent))) -> (forall data, K (KPersist role data)) ->
  (parent = "root" -> role = "targets" \/ is_Some (t_targets (w_trusted w) !! "targets")) ->
  ksteps K w w' /\ forall m, o = Ok m -> t_targets (w_trusted w') !! role = Some m.
Proof.
  intros H K1 K2 K3 K4 Hp. unfold load_targets in H. apply sbind_inv in H as [(w1 & t & H1 & H)|[(e & [=] & _)|[[=] _]]]. unfold get_trusted in H1. inj H1.
  destruct (t_targets (w_trusted w1) !! role) as [m0|] eqn:Em; [inj H; split; [constructor|by intros m [= <-]]|].
  assert (forall w1 w' o, t_targets (w_trusted w1) !! role = None -> (parent = "root" -> role = "targets" \/ is_Some (t_targets (w_trusted w1) !! "targets")) ->
    (do t := get_trusted in
          match t_snapshot t with
          | None => sout (Err (EOther "trusted snapshot not set"))
          | Some sn =>
              match mget (sn_meta (md_signed sn)) (json_of role) with
              | Some (Some f) =>
                  let length := if mf_length f =? 0 then c_targets_max c else mf_length f in
                  let version := if consistent t then fmt_dec (mf_version f) else "" in
                  do data := lift (download_metadata E c role length version) in
                  do m := on_trusted (fun t => update_delegated_targets t data role parent) in
                  do _ := lift (persist_metadata E c role data) in
                  sret m
              | _ => sout Panic
              end
          end) w1 = (w', o) -> ksteps K w1 w' /\ forall m, o = Ok m -> t_targets (w_trusted w') !! role = Some m) as Hremote.
  { clear -K1 K2 K3 K4. intros w w' o Em Hp H. apply sbind_inv in H as [(w1 & t & H1 & H)|[(e & [=] & _)|[[=] _]]]. unfold get_trusted in H1. inj H1.
    destruct (t_snapshot (w_trusted w1)) as [sn|] eqn:Esn; [|inj H; split; [constructor|done]].
    destruct (mget (sn_meta (md_signed sn)) (json_of role)) as [[f|]|] eqn:Ef; [|inj H; split; [constructor|done]|inj H; split; [constructor|done]].
    assert (allowed_download c (w_trusted w1) (url_of c role (if consistent (w_trusted w1) then fmt_dec (mf_version f) else "")) (if mf_length f =? 0 then c_targets_max c else mf_length f)) as Ha.
    { right; right; right. exists sn, role, f, (if consistent (w_trusted w1) then fmt_dec (mf_version f) else ""). split_and!; [done|by apply lists_file_mget|apply limit_if|apply versioned_if|done]. }
    cbn zeta in H. apply sbind_inv in H as [(w4 & data' & H4 & H)|[(e & H4 & ->)|[H4 ->]]]; (eapply (download_ks K) in H4 as [H4 Ht4]; [|exact Ha|apply K2]); [|by split|by split].
    apply sbind_inv in H as [(w5 & m & H5 & H)|[(e & H5 & ->)|[H5 ->]]]; (apply (targets_ks K) in H5 as (H5 & Hh & _); [|apply K3|by rewrite Ht4|by rewrite Ht4]); [|split; [by eapply ks_trans|done]|split; [by eapply ks_trans|done]].
    destruct (Hh m eq_refl) as [Hh1 Hh2]. apply sbind_inv in H as [(w6 & u & H6 & H)|[(e & H6 & ->)|[H6 ->]]]; (apply (persist_ks K) in H6 as [H6 Ht6]; [|done|apply K4]).
    - inj H. split; [eapply ks_trans; [done|by eapply ks_trans]|]. intros m' [= <-]. by rewrite Ht6.
    - split; [eapply ks_trans; [done|by eapply ks_trans]|done].
    - split; [eapply ks_trans; [done|by eapply ks_trans]|done]. }
  apply satt_inv in H as [(w2 & data & H2 & H)|[(w2 & e & H2 & H)|[H2 ->]]]; (apply (local_ks K) in H2 as [H2 Ht2]; [|apply K1]); [| |by split].
  - assert (forall w3 o1, (try r := on_trusted (fun t => update_delegated_targets t data role parent) in
        match r with inl m => sret (Some m) | inr e => if errors_is e (ErrRepository "") then sret None else sout (Err e) end) w2 = (w3, o1) ->
        ksteps K w2 w3 /\ (o1 = Ok None -> w_trusted w3 = w_trusted w2) /\ (forall m, o1 = Ok (Some m) -> t_targets (w_trusted w3) !! role = Some m)) as Hloc.
    { intros w3 o1 H3. apply satt_inv in H3 as [(w4 & r & H4 & H3)|[(w4 & e & H4 & H3)|[H4 H3]]]; (apply (targets_ks K) in H4 as (H4 & Hh & Hsame); [|apply K3|by rewrite Ht2|by rewrite Ht2]).
      - inj H3. split; [done|]. split; [done|]. intros m [= <-]. by eapply Hh.
      - destruct (errors_is _ _); inj H3; (split; [done|split; [|done]]); intros; by apply Hsame.
      - subst o1. done. }
    apply sbind_inv in H as [(w3 & local & H3 & H)|[(e & H3 & ->)|[H3 ->]]]; apply Hloc in H3 as (H3 & Hn & Hs); [|split; [by eapply ks_trans|done]|split; [by eapply ks_trans|done]].
    destruct local as [m|].
    + inj H. split; [by eapply ks_trans|]. intros m' [= <-]. by apply Hs.
    + specialize (Hn eq_refl). apply Hremote in H as [H Hm]; [|by rewrite Hn, Ht2|by rewrite Hn, Ht2]. split; [|done]. eapply ks_trans; [done|by eapply ks_trans].
  - apply sbind_inv in H as [(w3 & local & H3 & H)|[(? & [=] & _)|[[=] _]]]. inj H3. apply Hremote in H as [H Hm]; [|by rewrite Ht2|by rewrite Ht2]. split; [|done]. by eapply ks_trans.
Qed.
(** what follows the root update *)
Definition after_root : M unit := do _ := load_timestamp E c in do _ := load_snapshot E c in do _ := load_targets E c TARGETS ROOT in sret tt.
Lemma online_refresh_split w : online_refresh E c w = (do _ := load_root E c in after_root) w.
Proof. done. Qed.
Lemma after_root_steps w w' o : after_root w = (w', o) -> ksteps KAfterRoot w w' /\ (o = Ok tt -> is_Some (t_targets (w_trusted w') !! "targets")).
Proof.
  unfold after_root. intros H.
  apply sbind_inv in H as [(w2 & u2 & H2 & H)|[(e & H2 & ->)|[H2 ->]]]; apply load_timestamp_steps in H2; [|by split|by split].
  apply sbind_inv in H as [(w3 & u3 & H3 & H)|[(e & H3 & ->)|[H3 ->]]]; apply load_snapshot_steps in H3; [|split; [by eapply ks_trans|done]|split; [by eapply ks_trans|done]].
  apply sbind_inv in H as [(w4 & m & H4 & H)|[(e & H4 & ->)|[H4 ->]]]; (apply (load_targets_steps KAfterRoot) in H4 as [H4 Hm]; [|done|intros v l; eexists _, _; split; [|reflexivity]; auto|done|by right; right|by left]).
  - inj H. split; [eapply ks_trans; [done|by eapply ks_trans]|]. intros _. exists m. by apply Hm.
  - split; [eapply ks_trans; [done|by eapply ks_trans]|done].
  - split; [eapply ks_trans; [done|by eapply ks_trans]|done].
Qed.
Lemma online_refresh_steps w w' o : online_refresh E c w = (w', o) -> ksteps KRefresh w w' /\ (o = Ok tt -> is_Some (t_targets (w_trusted w') !! "targets")).
Proof.
  rewrite online_refresh_split. intros H.
  apply sbind_inv in H as [(w1 & u & H1 & H)|[(e & H1 & ->)|[H1 ->]]]; apply load_root_steps in H1; [|by split|by split].
  apply after_root_steps in H as [H Hs]. split; [|done]. eapply ks_trans; [done|]. eapply ks_mono; [apply after_root_refresh|done].
Qed.
Lemma unsafe_refresh_steps w w' o : unsafe_refresh E c w = (w', o) -> ksteps KLocal w w' /\ (o = Ok tt -> is_Some (t_targets (w_trusted w') !! "targets")).
Proof.
  unfold unsafe_refresh. intros H.
  apply sbind_inv in H as [(w1 & d1 & H1 & H)|[(e & H1 & ->)|[H1 ->]]]; (apply (local_ks KLocal) in H1 as [H1 _]; [|exact I]); [|by split|by split].
  apply sbind_inv in H as [(w2 & ts & H2 & H)|[(e & H2 & ->)|[H2 ->]]]; (apply (timestamp_ks KLocal) in H2 as [H2 _]; [|exact I]); pose proof (ks_trans _ _ _ _ H1 H2) as H12; clear H1 H2; [|by split|by split].
  apply sbind_inv in H as [(w3 & d3 & H3 & H)|[(e & H3 & ->)|[H3 ->]]]; (apply (local_ks KLocal) in H3 as [H3 Ht3]; [|exact I]); pose proof (ks_trans _ _ _ _ H12 H3) as H13; clear H12 H3; [|by split|by split].
  apply sbind_inv in H as [(w4 & sn & H4 & H)|[(e & H4 & ->)|[H4 ->]]]; pose proof H4 as H4'; (apply (snapshot_ks KLocal) in H4 as [H4 _]; [|exact I|intros; exact I]); pose proof (ks_trans _ _ _ _ H13 H4) as H14; clear H13 H4; [|by split|by split].
  apply upd_snapshot_inv in H4' as (order & Ho & Hu & _). apply update_snapshot_spec in Hu as ((ts' & _ & Hnone & _) & _ & (_ & _ & _ & Htg & _)); [|done].
  apply sbind_inv in H as [(w5 & d5 & H5 & H)|[(e & H5 & ->)|[H5 ->]]]; (apply (local_ks KLocal) in H5 as [H5 Ht5]; [|exact I]); pose proof (ks_trans _ _ _ _ H14 H5) as H15; clear H14 H5; [|by split|by split].
  apply sbind_inv in H as [(w6 & m & H6 & H)|[(e & H6 & ->)|[H6 ->]]]; (apply (targets_ks KLocal) in H6 as (H6 & Hm & _); [|done|by rewrite Ht5, Htg|by left]); pose proof (ks_trans _ _ _ _ H15 H6) as H16; clear H15 H6; [|by split|by split].
  inj H. split; [done|]. intros _. destruct (Hm m eq_refl) as [_ Hm']. by exists m.
Qed.
Lemma refresh_steps w w' o : refresh E c w = (w', o) -> ksteps (if c_unsafe_local c then KLocal else KRefresh) w w' /\ (o = Ok tt -> is_Some (t_targets (w_trusted w') !! "targets")).
Proof. unfold refresh. destruct (c_unsafe_local c); [apply unsafe_refresh_steps|apply online_refresh_steps]. Qed.
End Updater.
