(** * Proofs about API calls and sessions *)
From stdpp Require Import base gmap strings list.
From Coq Require Import ZArith Lia Ascii String.
From Verif Require Import GoBase GoStr GoTime Types Marshal Keys Metadata TrustedMetadata Fetcher Updater SpecBasic SpecTrusted SpecUpdater.
From Verif Require Import StrProofs PathProofs DelegProofs SigProofs BasicProofs TrustedProofs EventProofs UpdaterProofs WalkProofs BlockProofs.
Open Scope Z_scope.

Section Api.
Context {CR : Crypto} (E : env) (c : config).

(** ** DownloadTarget *)
Definition get_only (tf : targetfile) (e : event) : Prop := match e with EvChoice => True | EvGet _ len _ => len = tf_length tf | _ => False end.
Inductive download_run (tf : targetfile) (fp : string) : list event -> outcome (string * string) -> Prop :=
  | dr_failed evs o : Forall (get_only tf) evs -> (forall r, o <> Ok r) -> download_run tf fp evs o
  | dr_uncached pre url p data : Forall (eq EvChoice) pre -> file_for E c tf fp p -> targetfile_verify tf data = Ok tt -> c_disable_cache c = true ->
      download_run tf fp (pre ++ [EvGet url (tf_length tf) (Ok data)]) (Ok (p, data))
  | dr_stored pre url p data : Forall (eq EvChoice) pre -> file_for E c tf fp p -> targetfile_verify tf data = Ok tt -> c_disable_cache c = false ->
      download_run tf fp (pre ++ [EvGet url (tf_length tf) (Ok data); EvWrite p data]) (Ok (p, data))
  | dr_not_stored pre url p data ew e : Forall (eq EvChoice) pre -> file_for E c tf fp p -> targetfile_verify tf data = Ok tt -> c_disable_cache c = false ->
      (ew = EvFail "write" p \/ exists n, ew = EvWrite p (str_take n data)) -> download_run tf fp (pre ++ [EvGet url (tf_length tf) (Ok data); ew]) (Err e).
Lemma choice_get_only tf pre : Forall (eq EvChoice) pre -> Forall (get_only tf) pre.
Proof. intros H. eapply Forall_impl; [exact H|]. by intros ? <-. Qed.
Lemma sout_inv {S A} (o : outcome A) (s s' : S) r : sout o s = (s', r) -> s' = s /\ r = o.
Proof. by intros [= <- <-]. Qed.
Lemma download_target_run tf fp bu w w' o : download_target E c tf fp bu w = (w', o) ->
  w_trusted w' = w_trusted w /\ exists evs, explains (w_io w) (w_io w') evs /\ download_run tf fp evs o.
Proof.
  unfold download_target. intros H.
  apply sbind_inv in H as [(w1 & p & H1 & H)|[(e & H1 & ->)|[H1 ->]]]; apply sout_inv in H1 as [-> H1];
    [|split; [done|]; exists []; (split; [apply explains_nil|by apply dr_failed])..].
  assert (file_for E c tf fp p) as Hp by (unfold file_for; destruct (String.eqb_spec fp ""); [right; split; [done|congruence]|left; split; [done|congruence]]).
  apply sbind_inv in H as [(w1 & u & H2 & H)|[(e & H2 & ->)|[H2 ->]]]; apply sout_inv in H2 as [-> _];
    [|split; [done|]; exists []; (split; [apply explains_nil|by apply dr_failed])..].
  apply sbind_inv in H as [(w1 & t & H3 & H)|[(e & [=] & _)|[[=] _]]]. unfold get_trusted in H3. inj H3.
  assert (forall w2 o2, (if consistent (w_trusted w1) && c_prefix_hash c then
                do hs := lift (iterate E (tf_hashes tf)) in sret (prefixed_path (tf_path tf) (first_hash hs))
              else sret (tf_path tf)) w1 = (w2, o2) -> w_trusted w2 = w_trusted w1 /\ exists pre, explains (w_io w1) (w_io w2) pre /\ Forall (eq EvChoice) pre) as Hpath.
  { intros w2 o2. destruct (_ && _).
    - unfold sbind, lift, iterate. cbn. intros [= <- <-]. split; [done|]. exists [EvChoice]. split; [by apply explains_log|]. by constructor.
    - intros [= <- <-]. split; [done|]. exists []. split; [apply explains_nil|constructor]. }
  apply sbind_inv in H as [(w2 & path & H3 & H)|[(e & H3 & ->)|[H3 ->]]]; apply Hpath in H3 as (Ht2 & pre & Hpre & Hg);
    assert (Forall (get_only tf) pre) as Hg' by (eapply Forall_impl; [exact Hg|]; by intros ? <-);
    [|split; [done|]; exists pre; (split; [done|by apply dr_failed])..].
  apply sbind_inv in H as [(w3 & data & H4 & H)|[(e & H4 & ->)|[H4 ->]]]; pose proof (lift_inv _ _ _ _ H4) as [_ Ht3]; unfold lift, fetch in H4; inj H4.
  2: { split; [done|]. eexists. split; [eapply explains_app; [exact Hpre|by apply explains_log]|]. apply dr_failed; [|done]. apply Forall_app. split; [done|]. by constructor. }
  2: { split; [done|]. eexists. split; [eapply explains_app; [exact Hpre|by apply explains_log]|]. apply dr_failed; [|done]. apply Forall_app. split; [done|]. by constructor. }
  cbn in Ht3. match type of H with _ ?x = _ => set (w3 := x) in H end.
  assert (explains (w_io w1) (w_io w3) (pre ++ [EvGet (u +:+ path) (tf_length tf) (Ok data)])) as Hex.
  { eapply explains_app; [exact Hpre|]. unfold w3. cbn. rewrite H0. by apply explains_log. }
  apply sbind_inv in H as [(w4 & [] & H5 & H)|[(e & H5 & ->)|[H5 ->]]]; apply sout_inv in H5 as [-> Hv].
  2: { split; [done|]. eexists. split; [exact Hex|]. apply dr_failed; [|done]. apply Forall_app. split; [done|]. by constructor. }
  2: { split; [done|]. eexists. split; [exact Hex|]. apply dr_failed; [|done]. apply Forall_app. split; [done|]. by constructor. }
  symmetry in Hv. destruct (c_disable_cache c) eqn:Ec.
  { apply sbind_inv in H as [(w4 & [] & H6 & H)|[(e & [=] & _)|[[=] _]]]. injection H6 as <-. injection H as <- <-. split; [done|]. eexists. split; [exact Hex|]. by apply dr_uncached. }
  apply sbind_inv in H as [(w4 & [] & H6 & H)|[(e & H6 & ->)|[H6 ->]]]; apply lift_inv in H6 as [H6 Ht]; unfold write_file in H6.
  - injection H as <- <-. split; [by rewrite Ht|]. destruct (e_io E (io_trace (w_io w3))); [|destruct (e_partial E (io_trace (w_io w3))); done]. injection H6 as H6.
    exists (pre ++ [EvGet (u +:+ path) (tf_length tf) (Ok data); EvWrite p data]). split; [|by apply dr_stored].
    change ([EvGet (u +:+ path) (tf_length tf) (Ok data); EvWrite p data]) with ([EvGet (u +:+ path) (tf_length tf) (Ok data)] ++ [EvWrite p data]). rewrite app_assoc.
    eapply explains_app; [exact Hex|]. rewrite <- H6. by apply explains_log.
  - split; [by rewrite Ht|].
    assert (exists ew, explains (w_io w3) (w_io w') [ew] /\ (ew = EvFail "write" p \/ exists n, ew = EvWrite p (str_take n data))) as (ew & Hew & Hsh).
    { destruct (e_io E (io_trace (w_io w3))); [done|]. destruct (e_partial E (io_trace (w_io w3))) as [n|]; injection H6 as H6 _; rewrite <- H6; eexists; (split; [by apply explains_log|eauto]). }
    exists (pre ++ [EvGet (u +:+ path) (tf_length tf) (Ok data); ew]). split; [|by eapply dr_not_stored].
    change ([EvGet (u +:+ path) (tf_length tf) (Ok data); ew]) with ([EvGet (u +:+ path) (tf_length tf) (Ok data)] ++ [ew]). rewrite app_assoc. by eapply explains_app.
  - destruct (e_io E (io_trace (w_io w3))); [done|]. by destruct (e_partial E (io_trace (w_io w3))).
Qed.

(** ** FindCachedTarget *)
Lemma find_cached_run tf fp i i' o : find_cached_target E c tf fp i = (i', o) -> io_disk i' = io_disk i /\
  exists evs, happened i i' evs /\ (evs = [] \/ exists p r, evs = [EvRead p r] /\ file_for E c tf fp p) /\
    ((o = Ok ("", "")) \/ (exists p data, o = Ok (p, data) /\ io_disk i !! p = Some data /\ targetfile_verify tf data = Ok tt /\ file_for E c tf fp p /\ c_disable_cache c = false) \/
     (fp = "" /\ c_disable_cache c = false /\ ~ (exists p, target_file_path E c tf = Ok p) /\ o = omap_ (fun _ => ("", "")) (target_file_path E c tf))).
Proof.
  unfold find_cached_target. destruct (c_disable_cache c) eqn:Ec.
  { intros [= <- <-]. split; [done|]. exists []. split; [apply happened_nil|]. auto. }
  intros H. apply sbind_inv in H as [(i1 & p & H1 & H)|[(e & H1 & ->)|[H1 ->]]]; apply sout_inv in H1 as [-> H1].
  2: { split; [done|]. exists []. split; [apply happened_nil|]. split; [auto|]. right; right. destruct (String.eqb_spec fp "") as [-> |]; [|done]. rewrite <- H1. split; [done|]. split; [done|]. split; [by intros [? ?]|done]. }
  2: { split; [done|]. exists []. split; [apply happened_nil|]. split; [auto|]. right; right. destruct (String.eqb_spec fp "") as [-> |]; [|done]. rewrite <- H1. split; [done|]. split; [done|]. split; [by intros [? ?]|done]. }
  assert (file_for E c tf fp p) as Hp by (unfold file_for; destruct (String.eqb_spec fp ""); [right; split; [done|congruence]|left; split; [done|congruence]]).
  unfold satt, read_file in H. destruct (io_disk i !! p) as [data|] eqn:Ed.
  - destruct (e_io E (io_trace i)).
    + destruct (targetfile_verify_cases tf data) as [Hv|[msg Hv]]; rewrite Hv in H; injection H as <- <-; (split; [done|]); eexists; (split; [done|]); (split; [right; eauto|]).
      * right; left. eauto 10.
      * auto.
    + injection H as <- <-. split; [done|]. eexists. split; [done|]. split; [right; eauto|auto].
  - injection H as <- <-. split; [done|]. eexists. split; [done|]. split; [right; eauto|auto].
Qed.

(** ** Sessions *)
Lemma updater_new_ok now i i' t : updater_new E c now i = (i', Ok t) -> tm_new (c_trusted_root c) now = Ok t /\
  exists evs0 evs, explains i i' (evs0 ++ evs) /\ Forall (fun e => exists p b, e = EvMkdir p b) evs0 /\ persist_events E c "root" (c_trusted_root c) evs /\ (c_disable_cache c = true -> evs0 = [] /\ evs = []).
Proof.
  unfold updater_new. destruct (_ || _); [done|]. intros H.
  apply sbind_inv in H as [(i1 & t1 & H1 & H)|[(e & H1 & [=])|[H1 [=]]]]. apply sout_inv in H1 as [-> Ht].
  apply sbind_inv in H as [(i2 & [] & H2 & H)|[(e & H2 & [=])|[H2 [=]]]]. apply sbind_inv in H as [(i3 & [] & H3 & H)|[(e & H3 & [=])|[H3 [=]]]].
  injection H as <- <-. split; [done|]. apply persist_shape in H3 as (evs & Hex & Hpe & _ & Hdis & _).
  assert (exists evs0, explains i i2 evs0 /\ Forall (fun e => exists p b, e = EvMkdir p b) evs0 /\ (c_disable_cache c = true -> evs0 = [])) as (evs0 & Hex0 & Hf & Hd0).
  { unfold ensure_paths in H2. destruct (c_disable_cache c); [injection H2 as ->; exists []; split; [apply explains_nil|split; [constructor|done]]|].
    unfold sbind, mkdir_all in H2. repeat case_match; simplify_eq. eexists ([_] ++ [_]). split; [eapply explains_app; apply explains_log; done|]. split; [repeat constructor; eauto|done]. }
  exists evs0, evs. split; [by eapply explains_app|]. split; [done|]. split; [done|]. intros Hc. split; [by apply Hd0|]. by apply Hdis.
Qed.
Lemma call_api_steps a w w' o : call_api E c a w = (w', o) -> (exists tf p, a = FindCachedTarget tf p) \/ (exists tf p u, a = DownloadTarget tf p u) \/ ksteps E c KAny w w'.
Proof.
  destruct a as [|path|tf p u|tf p]; cbn [call_api].
  - intros H. right; right. apply refresh_steps in H as [H _]. eapply ks_mono; [|exact H]. destruct (c_unsafe_local c); by intros [].
  - destruct (get_target_info E c path w) as [w1 o1] eqn:Eg. intros [= <- <-]. right; right. by eapply get_target_info_steps.
  - intros _. right; left. eauto.
  - intros _. left. eauto.
Qed.
Lemma call_api_calls a w : disciplined_calls (w_trusted w) (w_trusted (fst (call_api E c a w))).
Proof.
  destruct (call_api E c a w) as [w' o] eqn:Ea. destruct (call_api_steps _ _ _ _ Ea) as [(tf & p & ->)|[(tf & p & u & ->)|H]].
  - cbn [call_api] in Ea. destruct (lift _ w) as [w1 o1] eqn:El. injection Ea as <- <-. apply lift_inv in El as [_ El]. cbn. rewrite El. constructor.
  - cbn [call_api] in Ea. destruct (download_target _ _ _ _ _ w) as [w1 o1] eqn:El. injection Ea as <- <-. apply download_target_run in El as [El _]. cbn. rewrite El. constructor.
  - by eapply ksteps_calls.
Qed.
Lemma session_calls now w : session E c now w -> exists t0, tm_new (c_trusted_root c) now = Ok t0 /\ disciplined_calls t0 (w_trusted w).
Proof.
  induction 1 as [i i' t H|w a _ (t0 & Ht & Hc)|w d _ (t0 & Ht & Hc)].
  - apply updater_new_ok in H as [H _]. exists t. split; [done|constructor].
  - exists t0. split; [done|]. eapply dcalls_trans; [done|]. apply call_api_calls.
  - by exists t0.
Qed.
Lemma session_dinv now w : session E c now w -> dinv (w_trusted w).
Proof. intros (t0 & Ht & Hc)%session_calls. eapply dinv_disciplined; eauto. Qed.
Lemma session_reachable now w : session E c now w -> reachable (w_trusted w).
Proof. intros (t0 & Ht & Hc)%session_calls. exists (c_trusted_root c), now, t0. split; [done|]. by apply dcalls_calls. Qed.
Lemma session_ref now w : session E c now w -> t_ref (w_trusted w) = now.
Proof.
  intros (t0 & Ht & Hc)%session_calls. apply tm_new_spec in Ht as (r & ? & ? & ->).
  assert (forall t cl, t_ref (fst (perform t cl)) = t_ref t) as Hp.
  { intros t [data|data|order data tr|data role dl].
    - rewrite fst_perform_rt. unfold update_root. repeat case_match; done.
    - rewrite fst_perform_ts. unfold update_timestamp. repeat case_match; done.
    - rewrite fst_perform_sn. unfold update_snapshot. repeat case_match; done.
    - rewrite fst_perform_tg. unfold update_delegated_targets. repeat case_match; done. }
  remember (mkTrusted _ _ _ _ _) as t0 eqn:Et. assert (t_ref t0 = now) as Href by (by rewrite Et). clear Et. induction Hc as [|t t' cl _ IH _ _]; [done|]. rewrite Hp. auto.
Qed.
Lemma session_step now w a w' o : session E c now w -> call_api E c a w = (w', o) -> session E c now w'.
Proof. intros Hs Ha. replace w' with (fst (call_api E c a w)) by (by rewrite Ha). by constructor. Qed.

(** ** C51 *)
Lemma dinv_top_level t m : reachable t -> dinv t -> t_targets t !! "targets" = Some m -> top_level_set t.
Proof.
  intros Hr (H0 & H1 & H2 & H3) Hm. destruct (H3 _ _ Hm) as (sn & Hsn & (Hx & ts & f & Hts & Hf & Hv) & (ft & data & Hl & Hd & Hmf & Hvt) & Hxt & _ & _).
  destruct (toplevel_inv t Hr) as (Hroot & Hts' & Hsn' & _). destruct (Hts' _ Hts) as [Hs1 Hx1]. destruct (Hsn' _ Hsn) as (Hs2 & ts2 & Hts2 & Hx2). rewrite Hts in Hts2. injection Hts2 as <-.
  exists ts, sn, m, f, ft. split_and!; try done. by apply H2.
Qed.
Lemma refresh_complete now w w' : session E c now w -> call_api E c Refresh w = (w', Ok tt) -> top_level_set (w_trusted w').
Proof.
  intros Hs Ha. pose proof (session_step _ _ _ _ _ Hs Ha) as Hs'. cbn [call_api] in Ha. apply refresh_steps in Ha as [_ Ha]. destruct (Ha eq_refl) as [m Hm].
  eapply dinv_top_level; [by eapply session_reachable|by eapply session_dinv|done].
Qed.
End Api.
