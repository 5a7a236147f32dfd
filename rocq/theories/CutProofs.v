(** * Proofs about interrupted sessions *)
From stdpp Require Import base gmap strings list.
From Coq Require Import ZArith Lia Ascii String.
From Verif Require Import GoBase GoStr GoTime Types Marshal Keys Metadata TrustedMetadata Fetcher Updater SpecBasic SpecSig SpecDeleg SpecTrusted SpecUpdater SpecReach SpecLive SpecCut.
From Verif Require Import BasicProofs TrustedProofs EventProofs UpdaterProofs WalkProofs BlockProofs RefreshProofs HonestProofs ReachProofs LiveProofs LifeProofs.
Open Scope Z_scope.

(** ** Cuts *)
Lemma cut_crash d evs evs1 d' : cut d evs evs1 d' -> crash d evs d'.
Proof. intros (rest & -> & H). by exists evs1, rest. Qed.
Lemma cut_app d a b evs1 d' : cut d (a ++ b) evs1 d' -> cut d a evs1 d' \/ exists b1, evs1 = a ++ b1 /\ cut (replay d a) b b1 d'.
Proof.
  intros (rest & He & H). apply app_eq_inv in He as [(k & -> & ->)|(k & -> & ->)].
  - destruct H as [-> |(p & data & rest & n & Hw & ->)]; [left; exists k; auto|]. destruct k as [|e k].
    + right. exists []. rewrite !app_nil_r. split; [done|]. exists b. split; [done|]. right. by exists p, data, rest, n.
    + left. injection Hw as -> Hw. exists (EvWrite p data :: k). split; [done|]. right. by exists p, data, k, n.
  - right. exists k. split; [done|]. exists rest. split; [done|]. by rewrite replay_app in H.
Qed.

Section Cut.
Context {CR : Crypto} (E : env) (c : config).
Definition same (i i' : ios) (x : string) : Prop := io_disk i' !! cache_name c x = io_disk i !! cache_name c x.
(** wherever it is cut, each cached file is as before or as after *)
Definition atomic (i i' : ios) : Prop := exists evs, explains i i' evs /\
  forall d, crash (io_disk i) evs d -> forall x, x <> "root" -> d !! cache_name c x = io_disk i !! cache_name c x \/ d !! cache_name c x = io_disk i' !! cache_name c x.
Definition quiet (i i' : ios) : Prop := atomic i i' /\ forall x, x <> "root" -> same i i' x.
Lemma atomic_trans i1 i2 i3 : atomic i1 i2 -> atomic i2 i3 -> (forall x, x <> "root" -> same i1 i2 x \/ same i2 i3 x) -> atomic i1 i3.
Proof.
  intros (a & Ha & H1) (b & Hb & H2) Hs. exists (a ++ b). split; [by eapply explains_app|]. intros d Hd x Hx. pose proof (Hs x Hx) as Hsx. unfold same in Hsx. destruct Ha as [_ Ha]. apply crash_app in Hd as [Hd|Hd].
  - destruct (H1 _ Hd x Hx) as [?|?]; [by left|]. destruct Hsx; [left|right]; congruence.
  - rewrite <- Ha in Hd. destruct (H2 _ Hd x Hx) as [?|?]; [|by right]. destruct Hsx; [left|right]; congruence.
Qed.
Lemma quiet_refl i : quiet i i.
Proof. split; [|done]. exists []. split; [apply explains_nil|]. intros d ->%crash_nil. auto. Qed.
Lemma quiet_trans i1 i2 i3 : quiet i1 i2 -> quiet i2 i3 -> quiet i1 i3.
Proof. intros [H1 H2] [H3 H4]. split; [by apply (atomic_trans _ i2); auto|]. unfold same in *. intros x Hx. rewrite H4, H2; done. Qed.
Lemma quiet_log i e : (forall d, apply_event d e = d) -> (forall p data, e <> EvWrite p data) -> quiet i (log (io_disk i) i e).
Proof.
  intros He Hw. split; [|done]. exists [e]. split; [by apply explains_log|]. intros d Hd x _. left. apply crash_one in Hd as [-> |[-> |(p & data & n & Hq & _)]]; [done|by rewrite He|]. by destruct (Hw p data).
Qed.
Definition one (role : string) (i i' : ios) : Prop := atomic i i' /\ forall x, x <> "root" -> x <> role -> same i i' x.
Lemma quiet_one role i i' : quiet i i' -> one role i i'.
Proof. intros [H1 H2]. split; auto. Qed.
Lemma quiet_then_one role i1 i2 i3 : quiet i1 i2 -> one role i2 i3 -> one role i1 i3.
Proof. intros [H1 H2] [H3 H4]. split; [apply (atomic_trans _ i2); auto|]. unfold same in *. intros x Hx Hy. rewrite H4, H2; done. Qed.
Lemma persist_one role data i : one role i (fst (persist_metadata E c role data i)).
Proof.
  destruct (persist_metadata E c role data i) as [i' o] eqn:Hp. cbn [fst]. split; [|intros x _ Hx; by destruct (persist_cached E c _ _ _ _ _ x Hp) as [?|[-> _]]].
  apply persist_shape in Hp as (evs & Hex & Hpe & _). exists evs. split; [done|]. intros d Hd x _. assert (~ tmp_name E (cache_name c x)) as Htmp by (intros Ht; by eapply tmp_not_cache).
  destruct (persist_crash _ _ _ _ _ _ _ _ Hpe Htmp Hd) as [?|[Hq Hdd]]; [by left|]. destruct Hex as [_ Hex]. rewrite Hex.
  assert (forall p x (d : disk), tmp_name E p -> <[p:=x]> d !! cache_name c role = d !! cache_name c role) as Hins by (intros p y d0 Hy; apply lookup_insert_ne; intros ->; by eapply tmp_not_cache).
  assert (forall p (d : disk), tmp_name E p -> delete p d !! cache_name c role = d !! cache_name c role) as Hdel by (intros p d0 Hy; apply lookup_delete_ne; intros ->; by eapply tmp_not_cache).
  assert (forall p x (d : disk), <[p:=x]> d !! p = Some x) as Hsame by (intros; apply lookup_insert).
  assert (forall p d0, tmp_name E p -> evs = [EvCreate p; EvWrite p data; EvRename p (cache_name c role)] -> replay d0 evs !! cache_name c role = Some data) as Hfin.
  { intros p d0 Hy ->. cbn [replay fold_left apply_event]. rewrite Hsame. apply Hsame. }
  rewrite Hq in Hdd |- *. destruct Hpe as [|p Hy|p Hy|p Hy|p ew er Hy Hw Hr].
  - apply crash_nil in Hd as ->. by left.
  - by right; apply crash_one in Hd as [-> |[-> |(p' & y & n & [=] & _)]].
  - right. rewrite (Hfin p) by done. done.
  - left. destruct (persist_crash E c role data [EvCreate p; EvWrite p data; EvFail "rename" p] (io_disk i) d (cache_name c role)) as [?|_]; [by constructor|by intros Ht; eapply tmp_not_cache|done|done|].
    apply crash_cons in Hd as [Hd|Hd]; [apply crash_one in Hd as [-> |[-> |(p' & y & n & [=] & _)]]; cbn [apply_event]; by rewrite ?Hins|].
    apply crash_cons in Hd as [Hd|Hd]; [apply crash_one in Hd as [-> |[-> |(p' & y & n & [= <- <-] & ->)]]; cbn [apply_event]; by rewrite ?Hins|].
    apply crash_one in Hd as [-> |[-> |(p' & y & n & [=] & _)]]; cbn [apply_event]; by rewrite ?Hins.
  - left. apply crash_cons in Hd as [Hd|Hd]; [apply crash_one in Hd as [-> |[-> |(p' & y & n & [=] & _)]]; cbn [apply_event]; by rewrite ?Hins|].
    assert (forall d', crash (apply_event (io_disk i) (EvCreate p)) [ew] d' -> d' !! cache_name c role = io_disk i !! cache_name c role) as H2.
    { intros d1 [-> |[-> |(p' & y & n & Hy' & ->)]]%crash_one; cbn [apply_event]; [by rewrite Hins| |].
      - destruct Hw as [->|[n ->]]; cbn [apply_event]; by rewrite ?Hins.
      - destruct Hw as [->|[k ->]]; [done|]. injection Hy' as <- <-. by rewrite !Hins. }
    apply crash_cons in Hd as [Hd|Hd]; [by apply H2|].
    assert (apply_event (apply_event (io_disk i) (EvCreate p)) ew !! cache_name c role = io_disk i !! cache_name c role) as H3 by (apply H2; exists [ew], []; split; [done|]; by left).
    apply crash_one in Hd as [-> |[-> |(p' & y & n & Hy' & _)]]; [done| |destruct Hr; congruence]. destruct Hr as [-> | ->]; cbn [apply_event]; [rewrite Hdel by done|]; exact H3.
Qed.
Lemma persist_root_quiet data i : quiet i (fst (persist_metadata E c "root" data i)).
Proof. destruct (persist_one "root" data i) as [H1 H2]. split; auto. Qed.

(** ** The calls *)
Definition qm {S A} (pr : S -> ios) (m : S -> S * outcome A) : Prop := forall s, quiet (pr s) (pr (fst (m s))).
Definition om {S A} (role : string) (pr : S -> ios) (m : S -> S * outcome A) : Prop := forall s, one role (pr s) (pr (fst (m s))).
Lemma qm_out {S A} (pr : S -> ios) (o : outcome A) : qm pr (sout o).
Proof. intros s. apply quiet_refl. Qed.
Lemma qm_ret {S A} (pr : S -> ios) (a : A) : qm pr (sret a).
Proof. intros s. apply quiet_refl. Qed.
Lemma qm_bind {S A B} (pr : S -> ios) (m : S -> S * outcome A) (f : A -> S -> S * outcome B) : qm pr m -> (forall a, qm pr (f a)) -> qm pr (sbind m f).
Proof. intros Hm Hf s. unfold sbind. pose proof (Hm s) as H. destruct (m s) as [s1 [a|e|]]; [|done..]. eapply quiet_trans; [exact H|apply Hf]. Qed.
Lemma qm_try {S A B} (pr : S -> ios) (m : S -> S * outcome A) (f : A + gerr -> S -> S * outcome B) : qm pr m -> (forall a, qm pr (f a)) -> qm pr (satt m f).
Proof. intros Hm Hf s. unfold satt. pose proof (Hm s) as H. destruct (m s) as [s1 [a|e|]]; [eapply quiet_trans; [exact H|apply Hf]..|done]. Qed.
Lemma om_q {S A} role (pr : S -> ios) (m : S -> S * outcome A) : qm pr m -> om role pr m.
Proof. intros H s. apply quiet_one, H. Qed.
Lemma om_bind {S A B} role (pr : S -> ios) (m : S -> S * outcome A) (f : A -> S -> S * outcome B) : qm pr m -> (forall a, om role pr (f a)) -> om role pr (sbind m f).
Proof. intros Hm Hf s. unfold sbind. pose proof (Hm s) as H. destruct (m s) as [s1 [a|e|]]; [|by apply quiet_one..]. eapply quiet_then_one; [exact H|apply Hf]. Qed.
Lemma om_try {S A B} role (pr : S -> ios) (m : S -> S * outcome A) (f : A + gerr -> S -> S * outcome B) : qm pr m -> (forall a, om role pr (f a)) -> om role pr (satt m f).
Proof. intros Hm Hf s. unfold satt. pose proof (Hm s) as H. destruct (m s) as [s1 [a|e|]]; [eapply quiet_then_one; [exact H|apply Hf]..|by apply quiet_one]. Qed.
(** followed by something that does nothing *)
Lemma om_last {S A B} role (pr : S -> ios) (m : S -> S * outcome A) (f : A -> S -> S * outcome B) : om role pr m -> (forall a s, pr (fst (f a s)) = pr s) -> om role pr (sbind m f).
Proof. intros Hm Hf s. unfold sbind. pose proof (Hm s) as H. destruct (m s) as [s1 [a|e|]]; [|done..]. by rewrite Hf. Qed.
Lemma qm_lift {A} (m : IO A) : qm id m -> qm w_io (lift m).
Proof. intros H w. unfold lift. pose proof (H (w_io w)) as Hq. by destruct (m (w_io w)) as [i o]. Qed.
Lemma om_lift {A} role (m : IO A) : om role id m -> om role w_io (lift m).
Proof. intros H w. unfold lift. pose proof (H (w_io w)) as Hq. by destruct (m (w_io w)) as [i o]. Qed.
Lemma qm_trusted {A} (f : trusted -> upd A) : qm w_io (on_trusted f).
Proof. intros w. unfold on_trusted. destruct (f (w_trusted w)) as [t o]. apply quiet_refl. Qed.
Lemma qm_get : qm w_io get_trusted.
Proof. intros w. apply quiet_refl. Qed.
Lemma qm_fetch url len : qm id (fetch E url len).
Proof. intros i. apply quiet_log; done. Qed.
Lemma qm_read p : qm id (read_file E p).
Proof. intros i. apply quiet_log; done. Qed.
Lemma qm_iterate {A} (m : gomap A) : qm id (iterate E m).
Proof. intros i. apply quiet_log; done. Qed.
Lemma qm_mkdir p : qm id (mkdir_all E p).
Proof. intros i. apply quiet_log; done. Qed.
Lemma qm_new now : qm id (updater_new E c now).
Proof.
  unfold updater_new. destruct (_ || _); [apply qm_out|]. apply qm_bind; [apply qm_out|]. intros t. apply qm_bind.
  - unfold ensure_paths. destruct (c_disable_cache c); [apply qm_ret|]. apply qm_bind; [apply qm_mkdir|]. intros _. apply qm_mkdir.
  - intros _. apply qm_bind; [|intros; apply qm_ret]. intros i. apply persist_root_quiet.
Qed.
Lemma qm_root_loop fuel : forall next, qm w_io (root_loop E c fuel next).
Proof.
  induction fuel as [|fuel IH]; intros next; cbn [root_loop]; [apply qm_ret|]. apply qm_try; [apply qm_lift, qm_fetch|]. intros [data|e].
  - apply qm_bind; [apply qm_trusted|]. intros m. apply qm_bind; [apply qm_lift; intros i; apply persist_root_quiet|]. intros _. apply IH.
  - destruct (http_status e) as [st|]; [destruct ((st =? 404) || (st =? 403))|]; first [apply qm_ret|apply qm_out].
Qed.
Lemma qm_load_root : qm w_io (load_root E c).
Proof. intros w. unfold load_root. apply qm_root_loop. Qed.
Lemma qm_ts_head l : qm w_io (ts_head l).
Proof. destruct l as [data|e]; [|apply qm_ret]. apply qm_try; [apply qm_trusted|]. intros [m|e]; [apply qm_ret|]. destruct (errors_is e _); [apply qm_ret|apply qm_out]. Qed.
Lemma om_ts_rest l : om "timestamp" w_io (do _ := ts_head l in timestamp_tail E c).
Proof.
  apply om_bind; [apply qm_ts_head|]. intros _. unfold timestamp_tail. apply om_bind; [apply qm_lift, qm_fetch|]. intros data. apply om_try; [apply qm_trusted|]. intros [m|e].
  - apply om_lift. intros i. apply persist_one.
  - destruct (errors_is e _); apply om_q; [apply qm_ret|apply qm_out].
Qed.
(** what comes after the request for the timestamp *)
Lemma timestamp_one w : quiet (w_io w) (fst (load_local E c TIMESTAMP (w_io w))) /\ one "timestamp" (fst (load_local E c TIMESTAMP (w_io w))) (w_io (fst (load_timestamp E c w))).
Proof.
  split; [apply qm_read|]. change (load_timestamp E c w) with ((try l := lift (load_local E c TIMESTAMP) in do _ := ts_head l in timestamp_tail E c) w).
  unfold satt, lift. destruct (load_local E c TIMESTAMP (w_io w)) as [i [data|e|]]; cbn [fst].
  - apply (om_ts_rest (inl data) (mkWorld (w_trusted w) i)).
  - apply (om_ts_rest (inr e) (mkWorld (w_trusted w) i)).
  - apply quiet_one, quiet_refl.
Qed.
Lemma qm_upd_snapshot data b : qm w_io (upd_snapshot E data b).
Proof. intros w. unfold upd_snapshot, on_trusted. destruct (update_snapshot _ _ _ _) as [t o]. cbn. apply quiet_log; done. Qed.
Lemma om_snapshot : om "snapshot" w_io (load_snapshot E c).
Proof.
  unfold load_snapshot. apply om_try; [apply qm_lift, qm_read|]. intros l. apply om_bind.
  { destruct l as [data|e]; [|apply qm_ret]. apply qm_try; [apply qm_upd_snapshot|]. intros [m|e]; [apply qm_ret|]. destruct (errors_is e _); [apply qm_ret|apply qm_out]. }
  intros [|]; [apply om_q, qm_ret|]. apply om_bind; [apply qm_get|]. intros t. destruct (t_timestamp t) as [ts|]; [|apply om_q, qm_out]. destruct (snapshot_meta ts) as [f|]; [|apply om_q, qm_out]. cbv zeta.
  apply om_bind; [apply qm_lift, qm_fetch|]. intros data. apply om_bind; [apply qm_upd_snapshot|]. intros m. apply om_lift. intros i. apply persist_one.
Qed.
Lemma om_targets role parent : om role w_io (load_targets E c role parent).
Proof.
  unfold load_targets. apply om_bind; [apply qm_get|]. intros t. destruct (t_targets t !! role); [apply om_q, qm_ret|]. apply om_try; [apply qm_lift, qm_read|]. intros l. apply om_bind.
  { destruct l as [data|e]; [|apply qm_ret]. apply qm_try; [apply qm_trusted|]. intros [m|e]; [apply qm_ret|]. destruct (errors_is e _); [apply qm_ret|apply qm_out]. }
  intros [m|]; [apply om_q, qm_ret|]. apply om_bind; [apply qm_get|]. intros t'. destruct (t_snapshot t') as [sn|]; [|apply om_q, qm_out]. destruct (mget _ _) as [[f|]|]; [|apply om_q, qm_out..]. cbv zeta.
  apply om_bind; [apply qm_lift, qm_fetch|]. intros data. apply om_bind; [apply qm_trusted|]. intros m. apply om_last; [|done]. apply om_lift. intros i. apply persist_one.
Qed.
(** searches and downloads write each role's file at most once *)
Definition tidy (w w' : world) : Prop := stored c w w' /\ atomic (w_io w) (w_io w') /\
  forall x, x <> "root" -> same (w_io w) (w_io w') x \/ (t_targets (w_trusted w) !! x = None /\ is_Some (t_targets (w_trusted w') !! x)).
Lemma tidy_quiet w w' : stored c w w' -> quiet (w_io w) (w_io w') -> tidy w w'.
Proof. intros Hs [H1 H2]. split; [done|]. split; [done|]. auto. Qed.
Lemma tidy_trans w1 w2 w3 : tidy w1 w2 -> tidy w2 w3 -> tidy w1 w3.
Proof.
  intros (S1 & A1 & T1) (S2 & A2 & T2). split; [by eapply stored_trans|]. destruct S1 as (_ & M1 & _), S2 as (_ & M2 & _). split.
  - apply (atomic_trans _ (w_io w2)); [done|done|]. intros x Hx. destruct (T1 x Hx) as [?|[_ [m Hm]]]; [by left|]. destruct (T2 x Hx) as [?|[Hn _]]; [by right|congruence].
  - intros x Hx. destruct (T1 x Hx) as [Hs1|[Hn [m Hm]]]; [|right; split; [done|exists m; by apply M2]]. destruct (T2 x Hx) as [Hs2|[Hn Hm]]; [left; unfold same in *; congruence|right]. split; [|done].
    destruct (t_targets (w_trusted w1) !! x) as [m|] eqn:Em; [|done]. by rewrite (M1 _ _ Em) in Hn.
Qed.
Lemma targets_tidy role parent w w' o : load_targets E c role parent w = (w', o) -> tidy w w'.
Proof.
  intros H. pose proof (targets_stored E c role parent w w' o H) as Hst. pose proof (om_targets role parent w) as [Ha Hs]. rewrite H in Ha, Hs. cbn [fst] in Ha, Hs.
  split; [done|]. split; [done|]. intros x Hx. destruct (decide (x = role)) as [->|Hne]; [|left; by apply Hs].
  destruct (t_targets (w_trusted w) !! role) as [m|] eqn:Em.
  - unfold load_targets in H. apply sbind_inv in H as [(w0 & t & Hg & H)|[(e & [=] & _)|[[=] _]]]. injection Hg as <- <-. rewrite Em in H. injection H as <- _. by left.
  - destruct Hst as (_ & _ & Hc). destruct (Hc role) as [Hq|(data & m & _ & _ & Hm)]; [by left|right]. split; [done|by exists m].
Qed.
Lemma tidy_refl w : tidy w w.
Proof. apply tidy_quiet; [apply stored_refl|apply quiet_refl]. Qed.
Lemma walk_tidy fuel target : forall visited todo w w' o, walk E c fuel target visited todo w = (w', o) -> tidy w w'.
Proof.
  induction fuel as [|fuel IH]; intros visited todo w w' o; cbn [walk]; [intros [= <- _]; apply tidy_refl|]. destruct (skip_visited visited todo) as [|[role parent] rest]; [intros [= <- _]; apply tidy_refl|].
  intros H. apply sbind_inv in H as [(w1 & m & Hl & H)|[(e & Hl & ->)|[Hl ->]]]; apply targets_tidy in Hl; [|done..]. eapply tidy_trans; [exact Hl|]. clear Hl.
  destruct (mget (tg_targets (md_signed m)) target); [injection H as <- _; apply tidy_refl|]. destruct (tg_delegations (md_signed m)) as [d|]; [|by eapply IH].
  apply sbind_inv in H as [(w2 & roles & Hs & H)|[(e & Hs & ->)|[Hs ->]]]; injection Hs as <- Hs; [|apply tidy_refl..].
  apply sbind_inv in H as [(w2 & order & Hi & H)|[(e & Hi & ->)|[Hi ->]]]; apply lift_inv in Hi as [Hi Htr]; unfold iterate in Hi; [|done..].
  destruct (take_children order) as [children term]. apply IH in H. eapply tidy_trans; [|exact H]. injection Hi as Hi _. apply tidy_quiet; [apply stored_same; [done|by rewrite <- Hi]|]. rewrite <- Hi. apply quiet_log; done.
Qed.
Lemma info_tidy path w w' o : is_Some (t_targets (w_trusted w) !! "targets") -> get_target_info E c path w = (w', o) -> tidy w w'.
Proof.
  intros [m Hm]. unfold get_target_info. intros H. apply sbind_inv in H as [(w0 & t & Hg & H)|[(e & [=] & _)|[[=] _]]]. injection Hg as <- <-. change TARGETS with "targets" in H. rewrite Hm in H.
  apply sbind_inv in H as [(w1 & u & Hs & H)|[(e & [=] & _)|[[=] _]]]. injection Hs as <- _. by eapply walk_tidy.
Qed.
Lemma qm_write p data : (forall x, p <> cache_name c x) -> qm id (write_file E p data).
Proof.
  intros Hp i. unfold write_file.
  assert (forall d y x, <[p := y]> d !! cache_name c x = (d : disk) !! cache_name c x) as Hins by (intros d y x; by apply lookup_insert_ne).
  assert (forall y, quiet i (log (<[p := y]> (io_disk i)) i (EvWrite p y))) as Hw.
  { intros y. split; [|intros x _; unfold same; cbn [log io_disk]; apply Hins]. eexists. split; [by apply explains_log|]. intros d Hd x _. left. apply crash_one in Hd as [-> |[-> |(p' & z & n & [= <- <-] & ->)]]; cbn [apply_event]; by rewrite ?Hins. }
  destruct (e_io E (io_trace i)); [apply Hw|]. destruct (e_partial E (io_trace i)) as [n|]; [apply Hw|]. apply quiet_log; done.
Qed.
Lemma download_tidy tf fp p w w' o : file_for E c tf fp p -> (forall x, p <> cache_name c x) -> download_target E c tf fp "" w = (w', o) -> tidy w w'.
Proof.
  intros Hf Hp H. destruct (download_elsewhere E c _ _ _ _ _ _ Hf H) as [Ht Hd]. apply tidy_quiet.
  { split; [by rewrite Ht|]. split; [by rewrite Ht|]. intros x. left. apply Hd. intros Hq. by apply (Hp x). }
  assert (qm w_io (download_target E c tf fp "")) as Hq; [|by specialize (Hq w); rewrite H in Hq]. unfold download_target.
  assert ((if String.eqb fp "" then target_file_path E c tf else Ok fp) = Ok p) as -> by (destruct Hf as [[Hne ->]|[-> Hf]]; [by destruct (String.eqb_spec fp "")|done]).
  intros w0. rewrite (sbind_run _ _ w0 w0 p) by done. revert w0. match goal with |- forall w0, quiet _ (w_io (fst (?m w0))) => change (qm w_io m) end.
  apply qm_bind; [apply qm_out|]. intros base. apply qm_bind; [apply qm_get|]. intros t. apply qm_bind.
  { destruct (_ && _); [|apply qm_ret]. apply qm_bind; [apply qm_lift, qm_iterate|]. intros hs. apply qm_ret. }
  intros path. apply qm_bind; [apply qm_lift, qm_fetch|]. intros data. apply qm_bind; [apply qm_out|]. intros _. apply qm_bind; [|intros; apply qm_ret]. destruct (c_disable_cache c); [apply qm_ret|]. by apply qm_lift, qm_write.
Qed.
Lemma used_tidy R w w' : used E c R w w' -> is_Some (t_targets (w_trusted w) !! "targets") -> tidy w w'.
Proof.
  induction 1 as [|path w w1 w2 o _ Hinfo _ IH|tf data fp p w w1 w2 o _ Hfile Hown Hdl _ IH]; intros Hm; [apply tidy_refl|..].
  - pose proof (info_tidy _ _ _ _ Hm Hinfo) as Hs. eapply tidy_trans; [exact Hs|]. apply IH. destruct Hm as [m Hm]. exists m. by apply Hs.
  - pose proof (download_tidy _ _ _ _ _ _ Hfile (fun x => proj1 Hown x) Hdl) as Hs. eapply tidy_trans; [exact Hs|]. apply IH. destruct Hm as [m Hm]. exists m. by apply Hs.
Qed.
(** ** A session: nothing but the root changes before the timestamp is requested; after that each file changes once *)
Lemma session_atomic now i i1 t w1 w2 R wr : c_unsafe_local c = false -> updater_new E c now i = (i1, Ok t) -> refresh E c (mkWorld t i1) = (w1, Ok tt) -> used E c R w1 w2 -> is_Some (t_targets (w_trusted w1) !! "targets") ->
  t_targets (w_trusted w2) !! "timestamp" = None -> t_targets (w_trusted w2) !! "snapshot" = None -> load_root E c (mkWorld t i1) = (wr, Ok tt) ->
  exists iq, io_trace iq = asks_timestamp E c wr /\ quiet i iq /\ atomic iq (w_io w2).
Proof.
  intros Hu Hnew Href Hused Htop Hnts Hnsn Hroot. exists (fst (load_local E c TIMESTAMP (w_io wr))). split; [done|].
  pose proof (qm_new now i) as Hq1. rewrite Hnew in Hq1. cbn [fst id] in Hq1. pose proof (qm_load_root (mkWorld t i1)) as Hq2. rewrite Hroot in Hq2. cbn [fst w_io] in Hq2. destruct (timestamp_one wr) as [Hq3 Ho3].
  split; [eapply quiet_trans; [exact Hq1|]; by eapply quiet_trans|].
  unfold refresh in Href. rewrite Hu in Href. unfold online_refresh in Href. rewrite (sbind_run _ _ _ _ _ Hroot) in Href.
  apply sbind_inv in Href as [(w3 & [] & H3 & Href)|[(e & _ & [=])|[_ [=]]]]. rewrite H3 in Ho3. cbn [fst] in Ho3.
  apply sbind_inv in Href as [(w4 & [] & H4 & Href)|[(e & _ & [=])|[_ [=]]]]. pose proof (om_snapshot w3) as Ho4. rewrite H4 in Ho4. cbn [fst] in Ho4.
  apply sbind_inv in Href as [(w5 & m & H5 & Href)|[(e & _ & [=])|[_ [=]]]]. injection Href as <-. pose proof (om_targets TARGETS ROOT w4) as Ho5. rewrite H5 in Ho5. cbn [fst] in Ho5.
  destruct (used_tidy _ _ _ Hused Htop) as (_ & Ha6 & Hs6). destruct Ho3 as [Ha3 Hs3], Ho4 as [Ha4 Hs4], Ho5 as [Ha5 Hs5].
  assert (forall x, x <> "root" -> x = "timestamp" \/ x = "snapshot" \/ x = "targets" -> same (w_io w5) (w_io w2) x) as Hs.
  { intros x Hx Hc. destruct (Hs6 x Hx) as [?|[Hn [m' Hm]]]; [done|]. destruct Hc as [-> |[-> | ->]]; [congruence..|]. destruct Htop as [m0 Htop]. congruence. }
  assert (forall i1 i2 i3 x, same i1 i2 x -> same i2 i3 x -> same i1 i3 x) as Hst by (unfold same; intros; congruence).
  apply (atomic_trans _ (w_io w3)); [done| |].
  - apply (atomic_trans _ (w_io w4)); [done| |].
    + apply (atomic_trans _ (w_io w5)); [done|done|]. intros x Hx. destruct (decide (x = "targets")) as [->|Hne]; [right; apply Hs; auto|left; by apply Hs5].
    + intros x Hx. destruct (decide (x = "snapshot")) as [->|Hne]; [right|left; by apply Hs4]. eapply Hst; [by apply Hs5|]. apply Hs; auto.
  - intros x Hx. destruct (decide (x = "timestamp")) as [->|Hne]; [right|left; by apply Hs3]. eapply Hst; [by apply Hs4|]. eapply Hst; [by apply Hs5|]. apply Hs; auto.
Qed.
End Cut.

Section HardLife.
Context {CR : Crypto} (E : env) (c : config) (r0 r : metadata root_t) (clock : trace -> Z) (Rs : list release) (n : trace -> nat).
Context (Hline : timeline E c r0 r clock Rs n).
Lemma fits_unchanged R now now' i i' : now <= now' -> (forall name f, rel_roles R !! name = Some f -> role_name_ok name) -> (forall x, x <> "root" -> io_disk i' !! cache_name c x = io_disk i !! cache_name c x) -> fits c r R now i -> fits c r R now' i'.
Proof.
  intros Hn Hnames Hk (Hf1 & Hf2 & Hf3 & Hf4). split_and!.
  - intros data Hd. rewrite Hk in Hd by done. by apply Hf1.
  - intros data Hd. rewrite Hk in Hd by done. destruct (Hf2 data Hd) as (sn & H1 & H2 & H3). exists sn. split; [done|]. split; [done|]. intros Hs. destruct (H3 Hs) as [->|[H4 H5]]; [by left|right]. split; [done|]. destruct H5 as [H5|H5]; [by left|right]. by apply (expired_later sn now).
  - intros data Hd. rewrite Hk in Hd by done. intros Hm. destruct (Hf3 data Hd Hm) as (m & H1 & H2 & H3). exists m. split; [done|]. split; [done|]. intros Hs. destruct (H3 Hs) as [->|[H4|H4]]; [by left|by right; left|right; right]. by apply (expired_later m now).
  - intros name f data Hf Hd. destruct (Hnames _ _ Hf) as [_ Hok]. rewrite Hk in Hd by set_solver. intros Hm. destruct (Hf4 name f data Hf Hd Hm) as (m & H1 & H2 & H3). exists m. split; [done|]. split; [done|]. intros n0 fn Hfn Hs. destruct (H3 n0 fn Hfn Hs) as [->|[H4|H4]]; [by left|by right; left|right; right]. by apply (expired_later m now).
Qed.
Lemma cut_ready i i1 t w1 w2 k R evs evs1 d d' tr : ready E c r0 r clock Rs n i -> updater_new E c (clock (io_trace i)) i = (i1, Ok t) -> refresh E c (mkWorld t i1) = (w1, Ok tt) ->
  Rs !! k = Some R -> up_to_date r (rel_pub R) (w_trusted w1) -> used E c R w1 w2 -> happened i (w_io w2) evs -> cut (io_disk i) evs evs1 d ->
  (forall role, d' !! cache_name c role = d !! cache_name c role) -> disk_works E c d' -> later (io_trace i ++ evs1) tr -> ready E c r0 r clock Rs n (mkIos d' tr).
Proof.
  intros Hr Hnew Href HR Hutd Hused Hev Hcut Hd' Hw Hl. destruct (session E c r0 r clock Rs n Hline i Hr) as (k2 & R2 & i2 & t2 & w3 & tr0 & HR2 & Hsd & Hup & Hl1 & Hk & Hnew2 & Href2 & Hutd2 & HI & Hgo & Hktr & Hltr & wr & Hroot & Htr0).
  rewrite Hnew in Hnew2. injection Hnew2 as <- <-. rewrite Href in Href2. injection Href2 as <-.
  assert (k2 = k) as ->. { apply (timestamp_number E c r0 r clock Rs n Hline k2 k R2 R HR2 HR). destruct Hutd as (_ & H1 & _), Hutd2 as (_ & H2 & _). congruence. }
  assert (R2 = R) as -> by congruence. destruct (live_used E c r0 r _ R tr0 w1 w2 Hsd Hup Hused Hl1 HI) as [Hl2 HI2].
  assert (is_Some (t_targets (w_trusted w1) !! "targets")) as Htop.
  { destruct HI as (_ & _ & _ & _ & _ & Htop & _). by exists (pub_targets_md (rel_pub R)). }
  assert (forall x, x ∈ ["root"; "timestamp"; "snapshot"] -> t_targets (w_trusted w2) !! x = None) as Hno.
  { pose proof Hsd as (_ & _ & _ & _ & _ & Hroles & _). pose proof HI2 as (_ & _ & _ & _ & Htg & _). intros x Hx. destruct (t_targets (w_trusted w2) !! x) as [m|] eqn:Em; [|done]. destruct (Htg _ _ Em) as (f & Hf & _). rewrite all_other in Hf by set_solver. destruct (Hroles _ _ Hf) as ([_ Hok] & _). set_solver. }
  assert (c_unsafe_local c = false) as Hu by (by destruct Hsd as (_ & [? _] & _)).
  destruct (session_atomic E c _ i i1 t w1 w2 R wr Hu Hnew Href Hused Htop (Hno "timestamp" ltac:(set_solver)) (Hno "snapshot" ltac:(set_solver)) Hroot) as (iq & Hiq & [(evsq & [Hq1 Hq2] & Hqc) Hqs] & (evsr & [Hr1 Hr2] & Hrc)).
  assert (evs = evsq ++ evsr) as ->. { unfold happened in *. rewrite Hr1, Hq1 in Hev. rewrite <- app_assoc in Hev. by apply app_inv_head in Hev. }
  pose proof Hline as (Hord & Hroots & Hmono & _). assert (later (io_trace i) tr) as Hli by (eapply later_trans; [|exact Hl]; by exists evs1). destruct (Hmono _ _ Hli) as [Hni Hclock].
  pose proof (used_stored E c R w1 w2 Hused Htop) as Hst. pose proof Hr as (Ha1 & Ha2 & Ha3 & Ha4 & _ & Hcache). split; [done|]. split; [done|]. split; [done|]. split; [done|]. split; [done|]. cbn [io_trace io_disk].
  intros R' (j' & Hj')%elem_of_list_lookup. rewrite lookup_drop in Hj'. set (k' := (n tr + j')%nat) in *.
  assert (fits c r R' (clock (io_trace i)) i) as Hfit.
  { apply Hcache. apply (elem_of_list_lookup_2 _ (k' - n (io_trace i))%nat). rewrite lookup_drop. by replace (n (io_trace i) + (k' - n (io_trace i)))%nat with k' by lia. }
  assert (forall name f, rel_roles R' !! name = Some f -> role_name_ok name) as Hnames by (by apply Hroots, (elem_of_list_lookup_2 _ k')).
  assert (fits c r R' (clock tr) (mkIos d' tr)) as Hgoal; [|exact Hgoal]. apply cut_app in Hcut as [Hcut|(b1 & -> & Hcut)].
  - apply (fits_unchanged R' (clock (io_trace i)) _ i); [done|done| |done]. intros x Hx. cbn [io_disk]. rewrite Hd'. apply cut_crash in Hcut. destruct (Hqc _ Hcut x Hx) as [?|Hq]; [done|]. rewrite Hq. by apply Hqs.
  - assert (later tr0 tr) as Hlt. { eapply later_trans; [|exact Hl]. exists b1. rewrite Htr0, <- Hiq. unfold happened in Hq1. by rewrite Hq1, app_assoc. }
    destruct (Hmono _ _ Hlt) as [Hn0 _]. assert (k <= k')%nat as Hkk by (unfold k'; lia).
    apply (fits_after c r0 r (moved tr0 E) (clock (io_trace i)) _ R R' i _ w2 Hsd Hclock); [|done|done| |done].
    + destruct (decide (k = k')) as [Hq|Hq]; [left; rewrite <- Hq in Hj'; congruence|right; apply (Hord k k'); [lia|done|done]].
    + intros x Hx. cbn [io_disk]. rewrite Hd'. apply cut_crash in Hcut. rewrite <- Hq2 in Hcut. destruct (Hrc _ Hcut x Hx) as [Hq|Hq]; rewrite Hq; [left; by apply Hqs|]. change (kept w2 (io_disk i !! cache_name c x) (cached c w2 x) x).
      eapply kept_more; [exact Hst|]. rewrite <- (new_cached E c _ _ _ _ x Hnew Hx). by apply (refresh_kept E c (mkWorld t i1) w1 x).
Qed.
Lemma hard_ready i ks i' : ready E c r0 r clock Rs n i -> hard_life E c r clock Rs i ks i' -> ready E c r0 r clock Rs n i' /\ later (io_trace i) (io_trace i') /\ (forall k, k ∈ ks -> (n (io_trace i) <= k <= n (io_trace i'))%nat) /\ (forall a b j k, ks !! a = Some j -> ks !! b = Some k -> (a <= b)%nat -> (j <= k)%nat).
Proof.
  pose proof Hline as (_ & _ & Hmono & _). intros Hi. induction 1 as [|ks i0 i1 t w1 w2 k R Hlife IH Hnew Href HR Hutd Hused|ks i0 i1 t w1 w2 k R evs evs1 d d' tr Hlife IH Hnew Href HR Hutd Hused Hev Hcut Hd' Hw Hl].
  - split; [done|]. split; [apply later_refl|]. split; [set_solver|]. intros a b j k [=].
  - destruct IH as (Hr0 & Hl0 & Hks & Hord). assert (life E c r clock Rs i0 ([] ++ [k]) (w_io w2)) as Hone by (eapply life_again; [apply life_begins|done..]).
    destruct (life_ready E c r0 r clock Rs n Hline i0 _ _ Hr0 Hone) as (Hr2 & Hl2 & Hk & _). specialize (Hk k ltac:(set_solver)). destruct (Hmono _ _ Hl0) as [Hn0 _]. split; [done|]. split; [by eapply later_trans|]. split.
    + intros j [Hj|Hj%elem_of_list_singleton]%elem_of_app; [apply Hks in Hj; lia|subst j; lia].
    + intros a b j j2 Ha Hb Hab. apply lookup_app_Some in Hb as [Hb|[Hlb Hb]].
      * assert (a < List.length ks)%nat by (apply lookup_lt_Some in Hb; lia). rewrite lookup_app_l in Ha by done. by apply (Hord a b).
      * apply list_lookup_singleton_Some in Hb as [_ <-]. apply lookup_app_Some in Ha as [Ha|[_ Ha]]; [apply elem_of_list_lookup_2, Hks in Ha; lia|]. apply list_lookup_singleton_Some in Ha as [_ <-]. done.
  - destruct IH as (Hr0 & Hl0 & Hks & Hord). assert (later (io_trace i0) tr) as Hl1 by (eapply later_trans; [|exact Hl]; by exists evs1). destruct (Hmono _ _ Hl1) as [Hn1 _].
    split; [by apply (cut_ready i0 i1 t w1 w2 k R evs evs1 d)|]. split; [by eapply later_trans|]. split; [|done]. intros j Hj%Hks. cbn [io_trace]. lia.
Qed.
End HardLife.
