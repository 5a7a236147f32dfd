(** * Client histories: the trusted root over restarts and crashes (C97) *)
From stdpp Require Import base gmap strings list.
From Coq Require Import ZArith String Lia.
From Verif Require Import GoBase GoStr Json GoTime Types Marshal Keys Metadata TrustedMetadata Fetcher Updater SpecSig SpecBasic SpecTrusted SpecUpdater SpecHistory
  SigProofs BasicProofs SerialProofs SerialProofs TrustedProofs UpdaterProofs RefreshProofs ApiProofs BlockProofs ClaimProofs FinalProofs.
Open Scope Z_scope.

Section History.
Context {CR : Crypto} (dir : string).
Notation root_file := (root_json dir).
Lemma cache_root c : c_metadata_dir c = dir -> cache_name c "root" = root_file.
Proof. intros <-. unfold cache_name, root_json. do 2 f_equal. Qed.

Lemma root_chain_trans n r1 r2 : root_chain n r1 r2 -> forall k r3, root_chain k r2 r3 -> root_chain (n + k) r1 r3.
Proof.
  intros H1 k r3 H2. induction H2 as [r|k r r' r'' H2 IH Hs Hs' Hv]; [by rewrite Nat.add_0_r|]. replace (n + S k)%nat with (S (n + k)) by lia. econstructor; eauto.
Qed.
Lemma document_root data (r r' : metadata root_t) : document data r -> document data r' -> r = r'.
Proof. intros [H _] [H' _]. congruence. Qed.
Lemma document_types data (r : metadata root_t) (m : metadata targets_t) : document data r -> document data m -> False.
Proof.
  intros [H1 _] [H3 _]. apply from_bytes_ok in H1 as (j & Hj & _ & Ht & _). by apply (from_bytes_never data j "root" m Hj Ht).
Qed.
(** a call changes the root file to a successor of the trusted root, or to targets metadata of a role called root *)
Lemma call_root_file E c' a w w' o evs d : cache_name c' "root" = root_file -> reachable (w_trusted w) -> call_api E c' a w = (w', o) -> (forall tf p u, a = DownloadTarget tf p u -> ~ file_for E c' tf p root_file) ->
  happened (w_io w) (w_io w') evs -> crash (io_disk (w_io w)) evs d ->
  d !! root_file = io_disk (w_io w) !! root_file \/
  exists data, d !! root_file = Some data /\ ((exists n r, document data r /\ root_chain n (t_root (w_trusted w)) r) \/
    exists m : metadata targets_t, document data m /\ t_targets (w_trusted w') !! "root" = Some m).
Proof.
  intros Hn Hr H Hs He Hc. assert ((forall tf p u, a <> DownloadTarget tf p u) \/ exists tf p u, a = DownloadTarget tf p u) as [Ha|(tf & p & u & ->)] by (destruct a; [left; done|left; done|right; eauto|left; done]).
  2: { destruct (download_crash E c' tf p u w w' o evs d root_file H He Hc) as [?|(_ & data & _ & Hf & _)]; [by left|]. by destruct (Hs tf p u eq_refl). }
  rewrite <- Hn. destruct (api_crash E c' a w w' o evs d (cache_name c' "root") H Ha He Hc) as [Hd|(role & data & t & Hq & Hd & [Hp1 Hp2] & Hh)]; [apply cache_not_tmp|by left|].
  apply cache_name_inj in Hq as <-. right. exists data. split; [exact Hd|]. destruct Hh as [[_ Hdoc]|[[[=] _]|[[[=] _]|(m & Hm & Hdoc)]]].
  - left. destruct (root_chain_calls (w_trusted w) t) as [n Hch]; [by apply dcalls_calls|by apply reachable_range|]. by exists n, (t_root t).
  - right. exists m. split; [exact Hdoc|]. by eapply dcalls_targets_keep.
Qed.
Lemma call_disk E c' a w w' o : call_api E c' a w = (w', o) -> exists evs, happened (w_io w) (w_io w') evs /\ io_disk (w_io w') = replay (io_disk (w_io w)) evs.
Proof.
  intros H. destruct a as [|path|tf p u|tf p].
  1,2: destruct (api_events E c' _ _ _ _ H) as (bs & [Hex Hd] & _); [done|done|]; by exists (List.concat bs).
  - cbn [call_api] in H. destruct (download_target E c' tf p u w) as [w1 o1] eqn:Hd. injection H as <- _. apply download_target_run in Hd as (_ & evs & [Hex Hd] & _). by exists evs.
  - cbn [call_api] in H. destruct (lift (find_cached_target E c' tf p) w) as [w1 o1] eqn:Hf. injection H as <- _. apply lift_inv in Hf as [Hf _]. apply find_cached_run in Hf as (Hd & evs & Hex & Hev & _).
    exists evs. split; [done|]. rewrite Hd. destruct Hev as [-> |(p' & x & -> & _)]; done.
Qed.
Lemma new_disk E c' now i i' o : updater_new E c' now i = (i', o) -> exists evs, happened i i' evs /\ io_disk i' = replay (io_disk i) evs.
Proof. intros (evs0 & evs1 & [Hex Hd] & _)%new_events. by exists (evs0 ++ evs1). Qed.

Context (d0 : disk) (data0 : string) (r0 : metadata root_t) (Hd0 : d0 !! root_file = Some data0) (Hr0 : document data0 r0).
(** a role called root has been loaded *)
Definition root_role : Prop := exists E c w (m : metadata targets_t), history dir d0 (Running E c w) /\ t_targets (w_trusted w) !! "root" = Some m.
(** the root file holds a successor of the first root, or targets metadata *)
Definition good_file (d : disk) : Prop := exists data, d !! root_file = Some data /\
  ((exists n r, document data r /\ root_chain n r0 r) \/ (exists m : metadata targets_t, document data m) /\ root_role).
Definition good (s : client) : Prop :=
  match s with
  | Stopped d => good_file d
  | Running E c' w => good_file (io_disk (w_io w)) /\ (exists data now, trusting dir data c' /\ session E c' now w) /\ exists n, root_chain n r0 (t_root (w_trusted w))
  end.
Lemma good_call E c' a w w' o evs d : history dir d0 (Running E c' w') -> cache_name c' "root" = root_file -> reachable (w_trusted w) -> call_api E c' a w = (w', o) -> (forall tf p u, a = DownloadTarget tf p u -> ~ file_for E c' tf p root_file) ->
  (exists n, root_chain n r0 (t_root (w_trusted w))) -> good_file (io_disk (w_io w)) -> happened (w_io w) (w_io w') evs -> crash (io_disk (w_io w)) evs d -> good_file d.
Proof.
  intros Hh Hn Hr H Hs [n Hch] Hg He Hc. destruct (call_root_file E c' a w w' o evs d Hn Hr H Hs He Hc) as [Hd|(data & Hd & Hx)].
  - unfold good_file in *. rewrite Hd. exact Hg.
  - exists data. split; [exact Hd|]. destruct Hx as [(k & r & Hdoc & Hk)|(m & Hm & Hm')]; [left|right; split; [by exists m|by exists E, c', w', m]]. exists (n + k)%nat, r. split; [exact Hdoc|]. by eapply root_chain_trans.
Qed.
Lemma history_good s : history dir d0 s -> good s.
Proof.
  assert (forall d data (t : trusted) now, good_file d -> d !! root_file = Some data -> tm_new data now = Ok t -> exists n, root_chain n r0 (t_root t)) as Hstart.
  { intros d data t now (data' & Hd & Hx) Hd' (r & Hr & _ & ->)%tm_new_spec. assert (data' = data) as -> by congruence. destruct Hx as [(n & r' & Hdoc & Hch)|[(m & Hm) _]].
    - exists n. by rewrite (document_root _ _ _ Hr Hdoc).
    - by destruct (document_types _ _ _ Hr Hm). }
  assert (forall E c now d data tr i' o evs d', good_file d -> d !! root_file = Some data -> trusting dir data c -> updater_new E c now (mkIos d tr) = (i', o) -> happened (mkIos d tr) i' evs -> crash d evs d' -> good_file d') as Hnew.
  { intros E c now d data tr i' o evs d' Hg Hd [Hdir Hdata] H He Hc. destruct (new_crash E c now (mkIos d tr) i' o evs d' root_file H He Hc) as [Hq|(_ & Hq & _)].
    - rewrite <- (cache_root c Hdir). apply cache_not_tmp.
    - cbn [io_disk] in Hq. unfold good_file in *. by rewrite Hq.
    - unfold good_file in *. by rewrite Hq, Hdata, <- Hd. }
  induction 1 as [|E c now d data tr i' t _ IH Hd Ht H|E c now d data tr i' o evs d' _ IH Hd Ht H He Hc|E c w a w' o Hh IH Hs H|E c w a w' o evs d' Hh IH Hs H He Hc|E c w _ IH|d d' _ IH Hd|E c w i _ IH Hd]; cbn [good] in *.
  - exists data0. split; [exact Hd0|]. left. exists 0%nat, r0. split; [exact Hr0|constructor].
  - destruct (new_disk _ _ _ _ _ _ H) as (evs & He & Hr). split; [|split].
    + eapply Hnew; eauto. cbn [w_io]. rewrite Hr. apply crash_whole.
    + exists data, now. split; [done|]. by econstructor.
    + apply updater_new_ok in H as [H _]. destruct Ht as [_ Ht]. rewrite Ht in H. by eapply Hstart.
  - by eapply Hnew.
  - destruct IH as (Hg & (data & now & [Hdir Hdata] & Hse) & Hch). split; [|split].
    + destruct (call_disk _ _ _ _ _ _ H) as (evs & He & Hr). eapply (good_call E c a w w' o evs); [exact (hist_call dir d0 E c w a w' o Hh Hs H)|by apply cache_root|by eapply session_reachable|done|done|done|done|done|]. rewrite Hr. apply crash_whole.
    + exists data, now. split; [done|]. by eapply session_step.
    + destruct Hch as [n Hch]. destruct (root_chain_calls (w_trusted w) (w_trusted w')) as [k Hk]; [|apply reachable_range; by eapply session_reachable|].
      * apply dcalls_calls. pose proof (call_api_calls E c a w) as Hcc. by rewrite H in Hcc.
      * exists (n + k)%nat. by eapply root_chain_trans.
  - destruct IH as (Hg & (data & now & [Hdir Hdata] & Hse) & Hch). eapply (good_call E c a w w' o evs); [exact (hist_call dir d0 E c w a w' o Hh Hs H)|by apply cache_root|by eapply session_reachable|done|done|done|done|done|done].
  - by destruct IH.
  - unfold good_file in *. by rewrite Hd.
  - destruct IH as (Hg & (data & now & Ht & Hse) & Hch). split; [|split; [|exact Hch]].
    + destruct Hg as (data1 & Hg1 & Hg2). exists data1. split; [exact (eq_trans Hd Hg1)|exact Hg2].
    + exists data, now. split; [done|]. by constructor.
Qed.
End History.
