(** * Properties C97 and C98: clients that are restarted and interrupted *)
From stdpp Require Import base gmap strings list.
From Coq Require Import ZArith Lia Ascii String.
From Verif Require Import GoBase GoStr Json GoTime Types Marshal Keys Metadata TrustedMetadata Fetcher Updater SpecBasic SpecTrusted SpecUpdater SpecHistory
  StrProofs TrustedProofs EventProofs ApiProofs BlockProofs ClaimProofs FinalProofs HonestProofs HistoryProofs Toy Examples ExamplesUpdater.
Open Scope Z_scope.

Lemma ex_first : exists r : metadata root_t, document (bytes_of (ex_root 1)) r /\ root_signs r "root" r.
Proof.
  assert (is_ok (tm_new (bytes_of (ex_root 1)) ex_now) = true) as H by (vm_compute; reflexivity). destruct (tm_new (bytes_of (ex_root 1)) ex_now) as [t| |] eqn:Ht; [|discriminate H..].
  apply tm_new_spec in Ht as (r & ? & ? & _). by exists r.
Qed.

(** ** C97 *)
(** Whenever the client runs, its root is a successor of the first root, over any number of runs, calls, failures and
    interruptions *)
Theorem C97_trust {CR : Crypto} dir d0 data0 (r0 : metadata root_t) E c w : d0 !! root_json dir = Some data0 -> document data0 r0 -> history dir d0 (Running E c w) ->
  exists n, root_chain n r0 (t_root (w_trusted w)).
Proof. intros Hd Hr H. apply (history_good dir d0 data0 r0 Hd Hr) in H as (_ & _ & Hn). exact Hn. Qed.
Print Assumptions C97_trust.
(** and so its version does not go back *)
Theorem C97_version {CR : Crypto} dir d0 data0 (r0 : metadata root_t) E c w : d0 !! root_json dir = Some data0 -> document data0 r0 -> history dir d0 (Running E c w) ->
  exists n, root_chain n r0 (t_root (w_trusted w)) /\
    (rt_version (md_signed r0) + Z.of_nat n < 2 ^ 63 -> rt_version (md_signed (t_root (w_trusted w))) = rt_version (md_signed r0) + Z.of_nat n).
Proof. intros Hd Hr H. destruct (C97_trust dir d0 data0 r0 E c w Hd Hr H) as (n & Hn). exists n. split; [done|]. by apply root_chain_version. Qed.
Print Assumptions C97_version.
(** At any moment the root file holds a complete document: a successor of the first root, or, if a delegated role called
    root has been loaded, that role's metadata *)
Theorem C97_file {CR : Crypto} dir d0 data0 (r0 : metadata root_t) s : d0 !! root_json dir = Some data0 -> document data0 r0 -> history dir d0 s ->
  exists data, files s !! root_json dir = Some data /\
    ((exists n (r : metadata root_t), document data r /\ root_chain n r0 r) \/
     ((exists m : metadata targets_t, document data m) /\ exists E c w (m : metadata targets_t), history dir d0 (Running E c w) /\ t_targets (w_trusted w) !! "root" = Some m)).
Proof. intros Hd Hr H. apply (history_good dir d0 data0 r0 Hd Hr) in H. destruct s as [d|E c w]; [exact H|]. destruct H as (H & _). exact H. Qed.
Print Assumptions C97_file.
(** So if no role called root is ever loaded, the client can be restarted at any time: a new updater that takes its root
    from the file is made if the file operations work *)
Theorem C97_restart {CR : Crypto} dir d0 data0 (r0 : metadata root_t) d : d0 !! root_json dir = Some data0 -> document data0 r0 -> root_signs r0 "root" r0 -> history dir d0 (Stopped d) ->
  (forall E c w, history dir d0 (Running E c w) -> t_targets (w_trusted w) !! "root" = None) ->
  exists data, d !! root_json dir = Some data /\ forall E c now tr, trusting dir data c -> c_metadata_url c <> "" -> disk_works E c d ->
    exists i' t n, updater_new E c now (mkIos d tr) = (i', Ok t) /\ root_chain n r0 (t_root t).
Proof.
  intros Hd Hr Hs H Hno. destruct (C97_file dir d0 data0 r0 _ Hd Hr H) as (data & Hdata & [(n & r & Hdoc & Hch)|(_ & E & c & w & m & Hh & Hm)]); [|by rewrite (Hno _ _ _ Hh) in Hm].
  exists data. split; [exact Hdata|]. intros E c now tr [_ <-] Hu Hw. assert (root_signs r "root" r) as Hrs by (destruct Hch; done).
  destruct (new_honest E c r now (mkIos d tr) Hdoc Hrs Hu) as (i' & Hi & _); [intros Hx; rewrite Hx in Hdoc; by destruct Hdoc|done|]. eauto 10.
Qed.
Print Assumptions C97_restart.
(** Without that condition it cannot: a delegated role called root replaces the trusted root for good, and no later start
    succeeds *)
Theorem C97_restart_refuted : exists (CR : Crypto) dir d0 data0 (r0 : metadata root_t) d data, d0 !! root_json dir = Some data0 /\ document data0 r0 /\ root_signs r0 "root" r0 /\ history dir d0 (Stopped d) /\
  d !! root_json dir = Some data /\ forall E c now tr i' t, trusting dir data c -> updater_new E c now (mkIos d tr) <> (i', Ok t).
Proof.
  set (E := ex_env (mk_files (odd_roles "root"))). set (d0 := io_disk (files_of [("/m/root.json", bytes_of (ex_root 1))])). destruct ex_first as (r0 & Hdoc & Hrs). exists toy_crypto, "/m", d0, (bytes_of (ex_root 1)), r0.
  assert (d0 !! root_json "/m" = Some (bytes_of (ex_root 1))) as Hd0 by (vm_compute; reflexivity).
  destruct (started E ex_config (mkIos d0 [])) as [w0|] eqn:Hw0; [|exfalso; revert Hw0; vm_compute; discriminate].
  set (w1 := fst (call_api E ex_config Refresh w0)). set (w2 := fst (call_api E ex_config (GetTargetInfo "a/x") w1)).
  assert (history "/m" d0 (Running E ex_config w0)) as H0.
  { revert Hw0. unfold started. destruct (updater_new E ex_config ex_now (mkIos d0 [])) as [i' [t| |]] eqn:Hn; [|discriminate|discriminate]. intros [= <-]. eapply hist_start; [apply hist_begin|exact Hd0| |exact Hn]. split; reflexivity. }
  assert (history "/m" d0 (Running E ex_config w1)) as H1 by (eapply (hist_call _ _ _ _ w0 Refresh _ (snd (call_api E ex_config Refresh w0))); [exact H0|intros ? ? ? [=]|apply surjective_pairing]).
  assert (history "/m" d0 (Running E ex_config w2)) as H2 by (eapply (hist_call _ _ _ _ w1 (GetTargetInfo "a/x") _ (snd (call_api E ex_config (GetTargetInfo "a/x") w1))); [exact H1|intros ? ? ? [=]|apply surjective_pairing]).
  assert (match io_disk (w_io w2) !! "/m/root.json" with Some data => is_ok (from_bytes (T := targets_t) data) && match from_bytes (T := root_t) data with Ok _ => false | _ => true end | None => false end = true) as Hx.
  { subst w2 w1. revert Hw0. clear. intros Hw0.
    assert (match started E ex_config (mkIos d0 []) with Some w0 => match io_disk (w_io (fst (call_api E ex_config (GetTargetInfo "a/x") (fst (call_api E ex_config Refresh w0))))) !! "/m/root.json" with Some data => is_ok (from_bytes (T := targets_t) data) && match from_bytes (T := root_t) data with Ok _ => false | _ => true end | None => false end | None => false end = true) as Hv by (vm_compute; reflexivity).
    rewrite Hw0 in Hv. exact Hv. }
  destruct (io_disk (w_io w2) !! "/m/root.json") as [data|] eqn:Hd; [|discriminate Hx]. exists (io_disk (w_io w2)), data. split; [exact Hd0|].
  split; [exact Hdoc|]. split; [exact Hrs|]. split; [eapply hist_stop, H2|]. split; [exact Hd|]. intros E' c now tr i' t [_ Hc] Hn. apply updater_new_ok in Hn as [Hn _]. rewrite Hc in Hn. apply tm_new_spec in Hn as (r & [Hr _] & _).
  rewrite Hr, andb_false_r in Hx. discriminate Hx.
Qed.
Print Assumptions C97_restart_refuted.
(** a history: New, a Refresh that brings root version 2, an interruption, and New from what is left; the root is then
    version 2 *)
Lemma two_runs {CR : Crypto} dir E c E2 (c2 : string -> config) d0 (P : world -> Prop) : d0 !! root_json dir = Some (c_trusted_root c) -> c_metadata_dir c = dir -> (forall x, trusting dir x (c2 x)) ->
  match started E c (mkIos d0 []) with
  | Some w => match io_disk (w_io (fst (call_api E c Refresh w))) !! root_json dir with
              | Some data => match started E2 (c2 data) (mkIos (io_disk (w_io (fst (call_api E c Refresh w)))) []) with Some w2 => P w2 | None => False end
              | None => False
              end
  | None => False
  end -> exists w c', history dir d0 (Running E2 c' w) /\ P w.
Proof.
  intros Hd Hm Hc2. assert (forall E c d w data, history dir d0 (Stopped d) -> d !! root_json dir = Some data -> trusting dir data c -> started E c (mkIos d []) = Some w -> history dir d0 (Running E c w)) as Hstart.
  { intros E' c' d w data Hh Hr Ht. unfold started. destruct (updater_new E' c' ex_now (mkIos d [])) as [i' [t| |]] eqn:Hn; [|discriminate|discriminate]. intros [= <-]. eapply hist_start; [exact Hh|exact Hr|exact Ht|exact Hn]. }
  destruct (started E c (mkIos d0 [])) as [w0|] eqn:H0; [|done]. destruct (call_api E c Refresh w0) as [w1 o] eqn:H1. cbn [fst]. destruct (io_disk (w_io w1) !! root_json dir) as [data|] eqn:Hd1; [|done].
  destruct (started E2 (c2 data) (mkIos (io_disk (w_io w1)) [])) as [w2|] eqn:H2; [|done]. intros HP. exists w2, (c2 data). split; [|exact HP].
  eapply Hstart; [|exact Hd1|apply Hc2|exact H2]. apply (hist_stop dir d0 E c w1). apply (hist_call dir d0 E c w0 Refresh w1 o); [|intros ? ? ? [=]|exact H1]. eapply Hstart; [apply hist_begin|exact Hd|by split|exact H0].
Qed.
Example C97_case : exists d0 (r0 : metadata root_t) w c, d0 !! root_json "/m" = Some (bytes_of (ex_root 1)) /\ document (bytes_of (ex_root 1)) r0 /\ root_signs r0 "root" r0 /\ history "/m" d0 (Running (ex_env []) c w) /\ rt_version (md_signed (t_root (w_trusted w))) = 2.
Proof.
  set (d0 := io_disk (files_of [("/m/root.json", bytes_of (ex_root 1))])). destruct ex_first as (r0 & Hdoc & Hrs).
  destruct (two_runs "/m" (ex_env ex_files) ex_config (ex_env []) (fun x => ex_config_with x false false) d0 (fun w => rt_version (md_signed (t_root (w_trusted w))) = 2)) as (w & c & Hh & Hv).
  - vm_compute. reflexivity.
  - reflexivity.
  - intros x. split; reflexivity.
  - vm_compute. reflexivity.
  - exists d0, r0, w, c. split; [vm_compute; reflexivity|]. split; [exact Hdoc|]. split; [exact Hrs|]. split; [exact Hh|exact Hv].
Qed.

(** ** C98 *)
(** DownloadTarget is interrupted anywhere, files being in whatever state it leaves.  What FindCachedTarget of any later
    client then returns for this target was there before, or has been downloaded completely *)
Theorem C98_interrupted {CR : Crypto} E c tf fp u w w' o evs d E' c' fp' i i' q data : call_api E c (DownloadTarget tf fp u) w = (w', o) -> happened (w_io w) (w_io w') evs -> crash (io_disk (w_io w)) evs d ->
  io_disk i = d -> find_cached_target E' c' tf fp' i = (i', Ok (q, data)) -> q <> "" ->
  matches_target tf data /\ (io_disk (w_io w) !! q = Some data \/ exists url, EvGet url (tf_length tf) (Ok data) ∈ evs).
Proof.
  intros H Hh Hc Hi Hf Hq. apply find_cached_ok in Hf as (_ & _ & [Hf|[(p & x & [= <- <-] & Hp & Hm & _)|(_ & _ & Hf)]]); [by injection Hf as -> _|  |by destruct (Hf (q, data))].
  split; [done|]. rewrite Hi in Hp. destruct (download_crash E c tf fp u w w' o evs d q H Hh Hc) as [Hd|(_ & x & Hx & _ & Hin & Hd)]; [left; exact (eq_trans (eq_sym Hd) Hp)|right].
  assert (x = data) as <-; [|exact Hin]. destruct Hm as [_ Hl]. destruct Hx as [_ Hlx]. destruct Hd as [Hd|[n Hd]].
  - pose proof (eq_trans (eq_sym Hd) Hp) as [= ->]. done.
  - pose proof (eq_trans (eq_sym Hd) Hp) as [= Hx]. assert (String.length data = String.length x) as Hxl by lia. rewrite <- Hx in Hxl |- *. rewrite str_take_length in Hxl.
    assert (forall s k, String.length s <= k -> str_take k s = s)%nat as Hall. { clear. induction s as [|a s IH]; intros [|k]; cbn; intros; try done; [lia|]. f_equal. apply IH. lia. }
    symmetry. apply Hall. lia.
Qed.
Print Assumptions C98_interrupted.
(** a write of "hello" stopped after three bytes: the file is not taken for the target; a complete one is *)
Definition hello : targetfile := mkTargetFile 5 (Some {["sha256" := sha256 "hello"]}) None "a/x" None.
Definition hello_files := ("https://t/a/" +:+ hex_encode (sha256 "hello") +:+ ".x", "hello") :: ex_files.
Definition hello_run := match after_calls (ex_env hello_files) ex_config no_files [Refresh] with Some w => Some (w, call_api (ex_env hello_files) ex_config (DownloadTarget hello "" "") w) | None => None end.
Example C98_case : match hello_run with
  | Some (w, (w', o)) => let evs := skipn (List.length (io_trace (w_io w))) (io_trace (w_io w')) in
      exists d, crash (io_disk (w_io w)) evs d /\ d !! "/t/a%2Fx" = Some "hel" /\
      snd (find_cached_target (ex_env []) ex_config hello "" (mkIos d [])) = Ok ("", "") /\ snd (find_cached_target (ex_env []) ex_config hello "" (w_io w')) = Ok ("/t/a%2Fx", "hello")
  | None => False
  end.
Proof.
  assert (forall (d : disk) evs data n, List.last evs EvChoice = EvWrite "/t/a%2Fx" data -> evs <> [] -> crash d evs (<["/t/a%2Fx" := str_take n data]> (replay d (removelast evs)))) as Hcr.
  { intros d evs data n Hl Hne. exists (removelast evs), [EvWrite "/t/a%2Fx" data]. split; [rewrite <- Hl; by apply app_removelast_last|]. right. exists "/t/a%2Fx", data, [], n. done. }
  assert (match hello_run with
  | Some (w, (w', o)) => let evs := skipn (List.length (io_trace (w_io w))) (io_trace (w_io w')) in
      match List.last evs EvChoice with EvWrite p data => String.eqb p "/t/a%2Fx" && (let d := <["/t/a%2Fx" := str_take 3 data]> (replay (io_disk (w_io w)) (removelast evs)) in
        bool_decide (d !! "/t/a%2Fx" = Some "hel") && bool_decide (evs <> []) &&
        match snd (find_cached_target (ex_env []) ex_config hello "" (mkIos d [])), snd (find_cached_target (ex_env []) ex_config hello "" (w_io w')) with Ok (a, b), Ok (a', b') => String.eqb a "" && String.eqb b "" && String.eqb a' "/t/a%2Fx" && String.eqb b' "hello" | _, _ => false end) | _ => false end
  | None => false end = true) as H by (vm_compute; reflexivity).
  destruct hello_run as [[w [w' o]]|]; [|discriminate H]. cbv zeta in H |- *. set (evs := skipn _ _) in *. destruct (List.last evs EvChoice) as [| | | |p data| | | |] eqn:Hl; try discriminate H.
  apply andb_prop in H as [Hp [[Hd%bool_decide_eq_true Hne%bool_decide_eq_true]%andb_prop H]%andb_prop]. apply String.eqb_eq in Hp as ->.
  exists (<["/t/a%2Fx" := str_take 3 data]> (replay (io_disk (w_io w)) (removelast evs))). split; [by apply Hcr|]. split; [exact Hd|].
  destruct (snd (find_cached_target (ex_env []) ex_config hello "" (mkIos _ []))) as [[a b]| |]; try discriminate H. destruct (snd (find_cached_target (ex_env []) ex_config hello "" (w_io w'))) as [[a' b']| |]; try discriminate H.
  repeat (apply andb_prop in H as [H ?]). repeat match goal with Hx : String.eqb _ _ = true |- _ => apply String.eqb_eq in Hx; subst end. done.
Qed.
