(** * Proofs for C111: clients of the repository that examples/repository writes *)
From stdpp Require Import base gmap strings list.
From Coq Require Import ZArith Lia Ascii String.
From Verif Require Import GoBase GoStr Json GoTime Types Marshal Keys Metadata TrustedMetadata Fetcher Updater Files Cli ExampleClients ExampleRepos
  StrProofs SpecUtf8 SpecText SpecSerial SpecRound RoundBase CanonProofs RoundKept SpecDeleg DelegProofs SpecBasic BasicProofs SpecSig SigProofs SpecKeys KeysProofs SpecTrusted SpecPublish PublishProofs PlainProofs FilesProofs SpecUpdater SpecReach WalkProofs HonestProofs ReachProofs PropertiesReach TrustedProofs PathProofs SpecRepos ReposProofs ServedProofs GenerateProofs RunsProofs TeamsProofs BasicRepoProofs BasicRunProofs.
Open Scope Z_scope.

Lemma file_in_inj dir a b : file_in dir a = file_in dir b -> a = b.
Proof. unfold file_in. intros H. by apply app_inj_s, app_inj_s in H. Qed.

Section OneRole.
Context {CR : Crypto}.
Lemma some_eq (m : gmap string (metadata targets_t)) n a b : m !! n = Some a -> m !! n = Some b -> a = b.
Proof. congruence. Qed.
Lemma found_there t path top name m tf l v : name <> top -> t_targets t !! name = Some m -> entry m path tf -> search t path [top] [name] l v -> v = Failed \/ (v = OutOfBudget /\ l = []) \/ v = Found tf.
Proof.
  intros Hne Hm He Hs. inversion Hs; subst.
  - right. by left.
  - match goal with H : name ∈ [top] |- _ => by apply elem_of_list_singleton in H end.
  - by left.
  - right. right. f_equal. pose proof (some_eq _ _ _ _ Hm ltac:(eassumption)) as <-. by eapply entry_same.
  - exfalso. pose proof (some_eq _ _ _ _ Hm ltac:(eassumption)) as <-. match goal with H : forall o, ~ entry m path o |- _ => by eapply H end.
  - exfalso. pose proof (some_eq _ _ _ _ Hm ltac:(eassumption)) as <-. match goal with H : forall o, ~ entry m path o |- _ => by eapply H end.
  - exfalso. pose proof (some_eq _ _ _ _ Hm ltac:(eassumption)) as <-. match goal with H : forall o, ~ entry m path o |- _ => by eapply H end.
Qed.
(** a search through the top-level targets role, which has no entry and delegates to one role only, which has one *)
Lemma one_role_search r P now name f path tf l v : name <> "targets" -> (forall o, ~ entry (pub_targets_md P) path o) -> (forall n t, delegated (pub_targets_md P) path n t <-> n = name /\ t = true) ->
  entry (rf_md f) path tf -> search (everything r P {[name := f]} now) path [] ["targets"] l v -> v <> Failed -> (v = OutOfBudget /\ (List.length l <= 1)%nat) \/ v = Found tf.
Proof.
  intros Hne Hno Hdel He Hs Hf.
  assert (t_targets (everything r P {[name := f]} now) !! "targets" = Some (pub_targets_md P)) as Htop by (cbn; unfold all_roles; rewrite lookup_fmap, (lookup_insert (M := gmap string)); done).
  assert (t_targets (everything r P {[name := f]} now) !! name = Some (rf_md f)) as Hsub by (cbn; unfold all_roles; rewrite lookup_fmap, (lookup_insert_ne (M := gmap string)), lookup_singleton by done; done).
  assert (forall names term, children (pub_targets_md P) path names term -> names = [name] /\ term = true) as Hch.
  { intros names term (order & Hnd & Hord & Hcase). assert (order = [(name, true)]) as ->.
    { assert ((name, true) ∈ order) as Hin by (by apply Hord, Hdel). destruct order as [|[a ta] o']; [by apply elem_of_nil in Hin|].
      assert (a = name /\ ta = true) as [-> ->] by (apply Hdel, Hord; by left). destruct o' as [|[b tb] o'']; [done|]. assert (b = name /\ tb = true) as [-> ->] by (apply Hdel, Hord; right; by left).
      cbn in Hnd. apply NoDup_cons in Hnd as [Hx _]. exfalso. apply Hx. by left. }
    destruct Hcase as [(-> & -> & Hx)|(-> & pre & n & post & Hx & -> & Hp)]; [specialize (Hx name true ltac:(by left)); done|]. split; [|done].
    destruct pre as [|[a ta] pre]; [by injection Hx as -> _|]. injection Hx as <- <- Hx. by destruct pre. }
  inversion Hs; subst.
  - left. split; [done|]. cbn. lia.
  - match goal with H : "targets" ∈ [] |- _ => by apply elem_of_nil in H end.
  - done.
  - pose proof (some_eq _ _ _ _ Htop ltac:(eassumption)) as <-. exfalso. by eapply Hno.
  - pose proof (some_eq _ _ _ _ Htop ltac:(eassumption)) as <-. match goal with H : children _ _ _ _ |- _ => apply Hch in H as [-> ->] end.
    match goal with H : search _ _ ["targets"] [name] _ _ |- _ => apply (found_there _ _ _ _ _ _ _ _ Hne Hsub He) in H as [?|[[-> ->]|?]] end; [done| |by right]. left. split; [done|]. cbn. lia.
  - pose proof (some_eq _ _ _ _ Htop ltac:(eassumption)) as <-. match goal with H : children _ _ _ _ |- _ => apply Hch in H as [-> _] end.
    match goal with H : search _ _ ["targets"] [name] _ _ |- _ => apply (found_there _ _ _ _ _ _ _ _ Hne Hsub He) in H as [?|[[? _]|?]] end; done.
  - pose proof (some_eq _ _ _ _ Htop ltac:(eassumption)) as <-. match goal with H : children _ _ _ _ |- _ => by apply Hch in H as [_ H] end.
Qed.
Lemma one_role_delivers E2 c root r0 r P now i2 name f path tf data : works E2 c r0 r P now {[name := f]} i2 -> new_client E2 c root i2 -> 1 <= c_max_delegations c -> role_name_ok name -> role_served E2 c r P now name f ->
  (forall o, ~ entry (pub_targets_md P) path o) -> (forall n t, delegated (pub_targets_md P) path n t <-> n = name /\ t = true) -> (forall d, tg_delegations (md_signed (pub_targets_md P)) = Some d -> exists m, roles_for_target d path = Ok m) ->
  targets_signs (pub_targets_md P) name (rf_md f) -> tg_delegations (md_signed (rf_md f)) = None -> entry (rf_md f) path (Some tf) -> tf_path tf = path -> target_served E2 c r tf data -> (exists alg dig, lists (tf_hashes tf) alg dig) ->
  SpecDeleg.no_slash path ->
  delivers E2 c now i2 path data /\ exists i' t w, updater_new E2 c now i2 = (i', Ok t) /\ refresh E2 c (mkWorld t i') = (w, Ok tt) /\ t_root (w_trusted w) = r.
Proof.
  intros Hw (_ & _ & _ & Hurl & _ & _ & Hmax & _) Hbud Hname Hserved Hno Hdel Heval Hsig Hleaf He Hp Hs Hhash Hslash.
  assert (name <> "targets") as Hne by (intros ->; destruct Hname as [_ Hx]; apply Hx; set_solver).
  assert (delegations_follow (all_roles P {[name := f]}) path) as Hfol.
  { intros n g Hg. destruct (decide (n = "targets")) as [->|Hn].
    - unfold all_roles in Hg. rewrite (lookup_insert (M := gmap string)) in Hg. injection Hg as <-. cbn [rf_md]. split; [done|]. intros k term [-> ->]%Hdel _. exists f. split; [|done]. unfold all_roles. rewrite (lookup_insert_ne (M := gmap string)) by done. apply lookup_singleton.
    - unfold all_roles in Hg. rewrite (lookup_insert_ne (M := gmap string)) in Hg by done. apply lookup_singleton_Some in Hg as [<- <-]. split; [intros d Hd; congruence|]. intros k term (d & Hd & _). congruence. }
  assert (setting E2 c r0 r P now {[name := f]} i2) as Hset by (apply works_setting; [done|]; intros n g [<- <-]%lookup_singleton_Some; done).
  split; [|destruct (setting_started E2 c r0 r P now {[name := f]} i2 Hset) as (i' & t & w1 & H1 & _ & H2 & HI); exists i', t, w1; split; [done|]; split; [done|]; apply HI].
  exists tf. split; [done|]. split; [apply Hs|]. intros fp p Hf.
  destruct (setting_search E2 c r0 r P now {[name := f]} i2 path [] Hset) as (i' & t & w & w' & o & l & v & H1 & H2 & H3 & HI & H4 & H5 & H6 & H7); [apply Forall_cons_2; [done|apply Forall_nil_2]|].
  assert (w = mkWorld t i') as -> by (by inversion H2). clear H2.
  destruct (one_role_search r P now name f path (Some tf) l v Hne Hno Hdel He H4 H5) as [[-> Hl]| ->].
  { exfalso. unfold walked in H7. assert (2 <= budget c)%nat as Hb by (unfold budget; lia). destruct o as [?|?|]; [done| |done]. destruct H7 as [?|[_ [?|[?|[_ ?]]]]]; [done|done|done|lia]. }
  assert (o = Ok (Some tf)) as -> by (unfold walked in H7; destruct o as [?|?|]; [congruence|destruct H7 as [?|[_ [?|[?|[? _]]]]]; done|done]).
  destruct HI as (HI1 & _ & _ & _ & _ & _ & HI7 & _). destruct (download_honest E2 c r tf fp p data w') as (w'' & Hdl & _); try done; [intros _ _; left; by rewrite Hp|]. by exists i', t, w', w''.
Qed.
End OneRole.

Section BasicServed.
Context {CR : Crypto} (key : string -> signer) (expires : string -> gotime) (wd : list string).
Context (Hne : wd <> []) (Hwd : Forall plain_name wd).
Notation kid := (kid key).
Lemma kept_version (m : metadata root_t) : rt_version (md_signed (metadata_kept m)) = rt_version (md_signed m).
Proof. done. Qed.
Lemma kept_consistent (m : metadata root_t) : rt_consistent (md_signed (metadata_kept m)) = rt_consistent (md_signed m).
Proof. done. Qed.
Lemma kept_tg_version (m : metadata targets_t) : tg_version (md_signed (metadata_kept m)) = tg_version (md_signed m).
Proof. done. Qed.
Lemma wrote_files i i' tmp data x k r2a r3a br1 bg bs bt bo br2 br3 : wrote key expires wd i i' tmp data x k r2a r3a br1 bg bs bt bo br2 br3 ->
  let f n := io_disk i' !! file_in (wd ++ [tmp]) n in
  (f "1.root.json" = Some br1 /\ f "2.root.json" = Some br2 /\ f "3.root.json" = Some br3 /\ f "4.root.json" = None) /\ f "timestamp.json" = Some bt /\ f "2.snapshot.json" = Some bs /\ f "2.targets.json" = Some bg /\ f "1.go-scripts.json" = Some bo.
Proof.
  intros (_ & Hno & _ & _ & _ & bg1 & bs1 & bt1 & br0 & Hd). cbn zeta. rewrite Hd. unfold files. cbn zeta.
  split_and!; repeat first [rewrite lookup_same; done | rewrite lookup_other by (by intros Hx%file_in_inj)]. apply Hno.
Qed.
Lemma scripts_delegated k n t : delegated (metadata_kept (T2 key expires (scripts (kid "go-scripts") k))) target_name n t <-> n = "go-scripts" /\ t = true.
Proof.
  unfold delegated. cbn [metadata_kept md_signed]. unfold T2. rewrite sign_by_signed. cbn. split.
  - intros (d & [= <-] & [(l1 & r & l2 & Hl & <- & <- & _)|(Hx & _)]); [|done]. cbn in Hl. destruct l1 as [|? l1]; [injection Hl as <- _; done|]. by destruct l1.
  - intros [-> ->]. eexists. split; [reflexivity|]. left. eexists [], _, []. split; [reflexivity|]. split; [done|]. split; [done|]. split; [vm_compute; reflexivity|]. by intros r' ?%elem_of_nil.
Qed.
Lemma basic_delivers i i' tmp data x k r2a r3a br1 bg bs bt bo br2 br3 E2 c now i2 : wrote key expires wd i i' tmp data x k r2a r3a br1 bg bs bt bo br2 br3 ->
  new_client E2 c br1 i2 -> 2 <= c_max_root_rotations c -> 1 <= c_max_delegations c -> serves_dir E2 (io_disk i') (wd ++ [tmp]) (c_metadata_url c) -> within_limits c (io_disk i') (wd ++ [tmp]) ->
  serves E2 (with_slash (c_targets_url c) +:+ (if c_prefix_hash c then hex_encode (sha256 data) +:+ "." +:+ target_name else target_name)) data ->
  Forall (fun n => now <= instant (expires n)) ["root"; "timestamp"; "snapshot"; "targets2"; "go-scripts"] ->
  delivers E2 c now i2 target_name data /\ exists i3 t w, updater_new E2 c now i2 = (i3, Ok t) /\ refresh E2 c (mkWorld t i3) = (w, Ok tt) /\ document br3 (t_root (w_trusted w)).
Proof.
  intros HW Hc Hrot Hmax Hsd Hlim Htarget Hexp. destruct (wrote_files _ _ _ _ _ _ _ _ _ _ _ _ _ _ _ HW) as ((F1 & F2 & F3 & F4) & F5 & F6 & F7 & F8).
  destruct HW as (_ & _ & _ & HM & (B1 & Bg & Bs & Bt & Bo & B2 & B3) & _). destruct HM as (_ & _ & (_ & _ & _ & _ & W1) & (WT & WS & WM & WG & W2 & W3) & (Q1 & _) & (Q2 & Q3 & _) & Qgo & (Q4 & Q5 & Q6 & Q7 & Q8) & (V1 & V2 & V3 & Vc & Ve)).
  rewrite !Forall_cons in Hexp. destruct Hexp as (X1 & X2 & X3 & X4 & X5 & _).
  set (d := scripts (kid "go-scripts") k) in *. set (r1 := R1 key x) in *. set (r2 := sign_by (map key signers2) r2a) in *. set (r3 := sign_by (map key signers3) r3a) in *. set (tg := T2 key expires d) in *. set (go := GO key expires (info_of (place wd) data)) in *.
  set (f2 := MetaFile 2).
  set (P := mkPublication [(br2, metadata_kept r2); (br3, metadata_kept r3)] bt (metadata_kept (M2 key expires)) bs (metadata_kept (S2 key expires)) bg (metadata_kept tg) (metafile_kept f2) (metafile_kept f2)).
  set (f := mkRoleFile bo (metadata_kept go) (metafile_kept (MetaFile 1))).
  assert (md_signed tg = delegating_targets expires d) as Etg by apply sign_by_signed. assert (md_signed (S2 key expires) = snapshot2 expires) as Esn by apply sign_by_signed. assert (md_signed (M2 key expires) = timestamp2 expires) as Ets by apply sign_by_signed.
  assert (md_signed go = md_signed (with_target (expires "go-scripts") (info_of (place wd) data))) as Ego by apply sign_by_signed.
  clearbody r1 r2 r3 go.
  assert (document br1 (metadata_kept r1)) as Hd1 by (apply written; [constructor|done|done]).
  assert (lists_file (S2 key expires) "go-scripts.json" (MetaFile 1)) as Lgo. { unfold lists_file. rewrite Esn. eexists. split; [reflexivity|]. apply (lookup_insert (M := gmap string)). }
  assert (honest (metadata_kept r1) (metadata_kept r3) now P) as Hh.
  { apply (made_honest (metadata_kept r1) r3 _ (M2 key expires) (S2 key expires) tg f2 f2); try done; unfold expired_at.
    - apply one_update; [apply written; [constructor|done|done]|apply root_signs_kept; [constructor|done]|apply root_signs_kept; [constructor|done]|by rewrite !kept_version, V1, V2|].
      apply one_update; [apply written; [constructor|done|done]|apply root_signs_kept; [constructor|done]|apply root_signs_kept; [constructor|done]|by rewrite !kept_version, V2, V3|]. constructor.
    - change (signed_expires (md_signed r3)) with (rt_expires (md_signed r3)). rewrite Ve. lia.
    - rewrite Ets. change (signed_expires (timestamp2 expires)) with (expires "timestamp"). lia.
    - rewrite Esn. change (signed_expires (snapshot2 expires)) with (expires "snapshot"). lia.
    - rewrite Etg. change (signed_expires (delegating_targets expires d)) with (expires "targets2"). lia.
    - unfold names_snapshot. rewrite Ets. eexists. split; [reflexivity|]. apply (lookup_insert (M := gmap string)).
    - apply MetaFile_any.
    - by rewrite Esn.
    - unfold lists_file. rewrite Esn. eexists. split; [reflexivity|]. cbn [snapshot2 sn_meta]. rewrite (lookup_insert_ne (M := gmap string)) by done. apply (lookup_insert (M := gmap string)).
    - apply MetaFile_any.
    - by rewrite Etg. }
  assert (rt_version (md_signed (metadata_kept r1)) = 1) as V1' by (by rewrite kept_version). assert (rt_version (md_signed (metadata_kept r3)) = 3) as V3' by (by rewrite kept_version).
  assert (rt_consistent (md_signed (metadata_kept r3)) = true) as Vc' by (by rewrite kept_consistent).
  assert (works E2 c (metadata_kept r1) (metadata_kept r3) P now {["go-scripts" := f]} i2) as Hw.
  { apply (served_works E2 c (io_disk i') (wd ++ [tmp]) br1); try done.
    - intros ->. destruct Hd1 as [Hx _]. done.
    - apply root_signs_kept; [constructor|done].
    - intros [|[|j]] da ro Hj; cbn in Hj; [injection Hj as <- <-|injection Hj as <- <-|done]; rewrite V1'; [exact F2|exact F3].
    - rewrite V3'. exact F4. }
  destruct (one_role_delivers E2 c br1 (metadata_kept r1) (metadata_kept r3) P now i2 "go-scripts" f target_name (targetfile_kept target_name (info_of (place wd) data)) data) as [Z1 (i3 & t & w & Z2 & Z3 & Z4)]; try done;
    [..|split; [done|]; exists i3, t, w; split; [done|]; split; [done|]; rewrite Z4; apply written; [constructor|done|done]].
  - split; [reflexivity|]. by apply (bool_decide_unpack _).
  - split; [apply written; [constructor|done|done]|]. cbn [rf_md rf_data rf_info f]. split. { rewrite expired_kept by constructor. unfold expired_at. rewrite Ego. change (signed_expires (md_signed (with_target (expires "go-scripts") (info_of (place wd) data)))) with (expires "go-scripts"). lia. }
    split; [apply lists_kept; exact Lgo|]. split; [apply matches_kept, MetaFile_any|]. split; [by rewrite kept_tg_version, Ego|].
    split; [intros _; pose proof (Hlim _ _ F8); lia|]. unfold version_in_url. rewrite Vc'. rewrite url_name by done. eapply dir_serves; [done|]. exact F8.
  - intros o (l & Hl & Hx). cbn [P pub_targets_md metadata_kept md_signed] in Hl. rewrite Etg in Hl. cbn in Hl. injection Hl as <-. rewrite map_lookup_imap in Hx. by rewrite lookup_empty in Hx.
  - intros n t. apply scripts_delegated.
  - intros dd Hd. cbn [P pub_targets_md metadata_kept md_signed] in Hd. rewrite Etg in Hd. cbn in Hd. injection Hd as <-. eexists. reflexivity.
  - cbn [P pub_targets_md rf_md f]. apply targets_signs_ok. rewrite targets_verify_kept by constructor. by apply targets_signs_ok.
  - cbn [rf_md f metadata_kept md_signed]. by rewrite Ego.
  - cbn [rf_md f]. apply target_kept. rewrite Ego. eexists. split; [reflexivity|]. apply (lookup_insert (M := gmap string)).
  - destruct (info_matches target_name (place wd) data) as (M1 & _ & M2). split; [exact M1|]. split.
    + intros [Hx|Hx]; [by rewrite Vc' in Hx|]. rewrite Hx in Htarget. done.
    + intros _ Hx alg dig name Hl Hn. rewrite Hx in Htarget. apply M2 in Hl as ->. apply hash_named_flat in Hn as ->; [done|done].
  - apply info_matches.
  - by apply slash_free.
Qed.
End BasicServed.
