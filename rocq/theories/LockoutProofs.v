(** * Proofs for C117: a rotated root key of the simulator *)
From stdpp Require Import base gmap strings list.
From Coq Require Import ZArith Lia Ascii String.
From Verif Require Import GoBase GoStr GoTime Types Marshal Keys Metadata TrustedMetadata Fetcher Updater ExampleRepos Simulator
  StrProofs SpecRound RoundBase RoundKept SpecBasic SpecSig SigProofs SpecKeys KeysProofs SpecTrusted SpecPublish PublishProofs PlainProofs SpecUpdater SpecReach HonestProofs TrustedProofs PathProofs SpecRepos ReposProofs ServedProofs GenerateProofs RunsProofs TeamsProofs SpecSimulator SimulatorProofs.
Open Scope Z_scope.

(** ** Names of keys *)
Lemma fmt_dec_inj v w : 0 <= v -> 0 <= w -> fmt_dec v = fmt_dec w -> v = w.
Proof.
  intros Hv Hw. unfold fmt_dec, fmt_base. destruct (Z.ltb_spec v 0) as [?|_]; [lia|]. destruct (Z.ltb_spec w 0) as [?|_]; [lia|]. intros H. pose proof (parse_nat_fmt 10 v ltac:(lia) ltac:(lia)) as H1. pose proof (parse_nat_fmt 10 w ltac:(lia) ltac:(lia)) as H2. rewrite H, H2 in H1. by injection H1.
Qed.
Lemma all_keys_snoc h (x : trace * trace * act) : all_keys (h ++ [x]) = names (4 + sum_list (map (fun x => keys_made x.2) h) + keys_made x.2).
Proof.
  unfold all_keys, names. f_equal. f_equal. rewrite map_app. cbn [map]. generalize (keys_made x.2). intros n. induction (map (fun x : trace * trace * act => keys_made x.2) h) as [|k ks IH]; cbn in *; lia.
Qed.

(** ** A root that the previous one does not sign *)
Section Blocked.
Context {CR : Crypto} (E : env) (c : config).
Lemma root_loop_blocked l data (r2 : metadata root_t) : forall fuel w r', root_updates (t_root (w_trusted w)) l r' -> t_timestamp (w_trusted w) = None -> (List.length l < fuel)%nat ->
  in_int64 (rt_version (md_signed (t_root (w_trusted w)))) = true -> rt_version (md_signed (t_root (w_trusted w))) + Z.of_nat fuel < 2 ^ 63 - 1 ->
  (forall i d r1, l !! i = Some (d, r1) -> Z.of_nat (String.length d) <= c_root_max c /\ serves E (url_of c "root" (fmt_dec (rt_version (md_signed (t_root (w_trusted w))) + 1 + Z.of_nat i))) d) ->
  Z.of_nat (String.length data) <= c_root_max c -> serves E (url_of c "root" (fmt_dec (rt_version (md_signed r') + 1))) data -> document data r2 -> ~ root_signs r' "root" r2 -> disk_works E c (io_disk (w_io w)) ->
  exists w' o, root_loop E c fuel (rt_version (md_signed (t_root (w_trusted w))) + 1) w = (w', o) /\ o <> Ok tt /\ w_trusted w' = set_root (w_trusted w) r'.
Proof.
  induction l as [|[d r1] l IH]; intros fuel w r' Hu Hts Hf Hr Hv Hs Hlen Hserve Hdoc Hno Hd; destruct fuel as [|fuel]; [cbn in Hf; lia| |cbn in Hf; lia|]; cbn [root_loop].
  - inversion Hu; subst. rewrite set_root_eta. destruct (download_run E c ROOT (c_root_max c) _ data w Hserve Hlen) as (i1 & Hrun1 & Hdisk1). rewrite (satt_run _ _ _ _ _ Hrun1).
    destruct (update_root_cases (w_trusted w) data Hr) as [(r & (_ & [Hb _] & Hsig & _) & _)|(_ & Hfst & Hsnd)]; [destruct Hdoc as [Hb' _]; pose proof (eq_trans (eq_sym Hb) Hb') as Hx; injection Hx as ->; done|].
    unfold sbind, on_trusted. cbn [w_trusted w_io]. destruct (update_root (w_trusted w) data) as [t' o]. cbn [fst snd] in *. subst t'. destruct o as [r|e|]; [by destruct (Hsnd r)|eexists _, _; split; [reflexivity|done]..].
  - inversion Hu as [|? ? ? ? ? Hdoc1 Hsig1 Hsig2 Hver Hu']; subst.
    destruct (Hs 0%nat d r1 eq_refl) as [Hl Hsrv]. rewrite Z.add_0_r in Hsrv.
    destruct (download_run E c ROOT (c_root_max c) _ d w Hsrv Hl) as (i1 & Hrun1 & Hdisk1). rewrite (satt_run _ _ _ _ _ Hrun1). apply in_int64_spec in Hr as Hr'.
    assert (on_trusted (fun t => update_root t d) (mkWorld (w_trusted w) i1) = (mkWorld (set_root (w_trusted w) r1) i1, Ok r1)) as Hrun2.
    { unfold on_trusted. cbn [w_trusted]. destruct (update_root_spec (w_trusted w) d (set_root (w_trusted w) r1) r1 Hr) as [_ Hspec]. rewrite Hspec; [done|]. split; [|by apply root_replaced_iff].
      split; [done|]. split; [done|]. split; [done|]. split; [left; lia|done]. }
    rewrite (sbind_run _ _ _ _ _ Hrun2). destruct (persist_run E c ROOT d (mkWorld (set_root (w_trusted w) r1) i1)) as (i3 & Hrun3 & Hw3 & _); [cbn; by rewrite Hdisk1|]. rewrite (sbind_run _ _ _ _ _ Hrun3). cbn [w_trusted w_io] in *.
    assert (wrap64 (rt_version (md_signed (t_root (w_trusted w))) + 1 + 1) = rt_version (md_signed r1) + 1) as Hw by (rewrite Hver; apply wrap64_id, in_int64_spec; lia).
    rewrite Hw. destruct (IH fuel (mkWorld (set_root (w_trusted w) r1) i3) r') as (w4 & o & Hrun4 & Ho & Hw4); cbn [w_trusted w_io set_root t_root t_timestamp] in *; try done.
    + cbn in Hf; lia.
    + apply in_int64_spec. lia.
    + lia.
    + intros i d' r3 Hi. destruct (Hs (S i) d' r3 Hi) as [? Hx]. split; [done|]. rewrite Hver. replace (rt_version (md_signed (t_root (w_trusted w))) + 1 + 1 + Z.of_nat i) with (rt_version (md_signed (t_root (w_trusted w))) + 1 + Z.of_nat (S i)) by lia. done.
    + exists w4, o. done.
Qed.
Lemma refresh_blocked l data (r0 r' r2 : metadata root_t) now i : document (c_trusted_root c) r0 -> root_signs r0 "root" r0 -> c_metadata_url c <> "" -> c_trusted_root c <> "" -> c_unsafe_local c = false -> disk_works E c (io_disk i) ->
  root_updates r0 l r' -> Z.of_nat (List.length l) < c_max_root_rotations c < 2 ^ 62 -> rt_version (md_signed r0) = 1 ->
  (forall i d r1, l !! i = Some (d, r1) -> Z.of_nat (String.length d) <= c_root_max c /\ serves E (url_of c "root" (fmt_dec (2 + Z.of_nat i))) d) ->
  Z.of_nat (String.length data) <= c_root_max c -> serves E (url_of c "root" (fmt_dec (2 + Z.of_nat (List.length l)))) data -> document data r2 -> ~ root_signs r' "root" r2 ->
  exists i' t w o, updater_new E c now i = (i', Ok t) /\ refresh E c (mkWorld t i') = (w, o) /\ o <> Ok tt /\ t_root (w_trusted w) = r' /\ t_timestamp (w_trusted w) = None.
Proof.
  intros D1 D2 D3 D4 D5 D6 Hu Hmax V Hs Hlen Hserve Hdoc Hno. destruct (new_honest E c r0 now i D1 D2 D3 D4 D6) as (i' & Hnew & Hd & _). exists i', (mkTrusted r0 None None ∅ now).
  pose proof (root_updates_version _ _ _ Hu) as V'. rewrite V in V'.
  destruct (root_loop_blocked l data r2 (Z.to_nat (c_max_root_rotations c)) (mkWorld (mkTrusted r0 None None ∅ now) i') r') as (w & o & Hrun & Ho & Hw); cbn [w_trusted w_io t_root t_timestamp]; try done.
  - lia.
  - by rewrite V.
  - rewrite V. lia.
  - intros j d r1 Hj. rewrite V. exact (Hs j d r1 Hj).
  - rewrite V'. by replace (1 + Z.of_nat (List.length l) + 1) with (2 + Z.of_nat (List.length l)) by lia.
  - cbn [w_trusted w_io t_root t_timestamp] in *. rewrite V in Hrun.
    assert (load_root E c (mkWorld (mkTrusted r0 None None ∅ now) i') = (w, o)) as Hload.
    { unfold load_root. cbn [w_trusted t_root]. rewrite V. rewrite (wrap64_id (1 + 1)) by done. rewrite wrap64_id by (apply in_int64_spec; lia). rewrite <- Hrun. f_equal. lia. }
    unfold refresh. rewrite D5. unfold online_refresh. unfold sbind at 1. rewrite Hload. destruct o as [[]|e|]; [done|eexists _, _; (split; [exact Hnew|]); (split; [reflexivity|]); split; [done|]; rewrite Hw; done..].
Qed.
End Blocked.

(** ** Signatures of one key *)
Section One.
Context {CR : Crypto} (E : env) (key : string -> signer) (N : nat).
Context (Hpem : pem_round_trip) (Hwork : keys_work key (names N)) (Htext : text_keys key) (Hempty : forall pk p, raw_verify pk p "" = false).
Notation kid := (kid key).
Notation one := (one key).
Notation crew := (crew key N).
Notation chain := (chain key).
Lemma one_keyids {T} {RT : RoleTy T} k (m : metadata T) s : k ∈ names N -> s ∈ default [] (md_sigs (one k m)) -> sig_keyid s = kid k.
Proof.
  intros Hk. unfold SimulatorProofs.one. cbn [sign_by]. destruct (sign_cases (key k) (clear_signatures m)) as [-> |(id & sb & p & Hid & _ & _ & Hs)].
  - by intros ?%elem_of_nil.
  - change (default [] (md_sigs (fst (sign (key k) (clear_signatures m))))) with (slist (md_sigs (fst (sign (key k) (clear_signatures m))))). rewrite Hs. cbn. intros ->%elem_of_list_singleton. cbn.
    destruct (key_facts key (names N) Hpem Hwork k Hk) as (kk & K1 & _ & K3 & _). destruct Hid as (p' & k' & I1 & I2 & I3). unfold TeamsProofs.kid, public_part. rewrite I1. cbn [obind]. by rewrite I2, I3.
Qed.
Lemma other_key_fails (rm m : metadata root_t) k k' : team_of key (names N) (md_signed rm) "root" [k] 1 -> k' ∈ names N -> k <> k' -> ~ root_signs rm "root" (one k' m).
Proof.
  intros (Ha & r & Hr & Hids & Hthr & _) Hk' Hne (keys & ids & thr & (mm & r1 & M1 & M2 & -> & -> & ->) & (_ & _ & p & _ & good & _ & Hgood & Hlen)).
  assert (r1 = r) as -> by (destruct Hr as (mm' & M3 & M4); rewrite M1 in M3; injection M3 as <-; rewrite M2 in M4; by injection M4).
  rewrite Hthr in Hlen. destruct good as [|id good]; [cbn in Hlen; lia|]. destruct (Hgood id) as [Hin (pk & sig & _ & Hlast & Hver)]; [left|].
  change (default [] (r_keyids r)) with (ids_of r) in Hin. rewrite Hids in Hin. cbn in Hin. apply elem_of_list_singleton in Hin as ->.
  destruct Hlast as [(l1 & s & l2 & Hs & Hid & _)|(_ & ->)]; [|by rewrite Hempty in Hver].
  assert (sig_keyid s = kid k') as Hx by (apply (one_keyids k' m); [done|]; rewrite Hs; apply elem_of_app; right; left). rewrite Hid in Hx. apply (kid_inj key (names N) Hpem Hwork) in Hx; [done|apply Ha; left|done].
Qed.

(** ** The published root *)
Lemma lock_run tr tr' b S kr b0 r0 l e local : (sm_keys S < N)%nat -> Z.of_nat (List.length l) < 2 ^ 62 -> crew S kr -> chain S kr b0 r0 l -> content e local S -> kr "root" <> fmt_dec (Z.of_nat (sm_keys S)) ->
  exists S' data (r2 : metadata root_t), perform E key tr tr' (NewRoot ["root"] b) S = Ok S' /\ sm_roots S' = sm_roots S ++ [data] /\ document data r2 /\ ~ root_signs (metadata_kept (one (kr "root") (sm_root S))) "root" r2.
Proof.
  intros Hn Hl Hc (C1 & C2 & C3 & C4 & C5 & C6) Hct Hne. destruct (rotate_run key N Hpem Hwork Htext "root" S kr) as (S1 & kr1 & H1 & H2 & H3 & H4 & H5 & _); [apply elem_of_list_In; by left|done|done|].
  cbn [perform rotate_all]. rewrite H1. cbn [obind]. destruct H3 as (A1 & A2 & A3 & A4 & A5 & A6 & A7 & A8 & A9 & A10 & A11). destruct A11 as (_ & _ & _ & V & X & _).
  set (m := next_root (with_consistent (sm_root S1) b)). assert (wrap64 (rt_version (md_signed (sm_root S1)) + 1) = 2 + Z.of_nat (List.length l)) as Hwr.
  { rewrite V, C6. rewrite wrap64_id; [lia|]. unfold in_int64, two63. apply andb_true_iff. rewrite Z.leb_le, Z.ltb_lt. lia. }
  set (S2 := set_sim_root S1 m). assert (crew S2 kr1) as Hc2.
  { destruct H4 as (Hready & Hu & Hk). split; [|split; [exact Hu|exact Hk]]. unfold S2, m, next_root. cbn [set_sim_root sm_root set_signed md_signed with_consistent rt_version]. rewrite Hwr.
    apply version_ready; [unfold int_ok, in_int64, two63; apply andb_true_iff; rewrite Z.leb_le, Z.ltb_lt; lia|]. exact Hready. }
  destruct (publish_run E key N Hpem Hwork tr S2 kr1 Hc2) as (d & Hp & Hd). rewrite Hp. eexists _, d, _. split; [done|]. split; [cbn; by rewrite A2|]. split; [exact Hd|].
  intros Hsig%root_signs_ok. rewrite (root_verify_kept (one (kr "root") (sm_root S)) "root" (one (kr1 "root") (sm_root S2)) is_root) in Hsig. apply verify_delegate_root_ok in Hsig. revert Hsig.
  destruct Hc as (_ & _ & Hk). destruct (Hk "root") as [Ht _]; [apply elem_of_list_In; by left|]. apply (other_key_fails _ _ (kr "root") (kr1 "root")).
  - by rewrite one_signed.
  - destruct Hc2 as (_ & _ & Hk2). destruct (Hk2 "root") as [[Ha _] _]; [apply elem_of_list_In; by left|]. apply Ha. left.
  - by rewrite H5.
Qed.
End One.

(** ** Published roots stay *)
Section Roots.
Context {CR : Crypto} (E : env) (key : string -> signer).
Lemma new_root_keys_roots roles : forall S S', new_root_keys key roles S = Ok S' -> sm_roots S' = sm_roots S.
Proof.
  induction roles as [|r roles IH]; intros S S'; cbn [new_root_keys]; [by intros [= <-]|]. destruct (new_root_key key r S) as [S1|?|] eqn:E1; [|done..]. cbn [obind]. intros H%IH. rewrite H. clear H.
  unfold new_root_key in E1. destruct (public_part _) as [k|?|]; [|done..]. destruct (match root_add_key _ _ _ with Ok x => Ok x | Err _ => _ | Panic => Panic end) as [x|?|]; [|done..]. cbn [obind] in E1. destruct (key_id k) as [i|?|]; [|done..]. cbn [obind] in E1. by injection E1 as <-.
Qed.
Lemma rotate_all_roots roles : forall S S', rotate_all key roles S = Ok S' -> sm_roots S' = sm_roots S.
Proof.
  induction roles as [|r roles IH]; intros S S'; cbn [rotate_all]; [by intros [= <-]|]. destruct (rotate_keys key r S) as [S1|?|] eqn:E1; [|done..]. cbn [obind]. intros H%IH. rewrite H. clear H.
  unfold rotate_keys in E1. destruct (mget _ r) as [[x|]|]; [|done..]. by apply new_root_keys_roots in E1.
Qed.
Lemma timestamp_roots tr S S' : sim_update_timestamp E tr S = Ok S' -> sm_roots S' = sm_roots S.
Proof. unfold sim_update_timestamp. destruct (file_info _ _ _ _ _) as [f|?|]; [|done..]. cbn [obind]. destruct (mset _ _ _) as [l|?|]; [|done..]. cbn [obind]. by intros [= <-]. Qed.
Lemma perform_roots tr tr' a S S' : perform E key tr tr' a S = Ok S' -> exists more, sm_roots S' = sm_roots S ++ more.
Proof.
  intros H. destruct a as [p data|v|b|b| | |roles b]; cbn [perform] in H.
  - unfold add_target in H. exists []. rewrite app_nil_r. revert H. destruct (targetfile_from_bytes _ _ _) as [f|?|]; [|done..]. cbn [obind get_delegator String.eqb Ascii.eqb Bool.eqb]. destruct (mset _ _ _) as [x|?|]; [|done..]. cbn [obind]. by intros [= <-].
  - injection H as <-. exists []. by rewrite app_nil_r.
  - injection H as <-. exists []. by rewrite app_nil_r.
  - injection H as <-. exists []. by rewrite app_nil_r.
  - apply timestamp_roots in H. exists []. by rewrite app_nil_r.
  - unfold sim_update_snapshot in H. destruct (list_roles _ _ _ _ _) as [f|?|]; [|done..]. cbn [obind] in H. apply timestamp_roots in H. exists []. by rewrite app_nil_r.
  - destruct (rotate_all key roles S) as [S1|?|] eqn:E1; [|done..]. cbn [obind] in H. apply rotate_all_roots in E1. rewrite <- E1. revert H. unfold publish_root. destruct (sign_each _ _) as [m|?|]; [|done..]. cbn [obind]. destruct (to_bytes m) as [d|?|]; [| |done]; intros [= <-]; cbn; by eexists.
Qed.
Lemma perform_all_roots h : forall S S', perform_all E key h S = Ok S' -> exists more, sm_roots S' = sm_roots S ++ more.
Proof.
  induction h as [|[[tr tr'] a] h IH]; intros S S' H; cbn [perform_all] in H; [injection H as <-; exists []; by rewrite app_nil_r|].
  destruct (perform E key tr tr' a S) as [S1|?|] eqn:E1; [|done..]. cbn [obind] in H. destruct (perform_roots _ _ _ _ _ E1) as [m1 H1]. destruct (IH _ _ H) as [m2 H2]. exists (m1 ++ m2). by rewrite H2, H1, app_assoc.
Qed.
End Roots.

(** ** Clients *)
Section Locked.
Context {CR : Crypto} (E : env) (key : string -> signer).
Lemma locked_out E2 path_of c S b0 (r0 : metadata root_t) l r' data (r2 : metadata root_t) more now i :
  sm_roots S = b0 :: map fst l ++ data :: more -> document b0 r0 -> root_signs r0 "root" r0 -> root_updates r0 l r' -> rt_version (md_signed r0) = 1 -> document data r2 -> ~ root_signs r' "root" r2 ->
  fetches_from E E2 path_of c S -> fits E c S -> new_client E2 c b0 i -> Z.of_nat (List.length l) < c_max_root_rotations c ->
  exists i' t w o, updater_new E2 c now i = (i', Ok t) /\ refresh E2 c (mkWorld t i') = (w, o) /\ o <> Ok tt /\ t_root (w_trusted w) = r' /\ t_timestamp (w_trusted w) = None.
Proof.
  intros Hroots R2 R3 R4 R5 Hdoc Hno [Hnet Hpath] Hfit (C1 & C2 & C3 & C4 & C5 & C6 & C7 & C8) Hrot.
  assert (forall tr v, sim_fetch E path_of tr S (url_of c "root" (fmt_dec v)) = fetch_named E tr S (fmt_dec v +:+ "." +:+ "root")) as Uv.
  { intros tr v. destruct (Hpath "root") as [_ Hp]; [left|]. rewrite url_name by done. unfold versioned_name. apply fetch_json. rewrite Hp. by rewrite !app_assoc_s. }
  assert (forall j d, (map fst l ++ data :: more) !! j = Some d -> Z.of_nat j < 2 ^ 62 -> Z.of_nat (String.length d) <= c_root_max c /\ serves E2 (url_of c "root" (fmt_dec (2 + Z.of_nat j))) d) as Hat.
  { intros j d Hj Hlt. assert (forall tr, fetch_metadata E tr S "root" (2 + Z.of_nat j) = Ok d) as Hf.
    { intros tr. apply root_at; [lia|]. rewrite Hroots. replace (Z.to_nat (2 + Z.of_nat j - 1)) with (Datatypes.S j) by lia. exact Hj. }
    split; [by apply (Hfit [] "root" (c_root_max c) _ d ltac:(left) (Hf []))|]. intros tr len Hlen. rewrite Hnet. apply download_ok; [|done]. rewrite Uv, named_root by lia. apply Hf. }
  apply (refresh_blocked E2 c l data r0 r' r2 now i); try done.
  - by rewrite C1.
  - rewrite C1. intros ->. destruct R2 as [R2 _]. by vm_compute in R2.
  - lia.
  - intros j d r1 Hj. pose proof (lookup_lt_Some _ _ _ Hj) as Hlt. apply Hat; [|lia]. rewrite lookup_app_l by (rewrite map_length; done). exact (eq_trans (list_lookup_fmap fst l j) (f_equal (fmap fst) Hj)).
  - apply (Hat (List.length l) data); [|lia]. rewrite lookup_app_r by (rewrite map_length; done). by rewrite map_length, Nat.sub_diag.
  - apply (Hat (List.length l) data); [|lia]. rewrite lookup_app_r by (rewrite map_length; done). by rewrite map_length, Nat.sub_diag.
Qed.
End Locked.
