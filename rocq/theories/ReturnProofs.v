(** * Proofs for C118: clients that come back to the repository simulator *)
From stdpp Require Import base gmap strings list.
From Coq Require Import ZArith Lia Ascii String.
From Verif Require Import GoBase GoStr GoTime Types Marshal Keys Metadata TrustedMetadata Fetcher Updater ExampleRepos Simulator
  StrProofs SpecRound RoundBase RoundKept SpecBasic SpecSig SigProofs SpecKeys KeysProofs SpecTrusted SpecPublish PublishProofs PlainProofs SpecUpdater SpecReach HonestProofs LifeProofs TrustedProofs PathProofs SpecRepos ReposProofs ServedProofs GenerateProofs RunsProofs TeamsProofs SpecSimulator SimulatorProofs LockoutProofs SpecReturn.
Open Scope Z_scope.

Notation tsv S := (ts_version (md_signed (sm_timestamp S))).
Notation snv S := (sn_version (md_signed (sm_snapshot S))).
Notation tgv S := (tg_version (md_signed (sm_targets S))).

(** ** Version numbers *)
Section Counts.
Context {CR : Crypto} (E : env) (key : string -> signer).
Definition only_targets (m : gomap (option metafile)) : Prop := forall k o, mmap m !! k = Some o -> k = "targets.json".
Definition counted (n : Z) (S : sim) : Prop := 1 <= tsv S <= n /\ 1 <= snv S <= n /\ only_targets (sn_meta (md_signed (sm_snapshot S))).
Lemma new_root_keys_online roles : forall S S', new_root_keys key roles S = Ok S' -> sm_snapshot S' = sm_snapshot S /\ sm_timestamp S' = sm_timestamp S.
Proof.
  induction roles as [|r roles IH]; intros S S'; cbn [new_root_keys]; [by intros [= <-]|]. destruct (new_root_key key r S) as [S1|?|] eqn:E1; [|done..]. cbn [obind]. intros [H H']%IH. rewrite H, H'. clear H H'.
  unfold new_root_key in E1. destruct (public_part _) as [k|?|]; [|done..]. destruct (match root_add_key _ _ _ with Ok x => Ok x | Err _ => _ | Panic => Panic end) as [x|?|]; [|done..]. cbn [obind] in E1. destruct (key_id k) as [i|?|]; [|done..]. cbn [obind] in E1. by injection E1 as <-.
Qed.
Lemma rotate_all_online roles : forall S S', rotate_all key roles S = Ok S' -> sm_snapshot S' = sm_snapshot S /\ sm_timestamp S' = sm_timestamp S.
Proof.
  induction roles as [|r roles IH]; intros S S'; cbn [rotate_all]; [by intros [= <-]|]. destruct (rotate_keys key r S) as [S1|?|] eqn:E1; [|done..]. cbn [obind]. intros [H H']%IH. rewrite H, H'. clear H H'.
  unfold rotate_keys in E1. destruct (mget _ r) as [[x|]|]; [|done..]. by apply new_root_keys_online in E1.
Qed.
Lemma publish_online tr S S' : publish_root E tr S = Ok S' -> sm_snapshot S' = sm_snapshot S /\ sm_timestamp S' = sm_timestamp S.
Proof. unfold publish_root. destruct (sign_each _ _) as [m|?|]; [|done..]. cbn [obind]. destruct (to_bytes m) as [d|?|]; [| |done]; by intros [= <-]. Qed.
Lemma succ_small v : 1 <= v < 2 ^ 62 -> wrap64 (v + 1) = v + 1.
Proof. intros Hv. apply wrap64_id. unfold in_int64, two63. apply andb_true_iff. rewrite Z.leb_le, Z.ltb_lt. lia. Qed.
Lemma timestamp_count tr S S' : sim_update_timestamp E tr S = Ok S' -> 1 <= tsv S < 2 ^ 62 -> sm_snapshot S' = sm_snapshot S /\ tsv S' = tsv S + 1.
Proof.
  unfold sim_update_timestamp. destruct (file_info _ _ _ _ _) as [f|?|]; [|done..]. cbn [obind]. destruct (mset _ _ _) as [l|?|]; [|done..]. cbn [obind]. intros [= <-] H. split; [done|]. cbn. by rewrite succ_small.
Qed.
Lemma snapshot_count tr tr' S S' n e local : sim_update_snapshot E tr tr' S = Ok S' -> content e local S -> counted n S -> n < 2 ^ 62 -> counted (n + 1) S' /\ tsv S' = tsv S + 1 /\ snv S' = snv S + 1.
Proof.
  intros H Hct (H1 & H2 & H3) Hn. unfold sim_update_snapshot in H. rewrite (all_targets_one E tr S e local Hct) in H. cbn [list_roles] in H. destruct (file_info _ _ _ _ _) as [f|?|]; [|done..]. cbn [obind] in H.
  destruct (mset _ _ _) as [l|?|] eqn:El; [|done..]. cbn [obind] in H. destruct (sn_meta (md_signed (sm_snapshot S))) as [mm|] eqn:Em; [|done]. cbn [mset] in El. injection El as <-.
  match type of H with sim_update_timestamp _ _ ?s = _ => set (S1 := s) in H end.
  assert (only_targets (sn_meta (md_signed (sm_snapshot S1)))) as Ho.
  { intros k o Hk. cbn in Hk. apply lookup_insert_Some in Hk as [[<- _]|[_ Hk]]; [done|]. by apply (H3 k o). }
  assert (snv S1 = snv S + 1) as Hsn by (apply succ_small; lia). assert (tsv S1 = tsv S) as Hts by done.
  destruct (timestamp_count tr' S1 S' H) as [Hq Ht]; [rewrite Hts; lia|]. unfold counted. rewrite Hq, Ht, Hsn, Hts. split; [|done]. split; [lia|]. split; [lia|exact Ho].
Qed.
Lemma perform_count tr tr' a S S' n e local : perform E key tr tr' a S = Ok S' -> content e local S -> counted n S -> n < 2 ^ 62 -> counted (n + 1) S' /\ tsv S <= tsv S' /\ snv S <= snv S'.
Proof.
  intros H Hct Hn Hlt. assert (sm_snapshot S' = sm_snapshot S -> sm_timestamp S' = sm_timestamp S -> counted (n + 1) S' /\ tsv S <= tsv S' /\ snv S <= snv S') as Hsame.
  { intros H1 H2. destruct Hn as (N1 & N2 & N3). unfold counted. rewrite H1, H2. split; [|lia]. split; [lia|]. split; [lia|exact N3]. }
  destruct a as [p data|v|b|b| | |roles b]; cbn [perform] in H.
  - revert H. unfold add_target. destruct (targetfile_from_bytes _ _ _) as [f|?|]; [|done..]. cbn [obind get_delegator String.eqb Ascii.eqb Bool.eqb]. destruct (mset _ _ _) as [x|?|]; [|done..]. cbn [obind]. intros [= <-]. by apply Hsame.
  - injection H as <-. by apply Hsame.
  - injection H as <-. by apply Hsame.
  - injection H as <-. by apply Hsame.
  - destruct Hn as (N1 & N2 & N3). destruct (timestamp_count tr S S' H) as [Hq Ht]; [lia|]. unfold counted. rewrite Hq, Ht. split; [|lia]. split; [lia|]. split; [lia|exact N3].
  - destruct (snapshot_count tr tr' S S' n e local H Hct Hn Hlt) as (? & ? & ?). split; [done|lia].
  - destruct (rotate_all key roles S) as [S1|?|] eqn:E1; [|done..]. cbn [obind] in H. apply rotate_all_online in E1 as [E1 E2]. apply publish_online in H as [H1 H2]. apply Hsame; [by rewrite H1, <- E1|by rewrite H2, <- E2].
Qed.
Lemma new_count tr e local S : new_repository E key tr e local = Ok S -> counted 1 S.
Proof.
  unfold new_repository. destruct (new_root_keys key _ _) as [S1|?|] eqn:E1; [|done..]. cbn [obind]. intros [H1 H2]%publish_online. apply new_root_keys_online in E1 as [E1 E2]. unfold counted. rewrite H1, H2, E1, E2. cbn. split; [lia|]. split; [lia|].
  intros k o Hk. cbn in Hk. by apply lookup_singleton_Some in Hk as [<- _].
Qed.
Lemma perform_all_snoc h x S : perform_all E key (h ++ [x]) S = (let! S1 := perform_all E key h S in perform E key x.1.1 x.1.2 x.2 S1).
Proof.
  revert S. induction h as [|[[tr tr'] a] h IH]; intros S.
  - destruct x as [[tr tr'] a]. cbn. by destruct (perform E key tr tr' a S).
  - cbn [perform_all app]. destruct (perform E key tr tr' a S) as [S1|?|]; cbn [obind]; [apply IH|done..].
Qed.
Lemma perform_all_app h h' S : perform_all E key (h ++ h') S = (let! S1 := perform_all E key h S in perform_all E key h' S1).
Proof.
  revert S. induction h as [|[[tr tr'] a] h IH]; intros S; [done|]. cbn [perform_all app]. destruct (perform E key tr tr' a S) as [S1|?|]; cbn [obind]; [apply IH|done..].
Qed.
End Counts.

(** ** What the client has in its cache *)
Section Cached.
Context {CR : Crypto} (E : env) (key : string -> signer) (N : nat).
Context (Hpem : pem_round_trip) (Hwork : keys_work key (names N)) (Htext : text_keys key) (Hempty : forall pk p, raw_verify pk p "" = false).
Notation kid := (kid key).
Notation one := (one key).
Notation crew := (crew key N).
Notation chain := (chain key).
Lemma perform_all_count h : forall S S' n kr b0 r0 l e local, perform_all E key h S = Ok S' -> Forall (fun x => sensible x.2) h -> (sm_keys S + sum_list (map (fun x => keys_made x.2) h) <= N)%nat -> Z.of_nat (List.length l + List.length h) < 2 ^ 62 -> crew S kr -> chain S kr b0 r0 l -> content e local S ->
  counted n S -> n + Z.of_nat (List.length h) < 2 ^ 62 -> counted (n + Z.of_nat (List.length h)) S' /\ tsv S <= tsv S' /\ snv S <= snv S'.
Proof.
  induction h as [|[[tr tr'] a] h IH]; intros S S' n kr b0 r0 l e local H Hs Hn Hl Hc Hch Hct Hco Hlt; cbn [perform_all map snd List.length] in *.
  - injection H as <-. rewrite Z.add_0_r. split; [done|lia].
  - assert (sm_keys S + (keys_made a + sum_list (map (fun x => keys_made x.2) h)) <= N)%nat as Hn' by exact Hn. clear Hn. apply Forall_cons in Hs as [Ha Hs].
    destruct (perform_run E key N Hpem Hwork Htext tr tr' a S kr b0 r0 l e local Ha) as (S1 & kr1 & l1 & H1 & H2 & H3 & H4 & H5 & H6 & H7); [lia|lia|done|done|done|]. rewrite H1 in H. cbn [obind] in H.
    destruct (perform_count E key tr tr' a S S1 n e local H1 Hct Hco ltac:(lia)) as (C1 & C2 & C3).
    destruct (IH S1 S' (n + 1) kr1 b0 r0 (l ++ l1) e local H Hs) as (D1 & D2 & D3); [lia|rewrite app_length; lia|done|done|done|done|lia|]. split; [|lia]. by replace (n + Z.of_nat (Datatypes.S (List.length h))) with (n + 1 + Z.of_nat (List.length h)) by lia.
Qed.
Lemma wrong_key_fails {T} {RT : RoleTy T} (rm : metadata root_t) (m : metadata T) name k k' : team_of key (names N) (md_signed rm) name [k] 1 -> k' ∈ names N -> k <> k' -> ~ root_signs rm name (one k' m).
Proof.
  intros (Ha & r & Hr & Hids & Hthr & _) Hk' Hne (keys & ids & thr & (mm & r1 & M1 & M2 & -> & -> & ->) & (_ & _ & p & _ & good & _ & Hgood & Hlen)).
  assert (r1 = r) as -> by (destruct Hr as (mm' & M3 & M4); rewrite M1 in M3; injection M3 as <-; rewrite M2 in M4; by injection M4).
  rewrite Hthr in Hlen. destruct good as [|id good]; [cbn in Hlen; lia|]. destruct (Hgood id) as [Hin (pk & sig & _ & Hlast & Hver)]; [left|].
  change (default [] (r_keyids r)) with (ids_of r) in Hin. rewrite Hids in Hin. cbn in Hin. apply elem_of_list_singleton in Hin as ->.
  destruct Hlast as [(l1 & s & l2 & Hs & Hid & _)|(_ & ->)]; [|by rewrite Hempty in Hver].
  assert (sig_keyid s = kid k') as Hx by (apply (one_keyids key N Hpem Hwork k' m); [done|]; rewrite Hs; apply elem_of_app; right; left). rewrite Hid in Hx. apply (kid_inj key (names N) Hpem Hwork) in Hx; [done|apply Ha; left|done].
Qed.

(** the cached files are of the states up to [L] *)
Definition cache_of (c : config) (L : sim) (d : disk) : Prop :=
  (forall data, d !! cache_name c "timestamp" = Some data -> exists ts, document data ts /\ (exists p, signing_payload (md_signed ts) = Ok p) /\ ts_version (md_signed ts) <= tsv L /\ exists f, names_snapshot ts f /\ mf_version f <= snv L) /\
  (forall data, d !! cache_name c "snapshot" = Some data -> exists sn, document data sn /\ (exists p, signing_payload (md_signed sn) = Ok p) /\ sn_version (md_signed sn) <= snv L /\
    forall file, mentions_file sn file -> file = "targets.json" /\ exists o, lists_file sn file o /\ mf_version o <= tgv L) /\
  (forall data, d !! cache_name c "targets" = Some data -> exists k m, k ∈ names N /\ document data (metadata_kept (one k m)) /\ (exists p, signing_payload (md_signed (metadata_kept (one k m))) = Ok p) /\ (tg_version (md_signed m) < tgv L \/ m = sm_targets L)).
Lemma cache_empty c L : cache_of c L ∅.
Proof. split; [|split]; intros data H; exfalso; pose proof (eq_trans (eq_sym H) (lookup_empty (M := gmap string) _)); done. Qed.
Lemma cache_later c L L' d : cache_of c L d -> tsv L <= tsv L' -> snv L <= snv L' -> careful L L' -> cache_of c L' d.
Proof.
  intros (H1 & H2 & H3) Ht Hs Hca. assert (tgv L <= tgv L') as Hg by (destruct Hca as [-> |?]; lia). split; [|split].
  - intros data (ts & D & P & V & f & F1 & F2)%H1. exists ts. split; [done|]. split; [done|]. split; [lia|]. exists f. split; [done|lia].
  - intros data (sn & D & P & V & F)%H2. exists sn. split; [done|]. split; [done|]. split; [lia|]. intros file Hf. destruct (F file Hf) as (-> & o & F1 & F2). split; [done|]. exists o. split; [done|lia].
  - intros data (k & m & Hk & D & P & V)%H3. exists k, m. split; [done|]. split; [done|]. split; [done|]. destruct V as [V|V]; [left; lia|]. subst m. destruct Hca as [-> |?]; [by right|by left].
Qed.
Lemma cache_same c L d d' : same_cache c d d' -> cache_of c L d -> cache_of c L d'.
Proof.
  intros Hsame (H1 & H2 & H3). split; [|split]; intros data H; rewrite Hsame in H by (rewrite !elem_of_cons; tauto); [by apply H1|by apply H2|by apply H3].
Qed.
Lemma mentions_kept sn file : mentions_file (metadata_kept sn) file -> mentions_file sn file.
Proof.
  intros (meta & o & Hm & Ho). cbn in Hm. destruct (sn_meta (md_signed sn)) as [mm|] eqn:E1; [|done]. injection Hm as <-. exists mm. rewrite lookup_fmap in Ho. destruct (mm !! file) as [x|] eqn:E2; [|done]. exists x. done.
Qed.

(** ** One visit *)
Lemma honest_session_works E2 c r0 r P now i : document (c_trusted_root c) r0 -> root_signs r0 "root" r0 -> c_metadata_url c <> "" -> c_trusted_root c <> "" ->
  honest r0 r now P -> on_server E2 c r0 r P -> can_follow c r0 P -> disk_works E2 c (io_disk i) ->
  file_is c (io_disk i) "timestamp" (cached_timestamp r P) -> file_is c (io_disk i) "snapshot" (cached_snapshot r now P) -> file_is c (io_disk i) "targets" (cached_targets r now P) ->
  exists i' t w', updater_new E2 c now i = (i', Ok t) /\ refresh E2 c (mkWorld t i') = (w', Ok tt) /\ up_to_date r P (w_trusted w') /\ disk_works E2 c (io_disk (w_io w')).
Proof.
  intros Hd Hs Hu1 Hu2 Hh Hos Hcf Hw Hf1 Hf2 Hf3. destruct (new_honest E2 c r0 now i) as (i1 & Hn & Hw1 & Hb); try done.
  assert (forall role P, role <> "root" -> file_is c (io_disk i) role P -> file_is c (io_disk i1) role P) as Hk1 by (intros role Q Hne HQ data; rewrite Hb by done; apply HQ).
  destruct (refresh_honest E2 c r P (mkWorld (mkTrusted r0 None None ∅ now) i1)) as (w' & Hr & Hup & _ & Hw' & _); cbn [w_trusted w_io t_root t_ref t_timestamp t_snapshot t_targets]; try done; [by eapply document_range|by apply Hk1|by apply Hk1|by apply Hk1|].
  exists i1, (mkTrusted r0 None None ∅ now), w'. done.
Qed.
Section Visit.
Context (path_of : string -> option string) (c : config).
Lemma visit E2 S L kr b0 r0 l e local now i n : crew S kr -> chain S kr b0 r0 l -> content e local S -> synced key S kr -> counted n S -> Z.of_nat (List.length l) < 2 ^ 62 ->
  fetches_from E E2 path_of c S -> fits E c S -> client_of E2 c b0 i -> Z.of_nat (List.length l) <= c_max_root_rotations c -> now <= instant e ->
  cache_of c L (io_disk i) -> tsv L < tsv S -> snv L < snv S -> io_disk i = ∅ \/ careful L S ->
  exists i' t w', updater_new E2 c now i = (i', Ok t) /\ refresh E2 c (mkWorld t i') = (w', Ok tt) /\ follows S (w_trusted w') /\ cache_of c S (io_disk (w_io w')) /\ disk_works E2 c (io_disk (w_io w')).
Proof.
  intros Hc Hch Hct Hsy Hco Hl Hfetch Hfit (C1 & C2 & C3 & C4 & C6 & C7 & C8) Hrot Hnow Hcache Hts Hsn Hca.
  destruct (sim_published E key N Hpem Hwork path_of E2 S kr b0 r0 l e local c now Hc Hch (content_body _ _ _ Hct) Hsy Hl Hfetch Hfit C2 (proj2 C8) Hrot Hnow) as (P & Hhon & Hon & Hcan & P1 & P2 & P3 & P4 & P5). pose proof Hch as (_ & R2 & R3 & _).
  set (r := metadata_kept (one (kr "root") (sm_root S))) in *.
  assert (cache_of c S (io_disk i)) as Hcache'.
  { destruct Hca as [-> |Hca]; [apply cache_empty|]. apply (cache_later c L); [done|lia|lia|done]. }
  assert (tgv L <= tgv S \/ io_disk i = ∅) as Htg by (destruct Hca as [?|[-> |?]]; [by right|left; lia..]).
  assert (forall file, mentions_file (sm_snapshot S) file -> file = "targets.json") as Honly.
  { intros file (meta & o & Hm & Ho). destruct Hco as (_ & _ & Ho'). apply (Ho' file o). rewrite Hm. exact Ho. }
  destruct (honest_session_works E2 c r0 r P now i) as (i' & t & w' & H1 & H2 & H3 & H4); try done.
  - by rewrite C1.
  - rewrite C1. intros ->. destruct R2 as [R2 _]. by vm_compute in R2.
  - intros data Hd. destruct Hcache as (K1 & _ & _). destruct (K1 data Hd) as (ts & D & Pl & V & f & F1 & F2). exists ts. split; [done|]. split; [done|]. intros _. right. rewrite P1, P4. cbn [metadata_kept md_signed signed_kept]. rewrite one_signed. split; [cbn; lia|]. exists f. split; [done|lia].
  - intros data Hd. destruct Hcache' as (_ & K2 & _). destruct (K2 data Hd) as (sn & D & Pl & V & F). exists sn. split; [done|]. split; [done|]. intros _. right. split.
    + intros file Hf. destruct (F file Hf) as (-> & o & F1 & F2). destruct Hsy as (f & g & bs & bg & _ & _ & _ & _ & G1 & G2 & _). exists o, (metafile_kept g). split; [done|]. rewrite P2. split; [|cbn; lia]. apply lists_kept. destruct G1 as (meta & G1 & G3). exists meta. by rewrite one_signed.
    + left. destruct Hcache as (_ & K2' & _). destruct (K2' data Hd) as (sn' & D' & _ & V' & _). assert (sn' = sn) as -> by (destruct D as [D _], D' as [D' _]; congruence). rewrite P4. lia.
  - intros data Hd _. destruct Hcache' as (_ & _ & K3). destruct (K3 data Hd) as (k & m & Hk & D & Pl & V). exists (metadata_kept (one k m)). split; [done|]. split; [done|]. intros Hsig. rewrite P3, P5. destruct V as [V|V].
    + right. left. cbn [metadata_kept md_signed signed_kept]. rewrite one_signed. cbn. lia.
    + subst m. left. destruct (decide (k = kr "targets")) as [-> |Hne]; [done|]. exfalso. apply root_signs_ok in Hsig. unfold r in Hsig. rewrite (root_verify_kept (one (kr "root") (sm_root S)) "targets" (one k (sm_targets S)) is_targets) in Hsig. apply verify_delegate_root_ok in Hsig. revert Hsig.
      apply (wrong_key_fails _ _ "targets" (kr "targets") k); [|done|congruence]. rewrite one_signed. destruct Hc as (_ & _ & Hkk). apply Hkk. apply elem_of_list_In. cbn. tauto.
  - exists i', t, w'. split; [done|]. split; [exact H2|]. split; [by apply (up_to_date_follows key S kr P)|]. split; [|exact H4]. destruct H3 as (U1 & U2 & U3 & U4).
    pose proof (refresh_kept E2 c (mkWorld t i') w') as Hk. unfold cached in Hk. cbn [w_io] in Hk.
    assert (forall x, x <> "root" -> kept w' (io_disk i !! cache_name c x) (io_disk (w_io w') !! cache_name c x) x) as Hkept.
    { intros x Hx. rewrite <- (new_cached E2 c now i i' (Ok t) x H1 Hx). by apply Hk. }
    assert (forall x, x <> "targets" -> t_targets (w_trusted w') !! x = None) as Hno.
    { intros x Hx. rewrite U4. by apply lookup_singleton_ne. }
    destruct Hhon as (_ & _ & (_ & S1 & _) & (N1 & N2 & N3) & (_ & S2 & _) & (L1 & L2 & L3) & (_ & S3 & _)). rewrite P1 in N1. rewrite P2 in L1.
    destruct Hcache' as (K1 & K2 & K3). split; [|split].
    + intros data Hd. destruct (Hkept "timestamp" ltac:(done)) as [Hq|(d & Hq & Hx)]; [apply K1; rewrite <- Hq; exact Hd|]. assert (d = data) as -> by congruence.
      destruct Hx as [(_ & ts & D & T)|[([=] & _)|(m & _ & Hm)]]; [|by rewrite Hno in Hm]. rewrite U2 in T. injection T as <-. exists (pub_timestamp_md P). split; [done|]. split; [by eapply root_payload|]. rewrite P1. split; [cbn [metadata_kept md_signed signed_kept]; rewrite one_signed; cbn; lia|]. exists (pub_snapshot_info P). split; [exact N1|lia].
    + intros data Hd. destruct (Hkept "snapshot" ltac:(done)) as [Hq|(d & Hq & Hx)]; [apply K2; rewrite <- Hq; exact Hd|]. assert (d = data) as -> by congruence.
      destruct Hx as [([=] & _)|[(_ & sn & D & T)|(m & _ & Hm)]]; [|by rewrite Hno in Hm]. rewrite U3 in T. injection T as <-. exists (pub_snapshot_md P). split; [done|]. split; [by eapply root_payload|]. rewrite P2. split; [cbn [metadata_kept md_signed signed_kept]; rewrite one_signed; cbn; lia|].
      intros file Hf. apply mentions_kept in Hf. assert (file = "targets.json") as -> by (apply Honly; destruct Hf as (meta & o & Hf1 & Hf2); exists meta, o; by rewrite one_signed in Hf1). split; [done|]. exists (pub_targets_info P). split; [exact L1|lia].
    + intros data Hd. destruct (Hkept "targets" ltac:(done)) as [Hq|(d & Hq & Hx)]; [apply K3; rewrite <- Hq; exact Hd|]. assert (d = data) as -> by congruence.
      destruct Hx as [([=] & _)|[([=] & _)|(m & D & Hm)]]. rewrite U4 in Hm. rewrite lookup_singleton in Hm. injection Hm as <-. exists (kr "targets"), (sm_targets S). rewrite <- P3. split; [|split; [done|split; [by eapply root_payload|by right]]].
      destruct Hc as (_ & _ & Hkk). destruct (Hkk "targets") as [[Ha _] _]; [apply elem_of_list_In; cbn; tauto|]. apply Ha. left.
Qed.

(** ** Many visits *)
Lemma round_run h tr1 tr2 S kr b0 r0 l e local n : Forall (fun x => sensible x.2) h -> (sm_keys S + sum_list (map (fun x => keys_made x.2) h) <= N)%nat -> crew S kr -> chain S kr b0 r0 l -> content e local S -> counted n S ->
  Z.of_nat (List.length l + List.length h) < 2 ^ 62 -> n + Z.of_nat (List.length h) < 2 ^ 62 ->
  exists S' kr' l', perform_all E key (round h tr1 tr2) S = Ok S' /\ crew S' kr' /\ chain S' kr' b0 r0 (l ++ l') /\ content e local S' /\ synced key S' kr' /\ (List.length l' <= List.length h)%nat /\ (sm_keys S' = sm_keys S + sum_list (map (fun x => keys_made x.2) h))%nat /\
    counted (n + Z.of_nat (List.length h) + 1) S' /\ tsv S < tsv S' /\ snv S < snv S'.
Proof.
  intros Hs Hk Hc Hch Hct Hco Hl Hn. destruct (perform_all_run E key N Hpem Hwork Htext h S kr b0 r0 l e local Hs Hk Hl Hc Hch Hct) as (S1 & kr1 & l1 & H1 & H2 & H3 & H4 & H5 & _ & H7).
  destruct (perform_all_count h S S1 n kr b0 r0 l e local H1 Hs Hk Hl Hc Hch Hct Hco Hn) as (D1 & D2 & D3). destruct (snapshot_run E key N Hpem Hwork tr1 tr2 S1 kr1 b0 r0 (l ++ l1) e local H2 H3 H4) as (S' & Q1 & Q2 & Q3 & Q4 & Q5 & Q6).
  destruct (snapshot_count E tr1 tr2 S1 S' _ e local Q1 H4 D1 Hn) as (F1 & F2 & F3). exists S', kr1, l1. unfold round. rewrite perform_all_snoc, H1. cbn [obind fst snd perform]. split; [done|]. do 5 (split; [done|]). split; [lia|]. split; [done|lia].
Qed.
Lemma made_app (h h' : list (trace * trace * act)) : sum_list (map (fun x => keys_made x.2) (h ++ h')) = (sum_list (map (fun x => keys_made x.2) h) + sum_list (map (fun x => keys_made x.2) h'))%nat.
Proof. induction h as [|x h IH]; [done|]. cbn in *. lia. Qed.
Lemma made_round h tr1 tr2 : sum_list (map (fun x => keys_made x.2) (round h tr1 tr2)) = sum_list (map (fun x => keys_made x.2) h).
Proof. unfold round. rewrite made_app. cbn. lia. Qed.
Lemma round_length h tr1 tr2 : Z.of_nat (List.length (round h tr1 tr2)) = Z.of_nat (List.length h) + 1.
Proof. unfold round. rewrite app_length. cbn. lia. Qed.
Lemma visited_state S0 kr0 b0 r0 e local : crew S0 kr0 -> chain S0 kr0 b0 r0 [] -> content e local S0 -> sm_keys S0 = 4%nat -> counted 1 S0 -> forall h S d, visited E key path_of c e b0 S0 h S d -> (4 + sum_list (map (fun x => keys_made x.2) h) <= N)%nat -> Z.of_nat (List.length h) < 2 ^ 62 - 1 ->
  exists kr l, perform_all E key h S0 = Ok S /\ crew S kr /\ chain S kr b0 r0 l /\ content e local S /\ (List.length l <= List.length h)%nat /\ (sm_keys S = 4 + sum_list (map (fun x => keys_made x.2) h))%nat /\ counted (1 + Z.of_nat (List.length h)) S /\ cache_of c S d.
Proof.
  intros Hc0 Hch0 Hct0 Hk0 Hco0 h S d Hv. induction Hv as [|h S d h' tr1 tr2 S' E2 now i i' t w d' Hv IH Hs Hp Hca Hd (V1 & V2 & V3 & V4 & V5) Hnew Href Hsame]; intros Hk Hl.
  - exists kr0, []. split; [done|]. do 3 (split; [done|]). split; [cbn; lia|]. split; [cbn; lia|]. split; [done|apply cache_empty].
  - rewrite made_app, made_round in Hk. rewrite app_length, Nat2Z.inj_add, round_length in Hl. destruct IH as (kr & l & I0 & I1 & I2 & I3 & I4 & I5 & I6 & I7); [lia|lia|].
    destruct (round_run h' tr1 tr2 S kr b0 r0 l e local _ Hs ltac:(lia) I1 I2 I3 I6) as (S2 & kr2 & l2 & R1 & R2 & R3 & R4 & R5 & R6 & R7 & R8 & R9 & R10); [lia|lia|]. rewrite Hp in R1. injection R1 as <-.
    assert (sm_roots S' = b0 :: map fst (l ++ l2)) as Hroots by apply R3. rewrite Hroots in V4. cbn [List.length] in V4. rewrite map_length in V4.
    destruct (visit E2 S' S kr2 b0 r0 (l ++ l2) e local now i _ R2 R3 R4 R5 R8) as (i2 & t2 & w2 & W1 & W2 & W3 & W4 & _); try done.
    + rewrite app_length. lia.
    + lia.
    + by rewrite Hd.
    + by rewrite Hd.
    + rewrite Hnew in W1. injection W1 as <- <-. rewrite Href in W2. injection W2 as <-. exists kr2, (l ++ l2). split; [by rewrite perform_all_app, I0|]. do 3 (split; [done|]). split; [rewrite !app_length; unfold round; rewrite app_length; cbn; lia|]. split; [rewrite made_app, made_round; lia|].
      split; [rewrite app_length, Nat2Z.inj_add, round_length; replace (1 + (Z.of_nat (List.length h) + (Z.of_nat (List.length h') + 1))) with (1 + Z.of_nat (List.length h) + Z.of_nat (List.length h') + 1) by lia; done|]. by apply (cache_same c S' (io_disk (w_io w))).
Qed.
End Visit.
End Cached.
