(** * Property C118: clients that come back to the repository simulator *)
From stdpp Require Import base gmap strings list.
From Coq Require Import ZArith Lia Ascii String.
From Verif Require Import GoBase GoStr Json GoTime Types Marshal Keys Metadata TrustedMetadata Fetcher Updater Files Cli ExampleClients ExampleRepos Simulator
  StrProofs SpecUtf8 SpecText SpecRound SpecDeleg SpecBasic SpecSig SpecKeys KeysProofs SpecTrusted SpecPublish SpecUpdater SpecReach TrustedProofs PathProofs SpecRepos ReposProofs RoundBase Toy Examples ExamplesUpdater PropertiesRepos SpecSimulator SimulatorProofs LockoutProofs SpecReturn ReturnProofs PropertiesSimulator.
Open Scope Z_scope.

(** ** C118 *)
(** A client that keeps its cache and comes back any number of times, after any acts of the test in between: as long as
    the version of the targets is increased whenever they are changed, every visit refreshes without an error, shows the
    simulator's objects as they are at that moment and finds exactly the targets added so far *)
Theorem C118_returning {CR : Crypto} E key tr e local path_of c S0 : pem_round_trip -> text_keys key -> (forall pk p, raw_verify pk p "" = false) -> time_ok e -> new_repository E key tr e local = Ok S0 ->
  forall root h S d h' tr1 tr2, sm_roots S0 = [root] -> visited E key path_of c e root S0 h S d -> Forall (fun x => sensible x.2) h' -> keys_work key (all_keys (h ++ round h' tr1 tr2)) -> Z.of_nat (List.length (h ++ round h' tr1 tr2)) < 2 ^ 62 - 1 ->
  exists S', perform_all E key (round h' tr1 tr2) S = Ok S' /\ (d = ∅ \/ careful S S' -> forall E2 now i, io_disk i = d -> can_visit E path_of c e root E2 now i S' ->
    exists i' t w, updater_new E2 c now i = (i', Ok t) /\ refresh E2 c (mkWorld t i') = (w, Ok tt) /\ follows S' (w_trusted w) /\ finds_added E2 c (h ++ round h' tr1 tr2) w /\ disk_works E2 c (io_disk (w_io w))).
Proof.
  intros Hpem Htext Hempty Ht Hnew root h S d h' tr1 tr2 Hroot Hv Hs Hwork Hlen. set (N := (4 + sum_list (map (fun x : trace * trace * act => keys_made x.2) (h ++ round h' tr1 tr2)))%nat). change (all_keys (h ++ round h' tr1 tr2)) with (names N) in Hwork.
  assert (N = 4 + sum_list (map (fun x : trace * trace * act => keys_made x.2) h) + sum_list (map (fun x : trace * trace * act => keys_made x.2) h'))%nat as HN by (unfold N; rewrite made_app, made_round; lia).
  rewrite app_length, Nat2Z.inj_add, round_length in Hlen.
  destruct (new_run E key N Hpem Hwork Htext tr e local ltac:(lia) Ht) as (S0' & kr0 & b0 & r0 & H1 & H2 & H3 & H4 & H5 & H6). rewrite Hnew in H1. injection H1 as <-.
  assert (b0 = root) as -> by (destruct H3 as [H3 _]; rewrite Hroot in H3; by injection H3).
  destruct (visited_state E key N Hpem Hwork Htext Hempty path_of c S0 kr0 root r0 e local H2 H3 H4 H5 (new_count E key tr e local S0 Hnew) h S d Hv) as (kr & l & V0 & V1 & V2 & V3 & V4 & V5 & V6 & V7); [lia|lia|].
  destruct (round_run E key N Hpem Hwork Htext h' tr1 tr2 S kr root r0 l e local _ Hs ltac:(lia) V1 V2 V3 V6) as (S' & kr' & l' & R1 & R2 & R3 & R4 & R5 & R6 & R7 & R8 & R9 & R10); [lia|lia|].
  exists S'. split; [done|]. intros Hca E2 now i Hd (C1 & C2 & C3 & C4 & C5).
  assert (sm_roots S' = root :: map fst (l ++ l')) as Hroots by apply R3. rewrite Hroots in C4. cbn [List.length] in C4. rewrite map_length in C4.
  destruct (visit E key N Hpem Hwork Hempty path_of c E2 S' S kr' root r0 (l ++ l') e local now i _ R2 R3 R4 R5 R8) as (i' & t & w & W1 & W2 & W3 & W4 & W5); try done.
  - rewrite app_length. lia.
  - lia.
  - by rewrite Hd.
  - by rewrite Hd.
  - exists i', t, w. split; [done|]. split; [done|]. split; [done|]. split; [|done]. apply (added_found E2 c _ S' w); [|done|by destruct C3 as (_ & _ & _ & _ & _ & ? & _)].
    apply new_listed in Hnew. assert (perform_all E key (h ++ round h' tr1 tr2) S0 = Ok S') as Hall by (by rewrite perform_all_app, V0). exact (perform_all_listed E key _ S0 S' _ Hall Hnew).
Qed.
Print Assumptions C118_returning.
(** *** Two visits *)
Definition first_acts : list (trace * trace * act) := map (pair ([], [])) [AddTargetFile "old.txt" "old"; NewRoot ["snapshot"] false].
Definition careful_acts : list (trace * trace * act) := map (pair ([], [])) [AddTargetFile "file.txt" "hello"; SetTargetsVersion 2; NewRoot ["targets"] true].
Definition careless_acts : list (trace * trace * act) := map (pair ([], [])) [AddTargetFile "file.txt" "hello"].
Definition good_b (s : sim) : bool := fits_b (sim_config "") s && (List.length (sm_roots s) <=? 3)%nat && String.eqb (sm_local s) "/local".
Definition story_b (second : list (trace * trace * act)) : bool :=
  match new_repository (CR := toy_crypto) (order_env false) sim_key [] t2030 "/local" with
  | Ok s0 => match perform_all (CR := toy_crypto) (order_env false) sim_key (round first_acts [] []) s0 with
             | Ok s1 => good_b s1 && match perform_all (CR := toy_crypto) (order_env false) sim_key (round second [] []) s1 with Ok s2 => good_b s2 | _ => false end
             | _ => false end
  | _ => false end.
Definition first_visit (k : sim -> string -> world -> bool) : bool :=
  match new_repository (CR := toy_crypto) (order_env false) sim_key [] t2030 "/local" with
  | Ok s0 => match perform_all (CR := toy_crypto) (order_env false) sim_key (round first_acts [] []) s0 with
    | Ok s1 => match sm_roots s0 with
      | [root] => match updater_new (CR := toy_crypto) (client_env false s1) (sim_config root) ex_now no_files with
        | (i, Ok t) => match refresh (CR := toy_crypto) (client_env false s1) (sim_config root) (mkWorld t i) with (w, Ok tt) => k s1 root w | _ => false end
        | _ => false end
      | _ => false end
    | _ => false end
  | _ => false end.
Definition cached_b (_ : sim) (root : string) (w : world) : bool := match io_disk (w_io w) !! cache_name (sim_config root) "targets" with Some _ => true | None => false end.
Definition missed_b (s1 : sim) (root : string) (w : world) : bool :=
  match perform_all (CR := toy_crypto) (order_env false) sim_key (round careless_acts [] []) s1 with
  | Ok s2 => match updater_new (CR := toy_crypto) (client_env false s2) (sim_config root) ex_now (w_io w) with
    | (i, Ok t) => match refresh (CR := toy_crypto) (client_env false s2) (sim_config root) (mkWorld t i) with
      | (w, Ok tt) => match get_target_info (CR := toy_crypto) (client_env false s2) (sim_config root) "file.txt" w with (_, Err _) => true | _ => false end
      | _ => false end
    | _ => false end
  | _ => false end.
Lemma toy_empty pk p : raw_verify (Crypto := toy_crypto) pk p "" = false.
Proof. apply String.eqb_neq. intros Hx%(f_equal String.length). unfold toy_sig in Hx. rewrite toy_hash_length in Hx. discriminate Hx. Qed.
Lemma story_keys second : bool_decide (Forall (fun n => n ∈ sim_digits) (all_keys (round first_acts [] [] ++ round second [] []))) = true -> forall n, n ∈ all_keys (round first_acts [] [] ++ round second [] []) -> n ∈ sim_digits.
Proof. intros H. apply Forall_forall, (bool_decide_unpack _). rewrite H. exact I. Qed.
Lemma first_keys : forall n, n ∈ all_keys (round first_acts [] []) -> n ∈ sim_digits.
Proof. apply Forall_forall, (bool_decide_unpack (Forall (fun n => n ∈ sim_digits) (all_keys (round first_acts [] [])))). vm_compute. exact I. Qed.
Lemma story_time : time_ok t2030.
Proof. vm_compute; repeat split; try reflexivity; intros [=]. Qed.
Lemma first_sensible : Forall (fun x : trace * trace * act => sensible x.2) first_acts.
Proof.
  unfold first_acts. cbn [map]. repeat (apply Forall_cons_2; [cbn [snd sensible]|]); [| |apply Forall_nil_2].
  - split; [by apply plain_text|vm_compute; reflexivity].
  - intros r. rewrite !elem_of_cons, elem_of_nil. tauto.
Qed.
Lemma careful_sensible : Forall (fun x : trace * trace * act => sensible x.2) careful_acts.
Proof.
  unfold careful_acts. cbn [map]. repeat (apply Forall_cons_2; [cbn [snd sensible]|]); [| | |apply Forall_nil_2].
  - split; [by apply plain_text|vm_compute; reflexivity].
  - done.
  - intros r. rewrite !elem_of_cons, elem_of_nil. tauto.
Qed.
Lemma careless_sensible : Forall (fun x : trace * trace * act => sensible x.2) careless_acts.
Proof. unfold careless_acts. cbn [map]. apply Forall_cons_2; [|apply Forall_nil_2]. cbn [snd sensible]. split; [by apply plain_text|vm_compute; reflexivity]. Qed.
Lemma good_visit root s i : good_b s = true -> disk_works (client_env false s) (sim_config root) (io_disk i) -> can_visit (CR := toy_crypto) (order_env false) sim_path (sim_config root) t2030 root (client_env false s) ex_now i s.
Proof.
  intros Hb Hd. apply andb_true_iff in Hb as [[Hb1 Hb2%Nat.leb_le]%andb_true_iff Hb3%String.eqb_eq]. split; [exact (sim_fetches false s (sim_config root) Hb3 eq_refl)|]. split; [exact (fits_ok (sim_config "") s Hb1)|].
  split; [split_and!; try done|]. split; [cbn [sim_config c_max_root_rotations]; lia|]. vm_compute. intros [=].
Qed.
(** the first visit, and what can be done next *)
Lemma first_done second : story_b second = true -> first_visit cached_b = true -> exists s0 root s1 i0 t0 w s2,
  new_repository (CR := toy_crypto) (order_env false) sim_key [] t2030 "/local" = Ok s0 /\ sm_roots s0 = [root] /\ visited (CR := toy_crypto) (order_env false) sim_key sim_path (sim_config root) t2030 root s0 (round first_acts [] []) s1 (io_disk (w_io w)) /\
  perform_all (CR := toy_crypto) (order_env false) sim_key (round first_acts [] []) s0 = Ok s1 /\ updater_new (CR := toy_crypto) (client_env false s1) (sim_config root) ex_now no_files = (i0, Ok t0) /\ refresh (CR := toy_crypto) (client_env false s1) (sim_config root) (mkWorld t0 i0) = (w, Ok tt) /\
  is_Some (io_disk (w_io w) !! cache_name (sim_config root) "targets") /\ perform_all (CR := toy_crypto) (order_env false) sim_key (round second [] []) s1 = Ok s2 /\
  can_visit (CR := toy_crypto) (order_env false) sim_path (sim_config root) t2030 root (client_env false s2) ex_now (w_io w) s2.
Proof.
  intros Hst Hfi. destruct (C112_follows (CR := toy_crypto) (order_env false) sim_key [] t2030 "/local" (round first_acts [] []) [] [] example_pem sim_text (sim_keys_work _ first_keys) story_time) as (s0 & S2 & S3 & root & H1 & H2 & H3 & _ & _).
  { unfold round. apply Forall_app_2; [exact first_sensible|]. apply Forall_cons_2; [exact I|apply Forall_nil_2]. }
  { vm_compute. reflexivity. }
  destruct (C118_returning (CR := toy_crypto) (order_env false) sim_key [] t2030 "/local" sim_path (sim_config root) s0 example_pem sim_text toy_empty story_time H1 root [] s0 ∅ first_acts [] [] H2 (visited_never _ _ _ _ _ _ _) first_sensible (sim_keys_work _ first_keys) ltac:(vm_compute; reflexivity)) as (s1 & P1 & P2).
  unfold story_b in Hst. rewrite H1 in Hst. rewrite P1 in Hst. apply andb_true_iff in Hst as [Hg1 Hst]. destruct (perform_all (CR := toy_crypto) (order_env false) sim_key (round second [] []) s1) as [s2|?|] eqn:E2; [|discriminate Hst..].
  assert (can_visit (CR := toy_crypto) (order_env false) sim_path (sim_config root) t2030 root (client_env false s1) ex_now no_files s1) as Hcan.
  { apply good_visit; [exact Hg1|]. right. split; [done|]. split; [done|]. split; [done|]. exists "/w". split; [done|]. intros n. apply lookup_empty. }
  destruct (P2 (or_introl eq_refl) (client_env false s1) ex_now no_files eq_refl Hcan) as (i0 & t0 & w & W1 & W2 & _ & _ & W3).
  exists s0, root, s1, i0, t0, w, s2. split; [exact H1|]. split; [exact H2|]. split.
  { refine (visited_again _ _ _ _ _ _ s0 [] s0 ∅ first_acts [] [] s1 (client_env false s1) ex_now no_files i0 t0 w (io_disk (w_io w)) (visited_never _ _ _ _ _ _ _) first_sensible P1 (or_introl eq_refl) eq_refl Hcan W1 W2 _). intros role _. reflexivity. }
  split; [exact P1|]. split; [exact W1|]. split; [exact W2|]. split.
  { unfold first_visit in Hfi. rewrite H1, P1, H2, W1, W2 in Hfi. unfold cached_b in Hfi. destruct (io_disk (w_io w) !! cache_name (sim_config root) "targets") as [x|]; [by exists x|discriminate Hfi]. }
  split; [exact E2|]. apply good_visit; [exact Hst|exact W3].
Qed.
Lemma careful_story : story_b careful_acts = true.
Proof. vm_compute. reflexivity. Qed.
Lemma careless_story : story_b careless_acts = true.
Proof. vm_compute. reflexivity. Qed.
Lemma first_cached : first_visit cached_b = true.
Proof. vm_compute. reflexivity. Qed.
Lemma careless_missed : first_visit missed_b = true.
Proof. vm_compute. reflexivity. Qed.
Definition increased_b (s1 : sim) (_ : string) (_ : world) : bool :=
  match perform_all (CR := toy_crypto) (order_env false) sim_key (round careful_acts [] []) s1 with Ok s2 => tg_version (md_signed (sm_targets s1)) <? tg_version (md_signed (sm_targets s2)) | _ => false end.
Lemma careful_increased : first_visit increased_b = true.
Proof. vm_compute. reflexivity. Qed.
Example C118_case : exists s0 root s1 d s2 i t w tf, new_repository (CR := toy_crypto) (order_env false) sim_key [] t2030 "/local" = Ok s0 /\ sm_roots s0 = [root] /\
  visited (CR := toy_crypto) (order_env false) sim_key sim_path (sim_config root) t2030 root s0 (round first_acts [] []) s1 d /\ is_Some (d !! cache_name (sim_config root) "targets") /\
  perform_all (CR := toy_crypto) (order_env false) sim_key (round careful_acts [] []) s1 = Ok s2 /\ careful s1 s2 /\
  updater_new (CR := toy_crypto) (client_env false s2) (sim_config root) ex_now (mkIos d []) = (i, Ok t) /\ refresh (CR := toy_crypto) (client_env false s2) (sim_config root) (mkWorld t i) = (w, Ok tt) /\
  get_target_info (CR := toy_crypto) (client_env false s2) (sim_config root) "file.txt" w = (w, Ok (Some tf)) /\ matches_target (CR := toy_crypto) tf "hello".
Proof.
  destruct (first_done careful_acts careful_story first_cached) as (s0 & root & s1 & i0 & t0 & w & s2 & H1 & H2 & H3 & H4 & H5 & H6 & H7 & H8 & H9).
  assert (careful s1 s2) as Hca.
  { right. pose proof careful_increased as Hi. unfold first_visit in Hi. rewrite H1, H4, H2, H5, H6 in Hi. unfold increased_b in Hi. rewrite H8 in Hi. by apply Z.ltb_lt. }
  destruct (C118_returning (CR := toy_crypto) (order_env false) sim_key [] t2030 "/local" sim_path (sim_config root) s0 example_pem sim_text toy_empty story_time H1 root (round first_acts [] []) s1 (io_disk (w_io w)) careful_acts [] [] H2 H3 careful_sensible) as (s2' & P1 & P2).
  { apply sim_keys_work, story_keys. vm_compute. reflexivity. }
  { vm_compute. reflexivity. }
  rewrite H8 in P1. injection P1 as <-.
  assert (can_visit (CR := toy_crypto) (order_env false) sim_path (sim_config root) t2030 root (client_env false s2) ex_now (mkIos (io_disk (w_io w)) []) s2) as Hcan by exact H9.
  destruct (P2 (or_intror Hca) (client_env false s2) ex_now (mkIos (io_disk (w_io w)) []) eq_refl Hcan) as (i & t & w2 & W1 & W2 & _ & W3 & _).
  specialize (W3 "file.txt"). destruct W3 as (tf & F1 & _ & F2). exists s0, root, s1, (io_disk (w_io w)), s2, i, t, w2, tf. do 9 (split; [assumption|]). exact F2.
Qed.
(** *** Without increasing the version *)
(** The condition is needed: if a target is added and the version of the targets stays, UpdateSnapshot publishes it, and a
    new client finds it; but a client that comes back refreshes without an error and does not find it *)
Theorem C118_careless_refuted : exists s0 root s1 d s2 i i2 t2 w w2 e, new_repository (CR := toy_crypto) (order_env false) sim_key [] t2030 "/local" = Ok s0 /\ sm_roots s0 = [root] /\
  visited (CR := toy_crypto) (order_env false) sim_key sim_path (sim_config root) t2030 root s0 (round first_acts [] []) s1 d /\ Forall (fun x => sensible x.2) careless_acts /\
  perform_all (CR := toy_crypto) (order_env false) sim_key (round careless_acts [] []) s1 = Ok s2 /\ last_added (round first_acts [] [] ++ round careless_acts [] []) "file.txt" = Some "hello" /\
  can_visit (CR := toy_crypto) (order_env false) sim_path (sim_config root) t2030 root (client_env false s2) ex_now i s2 /\ io_disk i = d /\
  updater_new (CR := toy_crypto) (client_env false s2) (sim_config root) ex_now i = (i2, Ok t2) /\
  refresh (CR := toy_crypto) (client_env false s2) (sim_config root) (mkWorld t2 i2) = (w, Ok tt) /\ get_target_info (CR := toy_crypto) (client_env false s2) (sim_config root) "file.txt" w = (w2, Err e).
Proof.
  destruct (first_done careless_acts careless_story first_cached) as (s0 & root & s1 & i0 & t0 & w & s2 & H1 & H2 & H3 & H4 & H5 & H6 & H7 & H8 & H9).
  pose proof careless_missed as Hm. unfold first_visit in Hm. rewrite H1, H4, H2, H5, H6 in Hm. unfold missed_b in Hm. rewrite H8 in Hm.
  destruct (updater_new (CR := toy_crypto) (client_env false s2) (sim_config root) ex_now (w_io w)) as [i2 [t2|?|]] eqn:En; [|discriminate Hm..].
  destruct (refresh (CR := toy_crypto) (client_env false s2) (sim_config root) (mkWorld t2 i2)) as [w2 [[]|?|]] eqn:Er; [|discriminate Hm..].
  destruct (get_target_info (CR := toy_crypto) (client_env false s2) (sim_config root) "file.txt" w2) as [w3 [?|e|]] eqn:Eg; [discriminate Hm| |discriminate Hm].
  exists s0, root, s1, (io_disk (w_io w)), s2, (w_io w), i2, t2, w2, w3, e. split; [exact H1|]. split; [exact H2|]. split; [exact H3|]. split; [exact careless_sensible|]. split; [exact H8|]. split; [vm_compute; reflexivity|]. split; [exact H9|]. split; [reflexivity|]. split; [exact En|]. split; [exact Er|exact Eg].
Qed.
Print Assumptions C118_careless_refuted.
