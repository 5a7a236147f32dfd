(** * Properties C112-C117: the repository simulator of the tests *)
From stdpp Require Import base gmap strings list.
From Coq Require Import ZArith Lia Ascii String.
From Verif Require Import GoBase GoStr Json GoTime Types Marshal Keys Metadata TrustedMetadata Fetcher Updater Files Cli ExampleClients ExampleRepos Simulator
  StrProofs SpecUtf8 SpecText SpecRound SpecDeleg SpecBasic SpecSig SpecKeys KeysProofs SpecTrusted SpecPublish SpecUpdater SpecReach TrustedProofs PathProofs SpecRepos ReposProofs RoundBase Toy Examples ExamplesUpdater PropertiesRepos SpecSimulator SimulatorProofs LockoutProofs.
Open Scope Z_scope.

(** ** C112 *)
(** Whatever targets are added, roots published, keys of the online roles rotated and settings changed, in any order: no
    step fails, and after a last UpdateSnapshot every new client that trusts the first root refreshes without an error.
    It then has the content of the simulator's objects and finds the information of exactly the targets that were added *)
Theorem C112_follows {CR : Crypto} E key tr e local h tr1 tr2 : pem_round_trip -> text_keys key -> keys_work key (all_keys h) -> time_ok e -> Forall (fun x => sensible x.2) h -> Z.of_nat (List.length h) < 2 ^ 62 ->
  exists S1 S2 S root, new_repository E key tr e local = Ok S1 /\ sm_roots S1 = [root] /\ perform_all E key h S1 = Ok S2 /\ sim_update_snapshot E tr1 tr2 S2 = Ok S /\
    forall E2 path_of c now i, fetches_from E E2 path_of c S -> fits E c S -> new_client E2 c root i -> Z.of_nat (List.length (sm_roots S)) <= 1 + c_max_root_rotations c -> now <= instant e ->
      exists i' t w, updater_new E2 c now i = (i', Ok t) /\ refresh E2 c (mkWorld t i') = (w, Ok tt) /\ follows S (w_trusted w) /\ finds_added E2 c h w.
Proof.
  intros Hpem Htext Hwork Ht Hs Hlen. set (N := (4 + sum_list (map (fun x => keys_made x.2) h))%nat). change (all_keys h) with (names N) in Hwork.
  destruct (new_run E key N Hpem Hwork Htext tr e local ltac:(lia) Ht) as (S1 & kr & b0 & r0 & H1 & H2 & H3 & H4 & H5 & H6).
  destruct (perform_all_run E key N Hpem Hwork Htext h S1 kr b0 r0 [] e local Hs) as (S2 & kr2 & l & P1 & P2 & P3 & P4 & P5 & P6 & P7); [rewrite H5; unfold N; lia|cbn; lia|done|done|done|]. rewrite app_nil_l in P3.
  destruct (snapshot_run E key N Hpem Hwork tr1 tr2 S2 kr2 b0 r0 l e local P2 P3 P4) as (S & Q1 & Q2 & Q3 & Q4 & Q5 & Q6).
  exists S1, S2, S, b0. split; [done|]. split; [by destruct H3 as [-> _]|]. split; [done|]. split; [done|]. intros E2 path_of c now i F1 F2 F3 F4 F5.
  assert (sm_roots S = b0 :: map fst l) as Hroots by apply Q4. rewrite Hroots in F4. cbn [List.length] in F4. rewrite map_length in F4.
  destruct (sim_refresh E key N Hpem Hwork path_of E2 S kr2 b0 r0 l e local c now i Q3 Q4 Q5 Q6 ltac:(lia) F1 F2 F3 ltac:(lia) F5) as (i' & t & w & W1 & W2 & W3).
  exists i', t, w. split; [done|]. split; [done|]. split; [done|]. apply (added_found E2 c h S w); [|done|by destruct F3 as (_ & _ & _ & _ & _ & _ & ? & _)].
  apply new_listed in H1. pose proof (perform_all_listed E key h S1 S2 _ P1 H1) as Hl. apply snapshot_targets in Q1. unfold listed in *. by rewrite Q1.
Qed.
Print Assumptions C112_follows.

(** *** A simulator and a client of it *)
Definition sim_word (n : string) : string :=
  if String.eqb n "0" then "root" else if String.eqb n "1" then "timestamp" else if String.eqb n "2" then "snapshot" else if String.eqb n "3" then "targets" else
  if String.eqb n "4" then "another" else if String.eqb n "5" then "go-scripts" else if String.eqb n "6" then "new" else if String.eqb n "7" then "rsa" else "ecdsa".
Definition sim_key (n : string) : signer := example_key (sim_word n).
Definition sim_path (url : string) : option string := strip_prefix "https://r" url.
(** the order of map iterations; [flip]: another one as soon as something has happened *)
Definition flip_order A (tr : trace) (l : list (string * A)) := match tr with [] => l | _ => rev l end.
Lemma flip_order_perm A tr (l : list (string * A)) : flip_order A tr l ≡ₚ l.
Proof. destruct tr; [done|]. symmetry. apply Permutation_rev. Qed.
Definition order_env (flip : bool) : env :=
  if flip then mkEnv (fun _ _ _ => Err (EOther "no network")) (fun _ => true) (fun _ => None) (Some "/w") (fun tr => Z.of_nat (List.length tr)) no_join flip_order flip_order_perm
  else mkEnv (fun _ _ _ => Err (EOther "no network")) (fun _ => true) (fun _ => None) (Some "/w") (fun tr => Z.of_nat (List.length tr)) no_join keep_order keep_order_perm.
Definition client_env (flip : bool) (S : sim) : env :=
  mkEnv (fun tr url len => sim_download (CR := toy_crypto) (order_env flip) sim_path tr S url len) (fun _ => true) (fun _ => None) (Some "/w") (fun tr => Z.of_nat (List.length tr)) no_join keep_order keep_order_perm.
Definition sim_config (root : string) : config := mkConfig 32 32 512000 16384 2000000 5000000 root "/m" "/t" "https://r/local/metadata" "https://r/local/targets" false true false.
Lemma sim_text : text_keys (CR := toy_crypto) sim_key.
Proof. intros n. exact (example_text (sim_word n)). Qed.
Definition sim_digits : list string := ["0"; "1"; "2"; "3"; "4"; "5"; "6"; "7"; "8"].
Lemma sim_keys_work l : (forall n, n ∈ l -> n ∈ sim_digits) -> keys_work (CR := toy_crypto) sim_key l.
Proof.
  intros Hl. destruct (example_keys key_names ltac:(done)) as [K1 K2]. assert (forall n, n ∈ sim_digits -> sim_word n ∈ key_names) as Hw.
  { intros n Hn. unfold sim_digits in Hn. unfold key_names. rewrite !elem_of_cons, elem_of_nil in Hn. repeat destruct Hn as [->|Hn]; [rewrite !elem_of_cons; vm_compute; tauto..|done]. }
  split; [intros n Hn; apply (K1 (sim_word n)), Hw, Hl, Hn|]. intros n n' id H1%Hl H2%Hl H3 H4. specialize (K2 (sim_word n) (sim_word n') id (Hw n H1) (Hw n' H2) H3 H4).
  assert (forallb (fun a => forallb (fun b => implb (String.eqb (sim_word a) (sim_word b)) (String.eqb a b)) sim_digits) sim_digits = true) as Hall by (vm_compute; reflexivity).
  rewrite forallb_forall in Hall. specialize (Hall n (proj1 (elem_of_list_In _ _) H1)). rewrite forallb_forall in Hall. specialize (Hall n' (proj1 (elem_of_list_In _ _) H2)). rewrite K2, String.eqb_refl in Hall. by apply String.eqb_eq.
Qed.
Lemma sim_fetches flip S c : sm_local S = "/local" -> c_metadata_url c = "https://r/local/metadata" -> fetches_from (CR := toy_crypto) (order_env flip) (client_env flip S) sim_path c S.
Proof.
  intros Hl Hc. split; [done|]. intros role Hr. rewrite Hl, Hc. change (with_slash "https://r/local/metadata") with ("https://r" +:+ "/local/metadata/"). unfold sim_path. split; [|intros v]; rewrite app_assoc_s, strip_own; done.
Qed.
Lemma sim_new_client flip S root : new_client (client_env flip S) (sim_config root) root no_files.
Proof. split_and!; try done. right. split; [done|]. split; [done|]. split; [done|]. exists "/w". split; [done|]. intros n. apply lookup_empty. Qed.
(** [fits] by computation, for an order that does not depend on the trace *)
Definition small (max : Z) (o : outcome string) : bool := match o with Ok data => (Z.of_nat (String.length data) <=? max) && (Z.of_nat (String.length data) <? 2 ^ 63) | _ => true end.
Definition fits_b (c : config) (S : sim) : bool :=
  forallb (fun b => small (c_root_max c) (Ok b)) (sm_roots S) && small (c_timestamp_max c) (fetch_metadata (CR := toy_crypto) (order_env false) [] S "timestamp" 0) &&
  small (c_snapshot_max c) (fetch_metadata (CR := toy_crypto) (order_env false) [] S "snapshot" 0) && small (c_targets_max c) (fetch_metadata (CR := toy_crypto) (order_env false) [] S "targets" 0).
Lemma small_ok max o data : small max o = true -> o = Ok data -> Z.of_nat (String.length data) <= max /\ Z.of_nat (String.length data) < 2 ^ 63.
Proof. intros H ->. unfold small in H. apply andb_true_iff in H as [H1%Z.leb_le H2%Z.ltb_lt]. done. Qed.
Lemma fits_ok c S : fits_b c S = true -> fits (CR := toy_crypto) (order_env false) c S.
Proof.
  unfold fits_b. rewrite !andb_true_iff. intros (((H1 & H2) & H3) & H4) tr role max v data Hr Hf. rewrite !elem_of_cons, elem_of_nil in Hr. destruct Hr as [[= -> ->]|[[= -> ->]|[[= -> ->]|[[= -> ->]|[]]]]].
  - unfold fetch_metadata in Hf. cbn [String.eqb Ascii.eqb Bool.eqb] in Hf. destruct (_ && _); [done|]. destruct (v - 1 <? 0); [done|]. destruct (sm_roots S !! Z.to_nat (v - 1)) as [b|] eqn:Eb; [|done].
    rewrite forallb_forall in H1. apply elem_of_list_lookup_2, elem_of_list_In in Eb. exact (small_ok _ _ _ (H1 b Eb) Hf).
  - exact (small_ok _ _ _ H2 Hf).
  - exact (small_ok _ _ _ H3 Hf).
  - exact (small_ok _ _ _ H4 Hf).
Qed.
Definition sim_history : list (trace * trace * act) :=
  map (pair ([], [])) [AddTargetFile "file.txt" "hello"; SetComputeHashes true; DoUpdateSnapshot; NewRoot ["timestamp"; "targets"] false; SetTargetsVersion 5; AddTargetFile "dir/file.txt" "world"; AddTargetFile "file.txt" "hello again"; NewRoot ["targets"] true].
Definition sim_run (h : list (trace * trace * act)) : outcome sim :=
  let! S := new_repository (CR := toy_crypto) (order_env false) sim_key [] t2030 "/local" in let! S := perform_all (CR := toy_crypto) (order_env false) sim_key h S in sim_update_snapshot (CR := toy_crypto) (order_env false) [] [] S.
Definition history_b : bool := match sim_run sim_history with Ok s => fits_b (sim_config "") s && (List.length (sm_roots s) =? 3)%nat && String.eqb (sm_local s) "/local" | _ => false end.
Lemma history_keys : forall n, n ∈ all_keys sim_history -> n ∈ sim_digits.
Proof. apply Forall_forall, (bool_decide_unpack (Forall (fun n => n ∈ sim_digits) (all_keys sim_history))). vm_compute. exact I. Qed.
Example C112_case : exists S1 S2 S root, keys_work (CR := toy_crypto) sim_key (all_keys sim_history) /\ text_keys (CR := toy_crypto) sim_key /\ Forall (fun x => sensible x.2) sim_history /\ time_ok t2030 /\
  new_repository (CR := toy_crypto) (order_env false) sim_key [] t2030 "/local" = Ok S1 /\ sm_roots S1 = [root] /\ perform_all (CR := toy_crypto) (order_env false) sim_key sim_history S1 = Ok S2 /\ sim_update_snapshot (CR := toy_crypto) (order_env false) [] [] S2 = Ok S /\
  List.length (sm_roots S) = 3%nat /\ fetches_from (CR := toy_crypto) (order_env false) (client_env false S) sim_path (sim_config root) S /\ fits (CR := toy_crypto) (order_env false) (sim_config root) S /\ new_client (client_env false S) (sim_config root) root no_files /\
  exists i' t w tf, updater_new (CR := toy_crypto) (client_env false S) (sim_config root) ex_now no_files = (i', Ok t) /\ refresh (CR := toy_crypto) (client_env false S) (sim_config root) (mkWorld t i') = (w, Ok tt) /\
    get_target_info (CR := toy_crypto) (client_env false S) (sim_config root) "file.txt" w = (w, Ok (Some tf)) /\ matches_target (CR := toy_crypto) tf "hello again".
Proof.
  assert (time_ok t2030) as Ht by (vm_compute; repeat split; try reflexivity; intros [=]).
  assert (Forall (fun x : trace * trace * act => sensible x.2) sim_history) as Hs.
  { unfold sim_history. cbn [map]. repeat (apply Forall_cons_2; [cbn [snd sensible]|]); try done.
    - split; [by apply plain_text|vm_compute; reflexivity].
    - intros r. rewrite !elem_of_cons, elem_of_nil. tauto.
    - split; [by apply plain_text|vm_compute; reflexivity].
    - split; [by apply plain_text|vm_compute; reflexivity].
    - intros r. rewrite !elem_of_cons, elem_of_nil. tauto. }
  pose proof (sim_keys_work _ history_keys) as Hk.
  destruct (C112_follows (CR := toy_crypto) (order_env false) sim_key [] t2030 "/local" sim_history [] [] example_pem sim_text Hk Ht Hs ltac:(vm_compute; reflexivity)) as (S1 & S2 & S & root & H1 & H2 & H3 & H4 & H5).
  assert (history_b = true) as Hb by (vm_compute; reflexivity). unfold history_b, sim_run in Hb. rewrite H1 in Hb. cbn [obind] in Hb. rewrite H3 in Hb. cbn [obind] in Hb. rewrite H4 in Hb. apply andb_true_iff in Hb as [[Hb1 Hb2%Nat.eqb_eq]%andb_true_iff Hb3%String.eqb_eq].
  assert (fits (CR := toy_crypto) (order_env false) (sim_config root) S) as Hf by exact (fits_ok (sim_config "") S Hb1).
  pose proof (sim_fetches false S (sim_config root) Hb3 eq_refl) as Hfe. pose proof (sim_new_client false S root) as Hn.
  exists S1, S2, S, root. split; [exact Hk|]. split; [exact sim_text|]. split; [exact Hs|]. split; [exact Ht|]. split; [exact H1|]. split; [exact H2|]. split; [exact H3|]. split; [exact H4|]. split; [exact Hb2|]. split; [exact Hfe|]. split; [exact Hf|]. split; [exact Hn|].
  destruct (H5 (client_env false S) sim_path (sim_config root) ex_now no_files Hfe Hf Hn ltac:(rewrite Hb2; vm_compute; intros [=]) ltac:(vm_compute; intros [=])) as (i' & t & w & W1 & W2 & _ & W3).
  specialize (W3 "file.txt"). destruct W3 as (tf & F1 & _ & F2). exists i', t, w, tf. split; [exact W1|]. split; [exact W2|]. split; [exact F1|exact F2].
Qed.

(** ** C113 *)
Definition empty_part (p : string) : Prop := exists a b, p = a +:+ "//" +:+ b.
(** the files a simulator holds are those last added, each under its name *)
Lemma perform_all_files {CR : Crypto} E key h : forall S S', perform_all E key h S = Ok S' ->
  forall p, match last_added h p with Some data => exists tf, sm_files S' !! p = Some (data, tf) | None => sm_files S' !! p = sm_files S !! p end.
Proof.
  assert (forall roles S S', new_root_keys key roles S = Ok S' -> sm_files S' = sm_files S) as Hnew.
  { induction roles as [|r roles IH]; intros S S'; cbn [new_root_keys]; [by intros [= <-]|]. destruct (new_root_key key r S) as [S1|?|] eqn:E1; [|done..]. cbn [obind]. intros H%IH. rewrite H. clear H.
    unfold new_root_key in E1. destruct (public_part _) as [k|?|]; [|done..]. destruct (match root_add_key _ _ _ with Ok x => Ok x | Err _ => _ | Panic => Panic end) as [x|?|]; [|done..]. cbn [obind] in E1. destruct (key_id k) as [i|?|]; [|done..]. cbn [obind] in E1. by injection E1 as <-. }
  assert (forall tr S S', sim_update_timestamp E tr S = Ok S' -> sm_files S' = sm_files S) as Hts.
  { intros tr S S'. unfold sim_update_timestamp. destruct (file_info _ _ _ _ _) as [f|?|]; [|done..]. cbn [obind]. destruct (mset _ _ _) as [l|?|]; [|done..]. cbn [obind]. by intros [= <-]. }
  assert (forall roles S S', rotate_all key roles S = Ok S' -> sm_files S' = sm_files S) as Hrot.
  { induction roles as [|r roles IH]; intros S S'; cbn [rotate_all]; [by intros [= <-]|]. destruct (rotate_keys key r S) as [S1|?|] eqn:E1; [|done..]. cbn [obind]. intros H%IH. rewrite H. clear H. unfold rotate_keys in E1. destruct (mget _ r) as [[x|]|]; [|done..]. by apply Hnew in E1. }
  induction h as [|[[tr tr'] a] h IH]; intros S S' H p; cbn [perform_all last_added] in *; [by injection H as <-|].
  destruct (perform E key tr tr' a S) as [S1|?|] eqn:E1; [|done..]. cbn [obind] in H. specialize (IH S1 S' H p). clear H.
  destruct (last_added h p) as [data|]; [exact IH|].
  destruct a as [q data|v|b|b| | |roles b]; cbn [perform] in E1.
  - unfold add_target in E1. destruct (match targetfile_from_bytes _ _ _ with Ok tf => Ok tf | _ => Panic end) as [tf|?|]; [|done..]. cbn [obind] in E1. destruct (mset _ _ _) as [l|?|]; [|done..]. cbn [obind] in E1. injection E1 as <-.
    change (sm_files S' !! p = <[q := (data, tf)]> (sm_files (set_delegator S "targets" (mkTargets (tg_type (get_delegator S "targets")) (tg_spec (get_delegator S "targets")) (tg_version (get_delegator S "targets")) (tg_expires (get_delegator S "targets")) l (tg_delegations (get_delegator S "targets")) (tg_unrec (get_delegator S "targets"))))) !! p) in IH.
    destruct (String.eqb_spec q p) as [->|Hn]; [exists tf; rewrite IH; apply (lookup_insert (M := gmap string))|]. rewrite IH. rewrite lookup_insert_ne by done. done.
  - injection E1 as <-. exact IH.
  - injection E1 as <-. exact IH.
  - injection E1 as <-. exact IH.
  - apply Hts in E1. by rewrite <- E1.
  - unfold sim_update_snapshot in E1. destruct (list_roles _ _ _ _ _) as [f|?|]; [|done..]. cbn [obind] in E1. apply Hts in E1. rewrite IH, E1. done.
  - destruct (rotate_all key roles S) as [S2|?|] eqn:E2; [|done..]. cbn [obind] in E1. apply Hrot in E2. unfold publish_root in E1. destruct (sign_each _ _) as [m|?|]; [|done..]. cbn [obind] in E1. destruct (to_bytes m); [| |done]; injection E1 as <-; cbn [set_roots set_sim_root sm_files] in IH; by rewrite IH, E2.
Qed.
Lemma new_files {CR : Crypto} E key tr0 e local S1 : new_repository E key tr0 e local = Ok S1 -> sm_files S1 = ∅.
Proof.
  intros Hnew. unfold new_repository in Hnew.
  assert (forall roles S S', new_root_keys key roles S = Ok S' -> sm_files S' = sm_files S) as Hn.
  { clear. induction roles as [|r roles IH]; intros S S'; cbn [new_root_keys]; [by intros [= <-]|]. destruct (new_root_key key r S) as [S1|?|] eqn:E1; [|done..]. cbn [obind]. intros H%IH. rewrite H. clear H.
    unfold new_root_key in E1. destruct (public_part _) as [k|?|]; [|done..]. destruct (match root_add_key _ _ _ with Ok x => Ok x | Err _ => _ | Panic => Panic end) as [x|?|]; [|done..]. cbn [obind] in E1. destruct (key_id k) as [i|?|]; [|done..]. cbn [obind] in E1. by injection E1 as <-. }
  destruct (new_root_keys key _ _) as [S2|?|] eqn:E1; [|done..]. cbn [obind] in Hnew. apply Hn in E1. unfold publish_root in Hnew. destruct (sign_each _ _) as [m|?|]; [|done..]. cbn [obind] in Hnew.
  destruct (to_bytes m); [| |done]; injection Hnew as <-; cbn [set_roots sm_files]; rewrite E1; done.
Qed.
Lemma added_files {CR : Crypto} E key tr0 e local h S1 S p : new_repository E key tr0 e local = Ok S1 -> perform_all E key h S1 = Ok S ->
  match last_added h p with Some data => exists tf, sm_files S !! p = Some (data, tf) | None => sm_files S !! p = None end.
Proof.
  intros Hnew Hall. pose proof (perform_all_files E key h S1 S Hall p) as H. destruct (last_added h p); [exact H|]. rewrite H, (new_files _ _ _ _ _ _ Hnew). apply (lookup_empty (M := gmap string)).
Qed.
Lemma fetch_at_part S path data : fetch_target_at S path = Ok data -> exists p tf, sm_files S !! p = Some (data, tf) /\ empty_part p.
Proof.
  unfold fetch_target_at. destruct (last_index path) as [[a b]|?|] eqn:El; [|done..]. cbn [obind fst snd].
  assert (exists a', a = a' +:+ "/") as [a' ->]. { unfold last_index in El. destruct (split_on "/" path) as [|x [|y [|z [|? ?]]]]; try done; injection El as <- _; by exists x. }
  destruct (if rt_consistent (md_signed (sm_root S)) && sm_prefix S then partition_dot b else ("", b)) as [hash file]. unfold fetch_target. destruct (sm_files S !! _) as [[d tf]|] eqn:Ef; [|done]. destruct (_ && _); [done|]. intros [= <-]. eexists _, tf. split; [exact Ef|]. exists a', file. by rewrite app_assoc_s.
Qed.
Lemma fetch_targets_url {CR : Crypto} E path_of tr S url name : path_of url = Some (sm_local S +:+ "/targets/" +:+ name) -> sim_fetch E path_of tr S url = fetch_target_at S name.
Proof.
  intros Hp. unfold sim_fetch. rewrite Hp. unfold trim_prefix. rewrite strip_own. cbn [from_option id]. unfold id. rewrite strip_own. done.
Qed.
(** What a request below /targets/ gives was added as the latest content of some name, and that name has an empty part *)
Theorem C113_content {CR : Crypto} E key tr0 e local h S1 S path_of tr url name len data :
  new_repository E key tr0 e local = Ok S1 -> perform_all E key h S1 = Ok S -> path_of url = Some (sm_local S +:+ "/targets/" +:+ name) -> sim_download E path_of tr S url len = Ok data ->
  exists p, last_added h p = Some data /\ empty_part p /\ Z.of_nat (String.length data) <= len.
Proof.
  intros Hnew Hall Hp H. unfold sim_download in H. rewrite (fetch_targets_url E path_of tr S url name Hp) in H. destruct (fetch_target_at S name) as [d|?|] eqn:Ef; [|done..]. cbn [obind] in H.
  destruct (Z.ltb_spec len (str_len d)) as [Hl|Hl]; [done|]. injection H as ->. apply fetch_at_part in Ef as (p & tf & H1 & H2). exists p.
  pose proof (added_files E key tr0 e local h S1 S p Hnew Hall) as H. destruct (last_added h p) as [d'|]; [destruct H as [tf' H]|]; rewrite H1 in H; [|done]. injection H as -> _. done.
Qed.
Print Assumptions C113_content.
(** So not one target can be downloaded: whatever the history and the settings, every request below /targets/ fails, unless
    a target has been added whose name has an empty part *)
Theorem C113_none {CR : Crypto} E key tr0 e local h S1 S path_of tr url name len data : Forall (fun x : trace * trace * act => match x.2 with AddTargetFile p _ => ~ empty_part p | _ => True end) h ->
  new_repository E key tr0 e local = Ok S1 -> perform_all E key h S1 = Ok S -> path_of url = Some (sm_local S +:+ "/targets/" +:+ name) -> sim_download E path_of tr S url len <> Ok data.
Proof.
  intros Hs Hnew Hall Hp H. destruct (C113_content E key tr0 e local h S1 S path_of tr url name len data Hnew Hall Hp H) as (p & Ha & He & _). clear - Hs Ha He.
  induction h as [|[t a] h IH]; [done|]. apply Forall_cons in Hs as [Hx Hs]. cbn [last_added snd] in *. destruct (last_added h p) as [d|]; [by apply IH|].
  destruct a; try done. destruct (String.eqb_spec path p) as [->|]; [by apply Hx|done].
Qed.
Print Assumptions C113_none.
(** what is served for a name with two slashes is the target whose name has the first of them doubled *)
Theorem C113_doubled {CR : Crypto} E key tr0 e local h S1 S path_of tr url a b f len data :
  new_repository E key tr0 e local = Ok S1 -> perform_all E key h S1 = Ok S -> rt_consistent (md_signed (sm_root S)) && sm_prefix S = false ->
  SpecDeleg.no_slash a -> SpecDeleg.no_slash b -> SpecDeleg.no_slash f -> path_of url = Some (sm_local S +:+ "/targets/" +:+ a +:+ "/" +:+ b +:+ "/" +:+ f) ->
  last_added h (a +:+ "//" +:+ b +:+ "/" +:+ f) = Some data -> Z.of_nat (String.length data) <= len -> sim_download E path_of tr S url len = Ok data.
Proof.
  intros Hnew Hall Hc Ha%GenerateProofs.slash_free Hb%GenerateProofs.slash_free Hf%GenerateProofs.slash_free Hp Hl Hlen. unfold sim_download. rewrite (fetch_targets_url E path_of tr S url _ Hp). unfold fetch_target_at, last_index.
  rewrite !split_on_app, !split_on_slash_free by done. cbn [obind fst snd app]. rewrite Hc. unfold fetch_target.
  pose proof (added_files E key tr0 e local h S1 S (a +:+ "//" +:+ b +:+ "/" +:+ f) Hnew Hall) as H. rewrite Hl in H. destruct H as [tf H].
  assert ((a +:+ "/") +:+ "/" +:+ b +:+ "/" +:+ f = a +:+ "//" +:+ b +:+ "/" +:+ f) as Hn by (by rewrite app_assoc_s). rewrite Hn, H. cbn [String.eqb negb andb obind].
  destruct (Z.ltb_spec len (str_len data)) as [Hx|_]; [|done]. unfold str_len in Hx. lia.
Qed.
Print Assumptions C113_doubled.
Definition doubled_history : list (trace * trace * act) := map (fun a => ([], [], a)) [AddTargetFile "d//e/f" "old"; AddTargetFile "d//e/f" "hello"; SetPrefixTargets false; DoUpdateSnapshot].
Example C113_doubled_case : exists S1 S, new_repository (CR := toy_crypto) (order_env false) sim_key [] t2030 "/local" = Ok S1 /\ perform_all (CR := toy_crypto) (order_env false) sim_key doubled_history S1 = Ok S /\
  rt_consistent (md_signed (sm_root S)) && sm_prefix S = false /\ sim_path "https://r/local/targets/d/e/f" = Some (sm_local S +:+ "/targets/" +:+ "d" +:+ "/" +:+ "e" +:+ "/" +:+ "f") /\ last_added doubled_history "d//e/f" = Some "hello".
Proof.
  assert (match new_repository (CR := toy_crypto) (order_env false) sim_key [] t2030 "/local" with
          | Ok S1 => match perform_all (CR := toy_crypto) (order_env false) sim_key doubled_history S1 with Ok s => negb (rt_consistent (md_signed (sm_root s)) && sm_prefix s) && String.eqb (sm_local s) "/local" | _ => false end
          | _ => false end = true) as Hb by (vm_compute; reflexivity).
  destruct (new_repository (CR := toy_crypto) (order_env false) sim_key [] t2030 "/local") as [S1|?|]; [|discriminate Hb..]. exists S1.
  destruct (perform_all (CR := toy_crypto) (order_env false) sim_key doubled_history S1) as [S|?|] eqn:E2; [|discriminate Hb..]. exists S. apply andb_true_iff in Hb as [H1 H2%String.eqb_eq]. apply negb_true_iff in H1.
  split; [reflexivity|]. split; [reflexivity|]. split; [exact H1|]. split; [rewrite H2; reflexivity|reflexivity].
Qed.
Lemma snapshot_local {CR : Crypto} E tr tr' S S' : sim_update_snapshot E tr tr' S = Ok S' -> sm_local S' = sm_local S.
Proof.
  intros E3. unfold sim_update_snapshot in E3. destruct (list_roles _ _ _ _ _) as [f|?|]; [|done..]. cbn [obind] in E3.
  unfold sim_update_timestamp in E3. destruct (file_info _ _ _ _ _) as [g|?|]; [|done..]. cbn [obind] in E3. destruct (mset _ _ _) as [l|?|]; [|done..]. cbn [obind] in E3. by injection E3 as <-.
Qed.
Fixpoint double_slash (s : string) : bool := match s with EmptyString => false | String _ t => has_prefix "//" s || double_slash t end.
Example C113_case : exists S1 S, new_repository (CR := toy_crypto) (order_env false) sim_key [] t2030 "/local" = Ok S1 /\ perform_all (CR := toy_crypto) (order_env false) sim_key sim_history S1 = Ok S /\ sm_local S = "/local" /\
  Forall (fun x : trace * trace * act => match x.2 with AddTargetFile p _ => ~ empty_part p | _ => True end) sim_history /\ sim_path "https://r/local/targets/dir/file.txt" = Some (sm_local S +:+ "/targets/" +:+ "dir/file.txt").
Proof.
  destruct C112_case as (S1 & S2 & S & root & _ & _ & _ & _ & H1 & _ & H2 & H3 & _). exists S1, S2. split; [exact H1|]. split; [exact H2|].
  assert (match sim_run sim_history with Ok s => String.eqb (sm_local s) "/local" | _ => false end = true) as Hb by (vm_compute; reflexivity). unfold sim_run in Hb. rewrite H1 in Hb. cbn [obind] in Hb. rewrite H2 in Hb. cbn [obind] in Hb. rewrite H3 in Hb. apply String.eqb_eq in Hb. apply snapshot_local in H3. rewrite H3 in Hb. clear H1 H2 H3.
  split; [exact Hb|]. split; [|by rewrite Hb].
  assert (forall p, double_slash p = false -> ~ empty_part p) as Hp.
  { intros p H (a & b & ->). induction a as [|x a IH]; [done|]. change (double_slash (String x a +:+ "//" +:+ b)) with (has_prefix "//" (String x a +:+ "//" +:+ b) || double_slash (a +:+ "//" +:+ b)) in H. apply orb_false_iff in H as [_ H]. by apply IH. }
  unfold sim_history. cbn [map]. repeat (apply Forall_cons_2; [cbn [snd]|]); try done; by apply Hp.
Qed.
(** the request for a target in the top directory, or in a directory there, ends the program *)
Definition shallow (name : string) : Prop := SpecDeleg.no_slash name \/ exists a b, name = a +:+ "/" +:+ b /\ SpecDeleg.no_slash a /\ SpecDeleg.no_slash b.
Theorem C113_panics {CR : Crypto} E path_of tr S url name len : path_of url = Some (sm_local S +:+ "/targets/" +:+ name) -> shallow name -> sim_download E path_of tr S url len = Panic.
Proof.
  intros Hp Hs. unfold sim_download. rewrite (fetch_targets_url E path_of tr S url name Hp). unfold fetch_target_at, last_index.
  destruct Hs as [Hn%GenerateProofs.slash_free|(a & b & -> & Ha%GenerateProofs.slash_free & Hb%GenerateProofs.slash_free)]; [by rewrite split_on_slash_free|]. by rewrite split_on_app, !split_on_slash_free.
Qed.
Print Assumptions C113_panics.
(** the client has refreshed without an error and found the target, and its download ends the program *)
Definition after_refresh {A} (flip : bool) (S : sim) (root : string) (f : world -> A) (no : A) : A :=
  match updater_new (CR := toy_crypto) (client_env flip S) (sim_config root) ex_now no_files with
  | (i', Ok t) => match refresh (CR := toy_crypto) (client_env flip S) (sim_config root) (mkWorld t i') with (w, Ok tt) => f w | _ => no end
  | _ => no
  end.
Definition download_panics (S : sim) (root name : string) : bool :=
  after_refresh false S root (fun w => match get_target_info (CR := toy_crypto) (client_env false S) (sim_config root) name w with
    | (w, Ok (Some tf)) => match download_target (CR := toy_crypto) (client_env false S) (sim_config root) tf "" "" w with (_, Panic) => true | _ => false end
    | _ => false
    end) false.
Lemma download_panics_ok S root name : download_panics S root name = true -> exists i' t w w1 w2 tf, updater_new (CR := toy_crypto) (client_env false S) (sim_config root) ex_now no_files = (i', Ok t) /\
  refresh (CR := toy_crypto) (client_env false S) (sim_config root) (mkWorld t i') = (w, Ok tt) /\ get_target_info (CR := toy_crypto) (client_env false S) (sim_config root) name w = (w1, Ok (Some tf)) /\ download_target (CR := toy_crypto) (client_env false S) (sim_config root) tf "" "" w1 = (w2, Panic).
Proof.
  unfold download_panics, after_refresh. generalize (client_env false S) as e. intros e. destruct (updater_new e _ _ _) as [i' [t|?|]]; [|discriminate..]. destruct (refresh e _ _) as [w [[]|?|]] eqn:E2; [|discriminate..]. destruct (get_target_info e _ _ _) as [w1 [[tf|]|?|]] eqn:E3; [|discriminate..].
  destruct (download_target e _ _ _ _ _) as [w2 [?|?|]] eqn:E4; [discriminate..|]. intros _. exists i', t, w, w1, w2, tf. split; [reflexivity|]. split; [exact E2|]. split; [exact E3|exact E4].
Qed.
Definition panics_b : bool := match sim_run sim_history with Ok s => match sm_roots s with root :: _ => download_panics s root "file.txt" | [] => false end | _ => false end.
Theorem C113_refuted : exists S root i' t w w1 w2 tf, sim_run sim_history = Ok S /\ sm_roots S !! 0%nat = Some root /\ updater_new (CR := toy_crypto) (client_env false S) (sim_config root) ex_now no_files = (i', Ok t) /\
  refresh (CR := toy_crypto) (client_env false S) (sim_config root) (mkWorld t i') = (w, Ok tt) /\ get_target_info (CR := toy_crypto) (client_env false S) (sim_config root) "file.txt" w = (w1, Ok (Some tf)) /\ download_target (CR := toy_crypto) (client_env false S) (sim_config root) tf "" "" w1 = (w2, Panic).
Proof.
  assert (panics_b = true) as Hb by (vm_compute; reflexivity). unfold panics_b in Hb. destruct (sim_run sim_history) as [s|?|] eqn:Es; [|discriminate..]. destruct (sm_roots s) as [|root l] eqn:Er; [discriminate|]. apply download_panics_ok in Hb as (i' & t & w & w1 & w2 & tf & H).
  exists s, root, i', t, w, w1, w2, tf. split; [reflexivity|]. split; [rewrite Er; reflexivity|]. exact H.
Qed.
Print Assumptions C113_refuted.

(** ** C114: several signers and hashes of metadata files *)
(** A second key for the snapshot role, listed by a new root: the signatures are in the order of a map iteration.  With
    ComputeMetafileHashesAndLength the timestamp has the hash of the file in one order; the client may get it in another
    order, and Refresh fails although every file is properly signed *)
Definition two_signers (compute : bool) : outcome sim :=
  let! S := new_repository (CR := toy_crypto) (order_env true) sim_key [] t2030 "/local" in
  let! S := new_root_key (CR := toy_crypto) sim_key "snapshot" S in
  let! S := publish_root (CR := toy_crypto) (order_env true) [] (set_sim_root S (next_root (sm_root S))) in
  sim_update_snapshot (CR := toy_crypto) (order_env true) [] [] (set_compute S compute).
Definition client_fails (flip : bool) (S : sim) (root : string) : bool :=
  match updater_new (CR := toy_crypto) (client_env flip S) (sim_config root) ex_now no_files with
  | (i', Ok t) => match refresh (CR := toy_crypto) (client_env flip S) (sim_config root) (mkWorld t i') with (w, Err _) => true | _ => false end
  | _ => false
  end.
Definition first_root (o : outcome sim) (f : sim -> string -> bool) : bool := match o with Ok s => match sm_roots s with root :: _ => f s root | [] => false end | _ => false end.
Lemma client_fails_ok flip o : first_root o (client_fails flip) = true -> exists S root i' t w e, o = Ok S /\ sm_roots S !! 0%nat = Some root /\
  updater_new (CR := toy_crypto) (client_env flip S) (sim_config root) ex_now no_files = (i', Ok t) /\ refresh (CR := toy_crypto) (client_env flip S) (sim_config root) (mkWorld t i') = (w, Err e).
Proof.
  unfold first_root. destruct o as [s|?|]; [|discriminate..]. destruct (sm_roots s) as [|root l] eqn:Er; [discriminate|]. unfold client_fails. destruct (updater_new _ _ _ _) as [i' [t|?|]] eqn:E1; [|discriminate..]. destruct (refresh _ _ _) as [w [[]|e|]] eqn:E2; [discriminate| |discriminate]. intros _.
  exists s, root, i', t, w, e. split; [reflexivity|]. split; [rewrite Er; reflexivity|]. split; [exact E1|exact E2].
Qed.
Lemma client_ok_ok flip o : first_root o (fun S root => after_refresh flip S root (fun _ => true) false) = true -> exists S root i' t w, o = Ok S /\ sm_roots S !! 0%nat = Some root /\
  updater_new (CR := toy_crypto) (client_env flip S) (sim_config root) ex_now no_files = (i', Ok t) /\ refresh (CR := toy_crypto) (client_env flip S) (sim_config root) (mkWorld t i') = (w, Ok tt).
Proof.
  unfold first_root, after_refresh. destruct o as [s|?|]; [|discriminate..]. destruct (sm_roots s) as [|root l] eqn:Er; [discriminate|]. destruct (updater_new _ _ _ _) as [i' [t|?|]] eqn:E1; [|discriminate..]. destruct (refresh _ _ _) as [w [[]|e|]] eqn:E2; [|discriminate..]. intros _.
  exists s, root, i', t, w. split; [reflexivity|]. split; [rewrite Er; reflexivity|]. split; [exact E1|exact E2].
Qed.
Theorem C114_refuted : (exists S root i' t w e, two_signers true = Ok S /\ sm_roots S !! 0%nat = Some root /\ fetches_from (CR := toy_crypto) (order_env true) (client_env true S) sim_path (sim_config root) S /\ new_client (client_env true S) (sim_config root) root no_files /\
    updater_new (CR := toy_crypto) (client_env true S) (sim_config root) ex_now no_files = (i', Ok t) /\ refresh (CR := toy_crypto) (client_env true S) (sim_config root) (mkWorld t i') = (w, Err e)) /\
  exists S root i' t w, two_signers false = Ok S /\ sm_roots S !! 0%nat = Some root /\ updater_new (CR := toy_crypto) (client_env true S) (sim_config root) ex_now no_files = (i', Ok t) /\ refresh (CR := toy_crypto) (client_env true S) (sim_config root) (mkWorld t i') = (w, Ok tt).
Proof.
  split.
  - assert (first_root (two_signers true) (client_fails true) = true) as Hb by (vm_compute; reflexivity). apply client_fails_ok in Hb as (S & root & i' & t & w & e & H1 & H2 & H3).
    assert (match two_signers true with Ok s => String.eqb (sm_local s) "/local" | _ => false end = true) as Hl by (vm_compute; reflexivity). rewrite H1 in Hl. apply String.eqb_eq in Hl.
    exists S, root, i', t, w, e. split; [exact H1|]. split; [exact H2|]. split; [exact (sim_fetches true S (sim_config root) Hl eq_refl)|]. split; [exact (sim_new_client true S root)|exact H3].
  - assert (first_root (two_signers false) (fun S root => after_refresh true S root (fun _ => true) false) = true) as Hb by (vm_compute; reflexivity). exact (client_ok_ok _ _ Hb).
Qed.
Print Assumptions C114_refuted.

(** ** C115: delegations below a delegated role *)
(** AddDelegation to the top-level role is kept: the role is in the delegations of targets, its metadata is served, and
    one of the signers of that metadata has a key that the delegation lists *)
Lemma add_key_listed {CR : Crypto} x d l role k y i : tg_delegations x = Some d -> d_roles d = Some l -> role ∈ l -> key_id k = Ok i -> match targets_add_key x k (dr_name role) with Ok y => Ok y | Err _ => Ok x | Panic => Panic end = Ok y ->
  exists d' r, tg_delegations y = Some d' /\ r ∈ slist (d_roles d') /\ dr_name r = dr_name role /\ i ∈ slist (dr_keyids r) /\ is_Some (mget (d_keys d') i).
Proof.
  intros Hd Hl Hr Hk. unfold targets_add_key. rewrite Hd, Hl.
  assert (existsb (fun r => String.eqb (dr_name r) (dr_name role)) l = true) as -> by (apply existsb_exists; exists role; split; [by apply elem_of_list_In|apply String.eqb_refl]).
  rewrite Hk. cbn [obind]. destruct (add_to_first i (dr_name role) l) as [[l' b] c] eqn:El. destruct (d_keys d) as [m|]; [|done]. cbn [mset obind]. intros [= <-]. eexists.
  assert (exists r, r ∈ l' /\ dr_name r = dr_name role /\ i ∈ slist (dr_keyids r)) as (r & H1 & H2 & H3).
  { destruct (add_to_first_spec _ _ _ _ _ _ El) as [[-> Ha]|(l1 & r & r' & l2 & -> & -> & Hn & _ & Hw & _)]; [exists role; split; [done|]; split; [done|by apply Ha]|].
    exists r'. split; [apply elem_of_app; right; by left|]. destruct Hw as (Hi & Hn' & _). split; [congruence|]. change (slist (dr_keyids r')) with (dr_ids r'). rewrite Hi. apply elem_of_app. right. by apply elem_of_list_singleton. }
  exists r. split; [reflexivity|]. split; [exact H1|]. split; [done|]. split; [done|]. cbn. exists (Some (key_cache i k)). apply lookup_insert.
Qed.
Theorem C115_top_level {CR : Crypto} key role content S S' : add_delegation key "targets" role content S = Ok S' ->
  is_Some (sm_delegates S' !! dr_name role) /\ exists d r i m, tg_delegations (md_signed (sm_targets S')) = Some d /\ r ∈ slist (d_roles d) /\ dr_name r = dr_name role /\
    i ∈ slist (dr_keyids r) /\ is_Some (mget (d_keys d) i) /\ sm_signers S' !! dr_name role = Some m /\ is_Some (m !! i).
Proof.
  unfold add_delegation. cbn [get_delegator String.eqb Ascii.eqb Bool.eqb orb]. set (x := md_signed (sm_targets S)). set (s := key _). set (d0 := default no_delegations (tg_delegations x)). set (d := mkDelegations _ _ _ _). intros H.
  assert (exists k, public_part s = Ok k) as [k Hk] by (destruct (public_part s) as [k|?|]; [by exists k|destruct (option_map d_succinct (tg_delegations x)) as [[?|]|]; done..]). rewrite Hk in H.
  assert (exists y i, match targets_add_key (with_delegations x d) k (dr_name role) with Ok y => Ok y | Err _ => Ok (with_delegations x d) | Panic => Panic end = Ok y /\ key_id k = Ok i) as (y & i & Hy & Hi).
  { destruct (option_map d_succinct (tg_delegations x)) as [[?|]|]; [done| |]; (destruct (match targets_add_key _ _ _ with Ok y => Ok y | Err _ => _ | Panic => Panic end) as [y|?|]; [|done..]; cbn [obind] in H; destruct (key_id k) as [i|?|]; [|done..]; by exists y, i). }
  rewrite Hy in H. cbn [obind] in H. rewrite Hi in H. cbn [obind] in H. destruct (add_key_listed (with_delegations x d) d (slist (d_roles d0) ++ [role]) role k y i eq_refl eq_refl ltac:(apply elem_of_app; right; by apply elem_of_list_singleton) Hi Hy) as (d' & r & H1 & H2 & H3 & H4 & H5).
  assert (exists S1, sm_targets S1 = set_signed (sm_targets S) y /\ (exists m, sm_signers S1 !! dr_name role = Some m /\ is_Some (m !! i)) /\ Ok (match sm_delegates S1 !! dr_name role with Some _ => S1 | None => set_delegates S1 (<[dr_name role := mkMetadata content None (Some ∅)]> (sm_delegates S1)) end) = Ok S') as (S1 & T1 & (m & T2 & T3) & T4).
  { eexists. split; [|split; [|destruct (option_map d_succinct (tg_delegations x)) as [[?|]|]; [done|exact H..]]]; [done|]. cbn. eexists. split; [apply lookup_insert|]. eexists. apply lookup_insert. }
  clear H. destruct (sm_delegates S1 !! dr_name role) as [md|] eqn:Em; injection T4 as <-; cbn [set_delegates sm_delegates sm_targets sm_signers].
  - split; [by exists md|]. exists d', r, i, m. rewrite T1. by split_and!.
  - split; [eexists; apply lookup_insert|]. exists d', r, i, m. rewrite T1. by split_and!.
Qed.
Print Assumptions C115_top_level.
(** A delegation by a delegated role without delegations is lost: its metadata stays as it is, as does that of targets *)
Theorem C115_lost {CR : Crypto} key delegator role content S S' m : delegator <> "targets" -> sm_delegates S !! delegator = Some m -> tg_delegations (md_signed m) = None -> add_delegation key delegator role content S = Ok S' ->
  sm_delegates S' !! delegator = Some m /\ sm_targets S' = sm_targets S.
Proof.
  intros Hn Hm Hd. unfold add_delegation, get_delegator. rewrite (proj2 (String.eqb_neq delegator "targets") Hn), Hm, Hd. cbn [option_map orb]. destruct (public_part _) as [k|?|]; [|done..]. destruct (match targets_add_key _ _ _ with Ok y => Ok y | Err _ => _ | Panic => Panic end) as [y|?|]; [|done..]. cbn [obind].
  destruct (key_id k) as [i|?|]; [|done..]. cbn [obind]. change (sm_delegates (add_signer (dr_name role) i _ _)) with (sm_delegates S). destruct (sm_delegates S !! dr_name role) as [x|] eqn:Ex; intros [= <-]; cbn.
  - done.
  - split; [|done]. destruct (decide (dr_name role = delegator)) as [He|Hne]; [congruence|]. by rewrite lookup_insert_ne.
Qed.
Print Assumptions C115_lost.
(** two levels of delegations: the second one is not in the metadata of the first *)
Definition level (name : string) : delegatedrole := mkDelegatedRole name (Some []) 1 false None (Some ["*"]) None.
Definition level_content : targets_t := md_signed (Targets t2030).
Definition two_levels : outcome sim :=
  let! S := new_repository (CR := toy_crypto) (order_env false) sim_key [] t2030 "/local" in
  let! S := add_delegation (CR := toy_crypto) sim_key "targets" (level "one") level_content S in
  add_delegation (CR := toy_crypto) sim_key "one" (level "two") level_content S.
Example C115_case : match two_levels with
  | Ok s => match sm_delegates s !! "one", sm_delegates s !! "two", tg_delegations (md_signed (sm_targets s)) with Some m1, Some m2, Some d => match tg_delegations (md_signed m1) with None => (List.length (slist (d_roles d)) =? 1)%nat | Some _ => false end | _, _, _ => false end
  | _ => false
  end = true.
Proof. vm_compute. reflexivity. Qed.

(** ** C116: calls that end the program *)
(** AddSuccinctRoles never returns: the new delegations have no map for the key *)
Theorem C116_succinct {CR : Crypto} key delegator bits prefix expires S S' : add_succinct_roles key delegator bits prefix expires S <> Ok S'.
Proof.
  unfold add_succinct_roles. intros H.
  destruct (public_part _) as [k|?|] eqn:Ek; [|destruct (tg_delegations _) as [[? [?|] ? ?]|]; discriminate..]. destruct (key_id k) as [i|?|] eqn:Ei; cbn [obind] in H; [|destruct (tg_delegations _) as [[? [?|] ? ?]|]; discriminate..].
  unfold targets_add_key in H. cbn [with_delegations tg_delegations d_roles d_succinct] in H. rewrite Ei in H. cbn [obind d_keys mset] in H. destruct (tg_delegations _) as [[? [?|] ? ?]|]; discriminate.
Qed.
Print Assumptions C116_succinct.
(** nor does AddTarget for a role that is not there, or whose metadata has no map of targets *)
Theorem C116_no_role {CR : Crypto} role data path S : role <> "targets" -> (forall m, sm_delegates S !! role = Some m -> tg_targets (md_signed m) = None) -> add_target role data path S = Panic.
Proof.
  intros Hn Hm. unfold add_target. change (targetfile_from_bytes path data ["sha256"]) with (Ok (info_of path data)). cbn [obind]. unfold get_delegator. rewrite (proj2 (String.eqb_neq role "targets") Hn).
  destruct (sm_delegates S !! role) as [m|]; [rewrite (Hm m eq_refl)|]; done.
Qed.
Print Assumptions C116_no_role.
(** nor does the request for the root file without a version *)
Theorem C116_plain_root {CR : Crypto} E path_of tr S url len : path_of url = Some (sm_local S +:+ "/metadata/root.json") -> sim_download E path_of tr S url len = Panic.
Proof.
  intros Hp. unfold sim_download. rewrite (fetch_json E path_of tr S url "root") by exact Hp. unfold fetch_named. change (partition_dot "root") with ("", "root"). cbn [String.eqb Ascii.eqb Bool.eqb orb]. change (atoi_value "") with 0. unfold fetch_metadata. cbn [String.eqb Ascii.eqb Bool.eqb]. rewrite andb_false_r. done.
Qed.
Print Assumptions C116_plain_root.
Example C116_case : match sim_run sim_history with
  | Ok s => match add_succinct_roles (CR := toy_crypto) sim_key "targets" 2 "bin" t2030 s, add_target (CR := toy_crypto) "one" "data" "file" s, sim_download (CR := toy_crypto) (order_env false) sim_path [] s "https://r/local/metadata/root.json" 100 with Panic, Panic, Panic => true | _, _, _ => false end
  | _ => false
  end = true.
Proof. vm_compute. reflexivity. Qed.

(** ** C117 *)
(** RotateKeys of the root role locks every client out.  The simulator signs the next root with the new key only; after
    that root, whatever is done next, no refresh of a client that trusts the first root succeeds, and the client stays
    at the root before the rotation. *)
Theorem C117_locked_out {CR : Crypto} E key tr e local h tr1 tr2 b : pem_round_trip -> text_keys key -> (forall pk p, raw_verify pk p "" = false) -> keys_work key (all_keys (h ++ [(tr1, tr2, NewRoot ["root"] b)])) -> time_ok e -> Forall (fun x => sensible x.2) h -> Z.of_nat (List.length h) < 2 ^ 62 ->
  exists S1 S2 S3 root, new_repository E key tr e local = Ok S1 /\ sm_roots S1 = [root] /\ perform_all E key h S1 = Ok S2 /\ perform E key tr1 tr2 (NewRoot ["root"] b) S2 = Ok S3 /\
    forall h' S, perform_all E key h' S3 = Ok S ->
    forall E2 path_of c now i, fetches_from E E2 path_of c S -> fits E c S -> new_client E2 c root i -> Z.of_nat (List.length (sm_roots S2)) <= c_max_root_rotations c ->
      exists i' t w o, updater_new E2 c now i = (i', Ok t) /\ refresh E2 c (mkWorld t i') = (w, o) /\ o <> Ok tt /\ md_signed (t_root (w_trusted w)) = signed_kept (md_signed (sm_root S2)) /\ t_timestamp (w_trusted w) = None.
Proof.
  intros Hpem Htext Hempty Hwork Ht Hs Hlen. set (N := (4 + sum_list (map (fun x : trace * trace * act => keys_made x.2) h) + 1)%nat).
  rewrite all_keys_snoc in Hwork. cbn [snd keys_made List.length] in Hwork. fold N in Hwork.
  destruct (new_run E key N Hpem Hwork Htext tr e local ltac:(unfold N; lia) Ht) as (S1 & kr & b0 & r0 & H1 & H2 & H3 & H4 & H5 & H6).
  destruct (perform_all_run E key N Hpem Hwork Htext h S1 kr b0 r0 [] e local Hs) as (S2 & kr2 & l & P1 & P2 & P3 & P4 & P5 & P6 & P7); [rewrite H5; unfold N; lia|cbn; lia|done|done|done|]. rewrite app_nil_l in P3.
  destruct (lock_run E key N Hpem Hwork Htext Hempty tr1 tr2 b S2 kr2 b0 r0 l e local) as (S3 & data & r2 & Q1 & Q2 & Q3 & Q4); [rewrite P7, H5; unfold N; lia|lia|done|done|done| |].
  { rewrite P6, H6, P7, H5. intros Hx%fmt_dec_inj; lia. }
  exists S1, S2, S3, b0. split; [done|]. split; [by destruct H3 as [-> _]|]. split; [done|]. split; [done|]. intros h' S Hh E2 path_of c now i F1 F2 F3 F4.
  destruct (perform_all_roots E key h' S3 S Hh) as [more Hmore]. destruct P3 as (R1 & R2 & R3 & R4 & R5 & R6). rewrite Q2, R1 in Hmore. rewrite R1 in F4. cbn [List.length] in F4. rewrite map_length in F4.
  destruct (locked_out E E2 path_of c S b0 r0 l (metadata_kept (one key (kr2 "root") (sm_root S2))) data r2 more now i) as (i' & t & w & o & W1 & W2 & W3 & W4 & W5); try done; [rewrite Hmore; cbn; by rewrite <- app_assoc|lia|].
  exists i', t, w, o. split; [done|]. split; [done|]. split; [done|]. split; [|done]. rewrite W4. cbn [metadata_kept md_signed]. by rewrite one_signed.
Qed.
Print Assumptions C117_locked_out.

Definition lock_history : list (trace * trace * act) := map (pair ([], [])) [AddTargetFile "file.txt" "hello"; NewRoot ["timestamp"] true].
Definition lock_later : list (trace * trace * act) := map (pair ([], [])) [AddTargetFile "file.txt" "more"; DoUpdateSnapshot].
Definition lock_run_b : bool :=
  match (let! S := new_repository (CR := toy_crypto) (order_env false) sim_key [] t2030 "/local" in let! S := perform_all (CR := toy_crypto) (order_env false) sim_key lock_history S in
         let! S' := perform (CR := toy_crypto) (order_env false) sim_key [] [] (NewRoot ["root"] true) S in let! S'' := perform_all (CR := toy_crypto) (order_env false) sim_key lock_later S' in Ok (S, S'')) with
  | Ok (s, s') => fits_b (sim_config "") s' && (List.length (sm_roots s) =? 2)%nat && String.eqb (sm_local s') "/local"
  | _ => false
  end.
Lemma lock_keys : forall n, n ∈ all_keys (lock_history ++ [([], [], NewRoot ["root"] true)]) -> n ∈ sim_digits.
Proof. apply Forall_forall, (bool_decide_unpack (Forall (fun n => n ∈ sim_digits) (all_keys (lock_history ++ [([], [], NewRoot ["root"] true)])))). vm_compute. exact I. Qed.
Example C117_case : exists S1 S2 S3 S root, new_repository (CR := toy_crypto) (order_env false) sim_key [] t2030 "/local" = Ok S1 /\ perform_all (CR := toy_crypto) (order_env false) sim_key lock_history S1 = Ok S2 /\
  perform (CR := toy_crypto) (order_env false) sim_key [] [] (NewRoot ["root"] true) S2 = Ok S3 /\ perform_all (CR := toy_crypto) (order_env false) sim_key lock_later S3 = Ok S /\
  fetches_from (CR := toy_crypto) (order_env false) (client_env false S) sim_path (sim_config root) S /\ fits (CR := toy_crypto) (order_env false) (sim_config root) S /\ new_client (client_env false S) (sim_config root) root no_files /\
  exists i' t w o, updater_new (CR := toy_crypto) (client_env false S) (sim_config root) ex_now no_files = (i', Ok t) /\ refresh (CR := toy_crypto) (client_env false S) (sim_config root) (mkWorld t i') = (w, o) /\ o <> Ok tt.
Proof.
  assert (time_ok t2030) as Ht by (vm_compute; repeat split; try reflexivity; intros [=]).
  assert (Forall (fun x : trace * trace * act => sensible x.2) lock_history) as Hs.
  { unfold lock_history. cbn [map]. repeat (apply Forall_cons_2; [cbn [snd sensible]|]); [| |apply Forall_nil_2].
    - split; [by apply plain_text|vm_compute; reflexivity].
    - intros r. rewrite !elem_of_cons, elem_of_nil. tauto. }
  pose proof (sim_keys_work _ lock_keys) as Hk.
  assert (forall pk p, raw_verify (Crypto := toy_crypto) pk p "" = false) as Hempty.
  { intros pk p. apply String.eqb_neq. intros Hx%(f_equal String.length). unfold toy_sig in Hx. rewrite toy_hash_length in Hx. discriminate Hx. }
  destruct (C117_locked_out (CR := toy_crypto) (order_env false) sim_key [] t2030 "/local" lock_history [] [] true example_pem sim_text Hempty Hk Ht Hs ltac:(vm_compute; reflexivity)) as (S1 & S2 & S3 & root & H1 & H2 & H3 & H4 & H5).
  assert (lock_run_b = true) as Hb by (vm_compute; reflexivity). unfold lock_run_b in Hb. rewrite H1 in Hb. cbn [obind] in Hb. rewrite H3 in Hb. cbn [obind] in Hb. rewrite H4 in Hb. cbn [obind] in Hb.
  destruct (perform_all (CR := toy_crypto) (order_env false) sim_key lock_later S3) as [S|?|] eqn:H6; [|discriminate Hb..]. cbn [obind] in Hb. apply andb_true_iff in Hb as [[Hb1 Hb2%Nat.eqb_eq]%andb_true_iff Hb3%String.eqb_eq].
  assert (fits (CR := toy_crypto) (order_env false) (sim_config root) S) as Hf by exact (fits_ok (sim_config "") S Hb1).
  pose proof (sim_fetches false S (sim_config root) Hb3 eq_refl) as Hfe. pose proof (sim_new_client false S root) as Hn.
  exists S1, S2, S3, S, root. split; [exact H1|]. split; [exact H3|]. split; [exact H4|]. split; [exact H6|]. split; [exact Hfe|]. split; [exact Hf|]. split; [exact Hn|].
  destruct (H5 lock_later S H6 (client_env false S) sim_path (sim_config root) ex_now no_files Hfe Hf Hn ltac:(rewrite Hb2; vm_compute; intros [=])) as (i' & t & w & o & W1 & W2 & W3 & _).
  exists i', t, w, o. split; [exact W1|]. split; [exact W2|exact W3].
Qed.
