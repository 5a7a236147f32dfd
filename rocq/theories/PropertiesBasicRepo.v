(** * Property C111: the repository that examples/repository makes *)
From stdpp Require Import base gmap strings list.
From Coq Require Import ZArith Lia Ascii String.
From Verif Require Import GoBase GoStr Json GoTime Types Marshal Keys Metadata TrustedMetadata Fetcher Updater Files Cli ExampleClients ExampleRepos
  StrProofs SpecUtf8 SpecText SpecRound SpecDeleg SpecBasic BasicProofs SpecSig SigProofs SpecKeys KeysProofs SpecTrusted SpecPublish PublishProofs SpecUpdater SpecReach TrustedProofs PathProofs SpecRepos ReposProofs GenerateProofs RunsProofs TeamsProofs BasicRepoProofs BasicRunProofs BasicServedProofs RoundBase Toy Examples ExamplesUpdater PropertiesRepos.
Open Scope Z_scope.

(** the keys the program generates *)
Definition nine_keys : list string := ["root"; "timestamp"; "snapshot"; "targets"; "another"; "go-scripts"; "new"; "rsa"; "ecdsa"].
(** the file with the content [data] is on the targets server, under the name the client asks for *)
Definition file_served {CR : Crypto} (E : env) (c : config) (name data : string) : Prop :=
  serves E (with_slash (c_targets_url c) +:+ (if c_prefix_hash c then hex_encode (sha256 data) +:+ "." +:+ name else name)) data.
(** If the program ends without an error, the directory it has made is a repository with three versions of root; a new
    client that trusts the first version, with a threshold of two keys, gets to the third, with four other keys, and is
    led by the delegation to the file basic_repository.go.  This needs working, different keys *)
Theorem C111_works {CR : Crypto} E key expires wd i i' dir : pem_round_trip ->
  wd <> [] -> abs_dir wd -> e_cwd E = Some (abs_path wd) -> text_keys key -> keys_work key nine_keys -> (forall n, time_ok (expires n)) ->
  (forall p data, io_disk i !! p = Some data -> Z.of_nat (String.length data) < 2 ^ 63) -> basic_main E key expires i = (i', Ok dir) ->
  exists tmp root1 root2 root3 data, dir = abs_path (wd ++ [tmp]) /\ io_disk i !! file_in wd "basic_repository.go" = Some data /\
    io_disk i' !! file_in (wd ++ [tmp]) "1.root.json" = Some root1 /\ io_disk i' !! file_in (wd ++ [tmp]) "2.root.json" = Some root2 /\ io_disk i' !! file_in (wd ++ [tmp]) "3.root.json" = Some root3 /\
    forall E2 c now i2, new_client E2 c root1 i2 -> 2 <= c_max_root_rotations c -> 1 <= c_max_delegations c ->
      serves_dir E2 (io_disk i') (wd ++ [tmp]) (c_metadata_url c) -> within_limits c (io_disk i') (wd ++ [tmp]) -> file_served E2 c "basic_repository.go" data ->
      Forall (fun n => now <= instant (expires n)) ["root"; "timestamp"; "snapshot"; "targets2"; "go-scripts"] ->
      delivers E2 c now i2 "basic_repository.go" data /\
      exists i3 t w, updater_new E2 c now i2 = (i3, Ok t) /\ refresh E2 c (mkWorld t i3) = (w, Ok tt) /\ document root3 (t_root (w_trusted w)).
Proof.
  intros Hpem Hne Hdir%abs_dir_plain Hcwd Htext Hk Ht Hsmall H.
  destruct (basic_ok E key expires wd Hpem Hk Htext Ht Hne Hdir Hcwd i i' dir Hsmall H) as (tmp & data & x & k & r2a & r3a & br1 & bg & bs & bt & bo & br2 & br3 & -> & HW).
  destruct (wrote_files key expires wd _ _ _ _ _ _ _ _ _ _ _ _ _ _ _ HW) as ((F1 & F2 & F3 & _) & _). exists tmp, br1, br2, br3, data. split; [done|].
  split. { pose proof HW as (_ & _ & Hd & _). unfold place in Hd. by rewrite abs_file in Hd. }
  split; [done|]. split; [done|]. split; [done|]. intros E2 c now i2 C1 C2 C3 C4 C5 C6 C7. by eapply basic_delivers.
Qed.
Print Assumptions C111_works.
(** And it ends without an error if the file system works, the file is there and the name that is chosen for the new
    directory is not in use *)
Theorem C111_runs {CR : Crypto} E key expires wd i data : pem_round_trip ->
  wd <> [] -> abs_dir wd -> e_cwd E = Some (abs_path wd) -> (forall tr, e_io E tr = true) -> text_keys key -> keys_work key nine_keys -> (forall n, time_ok (expires n)) ->
  (forall n name, io_disk i !! file_in (wd ++ ["tmp" +:+ fmt_dec n]) name = None) -> io_disk i !! file_in wd "basic_repository.go" = Some data -> Z.of_nat (String.length data) < 2 ^ 63 ->
  exists i' dir, basic_main E key expires i = (i', Ok dir).
Proof.
  intros Hpem Hne Hdir%abs_dir_plain Hcwd Hio Htext Hk Ht Hno Hd Hsmall. apply (basic_run E key expires wd Hpem Hk Htext Ht Hne Hdir Hcwd Hio i data Hno); [|done]. unfold place. by rewrite abs_file.
Qed.
Print Assumptions C111_runs.

(** ** A concrete run, and one that is interrupted *)
Definition basic_disk : disk := {["/w/basic_repository.go" := "package main"]}.
(** the program runs in /w; operations on files work as long as less than [n] events are in the trace *)
Definition stopping (n : nat) : env := mkEnv (fun _ _ _ => Err (EOther "no network")) (fun tr => Nat.ltb (List.length tr) n) (fun _ => None) (Some "/w") (fun _ => 7) no_join keep_order keep_order_perm.
Definition run_basic (n : nat) : ios * outcome string := basic_main (CR := toy_crypto) (stopping n) example_key (fun _ => t2030) (mkIos basic_disk []).
Lemma basic_small : forall p data, basic_disk !! p = Some data -> Z.of_nat (String.length data) < 2 ^ 63.
Proof. intros p data H. unfold basic_disk in H. apply lookup_singleton_Some in H as [<- <-]. done. Qed.
Lemma basic_free : forall n name, basic_disk !! file_in (["w"] ++ ["tmp" +:+ fmt_dec n]) name = None.
Proof. intros n name. unfold basic_disk. apply lookup_singleton_None. unfold file_in, abs_path. by intros [=]. Qed.
Lemma t2030_ok : time_ok t2030.
Proof. vm_compute; repeat split; try reflexivity; intros [=]. Qed.
Lemma nine_work : keys_work (CR := toy_crypto) example_key nine_keys.
Proof. apply example_keys. done. Qed.
(** a client that asks for target files without hash prefixes *)
Definition plain_config (root : string) (max : Z) : config := mkConfig 32 32 max max max max root "/m" "/t" "https://r" "https://t" false false false.
Lemma plain_client (d : disk) mdir tdir root : exists max, let c := plain_config root max in new_client (web_env d mdir tdir) c root no_files /\ within_limits c d mdir.
Proof.
  destruct (some_limit d) as [max Hmax]. exists max. split.
  - split_and!; try done. right. split; [done|]. split; [done|]. split; [done|]. exists "/w". split; [done|]. intros n. apply lookup_empty.
  - intros name data Hd. apply Hmax in Hd. cbn. lia.
Qed.
Example C111_case : exists (i' : ios) dir root1 E2 c,
  abs_dir ["w"] /\ text_keys (CR := toy_crypto) example_key /\ keys_work (CR := toy_crypto) example_key nine_keys /\ time_ok t2030 /\
  basic_main (CR := toy_crypto) (at_dir "/w") example_key (fun _ => t2030) (mkIos basic_disk []) = (i', Ok (abs_path (["w"] ++ [dir]))) /\ io_disk i' !! file_in (["w"] ++ [dir]) "1.root.json" = Some root1 /\
  new_client E2 c root1 no_files /\ 2 <= c_max_root_rotations c /\ 1 <= c_max_delegations c /\ serves_dir E2 (io_disk i') (["w"] ++ [dir]) (c_metadata_url c) /\ within_limits c (io_disk i') (["w"] ++ [dir]) /\
  file_served (CR := toy_crypto) E2 c "basic_repository.go" "package main" /\ delivers (CR := toy_crypto) E2 c ex_now no_files "basic_repository.go" "package main".
Proof.
  assert (abs_dir ["w"]) as Hdir by (apply names_b; reflexivity). pose proof t2030_ok as Ht. pose proof nine_work as Hk.
  destruct (C111_runs (CR := toy_crypto) (at_dir "/w") example_key (fun _ => t2030) ["w"] (mkIos basic_disk []) "package main" example_pem ltac:(done) Hdir eq_refl (fun _ => eq_refl) example_text Hk (fun _ => Ht) basic_free eq_refl ltac:(done)) as (i' & dir & Hi').
  destruct (C111_works (CR := toy_crypto) (at_dir "/w") example_key (fun _ => t2030) ["w"] (mkIos basic_disk []) i' dir example_pem ltac:(done) Hdir eq_refl example_text Hk (fun _ => Ht) basic_small Hi') as (tmp & root1 & root2 & root3 & data & Edir & Hd & R1 & R2 & R3 & R4).
  assert (data = "package main") as ->. { assert (basic_disk !! file_in ["w"] "basic_repository.go" = Some "package main") as Hx by reflexivity. pose proof (eq_trans (eq_sym Hd) Hx) as [= ->]. done. }
  assert (io_disk i' !! file_in ["w"] "basic_repository.go" = Some "package main") as Hfile.
  { assert (io_disk (fst (basic_main (CR := toy_crypto) (at_dir "/w") example_key (fun _ => t2030) (mkIos basic_disk []))) !! file_in ["w"] "basic_repository.go" = Some "package main") as Hx by (vm_compute; reflexivity). by rewrite Hi' in Hx. }
  destruct (plain_client (io_disk i') (["w"] ++ [tmp]) ["w"] root1) as (max & C1 & C2). destruct (web_serves (io_disk i') (["w"] ++ [tmp]) ["w"]) as [S1 S2]. clear Hd.
  subst dir. set (c := plain_config root1 max) in *. assert (file_served (CR := toy_crypto) (web_env (io_disk i') (["w"] ++ [tmp]) ["w"]) c "basic_repository.go" "package main") as Hs by (unfold file_served; apply (ServedProofs.dir_serves _ _ _ _ _ _ S2 Hfile)).
  exists i', tmp, root1, (web_env (io_disk i') (["w"] ++ [tmp]) ["w"]), c. split; [exact Hdir|]. split; [apply example_text|]. split; [exact Hk|]. split; [exact Ht|]. split; [exact Hi'|]. split; [exact R1|]. split; [exact C1|]. split; [cbn; lia|]. split; [cbn; lia|]. split; [exact S1|]. split; [exact C2|]. split; [exact Hs|].
  apply R4; [exact C1|cbn; lia|cbn; lia|exact S1|exact C2|exact Hs|]. repeat (apply Forall_cons; split; [vm_compute; intros [=]|]). apply Forall_nil_2.
Qed.
Definition looks (d : disk) (root : string) : ios * outcome (world * outcome (option targetfile)) :=
  let E := web_env d (["w"] ++ ["tmp7"]) ["w"] in let c := plain_config root 100000 in
  match updater_new (CR := toy_crypto) E c ex_now no_files with (i', Ok t) => (i', Ok (get_target_info (CR := toy_crypto) E c "basic_repository.go" (mkWorld t i'))) | (i', Err e) => (i', Err e) | (i', Panic) => (i', Panic) end.
Definition finds (d : disk) (root : string) : bool := match looks d root with (_, Ok (_, Ok (Some _))) => true | _ => false end.
Definition fails (d : disk) (root : string) : bool := match looks d root with (_, Ok (_, Err _)) => true | _ => false end.
Lemma finds_ok d root : finds d root = true -> exists i' t w tf, updater_new (CR := toy_crypto) (web_env d (["w"] ++ ["tmp7"]) ["w"]) (plain_config root 100000) ex_now no_files = (i', Ok t) /\
  get_target_info (CR := toy_crypto) (web_env d (["w"] ++ ["tmp7"]) ["w"]) (plain_config root 100000) "basic_repository.go" (mkWorld t i') = (w, Ok (Some tf)).
Proof.
  unfold finds, looks. destruct (updater_new _ _ _ _) as [i' [t|e|]]; [|done..]. destruct (get_target_info _ _ _ _) as [w [[tf|]|e|]] eqn:Eg; [|done..]. intros _. by exists i', t, w, tf.
Qed.
Lemma fails_ok d root : fails d root = true -> exists i' t w e, updater_new (CR := toy_crypto) (web_env d (["w"] ++ ["tmp7"]) ["w"]) (plain_config root 100000) ex_now no_files = (i', Ok t) /\
  get_target_info (CR := toy_crypto) (web_env d (["w"] ++ ["tmp7"]) ["w"]) (plain_config root 100000) "basic_repository.go" (mkWorld t i') = (w, Err e).
Proof.
  unfold fails, looks. destruct (updater_new _ _ _ _) as [i' [t|e|]]; [|done..]. destruct (get_target_info _ _ _ _) as [w [[tf|]|e|]] eqn:Eg; [done|done| |done]. intros _. by exists i', t, w, e.
Qed.
Definition moment_b : bool :=
  match run_basic 10, run_basic 11, run_basic 14 with
  | (i1, Err _), (i2, Err _), (i3, Ok dir) =>
      match io_disk i3 !! "/w/tmp7/1.root.json" with
      | Some root => String.eqb dir "/w/tmp7" && bool_decide (io_disk i1 !! "/w/tmp7/1.root.json" = Some root) && bool_decide (io_disk i2 !! "/w/tmp7/1.root.json" = Some root) && finds (io_disk i1) root && (fails (io_disk i2) root && finds (io_disk i3) root)
      | None => false end
  | _, _, _ => false end.
(** "From the end of the first release on, a new client finds the file whenever it looks" is false: the program writes the
    second timestamp file before the file of the role that it delegates to.  A client that comes in between finds the new
    targets metadata, which no longer lists the file, and the search fails at the delegation.  Witness: the same run, cut off at two
    points that follow each other; before the timestamp file is replaced the file is found, then it is not *)
Theorem C111_moment_refuted : exists (i1 i2 i3 : ios) e1 e2 dir root c, (exists n, basic_main (CR := toy_crypto) (stopping n) example_key (fun _ => t2030) (mkIos basic_disk []) = (i1, Err e1)) /\
  (exists n, basic_main (CR := toy_crypto) (stopping n) example_key (fun _ => t2030) (mkIos basic_disk []) = (i2, Err e2)) /\ (exists n, basic_main (CR := toy_crypto) (stopping n) example_key (fun _ => t2030) (mkIos basic_disk []) = (i3, Ok (abs_path (["w"] ++ [dir])))) /\
  (forall i, i ∈ [i1; i2; i3] -> io_disk i !! file_in (["w"] ++ [dir]) "1.root.json" = Some root) /\ c_trusted_root c = root /\
  (forall i, i ∈ [i1; i3] -> exists i' t w tf, updater_new (CR := toy_crypto) (web_env (io_disk i) (["w"] ++ [dir]) ["w"]) c ex_now no_files = (i', Ok t) /\ get_target_info (CR := toy_crypto) (web_env (io_disk i) (["w"] ++ [dir]) ["w"]) c "basic_repository.go" (mkWorld t i') = (w, Ok (Some tf))) /\
  exists i' t w e, updater_new (CR := toy_crypto) (web_env (io_disk i2) (["w"] ++ [dir]) ["w"]) c ex_now no_files = (i', Ok t) /\ get_target_info (CR := toy_crypto) (web_env (io_disk i2) (["w"] ++ [dir]) ["w"]) c "basic_repository.go" (mkWorld t i') = (w, Err e).
Proof.
  assert (moment_b = true) as H by (vm_compute; reflexivity). unfold moment_b in H.
  destruct (run_basic 10) as [i1 [?|e1|]] eqn:E1; [done| |done]. destruct (run_basic 11) as [i2 [?|e2|]] eqn:E2; [done| |done]. destruct (run_basic 14) as [i3 [dir|?|]] eqn:E3; [|done..].
  destruct (io_disk i3 !! "/w/tmp7/1.root.json") as [root|] eqn:E4; [|done]. rewrite !andb_true_iff in H. destruct H as ((((Hdir & R1) & R2) & F1) & (F2 & F3)). apply String.eqb_eq in Hdir as ->.
  exists i1, i2, i3, e1, e2, "tmp7", root, (plain_config root 100000). split; [by exists 10%nat|]. split; [by exists 11%nat|]. split; [by exists 14%nat|].
  split. { intros i Hi. rewrite !elem_of_cons, elem_of_nil in Hi. destruct Hi as [->|[->|[->|[]]]]; [apply (bool_decide_eq_true_1 _ R1)|apply (bool_decide_eq_true_1 _ R2)|exact E4]. }
  split; [done|]. split. { intros i Hi. rewrite !elem_of_cons, elem_of_nil in Hi. destruct Hi as [->|[->|[]]]; [exact (finds_ok _ _ F1)|exact (finds_ok _ _ F3)]. }
  exact (fails_ok _ _ F2).
Qed.
Print Assumptions C111_moment_refuted.
