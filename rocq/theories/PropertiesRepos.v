(** * Properties C110 and C111: the repositories that the example programs make *)
From stdpp Require Import base gmap strings list.
From Coq Require Import ZArith Lia Ascii String.
From Verif Require Import GoBase GoStr Json GoTime Types Marshal Keys Metadata TrustedMetadata Fetcher Updater Files Cli ExampleClients ExampleRepos
  StrProofs SpecUtf8 SpecText SpecRound SpecDeleg SpecBasic BasicProofs SpecSig SigProofs SpecKeys KeysProofs SpecTrusted SpecPublish PublishProofs SpecUpdater SpecReach TrustedProofs PathProofs SpecRepos ReposProofs GenerateProofs RunsProofs RoundBase Toy Examples ExamplesUpdater.
Open Scope Z_scope.

(** ** C110: examples/multirepo/repository *)
Definition bootstrap_targets : list string := ["map.json"; "sigstore-tuf-root/root.json"; "staging/root.json"].
(** If the program ends without an error, the repository it has written below its working directory is complete: put on a
    web server, it delivers each of the three files of targets/, as they are, to every new client that trusts the root file
    written for the client example, with and without hash prefixes in the names of targets *)
Theorem C110_works {CR : Crypto} E key expires parent name i i' :
  abs_dir (parent ++ [name]) -> e_cwd E = Some (abs_path (parent ++ [name])) -> text_keys key -> (forall n, time_ok (expires n)) ->
  (forall p data, io_disk i !! p = Some data -> Z.of_nat (String.length data) < 2 ^ 63) -> io_disk i !! file_in (parent ++ [name; "metadata"]) "2.root.json" = None ->
  generate_main E key expires i = (i', Ok tt) ->
  exists root, io_disk i' !! file_in (parent ++ ["client"]) "root.json" = Some root /\ io_disk i' !! file_in (parent ++ [name; "metadata"]) "1.root.json" = Some root /\
    (forall target, target ∈ bootstrap_targets -> exists data, io_disk i !! file_in (parent ++ [name; "targets"]) target = Some data) /\
    forall E2 c now i2 target data, new_client E2 c root i2 -> serves_dir E2 (io_disk i') (parent ++ [name; "metadata"]) (c_metadata_url c) -> serves_dir E2 (io_disk i') (parent ++ [name; "targets"]) (c_targets_url c) ->
      within_limits c (io_disk i') (parent ++ [name; "metadata"]) -> Forall (fun n => now <= instant (expires n)) ["root"; "targets"; "snapshot"; "timestamp"] ->
      target ∈ bootstrap_targets -> io_disk i !! file_in (parent ++ [name; "targets"]) target = Some data -> delivers E2 c now i2 target data.
Proof.
  intros Hdir Hcwd Htext Ht Hsmall Hno H. apply abs_dir_plain in Hdir. destruct (generate_ok E key expires parent name Hdir i i' Htext Ht Hcwd Hsmall H) as (tg & sn & ts & r & bg & bs & bt & br & d1 & d2 & d3 & HG).
  pose proof (generated_files expires parent name Hdir _ _ _ _ _ _ _ _ _ _ _ _ _ HG) as ((F1 & _) & _). pose proof HG as ((D1 & D2 & D3) & _ & _ & _ & _ & _ & _ & Hi').
  rewrite (target_path parent name Hdir ["map.json"]) in D1 by done. rewrite (target_path parent name Hdir ["sigstore-tuf-root"; "root.json"]) in D2 by done. rewrite (target_path parent name Hdir ["staging"; "root.json"]) in D3 by done.
  exists br. split. { unfold client_root in F1. change ["client"; "root.json"] with (["client"] ++ ["root.json"]) in F1. rewrite app_assoc, abs_file in F1; [done|by destruct parent|done]. }
  split. { rewrite <- (meta_path parent name Hdir), Hi'. rewrite HonestProofs.lookup_other; [by rewrite HonestProofs.lookup_same|]. intros Hx. symmetry in Hx. revert Hx. apply at_ne_client; [done|plain|done]. }
  split. { intros target Htg. unfold bootstrap_targets in Htg. rewrite !elem_of_cons, elem_of_nil in Htg. destruct Htg as [->|[->|[->|[]]]]; eauto. }
  intros E2 c now i2 target data C1 C2 C3 C4 C5 Htg Hd. rewrite <- (meta_path parent name Hdir) in Hno. apply (generate_delivers expires parent name Hdir i i' tg sn ts r bg bs bt br d1 d2 d3 E2 c now i2 target data HG Hno C1 C2 C3 C4 C5).
  unfold bootstrap_targets in Htg. rewrite !elem_of_cons, elem_of_nil in Htg; rewrite !elem_of_cons. destruct Htg as [->|[->|[->|[]]]].
  - left. cbn [join_str] in D1. rewrite Hd in D1. by injection D1 as ->.
  - right. left. change (join_str "/" ["sigstore-tuf-root"; "root.json"]) with "sigstore-tuf-root/root.json" in D2. rewrite Hd in D2. by injection D2 as ->.
  - right. right. left. change (join_str "/" ["staging"; "root.json"]) with "staging/root.json" in D3. rewrite Hd in D3. by injection D3 as ->.
Qed.
Print Assumptions C110_works.
(** And it ends without an error if the file system works, the three files are there, and the generated keys are usable
    and different *)
Theorem C110_runs {CR : Crypto} E key expires parent name i : pem_round_trip ->
  abs_dir (parent ++ [name]) -> e_cwd E = Some (abs_path (parent ++ [name])) -> (forall tr, e_io E tr = true) -> text_keys key -> keys_work key ["root"; "timestamp"; "snapshot"; "targets"] -> (forall n, time_ok (expires n)) ->
  (forall p data, io_disk i !! p = Some data -> Z.of_nat (String.length data) < 2 ^ 63) -> (forall target, target ∈ bootstrap_targets -> is_Some (io_disk i !! file_in (parent ++ [name; "targets"]) target)) ->
  exists i', generate_main E key expires i = (i', Ok tt).
Proof.
  intros Hpem Hdir Hcwd Hio Htext Hk Ht Hsmall Hall. apply abs_dir_plain in Hdir.
  destruct (Hall "map.json") as [d1 D1]; [by left|]. destruct (Hall "sigstore-tuf-root/root.json") as [d2 D2]; [right; by left|]. destruct (Hall "staging/root.json") as [d3 D3]; [right; right; by left|].
  apply (generate_run E key expires parent name i d1 d2 d3); try done.
  - by rewrite (target_path parent name Hdir ["map.json"]).
  - by rewrite (target_path parent name Hdir ["sigstore-tuf-root"; "root.json"]).
  - by rewrite (target_path parent name Hdir ["staging"; "root.json"]).
Qed.
Print Assumptions C110_runs.

(** ** A concrete run *)
(** nine different keys *)
Definition key_names : list string := ["root"; "timestamp"; "snapshot"; "targets"; "another"; "go-scripts"; "new"; "rsa"; "ecdsa"].
Definition example_pk (n : string) : pubkey := PkECDSA (if bool_decide (n ∈ key_names) then n else "root").
Definition example_key (n : string) : signer := toy_signer (example_pk n).
Lemma example_text : text_keys (CR := toy_crypto) example_key.
Proof.
  intros n pk k [= <-]. unfold example_pk. cbn [key_from_public_key]. destruct (bool_decide_reflect (n ∈ key_names)) as [Hn|_]; [|intros [= <-]; apply plain_text; reflexivity].
  intros [= <-]. unfold key_names in Hn. rewrite !elem_of_cons, elem_of_nil in Hn. repeat destruct Hn as [->|Hn]; [apply plain_text; reflexivity..|done].
Qed.
Lemma example_id n id : n ∈ key_names -> signer_keyid (CR := toy_crypto) (example_key n) id <-> id = toy_id (PkECDSA n).
Proof.
  intros Hn. unfold signer_keyid, example_key, example_pk. rewrite bool_decide_eq_true_2 by done.
  assert (exists k, key_from_public_key (CR := toy_crypto) (PkECDSA n) = Ok k /\ key_id (CR := toy_crypto) k = Ok (toy_id (PkECDSA n))) as (k & Hk & Hi).
  { unfold key_names in Hn. rewrite !elem_of_cons, elem_of_nil in Hn. repeat destruct Hn as [->|Hn]; [(eexists; split; [reflexivity|vm_compute; reflexivity])..|done]. }
  split; [intros (pk & k' & [= <-] & H1 & H2); congruence|]. intros ->. by exists (PkECDSA n), k.
Qed.
Lemma example_keys names : (forall n, n ∈ names -> n ∈ key_names) -> keys_work (CR := toy_crypto) example_key names.
Proof.
  intros Hn. split.
  - intros n Hin. exists (PkECDSA n), (toy_id (PkECDSA n)). split; [|split; [by intros raw [=]|by apply example_id; [apply Hn|]]].
    unfold working_signer, example_key, example_pk. rewrite bool_decide_eq_true_2 by (by apply Hn). split; [done|]. intros msg. eexists. split; [reflexivity|]. apply String.eqb_refl.
  - intros n n' id H1%Hn H2%Hn ->%example_id H3%example_id; [|done..].
    assert (forallb (fun a => forallb (fun b => implb (String.eqb (toy_id (PkECDSA a)) (toy_id (PkECDSA b))) (String.eqb a b)) key_names) key_names = true) as Hall by (vm_compute; reflexivity).
    rewrite forallb_forall in Hall. specialize (Hall n (proj1 (elem_of_list_In _ _) H1)). rewrite forallb_forall in Hall. specialize (Hall n' (proj1 (elem_of_list_In _ _) H2)). rewrite H3, String.eqb_refl in Hall. by apply String.eqb_eq.
Qed.
Lemma example_pem : pem_round_trip (CR := toy_crypto).
Proof. intros [] s; cbn; intros [= <-]; done. Qed.
(** a web server for two directories *)
Definition fetch_from (d : disk) (dir : list string) (name : string) (len : Z) : outcome string :=
  match d !! file_in dir name with
  | Some data => if Z.of_nat (String.length data) <=? len then Ok data else Err (EOther "too long")
  | None => Err (ErrDownloadHTTP 404 name)
  end.
Definition web (d : disk) (mdir tdir : list string) (_ : trace) (url : string) (len : Z) : outcome string :=
  match strip_prefix "https://r/" url with
  | Some name => fetch_from d mdir name len
  | None => match strip_prefix "https://t/" url with Some name => fetch_from d tdir name len | None => Err (EOther "no such host") end
  end.
Definition web_env (d : disk) (mdir tdir : list string) : env :=
  mkEnv (web d mdir tdir) (fun _ => true) (fun _ => None) (Some "/w") (fun tr => Z.of_nat (List.length tr)) no_join keep_order keep_order_perm.
Definition web_config (root : string) (max : Z) : config := mkConfig 32 32 max max max max root "/m" "/t" "https://r" "https://t" false true false.
Lemma fetch_serves E d dir url : (forall tr name len, e_net E tr (with_slash url +:+ name) len = fetch_from d dir name len) -> serves_dir E d dir url.
Proof.
  intros H name. destruct (d !! file_in dir name) as [data|] eqn:Hd.
  - intros tr len Hlen. rewrite H. unfold fetch_from. by rewrite Hd, (proj2 (Z.leb_le _ _) Hlen).
  - intros tr len. exists (ErrDownloadHTTP 404 name). rewrite H. unfold fetch_from. rewrite Hd. split; [done|]. left. constructor.
Qed.
Lemma web_serves d mdir tdir : serves_dir (web_env d mdir tdir) d mdir "https://r" /\ serves_dir (web_env d mdir tdir) d tdir "https://t".
Proof.
  split; apply fetch_serves; intros tr name len; unfold web_env; cbn [e_net]; unfold web.
  - change (with_slash "https://r") with "https://r/". by rewrite (proj2 (DelegProofs.strip_prefix_spec "https://r/" ("https://r/" +:+ name) name) eq_refl).
  - change (with_slash "https://t") with "https://t/". assert (strip_prefix "https://r/" ("https://t/" +:+ name) = None) as -> by reflexivity. by rewrite (proj2 (DelegProofs.strip_prefix_spec "https://t/" ("https://t/" +:+ name) name) eq_refl).
Qed.
Lemma some_limit (d : disk) : exists max, forall p data, d !! p = Some data -> Z.of_nat (String.length data) <= max.
Proof.
  induction d as [|p data d Hp [max IH]] using (map_ind (M := gmap string)); [exists 0; intros p data H; pose proof (eq_trans (eq_sym (lookup_empty (M := gmap string) p)) H) as [=]|].
  exists (Z.max max (Z.of_nat (String.length data))). intros q x. destruct (decide (p = q)) as [->|Hn]; [rewrite HonestProofs.lookup_same; intros [= <-]; lia|]. rewrite HonestProofs.lookup_other by done. intros Hx%IH. lia.
Qed.
Lemma web_client (d : disk) mdir tdir root : exists c, c_metadata_url c = "https://r" /\ c_targets_url c = "https://t" /\ new_client (web_env d mdir tdir) c root no_files /\ within_limits c d mdir.
Proof.
  destruct (some_limit d) as [max Hmax]. exists (web_config root max). split; [done|]. split; [done|]. split.
  - split_and!; try done. right. split; [done|]. split; [done|]. split; [done|]. exists "/w". split; [done|]. intros n. apply lookup_empty.
  - intros name data Hd. apply Hmax in Hd. cbn. lia.
Qed.
(** working directory /w/repository *)
Definition example_disk : disk := list_to_map [("/w/repository/targets/map.json", "{}"); ("/w/repository/targets/sigstore-tuf-root/root.json", "root 1"); ("/w/repository/targets/staging/root.json", "root 2")].
Definition at_dir (dir : string) : env := mkEnv (fun _ _ _ => Err (EOther "no network")) (fun _ => true) (fun _ => None) (Some dir) (fun tr => Z.of_nat (List.length tr)) no_join keep_order keep_order_perm.
Lemma example_small : forall p data, example_disk !! p = Some data -> Z.of_nat (String.length data) < 2 ^ 63.
Proof. intros p data H. unfold example_disk in H. apply elem_of_list_to_map_2 in H. rewrite !elem_of_cons, elem_of_nil in H. repeat destruct H as [[= -> ->]|H]; done. Qed.
Lemma names_b l : forallb (fun s => negb (existsb (String.eqb s) [""; "."; ".."]) && negb (string_any (Ascii.eqb "/") s)) l = true -> abs_dir l.
Proof.
  intros H. apply abs_dir_plain, Forall_forall. intros s Hs. rewrite forallb_forall in H. specialize (H s (proj1 (elem_of_list_In _ _) Hs)). apply plain_name_b. cbn [existsb] in H. rewrite !negb_orb in H. rewrite !andb_true_iff in *. tauto.
Qed.
Example C110_case : exists (i' : ios) root E2 c,
  abs_dir (["w"] ++ ["repository"]) /\ text_keys (CR := toy_crypto) example_key /\ keys_work (CR := toy_crypto) example_key ["root"; "timestamp"; "snapshot"; "targets"] /\ time_ok t2030 /\
  generate_main (CR := toy_crypto) (at_dir "/w/repository") example_key (fun _ => t2030) (mkIos example_disk []) = (i', Ok tt) /\ io_disk i' !! "/w/client/root.json" = Some root /\
  new_client E2 c root no_files /\ serves_dir E2 (io_disk i') ["w"; "repository"; "metadata"] (c_metadata_url c) /\ serves_dir E2 (io_disk i') ["w"; "repository"; "targets"] (c_targets_url c) /\
  within_limits c (io_disk i') ["w"; "repository"; "metadata"] /\ delivers (CR := toy_crypto) E2 c ex_now no_files "staging/root.json" "root 2".
Proof.
  assert (abs_dir (["w"] ++ ["repository"])) as Hdir by (apply names_b; reflexivity). assert (time_ok t2030) as Ht by (vm_compute; repeat split; try reflexivity; intros [=]).
  assert (keys_work (CR := toy_crypto) example_key ["root"; "timestamp"; "snapshot"; "targets"]) as Hk by (apply example_keys; unfold key_names; set_solver).
  assert (forall target, target ∈ bootstrap_targets -> is_Some (io_disk (mkIos example_disk []) !! file_in (["w"] ++ ["repository"; "targets"]) target)) as Hall.
  { intros target Htg. unfold bootstrap_targets in Htg. rewrite !elem_of_cons, elem_of_nil in Htg. destruct Htg as [->|[->|[->|[]]]]; (eexists; vm_compute; reflexivity). }
  destruct (C110_runs (CR := toy_crypto) (at_dir "/w/repository") example_key (fun _ => t2030) ["w"] "repository" (mkIos example_disk []) example_pem Hdir eq_refl (fun _ => eq_refl) example_text Hk (fun _ => Ht) example_small Hall) as [i' Hi'].
  destruct (C110_works (CR := toy_crypto) (at_dir "/w/repository") example_key (fun _ => t2030) ["w"] "repository" (mkIos example_disk []) i' Hdir eq_refl example_text (fun _ => Ht) example_small eq_refl Hi') as (root & R1 & _ & _ & R2).
  destruct (web_client (io_disk i') ["w"; "repository"; "metadata"] ["w"; "repository"; "targets"] root) as (c & U1 & U2 & C1 & C2). destruct (web_serves (io_disk i') ["w"; "repository"; "metadata"] ["w"; "repository"; "targets"]) as [S1 S2].
  exists i', root, (web_env (io_disk i') ["w"; "repository"; "metadata"] ["w"; "repository"; "targets"]), c. rewrite U1, U2. split; [exact Hdir|]. split; [apply example_text|]. split; [exact Hk|]. split; [exact Ht|]. split; [exact Hi'|]. split; [exact R1|]. split; [exact C1|]. split; [exact S1|]. split; [exact S2|]. split; [exact C2|].
  rewrite <- U1 in S1. rewrite <- U2 in S2. apply (R2 _ c ex_now no_files "staging/root.json" "root 2" C1 S1 S2 C2); [|right; right; by left|reflexivity]. repeat (apply Forall_cons; split; [vm_compute; intros [=]|]). apply Forall_nil_2.
Qed.
