(** * Properties C105 to C107: the example programs *)
From stdpp Require Import base gmap strings list.
From Coq Require Import ZArith Lia Ascii String.
From Verif Require Import GoBase GoStr Json GoTime Types Marshal Keys Glob Metadata TrustedMetadata Fetcher Updater Cli MultiRepo ExampleClients SpecBasic SpecTrusted SpecUpdater SpecHistory SpecCli SpecExamples
  StrProofs TrustedProofs EventProofs BlockProofs ClaimProofs FinalProofs HonestProofs HistoryProofs CliProofs InitProofs ExampleProofs BootProofs MainProofs Toy Examples ExamplesUpdater ExamplesMulti PropertiesCli.
Open Scope Z_scope.

(** ** C105: the client example (Trust-On-First-Use) *)
(** When the program reports a file, the file is the target, authenticated from the root file that was there, or, if there
    was none or os.Stat failed, from what the server sent for 1.root.json *)
Theorem C105_delivers {CR : Crypto} E url turl target now i i' p evs cwd : e_cwd E = Some cwd -> example_main E url turl target now i = (i', Ok p) -> happened i i' evs ->
  exists root (r : metadata root_t) data,
    (io_disk i !! example_root cwd = Some root \/
     ((io_disk i !! example_root cwd = None \/ stat_failed (example_root cwd) evs) /\ exists u n sent k, url_join E url "1.root.json" = Ok u /\ EvGet u n (Ok sent) ∈ evs /\ root = str_take k sent)) /\
    document root r /\ root_signs r "root" r /\ io_disk i' !! p = Some data /\ authentic r now target data.
Proof.
  intros Hcwd H Hh. destruct (main_delivers E url turl target now i i' p evs H Hh) as (root & r & data & Hroot & Hrest). unfold working_dir in Hroot. rewrite Hcwd in Hroot. exists root, r, data. split; [|exact Hrest].
  destruct Hroot as [?|(Hw & u & sent & k & ? & ? & ?)]; [by left|right]. split; [exact Hw|]. by exists u, no_limit, sent, k.
Qed.
Print Assumptions C105_delivers.
(** The first use decides: after any number of runs, each finished, failed or interrupted, whatever a further run reports
    is authenticated from the root that was there first *)
Theorem C105_first_use {CR : Crypto} cwd d0 root0 (r0 : metadata root_t) d E url turl target now tr i' p evs : has_prefix "/" cwd = true -> plain_base (path_join [example_dir cwd; "download"]) = true ->
  d0 !! example_root cwd = Some root0 -> document root0 r0 -> example_runs cwd d0 d -> e_cwd E = Some cwd -> example_main E url turl target now (mkIos d tr) = (i', Ok p) -> happened (mkIos d tr) i' evs -> ~ stat_failed (example_root cwd) evs ->
  exists data, io_disk i' !! p = Some data /\ authentic r0 now target data.
Proof.
  intros Hr Hb Hd0 Hr0 Hg Hcwd H Hh Hst. destruct (C105_delivers E url turl target now _ i' p evs cwd Hcwd H Hh) as (root & r & data & Hroot & Hdoc & Hrs & Hp & Ha). exists data. split; [exact Hp|].
  apply (runs_history cwd d0 d root0 r0 Hr Hb Hd0 Hr0) in Hg. apply (history_good (example_dir cwd) d0 root0 r0 Hd0 Hr0) in Hg as (root' & Hroot' & Hx). cbn [io_disk] in Hroot.
  destruct Hroot as [Hroot|([Hn|Hf] & _)]; [|pose proof (eq_trans (eq_sym Hn) Hroot') as [=]|done].
  pose proof (eq_trans (eq_sym Hroot) Hroot') as [= <-].
  destruct Hx as [(n & r' & Hdoc' & Hch)|[(m & Hm) _]]; [|by destruct (document_types root r m)]. rewrite (document_root root r r' Hdoc Hdoc') in Ha. by eapply authentic_chain.
Qed.
Print Assumptions C105_first_use.
(** False: that a failed first use can be repeated.  What the server sends is stored whatever it is, an error page for
    example, and then every later run fails and changes nothing, with a good server as well *)
Theorem C105_repeat_refuted : exists (CR : Crypto) E url turl target now i i' o cwd data, e_cwd E = Some cwd /\ io_disk i = ∅ /\ example_main E url turl target now i = (i', o) /\ (forall p, o <> Ok p) /\
  io_disk i' !! example_root cwd = Some data /\ (forall r : metadata root_t, ~ document data r) /\
  forall E2 url2 turl2 target2 now2 tr i2 o2 evs, e_cwd E2 = Some cwd -> example_main E2 url2 turl2 target2 now2 (mkIos (io_disk i') tr) = (i2, o2) -> happened (mkIos (io_disk i') tr) i2 evs -> ~ stat_failed (example_root cwd) evs ->
    (forall p, o2 <> Ok p) /\ io_disk i2 = io_disk i'.
Proof.
  set (E := cli_env [("https://r/1.root.json", "<h1>404</h1>")]).
  assert (match example_main E "https://r" "https://t" "top" ex_now no_files with (_, Ok _) => false | (i', _) => match io_disk i' !! example_root "/w" with Some x => String.eqb x "<h1>404</h1>" | None => false end end = true) as H by (vm_compute; reflexivity).
  destruct (example_main E "https://r" "https://t" "top" ex_now no_files) as [i' o] eqn:Hi. assert (forall p, o <> Ok p) as Ho by (intros p ->; discriminate H).
  destruct (io_disk i' !! example_root "/w") as [x|] eqn:Hx; [|exfalso; destruct o; discriminate H].
  assert (x = "<h1>404</h1>") as -> by (destruct o; [done|by apply String.eqb_eq..]).
  assert (forall r : metadata root_t, ~ document "<h1>404</h1>" r) as Hbad by (intros r [Hr _]; revert Hr; vm_compute; discriminate).
  exists toy_crypto, E, "https://r", "https://t", "top", ex_now, no_files, i', o, "/w", "<h1>404</h1>". split; [reflexivity|]. split; [reflexivity|]. split; [exact Hi|]. split; [exact Ho|]. split; [exact Hx|]. split; [exact Hbad|].
  intros E2 url2 turl2 target2 now2 tr i2 o2 evs Hcwd2 H2 Hh Hst. assert (working_dir E2 = example_dir "/w") as Hw by (unfold working_dir; by rewrite Hcwd2).
  eapply (main_stuck E2 url2 turl2 target2 now2 (mkIos (io_disk i') tr) i2 o2 evs "<h1>404</h1>"); [rewrite Hw; exact Hx| |exact H2|exact Hh|rewrite Hw; exact Hst]. intros (r & Hr & _). exact (Hbad r Hr).
Qed.
Print Assumptions C105_repeat_refuted.
(** False: that the first root stays if os.Stat fails once, for whatever reason: the program takes this for a missing file,
    and stores what the server sends in place of the trusted root *)
Definition env_stat_fails (files : list (string * string)) : env :=
  mkEnv (serve files) (fun tr => negb (Nat.eqb (List.length tr) 2)) (fun _ => Some 3%nat) (Some "/w") (fun tr => Z.of_nat (List.length tr)) slash_join keep_order keep_order_perm.
Theorem C105_stat_refuted : exists (CR : Crypto) E url turl target now i i' o cwd root0 (r0 : metadata root_t) sent, e_cwd E = Some cwd /\ io_disk i !! example_root cwd = Some root0 /\ document root0 r0 /\ root_signs r0 "root" r0 /\
  example_main E url turl target now i = (i', o) /\ io_disk i' !! example_root cwd = Some sent /\ forall r : metadata root_t, ~ document sent r.
Proof.
  set (E := env_stat_fails [("https://r/1.root.json", "evil")]). set (i := files_of [("/w/tmp/root.json", bytes_of (ex_root 1))]).
  assert (exists r0 : metadata root_t, document (bytes_of (ex_root 1)) r0 /\ root_signs r0 "root" r0) as (r0 & Hdoc & Hrs).
  { assert (is_ok (tm_new (bytes_of (ex_root 1)) ex_now) = true) as H by (vm_compute; reflexivity). destruct (tm_new (bytes_of (ex_root 1)) ex_now) as [t| |] eqn:Ht; [|discriminate H..]. apply tm_new_spec in Ht as (r & ? & ? & _). by exists r. }
  assert (match io_disk (fst (example_main E "https://r" "https://t" "top" ex_now i)) !! example_root "/w" with Some x => String.eqb x "evil" | None => false end = true) as H by (vm_compute; reflexivity).
  destruct (example_main E "https://r" "https://t" "top" ex_now i) as [i' o] eqn:Hi. cbn [fst] in H. destruct (io_disk i' !! example_root "/w") as [x|] eqn:Hx; [|discriminate H]. apply String.eqb_eq in H as ->.
  exists toy_crypto, E, "https://r", "https://t", "top", ex_now, i, i', o, "/w", (bytes_of (ex_root 1)), r0, "evil". split; [reflexivity|]. split; [vm_compute; reflexivity|]. split; [exact Hdoc|]. split; [exact Hrs|]. split; [exact Hi|]. split; [exact Hx|].
  intros r [Hr _]. revert Hr. vm_compute. discriminate.
Qed.
Print Assumptions C105_stat_refuted.
(** a first run in an empty directory, and a second one with another server that has nothing new *)
Definition first_files := ("https://r/1.root.json", bytes_of (ex_root 1)) :: top_files.
Example C105_case : match example_main (cli_env first_files) "https://r" "https://r" "top" ex_now no_files with
  | (i', Ok p) => (p, io_disk i' !! p, match example_main (cli_env top_files) "https://r" "https://r" "top" ex_now (mkIos (io_disk i') []) with (i2, Ok p2) => (p2, io_disk i2 !! p2) | _ => ("", None) end)
  | _ => ("", None, ("", None))
  end = ("/w/tmp/download/top", Some "top file", ("/w/tmp/download/top", Some "top file")).
Proof. vm_compute. reflexivity. Qed.
Example C105_first_use_case : exists d i' p evs, example_runs "/w" (io_disk (files_of [("/w/tmp/root.json", bytes_of (ex_root 1))])) d /\ has_prefix "/" "/w" = true /\ plain_base (path_join [example_dir "/w"; "download"]) = true /\
  example_main (cli_env top_files) "https://r" "https://r" "top" ex_now (mkIos d []) = (i', Ok p) /\ happened (mkIos d []) i' evs /\ ~ stat_failed (example_root "/w") evs.
Proof.
  set (d0 := io_disk (files_of [("/w/tmp/root.json", bytes_of (ex_root 1))])).
  set (nofail := fun evs : list event => forallb (fun e => match e with EvFail _ _ => false | _ => true end) evs).
  assert (forall evs, nofail evs = true -> ~ stat_failed (example_root "/w") evs) as Hnf.
  { intros evs Hf Hs. unfold nofail in Hf. rewrite forallb_forall in Hf. apply elem_of_list_In in Hs. specialize (Hf _ Hs). discriminate Hf. }
  assert (match example_main (cli_env (mk_files two_roles)) "https://r" "https://r" "top" ex_now (mkIos d0 []) with (i1, _) => nofail (io_trace i1) &&
    match example_main (cli_env top_files) "https://r" "https://r" "top" ex_now (mkIos (io_disk i1) []) with (i2, Ok _) => nofail (io_trace i2) | _ => false end end = true) as H by (vm_compute; reflexivity).
  destruct (example_main (cli_env (mk_files two_roles)) "https://r" "https://r" "top" ex_now (mkIos d0 [])) as [i1 o1] eqn:H1. apply andb_prop in H as [Hn1 H].
  destruct (example_main (cli_env top_files) "https://r" "https://r" "top" ex_now (mkIos (io_disk i1) [])) as [i2 [p| |]] eqn:H2; [|discriminate H..].
  exists (io_disk i1), i2, p, (io_trace i2). split; [|split; [reflexivity|split; [vm_compute; reflexivity|split; [exact H2|split; [reflexivity|by apply Hnf]]]]].
  destruct (main_disk _ _ _ _ _ _ _ _ H1) as (evs & [He Hd]).
  eapply (runs_run "/w" d0 d0 (cli_env (mk_files two_roles)) "https://r" "https://r" "top" ex_now [] i1 o1 evs); [apply runs_none|reflexivity|exact H1|exact He| |rewrite Hd; apply BlockProofs.crash_whole].
  apply Hnf. unfold happened in He. cbn [io_trace app] in He. rewrite <- He. exact Hn1.
Qed.

(** ** C106: the first step of the multi-repository example *)
(** What BootstrapTUF returns comes from the root file in the working directory: the map file and each repository's root are
    targets of verified metadata, with its lengths and hashes, and no listed target is left out *)
Theorem C106_authentic {CR : Crypto} E url turl now i i' m roots cwd : e_cwd E = Some cwd -> bootstrap E url turl now i = (i', Ok (m, roots)) ->
  exists root (r : metadata root_t) tg, io_disk i !! anchor cwd = Some root /\ document root r /\ root_signs r "root" r /\ published_under r now tg /\
    (m = "" \/ exists tf, entry tg "map.json" (Some tf) /\ matches_target tf m) /\ (forall o, entry tg "map.json" o -> exists tf, entry tg "map.json" (Some tf) /\ matches_target tf m) /\
    (forall repo data, roots !! repo = Some data -> exists name tf, entry tg name (Some tf) /\ name <> "map.json" /\ repository_of name repo /\ matches_target tf data) /\
    (forall name o, entry tg name o -> name <> "map.json" -> exists repo data, repository_of name repo /\ roots !! repo = Some data).
Proof.
  intros Hcwd H. destruct (boot_run _ _ _ _ _ _ _ _ Hcwd H) as [[Hno _]|(root & r & tg & c & l & w & w' & Hroot & Hdoc & Hrs & Hpub & Hl & _ & Hloop & _)]; [by destruct (Hno (m, roots))|].
  apply loop_run in Hloop as (_ & _ & Hok); [|unfold path_join; destruct cwd; [rewrite filter_cons_False by (intros Hx; by apply Hx)|rewrite filter_cons_True by done]; apply path_clean_ne]. destruct (Hok m roots eq_refl) as (Hm & Hm2 & Hr & _ & Hc). cbn [fst snd] in *.
  assert (forall name o, (name, o) ∈ l <-> entry tg name o) as He by (intros; by apply listed_entry).
  exists root, r, tg. split; [exact Hroot|]. split; [exact Hdoc|]. split; [exact Hrs|]. split; [exact Hpub|]. split; [|split; [|split]].
  - destruct Hm as [Hm|(tf & Hin & Hmt)]; [by left|]. right. exists tf. split; [by apply He|exact Hmt].
  - intros o Ho. apply He in Ho. destruct (Hm2 _ Ho) as (tf & Hin & Hmt). exists tf. split; [by apply He|exact Hmt].
  - intros repo data Hd. destruct (Hr _ _ Hd) as [Hx|(name & tf & Hin & Hne & Hrep & Hmt)]; [by rewrite lookup_empty in Hx|]. exists name, tf. split; [by apply He|done].
  - intros name o Ho Hne. apply He in Ho. destruct (Hc _ _ Ho Hne) as [data Hd]. exists (first_part name), data. split; [apply first_part_ok|exact Hd].
Qed.
Print Assumptions C106_authentic.
(** A run, finished, failed or interrupted anywhere, leaves the root file alone, unless verified targets metadata lists a
    name that leads out of the directory *)
Theorem C106_anchor {CR : Crypto} E url turl now i i' o evs d cwd : e_cwd E = Some cwd -> has_prefix "/" cwd = true -> bootstrap E url turl now i = (i', o) -> happened i i' evs -> crash (io_disk i) evs d ->
  d !! anchor cwd = io_disk i !! anchor cwd \/
  exists root (r : metadata root_t) tg name tf, io_disk i !! anchor cwd = Some root /\ document root r /\ root_signs r "root" r /\ published_under r now tg /\ entry tg name (Some tf) /\ ".." ∈ split_on "/" name.
Proof.
  intros Hcwd Hp H Hh Hc. assert (forall X, leaves (anchor cwd) X i i' -> d !! anchor cwd = io_disk i !! anchor cwd \/ X) as Hl.
  { intros X (evs' & [He _] & Hx). apply Hx. by rewrite <- (happened_eq _ _ _ _ Hh He). }
  destruct (boot_run _ _ _ _ _ _ _ _ Hcwd H) as [[_ Hno]|(root & r & tg & c & l & w & w' & Hroot & Hdoc & Hrs & Hpub & Hlp & Hl1 & Hloop & ->)]; [destruct (Hl _ Hno) as [?|[]]; by left|].
  apply loop_run in Hloop as (_ & Hl2 & _); [|unfold path_join; destruct cwd; [rewrite filter_cons_False by (intros Hx; by apply Hx)|rewrite filter_cons_True by done]; apply path_clean_ne].
  destruct (Hl _ (leaves_trans _ _ _ _ _ (leaves_impl _ _ _ _ _ (fun f => False_ind _ f) Hl1) (Hl2 (anchor cwd)))) as [?|(name & tf & Hin & Hq)]; [by left|right].
  exists root, r, tg, name, tf. split; [exact Hroot|]. split; [exact Hdoc|]. split; [exact Hrs|]. split; [exact Hpub|]. split; [by apply (listed_entry tg l)|].
  destruct (decide (".." ∈ split_on "/" name)) as [?|Hn]; [done|]. by destruct (place_not_anchor cwd name Hp Hn).
Qed.
Print Assumptions C106_anchor.
(** a server with these targets, listed by the targets metadata *)
Definition boot_files (targets files : list (string * string)) := files ++ mk_files [("targets", mk_targets [pkA] targets [])].
Definition boot_start := files_of [("/w/root.json", bytes_of (ex_root 1))].
Definition boot_hash (data : string) := hex_encode (sha256 data).
Definition boot_turned (files : list (string * string)) : env :=
  mkEnv (serve files) (fun _ => true) (fun _ => Some 3%nat) (Some "/w") (fun tr => Z.of_nat (List.length tr)) slash_join turn_order turn_order_perm.
Definition two_in_one := boot_files [("map.json", "the map"); ("repo/root.json", "its root"); ("repo/old.json", "old root")]
  [("https://t/" +:+ boot_hash "the map" +:+ ".map.json", "the map"); ("https://t/repo/" +:+ boot_hash "its root" +:+ ".root.json", "its root"); ("https://t/repo/" +:+ boot_hash "old root" +:+ ".old.json", "old root")].
(** False without the exception: a target with the name ../../root.json takes the place of the root file *)
Theorem C106_anchor_refuted : exists (CR : Crypto) E url turl now i i' m roots cwd root (r : metadata root_t) data, e_cwd E = Some cwd /\ has_prefix "/" cwd = true /\ io_disk i !! anchor cwd = Some root /\ document root r /\ root_signs r "root" r /\
  bootstrap E url turl now i = (i', Ok (m, roots)) /\ io_disk i' !! anchor cwd = Some data /\ forall r' : metadata root_t, ~ document data r'.
Proof.
  set (E := cli_env (boot_files [("../../root.json", "evil")] [("https://t/../" +:+ boot_hash "evil" +:+ ".../root.json", "evil")])).
  assert (match bootstrap E "https://r" "https://t" ex_now boot_start with (i', Ok _) => match io_disk i' !! anchor "/w" with Some x => String.eqb x "evil" | None => false end | _ => false end = true) as H by (vm_compute; reflexivity).
  destruct (bootstrap E "https://r" "https://t" ex_now boot_start) as [i' [[m roots]| |]] eqn:Hi; [|discriminate H..]. destruct (io_disk i' !! anchor "/w") as [x|] eqn:Hx; [|discriminate H]. apply String.eqb_eq in H as ->.
  destruct (C106_authentic E "https://r" "https://t" ex_now boot_start i' m roots "/w" eq_refl Hi) as (root & r & _ & Hroot & Hdoc & Hrs & _).
  exists toy_crypto, E, "https://r", "https://t", ex_now, boot_start, i', m, roots, "/w", root, r, "evil". split; [reflexivity|]. split; [reflexivity|]. split; [exact Hroot|]. split; [exact Hdoc|]. split; [exact Hrs|]. split; [exact Hi|]. split; [exact Hx|].
  intros r' [Hr _]. revert Hr. vm_compute. discriminate.
Qed.
Print Assumptions C106_anchor_refuted.
(** False: that the same server gives the same roots.  If two targets belong to the same repository, the one that comes last
    in the map's random order is used *)
Theorem C106_order_refuted : exists (CR : Crypto) E1 E2 url turl now i i1 i2 m roots1 roots2, e_net E1 = e_net E2 /\ e_cwd E1 = e_cwd E2 /\ e_io E1 = e_io E2 /\
  bootstrap E1 url turl now i = (i1, Ok (m, roots1)) /\ bootstrap E2 url turl now i = (i2, Ok (m, roots2)) /\ roots1 !! "repo" = Some "old root" /\ roots2 !! "repo" = Some "its root".
Proof.
  set (E1 := cli_env two_in_one). set (E2 := boot_turned two_in_one). set (is := fun (o : option string) x => match o with Some y => String.eqb y x | None => false end).
  assert (match bootstrap E1 "https://r" "https://t" ex_now boot_start with (_, Ok (m, roots)) => String.eqb m "the map" && is (roots !! "repo") "old root" | _ => false end = true) as H1 by (vm_compute; reflexivity).
  assert (match bootstrap E2 "https://r" "https://t" ex_now boot_start with (_, Ok (m, roots)) => String.eqb m "the map" && is (roots !! "repo") "its root" | _ => false end = true) as H2 by (vm_compute; reflexivity).
  destruct (bootstrap E1 "https://r" "https://t" ex_now boot_start) as [i1 [[m1 roots1]| |]] eqn:Hi1; [|discriminate H1..]. destruct (bootstrap E2 "https://r" "https://t" ex_now boot_start) as [i2 [[m2 roots2]| |]] eqn:Hi2; [|discriminate H2..].
  apply andb_prop in H1 as [Hm1 Hr1]. apply andb_prop in H2 as [Hm2 Hr2]. apply String.eqb_eq in Hm1 as ->. apply String.eqb_eq in Hm2 as ->.
  assert (forall o x, is o x = true -> o = Some x) as His by (intros [y|] x Hx; [by apply String.eqb_eq in Hx as ->|discriminate Hx]). apply His in Hr1. apply His in Hr2.
  exists toy_crypto, E1, E2, "https://r", "https://t", ex_now, boot_start, i1, i2, "the map", roots1, roots2. split; [reflexivity|]. split; [reflexivity|]. split; [reflexivity|]. split; [exact Hi1|]. split; [exact Hi2|]. split; [exact Hr1|exact Hr2].
Qed.
Print Assumptions C106_order_refuted.
(** a map file and the roots of two repositories *)
Definition two_repos := boot_files [("map.json", "the map"); ("repo/root.json", "its root"); ("other/root.json", "its own root")]
  [("https://t/" +:+ boot_hash "the map" +:+ ".map.json", "the map"); ("https://t/repo/" +:+ boot_hash "its root" +:+ ".root.json", "its root"); ("https://t/other/" +:+ boot_hash "its own root" +:+ ".root.json", "its own root")].
Example C106_case : match bootstrap (cli_env two_repos) "https://r" "https://t" ex_now boot_start with
  | (i', Ok (m, roots)) => (m, roots !! "repo", roots !! "other", roots !! "map.json", io_disk i' !! "/w/bootstrap/targets/repo/root.json", match io_disk i' !! anchor "/w", io_disk boot_start !! anchor "/w" with Some a, Some b => String.eqb a b | _, _ => false end)
  | _ => ("", None, None, None, None, false)
  end = ("the map", Some "its root", Some "its own root", None, Some "its root", true).
Proof. vm_compute. reflexivity. Qed.

(** ** C107: the multi-repository example as a whole *)
(** The file that the program downloads is the target, authenticated from the root of a repository that the map file names
    for it; this root and the map file are authenticated from the root file in the working directory *)
Theorem C107_authentic {CR : Crypto} E url turl target now1 now2 i i' p data cwd : e_cwd E = Some cwd -> multi_main E url turl target now1 now2 i = (i', Ok (p, data)) ->
  exists root (r : metadata root_t) tg tfm text roots mc mp pat repo name tf rdata (r1 : metadata root_t),
    io_disk i !! anchor cwd = Some root /\ document root r /\ root_signs r "root" r /\ published_under r now1 tg /\
    entry tg "map.json" (Some tfm) /\ matches_target tfm text /\ mr_new_config text (Some roots) = Ok mc /\
    Some mp ∈ slist (rm_mapping (mc_map mc)) /\ pat ∈ slist (mp_paths mp) /\ glob_match pat target = Ok true /\ repo ∈ slist (mp_repos mp) /\
    entry tg name (Some tf) /\ name <> "map.json" /\ repository_of name repo /\ matches_target tf rdata /\ document rdata r1 /\ root_signs r1 "root" r1 /\
    authentic r1 now2 target data /\ io_disk i' !! p = Some data.
Proof.
  intros Hcwd H. destruct (multi_run _ _ _ _ _ _ _ _ _ _ _ Hcwd H) as (i1 & text & roots & mc & mp & pat & repo & rdata & r1 & Hb & Ht & Hmc & Hm & Hp & Hg & Hr & Hrd & Hd1 & Hrs1 & Ha & Hst).
  destruct (C106_authentic _ _ _ _ _ _ _ _ _ Hcwd Hb) as (root & r & tg & Hroot & Hdoc & Hrs & Hpub & [?|(tfm & Htfm & Hmm)] & _ & Hroots & _); [done|].
  destruct (Hroots _ _ Hrd) as (name & tf & He & Hne & Hrep & Hmt). by exists root, r, tg, tfm, text, roots, mc, mp, pat, repo, name, tf, rdata, r1.
Qed.
Print Assumptions C107_authentic.
(** the root file stays, however far the program gets, with the same exception as before *)
Theorem C107_anchor {CR : Crypto} E url turl target now1 now2 i i' o evs d cwd : e_cwd E = Some cwd -> has_prefix "/" cwd = true -> plain_base (path_join [cwd; "download"]) = true ->
  multi_main E url turl target now1 now2 i = (i', o) -> happened i i' evs -> crash (io_disk i) evs d ->
  d !! anchor cwd = io_disk i !! anchor cwd \/
  exists root (r : metadata root_t) tg name tf, io_disk i !! anchor cwd = Some root /\ document root r /\ root_signs r "root" r /\ published_under r now1 tg /\ entry tg name (Some tf) /\ ".." ∈ split_on "/" name.
Proof.
  intros Hcwd Hp Hb H Hh Hc. destruct (multi_leaves _ _ _ _ _ _ _ _ _ _ Hcwd Hp Hb H) as (evs' & [He _] & Hx). apply Hx. by rewrite <- (happened_eq _ _ _ _ Hh He).
Qed.
Print Assumptions C107_anchor.
(** two repositories, both of which have to agree *)
Definition two_map := "{""repositories"":{""A"":[""https://a""],""B"":[""https://b""]},""mapping"":[{""paths"":[""*""],""repositories"":[""A"",""B""],""threshold"":2,""terminating"":true}]}".
Definition main_files :=
  boot_files [("map.json", two_map); ("A/root.json", bytes_of (ex_root 1)); ("B/root.json", bytes_of (ex_root 1))]
    [("https://t/" +:+ boot_hash two_map +:+ ".map.json", two_map); ("https://t/A/" +:+ boot_hash (bytes_of (ex_root 1)) +:+ ".root.json", bytes_of (ex_root 1)); ("https://t/B/" +:+ boot_hash (bytes_of (ex_root 1)) +:+ ".root.json", bytes_of (ex_root 1))] ++
  ("https://b/targets/" +:+ boot_hash "hello" +:+ ".x", "hello") :: files_at "https://a" (simple [("x", "hello")]) ++ files_at "https://b" (simple [("x", "hello")]).
Example C107_case : match multi_main (cli_env main_files) "https://r" "https://t" "x" ex_now ex_now boot_start with
  | (i', Ok (p, data)) => (p, data, io_disk i' !! p, match io_disk i' !! anchor "/w", io_disk boot_start !! anchor "/w" with Some a, Some b => String.eqb a b | _, _ => false end)
  | _ => ("", "", None, false)
  end = ("/w/download/x", "hello", Some "hello", true) /\ has_prefix "/" "/w" = true /\ plain_base (path_join ["/w"; "download"]) = true.
Proof. split; [vm_compute; reflexivity|split; vm_compute; reflexivity]. Qed.
