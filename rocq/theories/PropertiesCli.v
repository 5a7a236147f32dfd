(** * Properties C99-C102: the example client (init, get, reset) *)
From stdpp Require Import base gmap strings list.
From Coq Require Import ZArith Lia Ascii String.
From Verif Require Import GoBase GoStr Json GoTime Types Marshal Keys Metadata TrustedMetadata Fetcher Updater Cli SpecBasic SpecTrusted SpecUpdater SpecHistory SpecCli
  StrProofs TrustedProofs ClaimProofs FinalProofs HonestProofs HistoryProofs CliProofs InitProofs Toy Examples ExamplesUpdater.
Open Scope Z_scope.

(** ** Example environments *)
Definition slash_join (b e : string) : outcome string := Ok (b +:+ "/" +:+ e).
Definition cli_env (files : list (string * string)) : env :=
  mkEnv (serve files) (fun _ => true) (fun _ => Some 3%nat) (Some "/w") (fun tr => Z.of_nat (List.length tr)) slash_join keep_order keep_order_perm.
Definition cli_files (more : list (string * string)) := ("/w/tuf_metadata/root.json", bytes_of (ex_root 1)) :: more.
Definition cli_flags := mkFlags "https://r" "" false.
Definition top_files := ("https://r/" +:+ hex_encode (sha256 "top file") +:+ ".top", "top file") :: mk_files two_roles.
Lemma result_of {A} (x : ios * outcome A) : match snd x with Ok _ => true | _ => false end = true -> exists i a, x = (i, Ok a).
Proof. destruct x as [i [a| |]]; [|done..]. by exists i, a. Qed.
Lemma failure_of {A} (x : ios * outcome A) : match snd x with Ok _ => false | _ => true end = true -> exists i o, x = (i, o) /\ forall a, o <> Ok a.
Proof. destruct x as [i [a| |]]; [done|..]; by eexists i, _. Qed.

(** ** C99 *)
(** When get prints a path, the file there is the target, authenticated from the root file in the metadata directory *)
Theorem C99_get {CR : Crypto} E f target now i i' p : get_cmd E f target now i = (i', Ok p) ->
  exists cwd root (r : metadata root_t) data, e_cwd E = Some cwd /\ io_disk i !! trusted_root_file cwd = Some root /\ document root r /\ root_signs r "root" r /\
    io_disk i' !! p = Some data /\ authentic r now target data.
Proof. intros (cwd & root & r & data & ? & ? & ? & ? & ? & ? & _)%get_delivers. by exists cwd, root, r, data. Qed.
Print Assumptions C99_get.
(** and it is in the download directory, named after the target *)
Theorem C99_place {CR : Crypto} E f target now i i' p cwd : e_cwd E = Some cwd -> has_prefix "/" cwd = true -> plain_base (download_dir cwd) = true -> target <> "" -> target <> "." -> target <> ".." ->
  get_cmd E f target now i = (i', Ok p) -> p = download_dir cwd +:+ "/" +:+ query_escape target.
Proof.
  intros Hcwd Hr Hb H1 H2 H3 (cwd' & root & r & data & Hcwd' & _ & _ & _ & _ & _ & tf & c & Hc & Htf & Hp)%get_delivers. assert (cwd' = cwd) as -> by congruence. destruct (get_config_ok _ _ _ _ _ Hc) as (_ & Hd & _). subst target. by apply (target_place E cwd c tf p).
Qed.
Print Assumptions C99_place.
(** Without a root file, or with one that is not self-signed root metadata, get fails and changes nothing *)
Theorem C99_needs_root {CR : Crypto} E f target now i i' o cwd : e_cwd E = Some cwd -> get_cmd E f target now i = (i', o) ->
  (forall data (r : metadata root_t), io_disk i !! trusted_root_file cwd = Some data -> document data r -> ~ root_signs r "root" r) -> (forall p, o <> Ok p) /\ io_disk i' = io_disk i.
Proof.
  intros Hcwd H Hno. destruct (io_disk i !! trusted_root_file cwd) as [data|] eqn:Hd; [|by eapply get_needs_root]. eapply get_checks_root; [exact Hcwd|exact Hd| |exact H]. intros (r & Hdoc & Hr). exact (Hno data r eq_refl Hdoc Hr).
Qed.
Print Assumptions C99_needs_root.
Example C99_case : exists i' data, get_cmd (cli_env top_files) cli_flags "top" ex_now (files_of (cli_files [])) = (i', Ok "/w/tuf_download/top") /\ io_disk i' !! "/w/tuf_download/top" = Some data /\ data = "top file".
Proof.
  assert (match get_cmd (cli_env top_files) cli_flags "top" ex_now (files_of (cli_files [])) with (i', Ok p) => String.eqb p "/w/tuf_download/top" && match io_disk i' !! p with Some d => String.eqb d "top file" | None => false end | _ => false end = true) as H by (vm_compute; reflexivity).
  destruct (get_cmd _ _ _ _ _) as [i' [p| |]]; [|discriminate H..]. apply andb_prop in H as [Hp H]. apply String.eqb_eq in Hp as ->. destruct (io_disk i' !! "/w/tuf_download/top") as [d|] eqn:Hd; [|discriminate H]. apply String.eqb_eq in H. by exists i', d.
Qed.
(** a file that is there already is used if it is the target, and replaced if not *)
Example C99_cached_case : map (fun old => match get_cmd (cli_env top_files) cli_flags "top" ex_now (files_of (cli_files [("/w/tuf_download/top", old)])) with
    (i', Ok p) => (p, io_disk i' !! p, List.length (List.filter (fun e => match e with EvWrite q _ => String.eqb q "/w/tuf_download/top" | _ => false end) (io_trace i'))) | _ => ("", None, 0%nat) end) ["top file"; "evil"] =
  [("/w/tuf_download/top", Some "top file", 0%nat); ("/w/tuf_download/top", Some "top file", 1%nat)].
Proof. vm_compute. reflexivity. Qed.

(** ** C101 *)
(** After any number of get commands, each of them finished, failed or interrupted anywhere, what get delivers is
    authenticated from the root the first one started with *)
Theorem C101_gets {CR : Crypto} cwd d0 root0 (r0 : metadata root_t) d E f target now tr i' p : has_prefix "/" cwd = true -> plain_base (download_dir cwd) = true ->
  d0 !! trusted_root_file cwd = Some root0 -> document root0 r0 -> get_commands cwd d0 d -> e_cwd E = Some cwd -> get_cmd E f target now (mkIos d tr) = (i', Ok p) ->
  exists data, io_disk i' !! p = Some data /\ authentic r0 now target data.
Proof.
  intros Hr Hb Hd0 Hr0 Hg Hcwd (cwd' & root & r & data & Hcwd' & Hroot & Hdoc & Hrs & Hp & Ha & _)%get_delivers. assert (cwd' = cwd) as -> by congruence. exists data. split; [exact Hp|].
  apply gets_history in Hg; [|done..]. apply (history_good (metadata_dir cwd) d0 root0 r0 Hd0 Hr0) in Hg as (root' & Hroot' & Hx). pose proof (eq_trans (eq_sym Hroot) Hroot') as [= <-].
  destruct Hx as [(n & r' & Hdoc' & Hch)|[(m & Hm) _]]; [|by destruct (document_types root r m)]. rewrite (document_root root r r' Hdoc Hdoc') in Ha. by eapply authentic_chain.
Qed.
Print Assumptions C101_gets.
(** and the root file is a complete document all the time *)
Theorem C101_root_file {CR : Crypto} cwd d0 root0 (r0 : metadata root_t) d : has_prefix "/" cwd = true -> plain_base (download_dir cwd) = true ->
  d0 !! trusted_root_file cwd = Some root0 -> document root0 r0 -> get_commands cwd d0 d ->
  exists root, d !! trusted_root_file cwd = Some root /\ ((exists n (r : metadata root_t), document root r /\ root_chain n r0 r) \/ exists m : metadata targets_t, document root m).
Proof.
  intros Hr Hb Hd0 Hr0 Hg. apply gets_history in Hg; [|done..]. apply (history_good (metadata_dir cwd) d0 root0 r0 Hd0 Hr0) in Hg as (root & Hroot & Hx). exists root. split; [exact Hroot|]. destruct Hx as [?|[? _]]; [by left|by right].
Qed.
Print Assumptions C101_root_file.
Example C101_case : exists d i' p, get_commands "/w" (io_disk (files_of (cli_files []))) d /\ has_prefix "/" "/w" = true /\ plain_base (download_dir "/w") = true /\
  get_cmd (cli_env top_files) cli_flags "top" ex_now (mkIos d []) = (i', Ok p) /\ d <> io_disk (files_of (cli_files [])).
Proof.
  set (d0 := io_disk (files_of (cli_files []))).
  assert (match get_cmd (cli_env (mk_files two_roles)) cli_flags "top" ex_now (mkIos d0 []) with (i1, o1) =>
    match get_cmd (cli_env top_files) cli_flags "top" ex_now (mkIos (io_disk i1) []), io_disk i1 !! "/w/tuf_metadata/targets.json" with (_, Ok _), Some _ => true | _, _ => false end end = true) as H by (vm_compute; reflexivity).
  destruct (get_cmd (cli_env (mk_files two_roles)) cli_flags "top" ex_now (mkIos d0 [])) as [i1 o1] eqn:H1.
  destruct (get_cmd (cli_env top_files) cli_flags "top" ex_now (mkIos (io_disk i1) [])) as [i2 [p| |]] eqn:H2; [|discriminate H..]. destruct (io_disk i1 !! "/w/tuf_metadata/targets.json") as [x|] eqn:Hx; [|discriminate H].
  exists (io_disk i1), i2, p. split; [|split; [reflexivity|split; [vm_compute; reflexivity|split; [exact H2|]]]].
  - destruct (get_disk _ _ _ _ _ _ _ H1) as (evs & He & Hd). eapply (gets_run "/w" d0 d0 (cli_env (mk_files two_roles)) cli_flags "top" ex_now [] i1 o1 evs); [apply gets_none|reflexivity|exact H1|exact He|rewrite Hd; apply BlockProofs.crash_whole].
  - intros Hd. rewrite Hd in Hx. revert Hx. vm_compute. discriminate.
Qed.

(** ** C100 *)
(** init without --file: on success the root file holds what the server sent for 1.root.json, self-signed root metadata,
    and no other file changed *)
Theorem C100_downloaded {CR : Crypto} E url now i i' cwd : e_cwd E = Some cwd -> has_prefix "/" cwd = true -> init_cmd E url "" now i = (i', Ok tt) ->
  exists data (r : metadata root_t) u n evs, happened i i' evs /\ url_join E url "1.root.json" = Ok u /\ EvGet u n (Ok data) ∈ evs /\ io_disk i' = <[trusted_root_file cwd := data]> (io_disk i) /\ document data r /\ root_signs r "root" r.
Proof. exact (init_download_ok E url now i i' cwd). Qed.
Print Assumptions C100_downloaded.
(** init --file path: on success the file is self-signed root metadata and has been copied, under its own name, into the
    metadata directory; called root.json it becomes the trusted root *)
Theorem C100_copied {CR : Crypto} E url path now i i' cwd : e_cwd E = Some cwd -> path <> "" -> init_cmd E url path now i = (i', Ok tt) ->
  exists data (r : metadata root_t), io_disk i !! absolute cwd path = Some data /\ document data r /\ root_signs r "root" r /\ io_disk i' = <[path_join [metadata_dir cwd; path] := data]> (io_disk i) /\
    (path = "root.json" -> io_disk i' !! trusted_root_file cwd = Some data).
Proof.
  intros Hcwd Hp (data & r & Hd & Hdoc & Hr & Hi)%(init_file_ok E url path now i i' cwd Hcwd Hp). exists data, r. repeat (split; [done|]). intros ->. rewrite Hi. apply (lookup_insert (M := gmap string)).
Qed.
Print Assumptions C100_copied.
(** init is interrupted anywhere or fails: nothing has changed, or the metadata directory was empty and one file has been
    written, with a beginning of the data downloaded or given *)
Theorem C100_interrupted {CR : Crypto} E url path now i i' o evs d cwd : e_cwd E = Some cwd -> init_cmd E url path now i = (i', o) -> happened i i' evs -> crash (io_disk i) evs d ->
  d = io_disk i \/ (forall s, io_disk i !! (metadata_dir cwd +:+ "/" +:+ s) = None) /\
    ((path = "" /\ exists u n data k, url_join E url "1.root.json" = Ok u /\ EvGet u n (Ok data) ∈ evs /\ d = <[trusted_root_file cwd := str_take k data]> (io_disk i)) \/
     (path <> "" /\ exists data (r : metadata root_t) k, io_disk i !! absolute cwd path = Some data /\ document data r /\ root_signs r "root" r /\ d = <[path_join [metadata_dir cwd; path] := str_take k data]> (io_disk i))).
Proof. exact (init_effect E url path now i i' o evs d cwd). Qed.
Print Assumptions C100_interrupted.
(** If the server sent root metadata, what get delivers after an interrupted init is authenticated from these *)
Theorem C100_then_get {CR : Crypto} E url now i i' o evs d cwd E2 f target now2 tr i2 p : e_cwd E = Some cwd -> io_disk i !! trusted_root_file cwd = None -> init_cmd E url "" now i = (i', o) -> happened i i' evs -> crash (io_disk i) evs d ->
  e_cwd E2 = Some cwd -> get_cmd E2 f target now2 (mkIos d tr) = (i2, Ok p) ->
  exists u n root, url_join E url "1.root.json" = Ok u /\ EvGet u n (Ok root) ∈ evs /\
    forall r : metadata root_t, has_prefix "{" root = true -> document root r -> exists data, io_disk i2 !! p = Some data /\ authentic r now2 target data.
Proof.
  intros Hcwd Hnone H Hh Hc Hcwd2 (cwd' & root' & r' & data & Hcwd' & Hroot & Hdoc & Hrs & Hp & Ha & _)%get_delivers. assert (cwd' = cwd) as -> by congruence. cbn [io_disk] in Hroot.
  destruct (init_effect E url "" now i i' o evs d cwd Hcwd H Hh Hc) as [-> |(_ & [(_ & u & n & root & k & Hu & Hin & ->)|[Hx _]])]; [pose proof (eq_trans (eq_sym Hnone) Hroot) as [=]| |done].
  exists u, n, root. split; [done|]. split; [done|]. intros r Hpre Hr. exists data. split; [exact Hp|]. pose proof (eq_trans (eq_sym (lookup_insert (M := gmap string) (io_disk i) (trusted_root_file cwd) (str_take k root))) Hroot) as [= <-]. by rewrite <- (cut_document root r r' k Hpre Hr Hdoc).
Qed.
Print Assumptions C100_then_get.
(** A directory in which something has been initialised is not initialised again *)
Theorem C100_once {CR : Crypto} E url path now i i' o cwd s : e_cwd E = Some cwd -> io_disk i !! (metadata_dir cwd +:+ "/" +:+ s) <> None -> init_cmd E url path now i = (i', o) -> o <> Ok tt /\ io_disk i' = io_disk i.
Proof. exact (init_blocked E url path now i i' o cwd s). Qed.
Print Assumptions C100_once.
(** False: that after a successful init get has a root to start from.  With --file trusted.json there is none, and get
    fails whatever the server does *)
Theorem C100_usable_refuted : exists (CR : Crypto) E url path now i i' cwd, e_cwd E = Some cwd /\ init_cmd E url path now i = (i', Ok tt) /\ io_disk i' !! trusted_root_file cwd = None /\
  forall E2 f target now2 tr i2 o, e_cwd E2 = Some cwd -> get_cmd E2 f target now2 (mkIos (io_disk i') tr) = (i2, o) -> forall p, o <> Ok p.
Proof.
  set (E := cli_env []). set (i := files_of [("/w/trusted.json", bytes_of (ex_root 1))]).
  assert (match init_cmd E "https://r" "trusted.json" ex_now i with (i', Ok tt) => match io_disk i' !! trusted_root_file "/w" with None => true | _ => false end | _ => false end = true) as H by (vm_compute; reflexivity).
  destruct (init_cmd E "https://r" "trusted.json" ex_now i) as [i' [[]| |]] eqn:Hi; [|discriminate H..]. destruct (io_disk i' !! trusted_root_file "/w") as [x|] eqn:Hx; [discriminate H|].
  exists toy_crypto, E, "https://r", "trusted.json", ex_now, i, i', "/w". split; [reflexivity|]. split; [exact Hi|]. split; [exact Hx|]. intros E2 f target now2 tr i2 o Hcwd Hg. exact (proj1 (get_needs_root E2 f target now2 (mkIos (io_disk i') tr) i2 o "/w" Hcwd Hx Hg)).
Qed.
Print Assumptions C100_usable_refuted.
(** False: that only the metadata directory changes.  With --file ../../x another file is overwritten *)
Theorem C100_inside_refuted : exists (CR : Crypto) E url path now i i' cwd q old, e_cwd E = Some cwd /\ init_cmd E url path now i = (i', Ok tt) /\ io_disk i !! q = Some old /\ io_disk i' !! q <> Some old /\
  ~ within (metadata_dir cwd) q /\ ~ within (download_dir cwd) q.
Proof.
  set (E := cli_env []). set (i := files_of [("/root.json", bytes_of (ex_root 1)); ("/w/root.json", "mine")]).
  assert (match init_cmd E "https://r" "../root.json" ex_now i with (i', Ok tt) => match io_disk i' !! "/w/root.json" with Some x => negb (String.eqb x "mine") | _ => false end | _ => false end = true) as H by (vm_compute; reflexivity).
  destruct (init_cmd E "https://r" "../root.json" ex_now i) as [i' [[]| |]] eqn:Hi; [|discriminate H..]. destruct (io_disk i' !! "/w/root.json") as [x|] eqn:Hx; [|discriminate H].
  exists toy_crypto, E, "https://r", "../root.json", ex_now, i, i', "/w", "/w/root.json", "mine". split; [reflexivity|]. split; [exact Hi|]. split; [vm_compute; reflexivity|]. split; [rewrite Hx; intros [= ->]; discriminate H|].
  split; intros [Hw|(s & Hw)]; vm_compute in Hw; discriminate Hw.
Qed.
Print Assumptions C100_inside_refuted.
(** False: that a failed init leaves nothing.  What the server sent stays, verified or not, and init then fails for ever *)
Theorem C100_failed_refuted : exists (CR : Crypto) E url now i i' o cwd data, e_cwd E = Some cwd /\ io_disk i = ∅ /\ init_cmd E url "" now i = (i', o) /\ o <> Ok tt /\ io_disk i' !! trusted_root_file cwd = Some data /\
  (forall r : metadata root_t, ~ document data r) /\
  forall E2 url2 path2 now2 tr i2 o2, e_cwd E2 = Some cwd -> init_cmd E2 url2 path2 now2 (mkIos (io_disk i') tr) = (i2, o2) -> o2 <> Ok tt /\ io_disk i2 = io_disk i'.
Proof.
  set (E := cli_env [("https://r/1.root.json", "<h1>404</h1>")]). set (i := mkIos ∅ []).
  assert (match init_cmd E "https://r" "" ex_now i with (_, Ok tt) => false | (i', _) => match io_disk i' !! trusted_root_file "/w" with Some x => String.eqb x "<h1>404</h1>" | None => false end end = true) as H by (vm_compute; reflexivity).
  destruct (init_cmd E "https://r" "" ex_now i) as [i' o] eqn:Hi. assert (o <> Ok tt) as Ho by (intros ->; discriminate H).
  destruct (io_disk i' !! trusted_root_file "/w") as [x|] eqn:Hx; [|exfalso; destruct o as [[]| |]; discriminate H].
  assert (x = "<h1>404</h1>") as -> by (destruct o as [[]| |]; [done|by apply String.eqb_eq..]).
  exists toy_crypto, E, "https://r", ex_now, i, i', o, "/w", "<h1>404</h1>". split; [reflexivity|]. split; [reflexivity|]. split; [exact Hi|]. split; [exact Ho|]. split; [exact Hx|]. split.
  - intros r [Hr _]. revert Hr. vm_compute. discriminate.
  - intros E2 url2 path2 now2 tr i2 o2 Hcwd2 H2. eapply (init_blocked E2 url2 path2 now2 (mkIos (io_disk i') tr) i2 o2 "/w" "root.json"); [exact Hcwd2| |exact H2]. change ("/w/tuf_metadata/root.json") with (trusted_root_file "/w") in *. cbn [io_disk]. intros Hn. pose proof (eq_trans (eq_sym Hx) Hn) as [=].
Qed.
Print Assumptions C100_failed_refuted.
Example C100_case : exists i', init_cmd (cli_env [("https://r/1.root.json", bytes_of (ex_root 1))]) "https://r" "" ex_now no_files = (i', Ok tt) /\ io_disk i' !! "/w/tuf_metadata/root.json" = Some (bytes_of (ex_root 1)).
Proof.
  assert (match init_cmd (cli_env [("https://r/1.root.json", bytes_of (ex_root 1))]) "https://r" "" ex_now no_files with (i', Ok tt) => match io_disk i' !! "/w/tuf_metadata/root.json" with Some x => String.eqb x (bytes_of (ex_root 1)) | None => false end | _ => false end = true) as H by (vm_compute; reflexivity).
  destruct (init_cmd _ _ _ _ _) as [i' [[]| |]]; [|discriminate H..]. exists i'. split; [reflexivity|]. destruct (io_disk i' !! "/w/tuf_metadata/root.json") as [x|]; [|discriminate H]. apply String.eqb_eq in H as ->. done.
Qed.
(** init and get after it *)
Example C100_then_get_case : match init_cmd (cli_env [("https://r/1.root.json", bytes_of (ex_root 1))]) "https://r" "" ex_now no_files with
    (i', Ok tt) => match get_cmd (cli_env top_files) cli_flags "top" ex_now (mkIos (io_disk i') []) with (_, Ok p) => p | _ => "" end | _ => "" end = "/w/tuf_download/top" /\ has_prefix "{" (bytes_of (ex_root 1)) = true.
Proof. vm_compute. split; reflexivity. Qed.

(** ** C102 *)
(** Whatever happens to reset, a file is as before, or it is gone and was in one of the two directories *)
Theorem C102_only {CR : Crypto} E force answers i i' o evs d q : reset_cmd E force answers i = (i', o) -> happened i i' evs -> crash (io_disk i) evs d ->
  d !! q = io_disk i !! q \/ (d !! q = None /\ exists cwd, e_cwd E = Some cwd /\ (within (metadata_dir cwd) q \/ within (download_dir cwd) q)).
Proof.
  intros (evs' & l & He & Hf & Hl)%reset_run Hh Hc. rewrite (happened_eq _ _ _ _ Hh (proj1 He)) in Hc. destruct (removal_crash l evs' _ d q Hf Hc) as [Hq|[Hq Hin]]; [by left|right]. split; [done|]. destruct (Hl q Hin) as (cwd & Hcwd & [[? _]|[? _]]); eauto.
Qed.
Print Assumptions C102_only.
(** Without --force nothing is removed from a directory unless its question has been answered with yes *)
Theorem C102_confirmed {CR : Crypto} E answers i i' o evs d q : reset_cmd E false answers i = (i', o) -> happened i i' evs -> crash (io_disk i) evs d -> d !! q <> io_disk i !! q ->
  exists cwd, e_cwd E = Some cwd /\ ((within (metadata_dir cwd) q /\ exists l, reply answers true l) \/ (within (download_dir cwd) q /\ exists b l l', reply answers b l /\ reply l true l')).
Proof.
  intros (evs' & l & He & Hf & Hl)%reset_run Hh Hc Hq. rewrite (happened_eq _ _ _ _ Hh (proj1 He)) in Hc. destruct (removal_crash l evs' _ d q Hf Hc) as [?|[_ Hin]]; [done|].
  destruct (Hl q Hin) as (cwd & Hcwd & [[Hw [[=]|(r & Hr)]]|[Hw [[=]|(b & r & r' & Hr & Hr')]]]); exists cwd; (split; [done|]); [left|right]; (split; [done|]).
  - exists r. by apply ask_reply.
  - exists b, r, r'. by rewrite <- !ask_reply.
Qed.
Print Assumptions C102_confirmed.
(** With --force, if files can be removed, both directories are empty afterwards *)
Theorem C102_forced {CR : Crypto} E answers i i' o cwd q : e_cwd E = Some cwd -> (forall tr, e_io E tr = true) -> reset_cmd E true answers i = (i', o) -> within (metadata_dir cwd) q \/ within (download_dir cwd) q -> o = Ok tt /\ io_disk i' !! q = None.
Proof. exact (reset_works E answers i i' o cwd q). Qed.
Print Assumptions C102_forced.
(** and get no longer works until the next init *)
Theorem C102_then_get {CR : Crypto} E answers i i' o cwd E2 f target now tr i2 o2 : e_cwd E = Some cwd -> (forall tr, e_io E tr = true) -> reset_cmd E true answers i = (i', o) -> e_cwd E2 = Some cwd ->
  get_cmd E2 f target now (mkIos (io_disk i') tr) = (i2, o2) -> forall p, o2 <> Ok p.
Proof.
  intros Hcwd Hio H Hcwd2 Hg. destruct (reset_works E answers i i' o cwd (trusted_root_file cwd) Hcwd Hio H) as [_ Hn]; [|exact (proj1 (get_needs_root E2 f target now (mkIos (io_disk i') tr) i2 o2 cwd Hcwd2 Hn Hg))]. left. right. exists "root.json". symmetry. exact (root_file_slash cwd).
Qed.
Print Assumptions C102_then_get.
(** reset works after a failed init, so that init can be run again *)
Theorem C102_then_init {CR : Crypto} E answers i i' o cwd : e_cwd E = Some cwd -> (forall tr, e_io E tr = true) -> reset_cmd E true answers i = (i', o) -> forall s, io_disk i' !! (metadata_dir cwd +:+ "/" +:+ s) = None.
Proof. intros Hcwd Hio H s. apply (reset_works E answers i i' o cwd _ Hcwd Hio H). left. right. by exists s. Qed.
Print Assumptions C102_then_init.
Definition reset_files := files_of (cli_files [("/w/tuf_download/top", "top file"); ("/w/mine", "keep"); ("/w/tuf_metadata2/x", "keep")]).
Example C102_case : map (fun a => match reset_cmd (cli_env []) false a reset_files with (i', o) => (map fst (map_to_list (io_disk i')), o) end)
    [[Some "maybe"; Some "Yes"; Some "n"]; [Some "N"; Some "y"]; [Some "no"]] =
  [(["/w/tuf_download/top"; "/w/tuf_metadata2/x"; "/w/mine"], Ok tt); (["/w/tuf_metadata2/x"; "/w/tuf_metadata/root.json"; "/w/mine"], Ok tt);
   (["/w/tuf_download/top"; "/w/tuf_metadata2/x"; "/w/tuf_metadata/root.json"; "/w/mine"], Err (EOther "exit"))].
Proof. vm_compute. reflexivity. Qed.
