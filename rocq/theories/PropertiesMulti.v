(** * C76-C79, C84-C88: the multi-repository client *)
From stdpp Require Import base gmap strings list.
From Coq Require Import ZArith Lia Ascii String.
From Verif Require Import GoBase GoStr Json GoTime Types Marshal Keys Glob Metadata TrustedMetadata Fetcher Updater MultiRepo SpecBasic SpecTrusted SpecUpdater SpecMulti.
From Verif Require Import TrustedProofs PathProofs MultiProofs Toy Examples ExamplesUpdater ExamplesMulti.
Open Scope Z_scope.

(** ** C76 *)
(** as stated it is refuted: A and B agree on one description, C gives another one, two are required, and C's is returned *)
Definition two_and_one := three [("x", "hello")] [("x", "hello")] [("x", "other file")].
Theorem C76_refuted : exists (CR : Crypto) E mc now s target s' info repos, accepted mc /\ mr_session E mc now s /\ mr_get_target_info E (mc_map mc) target s = (s', Ok (info, repos)) /\
  forall m, Some m ∈ slist (rm_mapping (mc_map mc)) -> Z.of_nat (List.length repos) < mp_threshold m.
Proof.
  destruct (mr_case two_and_one (map_all "2") [] (fun mc s => show_answer (mr_get_target_info two_and_one (mc_map mc) "x" s) = Some (10, ["C"]) /\ rm_mapping (mc_map mc) = Some [Some (mkMapping (Some ["*"]) (Some ["A"; "B"; "C"]) 2 true)])) as (mc & s & Ha & Hs & Hx & Hm).
  { vm_compute. split; reflexivity. }
  destruct (mr_get_target_info two_and_one (mc_map mc) "x" s) as [s' o] eqn:Hg. unfold show_answer in Hx. cbn [snd] in Hx. destruct o as [[info repos]| |]; [|done|done]. cbn [fst snd] in Hx. injection Hx as _ ->.
  exists toy_crypto, two_and_one, mc, ex_now, s, "x", s', info, ["C"]. split; [exact Ha|]. split; [exact Hs|]. split; [exact Hg|]. rewrite Hm. intros m [= ->]%elem_of_list_singleton. reflexivity.
Qed.
Print Assumptions C76_refuted.
(** the repositories returned are pairwise different repositories of a mapping with a matching pattern, all of which gave the
    returned description or one equal to it; some description was given by at least the threshold of them; if all
    answers agree it is the returned one *)
Theorem C76_consensus {CR : Crypto} E rm ms target s s' info repos : rm_mapping rm = Some (map Some ms) -> mr_get_target_info E rm target s = (s', Ok (info, repos)) ->
  exists m p s1 answers, m ∈ ms /\ p ∈ slist (mp_paths m) /\ glob_match p target = Ok true /\ called E target s s1 /\ asked E target (slist (mp_repos m)) s1 answers s' /\
    vouch answers info repos /\ (exists r, r ∈ repos /\ (r, info) ∈ answers) /\
    (exists info' repos' r', vouch answers info' repos' /\ (r', info') ∈ answers /\ mp_threshold m <= Z.of_nat (List.length repos')) /\
    ((forall r i r' i', (r, i) ∈ answers -> (r', i') ∈ answers -> targetfile_equal i i' = true) -> mp_threshold m <= Z.of_nat (List.length repos)).
Proof. exact (mr_info_ok E rm ms target s s' info repos). Qed.
Print Assumptions C76_consensus.
(** conversely, if the repositories that answer agree and are enough, their description is returned *)
Theorem C76_complete {CR : Crypto} E rm ms pre m p post target s s1 answers s2 info rs r0 : rm_mapping rm = Some (map Some ms) -> patterns ms = pre ++ (m, p) :: post -> passes E target pre s s1 ->
  glob_match p target = Ok true -> asked E target (slist (mp_repos m)) s1 answers s2 ->
  (forall r i r' i', (r, i) ∈ answers -> (r', i') ∈ answers -> targetfile_equal i i' = true) -> (r0, info) ∈ answers -> vouch answers info rs -> mp_threshold m <= Z.of_nat (List.length rs) ->
  exists info' repos r', mr_get_target_info E rm target s = (s2, Ok (info', repos)) /\ (r', info') ∈ answers /\ mp_threshold m <= Z.of_nat (List.length repos).
Proof. exact (mr_info_complete E rm ms pre m p post target s s1 answers s2 info rs r0). Qed.
Print Assumptions C76_complete.
(** an answer is what the repository's own client returns: an entry of verified metadata, reached through delegations *)
Theorem C76_answers {CR : Crypto} E mc now target s s1 r s2 info : mr_session E mc now s -> called E target s s1 -> ask E target r s1 = (s2, Ok (Some info)) ->
  exists cl role m, mr_clients s2 !! r = Some cl /\ made_for mc r cl /\ session E (cl_cfg cl) now (mkWorld (cl_trusted cl) (mr_io s2)) /\
    leads (cl_trusted cl) target "targets" role /\ t_targets (cl_trusted cl) !! role = Some m /\ entry m target (Some info) /\ tf_path info = target.
Proof. exact (ask_answer E mc now target s s1 r s2 info). Qed.
Print Assumptions C76_answers.
(** all three agree *)
Definition all_agree := three [("x", "hello")] [("x", "hello")] [("x", "hello")].
Example C76_case : exists mc s, accepted mc /\ mr_session all_agree mc ex_now s /\ show_answer (mr_get_target_info all_agree (mc_map mc) "x" s) = Some (5, ["A"; "B"; "C"]).
Proof. apply (mr_case _ (map_all "2") []). vm_compute. reflexivity. Qed.
(** the first mapping does not match, in the second one C does not have the target *)
Definition two_mappings := map_text "{""paths"":[""y*""],""repositories"":[""C""],""threshold"":1,""terminating"":true},{""paths"":[""z"",""x*""],""repositories"":[""C"",""B"",""A""],""threshold"":2,""terminating"":false}".
Definition c_without := three [("x", "hello")] [("x", "hello")] [("y", "other file")].
Example C76_second_case : exists mc s, accepted mc /\ mr_session c_without mc ex_now s /\ show_answer (mr_get_target_info c_without (mc_map mc) "x" s) = Some (5, ["B"; "A"]).
Proof. apply (mr_case _ two_mappings [MrRefresh]). vm_compute. reflexivity. Qed.

(** ** C77 *)
Theorem C77_conflict {CR : Crypto} E rm ms pre m p post target s s1 answers s2 info1 rs1 r1 info2 rs2 r2 : rm_mapping rm = Some (map Some ms) -> patterns ms = pre ++ (m, p) :: post -> passes E target pre s s1 ->
  glob_match p target = Ok true -> asked E target (slist (mp_repos m)) s1 answers s2 -> comparable answers ->
  (r1, info1) ∈ answers -> vouch answers info1 rs1 -> mp_threshold m <= Z.of_nat (List.length rs1) ->
  (r2, info2) ∈ answers -> vouch answers info2 rs2 -> mp_threshold m <= Z.of_nat (List.length rs2) -> targetfile_equal info1 info2 = false ->
  mr_get_target_info E rm target s = (s2, Err (EOther "more than one target info matching the necessary threshold value")).
Proof. exact (mr_info_conflict E rm ms pre m p post target s s1 answers s2 info1 rs1 r1 info2 rs2 r2). Qed.
Print Assumptions C77_conflict.
(** nothing after a terminating mapping without consensus is consulted *)
Theorem C77_terminating {CR : Crypto} E rm ms pre m p post target s s1 answers s2 : rm_mapping rm = Some (map Some ms) -> patterns ms = pre ++ (m, p) :: post -> passes E target pre s s1 ->
  glob_match p target = Ok true -> asked E target (slist (mp_repos m)) s1 answers s2 -> (forall info rs, vouch answers info rs -> Z.of_nat (List.length rs) < mp_threshold m) -> mp_terminating m = true ->
  mr_get_target_info E rm target s = (s2, Err (EOther "target info not found")).
Proof. exact (mr_info_terminating E rm ms pre m p post target s s1 answers s2). Qed.
Print Assumptions C77_terminating.
(** A and B give different descriptions, one is enough *)
Example C77_conflict_case : exists mc s, accepted mc /\ mr_session two_and_one mc ex_now s /\
  show_err (mr_get_target_info two_and_one (mc_map mc) "x" s) = Some (EOther "more than one target info matching the necessary threshold value").
Proof. apply (mr_case _ (map_all "1") []). vm_compute. reflexivity. Qed.
Definition then_another (term : string) := map_text ("{""paths"":[""x""],""repositories"":[""A"",""C""],""threshold"":2,""terminating"":" +:+ term +:+ "},{""paths"":[""*""],""repositories"":[""A"",""B""],""threshold"":2,""terminating"":false}").
Example C77_terminating_case : exists mc s, accepted mc /\ mr_session two_and_one mc ex_now s /\ show_err (mr_get_target_info two_and_one (mc_map mc) "x" s) = Some (EOther "target info not found").
Proof. apply (mr_case _ (then_another "true") []). vm_compute. reflexivity. Qed.
Example C77_not_terminating_case : exists mc s, accepted mc /\ mr_session two_and_one mc ex_now s /\ show_answer (mr_get_target_info two_and_one (mc_map mc) "x" s) = Some (5, ["A"; "B"]).
Proof. apply (mr_case _ (then_another "false") []). vm_compute. reflexivity. Qed.

(** ** C78 *)
Theorem C78_verified {CR : Crypto} E repos tf fp u s s' p data : mr_download_target E repos tf fp u s = (s', Ok (p, data)) ->
  matches_target tf data /\ exists pre r post s1 cl evs, repos = pre ++ r :: post /\ given_up E tf fp u pre s s1 /\ mr_clients s1 !! r = Some cl /\ file_for E (cl_cfg cl) tf fp p /\
    happened (mr_io s1) (mr_io s') evs /\
    ((io_disk (mr_io s1) !! p = Some data /\ data <> "" /\ forall e, e ∈ evs -> exists q x, e = EvRead q x) \/
     (exists url, gets evs = [(url, Ok data)])).
Proof. exact (mr_download_ok E repos tf fp u s s' p data). Qed.
Print Assumptions C78_verified.
(** A serves something else, B serves the file *)
Definition one_serves := join_env (("https://a/targets/" +:+ hex_encode (sha256 "hello") +:+ ".x", "jello") :: ("https://b/targets/" +:+ hex_encode (sha256 "hello") +:+ ".x", "hello") ::
  files_at "https://a" (simple [("x", "hello")]) ++ files_at "https://b" (simple [("x", "hello")]) ++ files_at "https://c" (simple [("x", "hello")])).
Definition hello_x : targetfile := mkTargetFile 5 (Some {["sha256" := sha256 "hello"]}) None "x" None.
Example C78_case : exists mc s, accepted mc /\ mr_session one_serves mc ex_now s /\
  match mr_download_target one_serves ["C"; "A"; "B"] hello_x "" "" s with (s', Ok (p, data)) => p = "/t/x" /\ data = "hello" /\ io_disk (mr_io s') !! "/t/x" = Some "hello" | _ => False end.
Proof. apply (mr_case _ (map_all "2") [MrRefresh]). vm_compute. repeat split; reflexivity. Qed.
(** then it is in the cache *)
Example C78_cached_case : exists mc s, accepted mc /\ mr_session one_serves mc ex_now s /\
  match mr_download_target one_serves ["C"] hello_x "" "" s with (s', Ok (p, data)) => p = "/t/x" /\ data = "hello" | _ => False end.
Proof. apply (mr_case _ (map_all "2") [MrRefresh; MrDownloadTarget ["C"; "A"; "B"] hello_x "" ""]). vm_compute. repeat split; reflexivity. Qed.

(** ** C79 *)
Theorem C79_roots data roots mc : mr_new_config data roots = Ok mc -> mc_roots mc = roots /\ (forall n urls, mget (rm_repos (mc_map mc)) n = Some urls -> is_Some (mget roots n)) /\ data <> "" /\ mmap roots <> ∅.
Proof. exact (new_config_ok data roots mc). Qed.
Print Assumptions C79_roots.
(** at any time there is one client for each repository, made with this repository's trusted root, first URL and directory *)
Theorem C79_clients {CR : Crypto} E mc now s : mr_session E mc now s -> (forall n, is_Some (mr_clients s !! n) <-> is_Some (mget (rm_repos (mc_map mc)) n)) /\
  (forall n cl, mr_clients s !! n = Some cl -> made_for mc n cl /\ session E (cl_cfg cl) now (mkWorld (cl_trusted cl) (mr_io s))).
Proof. exact (fun H => let '(conj Hs (conj Hm Hd)) := mr_session_inv E mc now s H in conj Hd (fun n cl Hn => conj (Hm n cl Hn) (Hs n cl Hn))). Qed.
Print Assumptions C79_clients.
Example C79_case : exists mc s, accepted mc /\ mr_session all_agree mc ex_now s /\ map fst (map_to_list (mr_clients s)) = ["B"; "A"; "C"].
Proof. apply (mr_case _ (map_all "2") []). vm_compute. reflexivity. Qed.
(** a repository without trusted root *)
Example C79_missing_case : mr_new_config (map_all "2") (Some {["A" := "x"]}) = Err (EOther "no trusted root metadata provided for repository").
Proof. vm_compute. reflexivity. Qed.

(** ** C84 *)
(** refuted: a mapping that names an unknown repository, a null mapping, a repository without URL, a null map file *)
Definition unknown_repo := map_text "{""paths"":[""x""],""repositories"":[""A"",""D""],""threshold"":1,""terminating"":true}".
Theorem C84_unknown_refuted : exists (CR : Crypto) E mc now s target s', accepted mc /\ mr_session E mc now s /\ mr_get_target_info E (mc_map mc) target s = (s', Panic).
Proof.
  destruct (mr_case all_agree unknown_repo [MrRefresh] (fun mc s => panics (mr_get_target_info all_agree (mc_map mc) "x" s) = true)) as (mc & s & Ha & Hs & Hx). { vm_compute. reflexivity. }
  destruct (mr_get_target_info all_agree (mc_map mc) "x" s) as [s' o] eqn:Hg. unfold panics in Hx. cbn [snd] in Hx. destruct o; [done|done|]. exists toy_crypto, all_agree, mc, ex_now, s, "x", s'. split; [exact Ha|]. split; [exact Hs|exact Hg].
Qed.
Print Assumptions C84_unknown_refuted.
Theorem C84_null_mapping_refuted : exists (CR : Crypto) E mc now s target s', accepted mc /\ mr_session E mc now s /\ mr_get_target_info E (mc_map mc) target s = (s', Panic).
Proof.
  destruct (mr_case all_agree (map_text "null") [MrRefresh] (fun mc s => panics (mr_get_target_info all_agree (mc_map mc) "x" s) = true)) as (mc & s & Ha & Hs & Hx). { vm_compute. reflexivity. }
  destruct (mr_get_target_info all_agree (mc_map mc) "x" s) as [s' o] eqn:Hg. unfold panics in Hx. cbn [snd] in Hx. destruct o; [done|done|]. exists toy_crypto, all_agree, mc, ex_now, s, "x", s'. split; [exact Ha|]. split; [exact Hs|exact Hg].
Qed.
Print Assumptions C84_null_mapping_refuted.
Theorem C84_no_url_refuted : exists (CR : Crypto) E mc now i i', accepted mc /\ mr_new E now mc i = (i', Panic).
Proof.
  enough (match ex_mrconfig "{""repositories"":{""A"":[]},""mapping"":[]}" with Some mc => match mr_new all_agree ex_now mc no_files with (_, Panic) => True | _ => False end | None => False end) as H.
  { destruct (ex_mrconfig _) as [mc|] eqn:Hc; [|done]. destruct (mr_new all_agree ex_now mc no_files) as [i' [?|?|]] eqn:Hn; [done|done|]. exists toy_crypto, all_agree, mc, ex_now, no_files, i'. split; [exact (ex_accepted _ _ Hc)|exact Hn]. }
  vm_compute. exact I.
Qed.
Print Assumptions C84_no_url_refuted.
Theorem C84_null_map_refuted roots : mmap roots <> ∅ -> mr_new_config "null" roots = Panic.
Proof. intros H. unfold mr_new_config. rewrite bool_decide_eq_false_2 by done. vm_compute. reflexivity. Qed.
Print Assumptions C84_null_map_refuted.
(** otherwise a panic of a search is that of the search of a single repository's client *)
Theorem C84_searches {CR : Crypto} E mc now target s s' : mr_session E mc now s -> well_named (mc_map mc) -> mr_get_target_info E (mc_map mc) target s = (s', Panic) ->
  exists s1 r cl w', called E target s s1 /\ mr_clients s1 !! r = Some cl /\ get_target_info E (cl_cfg cl) target (mkWorld (cl_trusted cl) (mr_io s1)) = (w', Panic).
Proof. exact (mr_info_panic E mc now target s s'). Qed.
Print Assumptions C84_searches.
Example C84_case : exists mc s, accepted mc /\ mr_session all_agree mc ex_now s /\ well_named (mc_map mc).
Proof.
  destruct (mr_case all_agree (map_all "2") [] (fun mc s => forallb (fun om => match om with Some m => forallb (fun r => bool_decide (is_Some (mget (rm_repos (mc_map mc)) r))) (slist (mp_repos m)) | None => false end) (slist (rm_mapping (mc_map mc))) = true)) as (mc & s & Ha & Hs & Hx).
  { vm_compute. reflexivity. }
  exists mc, s. split; [exact Ha|]. split; [exact Hs|]. intros om Hom. rewrite forallb_forall in Hx. apply elem_of_list_In in Hom. specialize (Hx om Hom). destruct om as [m|]; [|discriminate Hx]. exists m. split; [reflexivity|].
  intros r Hr. rewrite forallb_forall in Hx. apply elem_of_list_In in Hr. specialize (Hx r Hr). exact (bool_decide_eq_true_1 _ Hx).
Qed.

(** ** C85 *)
(** what is returned was found by GetTargetInfo on the way; all targets the clients' top-level metadata lists are there and
    no others *)
Theorem C85_top_level {CR : Crypto} E rm s s' result : mr_top_level_targets E rm s = (s', Ok result) ->
  (forall n tf, result !! n = Some tf -> exists s1 s2 repos, later E rm s s1 /\ mr_get_target_info E rm n s1 = (s2, Ok (tf, repos))) /\
  (forall r cl m n o, mr_clients s !! r = Some cl -> t_targets (cl_trusted cl) !! "targets" = Some m -> entry m n o -> is_Some (result !! n)) /\
  (forall n, is_Some (result !! n) -> exists r s1 cl m o, later E rm s s1 /\ mr_clients s1 !! r = Some cl /\ t_targets (cl_trusted cl) !! "targets" = Some m /\ entry m n o).
Proof. exact (mr_top_level_ok E rm s s' result). Qed.
Print Assumptions C85_top_level.
Definition more_files := three [("x", "hello"); ("y", "other file")] [("x", "hello"); ("y", "other file")] [("x", "hello")].
Example C85_case : exists mc s, accepted mc /\ mr_session more_files mc ex_now s /\
  match mr_top_level_targets more_files (mc_map mc) s with (s', Ok l) => map (fun p => (p.1, tf_length p.2)) (map_to_list l) = [("x", 5); ("y", 10)] | _ => False end.
Proof. apply (mr_case _ (map_all "2") [MrRefresh]). vm_compute. reflexivity. Qed.
(** refuted that targets without consensus are left out: one of them makes the call fail although the others have one *)
Definition one_without := three [("x", "hello"); ("y", "other file")] [("x", "hello")] [("x", "hello")].
Theorem C85_skips_refuted : exists (CR : Crypto) E mc now s s1 e n s2 g, accepted mc /\ mr_session E mc now s /\ mr_top_level_targets E (mc_map mc) s = (s1, Err e) /\ mr_get_target_info E (mc_map mc) n s = (s2, Ok g).
Proof.
  destruct (mr_case one_without (map_all "2") [MrRefresh] (fun mc s => show_err (mr_top_level_targets one_without (mc_map mc) s) = Some (EOther "target info not found") /\ show_answer (mr_get_target_info one_without (mc_map mc) "x" s) = Some (5, ["A"; "B"; "C"]))) as (mc & s & Ha & Hs & Hx & Hy).
  { vm_compute. split; reflexivity. }
  destruct (mr_top_level_targets one_without (mc_map mc) s) as [s1 o1] eqn:H1. destruct (mr_get_target_info one_without (mc_map mc) "x" s) as [s2 o2] eqn:H2. unfold show_err in Hx. unfold show_answer in Hy. cbn [snd] in Hx, Hy.
  destruct o1 as [?|e|]; [done| |done]. destruct o2 as [g|?|]; [|done|done]. exists toy_crypto, one_without, mc, ex_now, s, s1, e, "x", s2, g. split; [exact Ha|]. split; [exact Hs|]. split; [exact H1|exact H2].
Qed.
Print Assumptions C85_skips_refuted.

(** ** C86 *)
Theorem C86_refresh {CR : Crypto} E mc now s s' : mr_session E mc now s -> mr_call E (mc_map mc) MrRefresh s = (s', Ok tt) ->
  forall n cl, mr_clients s' !! n = Some cl -> t_ref (cl_trusted cl) = now /\ top_level_set (cl_trusted cl).
Proof. exact (fun Hs H => mr_refresh_ok E now s s' (proj1 (mr_session_inv E mc now s Hs)) H). Qed.
Print Assumptions C86_refresh.
Example C86_case : exists mc s, accepted mc /\ mr_session all_agree mc ex_now s /\
  match mr_call all_agree (mc_map mc) MrRefresh s with (s', Ok tt) => map (fun p => (p.1, loaded_roles (cl_trusted p.2))) (map_to_list (mr_clients s')) = [("B", (1, Some 1, Some 1, [("targets", 1)])); ("A", (1, Some 1, Some 1, [("targets", 1)])); ("C", (1, Some 1, Some 1, [("targets", 1)]))] | _ => False end.
Proof. apply (mr_case _ (map_all "2") []). vm_compute. reflexivity. Qed.

(** ** C87 *)
(** refuted: A and ./A *)
Definition dotted := "{""repositories"":{""A"":[""https://a""],""./A"":[""https://b""]},""mapping"":[]}".
Definition dotted_roots : gomap string := Some (list_to_map [("A", bytes_of (ex_root 1)); ("./A", bytes_of (ex_root 1))]).
Theorem C87_refuted : exists (CR : Crypto) E mc now s n1 cl1 n2 cl2, accepted mc /\ mr_session E mc now s /\ mr_clients s !! n1 = Some cl1 /\ mr_clients s !! n2 = Some cl2 /\ n1 <> n2 /\ c_metadata_dir (cl_cfg cl1) = c_metadata_dir (cl_cfg cl2).
Proof.
  enough (match mr_new_config dotted dotted_roots with Ok mc0 => let mc := mkMrConfig (mc_map mc0) (mc_roots mc0) "/m" "/t" false in
    match mr_started all_agree mc [] with Some s => match mr_clients s !! "A", mr_clients s !! "./A" with Some cl1, Some cl2 => c_metadata_dir (cl_cfg cl1) = c_metadata_dir (cl_cfg cl2) | _, _ => False end | None => False end | _ => False end) as H.
  { destruct (mr_new_config dotted dotted_roots) as [mc0| |] eqn:Hc; [|done|done]. cbv zeta in H. destruct (mr_started all_agree _ []) as [s|] eqn:Hs; [|done]. destruct (mr_clients s !! "A") as [cl1|] eqn:H1; [|done]. destruct (mr_clients s !! "./A") as [cl2|] eqn:H2; [|done].
    exists toy_crypto, all_agree, (mkMrConfig (mc_map mc0) (mc_roots mc0) "/m" "/t" false), ex_now, s, "A", cl1, "./A", cl2. split; [exists dotted, dotted_roots, mc0; split; [exact Hc|split; reflexivity]|]. split; [exact (mr_started_session _ _ _ _ Hs)|]. split; [exact H1|]. split; [exact H2|]. split; [discriminate|exact H]. }
  vm_compute. reflexivity.
Qed.
Print Assumptions C87_refuted.
(** true of names that are not empty, . or .. and have no slash *)
Theorem C87_plain {CR : Crypto} E mc now s n1 n2 cl1 cl2 : mr_session E mc now s -> mr_clients s !! n1 = Some cl1 -> mr_clients s !! n2 = Some cl2 -> plain_name n1 -> plain_name n2 ->
  c_metadata_dir (cl_cfg cl1) = c_metadata_dir (cl_cfg cl2) -> n1 = n2.
Proof. exact (fun Hs H1 H2 => let '(conj _ (conj Hm _)) := mr_session_inv E mc now s Hs in metadata_dirs mc n1 n2 cl1 cl2 (Hm n1 cl1 H1) (Hm n2 cl2 H2)). Qed.
Print Assumptions C87_plain.
Example C87_case : exists mc s, accepted mc /\ mr_session all_agree mc ex_now s /\ map (fun p => c_metadata_dir (cl_cfg p.2)) (map_to_list (mr_clients s)) = ["/m/B"; "/m/A"; "/m/C"].
Proof. apply (mr_case _ (map_all "2") []). vm_compute. reflexivity. Qed.

(** ** C88 *)
(** refuted when files are cached: without LocalTargetsDir New does not succeed, unless there are no repositories *)
Theorem C88_refuted {CR : Crypto} E now mc i i' cls : mr_new E now mc i = (i', Ok cls) -> mc_targets_dir mc = "" -> mc_disable_cache mc = false -> cls = ∅.
Proof. exact (mr_new_no_dir E now mc i i' cls). Qed.
Print Assumptions C88_refuted.
Definition no_targets_dir (off : bool) : option mrconfig := match mr_new_config (map_all "2") ex_roots with Ok mc => Some (mkMrConfig (mc_map mc) (mc_roots mc) "/m" "" off) | _ => None end.
Example C88_refuted_case : match no_targets_dir false with Some mc => match mr_new all_agree ex_now mc no_files with (_, Err e) => e = EOther "mkdir" | _ => False end | None => False end.
Proof. vm_compute. reflexivity. Qed.
(** the directories otherwise *)
Theorem C88_dirs {CR : Crypto} E mc now s n cl : mr_session E mc now s -> mr_clients s !! n = Some cl ->
  c_targets_dir (cl_cfg cl) = (if String.eqb (mc_targets_dir mc) "" then path_join [path_join [mc_metadata_dir mc; n]; "targets"] else mc_targets_dir mc).
Proof. exact (fun Hs H => let '(conj _ (conj Hm _)) := mr_session_inv E mc now s Hs in let '(ex_intro _ _ (ex_intro _ _ (ex_intro _ _ (conj _ (conj _ (conj _ (conj _ (conj _ (conj _ Ht))))))))) := Hm n cl H in Ht). Qed.
Print Assumptions C88_dirs.
Example C88_case : match no_targets_dir true with Some mc => match mr_started all_agree mc [] with Some s => map (fun p => c_targets_dir (cl_cfg p.2)) (map_to_list (mr_clients s)) = ["/m/B/targets"; "/m/A/targets"; "/m/C/targets"] | None => False end | None => False end.
Proof. vm_compute. reflexivity. Qed.
