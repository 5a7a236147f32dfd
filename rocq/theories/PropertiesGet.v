(** * Property C123: the example client gets every target of a repository that publishes *)
From stdpp Require Import base gmap strings list.
From Coq Require Import ZArith Lia Ascii String.
From Verif Require Import GoBase GoStr GoTime Types Marshal Keys Metadata TrustedMetadata Fetcher Updater Cli SpecBasic SpecSig SpecDeleg SpecTrusted SpecUpdater SpecHistory SpecReach SpecLive SpecCli SpecGet.
From Verif Require Import StrProofs PathProofs CleanProofs BasicProofs EventProofs RefreshProofs BlockProofs ClaimProofs HistoryProofs ReachProofs LiveProofs LifeProofs CliProofs InitProofs GetProofs Toy Examples ExamplesUpdater ExamplesHonest PropertiesReach PropertiesLive PropertiesCli.
Open Scope Z_scope.

(** In a directory with a root file, and while a repository that this root leads to is publishing at --url (and --turl),
    get succeeds for every target that is in all its releases: it prints the target's place in the download directory,
    and the file there fits the description that one of the releases has for it. *)
Theorem C123_get {CR : Crypto} E f cwd root c r0 r now Rs i target u : e_cwd E = Some cwd -> has_prefix "/" cwd = true -> plain_base (download_dir cwd) = true -> target ∉ [""; "."; ".."] ->
  url_join E (g_url f) "targets" = Ok u -> io_disk i !! trusted_root_file cwd = Some root -> get_settings f cwd root c ->
  publishing E c (io_trace i) r0 r now Rs -> client_ready E c r0 r now Rs i -> (forall R, R ∈ Rs -> exists tf data, offers r now R target tf data) ->
  exists R tf data i' d, R ∈ Rs /\ offers r now R target tf data /\ get_cmd E f target now i = (i', Ok (download_dir cwd +:+ "/" +:+ query_escape target)) /\
    io_disk i' !! (download_dir cwd +:+ "/" +:+ query_escape target) = Some d /\ matches_target tf d /\ matches_target tf data.
Proof. intros H1 H2 H3 Ht. apply (get_live E f cwd root c r0 r now Rs i target u); try done; intros ->; apply Ht; set_solver. Qed.
Print Assumptions C123_get.
(** init succeeds in an empty directory if the server has self-signed root metadata, and makes these the root file *)
Theorem C123_init {CR : Crypto} E url now i cwd u root (r0 : metadata root_t) : e_cwd E = Some cwd -> has_prefix "/" cwd = true -> (forall tr, e_io E tr = true) ->
  (forall s, io_disk i !! (metadata_dir cwd +:+ "/" +:+ s) = None) -> (forall s, io_disk i !! (download_dir cwd +:+ "/" +:+ s) = None) ->
  url_join E url "1.root.json" = Ok u -> serves_from E (io_trace i) u root -> Z.of_nat (String.length root) < 2 ^ 63 -> document root r0 -> root_signs r0 "root" r0 ->
  exists i', init_cmd E url "" now i = (i', Ok tt) /\ io_disk i' = <[trusted_root_file cwd := root]> (io_disk i) /\ later (io_trace i) (io_trace i').
Proof. apply init_live. Qed.
Print Assumptions C123_init.
(** the first use: init in an empty directory, and get at any time after it *)
Theorem C123_first_use {CR : Crypto} E f cwd root c r0 r now0 now Rs i target u u1 : e_cwd E = Some cwd -> has_prefix "/" cwd = true -> plain_base (download_dir cwd) = true -> target ∉ [""; "."; ".."] -> (forall tr, e_io E tr = true) ->
  (forall s, io_disk i !! (metadata_dir cwd +:+ "/" +:+ s) = None) -> (forall s, io_disk i !! (download_dir cwd +:+ "/" +:+ s) = None) -> (forall n, io_disk i !! (cwd +:+ "/tuf_tmp" +:+ fmt_dec n) = None) ->
  url_join E (g_url f) "targets" = Ok u -> url_join E (g_url f) "1.root.json" = Ok u1 -> serves_from E (io_trace i) u1 root -> Z.of_nat (String.length root) < 2 ^ 63 ->
  document root r0 -> root_signs r0 "root" r0 -> g_url f <> "" -> root <> "" ->
  get_settings f cwd root c -> publishing E c (io_trace i) r0 r now Rs -> (forall R, R ∈ Rs -> (forall name fr, rel_roles R !! name = Some fr -> role_name_ok name) /\ exists tf data, offers r now R target tf data) ->
  exists i', init_cmd E (g_url f) "" now0 i = (i', Ok tt) /\ forall tr, later (io_trace i') tr ->
    exists R tf data i2 d, R ∈ Rs /\ offers r now R target tf data /\ get_cmd E f target now (mkIos (io_disk i') tr) = (i2, Ok (download_dir cwd +:+ "/" +:+ query_escape target)) /\
      io_disk i2 !! (download_dir cwd +:+ "/" +:+ query_escape target) = Some d /\ matches_target tf d /\ matches_target tf data.
Proof.
  intros Hcwd Hrt Hb Ht Hio He1 He2 He3 Hu Hu1 Hs Hlen Hdoc Hsig Hgu Hne Hset Hpub Hoff. destruct (C123_init E (g_url f) now0 i cwd u1 root r0) as (i' & Hi & Hd & Hl); try done. exists i'. split; [done|]. intros tr Htr.
  apply (C123_get E f cwd root c r0 r now Rs (mkIos (io_disk i') tr) target u); try done; cbn [io_disk io_trace].
  - rewrite Hd. apply (lookup_insert (M := gmap string)).
  - eapply publishing_later; [|exact Hpub]. by eapply later_trans.
  - pose proof Hset as (Hrd & Hmd & Htd & Hmu & _).
    assert (forall role, role <> "root" -> io_disk i' !! cache_name c role = None) as Hno.
    { intros role Hr. rewrite Hd. eapply eq_trans; [apply (lookup_insert_ne (M := gmap string))|].
      - intros Hx. apply Hr, (cache_name_inj c). rewrite <- Hx. unfold trusted_root_file, root_json, cache_name. rewrite Hmd. reflexivity.
      - unfold cache_name, json_of. rewrite Hmd. unfold metadata_dir. rewrite <- join_slash by (apply tuf_metadata_plain || apply json_plain, query_escape_no_slash). apply He1. }
    split; [by rewrite Hrd|]. split; [done|]. split; [by rewrite Hmu|]. split; [by rewrite Hrd|]. split.
    + right. split_and!; [| |done|].
      * rewrite Hmd. intros Hx. pose proof (rooted_root_file cwd Hrt) as Hy. unfold trusted_root_file, root_json in Hy. by rewrite Hx in Hy.
      * rewrite Htd. intros Hx. pose proof (rooted_download cwd Hrt) as Hy. by rewrite Hx in Hy.
      * exists cwd. split; [done|]. intros n. cbn [io_disk]. rewrite Hd. eapply eq_trans; [apply (lookup_insert_ne (M := gmap string))|apply He3]. intros Hx. destruct (cache_name_json c "root") as (s & Hcs).
        apply (tmp_not_json E (cwd +:+ "/tuf_tmp" +:+ fmt_dec n) s); [by exists cwd, n|]. rewrite <- Hx, <- Hcs. unfold trusted_root_file, root_json, cache_name. rewrite Hmd. reflexivity.
    + assert (forall role data (P : Prop), role <> "root" -> io_disk i' !! cache_name c role = Some data -> P) as Hany by (intros role data P Hr Hx; rewrite (Hno role Hr) in Hx; discriminate Hx).
      intros R HR. cbn [io_disk]. split; [|split; [|split]].
      * intros data. by apply Hany.
      * intros data. by apply Hany.
      * intros data. by apply Hany.
      * intros name fr data Hf. apply Hany. destruct (Hoff R HR) as [Hok _]. destruct (Hok name fr Hf) as [_ Hnn]. intros ->. apply Hnn. set_solver.
  - intros R HR. by apply Hoff.
Qed.
Print Assumptions C123_first_use.

(** ** A concrete case *)
(** a server with the root metadata that init asks for, release 4, and release 5 after [T] events *)
Definition get_before := ("https://r/1.root.json", bytes_of (ex_root 1)) :: lv_before.
Definition get_after := ("https://r/1.root.json", bytes_of (ex_root 1)) :: lv_after.
Definition get_env (T : nat) : env :=
  mkEnv (e_net (phased get_before get_after T)) (fun _ => true) (fun _ => None) (Some "/w") (fun tr => Z.of_nat (List.length tr)) slash_join keep_order keep_order_perm.
Definition get_flags_ex : get_flags := mkFlags "https://r" "https://t" false.
Definition get_conf (root : string) : config := mkConfig 32 32 512000 16384 2000000 5000000 root "/w/tuf_metadata" "/w/tuf_download" "https://r" "https://t" false true false.
Definition get_c : config := get_conf (bytes_of (ex_root 1)).
Lemma get_conf_root root : c_trusted_root (get_conf root) = root.
Proof. reflexivity. Qed.
Lemma get_conf_settings root : get_settings get_flags_ex "/w" root (get_conf root).
Proof. split; [reflexivity|]. split; [vm_compute; reflexivity|]. split; [vm_compute; reflexivity|]. split; [reflexivity|]. split; [intros [=]|]. split; [reflexivity|]. split; [split; reflexivity|]. do 7 (split; [reflexivity|]). reflexivity. Qed.
Lemma find_first u d l : find_file ((u, d) :: l) u = Some d.
Proof. cbn. by rewrite String.eqb_refl. Qed.
Lemma phased_publishing T r0 r R R' : timeline (phased get_before get_after T) get_c r0 r (fun _ => ex_now) [R; R'] (lv_number T) -> (0 < T)%nat -> publishing (get_env T) get_c [] r0 r ex_now [R; R'].
Proof. intros H HT. pose proof (line_publishing _ _ _ _ _ _ _ H no_files) as Hp. destruct T; [lia|exact Hp]. Qed.
Example C123_case T : (0 < T)%nat -> exists r0 r R R' tf tf', let E := get_env T in
  e_cwd E = Some "/w" /\ has_prefix "/" "/w" = true /\ plain_base (download_dir "/w") = true /\ "a/x" ∉ [""; "."; ".."] /\ (forall tr, e_io E tr = true) /\
  (forall s, io_disk no_files !! (metadata_dir "/w" +:+ "/" +:+ s) = None) /\ (forall s, io_disk no_files !! (download_dir "/w" +:+ "/" +:+ s) = None) /\ (forall n, io_disk no_files !! ("/w" +:+ "/tuf_tmp" +:+ fmt_dec n) = None) /\
  url_join E (g_url get_flags_ex) "targets" = Ok "https://r/targets" /\ url_join E (g_url get_flags_ex) "1.root.json" = Ok "https://r/1.root.json" /\
  serves_from E (io_trace no_files) "https://r/1.root.json" (bytes_of (ex_root 1)) /\ Z.of_nat (String.length (bytes_of (ex_root 1))) < 2 ^ 63 /\
  document (bytes_of (ex_root 1)) r0 /\ root_signs r0 "root" r0 /\ g_url get_flags_ex <> "" /\ bytes_of (ex_root 1) <> "" /\
  get_settings get_flags_ex "/w" (bytes_of (ex_root 1)) get_c /\ publishing E get_c (io_trace no_files) r0 r ex_now [R; R'] /\
  (forall X, X ∈ [R; R'] -> (forall name fr, rel_roles X !! name = Some fr -> role_name_ok name) /\ exists tf data, offers r ex_now X "a/x" tf data) /\
  offers r ex_now R "a/x" tf "hello" /\ offers r ex_now R' "a/x" tf' "world" /\ newer R R'.
Proof.
  intros HT.
  destruct (release_check get_c get_before get_after get_before (lv_static 4 "hello") (bytes_of (ex_root 2)) (bytes_of (lv_timestamp 4 "hello")) (bytes_of (lv_snapshot 4 "hello")) (bytes_of (lv_targets 4)) (lv_roles 4 "hello") "hello") as (r0 & r & R & tf & A1 & A2 & A3 & A4 & A5 & A6 & A6' & A7 & A8 & A9 & A10 & A11 & A12).
  { reflexivity. } { vm_compute. reflexivity. } { vm_compute. reflexivity. } { vm_compute. reflexivity. }
  destruct (release_check get_c get_before get_after get_after (lv_static 5 "world") (bytes_of (ex_root 2)) (bytes_of (lv_timestamp 5 "world")) (bytes_of (lv_snapshot 5 "world")) (bytes_of (lv_targets 5)) (lv_roles 5 "world") "world") as (r0' & r' & R' & tf' & B1 & B2 & B3 & B4 & B5 & B6 & B6' & B7 & B8 & B9 & B10 & B11 & B12).
  { reflexivity. } { vm_compute. reflexivity. } { vm_compute. reflexivity. } { vm_compute. reflexivity. }
  assert (r0' = r0) as -> by exact (document_same _ _ _ B1 A1). assert (r' = r) as -> by exact (document_same _ _ _ B3 A3). exists r0, r, R, R', tf, tf'. cbv zeta.
  assert (document (bytes_of (ex_root 1)) r0) as Hdoc by (rewrite <- (get_conf_root (bytes_of (ex_root 1))); exact A1).
  assert (newer R R') as Hnew. { apply (newer_check get_c r0 r ex_now R R' (lv_roles 4 "hello") (lv_roles 5 "world")); try assumption. rewrite A5, A6, A6', B5, B6. vm_compute. reflexivity. }
  assert (timeline (phased get_before get_after T) get_c r0 r (fun _ => ex_now) [R; R'] (lv_number T)) as Hline.
  { apply phased_timeline; try assumption.
    - rewrite A4, B4. reflexivity.
    - intros tr. apply A12. intros tr' url d _ Hs. destruct (Nat.ltb (List.length tr') T); (apply (more_ok (lv_static 4 "hello")); [vm_compute; reflexivity|exact Hs]).
    - intros tr Htr. apply B12. intros tr' url d (evs & ->) Hs. rewrite (proj2 (Nat.ltb_ge _ _)) by (rewrite app_length; lia). apply (more_ok (lv_static 5 "world")); [vm_compute; reflexivity|exact Hs]. }
  assert (offers r ex_now R "a/x" tf "hello") as Ho.
  { destruct A10 as (K1 & K2 & K3 & K4 & K5). split; [exact K1|]. split; [exact K2|]. split; [rewrite K3; cbn; lia|]. split; [exact K4|]. split; [exact K5|]. rewrite A7. apply elem_of_list_here. }
  assert (offers r ex_now R' "a/x" tf' "world") as Ho'.
  { destruct B10 as (K1 & K2 & K3 & K4 & K5). split; [exact K1|]. split; [exact K2|]. split; [rewrite K3; cbn; lia|]. split; [exact K4|]. split; [exact K5|]. rewrite B7. apply elem_of_list_here. }
  assert (forall x, io_disk no_files !! x = None) as Hemp by (intros x; apply (lookup_empty (M := gmap string))).
  split; [reflexivity|]. split; [reflexivity|]. split; [vm_compute; reflexivity|]. split; [by intros [[=]|[[=]|[[=]|[]%elem_of_nil]%elem_of_cons]%elem_of_cons]%elem_of_cons|]. split; [reflexivity|].
  split; [intros s; apply Hemp|]. split; [intros s; apply Hemp|]. split; [intros s; apply Hemp|]. split; [vm_compute; reflexivity|]. split; [vm_compute; reflexivity|].
  split. { intros tr len _ Hlen. unfold get_env, phased; cbn [e_net]. destruct (Nat.ltb (List.length tr) T); apply serve_found; [apply find_first|exact Hlen|apply find_first|exact Hlen]. }
  split; [apply Z.ltb_lt; vm_compute; reflexivity|]. split; [exact Hdoc|]. split; [exact A2|]. split; [by intros [=]|]. split; [apply String.eqb_neq; vm_compute; reflexivity|]. split; [exact (get_conf_settings (bytes_of (ex_root 1)))|].
  split; [by apply phased_publishing|]. split; [|split; [exact Ho|split; [exact Ho'|exact Hnew]]].
  destruct Hline as (_ & Hroles & _). intros X HX. split; [by apply Hroles|]. apply elem_of_cons in HX as [-> |HX]; [by exists tf, "hello"|]. apply elem_of_list_singleton in HX as ->. by exists tf', "world".
Qed.
(** and what happens: init, and get before and after the second release appears *)
Definition get_twice (T : nat) : option (string * string) :=
  match init_cmd (get_env T) "https://r" "" ex_now no_files with
  | (i', Ok _) => match get_cmd (get_env T) get_flags_ex "a/x" ex_now i' with
                  | (i2, Ok p) => match get_cmd (get_env T) get_flags_ex "a/x" ex_now i2 with (i3, Ok q) => match io_disk i2 !! p, io_disk i3 !! q with Some a, Some b => Some (a, b) | _, _ => None end | _ => None end
                  | _ => None end
  | _ => None end.
Example C123_runs : get_twice 0 = Some ("world", "world") /\ get_twice 30 = Some ("hello", "world").
Proof. vm_compute. split; reflexivity. Qed.
