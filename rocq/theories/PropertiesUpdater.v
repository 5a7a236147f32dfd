(** * Properties C51-C62 and C64: refreshing, searching and downloading *)
From stdpp Require Import base gmap strings list.
From Coq Require Import ZArith Lia Ascii String.
From Verif Require Import GoBase GoStr GoTime Types Marshal Keys Metadata TrustedMetadata Fetcher Updater SpecBasic SpecTrusted SpecUpdater.
From Verif Require Import TrustedProofs EventProofs UpdaterProofs WalkProofs ApiProofs RootProofs RefreshProofs SearchProofs ClaimProofs FinalProofs Toy Examples ExamplesUpdater.
Open Scope Z_scope.

(** a property of a call found by computation *)
Lemma case_call {CR : Crypto} E c i l a (P : world -> world -> outcome unit -> Prop) :
  match after_calls E c i l with Some w => P w (fst (call_api E c a w)) (snd (call_api E c a w)) | None => False end ->
  exists w w' o, session E c ex_now w /\ call_api E c a w = (w', o) /\ P w w' o.
Proof.
  destruct (after_calls E c i l) as [w|] eqn:H; [|done]. intros HP. exists w, (fst (call_api E c a w)), (snd (call_api E c a w)). split; [by eapply after_session|]. split; [by destruct (call_api E c a w)|done].
Qed.

(** ** C51 *)
Theorem C51_refresh_complete {CR : Crypto} E c now w w' : session E c now w -> call_api E c Refresh w = (w', Ok tt) ->
  t_ref (w_trusted w') = now /\ top_level_set (w_trusted w').
Proof. exact (fun Hs H => conj (session_ref E c now w' (session_step E c now w Refresh w' (Ok tt) Hs H)) (refresh_complete E c now w w' Hs H)). Qed.
Print Assumptions C51_refresh_complete.
Example C51_case : exists w w' o, session (ex_env ex_files) ex_config ex_now w /\ call_api (ex_env ex_files) ex_config Refresh w = (w', o) /\
  o = Ok tt /\ loaded_roles (w_trusted w') = (2, Some 9, Some 7, [("targets", 5)]).
Proof. apply (case_call _ _ no_files [] _ (fun w w' o => o = Ok tt /\ loaded_roles (w_trusted w') = _)). vm_compute. split; reflexivity. Qed.

(** ** C52 *)
(** [evs1] are the events of the root update, [evs2] those after it *)
Theorem C52_root_rotation {CR : Crypto} E c now w w' o : session E c now w -> c_unsafe_local c = false -> call_api E c Refresh w = (w', o) ->
  let N := rt_version (md_signed (t_root (w_trusted w))) in
  0 <= c_max_root_rotations c -> N + c_max_root_rotations c < 2 ^ 63 - 1 ->
  exists evs1 evs2, happened (w_io w) (w_io w') (evs1 ++ evs2) /\
    Z.of_nat (List.length (gets evs1)) <= c_max_root_rotations c /\ consecutive c N (gets evs1) /\
    (forall v, url_of c "root" v ∉ map fst (gets evs2)) /\
    (forall u e, last (gets evs1) = Some (u, Err e) -> not_found e \/ (o = Err e /\ evs2 = [])) /\
    (o = Ok tt -> rt_version (md_signed (t_root (w_trusted w'))) = N + successes (gets evs1) /\
       (successes (gets evs1) = c_max_root_rotations c \/ exists u e, last (gets evs1) = Some (u, Err e) /\ not_found e)).
Proof. exact (fun Hs Hu H => refresh_root E c w w' o Hu H (reachable_range _ (session_reachable E c now w Hs))). Qed.
Print Assumptions C52_root_rotation.
Definition many_roots (n : nat) := map (fun v => ("https://r/" +:+ fmt_dec (Z.of_nat v) +:+ ".root.json", bytes_of (ex_root (Z.of_nat v)))) (seq 2 n) ++ ex_files.
(** two rotations available, then three with a limit of two *)
Example C52_case : exists w w' o, session (ex_env (many_roots 2)) ex_config ex_now w /\ call_api (ex_env (many_roots 2)) ex_config Refresh w = (w', o) /\
  o = Ok tt /\ loaded_roles (w_trusted w') = (3, Some 9, Some 7, [("targets", 5)]).
Proof. apply (case_call _ _ no_files [] _ (fun w w' o => o = Ok tt /\ loaded_roles (w_trusted w') = _)). vm_compute. split; reflexivity. Qed.
Definition ex_config_2 : config := mkConfig 2 32 512000 16384 2000000 5000000 (bytes_of (ex_root 1)) "/m" "/t" "https://r" "https://t" false true false.
Example C52_limit_case : exists w w' o, session (ex_env (many_roots 3)) ex_config_2 ex_now w /\ call_api (ex_env (many_roots 3)) ex_config_2 Refresh w = (w', o) /\
  o = Ok tt /\ loaded_roles (w_trusted w') = (3, Some 9, Some 7, [("targets", 5)]).
Proof. apply (case_call _ _ no_files [] _ (fun w w' o => o = Ok tt /\ loaded_roles (w_trusted w') = _)). vm_compute. split; reflexivity. Qed.

(** ** C53 *)
Theorem C53_metadata {CR : Crypto} E c a w w' o evs url len r : call_api E c a w = (w', o) -> (forall tf p u, a <> DownloadTarget tf p u) ->
  happened (w_io w) (w_io w') evs -> EvGet url len r ∈ evs -> exists t, passed (w_trusted w) t (w_trusted w') /\ allowed_download c t url len.
Proof. exact (metadata_downloads E c a w w' o evs url len r). Qed.
Print Assumptions C53_metadata.
Theorem C53_targets {CR : Crypto} E c tf p u w w' o evs url len r : call_api E c (DownloadTarget tf p u) w = (w', o) ->
  happened (w_io w) (w_io w') evs -> EvGet url len r ∈ evs -> len = tf_length tf.
Proof. exact (target_downloads E c tf p u w w' o evs url len r). Qed.
Print Assumptions C53_targets.
Theorem C53_new {CR : Crypto} E c now i i' o evs : updater_new E c now i = (i', o) -> happened i i' evs -> gets evs = [].
Proof. exact (new_no_gets E c now i i' o evs). Qed.
Print Assumptions C53_new.
Definition get_limits (evs : list event) : list (string * Z) := flat_map (fun e => match e with EvGet u len _ => [(u, len)] | _ => [] end) evs.
Definition hello : targetfile := mkTargetFile 5 (Some {["sha256" := sha256 "hello"]}) None "a/x" None.
Example C53_case : exists w w' o, session (ex_env (mk_files two_roles)) ex_config ex_now w /\ call_api (ex_env (mk_files two_roles)) ex_config (GetTargetInfo "a/x") w = (w', o) /\
  map fst (get_limits (io_trace (w_io w'))) = ["https://r/2.root.json"; "https://r/timestamp.json"; "https://r/1.snapshot.json"; "https://r/1.targets.json"; "https://r/1.d2.json"] /\
  forallb (fun p => p.2 <? 512001) (get_limits (io_trace (w_io w'))) = true.
Proof.
  apply (case_call _ _ no_files [] _ (fun w w' o => map fst (get_limits (io_trace (w_io w'))) = _ /\ forallb (fun p => p.2 <? 512001) _ = true)). vm_compute. split; reflexivity.
Qed.

(** ** C54 *)
(** the answer is an entry of a loaded role to which a chain of delegations for the path leads from targets *)
Theorem C54_chain {CR : Crypto} E c now w w' path o : session E c now w -> get_target_info E c path w = (w', Ok o) ->
  exists tf r m, o = Some tf /\ tf_path tf = path /\ leads (w_trusted w') path "targets" r /\ t_targets (w_trusted w') !! r = Some m /\ entry m path (Some tf).
Proof. exact (info_authorised E c now w w' path o). Qed.
Print Assumptions C54_chain.
(** all loaded roles are verified: listed in the trusted snapshot, unexpired, signed with keys authorised through the root *)
Theorem C54_verified {CR : Crypto} E c now w r m : session E c now w -> t_targets (w_trusted w) !! r = Some m ->
  exists sn, t_snapshot (w_trusted w) = Some sn /\ final_snapshot (w_trusted w) sn /\ as_listed sn r m /\ ~ expired_at m now /\ authorised (w_trusted w) r.
Proof. exact (loaded_verified E c now w r m). Qed.
Print Assumptions C54_verified.
(** in the first search of a session the chain is one of signatures too, if no delegated role is called root *)
Theorem C54_signed_first {CR : Crypto} E c now w w' path tf : session E c now w -> get_target_info E c path w = (w', Ok tf) ->
  (forall r, is_Some (t_targets (w_trusted w) !! r) -> r = "targets") -> t_targets (w_trusted w') !! "root" = None ->
  exists r m, signed_chain (w_trusted w') path r /\ t_targets (w_trusted w') !! r = Some m /\ entry m path tf.
Proof. exact (info_signed E c now w w' path tf). Qed.
Print Assumptions C54_signed_first.
(** refuted for later searches: a role once loaded through one delegation is used for others whose keys have not signed it *)
Theorem C54_signed_refuted : exists (CR : Crypto) E c now w w' path tf, session E c now w /\ get_target_info E c path w = (w', Ok tf) /\
  forall r m, signed_chain (w_trusted w') path r -> t_targets (w_trusted w') !! r = Some m -> ~ entry m path tf.
Proof.
  enough (match after_calls (ex_env (mk_files two_ways)) ex_config no_files [GetTargetInfo "a/x"] with
          | Some w => match get_target_info (ex_env (mk_files two_ways)) ex_config "b/1" w with
                      | (w', Ok tf) => closed_b (w_trusted w') "b/1" ["targets"; "d2"] && no_entries_b (w_trusted w') "b/1" ["targets"; "d2"] = true
                      | _ => False end
          | None => False end) as H.
  { destruct (after_calls _ _ _ _) as [w|] eqn:Hw; [|destruct H]. destruct (get_target_info _ _ _ w) as [w' [tf| |]] eqn:Hg; [|destruct H..]. apply andb_prop in H as [H1 H2].
    exists toy_crypto, (ex_env (mk_files two_ways)), ex_config, ex_now, w, w', "b/1", tf. split; [exact (after_session _ _ _ _ _ Hw)|]. split; [exact Hg|].
    intros r m Hr Hm. exact (no_entries _ _ _ _ _ _ H2 (closed_chain _ _ _ _ H1 Hr) Hm). }
  vm_compute. reflexivity.
Qed.
Print Assumptions C54_signed_refuted.
Example C54_case : exists w, session (ex_env (mk_files two_roles)) ex_config ex_now w /\ loaded_roles (w_trusted w) = (1, Some 1, Some 1, [("targets", 1)]) /\
  match get_target_info (ex_env (mk_files two_roles)) ex_config "a/x" w with (w', Ok (Some tf)) => tf_length tf = 5 /\ loaded_roles (w_trusted w') = (1, Some 1, Some 1, [("d2", 1); ("targets", 1)]) | _ => False end.
Proof. apply (case_session _ _ no_files [Refresh]). vm_compute. repeat split; reflexivity. Qed.

(** ** C55, C56: if the metadata is not loaded yet a Refresh precedes the search *)
Definition loaded_first {CR : Crypto} (E : env) (c : config) (w w1 : world) (o1 : outcome unit) : Prop :=
  (is_Some (t_targets (w_trusted w) !! "targets") /\ w1 = w /\ o1 = Ok tt) \/ (t_targets (w_trusted w) !! "targets" = None /\ call_api E c Refresh w = (w1, o1)).
(** the roles inspected: distinct, at most MaxDelegations+1, in the order of a pre-order depth-first search that honours
    terminating delegations; the result is the entry found; a search that gives up without having looked everywhere has
    a reason; only inspected roles are downloaded, in this order *)
Theorem C55_C56_search {CR : Crypto} E c path w w' o : get_target_info E c path w = (w', o) -> exists w1 o1, loaded_first E c w w1 o1 /\
  ((o1 = Ok tt /\ exists l v evs sub, search (w_trusted w') path [] ["targets"] l v /\ NoDup l /\ Z.of_nat (List.length l) <= Z.max 0 (c_max_delegations c + 1) /\
      (forall tf, o = Ok tf <-> v = Found tf) /\ (v = OutOfBudget -> Z.of_nat (List.length l) = Z.max 0 (c_max_delegations c + 1)) /\
      happened (w_io w1) (w_io w') evs /\ sub `sublist_of` l /\ urls_for c sub (downloads evs) /\
      (v = Failed -> exists r, last l = Some r /\ stuck E c evs (w_trusted w') path r)) \/
   (o1 <> Ok tt /\ w' = w1 /\ forall r, o <> Ok r)).
Proof. exact (info_search E c path w w' o). Qed.
Print Assumptions C55_C56_search.
Theorem C55_bounded {CR : Crypto} E c path w w' o : is_Some (t_targets (w_trusted w) !! "targets") -> get_target_info E c path w = (w', o) ->
  exists evs, happened (w_io w) (w_io w') evs /\ Z.of_nat (List.length (downloads evs)) <= Z.max 0 (c_max_delegations c + 1).
Proof.
  intros Hl H. destruct (info_search E c path w w' o H) as (w1 & o1 & [(_ & -> & ->)|[Hn _]] & Hr); [|destruct Hl; congruence].
  destruct Hr as [(_ & l & v & evs & sub & _ & _ & Hb & _ & _ & Hh & Hsub & Hu & _)|[Hx _]]; [|done]. exists evs. split; [done|].
  apply Forall2_length in Hu. apply sublist_length in Hsub. lia.
Qed.
Print Assumptions C55_bounded.
(** the first inspected role with an entry answers; the roles inspected before it are loaded and have none *)
Theorem C56_first_entry {CR : Crypto} E c path w w' tf : get_target_info E c path w = (w', Ok tf) ->
  exists l r m, search (w_trusted w') path [] ["targets"] (l ++ [r]) (Found tf) /\ t_targets (w_trusted w') !! r = Some m /\ entry m path tf /\
    forall r', r' ∈ l -> exists m', t_targets (w_trusted w') !! r' = Some m' /\ forall o, ~ entry m' path o.
Proof.
  intros H. destruct (info_search E c path w w' _ H) as (w1 & o1 & _ & [(_ & l & v & evs & sub & Hs & _ & _ & Hf & _)|(_ & _ & Hn)]); [|by destruct (Hn tf)].
  pose proof (proj1 (Hf tf) eq_refl) as ->. destruct (search_found_last _ _ _ _ _ _ Hs) as (l' & r & m & -> & Hm & He & Hb). by exists l', r, m.
Qed.
Print Assumptions C56_first_entry.
(** a cyclic graph *)
Example C55_case : exists w w' o, session (ex_env (mk_files cyclic)) ex_config ex_now w /\ call_api (ex_env (mk_files cyclic)) ex_config (GetTargetInfo "a/none") w = (w', o) /\
  o = Err (EOther "target not found") /\ loaded_roles (w_trusted w') = (1, Some 1, Some 1, [("x", 1); ("targets", 1); ("y", 1)]).
Proof. apply (case_call _ _ no_files [Refresh] _ (fun w w' o => o = _ /\ loaded_roles (w_trusted w') = _)). vm_compute. split; reflexivity. Qed.
Definition ex_config_small : config := mkConfig 2 1 512000 16384 2000000 5000000 (bytes_of (ex_root 1)) "/m" "/t" "https://r" "https://t" false true false.
Example C55_budget_case : exists w w' o, session (ex_env (mk_files cyclic)) ex_config_small ex_now w /\ call_api (ex_env (mk_files cyclic)) ex_config_small (GetTargetInfo "a/y") w = (w', o) /\
  o = Err (EOther "target not found") /\ loaded_roles (w_trusted w') = (1, Some 1, Some 1, [("x", 1); ("targets", 1)]).
Proof. apply (case_call _ _ no_files [Refresh] _ (fun w w' o => o = _ /\ loaded_roles (w_trusted w') = _)). vm_compute. split; reflexivity. Qed.
Example C56_case : exists w w' o, session (ex_env (mk_files cyclic)) ex_config ex_now w /\ call_api (ex_env (mk_files cyclic)) ex_config (GetTargetInfo "a/y") w = (w', o) /\
  o = Ok tt /\ loaded_roles (w_trusted w') = (1, Some 1, Some 1, [("x", 1); ("targets", 1); ("y", 1)]).
Proof. apply (case_call _ _ no_files [Refresh] _ (fun w w' o => o = _ /\ loaded_roles (w_trusted w') = _)). vm_compute. split; reflexivity. Qed.

(** ** C57: refuted, the order of iteration over a Go map decides *)
Definition answer_length (x : world * outcome (option targetfile)) : Z := match x with (_, Ok (Some tf)) => tf_length tf | _ => -1 end.
Theorem C57_order_refuted : exists (CR : Crypto) E E' c now w path, session E c now w /\ session E' c now w /\
  (forall tr u n, e_net E tr u n = e_net E' tr u n) /\ (forall tr, e_io E tr = e_io E' tr) /\
  exists w1 tf1 w2 tf2, get_target_info E c path w = (w1, Ok (Some tf1)) /\ get_target_info E' c path w = (w2, Ok (Some tf2)) /\ tf1 <> tf2.
Proof.
  set (files := mk_files [("targets", mk_targets [pkA] [("top", "top file")] [ex_dr "d1" [idB] false ["a/*"]; ex_dr "d2" [idC] false ["a/*"]]); ("d1", mk_targets [pkB] [("a/x", "hello")] []); ("d2", mk_targets [pkC] [("a/x", "other file")] [])]).
  set (E := ex_env files). set (E' := ex_env_turned files).
  enough (match started E ex_config no_files with
          | Some w => answer_length (get_target_info E ex_config "a/x" w) = 10 /\ answer_length (get_target_info E' ex_config "a/x" w) = 5
          | None => False end) as H.
  { destruct (started E ex_config no_files) as [w|] eqn:Hw; [|destruct H]. destruct H as [H1 H2].
    exists toy_crypto, E, E', ex_config, ex_now, w, "a/x". split; [exact (started_session _ _ _ _ Hw)|]. split; [apply (started_session E' _ no_files); unfold E'; rewrite started_turned; exact Hw|]. split; [reflexivity|]. split; [reflexivity|].
    destruct (get_target_info E ex_config "a/x" w) as [w1 [[tf1|]| |]] eqn:G1; [|discriminate H1..]. destruct (get_target_info E' ex_config "a/x" w) as [w2 [[tf2|]| |]] eqn:G2; [|discriminate H2..].
    exists w1, tf1, w2, tf2. split; [reflexivity|]. split; [reflexivity|]. intros ->. cbn [answer_length] in H1, H2. rewrite H1 in H2. discriminate H2. }
  vm_compute. split; reflexivity.
Qed.
Print Assumptions C57_order_refuted.
(** where no role has two delegations for the path, the answer is a function of the metadata *)
Theorem C57_single_delegations {CR : Crypto} E E' c c' path w1 w1' w2 w2' o1 o2 : get_target_info E c path w1 = (w1', Ok o1) -> get_target_info E' c' path w2 = (w2', Ok o2) ->
  agree (w_trusted w1') (w_trusted w2') -> one_way (w_trusted w1') path -> o1 = o2.
Proof. exact (info_fun E E' c c' path w1 w1' w2 w2' o1 o2). Qed.
Print Assumptions C57_single_delegations.
(** role z only below role x *)
Definition one_path := [("targets", mk_targets [pkA] [] [ex_dr "x" [idB] false ["a/*"]; ex_dr "y" [idC] true ["b/*"]]); ("x", mk_targets [pkB] [] [ex_dr "z" [idC] false ["a/*"]]); ("z", mk_targets [pkC] [("a/x", "hello")] [])].
Example C57_case : exists w w1 w2 o1 o2, get_target_info (ex_env (mk_files one_path)) ex_config "a/x" w = (w1, Ok o1) /\ get_target_info (ex_env_turned (mk_files one_path)) ex_config "a/x" w1 = (w2, Ok o2) /\
  agree (w_trusted w1) (w_trusted w2) /\ one_way (w_trusted w1) "a/x" /\ loaded_roles (w_trusted w1) = (1, Some 1, Some 1, [("x", 1); ("targets", 1); ("z", 1)]).
Proof.
  set (w := mkWorld (mkTrusted (ex_root 1) None None ∅ ex_now) no_files). enough (match get_target_info (ex_env (mk_files one_path)) ex_config "a/x" w with
    | (w1, Ok _) => is_ok (snd (get_target_info (ex_env_turned (mk_files one_path)) ex_config "a/x" w1)) = true /\ one_way_b (w_trusted w1) "a/x" = true /\ loaded_roles (w_trusted w1) = (1, Some 1, Some 1, [("x", 1); ("targets", 1); ("z", 1)])
    | _ => False end) as H.
  { exists w. destruct (get_target_info (ex_env _) ex_config "a/x" w) as [w1 [o1| |]]; [|destruct H..]. destruct H as (H1 & H2 & H3). destruct (get_target_info (ex_env_turned _) ex_config "a/x" w1) as [w2 [o2| |]] eqn:G2; [|discriminate H1..].
    exists w1, w2, o1, o2. split; [reflexivity|]. split; [exact G2|]. split; [|split; [by apply one_way_check|exact H3]].
    intros n m m' Hm Hm'. apply get_target_info_steps in G2. apply (ksteps_extends _ _ _ _ _ G2) in Hm. congruence. }
  vm_compute. split; [reflexivity|]. split; reflexivity.
Qed.

(** ** C58 *)
Theorem C58_returned {CR : Crypto} E c tf fp u w w' p data : download_target E c tf fp u w = (w', Ok (p, data)) ->
  matches_target tf data /\ file_for E c tf fp p /\ w_trusted w' = w_trusted w /\
  (exists url evs, happened (w_io w) (w_io w') evs /\ gets evs = [(url, Ok data)]) /\
  ((c_disable_cache c = true /\ io_disk (w_io w') = io_disk (w_io w)) \/ (c_disable_cache c = false /\ io_disk (w_io w') = <[p := data]> (io_disk (w_io w)))).
Proof. exact (download_ok E c tf fp u w w' p data). Qed.
Print Assumptions C58_returned.
(** at any point of any download, a file that is not as before is the target's file and holds verified data, possibly not all of it *)
Theorem C58_stored {CR : Crypto} E c tf fp u w w' o evs d q : call_api E c (DownloadTarget tf fp u) w = (w', o) -> happened (w_io w) (w_io w') evs -> crash (io_disk (w_io w)) evs d ->
  d !! q = io_disk (w_io w) !! q \/
  (c_disable_cache c = false /\ exists data, matches_target tf data /\ file_for E c tf fp q /\ (exists url, EvGet url (tf_length tf) (Ok data) ∈ evs) /\ (d !! q = Some data \/ exists n, d !! q = Some (str_take n data))).
Proof. exact (download_crash E c tf fp u w w' o evs d q). Qed.
Print Assumptions C58_stored.
Definition hello_files (data : string) := ("https://t/a/" +:+ hex_encode (sha256 "hello") +:+ ".x", data) :: ex_files.
Example C58_case : exists w, session (ex_env (hello_files "hello")) ex_config ex_now w /\
  match download_target (ex_env (hello_files "hello")) ex_config hello "" "" w with (w', Ok (p, data)) => p = "/t/a%2Fx" /\ data = "hello" /\ io_disk (w_io w') !! p = Some "hello" | _ => False end.
Proof. apply (case_session _ _ no_files [Refresh]). vm_compute. repeat split; reflexivity. Qed.
Example C58_wrong_case : exists w, session (ex_env (hello_files "jello")) ex_config ex_now w /\
  match download_target (ex_env (hello_files "jello")) ex_config hello "" "" w with (w', Err (ErrLengthOrHashMismatch _)) => io_disk (w_io w') !! "/t/a%2Fx" = None | _ => False end.
Proof. apply (case_session _ _ no_files [Refresh]). vm_compute. reflexivity. Qed.

(** ** C59 *)
Theorem C59_found {CR : Crypto} E c tf fp i i' o : find_cached_target E c tf fp i = (i', o) ->
  io_disk i' = io_disk i /\ (exists evs, happened i i' evs /\ forall e, e ∈ evs -> exists p r, e = EvRead p r) /\
  (o = Ok ("", "") \/ (exists p data, o = Ok (p, data) /\ io_disk i !! p = Some data /\ matches_target tf data /\ file_for E c tf fp p) \/
   (fp = "" /\ (forall p, target_file_path E c tf <> Ok p) /\ forall r, o <> Ok r)).
Proof. exact (find_cached_ok E c tf fp i i' o). Qed.
Print Assumptions C59_found.
(** and a readable file with the right content is found *)
Theorem C59_complete {CR : Crypto} E c tf fp i p data : c_disable_cache c = false -> file_for E c tf fp p -> io_disk i !! p = Some data -> matches_target tf data -> e_io E (io_trace i) = true ->
  snd (find_cached_target E c tf fp i) = Ok (p, data).
Proof. exact (find_cached_complete E c tf fp i p data). Qed.
Print Assumptions C59_complete.
Example C59_case : (snd (find_cached_target (ex_env ex_files) ex_config hello "" (files_of [("/t/a%2Fx", "hello")])), snd (find_cached_target (ex_env ex_files) ex_config hello "" (files_of [("/t/a%2Fx", "jello")])),
   snd (find_cached_target (ex_env ex_files) ex_config hello "/f" (files_of [("/f", "hello")]))) = (Ok ("/t/a%2Fx", "hello"), Ok ("", ""), Ok ("/f", "hello")).
Proof. vm_compute. reflexivity. Qed.

(** ** C60 *)
(** a metadata file gets a new content by a rename only, of a file just written; the content has then been accepted *)
Theorem C60_renamed {CR : Crypto} E c a w w' o pre p q post : call_api E c a w = (w', o) -> happened (w_io w) (w_io w') (pre ++ EvRename p q :: post) ->
  exists pre' role data t, pre = pre' ++ [EvWrite p data] /\ tmp_name E p /\ q = cache_name c role /\ passed (w_trusted w) t (w_trusted w') /\ holds t role data.
Proof. exact (api_rename E c a w w' o pre p q post). Qed.
Print Assumptions C60_renamed.
Example C60_case : exists w w' o, session (ex_env ex_files) ex_config ex_now w /\ call_api (ex_env ex_files) ex_config Refresh w = (w', o) /\
  o = Ok tt /\ map (fun p => io_disk (w_io w') !! p) ["/m/root.json"; "/m/timestamp.json"; "/m/snapshot.json"; "/m/targets.json"] =
    map Some [bytes_of (ex_root 2); bytes_of ex_timestamp; bytes_of ex_snapshot; bytes_of ex_targets].
Proof. apply (case_call _ _ no_files [] _ (fun w w' o => o = Ok tt /\ map _ _ = _)). vm_compute. split; reflexivity. Qed.

(** ** C61: whatever the crash point, a file that is not a temporary one has its old content or a complete accepted document *)
Theorem C61_atomic {CR : Crypto} E c a w w' o evs d q : call_api E c a w = (w', o) -> (forall tf p u, a <> DownloadTarget tf p u) ->
  happened (w_io w) (w_io w') evs -> crash (io_disk (w_io w)) evs d -> ~ tmp_name E q ->
  d !! q = io_disk (w_io w) !! q \/ exists role data t, q = cache_name c role /\ d !! q = Some data /\ passed (w_trusted w) t (w_trusted w') /\ holds t role data.
Proof. exact (api_crash E c a w w' o evs d q). Qed.
Print Assumptions C61_atomic.
Theorem C61_atomic_new {CR : Crypto} E c now i i' o evs d q : updater_new E c now i = (i', o) -> happened i i' evs -> crash (io_disk i) evs d -> ~ tmp_name E q ->
  d !! q = io_disk i !! q \/ (q = cache_name c "root" /\ d !! q = Some (c_trusted_root c) /\ exists r, document (c_trusted_root c) r /\ root_signs r "root" r).
Proof. exact (new_crash E c now i i' o evs d q). Qed.
Print Assumptions C61_atomic_new.
(** cached metadata files are not temporary files *)
Theorem C61_not_temporary {CR : Crypto} E c role : ~ tmp_name E (cache_name c role).
Proof. exact (cache_not_tmp E c role). Qed.
Print Assumptions C61_not_temporary.
(** a file operation of Refresh fails half way: the cached timestamp is as before, a part of the new one is in a temporary file *)
Example C61_case : exists w w' o, session (ex_env_failing 13 ex_files) ex_config ex_now w /\ call_api (ex_env_failing 13 ex_files) ex_config Refresh w = (w', o) /\
  o = Err (EOther "write") /\ io_disk (w_io w') !! "/m/root.json" = Some (bytes_of (ex_root 2)) /\ io_disk (w_io w') !! "/m/timestamp.json" = None.
Proof. apply (case_call _ _ no_files [] _ (fun w w' o => o = _ /\ _ = _ /\ _ = None)). vm_compute. repeat split; reflexivity. Qed.

(** ** C62 *)
(** in the first Refresh of a session, if the cached timestamp was read and is validly signed under the root then obtained *)
Theorem C62_rollback {CR : Crypto} E c now w w' o evs data ts0 : session E c now w -> call_api E c Refresh w = (w', o) -> c_unsafe_local c = false -> t_timestamp (w_trusted w) = None ->
  happened (w_io w) (w_io w') evs -> EvRead (local_name c "timestamp") (Ok data) ∈ evs -> document data ts0 ->
  root_signs (t_root (w_trusted w')) "timestamp" ts0 -> ~ expired_at (t_root (w_trusted w')) now ->
  (exists ts, t_timestamp (w_trusted w') = Some ts /\ ts_version (md_signed ts0) <= ts_version (md_signed ts)) /\
  (io_disk (w_io w') !! cache_name c "timestamp" = io_disk (w_io w) !! cache_name c "timestamp" \/
   exists data ts, io_disk (w_io w') !! cache_name c "timestamp" = Some data /\ document data ts /\ ts_version (md_signed ts0) <= ts_version (md_signed ts)).
Proof. exact (session_rollback E c now w w' o evs data ts0). Qed.
Print Assumptions C62_rollback.
(** the cache has timestamp 10, the server offers 9: refused *)
Example C62_case : exists w w' o, session (ex_env ex_files) ex_config ex_now w /\ call_api (ex_env ex_files) ex_config Refresh w = (w', o) /\
  ok_unit o = false /\ loaded_roles (w_trusted w') = (2, Some 10, None, []) /\ io_disk (w_io w') !! "/m/timestamp.json" = Some (bytes_of (ex_timestamp_v 10)).
Proof. apply (case_call _ _ (files_of [("/m/timestamp.json", bytes_of (ex_timestamp_v 10))]) [] _ (fun w w' o => ok_unit o = _ /\ _ = _ /\ _ = Some _)). vm_compute. repeat split; reflexivity. Qed.

(** ** C64 *)
Theorem C64_no_network {CR : Crypto} E c w w' o evs : c_unsafe_local c = true -> call_api E c Refresh w = (w', o) -> happened (w_io w) (w_io w') evs ->
  gets evs = [] /\ io_disk (w_io w') = io_disk (w_io w).
Proof. exact (local_no_gets E c w w' o evs). Qed.
Print Assumptions C64_no_network.
Theorem C64_verified {CR : Crypto} E c now w w' : session E c now w -> c_unsafe_local c = true -> call_api E c Refresh w = (w', Ok tt) -> top_level_set (w_trusted w') /\ exists d1 d2 d3 ts sn tg fs ft evs,
  happened (w_io w) (w_io w') evs /\ EvRead (local_name c "timestamp") (Ok d1) ∈ evs /\ EvRead (local_name c "snapshot") (Ok d2) ∈ evs /\ EvRead (local_name c "targets") (Ok d3) ∈ evs /\
  document d1 ts /\ document d2 sn /\ document d3 tg /\ t_timestamp (w_trusted w') = Some ts /\ t_snapshot (w_trusted w') = Some sn /\ t_targets (w_trusted w') !! "targets" = Some tg /\
  names_snapshot ts fs /\ matches_file fs d2 /\ lists_file sn "targets.json" ft /\ matches_file ft d3.
Proof. exact (fun Hs Hu H => conj (refresh_complete E c now w w' Hs H) (local_verified E c w w' Hu H)). Qed.
Print Assumptions C64_verified.
Definition ex_config_local := ex_config_with (bytes_of (ex_root 1)) false true.
Definition ex_cache := files_of [("/m/timestamp.json", bytes_of ex_timestamp); ("/m/snapshot.json", bytes_of ex_snapshot); ("/m/targets.json", bytes_of ex_targets)].
Example C64_case : exists w w' o, session (ex_env ex_files) ex_config_local ex_now w /\ call_api (ex_env ex_files) ex_config_local Refresh w = (w', o) /\
  o = Ok tt /\ loaded_roles (w_trusted w') = (1, Some 9, Some 7, [("targets", 5)]).
Proof. apply (case_call _ _ ex_cache [] _ (fun w w' o => o = Ok tt /\ loaded_roles (w_trusted w') = _)). vm_compute. split; reflexivity. Qed.
