(** * Vocabulary for the properties of the multi-repository client *)
From stdpp Require Import base gmap strings list.
From Coq Require Import ZArith Ascii String.
From Verif Require Import GoBase GoStr Json GoTime Types Marshal Keys Glob Metadata TrustedMetadata Fetcher Updater MultiRepo SpecBasic SpecTrusted SpecUpdater.
Open Scope Z_scope.

Section SpecMulti.
Context {CR : Crypto} (E : env).
(** the calls of a multi-repository client *)
Inductive mr_api :=
  | MrRefresh
  | MrGetTargetInfo (target : string)
  | MrGetTopLevelTargets
  | MrDownloadTarget (repos : list string) (tf : targetfile) (file_path base_url : string).
Definition mr_call (rm : repomap) (a : mr_api) (s : mrstate) : mrstate * outcome unit :=
  match a with
  | MrRefresh => mr_refresh E s
  | MrGetTargetInfo target => let '(s', o) := mr_get_target_info E rm target s in (s', omap_ (fun _ => tt) o)
  | MrGetTopLevelTargets => let '(s', o) := mr_top_level_targets E rm s in (s', omap_ (fun _ => tt) o)
  | MrDownloadTarget repos tf p u => let '(s', o) := mr_download_target E repos tf p u s in (s', omap_ (fun _ => tt) o)
  end.
(** a client made from configuration [mc] at time [now] and used in any way *)
Inductive mr_session (mc : mrconfig) (now : Z) : mrstate -> Prop :=
  | mr_session_new i i' cls : mr_new E now mc i = (i', Ok cls) -> mr_session mc now (mkMr cls i')
  | mr_session_call s a : mr_session mc now s -> mr_session mc now (fst (mr_call (mc_map mc) a s))
  | mr_session_files s i : mr_session mc now s -> mr_session mc now (mkMr (mr_clients s) i).

(** repository [repo] is asked for [target] *)
Definition ask (target repo : string) : MR (option targetfile) := on_client repo (fun c => get_target_info E c target).
(** the repositories are asked in order; [l] are the answers of those that do not fail *)
Inductive asked (target : string) : list string -> mrstate -> list (string * targetfile) -> mrstate -> Prop :=
  | asked_nil s : asked target [] s [] s
  | asked_answer r rs s s1 info l s' : ask target r s = (s1, Ok (Some info)) -> asked target rs s1 l s' -> asked target (r :: rs) s ((r, info) :: l) s'
  | asked_error r rs s s1 e l s' : ask target r s = (s1, Err e) -> asked target rs s1 l s' -> asked target (r :: rs) s l s'.
(** repositories have been asked in between *)
Inductive called (target : string) (s : mrstate) : mrstate -> Prop :=
  | called_refl : called target s s
  | called_ask s1 s2 r o : called target s s1 -> ask target r s1 = (s2, o) -> called target s s2.
(** all the repositories [rs] have given an answer that is [info] or equal to it in the sense of TargetFiles.Equal *)
Definition vouch (l : list (string * targetfile)) (info : targetfile) (rs : list string) : Prop :=
  NoDup rs /\ forall r, r ∈ rs -> exists i, (r, i) ∈ l /\ (i = info \/ targetfile_equal info i = true).
(** TargetFiles.Equal behaves like an equality on these answers (it does not in general, see C26) *)
Definition comparable (l : list (string * targetfile)) : Prop :=
  (forall r i, (r, i) ∈ l -> targetfile_equal i i = true) /\
  (forall r i r' i', (r, i) ∈ l -> (r', i') ∈ l -> targetfile_equal i i' = true -> targetfile_equal i' i = true) /\
  (forall r1 i1 r2 i2 r3 i3, (r1, i1) ∈ l -> (r2, i2) ∈ l -> (r3, i3) ∈ l -> targetfile_equal i1 i2 = true -> targetfile_equal i2 i3 = true -> targetfile_equal i1 i3 = true).
(** the mappings with their patterns, in the order of the map file *)
Definition patterns (ms : list mapping) : list (mapping * string) := flat_map (fun m => map (pair m) (slist (mp_paths m))) ms.
(** these patterns do not match, or no description has enough repositories behind it and the mapping is not terminating *)
Inductive passes (target : string) : list (mapping * string) -> mrstate -> mrstate -> Prop :=
  | passes_nil s : passes target [] s s
  | passes_unmatched m p l s s' : glob_match p target = Ok false -> passes target l s s' -> passes target ((m, p) :: l) s s'
  | passes_asked m p l s answers s1 s' : glob_match p target = Ok true -> asked target (slist (mp_repos m)) s answers s1 ->
      (forall info rs, vouch answers info rs -> Z.of_nat (List.length rs) < mp_threshold m) -> mp_terminating m = false -> passes target l s1 s' ->
      passes target ((m, p) :: l) s s'.
(** repositories are asked for the target file, and it is neither in the cache (as a non-empty file) nor can it be downloaded *)
Inductive given_up (tf : targetfile) (fp u : string) : list string -> mrstate -> mrstate -> Prop :=
  | given_up_nil s : given_up tf fp u [] s s
  | given_up_next r rs s p data s1 e s2 s' : on_client r (fun c => lift (find_cached_target E c tf fp)) s = (s1, Ok (p, data)) -> p = "" \/ data = "" ->
      on_client r (fun c => download_target E c tf fp u) s1 = (s2, Err e) -> given_up tf fp u rs s2 s' -> given_up tf fp u (r :: rs) s s'.
(** every mapping is there and names repositories of the map file only *)
Definition well_named (rm : repomap) : Prop :=
  forall om, om ∈ slist (rm_mapping rm) -> exists m, om = Some m /\ forall r, r ∈ slist (mp_repos m) -> is_Some (mget (rm_repos rm) r).
(** between two moments targets have been searched *)
Inductive later (rm : repomap) (s : mrstate) : mrstate -> Prop :=
  | later_refl : later rm s s
  | later_info s1 target : later rm s s1 -> later rm s (fst (mr_get_target_info E rm target s1))
  | later_files s1 i : later rm s s1 -> later rm s (mkMr (mr_clients s1) i).
(** what the client of repository [name] is made with *)
Definition made_for (mc : mrconfig) (name : string) (cl : client) : Prop :=
  exists root u l, mget (mc_roots mc) name = Some root /\ mget (rm_repos (mc_map mc)) name = Some (Some (u :: l)) /\
    c_trusted_root (cl_cfg cl) = root /\ c_metadata_url (cl_cfg cl) = u /\ c_metadata_dir (cl_cfg cl) = path_join [mc_metadata_dir mc; name] /\
    c_disable_cache (cl_cfg cl) = mc_disable_cache mc /\
    c_targets_dir (cl_cfg cl) = (if String.eqb (mc_targets_dir mc) "" then path_join [path_join [mc_metadata_dir mc; name]; "targets"] else mc_targets_dir mc).
End SpecMulti.
