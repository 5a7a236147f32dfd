(** * Concrete multi-repository clients *)
From stdpp Require Import base gmap strings list.
From Coq Require Import ZArith Lia Ascii String.
From Verif Require Import GoBase GoStr Json GoTime Types Marshal Keys Metadata TrustedMetadata Fetcher Updater MultiRepo SpecBasic SpecTrusted SpecUpdater SpecMulti TrustedProofs Toy Examples ExamplesUpdater.
Open Scope Z_scope.

(** a repository at [base] that publishes these roles *)
Definition files_at (base : string) (roles : list (string * metadata targets_t)) : list (string * string) :=
  (base +:+ "/timestamp.json", bytes_of (mk_timestamp 1 (mk_snapshot roles))) :: (base +:+ "/1.snapshot.json", bytes_of (mk_snapshot roles)) ::
  map (fun p => (base +:+ "/1." +:+ query_escape p.1 +:+ ".json", bytes_of p.2)) roles.
(** with these target files and no delegations *)
Definition simple (files : list (string * string)) := [("targets", mk_targets [pkA] files [])].
Definition join_env (files : list (string * string)) : env :=
  mkEnv (serve files) (fun _ => true) (fun _ => None) (Some "/w") (fun tr => Z.of_nat (List.length tr)) (fun b e => Ok (b +:+ "/" +:+ e)) keep_order keep_order_perm.
Definition three (a b c : list (string * string)) : env := join_env (files_at "https://a" (simple a) ++ files_at "https://b" (simple b) ++ files_at "https://c" (simple c)).
(** the repositories A, B and C *)
Definition map_text (mapping : string) : string := "{""repositories"":{""A"":[""https://a""],""B"":[""https://b""],""C"":[""https://c""]},""mapping"":[" +:+ mapping +:+ "]}".
Definition map_all (threshold : string) : string := map_text ("{""paths"":[""*""],""repositories"":[""A"",""B"",""C""],""threshold"":" +:+ threshold +:+ ",""terminating"":true}").
Definition ex_roots : gomap string := Some (list_to_map [("A", bytes_of (ex_root 1)); ("B", bytes_of (ex_root 1)); ("C", bytes_of (ex_root 1))]).
(** NewConfig, then the local directories are set *)
Definition ex_mrconfig (text : string) : option mrconfig :=
  match mr_new_config text ex_roots with Ok mc => Some (mkMrConfig (mc_map mc) (mc_roots mc) "/m" "/t" false) | _ => None end.
Definition mr_started (E : env) (mc : mrconfig) (l : list mr_api) : option mrstate :=
  match mr_new E ex_now mc no_files with
  | (i, Ok cls) => Some (fold_left (fun s a => fst (mr_call E (mc_map mc) a s)) l (mkMr cls i))
  | _ => None
  end.
Lemma mr_started_session E mc l s : mr_started E mc l = Some s -> mr_session E mc ex_now s.
Proof.
  unfold mr_started. destruct (mr_new E ex_now mc no_files) as [i [cls| |]] eqn:H; [|done|done]. intros [= <-]. apply mr_session_new in H. revert H. generalize (mkMr cls i). induction l as [|a l IH]; intros s H; [done|]. cbn. apply IH. by constructor.
Qed.
(** the configuration is accepted by NewConfig; then a property of a state reached with it *)
Definition accepted (mc : mrconfig) : Prop := exists text roots mc0, mr_new_config text roots = Ok mc0 /\ mc_map mc = mc_map mc0 /\ mc_roots mc = mc_roots mc0.
Lemma ex_accepted text mc : ex_mrconfig text = Some mc -> accepted mc.
Proof. unfold ex_mrconfig. destruct (mr_new_config text ex_roots) as [mc0| |] eqn:H; [|done|done]. intros [= <-]. by exists text, ex_roots, mc0. Qed.
Lemma mr_case E text l (P : mrconfig -> mrstate -> Prop) : match ex_mrconfig text with Some mc => match mr_started E mc l with Some s => P mc s | None => False end | None => False end ->
  exists mc s, accepted mc /\ mr_session E mc ex_now s /\ P mc s.
Proof.
  destruct (ex_mrconfig text) as [mc|] eqn:Hc; [|done]. destruct (mr_started E mc l) as [s|] eqn:Hs; [|done]. intros HP. exists mc, s. split; [by eapply ex_accepted|]. split; [by eapply mr_started_session|done].
Qed.
Definition show_answer (x : mrstate * outcome group) : option (Z * list string) := match snd x with Ok g => Some (tf_length g.1, g.2) | _ => None end.
Definition show_err {A} (x : mrstate * outcome A) : option gerr := match snd x with Err e => Some e | _ => None end.
Definition panics {A} (x : mrstate * outcome A) : bool := match snd x with Panic => true | _ => false end.
