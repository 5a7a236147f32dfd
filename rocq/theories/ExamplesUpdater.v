(** * A concrete server, configuration and runs of the updater, used to exhibit concrete cases *)
From stdpp Require Import base gmap strings list.
From Coq Require Import ZArith Lia Ascii String.
From Verif Require Import GoBase GoStr Json GoTime Types Marshal Keys Metadata TrustedMetadata Fetcher Updater SpecBasic SpecTrusted SpecUpdater TrustedProofs Toy Examples.
Open Scope Z_scope.

Fixpoint find_file (files : list (string * string)) (url : string) : option string :=
  match files with [] => None | (u, d) :: files => if String.eqb u url then Some d else find_file files url end.
Definition serve (files : list (string * string)) (_ : trace) (url : string) (len : Z) : outcome string :=
  match find_file files url with
  | Some data => if Z.of_nat (String.length data) <=? len then Ok data else Err (EOther "too long")
  | None => Err (ErrDownloadHTTP 404 url)
  end.
Definition no_join (_ _ : string) : outcome string := Err (EOther "join").
Definition keep_order A (_ : trace) (l : list (string * A)) := l.
Lemma keep_order_perm A tr (l : list (string * A)) : keep_order A tr l ≡ₚ l. Proof. reflexivity. Qed.
Definition turn_order A (_ : trace) (l : list (string * A)) := rev l.
Lemma turn_order_perm A tr (l : list (string * A)) : turn_order A tr l ≡ₚ l. Proof. apply Permutation_sym, Permutation_rev. Qed.
(** a server with these files; all file operations succeed *)
Definition ex_env (files : list (string * string)) : env :=
  mkEnv (serve files) (fun _ => true) (fun _ => None) (Some "/w") (fun tr => Z.of_nat (List.length tr)) no_join keep_order keep_order_perm.
(** the same with the other map iteration order *)
Definition ex_env_turned (files : list (string * string)) : env :=
  mkEnv (serve files) (fun _ => true) (fun _ => None) (Some "/w") (fun tr => Z.of_nat (List.length tr)) no_join turn_order turn_order_perm.
(** the same with failing file operations from the [n]th event on *)
Definition ex_env_failing (n : nat) (files : list (string * string)) : env :=
  mkEnv (serve files) (fun tr => Nat.ltb (List.length tr) n) (fun _ => Some 3%nat) (Some "/w") (fun tr => Z.of_nat (List.length tr)) no_join keep_order keep_order_perm.
Definition ex_config_with (root : string) (off local : bool) : config :=
  mkConfig 32 32 512000 16384 2000000 5000000 root "/m" "/t" "https://r" "https://t" off true local.
Definition ex_config := ex_config_with (bytes_of (ex_root 1)) false false.
Definition ex_files : list (string * string) :=
  [("https://r/2.root.json", bytes_of (ex_root 2)); ("https://r/timestamp.json", bytes_of ex_timestamp); ("https://r/7.snapshot.json", bytes_of ex_snapshot);
   ("https://r/5.targets.json", bytes_of ex_targets); ("https://r/3.d1.json", bytes_of ex_d1)].
Definition no_files : ios := mkIos ∅ [].
Definition files_of (l : list (string * string)) : ios := mkIos (list_to_map l) [].

(** New *)
Definition started {CR : Crypto} (E : env) (c : config) (i : ios) : option world :=
  match updater_new E c ex_now i with (i', Ok t) => Some (mkWorld t i') | _ => None end.
Lemma started_session {CR : Crypto} E c i w : started E c i = Some w -> session E c ex_now w.
Proof. unfold started. destruct (updater_new E c ex_now i) as [i' [t| |]] eqn:H; [|done|done]. intros [= <-]. by eapply session_new. Qed.
Lemma started_turned {CR : Crypto} files c i : started (ex_env_turned files) c i = started (ex_env files) c i.
Proof. reflexivity. Qed.
(** several calls after New *)
Definition after_calls {CR : Crypto} (E : env) (c : config) (i : ios) (l : list api) : option world :=
  option_map (fun w => fold_left (fun w a => fst (call_api E c a w)) l w) (started E c i).
Lemma after_session {CR : Crypto} E c i l w : after_calls E c i l = Some w -> session E c ex_now w.
Proof.
  unfold after_calls. destruct (started E c i) as [w0|] eqn:H; [|done]. intros [= <-]. apply started_session in H. clear -H. revert w0 H. induction l as [|a l IH]; intros w0 H; [done|]. cbn. apply IH. by constructor.
Qed.
(** a property of a session state found by computation *)
Lemma case_session {CR : Crypto} E c i l (P : world -> Prop) : match after_calls E c i l with Some w => P w | None => False end -> exists w, session E c ex_now w /\ P w.
Proof. destruct (after_calls E c i l) as [w|] eqn:H; [|done]. intros HP. exists w. split; [by eapply after_session|done]. Qed.
Definition loaded_roles (t : trusted) : Z * option Z * option Z * list (string * Z) :=
  (rt_version (md_signed (t_root t)), (fun x => ts_version (md_signed x)) <$> t_timestamp t, (fun x => sn_version (md_signed x)) <$> t_snapshot t,
   (fun p => (p.1, tg_version (md_signed p.2))) <$> map_to_list (t_targets t)).
Definition ok_unit (o : outcome unit) : bool := match o with Ok _ => true | _ => false end.
Definition file_list (w : world) : list (string * Z) := (fun p => (p.1, Z.of_nat (String.length p.2))) <$> map_to_list (io_disk (w_io w)).
Example ex_refresh : exists w, session (ex_env ex_files) ex_config ex_now w /\ loaded_roles (w_trusted w) = (2, Some 9, Some 7, [("targets", 5)]) /\ map fst (file_list w) = ["/m/targets.json"; "/m/timestamp.json"; "/m/root.json"; "/m/snapshot.json"].
Proof. apply (case_session _ _ no_files [Refresh]). vm_compute. split; reflexivity. Qed.

(** ** More repositories *)
(** targets metadata with files and delegations, version 1, signed by [pks] *)
Definition mk_targets (pks : list pubkey) (files : list (string * string)) (roles : list delegatedrole) : metadata targets_t :=
  sign_all pks (unsigned (mkTargets TARGETS SPECIFICATION_VERSION 1 t2030 (Some (list_to_map (map (fun p => (p.1, Some (ex_file p.2))) files)))
    (match roles with [] => None | _ => Some (mkDelegations ex_keys (Some roles) None None) end) None)).
(** a server that publishes these roles, with a snapshot and a timestamp of version 1 *)
Definition mk_snapshot (roles : list (string * metadata targets_t)) : metadata snapshot_t :=
  sign_all [pkC] (unsigned (mkSnapshot SNAPSHOT SPECIFICATION_VERSION 1 t2030 (Some (list_to_map (map (fun p => (p.1 +:+ ".json", ex_meta 1 (bytes_of p.2))) roles))) None)).
Definition mk_timestamp (v : Z) (sn : metadata snapshot_t) : metadata timestamp_t :=
  sign_all [pkB] (unsigned (mkTimestamp TIMESTAMP SPECIFICATION_VERSION v t2030 (Some (<["snapshot.json" := ex_meta 1 (bytes_of sn)]> ∅)) None)).
Definition mk_files (roles : list (string * metadata targets_t)) : list (string * string) :=
  ("https://r/timestamp.json", bytes_of (mk_timestamp 1 (mk_snapshot roles))) :: ("https://r/1.snapshot.json", bytes_of (mk_snapshot roles)) ::
  map (fun p => ("https://r/1." +:+ query_escape p.1 +:+ ".json", bytes_of p.2)) roles.
(** two roles describe a/x, the first one not terminating *)
Definition two_roles := [("targets", mk_targets [pkA] [("top", "top file")] [ex_dr "d1" [idB] false ["a/*"]; ex_dr "d2" [idC] false ["a/*"]]);
  ("d1", mk_targets [pkB] [("a/x", "hello")] []); ("d2", mk_targets [pkC] [("a/x", "other")] [])].
(** role x is delegated by d1 with B's key and by d2 with C's key, only B has signed it *)
Definition two_ways := [("targets", mk_targets [pkA] [] [ex_dr "d1" [idA] false ["a/*"]; ex_dr "d2" [idA] false ["b/*"]]);
  ("d1", mk_targets [pkA] [] [ex_dr "x" [idB] false ["a/*"]]); ("d2", mk_targets [pkA] [] [ex_dr "x" [idC] false ["b/*"]]);
  ("x", mk_targets [pkB] [("b/1", "hello")] [])].
(** x delegates to itself and to targets *)
Definition cyclic := [("targets", mk_targets [pkA] [] [ex_dr "x" [idB] false ["a/*"]]); ("x", mk_targets [pkB] [] [ex_dr "x" [idB] false ["a/*"]; ex_dr "targets" [idA] false ["a/*"]; ex_dr "y" [idC] false ["a/*"]]);
  ("y", mk_targets [pkC] [("a/y", "hello")] [])].
(** delegated roles with unusual names *)
Definition odd_roles (name : string) := [("targets", mk_targets [pkA] [] [ex_dr name [idB] false ["a/*"]]); (name, mk_targets [pkB] [("a/x", "hello")] [])].

(** the events of a call *)
Definition events_of {CR : Crypto} (E : env) (c : config) (a : api) (w : world) : list event := skipn (List.length (io_trace (w_io w))) (io_trace (w_io (fst (call_api E c a w)))).
Definition show_event (e : event) : string :=
  match e with
  | EvGet u _ (Ok _) => "get " +:+ u | EvGet u _ _ => "get! " +:+ u
  | EvRead p (Ok _) => "read " +:+ p | EvRead p _ => "read! " +:+ p
  | EvMkdir p _ => "mkdir " +:+ p | EvCreate p => "create " +:+ p | EvWrite p _ => "write " +:+ p
  | EvRename p q => "rename " +:+ q | EvRemove p => "remove " +:+ p | EvFail op p => "fail " +:+ op +:+ " " +:+ p | EvChoice => "choice"
  end.
Definition show {CR : Crypto} E c i l a := option_map (fun w => (map show_event (events_of E c a w), loaded_roles (w_trusted (fst (call_api E c a w))), ok_unit (snd (call_api E c a w)))) (after_calls E c i l).
