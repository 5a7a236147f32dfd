(** * Property C104: clients that share a cache directory *)
From stdpp Require Import base gmap strings list.
From Coq Require Import ZArith Lia Ascii String.
From Verif Require Import GoBase GoStr Json GoTime Types Marshal Keys Metadata TrustedMetadata Fetcher Updater SpecBasic SpecTrusted SpecUpdater SpecShared
  StrProofs TrustedProofs EventProofs ApiProofs ClaimProofs SharedProofs Toy Examples ExamplesUpdater.
Open Scope Z_scope.

Lemma holds_whole {CR : Crypto} t role data : holds t role data -> whole data.
Proof. intros [[_ H]|[(_ & m & _ & H)|[(_ & m & _ & H)|(m & _ & H)]]]; [left; by eexists|right; left; by eexists|right; right; left; by eexists|right; right; right; by eexists]. Qed.
Lemma new_whole {CR : Crypto} data now t : tm_new data now = Ok t -> whole data.
Proof. intros H. apply tm_new_spec in H as (r & Hr & _). left. by exists r. Qed.
Lemma client_whole {CR : Crypto} stored evs : client stored evs -> client (fun f data => stored f data /\ whole data) evs.
Proof.
  induction 1 as [|E c now i i' o evs rest Hn Hh Hs _ IH|E c a w w' o evs rest Hc Hh Ho Hs _ IH]; [constructor|..].
  - eapply client_new; [exact Hn|exact Hh| |exact IH]. intros t Ht. split; [by eapply Hs|by eapply new_whole].
  - eapply client_call; [exact Hc|exact Hh|exact Ho| |exact IH]. intros role data t Hp Ht. split; [by eapply Hs|by eapply holds_whole].
Qed.
(** ** C104 *)
(** Any number of clients use the same directory at the same time, with any interleaving and any of them stopping anywhere.
    At every moment each metadata file of the cache is as it was before, or it holds a complete document that one of the
    clients has verified and put in this very file *)
Theorem C104_shared {CR : Crypto} stored d0 clients d c role : Forall (client stored) clients -> together d0 clients d ->
  d !! cache_name c role = d0 !! cache_name c role \/
  exists data, d !! cache_name c role = Some data /\ stored (cache_name c role) data /\ whole data.
Proof.
  intros H Ht. assert (Forall (activity (fun f data => stored f data /\ whole data)) clients) as Ha by (eapply Forall_impl; [exact H|]; intros evs He; by apply client_activity, client_whole).
  pose proof (together_ok _ d0 d0 clients _ d Ht (together_start _ _ _ Ha)) as Hok. destruct (Hok (fun c role => or_introl eq_refl) c role) as [Hd|(data & [Hs Hw] & Hd)]; [by left|right; by exists data].
Qed.
Print Assumptions C104_shared.
(** So a reader that opens a metadata file at any moment never gets a part of a document, if there was none before *)
Theorem C104_whole {CR : Crypto} stored d0 clients d : Forall (client stored) clients -> together d0 clients d ->
  (forall c role data, d0 !! cache_name c role = Some data -> whole data) -> forall c role data, d !! cache_name c role = Some data -> whole data.
Proof.
  intros H Ht H0 c role data Hd. destruct (C104_shared stored d0 clients d c role H Ht) as [He|(x & Hx & _ & Hw)]; [eapply H0; exact (eq_trans (eq_sym He) Hd)|].
  pose proof (eq_trans (eq_sym Hx) Hd) as [= ->]. exact Hw.
Qed.
Print Assumptions C104_whole.

(** *** A case: two clients, each New and Refresh, event by event in turns.  When the first has written a part of the
    second root to its temporary file, /m/root.json holds the complete first root *)
Definition shared_events {CR : Crypto} (E : env) (c : config) (i : ios) : list event :=
  match started E c i with Some w => skipn (List.length (io_trace i)) (io_trace (w_io (fst (call_api E c Refresh w)))) | None => [] end.
Lemma shared_client {CR : Crypto} E c i : client (fun _ => whole) (shared_events E c i).
Proof.
  unfold shared_events, started. destruct (updater_new E c ex_now i) as [i' o] eqn:Hn. destruct o as [t| |]; [|constructor..].
  destruct (call_api E c Refresh (mkWorld t i')) as [w o] eqn:Hw. cbn [fst].
  destruct (new_events E c ex_now i i' (Ok t) Hn) as (evs0 & evs1 & [Hi _] & _).
  destruct (api_events E c Refresh (mkWorld t i') w o Hw ltac:(intros; discriminate) ltac:(intros; discriminate)) as (evss & [Hw' _] & _). cbn [w_io] in Hw'.
  assert (skipn (List.length (io_trace i)) (io_trace (w_io w)) = (evs0 ++ evs1) ++ List.concat evss ++ []) as ->.
  { unfold happened in *. rewrite Hw', Hi, app_nil_r, <- app_assoc. by rewrite drop_app. }
  eapply client_new; [exact Hn|exact Hi|intros t' Ht'; by eapply new_whole|]. eapply client_call; [exact Hw|exact Hw'|intros tf g u p [=]|intros role data t' _ Hh; by eapply holds_whole|constructor].
Qed.
(** the clients named in the schedule do one event each *)
Fixpoint scheduled (l : list nat) (d : disk) (clients : list (list event)) : option (disk * list (list event)) :=
  match l with
  | [] => Some (d, clients)
  | k :: l => match clients !! k with
              | Some (e :: rest) => if match e with EvCreate p => bool_decide (d !! p = None) | _ => true end then scheduled l (apply_event d e) (<[k := rest]> clients) else None
              | _ => None
              end
  end.
Lemma scheduled_together l d clients d1 clients1 d2 : scheduled l d clients = Some (d1, clients1) -> together d1 clients1 d2 -> together d clients d2.
Proof.
  revert d clients. induction l as [|k l IH]; intros d clients; cbn [scheduled]; [by intros [= -> ->]|]. destruct (clients !! k) as [[|e rest]|] eqn:Hk; [done| |done].
  destruct (match e with EvCreate p => bool_decide (d !! p = None) | _ => true end) eqn:He; [|done]. intros Hs Ht. eapply together_event; [exact Hk| |by eapply IH].
  intros p ->. by apply bool_decide_eq_true in He.
Qed.
Definition turns (n : nat) : list nat := List.concat (repeat [0; 1] n)%nat.
Definition two_clients : list (list event) := [shared_events (ex_env ex_files) ex_config no_files; shared_events (ex_env ex_files) ex_config (mkIos ∅ [EvMkdir "/m" true])].
Lemma two_clients_part n (P : disk -> bool) : match scheduled (turns n) ∅ two_clients with
    | Some (d, clients) => match clients !! 0%nat with Some (EvWrite p data :: _) => P (<[p := str_take 10 data]> d) | _ => false end
    | None => false
    end = true -> exists d, together ∅ two_clients d /\ P d = true.
Proof.
  destruct (scheduled (turns n) ∅ two_clients) as [[d clients]|] eqn:Hs; [|done]. destruct (clients !! 0%nat) as [[|e rest]|] eqn:Hk; [done| |done]. destruct e as [| | | |p data| | | |]; try done.
  intros HP. eexists. split; [|exact HP]. eapply scheduled_together; [exact Hs|]. eapply together_part; [exact Hk|]. apply together_now.
Qed.
Example C104_case : exists d, together ∅ two_clients d /\ Forall (client (fun _ => whole)) two_clients /\
  d !! "/w/tuf_tmp6" = Some (str_take 10 (bytes_of (ex_root 2))) /\ d !! cache_name ex_config "root" = Some (bytes_of (ex_root 1)).
Proof.
  destruct (two_clients_part 7 (fun d => bool_decide (d !! "/w/tuf_tmp6" = Some (str_take 10 (bytes_of (ex_root 2)))) && bool_decide (d !! cache_name ex_config "root" = Some (bytes_of (ex_root 1))))) as (d & Hd & HP); [vm_compute; reflexivity|].
  apply andb_prop in HP as [H1 H2]. apply bool_decide_eq_true in H1, H2. exists d. split; [exact Hd|]. split; [|split; [exact H1|exact H2]].
  apply Forall_cons. split; [apply shared_client|]. apply Forall_cons. split; [apply shared_client|]. apply Forall_nil. exact I.
Qed.

(** What the clients do not have is one common notion of what is newest.  A client that has looked at the cache before
    another one stores its metadata, and stores its own afterwards, puts the file back: the cached timestamp goes from
    version 9 to version 8, though both clients have checked theirs *)
Definition stored_version (d : disk) (c : config) : option Z :=
  match d !! cache_name c "timestamp" with Some data => match from_bytes (T := timestamp_t) data with Ok m => Some (ts_version (md_signed m)) | _ => None end | None => None end.
Lemma scheduled_now l d clients d1 clients1 : scheduled l d clients = Some (d1, clients1) -> together d clients d1.
Proof. intros H. eapply scheduled_together; [exact H|constructor]. Qed.
Definition remains (clients clients1 : list (list event)) : Prop := Forall2 (fun evs evs1 => exists done, evs = done ++ evs1) clients clients1.
Lemma scheduled_remains l d clients d1 clients1 : scheduled l d clients = Some (d1, clients1) -> remains clients clients1.
Proof.
  revert d clients. induction l as [|k l IH]; intros d clients; cbn [scheduled].
  - intros [= -> ->]. apply Forall2_same_length_lookup. split; [done|]. intros i x y Hx Hy. rewrite Hx in Hy. injection Hy as ->. by exists [].
  - destruct (clients !! k) as [[|e rest]|] eqn:Hk; [done| |done]. destruct (match e with EvCreate p => bool_decide (d !! p = None) | _ => true end); [|done].
    intros Hs. apply IH in Hs. apply Forall2_same_length_lookup in Hs as [Hl Hs]. rewrite insert_length in Hl. apply Forall2_same_length_lookup. split; [done|].
    intros i x y Hx Hy. destruct (decide (i = k)) as [-> |Hne].
    + rewrite Hk in Hx. injection Hx as <-. destruct (Hs k rest y) as [pre ->]; [apply list_lookup_insert; by eapply lookup_lt_Some|done|]. by exists (e :: pre).
    + apply (Hs i); [by rewrite list_lookup_insert_ne|done].
Qed.
Lemma late_store l l' d clients c v v' : (match scheduled l d clients with
    | Some (d1, clients1) => match scheduled l' d1 clients1 with Some (d2, _) => bool_decide (stored_version d1 c = Some v) && bool_decide (stored_version d2 c = Some v') | None => false end
    | None => false
    end = true) -> exists d1 clients1 d2, together d clients d1 /\ remains clients clients1 /\ together d1 clients1 d2 /\ together d clients d2 /\ stored_version d1 c = Some v /\ stored_version d2 c = Some v'.
Proof.
  destruct (scheduled l d clients) as [[d1 clients1]|] eqn:H1; [|done]. destruct (scheduled l' d1 clients1) as [[d2 clients2]|] eqn:H2; [|done].
  intros H. apply andb_prop in H as [Hv Hv']. apply bool_decide_eq_true in Hv, Hv'. exists d1, clients1, d2.
  apply scheduled_now in H2. split; [by eapply scheduled_now|]. split; [by eapply scheduled_remains|]. split; [exact H2|]. split; [by eapply scheduled_together|done].
Qed.
Definition slow_client : list (list event) :=
  [shared_events (ex_env ex_files) ex_config no_files; shared_events (ex_env (("https://r/timestamp.json", bytes_of (ex_timestamp_v 8)) :: ex_files)) ex_config (mkIos ∅ [EvMkdir "/m" true])].
Theorem C104_newest_refuted : exists (CR : Crypto) clients c d1 clients1 d2, Forall (client (fun _ => whole)) clients /\ together ∅ clients d1 /\ remains clients clients1 /\ together d1 clients1 d2 /\ together ∅ clients d2 /\
  stored_version d1 c = Some 9 /\ stored_version d2 c = Some 8.
Proof.
  destruct (late_store (repeat 1 14 ++ repeat 0 15)%nat [1]%nat ∅ slow_client ex_config 9 8) as (d1 & clients1 & d2 & H1 & Hr & H2 & H3 & Hv & Hv'); [vm_compute; reflexivity|].
  exists toy_crypto, slow_client, ex_config, d1, clients1, d2. split; [|split; [exact H1|split; [exact Hr|split; [exact H2|split; [exact H3|split; [exact Hv|exact Hv']]]]]].
  apply Forall_cons. split; [apply shared_client|]. apply Forall_cons. split; [apply shared_client|]. apply Forall_nil. exact I.
Qed.
Print Assumptions C104_newest_refuted.
