(** * Property C126: a client that is used again and again, and new roots *)
From stdpp Require Import base gmap strings list.
From Coq Require Import ZArith Lia Ascii String.
From Verif Require Import GoBase GoStr GoTime Types Marshal Keys Metadata TrustedMetadata Fetcher Updater SpecBasic SpecSig SpecDeleg SpecTrusted SpecUpdater SpecReach SpecLive SpecRotate SpecEra.
From Verif Require Import BasicProofs TrustedProofs WalkProofs HonestProofs ReachProofs LiveProofs LifeProofs RotateProofs EraProofs Toy Examples ExamplesUpdater ExamplesHonest PropertiesReach PropertiesLive PropertiesRotate.
Open Scope Z_scope.

(** ** C126 *)
(** The roots and the releases that successive sessions see are in order.  The next session that ends Refresh in time
    succeeds: it sees a root and a release at least as new as those seen before and as those current at its start; and all
    its searches and downloads are served from that release. *)
Theorem C126_follows {CR : Crypto} E c r0 roots m o n clock Rs i ks i' : c_unsafe_local c = false -> overlapping E c r0 roots m o n clock Rs -> ready_for_all E c r0 roots m n clock Rs i -> long_life E c r0 roots m o clock Rs i ks i' ->
  (forall a b k j k' j', ks !! a = Some (k, j) -> ks !! b = Some (k', j') -> (a <= b)%nat -> (k <= k' /\ j <= j')%nat) /\
  (in_time E c m o (clock (io_trace i')) i' ->
   exists k j R i1 t w1, Rs !! j = Some R /\ updater_new E c (clock (io_trace i')) i' = (i1, Ok t) /\ refresh E c (mkWorld t i1) = (w1, Ok tt) /\ up_to_date (root_number r0 roots k) (rel_pub R) (w_trusted w1) /\
     (forall k' j', (k', j') ∈ ks -> (k' <= k /\ j' <= j)%nat) /\ (m (io_trace i') <= k <= m (io_trace (w_io w1)))%nat /\ (n (io_trace i') <= j <= n (io_trace (w_io w1)))%nat /\
     forall w, used E c R w1 w -> serves_release E c (root_number r0 roots k) (clock (io_trace i')) R w).
Proof.
  intros Hloc Hline Hi Hlife. destruct (era_life E c r0 roots m o n clock Rs Hline Hloc i ks i' Hi Hlife) as (Hr & _ & Hks & Hord). split; [intros a b k j k' j' Ha Hb Hab; exact (Hord a b _ _ Ha Hb Hab)|].
  intros Htime. destruct (era_session E c r0 roots m o n clock Rs Hline Hloc i' Hr Htime) as (k & j & R & i1 & t & w1 & tr0 & Hkl & HR & Hsd & Hup & Hl & Hk & Hj & Hnew & Href & Hutd & HI & _). exists k, j, R, i1, t, w1. do 4 (split; [done|]).
  split; [intros k' j' Hin; destruct (Hks _ Hin) as [H1 H2]; cbn in H1, H2; lia|]. split; [exact Hk|]. split; [exact Hj|]. intros w Hused. apply (used_under E c roots k) in Hused.
  destruct (live_used E c r0 _ _ (under roots k R) tr0 w1 w Hsd Hup Hused Hl HI) as [Hl2 HI2]. exact (inv_serves E c r0 _ _ (under roots k R) tr0 w Hsd Hup Hl2 HI2).
Qed.
Print Assumptions C126_follows.

(** ** A concrete repository: root 2, with another timestamp key, and release 5 appear after [T] events *)
Definition ro_oldest (both : bool) (T : nat) (tr : trace) : nat := if both then 0 else lv_number T tr.
Lemma two_newer (R R' : release) : newer R R' -> forall i j X Y, (i < j)%nat -> [R; R'] !! i = Some X -> [R; R'] !! j = Some Y -> newer X Y.
Proof. intros Hn [|[|a]] [|[|b]] X Y Hab HX HY; try lia; try done. by injection HX as <-; injection HY as <-. Qed.
Lemma gen_era before after d2 dx ts sn tg ts' sn' tg' old T : gen_ok ex_config before after d2 dx ts sn tg ts' sn' tg' old = true -> newer_b ts sn tg ts' sn' [] [] = true ->
  exists r0 r Rs, overlapping (phased before after T) ex_config r0 [(d2, r)] (lv_number T) (ro_oldest old T) (lv_number T) (fun _ => ex_now) Rs /\
    ready_for_all (phased before after T) ex_config r0 [(d2, r)] (lv_number T) (lv_number T) (fun _ => ex_now) Rs no_files /\ List.length Rs = 2%nat.
Proof.
  intros Hb Hn. destruct (gen_pieces _ _ _ _ _ _ _ _ _ _ _ _ T Hb) as (r0 & r & R & R' & H1 & H2 & _ & _ & _ & H6 & H7 & D1 & D2 & Hnew). specialize (Hnew Hn). exists r0, r, [R; R']. split; [|split; [|reflexivity]].
  - split; [apply H6|]. split; [|split; [|split]].
    + clear -Hnew. exact (two_newer R R' Hnew).
    + clear -D1 D2. intros X name f HX Hf. assert (rel_roles X = ∅) as Hx by (apply elem_of_cons in HX as [-> |HX]; [done|]; by apply elem_of_list_singleton in HX as ->). rewrite Hx in Hf. by pose proof (eq_trans (eq_sym Hf) (lookup_empty (M := gmap string) name)) as [=].
    + clear. intros tr tr' (evs & ->). split; [|lia]. unfold lv_number. rewrite app_length. destruct (Nat.ltb_spec (List.length tr) T), (Nat.ltb_spec (List.length tr + List.length evs) T); lia.
    + exact H7.
  - intros k _. apply empty_ready; [exact H1|exact H2|intros tr; reflexivity|reflexivity].
Qed.
Lemma ro_newer_both : newer_b (bytes_of (lv_timestamp 4 "hello")) (bytes_of (lv_snapshot 4 "hello")) (bytes_of (lv_targets 4)) (bytes_of (ro_stamp [pkB; pkC])) (bytes_of (lv_snapshot 5 "world")) [] [] = true.
Proof. vm_compute. reflexivity. Qed.
Lemma ro_newer_new : newer_b (bytes_of (lv_timestamp 4 "hello")) (bytes_of (lv_snapshot 4 "hello")) (bytes_of (lv_targets 4)) (bytes_of (ro_stamp [pkC])) (bytes_of (lv_snapshot 5 "world")) [] [] = true.
Proof. vm_compute. reflexivity. Qed.
(** all hypotheses of C126_follows, for every [T]: the new timestamp is signed with both keys, and every client is in time *)
Example C126_case T : exists r0 r Rs, overlapping (ro_env [pkB; pkC] T) ex_config r0 [(bytes_of ro_root, r)] (lv_number T) (ro_oldest true T) (lv_number T) (fun _ => ex_now) Rs /\
  ready_for_all (ro_env [pkB; pkC] T) ex_config r0 [(bytes_of ro_root, r)] (lv_number T) (lv_number T) (fun _ => ex_now) Rs no_files /\ List.length Rs = 2%nat.
Proof. exact (gen_era _ _ _ _ _ _ _ _ _ _ _ T ro_both ro_newer_both). Qed.
Example C126_in_time E T now i : in_time E ex_config (lv_number T) (ro_oldest true T) now i.
Proof. intros i1 t w1 out tr _ _ _ _. apply Nat.le_0_l. Qed.
(** the same with the new key only: the old root is given up at once, and a client is in time if it ends before that, or
    starts after it *)
Example C126_given_up_case T : exists r0 r Rs, overlapping (ro_env [pkC] T) ex_config r0 [(bytes_of ro_root, r)] (lv_number T) (ro_oldest false T) (lv_number T) (fun _ => ex_now) Rs /\
  ready_for_all (ro_env [pkC] T) ex_config r0 [(bytes_of ro_root, r)] (lv_number T) (lv_number T) (fun _ => ex_now) Rs no_files /\ List.length Rs = 2%nat.
Proof. exact (gen_era _ _ _ _ _ _ _ _ _ _ _ T ro_new ro_newer_new). Qed.
Lemma early_in_time c E T now i : (forall i1 t, updater_new E c now i = (i1, Ok t) -> (List.length (wtr (fst (refresh E c (mkWorld t i1)))) < T)%nat) -> in_time E c (lv_number T) (ro_oldest false T) now i.
Proof.
  intros H i1 t w1 out tr Hn Hr Hl1 Hl2. specialize (H i1 t Hn). rewrite Hr in H. cbn [fst] in H. unfold wtr in H. destruct Hl2 as (evs & Hq). rewrite Hq, app_length in H. unfold ro_oldest, lv_number. rewrite (proj2 (Nat.ltb_lt (List.length tr) T)) by lia. lia.
Qed.
Lemma late_in_time c E T now i : (T <= List.length (io_trace i))%nat -> in_time E c (lv_number T) (ro_oldest false T) now i.
Proof. intros H i1 t w1 out tr _ _ _ _. unfold ro_oldest, lv_number. rewrite (proj2 (Nat.ltb_ge (List.length (io_trace i)) T)) by lia. destruct (Nat.ltb (List.length tr) T); lia. Qed.
Lemma started_early c E T i : match started E c i with Some w => Nat.ltb (List.length (wtr (fst (refresh E c w)))) T | None => true end = true -> in_time E c (lv_number T) (ro_oldest false T) ex_now i.
Proof. intros H. apply early_in_time. intros i1 t Hn. unfold started in H. rewrite Hn in H. by apply Nat.ltb_lt in H. Qed.
Example C126_early_case : in_time (ro_env [pkC] 23) ex_config (lv_number 23) (ro_oldest false 23) ex_now no_files.
Proof. apply started_early. vm_compute. reflexivity. Qed.
(** two sessions with the new key only: the first asks for the timestamp before root 2 appears, the second starts after that *)
Definition session_of (c : config) (E : env) (i : ios) : option ((Z * option Z * option Z * list (string * Z)) * ios) :=
  match started E c i with
  | Some w => match refresh E c w with (w1, Ok _) => Some (loaded_roles (w_trusted w1), w_io w1) | _ => None end
  | None => None
  end.
Definition ro_two (pks : list pubkey) (T : nat) :=
  match session_of ex_config (ro_env pks T) no_files with
  | Some (v, i) => Some (v, option_map fst (session_of ex_config (ro_env pks T) i))
  | None => None
  end.
Example C126_runs : map (ro_two [pkC]) [5; 6; 22]%nat =
  [Some ((2, Some 5, Some 5, [("targets", 5)]), Some (2, Some 5, Some 5, [("targets", 5)])); None; Some ((1, Some 4, Some 4, [("targets", 4)]), Some (2, Some 5, Some 5, [("targets", 5)]))].
Proof. vm_compute. reflexivity. Qed.
