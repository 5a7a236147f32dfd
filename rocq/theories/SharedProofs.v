(** * Proofs: clients that share their files (C104) *)
From stdpp Require Import base gmap strings list.
From Coq Require Import ZArith Lia Ascii String.
From Verif Require Import GoBase GoStr GoTime Types Marshal Keys Metadata TrustedMetadata Fetcher Updater SpecBasic SpecTrusted SpecUpdater SpecShared.
From Verif Require Import StrProofs PathProofs EventProofs UpdaterProofs WalkProofs BlockProofs ApiProofs ClaimProofs FinalProofs.
Open Scope Z_scope.

(** the events of a client, block by block *)
Inductive activity (stored : string -> string -> Prop) : list event -> Prop :=
  | act_stop : activity stored []
  | act_quiet e rest : (forall d, apply_event d e = d) -> (forall p data, e <> EvWrite p data) -> activity stored rest -> activity stored (e :: rest)
  | act_write p data rest : ~ temporary p -> (forall c role, p <> cache_name c role) -> activity stored rest -> activity stored (EvWrite p data :: rest)
  | act_store p f data rest : temporary p -> (exists c role, f = cache_name c role) -> stored f data -> activity stored rest -> activity stored (EvCreate p :: EvWrite p data :: EvRename p f :: rest)
  | act_leave p data e rest : temporary p -> (forall d, apply_event d e = d) -> (forall p data, e <> EvWrite p data) -> activity stored rest -> activity stored (EvCreate p :: EvWrite p data :: e :: rest)
  | act_drop p ew er rest : temporary p -> ((forall d, apply_event d ew = d) /\ (forall p data, ew <> EvWrite p data) \/ exists data, ew = EvWrite p data) -> (er = EvRemove p \/ er = EvFail "remove" p) -> activity stored rest -> activity stored (EvCreate p :: ew :: er :: rest).
Lemma activity_app stored a b : activity stored a -> activity stored b -> activity stored (a ++ b).
Proof.
  intros Ha Hb. induction Ha; cbn; [done|by apply act_quiet|by apply act_write|by apply act_store|by apply act_leave|by apply act_drop].
Qed.
Lemma tmp_temporary E p : tmp_name E p -> temporary p.
Proof. intros (dir & n & _ & ->). by exists dir, n. Qed.
Lemma temporary_env p : temporary p -> exists E, tmp_name E p.
Proof.
  intros (dir & n & ->). exists (mkEnv (fun _ _ _ => Panic) (fun _ => true) (fun _ => None) (Some dir) (fun _ => 0) (fun _ _ => Panic) (fun A _ l => l) (fun A _ l => Permutation_refl l)). by exists dir, n.
Qed.
Lemma temporary_not_cache p c role : temporary p -> p <> cache_name c role.
Proof. intros [E HE]%temporary_env. by eapply tmp_not_cache. Qed.
Lemma persist_activity (stored : string -> string -> Prop) E c role data evs : persist_events E c role data evs -> stored (cache_name c role) data -> activity stored evs.
Proof.
  intros [|p Hp|p Hp|p Hp|p ew er Hp Hw Hr] Hs; try apply tmp_temporary in Hp.
  - constructor.
  - constructor; [done|done|constructor].
  - constructor; [done|by eexists _, _|done|constructor].
  - constructor; [done|done|done|constructor].
  - constructor; [done| |done|constructor]. destruct Hw as [-> |[n ->]]; [by left|right; by eexists].
Qed.
Lemma activity_concat stored bs : Forall (activity stored) bs -> activity stored (List.concat bs).
Proof. induction 1; cbn; [constructor|by apply activity_app]. Qed.
Lemma quiet_list stored evs : (forall e, e ∈ evs -> (forall d, apply_event d e = d) /\ forall p data, e <> EvWrite p data) -> activity stored evs.
Proof. induction evs as [|e evs IH]; intros H; [constructor|]. destruct (H e) as [H1 H2]; [by left|]. constructor; [done|done|]. apply IH. intros x Hx. apply H. by right. Qed.

Section Shared.
Context {CR : Crypto}.
Lemma client_activity stored evs : client stored evs -> activity stored evs.
Proof.
  induction 1 as [|E c now i i' o evs rest Hn Hh Hs _ IH|E c a w w' o evs rest Hc Hh Ho Hs _ IH]; [constructor|apply activity_app; [|done]..].
  - apply new_events in Hn as (evs0 & evs1 & [Hh' _] & H0 & Hp & _ & Ht). rewrite (happened_eq _ _ _ _ Hh Hh'). apply activity_app.
    + apply quiet_list. intros e He. rewrite Forall_forall in H0. destruct (H0 e He) as (p & b & ->). done.
    + destruct evs1 as [|e evs1]; [constructor|]. destruct Ht as [t Ht]; [done|]. eapply persist_activity; [done|]. by eapply Hs.
  - apply call_api_steps in Hc as Hcases. destruct Hcases as [(tf & p & ->)|[(tf & p & u & ->)|Hk]].
    + cbn [call_api] in Hc. destruct (lift (find_cached_target E c tf p) w) as [w1 o1] eqn:Hf. injection Hc as <- _. unfold lift in Hf. destruct (find_cached_target E c tf p (w_io w)) as [i1 o2] eqn:Hf1. injection Hf as <- _.
      apply find_cached_ok in Hf1 as (_ & (evs' & Hh' & Hr) & _). cbn [w_io] in Hh. rewrite (happened_eq _ _ _ _ Hh Hh'). apply quiet_list. intros e He. destruct (Hr e He) as (q & r & ->). done.
    + cbn [call_api] in Hc. destruct (download_target E c tf p u w) as [w1 o1] eqn:Hd. injection Hc as <- _. apply download_target_run in Hd as (_ & evs' & [Hh' _] & Hr). rewrite (happened_eq _ _ _ _ Hh Hh'). clear Hh Hh' evs.
      assert (forall pre, Forall (eq EvChoice) pre -> activity stored pre) as Hpre by (intros pre Hp; apply quiet_list; intros e He; rewrite Forall_forall in Hp; by rewrite <- (Hp e He)).
      destruct Hr as [evs o' Hg|pre url q data Hp|pre url q data Hp Hf|pre url q data ew e Hp Hf _ _ Hew].
      * apply quiet_list. intros e He. rewrite Forall_forall in Hg. specialize (Hg e He). by destruct e.
      * apply activity_app; [by apply Hpre|]. apply act_quiet; [done|done|constructor].
      * apply activity_app; [by apply Hpre|]. destruct (Ho _ _ _ _ eq_refl Hf) as [H1 H2]. apply act_quiet; [done|done|]. apply act_write; [done|done|constructor].
      * apply activity_app; [by apply Hpre|]. destruct (Ho _ _ _ _ eq_refl Hf) as [H1 H2]. apply act_quiet; [done|done|]. destruct Hew as [-> |[n ->]]; [apply act_quiet; [done|done|constructor]|]. apply act_write; [done|done|constructor].
    + apply ksteps_blocks in Hk as (bs & [Hh' _] & Hbs). rewrite (happened_eq _ _ _ _ Hh Hh'). apply activity_concat. eapply Forall_impl; [exact Hbs|]. intros b [p r Hk|url len r t1 Hk Hp Ha| |role data evs' t1 Hk Hp Hhd Hpe].
      * apply act_quiet; [done|done|constructor].
      * apply act_quiet; [done|done|constructor].
      * apply act_quiet; [done|done|constructor].
      * eapply persist_activity; [done|]. by eapply Hs.
Qed.
End Shared.

(** ** Interleavings *)
Section Together.
Context (stored : string -> string -> Prop).
(** what is left to do for a client; the temporary file it is using; what is in there *)
Inductive left_over (d : disk) : list event -> option string -> Prop :=
  | lo_out es : activity stored es -> left_over d es None
  | lo_write p f data es : temporary p -> is_Some (d !! p) -> (exists c role, f = cache_name c role) -> stored f data -> activity stored es -> left_over d (EvWrite p data :: EvRename p f :: es) (Some p)
  | lo_rename p f data es : temporary p -> d !! p = Some data -> (exists c role, f = cache_name c role) -> stored f data -> activity stored es -> left_over d (EvRename p f :: es) (Some p)
  | lo_write_leave p data e es : temporary p -> is_Some (d !! p) -> (forall d, apply_event d e = d) -> (forall p data, e <> EvWrite p data) -> activity stored es -> left_over d (EvWrite p data :: e :: es) (Some p)
  | lo_drop p ew er es : temporary p -> is_Some (d !! p) -> ((forall d, apply_event d ew = d) /\ (forall p data, ew <> EvWrite p data) \/ exists data, ew = EvWrite p data) -> (er = EvRemove p \/ er = EvFail "remove" p) -> activity stored es ->
      left_over d (ew :: er :: es) (Some p)
  | lo_remove p er es : temporary p -> is_Some (d !! p) -> (er = EvRemove p \/ er = EvFail "remove" p) -> activity stored es -> left_over d (er :: es) (Some p).
(** nobody else's temporary file has changed *)
Lemma left_over_other (d d' : disk) es o : left_over d es o -> (forall p, o = Some p -> d' !! p = d !! p) -> left_over d' es o.
Proof.
  intros [es' Ha|p f data es' Hp Hd Hf Hs Ha|p f data es' Hp Hd Hf Hs Ha|p data e' es' Hp Hd He' Hw' Ha|p ew er es' Hp Hd Hew Her Ha|p er es' Hp Hd Her Ha] H; [by apply lo_out|..]; specialize (H p eq_refl).
  - apply lo_write; try done. by rewrite H.
  - eapply lo_rename; try done. by rewrite H.
  - apply lo_write_leave; try done. by rewrite H.
  - apply lo_drop; try done. by rewrite H.
  - apply lo_remove; try done. by rewrite H.
Qed.
Definition consistent_state (d : disk) (clients : list (list event)) (own : nat -> option string) : Prop :=
  (forall k es, clients !! k = Some es -> left_over d es (own k)) /\
  (forall j k p, own j = Some p -> own k = Some p -> j = k) /\ (forall k p, own k = Some p -> temporary p /\ is_Some (d !! p)).
Definition cache_ok (d0 d : disk) : Prop := forall c role, d !! cache_name c role = d0 !! cache_name c role \/ exists data, stored (cache_name c role) data /\ d !! cache_name c role = Some data.
Lemma ins_same (d : disk) p x : <[p := x]> d !! p = Some x. Proof. apply (lookup_insert (M := gmap string)). Qed.
Lemma ins_other (d : disk) p q x : p <> q -> <[p := x]> d !! q = d !! q. Proof. apply (lookup_insert_ne (M := gmap string)). Qed.
Lemma del_other (d : disk) p q : p <> q -> delete p d !! q = d !! q. Proof. apply (lookup_delete_ne (M := gmap string)). Qed.
(** client [k] takes a step that changes only files that are not in use by others *)
Lemma state_step d d' clients own k es es' o : consistent_state d clients own -> clients !! k = Some es -> left_over d' es' o ->
  (o = None \/ o = own k \/ exists p, o = Some p /\ d !! p = None) ->
  (forall j p, j <> k -> own j = Some p -> d' !! p = d !! p) ->
  (forall p, o = Some p -> temporary p /\ is_Some (d' !! p)) ->
  consistent_state d' (<[k := es']> clients) (fun j => if decide (j = k) then o else own j).
Proof.
  intros (H1 & H2 & H3) Hk Hl Ho Hd Hi. split; [|split].
  - intros j es1 Hj. destruct (decide (j = k)) as [-> |Hne].
    + rewrite list_lookup_insert in Hj by (by eapply lookup_lt_Some). by injection Hj as <-.
    + rewrite list_lookup_insert_ne in Hj by done. eapply left_over_other; [by apply H1|]. intros p Hp. by eapply Hd.
  - intros i j p Hi' Hj'. destruct (decide (i = k)) as [-> |Hik], (decide (j = k)) as [-> |Hjk]; [done|..].
    + destruct Ho as [-> |[-> |(q & -> & Hq)]]; [done|by eapply H2|]. injection Hi' as ->. destruct (H3 _ _ Hj') as [_ [x Hx]]. pose proof (eq_trans (eq_sym Hq) Hx) as [=].
    + destruct Ho as [-> |[-> |(q & -> & Hq)]]; [done|by eapply H2|]. injection Hj' as ->. destruct (H3 _ _ Hi') as [_ [x Hx]]. pose proof (eq_trans (eq_sym Hq) Hx) as [=].
    + by eapply H2.
  - intros j p Hj. destruct (decide (j = k)) as [-> |Hne]; [by apply Hi|]. rewrite (Hd j p Hne Hj). by apply (H3 j).
Qed.
Lemma cache_ok_same (d0 d d' : disk) : cache_ok d0 d -> (forall c role, d' !! cache_name c role = d !! cache_name c role) -> cache_ok d0 d'.
Proof. intros H Hs c role. rewrite Hs. apply H. Qed.
Lemma one_step d0 d clients own k e rest : consistent_state d clients own -> cache_ok d0 d -> clients !! k = Some (e :: rest) -> (forall p, e = EvCreate p -> d !! p = None) ->
  exists own', consistent_state (apply_event d e) (<[k := rest]> clients) own' /\ cache_ok d0 (apply_event d e).
Proof.
  intros Hst Hok Hk Hcr. pose proof Hst as (H1 & H2 & H3). pose proof (H1 _ _ Hk) as Hl.
  assert (forall j p q, j <> k -> own j = Some p -> own k = Some q -> q <> p) as Hdiff. { intros j p q Hj Hp Hq ->. apply Hj. by eapply H2. }
  (* a step that changes nothing *)
  assert (forall o, (forall d, apply_event d e = d) -> left_over d rest o -> (o = None \/ o = own k) -> exists own', consistent_state (apply_event d e) (<[k := rest]> clients) own' /\ cache_ok d0 (apply_event d e)) as Hquiet.
  { intros o Hq Hlo Ho. rewrite Hq. eexists. split; [|done]. eapply state_step; [done|done|done| |done|].
    - destruct Ho as [-> | ->]; auto.
    - intros p ->. destruct Ho as [?|Ho]; [done|]. by apply (H3 k). }
  (* a write to the own temporary file *)
  assert (forall p x o, e = EvWrite p x -> temporary p -> own k = Some p -> left_over (<[p := x]> d) rest o -> (o = None \/ o = Some p) -> exists own', consistent_state (apply_event d e) (<[k := rest]> clients) own' /\ cache_ok d0 (apply_event d e)) as Hwrite.
  { intros p x o -> Hp Ho Hlo Hcase. cbn [apply_event]. eexists. split.
    - eapply state_step; [done|done|done| | |].
      + destruct Hcase as [-> | ->]; [by left|right; left; by rewrite Ho].
      + intros j q Hj Hq. apply ins_other. by eapply Hdiff.
      + intros q ->. destruct Hcase as [?|[= ->]]; [done|]. split; [done|]. rewrite ins_same. by eexists.
    - eapply cache_ok_same; [done|]. intros c role. apply ins_other. by apply temporary_not_cache. }
  (* the creation of a temporary file *)
  assert (forall p, e = EvCreate p -> temporary p -> left_over (<[p := ""]> d) rest (Some p) -> exists own', consistent_state (apply_event d e) (<[k := rest]> clients) own' /\ cache_ok d0 (apply_event d e)) as Hcreate.
  { intros p -> Hp Hlo. cbn [apply_event]. specialize (Hcr p eq_refl). exists (fun j => if decide (j = k) then Some p else own j). split.
    - eapply state_step; [done|done|done|right; right; by exists p| |].
      + intros j q Hj Hq. apply ins_other. intros ->. destruct (H3 _ _ Hq) as [_ [x Hx]]. pose proof (eq_trans (eq_sym Hcr) Hx) as [=].
      + intros q [= ->]. split; [done|]. rewrite ins_same. by eexists.
    - eapply cache_ok_same; [done|]. intros c role. apply ins_other. by apply temporary_not_cache. }
  (* the removal of the own temporary file *)
  assert (forall p, (e = EvRemove p \/ e = EvFail "remove" p) -> temporary p -> own k = Some p -> activity stored rest -> exists own', consistent_state (apply_event d e) (<[k := rest]> clients) own' /\ cache_ok d0 (apply_event d e)) as Hremove.
  { intros p [He|He] Hp Ho Ha; [|apply (Hquiet None); [by rewrite He|by apply lo_out|by left]]. rewrite He. cbn [apply_event]. exists (fun j => if decide (j = k) then None else own j). split.
    - eapply state_step; [done|done|by apply lo_out|by left| |done]. intros j q Hj Hq. apply del_other. by eapply Hdiff.
    - eapply cache_ok_same; [done|]. intros c role. apply del_other. by apply temporary_not_cache. }
  remember (e :: rest) as l eqn:Hes. remember (own k) as ok eqn:Hown.
  destruct Hl as [es Ha|p f data es Hp Hd Hf Hs Ha|p f data es Hp Hd Hf Hs Ha|p data e' es Hp Hd He' Hw' Ha|p ew er es Hp Hd Hew Her Ha|p er es Hp Hd Her Ha].
  - destruct Ha as [|e' es He' Hw' Ha|p data es Hp Hc Ha|p f data es Hp Hf Hs Ha|p data e' es Hp He' Hw' Ha|p ew er es Hp Hew Her Ha]; [done|injection Hes as He Hr; symmetry in He, Hr..].
    + apply (Hquiet None); [by rewrite He|rewrite Hr; by apply lo_out|by left].
    + clear Hwrite Hcreate Hquiet Hremove. rewrite He, Hr. cbn [apply_event]. exists (fun j => if decide (j = k) then None else own j). split.
      * eapply state_step; [done|done|by apply lo_out|by left| |done]. intros j q Hj Hq. apply ins_other. intros ->. by destruct (H3 _ _ Hq).
      * eapply cache_ok_same; [done|]. intros c role. apply ins_other. apply Hc.
    + apply (Hcreate p); [done|done|]. rewrite Hr. apply lo_write; try done. rewrite ins_same. by eexists.
    + apply (Hcreate p); [done|done|]. rewrite Hr. apply lo_write_leave; try done. rewrite ins_same. by eexists.
    + apply (Hcreate p); [done|done|]. rewrite Hr. apply lo_drop; try done. rewrite ins_same. by eexists.
  - injection Hes as He Hr; symmetry in He, Hr. apply (Hwrite p data (Some p)); [done|done|done| |by right]. rewrite Hr. eapply lo_rename; try done. apply ins_same.
  - injection Hes as He Hr; symmetry in He, Hr. rewrite He, Hr. cbn [apply_event]. rewrite Hd. destruct Hf as (c & role & ->). exists (fun j => if decide (j = k) then None else own j). split.
    + eapply state_step; [done|done|by apply lo_out|by left| |done]. intros j q Hj Hq. destruct (H3 _ _ Hq) as [Hqt _]. rewrite ins_other by (apply not_eq_sym; by apply temporary_not_cache). apply del_other. by eapply Hdiff.
    + intros c' role'. destruct (decide (cache_name c role = cache_name c' role')) as [<- |Hne].
      * right. exists data. split; [done|apply ins_same].
      * rewrite ins_other by done. rewrite del_other by (by apply temporary_not_cache). apply Hok.
  - injection Hes as He Hr; symmetry in He, Hr. apply (Hwrite p data None); [done|done|done| |by left]. rewrite Hr. apply lo_out. by apply act_quiet.
  - injection Hes as He Hr; symmetry in He, Hr. destruct Hew as [[Hq Hw]|[data ->]].
    + apply (Hquiet (Some p)); [by rewrite He| |by right]. rewrite Hr. by apply lo_remove.
    + apply (Hwrite p data (Some p)); [done|done|done| |by right]. rewrite Hr. apply lo_remove; try done. rewrite ins_same. by eexists.
  - injection Hes as He Hr; symmetry in He, Hr. apply (Hremove p); [by rewrite He|done|done|by rewrite Hr].
Qed.
(** the data of a write become visible *)
Lemma part_step d0 d clients own k p data rest n : consistent_state d clients own -> cache_ok d0 d -> clients !! k = Some (EvWrite p data :: rest) ->
  consistent_state (<[p := str_take n data]> d) clients own /\ cache_ok d0 (<[p := str_take n data]> d).
Proof.
  intros Hst Hok Hk. pose proof Hst as (H1 & H2 & H3). pose proof (H1 _ _ Hk) as Hl.
  assert ((temporary p /\ own k = Some p) \/ (~ temporary p /\ forall c role, p <> cache_name c role)) as Hcase.
  { remember (EvWrite p data :: rest) as l eqn:Hes. remember (own k) as ok eqn:Hown.
    destruct Hl as [es Ha|p' f data' es Hp Hd Hf Hs Ha|p' f data' es Hp Hd Hf Hs Ha|p' data' e' es Hp Hd He' Hw' Ha|p' ew er es Hp Hd Hew Her Ha|p' er es Hp Hd Her Ha].
    - destruct Ha as [|e' es He' Hw' Ha|p' data' es Hp Hc Ha|p' f data' es Hp Hf Hs Ha|p' data' e' es Hp He' Hw' Ha|p' ew er es Hp Hew Her Ha]; try done.
      + injection Hes as -> ->. by destruct (Hw' p data).
      + injection Hes as -> -> ->. by right.
    - injection Hes as -> -> <-. by left.
    - done.
    - injection Hes as -> -> <-. by left.
    - injection Hes as -> <-. destruct Hew as [[_ Hw]|[x [= -> ->]]]; [by destruct (Hw p data)|]. by left.
    - injection Hes as -> ->. by destruct Her. }
  assert (forall c role, p <> cache_name c role) as Hnc by (destruct Hcase as [[Hp _]|[_ Hc]]; [intros c role; by apply temporary_not_cache|done]).
  split; [|eapply cache_ok_same; [done|]; intros c role; by apply ins_other].
  assert (forall j q, own j = Some q -> q <> p \/ (j = k /\ temporary p)) as Hj.
  { intros j q Hq. destruct (decide (q = p)) as [-> |Hne]; [|by left]. destruct Hcase as [[Hp Ho]|[Hn _]]; [right; split; [by eapply H2|done]|]. by destruct (H3 _ _ Hq). }
  split; [|split; [done|]].
  - intros j es Hjs. destruct (decide (j = k)) as [-> |Hne].
    + rewrite Hk in Hjs. injection Hjs as <-. destruct Hcase as [[Hp Ho]|[Hn _]].
      * rewrite Ho in *. remember (EvWrite p data :: rest) as l eqn:Hes. remember (Some p) as ok eqn:Hown.
        destruct Hl as [es Ha|p' f data' es Hp' Hd Hf Hs Ha|p' f data' es Hp' Hd Hf Hs Ha|p' data' e' es Hp' Hd He' Hw' Ha|p' ew er es Hp' Hd Hew Her Ha|p' er es Hp' Hd Her Ha]; [done|injection Hown as ->..].
        -- apply lo_write; try done. rewrite ins_same. by eexists.
        -- done.
        -- apply lo_write_leave; try done. rewrite ins_same. by eexists.
        -- apply lo_drop; try done. rewrite ins_same. by eexists.
        -- injection Hes as -> ->. by destruct Her.
      * eapply left_over_other; [done|]. intros q Hq. apply ins_other. destruct (Hj _ _ Hq) as [?|[_ ?]]; [congruence|done].
    + eapply left_over_other; [by apply H1|]. intros q Hq. apply ins_other. destruct (Hj _ _ Hq) as [?|[? _]]; congruence.
  - intros j q Hq. destruct (H3 _ _ Hq) as [Ht Hs]. split; [done|]. destruct (decide (p = q)) as [-> |Hne]; [rewrite ins_same; by eexists|]. by rewrite ins_other.
Qed.
Lemma together_ok d0 d clients own d' : together d clients d' -> consistent_state d clients own -> cache_ok d0 d -> cache_ok d0 d'.
Proof.
  intros H. revert own. induction H as [d clients|d clients k e rest d' Hk Hcr _ IH|d clients k p data rest n d' Hk _ IH]; intros own Hst Hok; [done| |].
  - destruct (one_step d0 d clients own k e rest Hst Hok Hk Hcr) as (own' & Hst' & Hok'). by eapply IH.
  - destruct (part_step d0 d clients own k p data rest n Hst Hok Hk) as [Hst' Hok']. by eapply IH.
Qed.
Lemma together_start d clients : Forall (activity stored) clients -> consistent_state d clients (fun _ => None).
Proof. intros H. split; [|done]. intros k es Hk. apply lo_out. rewrite Forall_forall in H. apply H. by eapply elem_of_list_lookup_2. Qed.
End Together.
