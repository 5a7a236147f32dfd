(** * Proofs about the events of file operations and downloads *)
From stdpp Require Import base gmap strings list.
From Coq Require Import ZArith Lia Ascii String.
From Verif Require Import GoBase GoStr GoTime Types Marshal Keys Metadata TrustedMetadata Fetcher Updater SpecBasic SpecTrusted SpecUpdater.
From Verif Require Import StrProofs PathProofs.
Open Scope Z_scope.

Section Events.
Context (E : env) (c : config).

Definition tmp_name (p : string) : Prop := exists dir n, e_cwd E = Some dir /\ p = dir +:+ "/tuf_tmp" +:+ fmt_dec n.
(** what one persistMetadata may do *)
Inductive persist_events (role data : string) : list event -> Prop :=
  | pe_none : persist_events role data []
  | pe_no_temp p : tmp_name p -> persist_events role data [EvFail "create" p]
  | pe_done p : tmp_name p -> persist_events role data [EvCreate p; EvWrite p data; EvRename p (cache_name c role)]
  | pe_not_renamed p : tmp_name p -> persist_events role data [EvCreate p; EvWrite p data; EvFail "rename" p]
  | pe_not_written p ew er : tmp_name p -> (ew = EvFail "write" p \/ exists n, ew = EvWrite p (str_take n data)) -> (er = EvRemove p \/ er = EvFail "remove" p) ->
      persist_events role data [EvCreate p; ew; er].
(** the events explain the trace and the files *)
Definition explains (i i' : ios) (evs : list event) : Prop := happened i i' evs /\ io_disk i' = replay (io_disk i) evs.
Lemma explains_nil i : explains i i [].
Proof. split; [unfold happened; by rewrite app_nil_r|done]. Qed.
Lemma explains_app i1 i2 i3 a b : explains i1 i2 a -> explains i2 i3 b -> explains i1 i3 (a ++ b).
Proof.
  intros [H1 H2] [H3 H4]. split; [unfold happened in *; by rewrite H3, H1, app_assoc|]. unfold replay in *. by rewrite fold_left_app, <- H2.
Qed.
Lemma explains_log i d e : d = apply_event (io_disk i) e -> explains i (log d i e) [e].
Proof. intros ->. split; done. Qed.

Lemma persist_shape role data i i' o : persist_metadata E c role data i = (i', o) ->
  exists evs, explains i i' evs /\ persist_events role data evs /\ (o = Ok tt -> c_disable_cache c = true /\ evs = [] \/ exists p, tmp_name p /\ evs = [EvCreate p; EvWrite p data; EvRename p (cache_name c role)]) /\
    (c_disable_cache c = true -> evs = [] /\ o = Ok tt)  /\ o <> Panic.
Proof.
  unfold persist_metadata. destruct (c_disable_cache c) eqn:Ec.
  { intros [= <- <-]. exists []. split; [apply explains_nil|]. split; [constructor|]. split; [auto|]. split; [auto|done]. }
  unfold sbind, sout. destruct (e_cwd E) as [dir|] eqn:Ecwd.
  2: { intros [= <- <-]. exists []. split; [apply explains_nil|]. split; [constructor|]. split; [done|]. split; [done|done]. }
  unfold create_temp. set (p := dir +:+ "/tuf_tmp" +:+ fmt_dec (e_rand E (io_trace i))).
  assert (tmp_name p) as Hp by (by exists dir, (e_rand E (io_trace i))).
  destruct (e_io E (io_trace i) && bool_decide (io_disk i !! p = None)).
  2: { intros [= <- <-]. eexists. split; [by apply explains_log|]. split; [by constructor|]. split; [done|]. split; [done|done]. }
  set (i1 := log (<[p:=""]> (io_disk i)) i (EvCreate p)). assert (explains i i1 [EvCreate p]) as H1 by (by apply explains_log).
  unfold satt. destruct (write_file E p data i1) as [i2 o2] eqn:Ew. unfold write_file in Ew.
  destruct (e_io E (io_trace i1)).
  { apply pair_equal_spec in Ew as [<- <-]. set (i2 := log (<[p:=data]> (io_disk i1)) i1 (EvWrite p data)). assert (explains i1 i2 [EvWrite p data]) as H2 by (by apply explains_log).
    cbv beta iota. unfold rename. assert (io_disk i2 !! p = Some data) as Hl by apply lookup_insert. rewrite Hl. destruct (e_io E (io_trace i2)).
    - intros [= <- <-]. exists [EvCreate p; EvWrite p data; EvRename p (cache_name c role)]. split; [|split; [by constructor|split; [eauto|done]]].
      apply (explains_app _ _ _ [_] [_; _] H1). apply (explains_app _ _ _ [_] [_] H2). apply explains_log. cbn [apply_event]. by rewrite Hl.
    - intros [= <- <-]. exists [EvCreate p; EvWrite p data; EvFail "rename" p]. split; [|split; [by constructor|done]].
      apply (explains_app _ _ _ [_] [_; _] H1). apply (explains_app _ _ _ [_] [_] H2). by apply explains_log. }
  assert (exists ew, explains i1 i2 [ew] /\ (ew = EvFail "write" p \/ exists n, ew = EvWrite p (str_take n data)) /\ o2 = Err (EOther "write")) as (ew & H2 & Hew & ->).
  { destruct (e_partial E (io_trace i1)); injection Ew as <- <-; eexists; (split; [by apply explains_log|]); eauto. }
  cbv beta iota. unfold remove. destruct (e_io E (io_trace i2)); intros [= <- <-].
  - exists [EvCreate p; ew; EvRemove p]. split; [|split; [constructor; auto|done]].
    apply (explains_app _ _ _ [_] [_; _] H1). apply (explains_app _ _ _ [_] [_] H2). by apply explains_log.
  - exists [EvCreate p; ew; EvFail "remove" p]. split; [|split; [constructor; auto|done]].
    apply (explains_app _ _ _ [_] [_; _] H1). apply (explains_app _ _ _ [_] [_] H2). by apply explains_log.
Qed.
End Events.
