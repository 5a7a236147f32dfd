(** * Proofs of crash freedom (C92) *)
From stdpp Require Import base gmap strings list.
From Coq Require Import ZArith Lia String.
From Verif Require Import GoBase GoStr GoTime Types Marshal Keys Metadata TrustedMetadata Fetcher Updater SpecSig SpecBasic SpecTrusted SpecUpdater SpecResilience SpecPanic
  BasicProofs SigProofs TrustedProofs UpdaterProofs WalkProofs ApiProofs ClaimProofs FedProofs ResilienceProofs.
Open Scope Z_scope.

Section Panic.
Context {CR : Crypto} (E : env) (c : config) (r0 : metadata root_t) (Hr0 : proper_root r0) (Hcalm : calm E).

(** the state of a session on tame documents *)
Definition good (w : world) : Prop := held_from tame r0 (w_trusted w) /\ reachable (w_trusted w).
Definition all_tame (w : world) : Prop := forall data, received (io_trace (w_io w)) data -> tame data.
Lemma all_tame_before w w' : fed w w' -> all_tame w' -> all_tame w.
Proof. intros [Hg _] H data Hd. apply H. by eapply received_mono. Qed.
Lemma held_weaken t t' : calls_on tame t t' -> in_int64 (rt_version (md_signed (t_root t))) = true -> held_from tame r0 t -> held_from tame r0 t'.
Proof.
  intros Hc Hv Hh. apply (calls_on_inv (held_from tame r0) tame t t' Hc Hh Hv). clear. intros s (H1 & H2 & H3 & H4) _. split; [|split; [|split]].
  - intros data r Hs (_ & [Hd _] & _). split; [right; by exists data|done].
  - intros data ts Hs (_ & _ & [Hd _] & _). split; [done|]. split; [|done]. cbn. intros x [= <-]. by exists data.
  - intros data tr sn Hs (ts & _ & _ & _ & _ & [Hd _] & _). split; [done|]. split; [done|]. split; [|done]. cbn. intros x [= <-]. by exists data.
  - intros data role dl m Hs (sn & f & _ & _ & _ & _ & [Hd _] & _). split; [done|]. split; [done|]. split; [done|]. cbn. intros name m' [[_ <-]|[_ Hl]]%lookup_insert_Some; [by exists data|by eapply H4].
Qed.
Lemma good_fed w w' : good w -> fed w w' -> all_tame w' -> good w'.
Proof.
  intros [Hh Hr] [_ Hc] Ha. apply (calls_on_mono _ _ _ _ Ha) in Hc. split; [by eapply held_weaken; [exact Hc|by apply reachable_range|]|].
  destruct Hr as (data & now & t0 & Hn & Hcs). exists data, now, t0. split; [done|]. apply calls_on_calls in Hc. clear -Hcs Hc. induction Hc; [done|]. constructor; auto.
Qed.

(** ** What holds in a good state *)
Lemma good_root w : good w -> proper_root (t_root (w_trusted w)).
Proof. intros [[[->|(data & Ht & Hd)] _] _]; [done|]. destruct Ht as [[_ Ht] _]. by apply Ht. Qed.
Lemma good_timestamp w ts : good w -> t_timestamp (w_trusted w) = Some ts -> exists f, names_snapshot ts f.
Proof. intros [(_ & H & _) _] Hts. destruct (H ts Hts) as (data & (_ & [_ Ht] & _) & Hd). by apply Ht. Qed.
Lemma tame_sn_null data sn file : tame data -> from_bytes data = Ok sn -> mget (sn_meta (md_signed sn)) file <> Some None.
Proof.
  intros (_ & _ & [_ Ht] & _) Hd Hx. destruct (Ht sn Hd file) as [f Hf]; [apply mentions_file_mget; eauto|]. apply lists_file_mget in Hf. congruence.
Qed.
Lemma good_snapshot w sn file : good w -> t_snapshot (w_trusted w) = Some sn -> mget (sn_meta (md_signed sn)) file <> Some None.
Proof. intros [(_ & _ & H & _) _] Hs. destruct (H sn Hs) as (data & Ht & Hd). by eapply tame_sn_null. Qed.
Lemma good_sn_ts w sn : good w -> t_snapshot (w_trusted w) = Some sn -> exists ts f, t_timestamp (w_trusted w) = Some ts /\ names_snapshot ts f.
Proof. intros Hg Hs. destruct (toplevel_inv _ (proj2 Hg)) as (_ & _ & H & _). destruct (H sn Hs) as (_ & ts & Hts & _). destruct (good_timestamp _ _ Hg Hts) as [f Hf]. by exists ts, f. Qed.
Lemma good_targets w n m : good w -> t_targets (w_trusted w) !! n = Some m -> exists data, tame data /\ from_bytes data = Ok m.
Proof. intros [(_ & _ & _ & H) _] Hm. by eapply H. Qed.
Lemma roles_np m path d : (exists data, tame data /\ from_bytes data = Ok m) -> tg_delegations (md_signed m) = Some d -> roles_for_target d path <> Panic.
Proof.
  intros (data & (_ & _ & _ & [_ Ht]) & Hd) Hdl. destruct (Ht m Hd) as [_ Hb]. unfold roles_for_target. destruct (d_roles d) as [l|]; [done|]. destruct (d_succinct d) as [s|] eqn:Hs; [|done].
  specialize (Hb d s Hdl Hs). unfold succinct_roles_for. rewrite wrap64_id by (unfold in_int64, two63; apply andb_true_iff; split; [apply Z.leb_le|apply Z.ltb_lt]; lia).
  destruct (Z.ltb_spec (32 - sr_bit_length s) 0); [lia|done].
Qed.

(** ** Triples *)
Definition np {A} (B P : world -> Prop) (m : M A) (Q : A -> world -> Prop) : Prop :=
  tr P m Q /\ forall w w', P w -> good w -> m w = (w', Panic) -> all_tame w' -> B w'.
Lemma np_bind {A C} B P (m : M A) Q (f : A -> M C) Q' : np B P m Q -> (forall a, np B (Q a) (f a) Q') -> np B P (sbind m f) Q'.
Proof.
  intros [T1 N1] Hf. split; [by eapply tr_bind; [exact T1|intros a; apply Hf]|]. intros w w' HP Hg H Ha.
  apply sbind_inv in H as [(w1 & a & H1 & H)|[(e & H1 & [=])|[H1 _]]]; [|by eapply N1].
  destruct (T1 _ _ _ HP H1) as [F1 HQ]. destruct (Hf a) as [T2 N2]. destruct (T2 _ _ _ (HQ a eq_refl) H) as [F2 _].
  eapply N2; [by apply HQ| |exact H|done]. eapply good_fed; [done|done|]. by eapply all_tame_before.
Qed.
Lemma np_try {A C} B P (m : M A) Q (f : A + gerr -> M C) Q' : np B P m Q -> (forall a, np B (Q a) (f (inl a)) Q') -> (forall e, np B (fun _ => True) (f (inr e)) Q') -> np B P (satt m f) Q'.
Proof.
  intros [T1 N1] Hf He. split; [eapply tr_try; [exact T1|intros a; apply Hf|intros e; apply He]|]. intros w w' HP Hg H Ha.
  apply satt_inv in H as [(w1 & a & H1 & H)|[(w1 & e & H1 & H)|[H1 _]]]; [| |by eapply N1]; destruct (T1 _ _ _ HP H1) as [F1 HQ].
  - destruct (Hf a) as [T2 N2]. destruct (T2 _ _ _ (HQ a eq_refl) H) as [F2 _]. eapply N2; [by apply HQ| |exact H|done]. eapply good_fed; [done|done|]. by eapply all_tame_before.
  - destruct (He e) as [T2 N2]. destruct (T2 _ _ _ I H) as [F2 _]. eapply N2; [done| |exact H|done]. eapply good_fed; [done|done|]. by eapply all_tame_before.
Qed.
Lemma np_ret {A} B P (a : A) : np B P (sret a) any.
Proof. split; [apply tr_ret|done]. Qed.
Lemma np_out {A} B P (o : outcome A) : o <> Panic -> np B P (sout o) any.
Proof. intros Ho. split; [apply tr_out|]. intros w w' _ _ [_ H]%sout_inv. done. Qed.
Lemma np_get B P : np B P get_trusted (fun t w => t = w_trusted w /\ P w).
Proof. split; [|done]. intros w w' o HP H. unfold get_trusted in H. injection H as <- <-. split; [apply fed_refl|]. by intros a [= <-]. Qed.
Lemma np_pre {A} B (P P' : world -> Prop) (m : M A) Q : (forall w, P w -> P' w) -> np B P' m Q -> np B P m Q.
Proof. intros H [T N]. split; [by eapply tr_any|]. intros w w' HP. apply N. by apply H. Qed.
Lemma np_post {A} B P (m : M A) (Q Q' : A -> world -> Prop) : (forall a w, Q a w -> Q' a w) -> np B P m Q -> np B P m Q'.
Proof. intros H [T N]. split; [|done]. intros w w' o HP Hm. destruct (T w w' o HP Hm) as [F HQ]. split; [done|]. intros a Ho. by apply H, HQ. Qed.
(** file operations *)
Definition nop {S A} (m : S -> S * outcome A) : Prop := forall i i', m i <> (i', Panic).
Lemma np_lift {A} (m : IO A) B P : quiet m -> nop m -> np B P (lift m) any.
Proof. intros Hq Hn. split; [by apply quiet_lift|]. intros w w' _ _ [H _]%lift_inv _. by apply Hn in H. Qed.
Lemma nop_bind {S A C} (m : S -> S * outcome A) (f : A -> S -> S * outcome C) : nop m -> (forall a, nop (f a)) -> nop (sbind m f).
Proof. intros Hm Hf i i' H. apply sbind_inv in H as [(i1 & a & H1 & H)|[(e & H1 & [=])|[H1 _]]]; [by apply Hf in H|by apply Hm in H1]. Qed.
Lemma nop_try {S A C} (m : S -> S * outcome A) (f : A + gerr -> S -> S * outcome C) : nop m -> (forall a, nop (f a)) -> nop (satt m f).
Proof. intros Hm Hf i i' H. apply satt_inv in H as [(i1 & a & H1 & H)|[(i1 & e & H1 & H)|[H1 _]]]; [by apply Hf in H|by apply Hf in H|by apply Hm in H1]. Qed.
Lemma nop_out {S A} (o : outcome A) : o <> Panic -> nop (S := S) (sout o). Proof. intros Ho i i' [_ H]%sout_inv. done. Qed.
Lemma nop_ret {S A} (a : A) : nop (S := S) (sret a). Proof. by intros i i'. Qed.
Lemma nop_lift {A} (m : IO A) : nop m -> nop (lift m). Proof. intros Hm w w' [H _]%lift_inv. by apply Hm in H. Qed.
Lemma nop_persist role data : nop (persist_metadata E c role data).
Proof.
  unfold persist_metadata. destruct (c_disable_cache c); [apply nop_ret|]. apply nop_bind; [apply nop_out; by destruct (e_cwd E)|]. intros cwd. apply nop_bind. { intros i i'. unfold create_temp. by case_match. }
  intros tmp. apply nop_try. { intros i i'. unfold write_file. by repeat case_match. } intros [u|e]. { intros i i'. unfold rename. by repeat case_match. }
  apply nop_try. { intros i i'. unfold remove. by repeat case_match. } intros _. by apply nop_out.
Qed.
Lemma nop_fetch u l : nop (fetch E u l).
Proof. intros i i' H. unfold fetch in H. injection H as _ H. by destruct (proj1 Hcalm _ _ _ H). Qed.
Lemma nop_read p : nop (read_file E p).
Proof. intros i i' H. unfold read_file in H. injection H as _ H. destruct (io_disk i !! p); [|done]. by destruct (e_io E (io_trace i)). Qed.
Lemma np_persist B P role data : np B P (lift (persist_metadata E c role data)) any.
Proof. apply np_lift; [apply quiet_persist|apply nop_persist]. Qed.
Lemma np_load B P role : np B P (lift (load_local E c role)) got.
Proof. split; [apply tr_load|]. intros w w' _ _ [H _]%lift_inv _. by apply nop_read in H. Qed.
Lemma np_download B P role len v : np B P (lift (download_metadata E c role len v)) got.
Proof. split; [apply tr_download|]. intros w w' _ _ [H _]%lift_inv _. by apply nop_fetch in H. Qed.

(** calls of the trusted set *)
Lemma np_root B data : np B (got data) (on_trusted (fun t => update_root t data)) any.
Proof.
  split; [apply tr_root|]. intros w w' Hgot Hg [H Hi]%on_trusted_inv Ha. exfalso. unfold all_tame in Ha. rewrite Hi in Ha. destruct (Ha data Hgot) as [[H1 H2] _].
  by apply (update_root_np (w_trusted w) data H1 H2 (good_root w Hg)); rewrite H.
Qed.
Lemma np_timestamp B data : np B (got data) (on_trusted (fun t => update_timestamp t data)) any.
Proof.
  split; [apply tr_timestamp|]. intros w w' Hgot Hg [H Hi]%on_trusted_inv Ha. exfalso. unfold all_tame in Ha. rewrite Hi in Ha. destruct (Ha data Hgot) as (_ & [H1 H2] & _).
  apply (update_timestamp_np (w_trusted w) data H1 (good_root w Hg)); [|by rewrite H]. intros old ts Ho Hts. destruct (good_timestamp w old Hg Ho) as [fo Hfo]. destruct (H2 ts Hts) as [fn Hfn]. by exists fo, fn.
Qed.
Lemma np_snapshot B data flag : np B (got data) (upd_snapshot E data flag) any.
Proof.
  split; [apply tr_snapshot|]. intros w w' Hgot Hg H Ha. exfalso. unfold upd_snapshot in H. apply on_trusted_inv in H as [H Hi].
  assert (all_tame w) as Ha'. { intros d Hd. apply Ha. rewrite Hi. eapply received_mono; [apply grows_log|exact Hd]. } pose proof (Ha' data Hgot) as Ht. pose proof Ht as (_ & _ & [H1 _] & _).
  apply (update_snapshot_np (e_order E (option metafile) (io_trace (w_io w))) (w_trusted w) data flag); [apply e_order_perm|done|by apply good_root|intros ts; by apply good_timestamp| |by cbn [w_trusted] in H; rewrite H].
  intros old sn Ho Hsn file. split; [by eapply good_snapshot|by eapply tame_sn_null].
Qed.
Lemma np_targets B data role parent : np B (got data) (on_trusted (fun t => update_delegated_targets t data role parent)) any.
Proof.
  split; [apply tr_targets|]. intros w w' Hgot Hg [H Hi]%on_trusted_inv Ha. exfalso. unfold all_tame in Ha. rewrite Hi in Ha. destruct (Ha data Hgot) as (_ & _ & _ & [H1 H2]).
  apply (update_delegated_np (w_trusted w) data role parent H1 (good_root w Hg)); [| |by rewrite H].
  - intros d Hd. destruct (good_targets w _ d Hg Hd) as (data' & (_ & _ & _ & [_ Ht]) & Hf). by apply (Ht d Hf).
  - intros sn Hsn. split; [by eapply good_snapshot|by eapply good_sn_ts].
Qed.

(** ** The parts of the updater *)
Lemma np_load_root B P : np B P (load_root E c) any.
Proof.
  assert (forall fuel next P, np B P (root_loop E c fuel next) any) as Hl.
  { induction fuel as [|fuel IH]; intros next P'; cbn [root_loop]; [apply np_ret|]. apply (np_try _ _ _ got); [apply np_download| |].
    - intros data. apply (np_bind _ _ _ any); [apply np_root|]. intros r. apply (np_bind _ _ _ any); [apply np_persist|]. intros u. apply IH.
    - intros e. repeat case_match; first [apply np_ret|by apply np_out]. }
  split; [intros w w' o HP H; by apply (tr_load_root E c _ _ _ I H)|]. intros w w' HP Hg H Ha. unfold load_root in H. by eapply (proj2 (Hl _ _ (fun _ => True))).
Qed.
Lemma np_load_timestamp B P : np B P (load_timestamp E c) any.
Proof.
  unfold load_timestamp. apply (np_try _ _ _ got); [apply np_load| |].
  all: intros x; apply (np_bind _ _ _ any); [|intros u; apply (np_bind _ _ _ got); [apply np_download|]; intros data; apply (np_try _ _ _ any); [apply np_timestamp|intros ts; apply np_persist|intros e; case_match; first [apply np_ret|by apply np_out]]].
  - apply (np_try _ _ _ any); [apply np_timestamp|intros ts; apply np_ret|intros e; case_match; first [apply np_ret|by apply np_out]].
  - apply np_ret.
Qed.
Lemma np_load_snapshot B P : np B P (load_snapshot E c) any.
Proof.
  unfold load_snapshot. apply (np_try _ _ _ got); [apply np_load| |].
  all: intros x; apply (np_bind _ _ _ any).
  2,4: intros [|]; [apply np_ret|]; apply (np_bind _ _ _ _ _ _ (np_get _ _)); intros t; destruct (t_timestamp t) as [ts|] eqn:Hts; [|by apply np_out]; destruct (snapshot_meta ts) as [f|] eqn:Hf;
    [apply (np_bind _ _ _ got); [apply np_download|]; intros data; apply (np_bind _ _ _ any); [apply np_snapshot|]; intros sn; apply np_persist
    |split; [apply tr_out|]; intros w w' [-> _] Hg _ _; exfalso; destruct (good_timestamp w ts Hg Hts) as [f Hf']; apply snapshot_meta_spec in Hf'; congruence].
  - apply (np_try _ _ _ any); [apply np_snapshot|intros ts; apply np_ret|intros e; case_match; first [apply np_ret|by apply np_out]].
  - apply np_ret.
Qed.
Lemma np_load_targets role parent P : np (fun w => unlisted (w_trusted w) role) P (load_targets E c role parent) any.
Proof.
  unfold load_targets. apply (np_bind _ _ _ _ _ _ (np_get _ _)). intros t. destruct (t_targets t !! role) as [m|]; [apply np_ret|].
  apply (np_try _ _ _ got); [apply np_load| |].
  all: intros x; apply (np_bind _ _ _ any).
  2,4: intros [m|]; [apply np_ret|]; apply (np_bind _ _ _ _ _ _ (np_get _ _)); intros t'; destruct (t_snapshot t') as [sn|] eqn:Hsn; [|by apply np_out]; destruct (mget _ _) as [[f|]|] eqn:Hf;
    [apply (np_bind _ _ _ got); [apply np_download|]; intros data; apply (np_bind _ _ _ any); [apply np_targets|]; intros m; apply (np_bind _ _ _ any); [apply np_persist|]; intros u; apply np_ret
    |split; [apply tr_out|]; intros w w' [-> _] Hg [<- _]%sout_inv _; exists sn; split; [done|]; intros f Hl; apply lists_file_mget in Hl; unfold json_of in Hf; congruence..].
  - apply (np_try _ _ _ any); [apply np_targets|intros ts; apply np_ret|intros e; case_match; first [apply np_ret|by apply np_out]].
  - apply np_ret.
Qed.
Lemma np_refresh P : np (fun w => unlisted (w_trusted w) "targets") P (refresh E c) any.
Proof.
  unfold refresh. destruct (c_unsafe_local c).
  - unfold unsafe_refresh. apply (np_bind _ _ _ got); [apply np_load|]. intros d1. apply (np_bind _ _ _ any); [apply np_timestamp|]. intros ?.
    apply (np_bind _ _ _ got); [apply np_load|]. intros d2. apply (np_bind _ _ _ any); [apply np_snapshot|]. intros ?.
    apply (np_bind _ _ _ got); [apply np_load|]. intros d3. apply (np_bind _ _ _ any); [apply np_targets|]. intros ?. apply np_ret.
  - unfold online_refresh. apply (np_bind _ _ _ any); [apply np_load_root|]. intros ?. apply (np_bind _ _ _ any); [apply np_load_timestamp|]. intros ?.
    apply (np_bind _ _ _ any); [apply np_load_snapshot|]. intros ?. apply (np_bind _ _ _ any); [apply np_load_targets|]. intros ?. apply np_ret.
Qed.

(** the search *)
Definition todo_ok (path : string) (todo : list (string * string)) (w : world) : Prop :=
  (is_Some (t_targets (w_trusted w) !! "targets") \/ todo = [("targets", "root")]) /\ forall role parent, (role, parent) ∈ todo -> wanted (w_trusted w) path role.
Definition blamed (path : string) (w : world) : Prop := exists role, wanted (w_trusted w) path role /\ unlisted (w_trusted w) role.
Lemma wanted_keep t t' path role : (forall n m, t_targets t !! n = Some m -> t_targets t' !! n = Some m) -> wanted t path role -> wanted t' path role.
Proof. intros H [->|(d & dm & b & Hd & Hx)]; [by left|]. right. exists d, dm, b. split; [by apply H|done]. Qed.
Lemma skip_visited_in visited todo x : x ∈ skip_visited visited todo -> x ∈ todo.
Proof. induction todo as [|[r p] todo IH]; cbn [skip_visited]; [done|]. destruct (decide _); intros Hx; [by right; apply IH|done]. Qed.
Lemma load_keep role parent w w' o : (is_Some (t_targets (w_trusted w) !! "targets") \/ (role = "targets" /\ parent = "root")) -> load_targets E c role parent w = (w', o) ->
  (forall n m, t_targets (w_trusted w) !! n = Some m -> t_targets (w_trusted w') !! n = Some m) /\ (is_Some (t_targets (w_trusted w) !! "targets") -> is_Some (t_targets (w_trusted w') !! "targets")) /\
  forall m, o = Ok m -> t_targets (w_trusted w') !! role = Some m.
Proof.
  intros Hp H. apply (load_targets_steps E c (fun _ => True)) in H as [Hk Hm]; [|done..|]. 2: { intros ->. destruct Hp as [?|[-> _]]; [by right|by left]. }
  assert (forall n m, t_targets (w_trusted w) !! n = Some m -> t_targets (w_trusted w') !! n = Some m) as Hkeep by (intros n m; by eapply ksteps_targets_keep). split; [done|]. split; [|done]. intros [m Hx]. exists m. by apply Hkeep.
Qed.
Lemma take_children_in order ns term n : take_children order = (ns, term) -> n ∈ ns -> exists b, (n, b) ∈ order.
Proof.
  revert ns term. induction order as [|[x b] order IH]; intros ns term H Hn; cbn in H; [injection H as <- <-; by apply elem_of_nil in Hn|]. destruct b.
  - injection H as <- <-. apply elem_of_list_singleton in Hn as ->. exists true. left.
  - destruct (take_children order) as [ns' t'] eqn:Ht. injection H as <- <-. apply elem_of_cons in Hn as [->|Hn]; [exists false; left|]. destruct (IH _ _ eq_refl Hn) as [b Hb]. exists b. by right.
Qed.
Lemma walk_np fuel path : forall visited todo w w', todo_ok path todo w -> good w -> walk E c fuel path visited todo w = (w', Panic) -> all_tame w' -> blamed path w'.
Proof.
  induction fuel as [|fuel IH]; intros visited todo w w' [Htop Htodo] Hg H Ha; cbn [walk] in H; [by apply sout_inv in H as [_ H]|].
  destruct (skip_visited visited todo) as [|[role parent] rest] eqn:Hsk; [by apply sout_inv in H as [_ H]|].
  assert (forall x, x ∈ (role, parent) :: rest -> x ∈ todo) as Hin. { intros x. rewrite <-Hsk. apply skip_visited_in. }
  pose proof (Htodo role parent (Hin _ (elem_of_list_here _ _))) as Hw.
  assert (is_Some (t_targets (w_trusted w) !! "targets") \/ (role = "targets" /\ parent = "root")) as Hp.
  { destruct Htop as [?| ->]; [by left|]. specialize (Hin _ (elem_of_list_here _ _)). apply elem_of_list_singleton in Hin. injection Hin as -> ->. by right. }
  apply sbind_inv in H as [(w1 & m & H1 & H)|[(e & _ & [=])|[H1 _]]].
  2: { destruct (load_keep _ _ _ _ _ Hp H1) as [Hk _]. exists role. split; [by eapply wanted_keep|]. by eapply (proj2 (np_load_targets role parent (fun _ => True))). }
  destruct (load_keep _ _ _ _ _ Hp H1) as (Hk & Hk' & Hm). specialize (Hm m eq_refl).
  assert (is_Some (t_targets (w_trusted w1) !! "targets")) as Htop1. { destruct Hp as [?|[-> ->]]; [by apply Hk'|by exists m]. }
  assert (fed w w1) as F1. { by apply (tr_load_targets E c role parent w w1 _ I H1). }
  destruct (mget (tg_targets (md_signed m)) path) as [tf|] eqn:Htf; [by injection H|].
  destruct (tg_delegations (md_signed m)) as [d|] eqn:Hd.
  - apply sbind_inv in H as [(w2 & roles & H2 & H)|[(e & _ & [=])|[H2 _]]]; apply sout_inv in H2 as [-> H2].
    2: { exfalso. destruct F1 as [G1 C1]. assert (good w1) as Hg1 by (eapply good_fed; [done|by split|done]). by apply (roles_np m path d (good_targets w1 _ m Hg1 Hm) Hd). }
    apply sbind_inv in H as [(w3 & order & H3 & H)|[(e & _ & [=])|[H3 _]]]; pose proof H3 as H3'; apply lift_inv in H3 as [H3 Ht3]; [|done].
    destruct (take_children order) as [ns term] eqn:Hc.
    assert (fed w1 w3) as F2. { by apply (quiet_lift _ (fun _ => True) (quiet_iterate E (Some roles)) w1 w3 _ I H3'). }
    pose proof (tr_walk E c fuel path _ _ w3 w' _ I H) as [F3 _].
    eapply IH; [| |exact H|done].
    + unfold todo_ok. rewrite Ht3. split; [by left|]. intros r p Hr. apply elem_of_app in Hr as [Hr|Hr].
      * apply elem_of_list_fmap in Hr as (n & [= -> ->] & Hn). destruct (take_children_in _ _ _ _ Hc Hn) as [b Hb]. right. exists role, m, b. split; [done|].
        apply (delegated_spec m path d roles Hd (eq_sym H2)).
        unfold iterate in H3. injection H3 as _ <-. rewrite e_order_perm in Hb. cbn [mlist] in Hb. by apply elem_of_map_to_list in Hb.
      * assert ((r, p) ∈ todo) as Hx. { apply Hin. right. by destruct term; [apply elem_of_nil in Hr|]. } eapply wanted_keep; [|by eapply Htodo]. done.
    + eapply good_fed; [eapply (good_fed w w1); [done|done|]|done|]; [eapply all_tame_before; [exact F2|]|]; by eapply all_tame_before.
  - pose proof (tr_walk E c fuel path _ _ w1 w' _ I H) as [F3 _]. eapply IH; [| |exact H|done].
    + split; [by left|]. intros r p Hr. eapply wanted_keep; [|eapply Htodo; apply Hin; by right]. done.
    + eapply good_fed; [done|done|]. by eapply all_tame_before.
Qed.
Lemma info_np path w w' : good w -> get_target_info E c path w = (w', Panic) -> all_tame w' -> blamed path w'.
Proof.
  intros Hg H Ha. unfold get_target_info in H. apply sbind_inv in H as [(w1 & t & H1 & H)|[(e & [=] & _)|[[=] _]]]. unfold get_trusted in H1. injection H1 as <- <-.
  apply sbind_inv in H as [(w1 & u & H1 & H)|[(e & H1 & [=])|[H1 _]]].
  - unfold pre_order_walk in H. eapply walk_np; [| |exact H|done].
    + split; [by right|]. intros role parent Hr. apply elem_of_list_singleton in Hr. injection Hr as -> ->. by left.
    + destruct (t_targets (w_trusted w) !! TARGETS); [by injection H1 as <- _|]. pose proof (tr_walk E c _ path _ _ w1 w' _ I H) as [F3 _]. eapply good_fed; [done|by apply (tr_refresh E c w w1 _ I H1)|]. by eapply all_tame_before.
  - destruct (t_targets (w_trusted w) !! TARGETS); [done|]. exists "targets". split; [by left|]. by eapply (proj2 (np_refresh (fun _ => True))).
Qed.
Lemma target_path_np tf : target_file_path E c tf <> Panic.
Proof. unfold target_file_path. destruct (_ && _); [done|]. unfold url_join. repeat case_match; try done. apply Hcalm. Qed.
Lemma verify_np tf data : targetfile_verify tf data <> Panic.
Proof. destruct (targetfile_verify_cases tf data) as [->|[msg ->]]; done. Qed.
Lemma download_np tf p u : nop (download_target E c tf p u).
Proof.
  unfold download_target. apply nop_bind. { apply nop_out. destruct (String.eqb p ""); [apply target_path_np|done]. } intros fp.
  apply nop_bind. { apply nop_out. by repeat case_match. } intros bu. apply nop_bind. { by intros w w'. } intros t.
  apply nop_bind. { destruct (_ && _); [|apply nop_ret]. apply nop_bind. { by apply nop_lift. } intros hs. apply nop_ret. } intros path.
  apply nop_bind. { apply nop_lift, nop_fetch. } intros data. apply nop_bind. { apply nop_out, verify_np. } intros ?.
  apply nop_bind. { destruct (c_disable_cache c); [apply nop_ret|]. apply nop_lift. intros i i'. unfold write_file. by repeat case_match. } intros ?. apply nop_ret.
Qed.
Lemma find_np tf p : nop (find_cached_target E c tf p).
Proof.
  unfold find_cached_target. destruct (c_disable_cache c); [apply nop_ret|]. apply nop_bind. { apply nop_out. destruct (String.eqb p ""); [apply target_path_np|done]. } intros q.
  apply nop_try; [apply nop_read|]. intros [data|e]; [|apply nop_ret]. pose proof (verify_np tf data) as Hv. destruct (targetfile_verify tf data); [apply nop_ret|apply nop_ret|done].
Qed.

(** ** Sessions *)
Lemma api_np a w w' : good w -> call_api E c a w = (w', Panic) -> all_tame w' ->
  match a with Refresh => unlisted (w_trusted w') "targets" | GetTargetInfo path => blamed path w' | _ => False end.
Proof.
  intros Hg H Ha. destruct a as [|path|tf p u|tf p]; unfold call_api in H.
  - by eapply (proj2 (np_refresh (fun _ => True))).
  - destruct (get_target_info E c path w) as [w1 o1] eqn:H1. injection H as <- Ho. destruct o1; [done|done|]. by eapply info_np.
  - destruct (download_target E c tf p u w) as [w1 o1] eqn:H1. injection H as <- Ho. destruct o1; [done|done|]. by apply download_np in H1.
  - destruct (lift (find_cached_target E c tf p) w) as [w1 o1] eqn:H1. injection H as <- Ho. destruct o1; [done|done|]. apply lift_inv in H1 as [H1 _]. by apply find_np in H1.
Qed.
End Panic.

Section Session.
Context {CR : Crypto}.
Lemma session_np E c now w a w' : calm E -> tame_root (c_trusted_root c) -> shown_session tame E c now w -> (forall data, received (io_trace (w_io w')) data -> tame data) -> call_api E c a w = (w', Panic) ->
  match a with Refresh => unlisted (w_trusted w') "targets" | GetTargetInfo path => exists role, wanted (w_trusted w') path role /\ unlisted (w_trusted w') role | _ => False end.
Proof.
  intros Hc [_ Hr] Hs Ha H. destruct (shown_calls tame E c now w Hs) as [Hs' (t0 & Ht & Hcs)]. pose proof (proj1 (tm_new_spec _ _ _) Ht) as (r & [Hd _] & _ & ->).
  refine (api_np E c r (Hr r Hd) Hc a w w' _ H Ha). split; [|by eapply session_reachable].
  refine (calls_on_held tame _ _ Hcs (new_range _ _ _ Ht) _). by split; [left|].
Qed.
Lemma new_np E c now i i' : tame_root (c_trusted_root c) -> updater_new E c now i <> (i', Panic).
Proof.
  intros [Hr1 Hr2]. revert i i'. change (nop (updater_new E c now)). unfold updater_new. destruct (_ || _); [by apply nop_out|].
  apply nop_bind; [by apply nop_out, tm_new_np|]. intros t. apply nop_bind; [|intros ?; apply nop_bind; [apply nop_persist|intros ?; apply nop_ret]].
  unfold ensure_paths. destruct (c_disable_cache c); [apply nop_ret|]. apply nop_bind; [|intros ?]; intros i i'; unfold mkdir_all; by repeat case_match.
Qed.

(** ** A checker *)
Definition null_free {A} (m : gomap (option A)) : bool := forallb (fun p => match p.2 with Some _ => true | None => false end) (mlist m).
Lemma null_free_ok {A} (m : gomap (option A)) : null_free m = true -> forall k, mget m k <> Some None.
Proof. unfold null_free. rewrite forallb_forall. intros H k Hk. apply (BasicProofs.mlist_elem m (k, None)), elem_of_list_In, H in Hk. discriminate. Qed.
Definition keys_b (keys : gomap (option key)) : bool :=
  null_free keys && forallb (fun p => match p.2 with Some k => match to_public_key k with Ok (PkEd25519 raw) => Nat.eqb (String.length raw) 32 | _ => true end | None => true end) (mlist keys).
Lemma keys_ok keys : keys_b keys = true -> proper_keys keys.
Proof.
  unfold keys_b. rewrite andb_true_iff, forallb_forall. intros [H1 H2]. split; [by apply null_free_ok|]. intros id pk (m & k & -> & Hk & Hpk) raw ->.
  assert ((id, Some k) ∈ mlist (Some m)) as Hin by (by apply (BasicProofs.mlist_elem (Some m) (id, Some k))). apply elem_of_list_In, H2 in Hin. cbn in Hin. rewrite Hpk in Hin. by apply Nat.eqb_eq in Hin.
Qed.
Definition tame_b (data : string) : bool :=
  match from_bytes (T := root_t) data with Ok r => null_free (rt_roles (md_signed r)) && keys_b (rt_keys (md_signed r)) | Err _ => true | Panic => false end &&
  match from_bytes (T := timestamp_t) data with Ok ts => match snapshot_meta ts with Some _ => true | None => false end | Err _ => true | Panic => false end &&
  match from_bytes (T := snapshot_t) data with Ok sn => null_free (sn_meta (md_signed sn)) | Err _ => true | Panic => false end &&
  match from_bytes (T := targets_t) data with
  | Ok m => match tg_delegations (md_signed m) with
            | Some d => keys_b (d_keys d) && match d_succinct d with Some s => (0 <=? sr_bit_length s) && (sr_bit_length s <=? 32) | None => true end
            | None => true end
  | Err _ => true | Panic => false end.
Lemma tame_ok data : tame_b data = true -> tame data.
Proof.
  unfold tame_b. rewrite !andb_true_iff. intros [[[H1 H2] H3] H4]. split; [|split; [|split]].
  - destruct (from_bytes (T := root_t) data) as [r| |] eqn:Hf; [|split; rewrite Hf; done|done]. split; rewrite Hf; [done|]. intros r' [= <-]. apply andb_prop in H1 as [H0 H1]. split; [by apply null_free_ok|by apply keys_ok].
  - destruct (from_bytes (T := timestamp_t) data) as [r| |] eqn:Hf; [|split; rewrite Hf; done|done]. split; rewrite Hf; [done|]. intros r' [= <-]. destruct (snapshot_meta r) as [f|] eqn:Hs; [|done]. exists f. by apply snapshot_meta_spec.
  - destruct (from_bytes (T := snapshot_t) data) as [r| |] eqn:Hf; [|split; rewrite Hf; done|done]. split; rewrite Hf; [done|]. intros r' [= <-] file Hm. apply mentions_file_mget in Hm as [[f|] Hm]; [|by apply null_free_ok in Hm]. exists f. by apply lists_file_mget.
  - destruct (from_bytes (T := targets_t) data) as [r| |] eqn:Hf; [|split; rewrite Hf; done|done]. split; rewrite Hf; [done|]. intros r' [= <-]. destruct (tg_delegations (md_signed r)) as [d|] eqn:Hd.
    + apply andb_prop in H4 as [H4 H5]. split. { intros d' Hd'. rewrite Hd in Hd'. injection Hd' as <-. by apply keys_ok. } intros d' s Hd' Hs. injection Hd' as <-. rewrite Hs in H5. apply andb_prop in H5 as [H5 H6]. apply Z.leb_le in H5, H6. done.
    + split; [|done]. intros d' Hd'. congruence.
Qed.
End Session.
