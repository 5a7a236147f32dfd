(** * Proofs about the search for a target: cached files, determinism *)
From stdpp Require Import base gmap strings list.
From Coq Require Import ZArith Lia Ascii String.
From Verif Require Import GoBase GoStr GoTime Types Marshal Keys Metadata TrustedMetadata Fetcher Updater SpecBasic SpecTrusted SpecUpdater.
From Verif Require Import StrProofs PathProofs SigProofs DelegProofs TrustedProofs EventProofs UpdaterProofs WalkProofs BlockProofs ApiProofs RootProofs RefreshProofs.
Open Scope Z_scope.

Section Search.
Context {CR : Crypto} (E : env) (c : config).

Lemma children_delegated m path ns tm n : children m path ns tm -> n ∈ ns -> exists b, delegated m path n b.
Proof.
  intros (order & _ & Ho & [(_ & -> & _)|(_ & pre & n' & post & -> & -> & _)]) Hn.
  - apply elem_of_list_fmap in Hn as ([n1 b] & -> & Hb). exists b. by apply Ho.
  - apply elem_of_app in Hn as [Hn| ->%elem_of_list_singleton].
    + apply elem_of_list_fmap in Hn as ([n1 b] & -> & Hb). exists b. apply Ho. apply elem_of_app. by left.
    + exists true. apply Ho. apply elem_of_app. right. by left.
Qed.

(** ** What the search persists *)
Definition KDeleg (t0 t1 : trusted) (path : string) (k : kind) : Prop :=
  match k with
  | KWrite _ _ => False
  | KCall cl => match cl with UpdateDelegated _ _ _ => True | _ => False end
  | KPersist role _ => t_targets t0 !! role = None /\ exists r m b, t_targets t1 !! r = Some m /\ delegated m path role b
  | _ => True
  end.
Definition extends (t t' : trusted) : Prop := forall n m, t_targets t !! n = Some m -> t_targets t' !! n = Some m.
Lemma ksteps_extends K w w' : ksteps E c K w w' -> extends (w_trusted w) (w_trusted w').
Proof. intros H n m. by eapply ksteps_targets_keep. Qed.
Lemma extends_trans t1 t2 t3 : extends t1 t2 -> extends t2 t3 -> extends t1 t3.
Proof. intros H1 H2 n m H. by apply H2, H1. Qed.
Lemma load_targets_loaded role parent w m : t_targets (w_trusted w) !! role = Some m -> load_targets E c role parent w = (w, Ok m).
Proof. intros H. unfold load_targets, sbind, get_trusted. by rewrite H. Qed.
Lemma load_targets_deleg t0 t1 path role parent w w' o : load_targets E c role parent w = (w', o) -> is_Some (t_targets (w_trusted w) !! "targets") -> extends t0 (w_trusted w) -> extends (w_trusted w) t1 ->
  (is_Some (t_targets (w_trusted w) !! role) \/ exists r m b, t_targets (w_trusted w) !! r = Some m /\ delegated m path role b) ->
  ksteps E c (KDeleg t0 t1 path) w w' /\ forall m, o = Ok m -> t_targets (w_trusted w') !! role = Some m.
Proof.
  intros H Htop He0 He1 Hr. destruct (t_targets (w_trusted w) !! role) as [m|] eqn:Em.
  - rewrite (load_targets_loaded _ _ _ m) in H by done. injection H as <- <-. split; [constructor|]. by intros ? [= <-].
  - destruct Hr as [[? ?]|(r & m & b & Hm & Hd)]; [done|]. eapply (load_targets_steps E c (KDeleg t0 t1 path)); [exact H|exact I|intros; exact I|intros; exact I| |by right].
    intros data. split; [|exists r, m, b; split; [by apply He1|done]]. destruct (t_targets t0 !! role) as [m0|] eqn:E0; [|done]. apply He0 in E0. congruence.
Qed.
Lemma walk_deleg fuel path t0 t1 : forall visited todo w w' o, walk E c fuel path visited todo w = (w', o) -> is_Some (t_targets (w_trusted w) !! "targets") ->
  extends t0 (w_trusted w) -> extends (w_trusted w') t1 ->
  (forall r p, (r, p) ∈ todo -> is_Some (t_targets (w_trusted w) !! r) \/ exists r' m b, t_targets (w_trusted w) !! r' = Some m /\ delegated m path r b) ->
  ksteps E c (KDeleg t0 t1 path) w w'.
Proof.
  induction fuel as [|fuel IH]; intros visited todo w w' o H Htop He0 He1 Htodo; cbn [walk] in H; [injection H as <- _; constructor|].
  assert (extends (w_trusted w) (w_trusted w')) as Hext.
  { destruct (walk_search E c (S fuel) path visited todo (elements visited) w w' o) as [Hk _]; [exact H|intros; by rewrite elem_of_elements|by left|]. by eapply ksteps_extends. }
  destruct (skip_visited visited todo) as [|[role parent] rest] eqn:Esk; [injection H as <- _; constructor|].
  pose proof (skip_visited_head _ _ _ _ _ Esk) as [Hr [pre Hpre]].
  assert (forall w1 o1, load_targets E c role parent w = (w1, o1) -> ksteps E c (KDeleg t0 t1 path) w w1 /\ forall m, o1 = Ok m -> t_targets (w_trusted w1) !! role = Some m) as Hload.
  { intros w1 o1 H1. eapply load_targets_deleg; [exact H1|done|done|by eapply extends_trans|]. eapply Htodo. rewrite Hpre. apply elem_of_app. right. by left. }
  apply sbind_inv in H as [(w1 & m & H1 & H)|[(e & H1 & ->)|[H1 ->]]]; apply Hload in H1 as [H1 Hm]; [|done|done]. specialize (Hm m eq_refl).
  destruct (mget (tg_targets (md_signed m)) path) as [tf|] eqn:Eent; [by injection H as <- _|].
  pose proof (ksteps_extends _ _ _ H1) as He01.
  assert (is_Some (t_targets (w_trusted w1) !! "targets")) as Htop1 by (destruct Htop as [x Hx]; exists x; by apply He01).
  assert (forall r p, (r, p) ∈ rest -> is_Some (t_targets (w_trusted w1) !! r) \/ exists r' m b, t_targets (w_trusted w1) !! r' = Some m /\ delegated m path r b) as Hrest.
  { intros r p Hin. destruct (Htodo r p) as [[x Hx]|(r' & x & b & Hx & Hd)].
    - rewrite Hpre. apply elem_of_app. right. by right.
    - left. exists x. by apply He01.
    - right. exists r', x, b. split; [by apply He01|done]. }
  destruct (tg_delegations (md_signed m)) as [d|] eqn:Ed.
  - apply sbind_inv in H as [(w2 & roles & H2 & H)|[(e & H2 & ->)|[H2 ->]]]; [|by injection H2 as -> _..].
    injection H2 as <- Hroles. apply sbind_inv in H as [(w3 & order & H3 & H)|[(e & H3 & ->)|[H3 ->]]]; [|done|done].
    assert (ksteps E c (KDeleg t0 t1 path) w1 w3 /\ w_trusted w3 = w_trusted w1 /\ order ≡ₚ map_to_list roles) as (Hk & Ht3 & Hperm).
    { unfold lift, iterate in H3. injection H3 as <- <-. split; [eapply (ks_one _ _ _ _ KChoice); [exact I|constructor]|]. split; [done|]. apply e_order_perm. }
    destruct (take_children order) as [names term] eqn:Etk. pose proof (children_spec _ _ _ _ _ _ _ Ed Hroles Hperm Etk) as Hch.
    apply IH in H; [eapply ks_trans; [done|by eapply ks_trans]|by rewrite Ht3|rewrite Ht3; by eapply extends_trans|done|].
    rewrite Ht3. intros r p [Hin|Hin]%elem_of_app.
    + apply elem_of_list_fmap in Hin as (n & [= -> ->] & Hn). right. destruct (children_delegated _ _ _ _ _ Hch Hn) as [b Hb]. exists role, m, b. done.
    + destruct term; [by apply elem_of_nil in Hin|]. by eapply Hrest.
  - apply IH in H; [by eapply ks_trans|done|by eapply extends_trans|done|done].
Qed.
Lemma get_target_info_deleg path w w' o : get_target_info E c path w = (w', o) -> is_Some (t_targets (w_trusted w) !! "targets") ->
  ksteps E c (KDeleg (w_trusted w) (w_trusted w') path) w w'.
Proof.
  intros H [m Hm]. unfold get_target_info, sbind, get_trusted in H. unfold TARGETS in H. rewrite Hm in H. cbn in H.
  eapply walk_deleg; [exact H|eauto|by intros ? ?|by intros ? ?|]. intros r p [-> _]%elem_of_list_singleton%pair_equal_spec. left. by exists m.
Qed.
(** at every moment, cached files are those from before or belong to roles that were delegated to and not loaded before *)
Lemma search_files path w w' o evs d role : get_target_info E c path w = (w', o) -> is_Some (t_targets (w_trusted w) !! "targets") ->
  happened (w_io w) (w_io w') evs -> crash (io_disk (w_io w)) evs d ->
  d !! cache_name c role = io_disk (w_io w) !! cache_name c role \/
  (t_targets (w_trusted w) !! role = None /\ exists r m b, t_targets (w_trusted w') !! r = Some m /\ delegated m path role b).
Proof.
  intros H Htop He Hc. apply get_target_info_deleg in H; [|done]. apply ksteps_blocks in H as (bs & [He' _] & Hb). rewrite (happened_fun _ _ _ _ He He') in Hc.
  destruct (blocks_crash E c _ _ _ _ (cache_name c role) Hb) with (d := io_disk (w_io w)) (d' := d) as [Hq|(role' & data & t1 & Hk & Hq & _)]; [|done|by left|].
  - intros Ht. by apply (tmp_not_cache E c _ role Ht).
  - apply cache_name_inj in Hq as <-. by right.
Qed.

(** ** Determinism *)
(** two trusted sets hold the same metadata for the roles both have *)
Definition agree (t t' : trusted) : Prop := forall n m m', t_targets t !! n = Some m -> t_targets t' !! n = Some m' -> m = m'.
Definition one_way (t : trusted) (path : string) : Prop := forall r m n b n' b', t_targets t !! r = Some m -> delegated m path n b -> delegated m path n' b' -> n = n' /\ b = b'.
Lemma one_way_children m path ns tm ns' tm' : (forall n b n' b', delegated m path n b -> delegated m path n' b' -> n = n' /\ b = b') ->
  children m path ns tm -> children m path ns' tm' -> ns = ns' /\ tm = tm'.
Proof.
  intros Hone (o & Hnd & Ho & H) (o' & Hnd' & Ho' & H').
  assert (o = o') as <-.
  { assert (forall o, NoDup (map fst o) -> (forall n t, (n, t) ∈ o <-> delegated m path n t) -> o = [] /\ (forall n t, ~ delegated m path n t) \/ exists n t, o = [(n, t)] /\ delegated m path n t) as Hsh.
    { clear -Hone. intros [|[n t] o] Hnd Ho.
      - left. split; [done|]. intros n t Hd. apply Ho in Hd. by apply elem_of_nil in Hd.
      - right. exists n, t. assert (delegated m path n t) as Hd by (apply Ho; by left). split; [|done]. destruct o as [|[n' t'] o]; [done|].
        assert (delegated m path n' t') as Hd' by (apply Ho; right; by left). destruct (Hone _ _ _ _ Hd Hd') as [-> _]. cbn in Hnd. apply NoDup_cons in Hnd as [Hn _]. exfalso. apply Hn. by left. }
    destruct (Hsh o Hnd Ho) as [[-> Hno]|(n & t & -> & Hd)], (Hsh o' Hnd' Ho') as [[-> Hno']|(n' & t' & -> & Hd')]; [done|by apply Hno in Hd'|by apply Hno' in Hd|].
    by destruct (Hone _ _ _ _ Hd Hd') as [-> ->]. }
  destruct H as [(-> & -> & Hf)|(-> & pre & n & post & -> & -> & Hf)], H' as [(-> & -> & Hf')|(-> & pre' & n' & post' & Hp & -> & Hf')]; [done| | |].
  - exfalso. assert (true = false) by (apply (Hf n'); rewrite Hp; apply elem_of_app; right; by left). done.
  - exfalso. assert (true = false) by (apply (Hf' n); apply elem_of_app; right; by left). done.
  - split; [|done]. clear -Hp Hf Hf'. revert pre' Hp Hf'. induction pre as [|[a b] pre IH]; intros [|[a' b'] pre'] Hp Hf'.
    + by injection Hp as -> _.
    + injection Hp as <- <- _. assert (true = false) by (apply (Hf' n); by left). done.
    + injection Hp as -> -> _. assert (true = false) by (apply (Hf n'); by left). done.
    + injection Hp as -> -> Hp. cbn. f_equal. apply IH; [|done|]; intros x y Hx; [apply (Hf x y)|apply (Hf' x y)]; by right.
Qed.
Lemma search_fun t t' path s todo l v : search t path s todo l v -> agree t t' -> one_way t path -> v <> OutOfBudget -> v <> Failed -> forall l' v', search t' path s todo l' v' -> v' <> OutOfBudget -> v' <> Failed ->
  l = l' /\ v = v'.
Proof.
  intros H Ha Ho.
  assert (forall r m m' ns tm ns' tm', t_targets t !! r = Some m -> t_targets t' !! r = Some m' -> children m path ns tm -> children m' path ns' tm' -> ns = ns' /\ tm = tm') as Hch.
  { intros r m m' ns tm ns' tm' Hm Hm' Hc Hc'. rewrite <- (Ha _ _ _ Hm Hm') in Hc'. eapply one_way_children; [|done|done]. intros. by eapply Ho. }
  assert (forall m o o', entry m path o -> entry m path o' -> o = o') as Hfun by (intros m o o' (x & H1 & H2) (y & H3 & H4); congruence).
  induction H as [|s todo|s r todo l v Hr H IH|s r todo Hr|s r todo m o Hr Hm He|s r todo m ns tm l v Hr Hm He Hc H IH Hv|s r todo m ns l Hr Hm He Hc H IH|s r todo m ns l l' v Hr Hm He Hc H IH H' IH'];
    intros Hv1 Hv2 l2 v2 H2 Hv3 Hv4; inversion H2; subst; try done; try (by apply IH);
    (match goal with Hx : t_targets t' !! ?x = Some ?m', Hm : t_targets t !! ?x = Some ?m |- _ => assert (m = m') as Hmm by (by eapply Ha) end);
    try (subst; match goal with He : forall o, ~ entry ?m path o, Hx : entry ?m path _ |- _ => by destruct (He _ Hx) end);
    (try match goal with Hc : children ?m path ?ns ?tm, Hc2 : children ?m' path ?ns' ?tm', Hm : t_targets t !! ?r = Some ?m, Hx : t_targets t' !! ?r = Some ?m' |- _ => destruct (Hch _ _ _ _ _ _ _ Hm Hx Hc Hc2) as [? ?] end); try done; subst;
    try (split; [done|]; f_equal; by eapply Hfun);
    (match goal with H0 : search t' path (?r :: ?s) ?ns ?l0 ?v0 |- _ => destruct (IH ltac:(done) ltac:(done) _ _ H0) as [? ?]; try done; subst; try done end).
  match goal with H0 : search t' path (_ ++ _) _ _ _ |- _ => destruct (IH' Hv1 Hv2 _ _ H0) as [? ?]; try done; subst; done end.
Qed.
End Search.
