(** * Proofs about the search for a target *)
From stdpp Require Import base gmap strings list.
From Coq Require Import ZArith Lia Ascii String.
From Verif Require Import GoBase GoStr GoTime Types Marshal Keys Metadata TrustedMetadata Fetcher Updater SpecBasic SpecTrusted SpecUpdater.
From Verif Require Import StrProofs PathProofs SigProofs DelegProofs TrustedProofs EventProofs UpdaterProofs.
Open Scope Z_scope.
Ltac inj H := injection H; clear H; intros; subst.

Section Walk.
Context {CR : Crypto} (E : env) (c : config).

(** ** The search relation *)
Lemma search_ext t path s s' todo l v : search t path s todo l v -> (forall x, x ∈ s <-> x ∈ s') -> search t path s' todo l v.
Proof.
  intros H. revert s'. induction H; intros s' Hs.
  - apply search_nil.
  - apply search_budget.
  - apply search_seen; [by apply Hs|auto].
  - apply search_failed. by rewrite <- Hs.
  - eapply search_found; [by rewrite <- Hs|done|done].
  - eapply search_below; [by rewrite <- Hs|done|done|done| |done]. apply IHsearch. intros x. rewrite !elem_of_cons. by rewrite Hs.
  - eapply search_terminated; [by rewrite <- Hs|done|done|done|]. apply IHsearch. intros x. rewrite !elem_of_cons. by rewrite Hs.
  - eapply search_next; [by rewrite <- Hs|done|done|done| |].
    + apply IHsearch1. intros x. rewrite !elem_of_cons. by rewrite Hs.
    + apply IHsearch2. intros x. rewrite !elem_of_app, !elem_of_cons. by rewrite Hs.
Qed.
Lemma search_split t path a : forall s b l v, search t path s (a ++ b) l v ->
  (search t path s a l v /\ v <> Exhausted) \/ exists l1 l2, search t path s a l1 Exhausted /\ search t path (l1 ++ s) b l2 v /\ l = l1 ++ l2.
Proof.
  induction a as [|r a IH]; intros s b l v H; [right; exists [], l; split; [constructor|done]|]. cbn in H. inversion H; subst.
  - left. split; [apply search_budget|done].
  - match goal with H : search _ _ s (a ++ b) _ _ |- _ => destruct (IH _ _ _ _ H) as [[? ?]|(l1 & l2 & ? & ? & ->)] end.
    + left. split; [by apply search_seen|done].
    + right. exists l1, l2. split; [by apply search_seen|done].
  - left. split; [by apply search_failed|done].
  - left. split; [by eapply search_found|done].
  - left. split; [by eapply search_below|done].
  - left. split; [by eapply search_terminated|done].
  - match goal with H : search _ _ _ (a ++ b) _ _ |- _ => destruct (IH _ _ _ _ H) as [[? ?]|(l1 & l2 & ? & ? & ->)] end.
    + left. split; [by eapply search_next|done].
    + right. eexists (r :: l0 ++ l1), l2. split; [by eapply search_next|]. split; [|cbn; by rewrite app_assoc].
      eapply search_ext; [done|]. intros x. cbn. rewrite !elem_of_app, !elem_of_cons, !elem_of_app. tauto.
Qed.
Lemma search_inspected t path s todo l v : search t path s todo l v -> NoDup l /\ forall r, r ∈ l -> r ∉ s.
Proof.
  induction 1 as [|s todo|s r todo l v Hr H IH|s r todo Hr|s r todo m o Hr Hm He|s r todo m ns tm l v Hr Hm He Hc H IH Hv|s r todo m ns l Hr Hm He Hc H IH|s r todo m ns l l' v Hr Hm He Hc H IH H' IH'].
  - split; [constructor|]. intros r Hr. by apply elem_of_nil in Hr.
  - split; [constructor|]. intros r Hr. by apply elem_of_nil in Hr.
  - done.
  - split; [apply NoDup_singleton|]. by intros x ->%elem_of_list_singleton.
  - split; [apply NoDup_singleton|]. by intros x ->%elem_of_list_singleton.
  - destruct IH as [H1 H2]. split.
    + constructor; [|done]. intros Hx. apply (H2 _ Hx). by left.
    + intros x [->|Hx]%elem_of_cons; [done|]. intros Hs. apply (H2 _ Hx). by right.
  - destruct IH as [H1 H2]. split.
    + constructor; [|done]. intros Hx. apply (H2 _ Hx). by left.
    + intros x [->|Hx]%elem_of_cons; [done|]. intros Hs. apply (H2 _ Hx). by right.
  - destruct IH as [H1 H2], IH' as [H1' H2']. split.
    + constructor.
      * intros [Hx|Hx]%elem_of_app; [apply (H2 _ Hx); by left|]. apply (H2' _ Hx). apply elem_of_app. right. by left.
      * apply NoDup_app. split_and!; [done| |done]. intros x Hx Hx'. apply (H2' _ Hx'). apply elem_of_app. by left.
    + intros x [->|[Hx|Hx]%elem_of_app]%elem_of_cons; [done| |]; intros Hs.
      * apply (H2 _ Hx). by right.
      * apply (H2' _ Hx). apply elem_of_app. right. by right.
Qed.
(** no inspected role other than the answering one has an entry *)
Lemma search_exhausted_all t path s todo l v : search t path s todo l v -> v = Exhausted -> forall r, r ∈ l -> exists m, t_targets t !! r = Some m /\ forall o, ~ entry m path o.
Proof.
  induction 1 as [|s todo|s r todo l v Hr H IH|s r todo Hr|s r todo m o Hr Hm He|s r todo m ns tm l v Hr Hm He Hc H IH Hv|s r todo m ns l Hr Hm He Hc H IH|s r todo m ns l l' v Hr Hm He Hc H IH H' IH']; intros Hv'; try done.
  - by intros r ?%elem_of_nil.
  - by apply IH.
  - intros x [->|[Hx|Hx]%elem_of_app]%elem_of_cons; [by exists m|by apply IH|by apply IH'].
Qed.
Lemma search_found_last t path s todo l tf : search t path s todo l (Found tf) ->
  exists l' r m, l = l' ++ [r] /\ t_targets t !! r = Some m /\ entry m path tf /\ forall r', r' ∈ l' -> exists m', t_targets t !! r' = Some m' /\ forall o, ~ entry m' path o.
Proof.
  remember (Found tf) as v eqn:Ev.
  induction 1 as [|s todo|s r todo l v Hr H IH|s r todo Hr|s r todo m o Hr Hm He|s r todo m ns tm l v Hr Hm He Hc H IH Hv|s r todo m ns l Hr Hm He Hc H IH|s r todo m ns l l' v Hr Hm He Hc H IH H' IH']; try done.
  - by apply IH.
  - injection Ev as ->. exists [], r, m. split; [done|]. split; [done|]. split; [done|]. by intros r' ?%elem_of_nil.
  - destruct (IH Ev) as (l1 & x & mx & -> & H1 & H2 & H3). exists (r :: l1), x, mx. split; [done|]. split; [done|]. split; [done|]. intros r' [->|Hr']%elem_of_cons; [by exists m|by apply H3].
  - destruct (IH' Ev) as (l1 & x & mx & -> & H1 & H2 & H3). exists (r :: l ++ l1), x, mx. split; [cbn; by rewrite app_assoc|]. split; [done|]. split; [done|].
    intros r' [->|[Hr'|Hr']%elem_of_app]%elem_of_cons; [by exists m|exact (search_exhausted_all _ _ _ _ _ _ H eq_refl r' Hr')|by apply H3].
Qed.
Lemma search_no_entry t path s todo l v : search t path s todo l v -> forall l1 r l2 m o, l = l1 ++ r :: l2 -> t_targets t !! r = Some m -> entry m path o -> l2 = [] /\ (v = Found o \/ v = Failed).
Proof.
  assert (forall m o o', entry m path o -> entry m path o' -> o = o') as Hfun.
  { intros m o o' (x & H1 & H2) (y & H3 & H4). congruence. }
  induction 1 as [|s todo|s r todo l v Hr H IH|s r todo Hr|s r todo m o Hr Hm He|s r todo m ns tm l v Hr Hm He Hc H IH Hv|s r todo m ns l Hr Hm He Hc H IH|s r todo m ns l l' v Hr Hm He Hc H IH H' IH'];
    intros l1 x l2 m' o' Hl Hx Hx'.
  - by destruct l1.
  - by destruct l1.
  - by eapply IH.
  - destruct l1 as [|y l1]; [|injection Hl as _ Hl; by destruct l1]. injection Hl as -> <-. auto.
  - destruct l1 as [|y l1]; [|injection Hl as _ Hl; by destruct l1]. injection Hl as -> <-. split; [done|]. left. f_equal. rewrite Hm in Hx. injection Hx as <-. by eapply Hfun.
  - destruct l1 as [|y l1]; injection Hl as -> Hl; [|by eapply IH]. rewrite Hm in Hx. injection Hx as <-. by destruct (He o').
  - destruct l1 as [|y l1]; injection Hl as -> Hl; [rewrite Hm in Hx; injection Hx as <-; by destruct (He o')|]. destruct (IH _ _ _ _ _ Hl Hx Hx') as [_ [?|?]]; done.
  - destruct l1 as [|y l1]; injection Hl as -> Hl; [rewrite Hm in Hx; injection Hx as <-; by destruct (He o')|].
    apply app_eq_inv in Hl as [(k & -> & Hk)|(k & -> & Hk)].
    + destruct k as [|z k]; [|injection Hk as <- ->; by destruct (IH l1 x k m' o' eq_refl Hx Hx') as [_ [?|?]]]. cbn in Hk. eapply (IH' []); [by symmetry|done|done].
    + by eapply (IH' k).
Qed.
(** chain of delegations to the answer *)
Lemma search_leads t path s todo l v : search t path s todo l v -> forall o, v = Found o ->
  exists r0 r m, r0 ∈ todo /\ leads t path r0 r /\ t_targets t !! r = Some m /\ entry m path o /\ last l = Some r.
Proof.
  assert (forall m ns tm n, children m path ns tm -> n ∈ ns -> exists b, delegated m path n b) as Hch.
  { intros m ns tm n (order & _ & Ho & [(_ & -> & _)|(_ & pre & n' & post & -> & -> & _)]) Hn.
    - apply elem_of_list_fmap in Hn as ([n1 b] & -> & Hb). exists b. by apply Ho.
    - apply elem_of_app in Hn as [Hn| ->%elem_of_list_singleton].
      + apply elem_of_list_fmap in Hn as ([n1 b] & -> & Hb). exists b. apply Ho. apply elem_of_app. by left.
      + exists true. apply Ho. apply elem_of_app. right. by left. }
  assert (forall r m r1 r2 b, t_targets t !! r = Some m -> delegated m path r1 b -> leads t path r1 r2 -> leads t path r r2) as Hstep.
  { intros r m r1 r2 b Hm Hd Hl. induction Hl as [Hs|r1' m' r2 tm Hl IH Hm' Hd' Hs'].
    - eapply leads_step; [apply leads_refl; eauto|done|done|done].
    - by eapply leads_step. }
  induction 1 as [|s todo|s r todo l v Hr H IH|s r todo Hr|s r todo m o Hr Hm He|s r todo m ns tm l v Hr Hm He Hc H IH Hv|s r todo m ns l Hr Hm He Hc H IH|s r todo m ns l l' v Hr Hm He Hc H IH H' IH']; intros o' Ho; try done.
  - destruct (IH _ Ho) as (r0 & r1 & m1 & ? & ? & ? & ? & ?). exists r0, r1, m1. split; [by right|done].
  - injection Ho as <-. exists r, r, m. split; [by left|]. split; [apply leads_refl; eauto|]. done.
  - destruct (IH _ Ho) as (r0 & r1 & m1 & Hin & Hl & Hm1 & He1 & Hla). destruct (Hch _ _ _ _ Hc Hin) as [b Hb]. exists r, r1, m1. split; [by left|]. split; [by eapply Hstep|]. split; [done|]. split; [done|]. destruct l; [done|exact Hla].
  - destruct (IH' _ Ho) as (r0 & r1 & m1 & Hin & Hl & Hm1 & He1 & Hla). exists r0, r1, m1. split; [by right|]. split; [done|]. split; [done|]. split; [done|]. change (r :: l ++ l') with ((r :: l) ++ l'). rewrite last_app. by rewrite Hla.
Qed.

(** ** The children *)
Lemma delegated_spec m path d roles : tg_delegations (md_signed m) = Some d -> roles_for_target d path = Ok roles -> forall n b, roles !! n = Some b <-> delegated m path n b.
Proof.
  intros Hd Hr n b. unfold delegated. rewrite Hd. destruct (d_roles d) as [l|] eqn:El.
  - destruct (roles_for_target_spec d l path El) as (m' & Hm' & Hs). rewrite Hr in Hm'. injection Hm' as <-. rewrite Hs. split.
    + intros (l1 & r & l2 & -> & ? & ? & ? & ?). exists d. split; [done|]. left. exists l1, r, l2. by rewrite El.
    + intros (d' & [= <-] & [(l1 & r & l2 & Hl & ? & ? & ? & ?)|[Hn _]]); [|congruence]. rewrite El in Hl. injection Hl as ->. exists l1, r, l2. done.
  - destruct (roles_for_target_none d path El) as [Hn Hs]. split.
    + intros Hx. exists d. split; [done|]. right. split; [done|]. destruct (d_succinct d) as [s|] eqn:Es.
      * exists s, roles. rewrite <- (Hs s) by done. done.
      * rewrite Hn in Hr by done. injection Hr as <-. by rewrite lookup_empty in Hx.
    + intros (d' & [= <-] & [(l1 & r & l2 & Hl & _)|(_ & s & bins & Hs' & Hb & Hx)]); [congruence|]. rewrite (Hs s) in Hr by done. congruence.
Qed.
Lemma take_children_spec order names term : take_children order = (names, term) ->
  (term = false /\ names = map fst order /\ forall n t, (n, t) ∈ order -> t = false) \/
  (term = true /\ exists pre n post, order = pre ++ (n, true) :: post /\ names = map fst pre ++ [n] /\ forall n' t, (n', t) ∈ pre -> t = false).
Proof.
  revert names term; induction order as [|[n [|]] order IH]; intros names term; cbn.
  - intros [= <- <-]. left. split; [done|]. split; [done|]. intros n t Hx. by apply elem_of_nil in Hx.
  - intros [= <- <-]. right. split; [done|]. exists [], n, order. split; [done|]. split; [done|]. intros n' t Hx. by apply elem_of_nil in Hx.
  - destruct (take_children order) as [ns t] eqn:Et. intros [= <- <-]. destruct (IH _ _ eq_refl) as [(-> & -> & Hf)|(-> & pre & n' & post & -> & -> & Hf)].
    + left. split; [done|]. split; [done|]. intros n' t [[= -> ->]|Hx]%elem_of_cons; [done|by eapply Hf].
    + right. split; [done|]. exists ((n, false) :: pre), n', post. split; [done|]. split; [done|]. intros n1 t [[= -> ->]|Hx]%elem_of_cons; [done|by eapply Hf].
Qed.
Lemma children_spec m path d roles order names term : tg_delegations (md_signed m) = Some d -> roles_for_target d path = Ok roles -> order ≡ₚ map_to_list roles ->
  take_children order = (names, term) -> children m path names term.
Proof.
  intros Hd Hr Hp Ht. exists order. split.
  - change (map fst order) with (fst <$> order). rewrite Hp. apply NoDup_fst_map_to_list.
  - split; [|by apply take_children_spec]. intros n t. rewrite Hp, elem_of_map_to_list. by eapply delegated_spec.
Qed.
Lemma children_none m path : tg_delegations (md_signed m) = None -> children m path [] false.
Proof.
  intros Hn. exists []. split; [constructor|]. split.
  - intros n t. split; [intros Hx; by apply elem_of_nil in Hx|]. intros (d & Hd & _). congruence.
  - left. split; [done|]. split; [done|]. intros n t Hx; by apply elem_of_nil in Hx.
Qed.
Lemma entry_spec m path o : mget (tg_targets (md_signed m)) path = Some o <-> entry m path o.
Proof. unfold mget, entry. destruct (tg_targets (md_signed m)) as [l|]; split; [intros H; by exists l|by intros (l' & [= <-] & H)|done|by intros (? & ? & _)]. Qed.

(** ** The downloads of loadTargets *)
Lemma downloads_app a b : downloads (a ++ b) = downloads a ++ downloads b.
Proof. induction a as [|[] a IH]; cbn; try done. by rewrite IH. Qed.
Lemma persist_downloads role data evs : persist_events E c role data evs -> downloads evs = [].
Proof. destruct 1 as [| | | |p ew er Hp Hw Hr]; try done. destruct Hw as [->|[n ->]], Hr as [-> | ->]; done. Qed.
Lemma happened_log d i e : happened i (log d i e) [e]. Proof. done. Qed.
Lemma happened_nil i : happened i i []. Proof. unfold happened. by rewrite app_nil_r. Qed.
Lemma happened_app i1 i2 i3 a b : happened i1 i2 a -> happened i2 i3 b -> happened i1 i3 (a ++ b).
Proof. unfold happened. intros H1 H2. by rewrite H2, H1, app_assoc. Qed.
Lemma load_local_events w role w' o : lift (load_local E c role) w = (w', o) -> happened (w_io w) (w_io w') [EvRead (local_name c role) o] /\ w_trusted w' = w_trusted w.
Proof. unfold lift, load_local, read_file. intros [= <- <-]. by split. Qed.
Lemma fetch_events w url len w' o : lift (fetch E url len) w = (w', o) -> happened (w_io w) (w_io w') [EvGet url len o].
Proof. unfold lift, fetch. intros [= <- <-]. done. Qed.
Lemma download_events w role len v w' o : lift (download_metadata E c role len v) w = (w', o) -> happened (w_io w) (w_io w') [EvGet (url_of c role v) len o].
Proof. intros H. by apply fetch_events in H. Qed.
Lemma on_trusted_io {A} (f : trusted -> upd A) w w' o : on_trusted f w = (w', o) -> w_io w' = w_io w.
Proof. intros H. by apply on_trusted_inv in H as [_ ?]. Qed.
Lemma persist_happened w role data w' o : lift (persist_metadata E c role data) w = (w', o) -> exists evs, happened (w_io w) (w_io w') evs /\ persist_events E c role data evs.
Proof. intros H. apply lift_inv in H as [H _]. apply persist_shape in H as (evs & [H _] & Hp & _). eauto. Qed.
Lemma load_targets_downloads role parent w w' o : load_targets E c role parent w = (w', o) ->
  exists evs, happened (w_io w) (w_io w') evs /\ (downloads evs = [] \/ exists v, downloads evs = [url_of c role v]).
Proof.
  unfold load_targets. intros H. apply sbind_inv in H as [(w1 & t & H1 & H)|[(e & [=] & _)|[[=] _]]]. unfold get_trusted in H1. inj H1.
  destruct (t_targets (w_trusted w1) !! role) as [m0|] eqn:Em; [inj H; exists []; split; [apply happened_nil|by left]|].
  apply satt_inv in H as [(w2 & data & H2 & H)|[(w2 & e & H2 & H)|[H2 ->]]]; apply load_local_events in H2 as [H2 _]; [| |eexists; split; [done|by left]].
  - apply sbind_inv in H as [(w3 & local & H3 & H)|H].
    + assert (w_io w3 = w_io w2) as Hio.
      { apply satt_inv in H3 as [(w4 & r & H4 & H3)|[(w4 & e & H4 & H3)|[H4 H3]]]; [| |done]; apply on_trusted_io in H4; [by inj H3|]. destruct (errors_is _ _); by inj H3. }
      rewrite <- Hio in H2. destruct local as [m|]; [inj H; eexists; split; [done|by left]|].
      apply sbind_inv in H as [(w5 & t & H5 & H)|[(e & [=] & _)|[[=] _]]]. unfold get_trusted in H5. inj H5.
      destruct (t_snapshot _) as [sn|]; [|inj H; eexists; split; [done|by left]]. destruct (mget _ _) as [[f|]|]; [|inj H; eexists; split; [done|by left]..]. cbn zeta in H.
      apply sbind_inv in H as [(w6 & d & H6 & H)|[(e & H6 & ->)|[H6 ->]]]; apply download_events in H6; pose proof (happened_app _ _ _ _ _ H2 H6) as H26; [|eexists; split; [done|right; eexists; done]..].
      apply sbind_inv in H as [(w7 & m & H7 & H)|[(e & H7 & ->)|[H7 ->]]]; apply on_trusted_io in H7; rewrite <- H7 in H26; [|eexists; split; [done|right; eexists; done]..].
      apply sbind_inv in H as [(w8 & u & H8 & H)|[(e & H8 & ->)|[H8 ->]]]; apply persist_happened in H8 as (evs & H8 & Hd); apply persist_downloads in Hd;
        pose proof (happened_app _ _ _ _ _ H26 H8) as H28; [inj H| |]; (eexists; split; [done|]; rewrite downloads_app, Hd; right; eexists; done).
    + assert (w_io w' = w_io w2) as Hio.
      { assert (exists o1, (try r := on_trusted (fun t => update_delegated_targets t data role parent) in
        match r with inl m => sret (Some m) | inr e => if errors_is e (ErrRepository "") then sret None else sout (Err e) end) w2 = (w', o1)) as [o1 H3] by (destruct H as [(? & ? & _)|[? _]]; eauto).
        apply satt_inv in H3 as [(w4 & r & H4 & H3)|[(w4 & e & H4 & H3)|[H4 H3]]]; apply on_trusted_io in H4; [by inj H3| |done]. destruct (errors_is _ _); by inj H3. }
      rewrite <- Hio in H2. eexists; split; [done|by left].
  - apply sbind_inv in H as [(w3 & local & H3 & H)|[(? & [=] & _)|[[=] _]]]. inj H3.
    apply sbind_inv in H as [(w5 & t & H5 & H)|[(e' & [=] & _)|[[=] _]]]. unfold get_trusted in H5. inj H5.
    destruct (t_snapshot _) as [sn|]; [|inj H; eexists; split; [done|by left]]. destruct (mget _ _) as [[f|]|]; [|inj H; eexists; split; [done|by left]..]. cbn zeta in H.
    apply sbind_inv in H as [(w6 & d & H6 & H)|[(e' & H6 & ->)|[H6 ->]]]; apply download_events in H6; pose proof (happened_app _ _ _ _ _ H2 H6) as H26; [|eexists; split; [done|right; eexists; done]..].
    apply sbind_inv in H as [(w7 & m & H7 & H)|[(e' & H7 & ->)|[H7 ->]]]; apply on_trusted_io in H7; rewrite <- H7 in H26; [|eexists; split; [done|right; eexists; done]..].
    apply sbind_inv in H as [(w8 & u & H8 & H)|[(e' & H8 & ->)|[H8 ->]]]; apply persist_happened in H8 as (evs & H8 & Hd); apply persist_downloads in Hd;
      pose proof (happened_app _ _ _ _ _ H26 H8) as H28; [inj H| |]; (eexists; split; [done|]; rewrite downloads_app, Hd; right; eexists; done).
Qed.

(** ** The walk is a search *)
Definition walked (fuel : nat) (l : list string) (v : verdict) (o : outcome (option targetfile)) : Prop :=
  match o with
  | Ok tf => v = Found tf
  | Err e => v = Failed \/ (e = EOther "target not found" /\ (v = Exhausted \/ v = Stopped \/ (v = OutOfBudget /\ List.length l = fuel)))
  | Panic => v = Failed
  end.
Lemma persist_failed w role data w' o : lift (persist_metadata E c role data) w = (w', o) -> o <> Ok tt -> exists evs, happened (w_io w) (w_io w') evs /\ storing_failed E c evs.
Proof.
  unfold lift. destruct (persist_metadata E c role data (w_io w)) as [i o'] eqn:H. intros H' Ho. inj H'. cbn. unfold persist_metadata in H. unfold storing_failed. destruct (c_disable_cache c); [by inj H|].
  assert (forall evs : list event, e_cwd E = None \/ (exists op p, EvFail op p ∈ evs) \/ (exists p, EvRemove p ∈ evs) -> false = false /\ (e_cwd E = None \/ (exists op p, EvFail op p ∈ evs) \/ (exists p, EvRemove p ∈ evs))) as Hw by done.
  unfold sbind, sout in H. destruct (e_cwd E) as [dir|]; [|inj H; exists []; split; [apply happened_nil|by auto]].
  unfold create_temp in H. destruct (e_io E _ && _); [|inj H; eexists; split; [by apply happened_log|apply Hw; right; left; do 2 eexists; by left]].
  unfold satt in H. set (i1 := log _ _ (EvCreate _)) in H. assert (happened (w_io w) i1 [EvCreate (dir +:+ "/tuf_tmp" +:+ fmt_dec (e_rand E (io_trace (w_io w))))]) as H1 by apply happened_log.
  destruct (write_file E _ data i1) as [i2 o2] eqn:Hwr. assert (exists e, happened i1 i2 [e]) as [e He].
  { unfold write_file in Hwr. destruct (e_io E _); [|destruct (e_partial E _)]; inj Hwr; eexists; apply happened_log. }
  destruct o2 as [?|?|].
  - unfold rename in H. destruct (io_disk i2 !! _); [destruct (e_io E _); [by inj H|]|]; inj H; eexists; (split; [eapply happened_app; [exact H1|]; eapply happened_app; [exact He|apply happened_log]|]); apply Hw; right; left; do 2 eexists; right; right; by left.
  - unfold remove in H. destruct (e_io E _); inj H; eexists; (split; [eapply happened_app; [exact H1|]; eapply happened_app; [exact He|apply happened_log]|]); apply Hw; right.
    + right. eexists. right; right; by left.
    + left. do 2 eexists. right; right; by left.
  - exfalso. unfold write_file in Hwr. destruct (e_io E _); [|destruct (e_partial E _)]; by inj Hwr.
Qed.
Lemma on_trusted_delegated_err w data role parent w' o : on_trusted (fun t => update_delegated_targets t data role parent) w = (w', o) -> (forall m, o <> Ok m) -> w_trusted w' = w_trusted w.
Proof. unfold on_trusted. destruct (update_delegated_targets _ _ _ _) as [t o'] eqn:H. intros H' Ho. inj H'. cbn. by eapply update_delegated_err. Qed.
Lemma lift_trusted {A} (m : IO A) w w' o : lift m w = (w', o) -> w_trusted w' = w_trusted w.
Proof. unfold lift. destruct (m (w_io w)). intros H. by inj H. Qed.
Lemma load_targets_failed role parent w w' o evs : load_targets E c role parent w = (w', o) -> (forall m, o <> Ok m) -> happened (w_io w) (w_io w') evs ->
  t_targets (w_trusted w') !! role = None \/ storing_failed E c evs.
Proof.
  unfold load_targets. intros H Ho Hevs. apply sbind_inv in H as [(w1 & t & H1 & H)|[(e & [=] & _)|[[=] _]]]. unfold get_trusted in H1. inj H1.
  destruct (t_targets (w_trusted w1) !! role) as [m0|] eqn:Em; [by inj H; destruct (Ho m0)|].
  assert (forall w2, w_trusted w2 = w_trusted w1 -> (exists evs2, happened (w_io w1) (w_io w2) evs2) ->
    (do t := get_trusted in match t_snapshot t with
          | None => sout (Err (EOther "trusted snapshot not set"))
          | Some sn =>
              match mget (sn_meta (md_signed sn)) (json_of role) with
              | Some (Some f) =>
                  let length := if mf_length f =? 0 then c_targets_max c else mf_length f in
                  let version := if consistent t then fmt_dec (mf_version f) else "" in
                  do data := lift (download_metadata E c role length version) in
                  do m := on_trusted (fun t => update_delegated_targets t data role parent) in
                  do _ := lift (persist_metadata E c role data) in
                  sret m
              | _ => sout Panic
              end
          end) w2 = (w', o) -> t_targets (w_trusted w') !! role = None \/ storing_failed E c evs) as Htail.
  { clear H. intros w2 Ht [evs2 H2] H. apply sbind_inv in H as [(w5 & t & H5 & H)|[(e' & [=] & _)|[[=] _]]]. unfold get_trusted in H5. inj H5.
    destruct (t_snapshot _) as [sn|]; [|inj H; left; by rewrite Ht]. destruct (mget _ _) as [[f|]|]; [|inj H; left; by rewrite Ht..]. cbn zeta in H.
    apply sbind_inv in H as [(w6 & d & H6 & H)|[(e' & H6 & ->)|[H6 ->]]];
      pose proof (lift_trusted _ _ _ _ H6) as Ht6;
      apply download_events in H6; pose proof (happened_app _ _ _ _ _ H2 H6) as H26; [|left; by rewrite Ht6, Ht..].
    apply sbind_inv in H as [(w7 & m & H7 & H)|[(e' & H7 & ->)|[H7 ->]]]; [|left; apply on_trusted_delegated_err in H7; [by rewrite H7, Ht6, Ht|done]..].
    apply on_trusted_io in H7; rewrite <- H7 in H26.
    apply sbind_inv in H as [(w8 & u & H8 & H)|[(e' & H8 & ->)|[H8 ->]]]; [inj H; by destruct (Ho m)|right; apply persist_failed in H8 as (evs8 & H8 & Hf); [|done]..];
      pose proof (happened_app _ _ _ _ _ H26 H8) as H28; (assert (evs = (evs2 ++ [EvGet (url_of c role (if consistent (w_trusted w5) then fmt_dec (mf_version f) else "")) (if mf_length f =? 0 then c_targets_max c else mf_length f) (Ok d)]) ++ evs8) as -> by (unfold happened in *; rewrite H28 in Hevs; by apply app_inv_head in Hevs));
      destruct Hf as [Hf1 Hf2]; (split; [done|]); (destruct Hf2 as [?|[(op & p & Hp)|[p Hp]]]; [by left|right; left; exists op, p|right; right; exists p]); apply elem_of_app; by right. }
  apply satt_inv in H as [(w2 & data & H2 & H)|[(w2 & e & H2 & H)|[H2 ->]]].
  - apply load_local_events in H2 as [H2 Ht2]. apply sbind_inv in H as [(w3 & local & H3 & H)|H].
    + apply satt_inv in H3 as [(w4 & r & H4 & H3)|[(w4 & e & H4 & H3)|[H4 H3]]]; [| |done].
      * inj H3. inj H. by destruct (Ho r).
      * pose proof (on_trusted_io _ _ _ _ H4) as Hio. apply on_trusted_delegated_err in H4; [|done]. destruct (errors_is _ _); [|done]. inj H3. apply (Htail w3); [by rewrite H4|rewrite Hio; eauto|done].
    + left. assert (exists o1, (try r := on_trusted (fun t => update_delegated_targets t data role parent) in
        match r with inl m => sret (Some m) | inr e => if errors_is e (ErrRepository "") then sret None else sout (Err e) end) w2 = (w', o1) /\ forall m, o1 <> Ok m) as [o1 [H3 Ho1]] by (destruct H as [(? & ? & _)|[? _]]; eauto).
      apply satt_inv in H3 as [(w4 & r & H4 & H3)|[(w4 & e & H4 & H3)|[H4 H3]]]; [inj H3; by destruct (Ho1 (Some r))| |apply on_trusted_delegated_err in H4; [by rewrite H4, Ht2|done]].
      apply on_trusted_delegated_err in H4; [|done]. destruct (errors_is _ _); inj H3; by rewrite H4, Ht2.
  - apply load_local_events in H2 as [H2 Ht2]. apply sbind_inv in H as [(w3 & local & H3 & H)|[(? & [=] & _)|[[=] _]]]. inj H3. apply (Htail w3); eauto.
  - apply load_local_events in H2 as [H2 Ht2]. left. by rewrite Ht2.
Qed.
Lemma stuck_app evs evs' t path r : stuck E c evs' t path r -> stuck E c (evs ++ evs') t path r.
Proof.
  intros [?|[?|[Hf1 Hf2]]]; [by left|by right; left|]. right; right. split; [done|]. destruct Hf2 as [?|[(op & p & Hp)|[p Hp]]]; [by left|right; left; exists op, p|right; right; exists p]; apply elem_of_app; by right.
Qed.
Lemma skip_visited_search t path s visited todo l v : (forall x, x ∈ s <-> x ∈ visited) ->
  search t path s (map fst (skip_visited visited todo)) l v -> search t path s (map fst todo) l v.
Proof.
  intros Hs. induction todo as [|[r p] todo IH]; [done|]. cbn. destruct (decide (r ∈ visited)); [|done]. intros H. apply search_seen; [by apply Hs|auto].
Qed.
Lemma skip_visited_head visited todo r p rest : skip_visited visited todo = (r, p) :: rest -> r ∉ visited /\ exists pre, todo = pre ++ (r, p) :: rest.
Proof.
  induction todo as [|[r' p'] todo IH]; [done|]. cbn. destruct (decide (r' ∈ visited)); [|intros [= -> -> ->]; split; [done|by exists []]].
  intros H. destruct (IH H) as [? [pre ->]]. split; [done|]. by exists ((r', p') :: pre).
Qed.
Definition urls_for (rs us : list string) : Prop := Forall2 (fun r u => exists v, u = url_of c r v) rs us.
Lemma last_below {A} (x r : A) l : last l = Some r -> last (x :: l) = Some r.
Proof. intros H. rewrite last_cons. by rewrite H. Qed.
Lemma walk_search fuel path : forall visited todo s w w' o, walk E c fuel path visited todo w = (w', o) -> (forall x, x ∈ s <-> x ∈ visited) ->
  (is_Some (t_targets (w_trusted w) !! "targets") \/ todo = [("targets", "root")]) ->
  ksteps E c KSearch w w' /\ exists l v evs sub, search (w_trusted w') path s (map fst todo) l v /\ (List.length l <= fuel)%nat /\ walked fuel l v o /\
    happened (w_io w) (w_io w') evs /\ sub `sublist_of` l /\ urls_for sub (downloads evs) /\
    (v = Failed -> exists r, last l = Some r /\ stuck E c evs (w_trusted w') path r).
Proof.
  induction fuel as [|fuel IH]; intros visited todo s w w' o H Hs Htop; cbn [walk] in H.
  { inj H. split; [constructor|]. exists [], OutOfBudget, [], []. split; [constructor|]. split; [done|]. split; [right; auto|]. split; [apply happened_nil|]. split; [done|]. split; [constructor|done]. }
  destruct (skip_visited visited todo) as [|[role parent] rest] eqn:Esk.
  { inj H. split; [constructor|]. exists [], Exhausted, [], []. split; [apply (skip_visited_search _ _ _ _ _ _ _ Hs); rewrite Esk; constructor|]. split; [cbn; lia|]. split; [right; auto|]. split; [apply happened_nil|]. split; [done|]. split; [constructor|done]. }
  pose proof (skip_visited_head _ _ _ _ _ Esk) as [Hr [pre Hpre]].
  assert (role ∉ s) as Hrs by (by rewrite Hs).
  assert (forall l v t, search t path s (role :: map fst rest) l v -> search t path s (map fst todo) l v) as Hskip.
  { intros l v t Hse. apply (skip_visited_search _ _ _ _ _ _ _ Hs). by rewrite Esk. }
  assert (forall x, x ∈ role :: s <-> x ∈ {[role]} ∪ visited) as Hs' by (intros x; rewrite elem_of_cons, elem_of_union, elem_of_singleton, Hs; done).
  assert (forall w1 o1, load_targets E c role parent w = (w1, o1) -> ksteps E c KSearch w w1 /\ (exists evs sub, happened (w_io w) (w_io w1) evs /\ sub `sublist_of` [role] /\ urls_for sub (downloads evs)) /\
    (forall m, o1 = Ok m -> t_targets (w_trusted w1) !! role = Some m /\ is_Some (t_targets (w_trusted w1) !! "targets")) /\
    ((forall m, o1 <> Ok m) -> forall evs, happened (w_io w) (w_io w1) evs -> stuck E c evs (w_trusted w1) path role)) as Hload.
  { intros w1 o1 H1. assert ((forall m, o1 <> Ok m) -> forall evs, happened (w_io w) (w_io w1) evs -> stuck E c evs (w_trusted w1) path role) as Hstuck.
    { intros Ho evs Hevs. destruct (load_targets_failed _ _ _ _ _ _ H1 Ho Hevs) as [?|?]; [by left|by right; right]. }
    pose proof (load_targets_downloads _ _ _ _ _ H1) as (evs & Hev & Hdl).
    apply (load_targets_steps E c KSearch) in H1 as [H1 Hm]; [|done|done|done|done|].
    - split; [done|]. split.
      + destruct Hdl as [Hdl|[v Hdl]]; [exists evs, []|exists evs, [role]]; (split; [done|]); rewrite Hdl.
        * split; [apply sublist_nil_l|constructor].
        * split; [done|]. repeat constructor. by exists v.
      + split; [|done]. intros m ->. split; [by apply Hm|]. destruct Htop as [[m' Htop]| ->].
        * exists m'. by eapply ksteps_targets_keep.
        * destruct pre as [|[] pre]; [|injection Hpre as _ _ Hpre; by destruct pre]. injection Hpre as <- <- <-. exists m. by apply Hm.
    - intros ->. destruct Htop as [Htop| ->]; [by right|]. destruct pre as [|[] pre]; [|injection Hpre as _ _ Hpre; by destruct pre]. injection Hpre as <- <-. by left. }
  apply sbind_inv in H as [(w1 & m & H1 & H)|[(e & H1 & ->)|[H1 ->]]].
  2: { apply Hload in H1 as (H1 & (evs & sub & Hev & Hsub & Hu) & _ & Hst). split; [done|]. exists [role], Failed, evs, sub. split; [apply Hskip; by apply search_failed|]. split; [cbn; lia|]. split; [by left|]. split; [done|]. split; [done|]. split; [done|]. intros _. exists role. split; [done|]. by apply Hst. }
  2: { apply Hload in H1 as (H1 & (evs & sub & Hev & Hsub & Hu) & _ & Hst). split; [done|]. exists [role], Failed, evs, sub. split; [apply Hskip; by apply search_failed|]. split; [cbn; lia|]. split; [done|]. split; [done|]. split; [done|]. split; [done|]. intros _. exists role. split; [done|]. by apply Hst. }
  apply Hload in H1 as (H1 & (evs & sub & Hev & Hsub & Hu) & Hm & _). destruct (Hm m eq_refl) as [Hm1 Htop1]. clear Hm Hload.
  destruct (mget (tg_targets (md_signed m)) path) as [tf|] eqn:Eent.
  { inj H. split; [done|]. exists [role], (Found tf), evs, sub. split; [apply Hskip; eapply search_found; [done|done|by apply entry_spec]|]. split; [cbn; lia|]. split; [done|]. split; [done|]. split; [done|]. split; [done|]. intros [=]. }
  assert (forall o, ~ entry m path o) as Hne by (intros o' Ho'%entry_spec; congruence).
  destruct (tg_delegations (md_signed m)) as [d|] eqn:Ed.
  - apply sbind_inv in H as [(w2 & roles & H2 & H)|[(e & H2 & ->)|[H2 ->]]].
    2: { injection H2 as -> H2. split; [done|]. exists [role], Failed, evs, sub. split; [apply Hskip; by apply search_failed|]. split; [cbn; lia|]. split; [by left|]. split; [done|]. split; [done|]. split; [done|]. intros _. exists role. split; [done|]. right; left. exists m, d. split; [done|]. split; [done|]. intros roles Hroles. congruence. }
    2: { injection H2 as -> H2. split; [done|]. exists [role], Failed, evs, sub. split; [apply Hskip; by apply search_failed|]. split; [cbn; lia|]. split; [done|]. split; [done|]. split; [done|]. split; [done|]. intros _. exists role. split; [done|]. right; left. exists m, d. split; [done|]. split; [done|]. intros roles Hroles. congruence. }
    injection H2 as -> Hroles. apply sbind_inv in H as [(w3 & order & H3 & H)|[(e & H3 & ->)|[H3 ->]]]; [|done|done].
    assert (ksteps E c KSearch w2 w3 /\ w_trusted w3 = w_trusted w2 /\ happened (w_io w2) (w_io w3) [EvChoice] /\ order ≡ₚ map_to_list roles) as (Hk & Ht3 & Hev3 & Hperm).
    { unfold lift, iterate in H3. inj H3. split; [eapply (ks_one _ _ _ _ KChoice); [exact I|constructor]|]. split; [done|]. split; [done|]. apply e_order_perm. }
    pose proof (happened_app _ _ _ _ _ Hev Hev3) as Hev13.
    destruct (take_children order) as [names term] eqn:Etk. pose proof (children_spec _ _ _ _ _ _ _ Ed Hroles Hperm Etk) as Hch.
    apply (IH _ _ (role :: s)) in H as (Hk' & l & v & evs' & sub' & Hse & Hlen & Hout & Hev' & Hsub' & Hu' & Hst'); [|done|left; by rewrite Ht3].
    assert (t_targets (w_trusted w') !! role = Some m) as Hm' by (eapply ksteps_targets_keep; [exact Hk'|]; by rewrite Ht3).
    split; [eapply ks_trans; [done|by eapply ks_trans]|].
    assert (happened (w_io w) (w_io w') ((evs ++ [EvChoice]) ++ evs')) as Hevall by (by eapply happened_app).
    assert (exists v', search (w_trusted w') path s (map fst todo) (role :: l) v' /\ walked (S fuel) (role :: l) v' o /\ (v' = Failed -> v = Failed)) as (v' & Hse' & Hout' & Hvf).
    { destruct term.
      - rewrite app_nil_r in Hse. assert (map fst (map (fun n => (n, role)) names) = names) as Hn by (rewrite map_map; cbn; apply map_id). rewrite Hn in Hse.
        assert (v = Exhausted \/ v <> Exhausted) as [-> |Hv] by (destruct v; auto; by right).
        + exists Stopped. split; [apply Hskip; by eapply search_terminated|]. split; [|done]. unfold walked in *. destruct o as [| |]; [done| |done]. destruct Hout as [?|[-> _]]; [done|]. right. auto.
        + exists v. split; [apply Hskip; by eapply search_below|]. split; [|done]. unfold walked in *. destruct o as [| |]; [done| |done]. destruct Hout as [?|[-> [->|[->|[-> Hl]]]]]; [by left|done|right; auto|right; split; [done|]; right; right; cbn; by rewrite Hl].
      - rewrite map_app in Hse. assert (map fst (map (fun n => (n, role)) names) = names) as Hn by (rewrite map_map; cbn; apply map_id). rewrite Hn in Hse.
        apply search_split in Hse as [[Hse Hv]|(l1 & l2 & Hs1 & Hs2 & ->)].
        + exists v. split; [apply Hskip; by eapply search_below|]. split; [|done]. unfold walked in *. destruct o as [| |]; [done| |done]. destruct Hout as [?|[-> [->|[->|[-> Hl]]]]]; [by left|done|right; auto|right; split; [done|]; right; right; cbn; by rewrite Hl].
        + exists v. split; [apply Hskip; by eapply search_next|]. split; [|done]. unfold walked in *. destruct o as [| |]; [done| |done]. destruct Hout as [?|[-> [->|[->|[-> Hl]]]]]; [by left|right; auto|right; auto|right; split; [done|]; right; right; cbn; by rewrite Hl]. }
    exists (role :: l), v', ((evs ++ [EvChoice]) ++ evs'), (sub ++ sub'). split; [done|]. split; [cbn; lia|]. split; [done|]. split; [done|]. split; [change (role :: l) with ([role] ++ l); by apply sublist_app|].
    split; [rewrite !downloads_app; cbn; rewrite app_nil_r; by apply Forall2_app|].
    intros Hv'. destruct (Hst' (Hvf Hv')) as (r & Hr' & Hs''). exists r. split; [by apply last_below|by apply stuck_app].
  - apply (IH _ _ (role :: s)) in H as (Hk' & l & v & evs' & sub' & Hse & Hlen & Hout & Hev' & Hsub' & Hu' & Hst'); [|done|by left].
    assert (t_targets (w_trusted w') !! role = Some m) as Hm' by (by eapply ksteps_targets_keep).
    split; [by eapply ks_trans|]. exists (role :: l), v, (evs ++ evs'), (sub ++ sub'). split.
    { apply Hskip. change (role :: l) with (role :: [] ++ l). eapply search_next; [done|done|done|by apply children_none|constructor|done]. }
    split; [cbn; lia|]. split.
    { unfold walked in *. destruct o as [| |]; [done| |done]. destruct Hout as [?|[-> [->|[->|[-> Hl]]]]]; [by left|right; auto|right; auto|right; split; [done|]; right; right; cbn; by rewrite Hl]. }
    split; [by eapply happened_app|]. split; [change (role :: l) with ([role] ++ l); by apply sublist_app|]. split; [rewrite downloads_app; by apply Forall2_app|].
    intros Hv'. destruct (Hst' Hv') as (r & Hr' & Hs''). exists r. split; [by apply last_below|by apply stuck_app].
Qed.

(** ** GetTargetInfo *)
Lemma get_target_info_refresh path w : t_targets (w_trusted w) !! "targets" = None ->
  get_target_info E c path w = match refresh E c w with (w1, Ok _) => get_target_info E c path w1 | (w1, Err e) => (w1, Err e) | (w1, Panic) => (w1, Panic) end.
Proof.
  intros Hn. unfold get_target_info at 1. unfold sbind, get_trusted. unfold TARGETS. rewrite Hn. destruct (refresh E c w) as [w1 [[]| |]] eqn:Er; [|done|done].
  apply refresh_steps in Er as [_ Hs]. destruct (Hs eq_refl) as [m Hm]. unfold get_target_info, sbind, get_trusted. unfold TARGETS. by rewrite Hm.
Qed.
Definition budget : nat := Z.to_nat (c_max_delegations c + 1).
Lemma get_target_info_search path w w' o : get_target_info E c path w = (w', o) -> is_Some (t_targets (w_trusted w) !! "targets") ->
  ksteps E c KSearch w w' /\ exists l v evs sub, search (w_trusted w') path [] ["targets"] l v /\ (List.length l <= budget)%nat /\ walked budget l v o /\
    happened (w_io w) (w_io w') evs /\ sub `sublist_of` l /\ urls_for sub (downloads evs) /\ (v = Failed -> exists r, last l = Some r /\ stuck E c evs (w_trusted w') path r).
Proof.
  intros H [m Hm]. unfold get_target_info, sbind, get_trusted in H. unfold TARGETS in H. rewrite Hm in H. cbn in H.
  apply (walk_search _ _ _ _ []) in H; [done| |right; done]. intros x. split; [intros Hx; by apply elem_of_nil in Hx|intros Hx; by apply elem_of_empty in Hx].
Qed.
Definition KAny (k : kind) : Prop := match k with KWrite _ _ => False | _ => True end.
Lemma get_target_info_steps path w w' o : get_target_info E c path w = (w', o) -> ksteps E c KAny w w'.
Proof.
  intros H. destruct (t_targets (w_trusted w) !! "targets") as [m|] eqn:Em.
  - apply get_target_info_search in H as [H _]; [|eauto]. eapply ks_mono; [|exact H]. by intros [].
  - rewrite get_target_info_refresh in H by done. destruct (refresh E c w) as [w1 o1] eqn:Er. apply refresh_steps in Er as [Hr Hs].
    assert (ksteps E c KAny w w1) as Hr' by (eapply ks_mono; [|exact Hr]; destruct (c_unsafe_local c); by intros []).
    destruct o1 as [[]| |]; [|by inj H..]. apply get_target_info_search in H as [H _]; [|by apply Hs]. eapply ks_trans; [done|]. eapply ks_mono; [|exact H]. by intros [].
Qed.
End Walk.
