(** * Proofs: the targets of an honest repository are found and delivered (C103) *)
From stdpp Require Import base gmap strings list.
From Coq Require Import ZArith Lia Ascii String.
From Verif Require Import GoBase GoStr GoTime Types Marshal Keys Metadata TrustedMetadata Fetcher Updater SpecBasic SpecSig SpecDeleg SpecTrusted SpecUpdater SpecReach.
From Verif Require Import StrProofs PathProofs SigProofs BasicProofs TrustedProofs EventProofs UpdaterProofs WalkProofs BlockProofs ApiProofs RootProofs RefreshProofs HonestProofs ClaimProofs FinalProofs.
Open Scope Z_scope.

Section Reach.
Context {CR : Crypto} (E : env) (c : config).

(** ** Searching *)
(** an exhausted search has inspected everything it could reach, unless that had been seen before *)
Lemma search_closed t path s todo l v : search t path s todo l v -> v = Exhausted ->
  (forall r, r ∈ todo -> r ∈ l ++ s) /\ forall r m n term, r ∈ l -> t_targets t !! r = Some m -> delegated m path n term -> n ∈ l ++ s.
Proof.
  assert (forall m ns n term, children m path ns false -> delegated m path n term -> n ∈ ns) as Hch.
  { intros m ns n term (order & _ & Ho & [(_ & -> & _)|(? & _)]) Hd; [|done]. apply elem_of_list_fmap. exists (n, term). split; [done|]. by apply Ho. }
  induction 1 as [|s todo|s r todo l v Hr H IH|s r todo Hr|s r todo m o Hr Hm He|s r todo m ns tm l v Hr Hm He Hc H IH Hv|s r todo m ns l Hr Hm He Hc H IH|s r todo m ns l l' v Hr Hm He Hc H IH H' IH']; intros Hv'; try done.
  - split; [by intros r ?%elem_of_nil|]. by intros r m n term ?%elem_of_nil.
  - destruct (IH Hv') as [H1 H2]. split; [|done]. intros x [-> |Hx]%elem_of_cons; [apply elem_of_app; by right|by apply H1].
  - destruct (IH eq_refl) as [H1 H2], (IH' Hv') as [H1' H2']. split.
    + intros x [-> |Hx]%elem_of_cons; [by left|]. specialize (H1' _ Hx). cbn. rewrite elem_of_cons, !elem_of_app. rewrite !elem_of_app, elem_of_cons in H1'. tauto.
    + intros x mx n term [-> |[Hx|Hx]%elem_of_app]%elem_of_cons Hmx Hd; cbn; rewrite elem_of_cons, !elem_of_app.
      * rewrite Hm in Hmx. injection Hmx as <-. specialize (H1 _ (Hch _ _ _ _ Hc Hd)). rewrite elem_of_app, elem_of_cons in H1. tauto.
      * specialize (H2 _ _ _ _ Hx Hmx Hd). rewrite elem_of_app, elem_of_cons in H2. tauto.
      * specialize (H2' _ _ _ _ Hx Hmx Hd). rewrite !elem_of_app, elem_of_cons in H2'. tauto.
Qed.
Lemma search_loaded t path s todo l v : search t path s todo l v -> v <> Failed -> forall r, r ∈ l -> is_Some (t_targets t !! r).
Proof.
  induction 1 as [|s todo|s r todo l v Hr H IH|s r todo Hr|s r todo m o Hr Hm He|s r todo m ns tm l v Hr Hm He Hc H IH Hv|s r todo m ns l Hr Hm He Hc H IH|s r todo m ns l l' v Hr Hm He Hc H IH H' IH']; intros Hv' x Hx; try (by apply elem_of_nil in Hx); try done; try (by apply IH).
  - apply elem_of_list_singleton in Hx as ->. eauto.
  - apply elem_of_cons in Hx as [-> |Hx]; [eauto|by apply IH].
  - apply elem_of_cons in Hx as [-> |Hx]; [eauto|by apply IH].
  - apply elem_of_cons in Hx as [-> |[Hx|Hx]%elem_of_app]; [eauto|by apply IH|by apply IH'].
Qed.
Lemma search_stopped t path s todo l v : search t path s todo l v -> v = Stopped -> exists r m n, t_targets t !! r = Some m /\ delegated m path n true.
Proof.
  induction 1 as [|s todo|s r todo l v Hr H IH|s r todo Hr|s r todo m o Hr Hm He|s r todo m ns tm l v Hr Hm He Hc H IH Hv|s r todo m ns l Hr Hm He Hc H IH|s r todo m ns l l' v Hr Hm He Hc H IH H' IH']; intros Hv'; try done; auto.
  destruct Hc as (order & _ & Ho & [(? & _)|(_ & pre & n & post & -> & _)]); [done|]. exists r, m, n. split; [done|]. apply Ho. apply elem_of_app. right. by left.
Qed.

(** ** Verification by a delegator *)
Lemma targets_signs_or {D D'} {RD : RoleTy D} {RD' : RoleTy D'} (d : metadata targets_t) name (m : metadata D) (m' : metadata D') : targets_signs d name m -> (exists p, signing_payload (md_signed m') = Ok p) ->
  (verify_delegate d name m' = Ok tt /\ targets_signs d name m') \/ exists msg, verify_delegate d name m' = Err (ErrUnsignedMetadata msg).
Proof.
  intros (keys & ids & thr & Hd & (Hne & Hres & _)) [p Hp]. assert (delegation_of (md_signed d) name = Ok (mkDelegation keys ids thr)) as Hdg by (by apply (targets_delegation_spec _ _ (mkDelegation keys ids thr))).
  destruct (verify_delegate d name m') as [[]|e|] eqn:Ev; [left; split; [done|]; by apply targets_signs_ok| |]; right; unfold verify_delegate in Ev; rewrite Hdg in Ev; cbn [obind] in Ev; unfold verify_delegation in Ev; cbn [dg_keyids dg_keys dg_threshold] in Ev;
    (assert (exists s, verify_loop keys m' ids ∅ = Ok s) as [s Hs] by (eexists; apply verify_loop_ok; [done|]; split; [done|]; exists p; by split));
    (destruct ids as [|id0 ids]; [done|]); rewrite Hs in Ev; cbn [obind] in Ev; destruct (_ <? _); try done; injection Ev as <-; by eexists.
Qed.

(** ** Loading a role *)
Context (r : metadata root_t) (P : publication) (now : Z) (D : gmap string role_file).
Definition snapshot_usable : Prop :=
  names_snapshot (pub_timestamp_md P) (pub_snapshot_info P) /\ sn_version (md_signed (pub_snapshot_md P)) = mf_version (pub_snapshot_info P) /\ ~ expired_at (pub_snapshot_md P) now.
Definition cache_fits (w : world) : Prop :=
  forall name f, D !! name = Some f -> t_targets (w_trusted w) !! name = None -> file_is c (io_disk (w_io w)) name (cached_role P now D name f).
Definition Inv (w : world) : Prop :=
  t_root (w_trusted w) = r /\ t_timestamp (w_trusted w) = Some (pub_timestamp_md P) /\ t_snapshot (w_trusted w) = Some (pub_snapshot_md P) /\ t_ref (w_trusted w) = now /\
  (forall n m, t_targets (w_trusted w) !! n = Some m -> exists f, all_roles P D !! n = Some f /\ m = rf_md f) /\ t_targets (w_trusted w) !! "targets" = Some (pub_targets_md P) /\
  disk_works E c (io_disk (w_io w)) /\ cache_fits w.
Definition grows (w w' : world) : Prop := forall n m, t_targets (w_trusted w) !! n = Some m -> t_targets (w_trusted w') !! n = Some m.
(** [role] can be loaded on behalf of [parent] *)
Definition loadable (w : world) (role parent : string) : Prop :=
  exists f, all_roles P D !! role = Some f /\ (role = "targets" \/ (D !! role = Some f /\ parent <> "root" /\ exists d, t_targets (w_trusted w) !! parent = Some (rf_md d) /\ all_roles P D !! parent = Some d /\ targets_signs (rf_md d) role (rf_md f))).
Lemma all_targets : all_roles P D !! "targets" = Some (mkRoleFile (pub_targets P) (pub_targets_md P) (pub_targets_info P)).
Proof. apply (lookup_insert (M := gmap string)). Qed.
Lemma all_other name : name <> "targets" -> all_roles P D !! name = D !! name.
Proof. intros H. by apply (lookup_insert_ne (M := gmap string)). Qed.
Lemma role_plain name : role_name_ok name -> plain_name name /\ local_name c name = cache_name c name.
Proof.
  intros [H1 H2]. assert (plain_name name) as Hp.
  { split_and!; [intros ->; apply H2; set_solver..|]. by apply unreserved_no_slash. }
  split; [done|]. by apply local_cache.
Qed.
Definition role_tail (role parent : string) : M (metadata targets_t) :=
  do t := get_trusted in
  match t_snapshot t with
  | None => sout (Err (EOther "trusted snapshot not set"))
  | Some sn =>
      match mget (sn_meta (md_signed sn)) (json_of role) with
      | Some (Some f) =>
          let length := if mf_length f =? 0 then c_targets_max c else mf_length f in
          let version := if consistent t then fmt_dec (mf_version f) else "" in
          do data := lift (download_metadata E c role length version) in
          do m := on_trusted (fun t => update_delegated_targets t data role parent) in
          do _ := lift (persist_metadata E c role data) in
          sret m
      | _ => sout Panic
      end
  end.
Lemma final_of t : snapshot_usable -> t_timestamp t = Some (pub_timestamp_md P) -> t_ref t = now -> final_snapshot t (pub_snapshot_md P).
Proof. intros (H1 & H2 & H3) Ht Hr. split; [by rewrite Hr|]. by exists (pub_timestamp_md P), (pub_snapshot_info P). Qed.
Lemma inv_loaded w role f i' : Inv w -> all_roles P D !! role = Some f -> t_targets (w_trusted w) !! role = None -> disk_works E c (io_disk i') -> (forall x, x <> role -> io_disk i' !! cache_name c x = io_disk (w_io w) !! cache_name c x) ->
  Inv (mkWorld (set_targets (w_trusted w) role (rf_md f)) i') /\ grows w (mkWorld (set_targets (w_trusted w) role (rf_md f)) i').
Proof.
  intros (H1 & H2 & H3 & H4 & H5 & H6 & _ & H8) Hf Hn Hw Hb. assert (role <> "targets") as Hne by (intros ->; congruence). split.
  - split_and!; cbn [w_trusted w_io set_targets t_root t_timestamp t_snapshot t_ref t_targets]; try done.
    + intros n m Hm. destruct (decide (n = role)) as [-> |Hnr].
      * exists f. split; [done|]. pose proof (lookup_insert (M := gmap string) (t_targets (w_trusted w)) role (rf_md f)) as Hx. pose proof (eq_trans (eq_sym Hx) Hm) as [= ->]. done.
      * apply H5. rewrite <- Hm. symmetry. by apply (lookup_insert_ne (M := gmap string)).
    + rewrite <- H6. by apply (lookup_insert_ne (M := gmap string)).
    + intros n g Hg Hx data Hd. cbn [w_trusted w_io set_targets t_targets] in Hx, Hd. assert (n <> role) as Hnr.
      { intros ->. pose proof (lookup_insert (M := gmap string) (t_targets (w_trusted w)) role (rf_md f)) as Hy. pose proof (eq_trans (eq_sym Hy) Hx) as [=]. }
      assert (t_targets (w_trusted w) !! n = None) as Hx' by (rewrite <- Hx; symmetry; by apply (lookup_insert_ne (M := gmap string))).
      apply (H8 n g Hg Hx' data). by rewrite <- Hb.
  - intros n m Hm. cbn [w_trusted set_targets t_targets]. assert (n <> role) by (intros ->; congruence). rewrite <- Hm. by apply (lookup_insert_ne (M := gmap string)).
Qed.
Context (Hroles : forall name f, D !! name = Some f -> role_name_ok name /\ role_served E c r P now name f) (Hsnap : snapshot_usable).
Lemma role_tail_honest role parent f w i : Inv w -> D !! role = Some f -> parent <> "root" -> t_targets (w_trusted w) !! role = None -> (exists d, t_targets (w_trusted w) !! parent = Some d /\ targets_signs d role (rf_md f)) -> io_disk i = io_disk (w_io w) ->
  exists w', role_tail role parent (mkWorld (w_trusted w) i) = (w', Ok (rf_md f)) /\ w_trusted w' = set_targets (w_trusted w) role (rf_md f) /\ disk_works E c (io_disk (w_io w')) /\ forall x, x <> role -> io_disk (w_io w') !! cache_name c x = io_disk (w_io w) !! cache_name c x.
Proof.
  intros (H1 & H2 & H3 & H4 & H5 & H6 & H7 & H8) Hf Hpr Hn (d & Hd & Hs) Hi. destruct (Hroles _ _ Hf) as [_ (Hdoc & Hx & Hl & Hmf & Hv & Hlen & Hserve)].
  unfold role_tail. rewrite (sbind_run _ _ (mkWorld (w_trusted w) i) (mkWorld (w_trusted w) i) (w_trusted w)) by done. rewrite H3. change (json_of role) with (String.append role ".json"). rewrite (proj1 (lists_file_mget _ _ _) Hl). cbv zeta.
  assert ((if consistent (w_trusted w) then fmt_dec (mf_version (rf_info f)) else "") = version_in_url r (mf_version (rf_info f))) as -> by (unfold consistent, version_in_url; by rewrite H1).
  destruct (download_run E c role (if mf_length (rf_info f) =? 0 then c_targets_max c else mf_length (rf_info f)) _ _ (mkWorld (w_trusted w) i) Hserve) as (i1 & Hrun1 & Hd1); [by apply allowed_length|].
  rewrite (sbind_run _ _ _ _ _ Hrun1). cbn [w_trusted].
  assert (on_trusted (fun t => update_delegated_targets t (rf_data f) role parent) (mkWorld (w_trusted w) i1) = (mkWorld (set_targets (w_trusted w) role (rf_md f)) i1, Ok (rf_md f))) as Hrun2.
  { unfold on_trusted. cbn [w_trusted w_io]. assert (check_new_targets (w_trusted w) (rf_data f) role parent = Ok (rf_md f)) as Hc.
    { apply check_new_targets_ok. exists (pub_snapshot_md P), (rf_info f). split; [done|]. split; [by apply final_of|]. split; [done|]. split; [done|]. split; [done|]. split; [right; split; [done|]; by exists d|]. split; [done|]. by rewrite H4. }
    unfold update_delegated_targets. by rewrite Hc. }
  rewrite (sbind_run _ _ _ _ _ Hrun2). destruct (persist_run E c role (rf_data f) (mkWorld (set_targets (w_trusted w) role (rf_md f)) i1)) as (i3 & Hrun3 & Hw3 & Hs3); [cbn in *; rewrite Hd1, Hi; done|].
  rewrite (sbind_run _ _ _ _ _ Hrun3). eexists. split; [reflexivity|]. split; [done|]. split; [done|]. cbn in *. intros x Hxr. rewrite Hs3 by done. by rewrite Hd1, Hi.
Qed.
Lemma load_role w role parent : Inv w -> loadable w role parent -> exists w' f, all_roles P D !! role = Some f /\ load_targets E c role parent w = (w', Ok (rf_md f)) /\ Inv w' /\ grows w w' /\ t_targets (w_trusted w') !! role = Some (rf_md f).
Proof.
  intros HI (f & Hf & Hcase). pose proof HI as (H1 & H2 & H3 & H4 & H5 & H6 & H7 & H8). unfold load_targets. rewrite (sbind_run _ _ w w (w_trusted w)) by done.
  destruct (t_targets (w_trusted w) !! role) as [m|] eqn:Em.
  { destruct (H5 _ _ Em) as (f2 & Hf2 & ->). assert (f2 = f) as -> by congruence. exists w, f. split; [done|]. split; [reflexivity|]. split; [done|]. split; [by intros ? ?|done]. }
  destruct Hcase as [-> |(HD & Hpr & d & Hd & Had & Hs)]; [congruence|]. destruct (Hroles _ _ HD) as [Hname (Hdoc & Hx & Hl & Hmf & Hv & Hlen & Hserve)]. destruct (role_plain _ Hname) as [_ Hloc].
  assert (forall w', w_trusted w' = set_targets (w_trusted w) role (rf_md f) -> disk_works E c (io_disk (w_io w')) -> (forall x, x <> role -> io_disk (w_io w') !! cache_name c x = io_disk (w_io w) !! cache_name c x) ->
    Inv w' /\ grows w w' /\ t_targets (w_trusted w') !! role = Some (rf_md f)) as Hend.
  { intros [t' i'] Ht Hw Hb. cbn in Ht. subst t'. destruct (inv_loaded w role f i' HI Hf Em Hw Hb) as [Ha Hg]. split; [done|]. split; [done|]. apply (lookup_insert (M := gmap string)). }
  destruct (local_run E c role w Hloc) as (i1 & o & Hrun & Hd1 & [(data & -> & Hdata)|[e ->]]).
  - rewrite (satt_run _ _ _ _ _ Hrun).
    assert ((exists m, update_delegated_targets (w_trusted w) data role parent = (set_targets (w_trusted w) role (rf_md f), Ok m) /\ m = rf_md f) \/
      exists e, update_delegated_targets (w_trusted w) data role parent = (w_trusted w, Err e) /\ errors_is e (ErrRepository "") = true) as [(m & Hu & ->)|(e & Hu & He)].
    { unfold update_delegated_targets, check_new_targets. rewrite H3. rewrite (proj2 (check_final_snapshot_ok _ _ H3) (final_of _ Hsnap H2 H4)). cbn [obind].
      assert (negb (String.eqb parent ROOT) && negb (bool_decide (is_Some (t_targets (w_trusted w) !! parent))) = false) as ->.
      { apply andb_false_iff. right. rewrite bool_decide_true; [done|]. rewrite Hd. eauto. }
      change (json_of role) with (String.append role ".json"). rewrite (proj1 (lists_file_mget _ _ _) Hl). destruct (metafile_verify_cases (rf_info f) data) as [Hmv|[msg Hmv]]; rewrite Hmv; cbn [obind]; [|right; eexists; split; [reflexivity|done]].
      apply metafile_verify_ok in Hmv. destruct (H8 _ _ HD Em _ Hdata Hmv) as (m & [Hb Ht] & Hpay & Hhist). rewrite Hb. cbn [obind]. rewrite (proj2 (check_signed_type_ok _) Ht). cbn [obind].
      rewrite (proj2 (String.eqb_neq parent ROOT) Hpr), Hd. destruct (targets_signs_or _ _ _ m Hs Hpay) as [[Hvd Hss]|[msg Hvd]]; rewrite Hvd; cbn [obind]; [|right; eexists; split; [reflexivity|done]].
      destruct (Z.eqb_spec (tg_version (md_signed m)) (mf_version (rf_info f))) as [Hq|Hq]; [|right; eexists; split; [reflexivity|done]].
      destruct (is_expired (md_signed m) (t_ref (w_trusted w))) eqn:Ex; [right; eexists; split; [reflexivity|done]|]. apply not_expired_spec in Ex. rewrite H4 in Ex. destruct (Hhist _ _ Had Hss) as [-> |[?|?]]; [|done|done]. left. eexists. split; [reflexivity|done]. }
    + rewrite (sbind_run _ _ _ (mkWorld (set_targets (w_trusted w) role (rf_md f)) i1) (Some (rf_md f))) by (unfold satt, on_trusted; cbn [w_trusted w_io]; by rewrite Hu).
      eexists _, f. split; [done|]. split; [reflexivity|]. apply Hend; cbn; [done|by rewrite Hd1|by rewrite Hd1].
    + rewrite (sbind_run _ _ _ (mkWorld (w_trusted w) i1) None) by (unfold satt, on_trusted; cbn [w_trusted w_io]; by rewrite Hu, He).
      destruct (role_tail_honest role parent f w i1 HI HD Hpr Em (ex_intro _ _ (conj Hd Hs)) Hd1) as (w' & Hr & Ht & Hw & Hb). exists w', f. split; [done|]. split; [exact Hr|]. by apply Hend.
  - rewrite (satt_err _ _ _ _ _ Hrun). rewrite (sbind_run _ _ _ (mkWorld (w_trusted w) i1) None) by done.
    destruct (role_tail_honest role parent f w i1 HI HD Hpr Em (ex_intro _ _ (conj Hd Hs)) Hd1) as (w' & Hr & Ht & Hw & Hb). exists w', f. split; [done|]. split; [exact Hr|]. by apply Hend.
Qed.

(** ** The walk *)
Lemma published_lookup n f : all_roles P D !! n = Some f -> t_targets (everything r P D now) !! n = Some (rf_md f).
Proof. intros H. cbn. rewrite (lookup_fmap (M := gmap string)). by rewrite H. Qed.
Lemma loadable_grows w w' role parent : loadable w role parent -> grows w w' -> loadable w' role parent.
Proof. intros (f & Hf & [-> |(HD & Hpr & d & Hd & Had & Hs)]) Hg; exists f; (split; [done|]); [by left|right]. split; [done|]. split; [done|]. exists d. split; [by apply Hg|done]. Qed.
Lemma named_root name f : all_roles P D !! name = Some f -> name <> "root".
Proof.
  intros H ->. rewrite all_other in H by done. destruct (Hroles _ _ H) as [[_ Hn] _]. apply Hn. set_solver.
Qed.
Lemma walk_honest path fuel : delegations_follow (all_roles P D) path -> forall visited todo s w, Inv w -> (forall x, x ∈ s <-> x ∈ visited) -> Forall (fun rp => loadable w rp.1 rp.2) todo ->
  exists w' o l v, walk E c fuel path visited todo w = (w', o) /\ Inv w' /\ search (everything r P D now) path s (map fst todo) l v /\ v <> Failed /\ (List.length l <= fuel)%nat /\ walked fuel l v o.
Proof.
  intros Hfol. induction fuel as [|fuel IH]; intros visited todo s w HI Hs Htodo; cbn [walk].
  { exists w, (Err (EOther "target not found")), [], OutOfBudget. split; [done|]. split; [done|]. split; [constructor|]. split; [done|]. split; [done|]. right. auto. }
  destruct (skip_visited visited todo) as [|[role parent] rest] eqn:Esk.
  { exists w, (Err (EOther "target not found")), [], Exhausted. split; [done|]. split; [done|]. split; [apply (skip_visited_search _ _ _ _ _ _ _ Hs); rewrite Esk; constructor|]. split; [done|]. split; [cbn; lia|]. right; auto. }
  pose proof (skip_visited_head _ _ _ _ _ Esk) as [Hr [pre Hpre]].
  assert (role ∉ s) as Hrs by (by rewrite Hs).
  assert (forall l v t, search t path s (role :: map fst rest) l v -> search t path s (map fst todo) l v) as Hskip.
  { intros l v t Hse. apply (skip_visited_search _ _ _ _ _ _ _ Hs). by rewrite Esk. }
  assert (forall x, x ∈ role :: s <-> x ∈ {[role]} ∪ visited) as Hs' by (intros x; rewrite elem_of_cons, elem_of_union, elem_of_singleton, Hs; done).
  assert (loadable w role parent /\ Forall (fun rp => loadable w rp.1 rp.2) rest) as [Hhead Hrest].
  { rewrite Hpre in Htodo. apply Forall_app in Htodo as [_ Htodo]. by apply Forall_cons in Htodo. }
  destruct (load_role w role parent HI Hhead) as (w1 & f & Hf & Hrun & HI1 & Hg1 & Hm1). rewrite (sbind_run _ _ _ _ _ Hrun).
  destruct (Hfol _ _ Hf) as [Heval Hsub]. pose proof (published_lookup _ _ Hf) as Hpub.
  destruct (mget (tg_targets (md_signed (rf_md f))) path) as [tf|] eqn:Eent.
  { exists w1, (Ok tf), [role], (Found tf). split; [done|]. split; [done|]. split; [apply Hskip; eapply search_found; [done|done|by apply entry_spec]|]. split; [done|]. split; [cbn; lia|]. done. }
  assert (forall o, ~ entry (rf_md f) path o) as Hne by (intros o' Ho'%entry_spec; congruence).
  assert (Forall (fun rp => loadable w1 rp.1 rp.2) rest) as Hrest1 by (eapply Forall_impl; [exact Hrest|]; intros x Hx; exact (loadable_grows w w1 _ _ Hx Hg1)).
  destruct (tg_delegations (md_signed (rf_md f))) as [d|] eqn:Ed.
  - destruct (Heval d eq_refl) as [roles Hro]. rewrite (sbind_run _ _ w1 w1 roles) by (by rewrite Hro).
    set (order := e_order E bool (io_trace (w_io w1)) (mlist (Some roles))). set (w2 := mkWorld (w_trusted w1) (log (io_disk (w_io w1)) (w_io w1) EvChoice)).
    rewrite (sbind_run _ _ w1 w2 order) by done. assert (order ≡ₚ map_to_list roles) as Hperm by apply e_order_perm.
    assert (Inv w2) as HI2 by (destruct HI1 as (?&?&?&?&?&?&?&?); split_and!; done).
    destruct (take_children order) as [names term] eqn:Etk. pose proof (children_spec _ _ _ _ _ _ _ Ed Hro Hperm Etk) as Hch.
    assert (Forall (fun rp => loadable w2 rp.1 rp.2) (map (fun n => (n, role)) names)) as Hkids.
    { apply Forall_forall. intros [n p] Hin. apply elem_of_list_In, in_map_iff in Hin as (n' & [= <- <-] & Hin%elem_of_list_In). cbn.
      assert (exists b, delegated (rf_md f) path n' b) as [b Hb].
      { destruct Hch as (ord & _ & Ho & [(_ & -> & _)|(_ & pr & n2 & post & -> & -> & _)]).
        - apply elem_of_list_fmap in Hin as ([n1 b] & -> & Hb). exists b. by apply Ho.
        - apply elem_of_app in Hin as [Hin| ->%elem_of_list_singleton].
          + apply elem_of_list_fmap in Hin as ([n1 b] & -> & Hb). exists b. apply Ho. apply elem_of_app. by left.
          + exists true. apply Ho. apply elem_of_app. right. by left. }
      destruct (decide (n' = "targets")) as [-> |Hnt]; [eexists; split; [apply all_targets|by left]|].
      destruct (Hsub _ _ Hb Hnt) as (f' & Hf' & Hsg). exists f'. split; [done|]. right. rewrite all_other in Hf' by done. split; [done|]. split; [by eapply named_root|]. exists f. done. }
    destruct (IH ({[role]} ∪ visited) (map (fun n => (n, role)) names ++ (if term : bool then [] else rest)) (role :: s) w2 HI2 Hs') as (w' & o & l & v & Hw & HI' & Hse & Hv & Hlen & Hout).
    { apply Forall_app. split; [done|]. destruct term; [by apply Forall_nil|done]. }
    exists w', o, (role :: l). assert (map fst (map (fun n => (n, role)) names) = names) as Hn by (rewrite map_map; cbn; apply map_id).
    assert (exists v', search (everything r P D now) path s (map fst todo) (role :: l) v' /\ v' <> Failed /\ walked (S fuel) (role :: l) v' o) as (v' & Hse' & Hv' & Hout').
    { destruct term.
      - rewrite app_nil_r, Hn in Hse. assert (v = Exhausted \/ v <> Exhausted) as [-> |Hvx] by (destruct v; auto; by right).
        + exists Stopped. split; [apply Hskip; by eapply search_terminated|]. split; [done|]. unfold walked in *. destruct o as [| |]; [done| |done]. destruct Hout as [?|[-> _]]; [done|]. right. auto.
        + exists v. split; [apply Hskip; by eapply search_below|]. split; [done|]. unfold walked in *. destruct o as [| |]; [done| |done]. destruct Hout as [?|[-> [->|[->|[-> Hl]]]]]; [by left|done|right; auto|right; split; [done|]; right; right; cbn; by rewrite Hl].
      - rewrite map_app, Hn in Hse. apply search_split in Hse as [[Hse Hvx]|(l1 & l2 & Hs1 & Hs2 & ->)].
        + exists v. split; [apply Hskip; by eapply search_below|]. split; [done|]. unfold walked in *. destruct o as [| |]; [done| |done]. destruct Hout as [?|[-> [->|[->|[-> Hl]]]]]; [by left|done|right; auto|right; split; [done|]; right; right; cbn; by rewrite Hl].
        + exists v. split; [apply Hskip; by eapply search_next|]. split; [done|]. unfold walked in *. destruct o as [| |]; [done| |done]. destruct Hout as [?|[-> [->|[->|[-> Hl]]]]]; [by left|right; auto|right; auto|right; split; [done|]; right; right; cbn; by rewrite Hl]. }
    exists v'. split; [exact Hw|]. split; [done|]. split; [done|]. split; [done|]. split; [cbn; lia|done].
  - destruct (IH ({[role]} ∪ visited) rest (role :: s) w1 HI1 Hs' Hrest1) as (w' & o & l & v & Hw & HI' & Hse & Hv & Hlen & Hout).
    exists w', o, (role :: l), v. split; [exact Hw|]. split; [done|]. split.
    { apply Hskip. change (role :: l) with (role :: [] ++ l). eapply search_next; [done|done|done|by apply children_none|constructor|done]. }
    split; [done|]. split; [cbn; lia|]. unfold walked in *. destruct o as [| |]; [done| |done]. destruct Hout as [?|[-> [->|[->|[-> Hl]]]]]; [by left|right; auto|right; auto|right; split; [done|]; right; right; cbn; by rewrite Hl].
Qed.
Lemma info_honest path w : delegations_follow (all_roles P D) path -> Inv w -> exists w' o l v, get_target_info E c path w = (w', o) /\ Inv w' /\ search (everything r P D now) path [] ["targets"] l v /\ v <> Failed /\
  (List.length l <= budget c)%nat /\ walked (budget c) l v o.
Proof.
  intros Hf HI. pose proof HI as (_ & _ & _ & _ & _ & Ht & _). destruct (walk_honest path (budget c) Hf ∅ [("targets", "root")] [] w HI) as (w' & o & l & v & Hw & Hrest).
  - intros x. split; [by intros ?%elem_of_nil|by intros ?%elem_of_empty].
  - apply Forall_singleton. cbn. eexists. split; [apply all_targets|by left].
  - exists w', o, l, v. split; [|done]. unfold get_target_info, sbind, get_trusted. unfold TARGETS. rewrite Ht. exact Hw.
Qed.

(** ** From the start *)
Lemma up_to_date_inv w : up_to_date r P (w_trusted w) -> t_ref (w_trusted w) = now -> disk_works E c (io_disk (w_io w)) -> (forall name f, D !! name = Some f -> file_is c (io_disk (w_io w)) name (cached_role P now D name f)) -> Inv w.
Proof.
  intros (H1 & H2 & H3 & H4) Hr Hw Hc. split_and!; try done.
  - intros n m Hm. rewrite H4 in Hm. apply lookup_singleton_Some in Hm as [<- <-]. eexists. split; [apply all_targets|done].
  - rewrite H4. apply lookup_singleton.
  - intros name f Hf _. by apply Hc.
Qed.
Lemma asked_inv paths w w' : asked E c paths w w' -> Forall (delegations_follow (all_roles P D)) paths -> Inv w -> Inv w'.
Proof.
  induction 1 as [|path paths w w1 w2 o Hg H IH]; intros Hf HI; [done|]. apply Forall_cons in Hf as [Hf1 Hf2]. destruct (info_honest path w Hf1 HI) as (w' & o' & l & v & Hg' & HI' & _).
  apply IH; [done|]. by pose proof (eq_trans (eq_sym Hg) Hg') as [= -> _].
Qed.
Lemma asked_ex paths : forall w, exists w', asked E c paths w w'.
Proof. induction paths as [|p ps IH]; intros w; [eexists; constructor|]. destruct (get_target_info E c p w) as [w1 o] eqn:H. destruct (IH w1) as [w' H']. exists w'. by econstructor. Qed.
(** the first call refreshes *)
Lemma info_refreshes path w w1 : t_targets (w_trusted w) !! "targets" = None -> refresh E c w = (w1, Ok tt) -> t_targets (w_trusted w1) !! "targets" = Some (pub_targets_md P) -> get_target_info E c path w = get_target_info E c path w1.
Proof.
  intros H1 H2 H3. unfold get_target_info, sbind, get_trusted. unfold TARGETS. rewrite H1, H3, H2. done.
Qed.
End Reach.

Section Session.
Context {CR : Crypto} (E : env) (c : config) (r0 r : metadata root_t) (P : publication) (now : Z) (D : gmap string role_file).
Definition setting (i : ios) : Prop :=
  document (c_trusted_root c) r0 /\ root_signs r0 "root" r0 /\ c_metadata_url c <> "" /\ c_trusted_root c <> "" /\ honest r0 r now P /\ on_server E c r0 r P /\ can_follow c r0 P /\ disk_works E c (io_disk i) /\
  file_is c (io_disk i) "timestamp" (cached_timestamp r P) /\ file_is c (io_disk i) "snapshot" (cached_snapshot r now P) /\ file_is c (io_disk i) "targets" (cached_targets r now P) /\
  (forall name f, D !! name = Some f -> file_is c (io_disk i) name (cached_role P now D name f)) /\
  (forall name f, D !! name = Some f -> role_name_ok name /\ role_served E c r P now name f).
Lemma setting_snapshot i : setting i -> snapshot_usable P now.
Proof. intros (_ & _ & _ & _ & (_ & _ & _ & (H1 & _ & H2) & (_ & _ & H3) & _) & _). done. Qed.
Lemma setting_started i : setting i -> exists i' t w1, updater_new E c now i = (i', Ok t) /\ t_targets t = ∅ /\ refresh E c (mkWorld t i') = (w1, Ok tt) /\ Inv E c r P now D w1.
Proof.
  intros (Hd & Hs & Hu1 & Hu2 & Hh & Hos & Hcf & Hw & Hf1 & Hf2 & Hf3 & Hfd & Hr). destruct (new_honest E c r0 now i) as (i1 & Hn & Hw1 & Hb); try done.
  assert (forall role P, role <> "root" -> file_is c (io_disk i) role P -> file_is c (io_disk i1) role P) as Hk1 by (intros role Q Hne HQ data; rewrite Hb by done; apply HQ).
  destruct (refresh_honest E c r P (mkWorld (mkTrusted r0 None None ∅ now) i1)) as (w' & Hrf & Hup & Href & Hwk & Hsame); cbn [w_trusted w_io t_root t_ref t_timestamp t_snapshot t_targets]; try done; [by eapply document_range|by apply Hk1|by apply Hk1|by apply Hk1|].
  exists i1, (mkTrusted r0 None None ∅ now), w'. split; [done|]. split; [done|]. split; [done|]. apply up_to_date_inv; try done.
  intros name f Hf data. destruct (Hr _ _ Hf) as [[_ Hno] _]. cbn [w_io] in Hsame. rewrite Hsame; [|intros ->; apply Hno; set_solver..]. apply (Hk1 name); [intros ->; apply Hno; set_solver|]. by apply Hfd.
Qed.
Lemma setting_search i path earlier : setting i -> Forall (delegations_follow (all_roles P D)) (path :: earlier) ->
  exists i' t w w' o l v, updater_new E c now i = (i', Ok t) /\ asked E c earlier (mkWorld t i') w /\ get_target_info E c path w = (w', o) /\ Inv E c r P now D w' /\
    search (everything r P D now) path [] ["targets"] l v /\ v <> Failed /\ (List.length l <= budget c)%nat /\ walked (budget c) l v o.
Proof.
  intros Hset Hfol. pose proof (setting_snapshot _ Hset) as Hsn. pose proof Hset as (_ & _ & _ & _ & _ & _ & _ & _ & _ & _ & _ & _ & Hr).
  destruct (setting_started i Hset) as (i' & t & w1 & Hn & Ht & Href & HI). apply Forall_cons in Hfol as [Hf1 Hf2].
  assert (forall p, get_target_info E c p (mkWorld t i') = get_target_info E c p w1) as Heq.
  { intros p. apply (info_refreshes E c P p (mkWorld t i') w1); cbn; [by rewrite Ht|done|]. by destruct HI as (_ & _ & _ & _ & _ & H & _). }
  destruct earlier as [|p0 ps].
  - destruct (info_honest E c r P now D Hr Hsn path w1 Hf1 HI) as (w' & o & l & v & Hg & Hrest). exists i', t, (mkWorld t i'), w', o, l, v. split; [done|]. split; [constructor|]. rewrite Heq. by split.
  - apply Forall_cons in Hf2 as [Hf2 Hf3]. destruct (info_honest E c r P now D Hr Hsn p0 w1 Hf2 HI) as (w2 & o2 & l2 & v2 & Hg2 & HI2 & _). destruct (asked_ex E c ps w2) as [w3 Ha].
    pose proof (asked_inv E c r P now D Hr Hsn ps w2 w3 Ha Hf3 HI2) as HI3. destruct (info_honest E c r P now D Hr Hsn path w3 Hf1 HI3) as (w' & o & l & v & Hg & Hrest).
    exists i', t, w3, w', o, l, v. split; [done|]. split; [|by split]. eapply asked_one; [rewrite Heq; exact Hg2|exact Ha].
Qed.

(** ** What a search finds *)
Lemma everything_lookup n m : t_targets (everything r P D now) !! n = Some m <-> exists f, all_roles P D !! n = Some f /\ m = rf_md f.
Proof. cbn. rewrite (lookup_fmap (M := gmap string)). destruct (all_roles P D !! n) as [f|]; cbn; [|naive_solver]. split; [intros [= <-]; eauto|]. intros (f' & [= <-] & ->). done. Qed.
Lemma leads_closed path (l : list string) x : "targets" ∈ l -> (forall y m n term, y ∈ l -> t_targets (everything r P D now) !! y = Some m -> delegated m path n term -> n ∈ l) -> leads (everything r P D now) path "targets" x -> x ∈ l.
Proof. intros H1 H2. induction 1 as [|r1 m r2 term H IH Hm Hd _]; [done|]. by eapply H2. Qed.
Lemma search_complete path l v b x f o : search (everything r P D now) path [] ["targets"] l v -> v <> Failed -> (forall n g k, all_roles P D !! n = Some g -> ~ delegated (rf_md g) path k true) ->
  (size (all_roles P D) <= b)%nat -> (v = OutOfBudget -> List.length l = b) ->
  leads (everything r P D now) path "targets" x -> all_roles P D !! x = Some f -> entry (rf_md f) path o -> exists o', v = Found o'.
Proof.
  intros Hse Hv Hterm Hsize Hbud Hlead Hx He. destruct (search_inspected _ _ _ _ _ _ Hse) as [Hnd _].
  assert (x ∈ l -> exists o', v = Found o') as Hin.
  { intros Hl. apply elem_of_list_split in Hl as (l1 & l2 & ->). destruct (search_no_entry _ _ _ _ _ _ Hse l1 x l2 (rf_md f) o eq_refl) as [_ [-> |?]]; [apply everything_lookup; eauto|done|by exists o|done]. }
  destruct v; try done; try by eexists.
  all: try (apply Hin).
  all: match goal with
  | H : search _ _ _ _ _ Exhausted |- _ => destruct (search_closed _ _ _ _ _ _ H eq_refl) as [H1 H2]; rewrite app_nil_r in H1, H2; apply (leads_closed path l x); [apply H1; by left|exact H2|done]
  | H : search _ _ _ _ _ Stopped |- _ => exfalso; destruct (search_stopped _ _ _ _ _ _ H eq_refl) as (y & m & n & (g & Hg & ->)%everything_lookup & Hd); by eapply Hterm
  | H : search _ _ _ _ _ OutOfBudget |- _ => idtac
  end.
  pose proof (Hbud eq_refl) as Hl. destruct (decide (x ∈ l)) as [|Hno]; [done|exfalso].
  assert (list_to_set (x :: l) ⊆ dom (all_roles P D)) as Hsub.
  { intros y Hy. apply elem_of_dom. apply elem_of_list_to_set, elem_of_cons in Hy as [-> |Hy]; [by exists f|]. destruct (search_loaded _ _ _ _ _ _ Hse Hv y Hy) as [m (g & Hg & _)%everything_lookup]. by exists g. }
  apply subseteq_size in Hsub. rewrite size_list_to_set in Hsub by (by constructor). rewrite size_dom in Hsub. cbn in Hsub. lia.
Qed.

(** ** Delivery *)
Lemma slash_free s : SpecDeleg.no_slash s -> PathProofs.no_slash s.
Proof. unfold SpecDeleg.no_slash, PathProofs.no_slash. induction s as [|a s IH]; [done|]. cbn [string_any list_ascii_of_string]. intros [Ha Hs]%Forall_cons. rewrite IH by done. destruct (Ascii.eqb_spec "/"%char a) as [<- |]; done. Qed.
Lemma download_honest tf fp p data w : t_root (w_trusted w) = r -> disk_works E c (io_disk (w_io w)) -> c_targets_url c <> "" -> target_served E c r tf data ->
  (exists alg dig, lists (tf_hashes tf) alg dig) -> (rt_consistent (md_signed r) = true -> c_prefix_hash c = true -> SpecDeleg.no_slash (tf_path tf) \/ exists d n, SpecDeleg.no_slash d /\ SpecDeleg.no_slash n /\ tf_path tf = d +:+ "/" +:+ n) -> file_for E c tf fp p ->
  exists w', download_target E c tf fp "" w = (w', Ok (p, data)) /\ w_trusted w' = w_trusted w /\ (c_disable_cache c = false -> io_disk (w_io w') !! p = Some data).
Proof.
  intros Hr Hw Hu (Hm & Hs1 & Hs2) (alg & dig & Hdig) Hpath Hf. unfold download_target.
  assert ((if String.eqb fp "" then target_file_path E c tf else Ok fp) = Ok p) as -> by (destruct Hf as [[Hne ->]|[-> Hf]]; [by destruct (String.eqb_spec fp "")|done]).
  rewrite (sbind_run _ _ w w p) by done. cbn [String.eqb]. rewrite (proj2 (String.eqb_neq _ _) Hu). rewrite (sbind_run _ _ w w (ensure_slash (c_targets_url c))) by done. rewrite (sbind_run _ _ w w (w_trusted w)) by done.
  assert (exists w1 path, (if consistent (w_trusted w) && c_prefix_hash c then do hs := lift (iterate E (tf_hashes tf)) in sret (prefixed_path (tf_path tf) (first_hash hs)) else sret (tf_path tf)) w = (w1, Ok path) /\
    w_trusted w1 = w_trusted w /\ io_disk (w_io w1) = io_disk (w_io w) /\ serves E (with_slash (c_targets_url c) +:+ path) data) as (w1 & path & Hrun & Ht1 & Hd1 & Hsv).
  { unfold consistent. rewrite Hr. destruct (rt_consistent (md_signed r)) eqn:Ec; cbn [andb]; [|exists w, (tf_path tf); split; [done|]; split; [done|]; split; [done|]; apply Hs1; by left].
    destruct (c_prefix_hash c) eqn:Ep; [|exists w, (tf_path tf); split; [done|]; split; [done|]; split; [done|]; apply Hs1; by right].
    eexists _, _. split; [unfold sbind, lift, iterate; reflexivity|]. cbn [w_trusted w_io log io_disk]. split; [done|]. split; [done|].
    destruct (first_hash_spec (tf_hashes tf) (e_order E string (io_trace (w_io w)) (mlist (tf_hashes tf)))) as [[_ Hno]|(a & dg & Hl & ->)]; [apply e_order_perm|by destruct (Hno _ _ Hdig)|].
    apply (Hs2 eq_refl eq_refl a dg); [done|]. destruct (Hpath eq_refl eq_refl) as [Hn|(d & n & Hn1 & Hn2 & Hn)].
    - left. split; [done|]. by apply prefixed_plain, slash_free.
    - right. exists d, n. split; [done|]. split; [done|]. rewrite Hn. by apply prefixed_dir, slash_free. }
  rewrite (sbind_run _ _ _ _ _ Hrun). assert (Z.of_nat (String.length data) <= tf_length tf) as Hlen by (destruct Hm as [_ ->]; lia).
  assert (lift (fetch E (ensure_slash (c_targets_url c) +:+ path) (tf_length tf)) w1 = (mkWorld (w_trusted w1) (log (io_disk (w_io w1)) (w_io w1) (EvGet (ensure_slash (c_targets_url c) +:+ path) (tf_length tf) (Ok data))), Ok data)) as Hf2.
  { unfold lift, fetch. change (ensure_slash (c_targets_url c)) with (with_slash (c_targets_url c)). by rewrite (Hsv (io_trace (w_io w1)) _ Hlen). }
  rewrite (sbind_run _ _ _ _ _ Hf2). set (w2 := mkWorld _ _). rewrite (sbind_run _ _ w2 w2 tt) by (by rewrite (proj2 (targetfile_verify_ok _ _) Hm)).
  destruct (c_disable_cache c) eqn:Edc.
  - exists w2. split; [done|]. split; [done|]. by intros [=].
  - destruct Hw as [?|(_ & _ & Hio & _)]; [congruence|].
    assert (lift (write_file E p data) w2 = (mkWorld (w_trusted w2) (log (<[p := data]> (io_disk (w_io w2))) (w_io w2) (EvWrite p data)), Ok tt)) as Hwr by (unfold lift, write_file; by rewrite Hio).
    rewrite (sbind_run _ _ _ _ _ Hwr). eexists. split; [reflexivity|]. split; [done|]. intros _. apply (lookup_insert (M := gmap string)).
Qed.
End Session.
