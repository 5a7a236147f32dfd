(** * The updater claims (C51-C74), combined from the previous proofs *)
From stdpp Require Import base gmap strings list.
From Coq Require Import ZArith Lia Ascii String.
From Verif Require Import GoBase GoStr Json GoTime Types Marshal Keys Metadata TrustedMetadata Fetcher Updater SpecBasic SpecTrusted SpecSerial SpecUpdater SigProofs SerialProofs BasicProofs StrProofs TrustedProofs PathProofs EventProofs UpdaterProofs WalkProofs BlockProofs ApiProofs RootProofs RefreshProofs SearchProofs IndepProofs.
Open Scope Z_scope.

(** ** Entries of parsed targets metadata are never null and know their path *)
Definition filled (x : targets_t) : Prop := forall m path o, tg_targets x = Some m -> m !! path = Some o -> exists tf, o = Some tf /\ tf_path tf = path.
Lemma unmarshal_filled j x : targets_unmarshal j = Ok x -> filled x.
Proof.
  intros (a & _ & Hs)%obind_ok m' p' o' Hm' Ho'. apply obind_ok in Hs as (tg & Htg & Hs). apply obind_ok in Hs as (dd & _ & Hs). injection Hs as <-. cbn in Hm'. subst tg.
  unfold populate_paths in Htg. destruct (tg_targets a) as [m0|]; [|done]. destruct (decide _) as [Hf|]; [|done]. injection Htg as <-. rewrite map_lookup_imap in Ho'. destruct (m0 !! p') as [o0|] eqn:E0; [|done]. cbn in Ho'. injection Ho' as <-.
  specialize (Hf _ _ E0). cbn in Hf. destruct o0 as [tf|]; [|done]. by exists (set_path p' tf).
Qed.
Lemma decode_filled l : forall (x y : mdec targets_t), filled (mx_signed x) -> decode_members metadata_fields l x = Ok y -> filled (mx_signed y).
Proof.
  induction l as [|[k v] l IH]; intros x y Hx; cbn [decode_members]; [by intros [= <-]|].
  destruct (field_lookup metadata_fields k) as [f|] eqn:E; [|by apply IH]. intros (z & Hz & Hy)%obind_ok. eapply IH; [|exact Hy]. clear Hy IH.
  apply field_lookup_in in E as (n' & Hin & Hn'). unfold metadata_fields in Hin. field_cases Hin.
  - apply obind_ok in Hz as (s & Hs & Hz). injection Hz as <-. cbn. by eapply unmarshal_filled.
  - destruct v; try (injection Hz as <-; done); apply obind_ok in Hz as (? & _ & Hz); injection Hz as <-; done.
Qed.
Lemma entry_filled data (m : metadata targets_t) path o : from_bytes data = Ok m -> entry m path o -> exists tf, o = Some tf /\ tf_path tf = path.
Proof.
  intros (j & _ & _ & _ & Hm & _)%from_bytes_ok (l & Hl & Ho). apply obind_ok in Hm as (u & _ & Hm). apply obind_ok in Hm as (d & Hd & Hm). destruct (mx_saved d); [done|]. injection Hm as <-. cbn [md_signed] in Hl.
  assert (filled (mx_signed d)) as Hf; [|by eapply Hf].
  destruct j as [| | | | | |s]; cbn in Hd; try done; [injection Hd as <-; done|]. by eapply (decode_filled s _ _ _ Hd).
  Unshelve. done.
Qed.

Section Claims.
Context {CR : Crypto} (E : env) (c : config).

(** ** The search, with or without the refresh before it *)
Lemma info_cases path w w' o : get_target_info E c path w = (w', o) -> exists w1 o1,
  ((is_Some (t_targets (w_trusted w) !! "targets") /\ w1 = w /\ o1 = Ok tt) \/ (t_targets (w_trusted w) !! "targets" = None /\ call_api E c Refresh w = (w1, o1))) /\
  ((o1 = Ok tt /\ is_Some (t_targets (w_trusted w1) !! "targets") /\ get_target_info E c path w1 = (w', o)) \/ (o1 <> Ok tt /\ w' = w1 /\ forall r, o <> Ok r)).
Proof.
  intros H. destruct (t_targets (w_trusted w) !! "targets") as [m|] eqn:Em.
  - exists w, (Ok tt). split; [left; eauto|]. left. rewrite Em. eauto.
  - rewrite get_target_info_refresh in H by done. destruct (refresh E c w) as [w1 o1] eqn:Er. exists w1, o1. split; [by right|]. pose proof (refresh_steps _ _ _ _ _ Er) as [_ Hok].
    destruct o1 as [[]|e|].
    + left. split; [done|]. split; [by apply Hok|done].
    + injection H as <- <-. by right.
    + injection H as <- <-. by right.
Qed.
Lemma info_session now path w w' o w1 o1 : session E c now w -> ((is_Some (t_targets (w_trusted w) !! "targets") /\ w1 = w /\ o1 = Ok tt) \/ (t_targets (w_trusted w) !! "targets" = None /\ call_api E c Refresh w = (w1, o1))) ->
  get_target_info E c path w = (w', o) -> session E c now w1 /\ session E c now w'.
Proof.
  intros Hs H Hg. split; [destruct H as [(_ & -> & _)|[_ H]]; [done|by eapply session_step]|].
  apply (session_step E c now w (GetTargetInfo path) w' (omap_ (fun _ => tt) o) Hs). cbn [call_api]. by rewrite Hg.
Qed.

(** ** C54 *)
Lemma info_authorised now w w' path o : session E c now w -> get_target_info E c path w = (w', Ok o) ->
  exists tf r m, o = Some tf /\ tf_path tf = path /\ leads (w_trusted w') path "targets" r /\ t_targets (w_trusted w') !! r = Some m /\ entry m path (Some tf).
Proof.
  intros Hs Hg. destruct (info_cases _ _ _ _ Hg) as (w1 & o1 & H1 & [(-> & Ht & Hg1)|(_ & _ & H)]); [|by destruct (H o)].
  destruct (info_session now path _ _ _ _ _ Hs H1 Hg) as [Hs1 Hs'].
  destruct (get_target_info_search _ _ _ _ _ _ Hg1 Ht) as (_ & l & v & evs & sub & Hse & _ & Hv & _). cbn in Hv. subst v.
  destruct (search_leads _ _ _ _ _ _ Hse o eq_refl) as (r0 & r & m & Hr0 & Hl & Hm & He & _). apply elem_of_list_singleton in Hr0 as ->.
  destruct (session_dinv _ _ _ _ Hs') as (_ & _ & _ & Hd). destruct (Hd _ _ Hm) as (sn & _ & _ & (f & data & _ & (Hb & _) & _) & _).
  destruct (entry_filled _ _ _ _ Hb He) as (tf & -> & Hp). exists tf, r, m. done.
Qed.
Lemma loaded_verified now w r m : session E c now w -> t_targets (w_trusted w) !! r = Some m ->
  exists sn, t_snapshot (w_trusted w) = Some sn /\ final_snapshot (w_trusted w) sn /\ as_listed sn r m /\ ~ expired_at m now /\ authorised (w_trusted w) r.
Proof.
  intros Hs Hm. destruct (session_dinv _ _ _ _ Hs) as (_ & _ & _ & Hd). destruct (Hd _ _ Hm) as (sn & H1 & H2 & H3 & H4 & _ & H5). exists sn. rewrite (session_ref _ _ _ _ Hs) in H4. done.
Qed.
(** a search that starts without delegated roles verifies each role with its predecessor on the way *)
Lemma signed_chain_frame t t' path r : signed_chain t path r -> extends t t' -> t_root t' = t_root t -> signed_chain t' path r.
Proof.
  intros H He Hr. induction H as [m Hm Hs|r1 m1 r2 m2 b _ IH H1 H2 H3 H4]; [eapply chain_top; [by apply He|by rewrite Hr]|]. eapply chain_next; [exact IH|by apply He|exact H2|by apply He|done].
Qed.
Definition KOne (role parent : string) (k : kind) : Prop :=
  match k with
  | KWrite _ _ => False
  | KCall cl => match cl with UpdateDelegated _ r p => r = role /\ p = parent | _ => False end
  | _ => True
  end.
Definition verified_by (t : trusted) (role parent : string) (m : metadata targets_t) : Prop :=
  (parent = "root" /\ root_signs (t_root t) role m) \/ exists d, t_targets t !! parent = Some d /\ targets_signs d role m.
Lemma one_load role parent w w' : ksteps E c (KOne role parent) w w' -> t_targets (w_trusted w) !! role = None ->
  t_root (w_trusted w') = t_root (w_trusted w) /\
  (t_targets (w_trusted w') = t_targets (w_trusted w) \/ exists m, t_targets (w_trusted w') = <[role := m]> (t_targets (w_trusted w)) /\ verified_by (w_trusted w) role parent m).
Proof.
  intros H Hn. induction H as [|k w1 w2 _ IH Hk Hs]; [by split; [|left]|]. destruct IH as [Hr Ht].
  destruct (ustep_trusted _ _ _ _ _ Hs) as [He|(cl & -> & _ & Hd & Hp & _)]; [by rewrite He|]. destruct cl as [| | |data r p]; try done. destruct Hk as [-> ->]. destruct Hd as [Hd _].
  assert (t_targets (w_trusted w1) = t_targets (w_trusted w)) as Ht1. { destruct Ht as [Ht|(m & Ht & _)]; [done|]. exfalso. rewrite Ht in Hd. by rewrite (lookup_insert (M := gmap string)) in Hd. }
  rewrite Hp. cbn [perform]. destruct (update_delegated_cases (w_trusted w1) data role parent) as [(m & Hok & Hu)|(_ & Hu & _)].
  - rewrite Hu. cbn. split; [done|]. right. exists m. rewrite Ht1. split; [done|]. destruct Hok as (sn & f & _ & _ & _ & _ & _ & [[-> Hsg]|(_ & d & Hdm & Hsg)] & _); [left; rewrite Hr in Hsg; done|right; exists d; rewrite Ht1 in Hdm; done].
  - destruct (update_delegated_targets _ _ _ _) as [t2 o2]. cbn in *. subst t2. split; [done|by left].
Qed.
Lemma load_targets_one role parent w w' o : load_targets E c role parent w = (w', o) -> (parent = "root" -> role = "targets" \/ is_Some (t_targets (w_trusted w) !! "targets")) ->
  t_targets (w_trusted w) !! role = None -> t_root (w_trusted w') = t_root (w_trusted w) /\
  forall m, o = Ok m -> t_targets (w_trusted w') = <[role := m]> (t_targets (w_trusted w)) /\ verified_by (w_trusted w) role parent m.
Proof.
  intros H Hp Hn. apply (load_targets_steps E c (KOne role parent)) in H as [Hk Hm]; [|done..|by intros; split|done|done].
  destruct (one_load _ _ _ _ Hk Hn) as [Hr Ht]. split; [done|]. intros m Hok. specialize (Hm m Hok). destruct Ht as [Ht|(m' & Ht & Hv)]; rewrite Ht in Hm; [congruence|].
  rewrite (lookup_insert (M := gmap string)) in Hm. injection Hm as ->. done.
Qed.
Lemma walk_signed fuel path : forall visited todo w w' tf, walk E c fuel path visited todo w = (w', Ok tf) ->
  (is_Some (t_targets (w_trusted w) !! "targets") \/ todo = [("targets", "root")]) ->
  (forall r, is_Some (t_targets (w_trusted w) !! r) -> r = "targets" \/ r ∈ visited) ->
  (forall m, t_targets (w_trusted w) !! "targets" = Some m -> root_signs (t_root (w_trusted w)) "targets" m) ->
  t_targets (w_trusted w') !! "root" = None ->
  (forall r p, (r, p) ∈ todo -> (r = "targets" /\ p = "root") \/ exists m b, signed_chain (w_trusted w) path p /\ t_targets (w_trusted w) !! p = Some m /\ delegated m path r b) ->
  exists r m, signed_chain (w_trusted w') path r /\ t_targets (w_trusted w') !! r = Some m /\ entry m path tf.
Proof.
  induction fuel as [|fuel IH]; intros visited todo w w' tf H Htop Hvis Hroot Hno Htodo; cbn [walk] in H; [done|].
  assert (extends (w_trusted w) (w_trusted w')) as Hext.
  { destruct (walk_search E c (S fuel) path visited todo (elements visited) w w' (Ok tf)) as [Hk _]; [exact H|intros; by rewrite elem_of_elements|done|]. by eapply ksteps_extends. }
  destruct (skip_visited visited todo) as [|[role parent] rest] eqn:Esk; [done|].
  pose proof (skip_visited_head _ _ _ _ _ Esk) as [Hr [pre Hpre]].
  assert ((role, parent) ∈ todo) as Hin by (rewrite Hpre; apply elem_of_app; right; by left).
  apply sbind_inv in H as [(w1 & m & H1 & H)|[(e & H1 & [=])|[H1 [=]]]].
  assert (parent = "root" -> role = "targets" \/ is_Some (t_targets (w_trusted w) !! "targets")) as Hpar.
  { intros ->. destruct (Htodo _ _ Hin) as [[-> _]|(mp & b & _ & Hmp & _)]; [by left|]. apply Hext in Hmp. congruence. }
  assert (t_root (w_trusted w1) = t_root (w_trusted w) /\ extends (w_trusted w) (w_trusted w1) /\ t_targets (w_trusted w1) !! role = Some m /\
    (forall r, is_Some (t_targets (w_trusted w1) !! r) -> r = "targets" \/ r ∈ {[role]} ∪ visited) /\ (forall m, t_targets (w_trusted w1) !! "targets" = Some m -> root_signs (t_root (w_trusted w1)) "targets" m) /\
    is_Some (t_targets (w_trusted w1) !! "targets") /\ signed_chain (w_trusted w1) path role) as (Hroot1 & Hext1 & Hm & Hvis1 & Hsig1 & Htop1 & Hch1).
  { destruct (t_targets (w_trusted w) !! role) as [m0|] eqn:Em.
    - rewrite (load_targets_loaded _ _ _ _ _ m0) in H1 by done. injection H1 as <- <-. destruct (Hvis role) as [-> |?]; [by exists m0| |done].
      split; [done|]. split; [by intros ? ?|]. split; [done|]. split; [intros r Hs; destruct (Hvis r Hs); [by left|right; set_solver]|]. split; [done|]. split; [by exists m0|]. by eapply chain_top; [|apply Hroot].
    - destruct (load_targets_one _ _ _ _ _ H1 Hpar Em) as [Hr1 Hm]. destruct (Hm m eq_refl) as [Ht Hver].
      assert (extends (w_trusted w) (w_trusted w1)) as Hx. { intros n x Hx. rewrite Ht. destruct (decide (n = role)) as [-> |Hne]; [congruence|]. by rewrite (lookup_insert_ne (M := gmap string)). }
      assert (t_targets (w_trusted w1) !! role = Some m) as Hm1 by (rewrite Ht; apply (lookup_insert (M := gmap string))).
      split; [done|]. split; [done|]. split; [done|]. split.
      { intros r Hs. destruct (decide (r = role)) as [-> |Hne]; [right; set_solver|]. rewrite Ht, (lookup_insert_ne (M := gmap string)) in Hs by done. destruct (Hvis r Hs); [by left|right; set_solver]. }
      assert (role = "targets" -> parent = "root") as Hrt. { intros ->. destruct Htop as [[x Hx']|Htd]; [congruence|]. rewrite Htd in Hin. apply elem_of_list_singleton in Hin. congruence. }
      assert (forall m, t_targets (w_trusted w1) !! "targets" = Some m -> root_signs (t_root (w_trusted w1)) "targets" m) as Hsig1.
      { intros x Hx'. rewrite Hr1. destruct (decide (role = "targets")) as [-> |Hne].
        - rewrite Hm1 in Hx'. injection Hx' as <-. destruct Hver as [[_ Hv]|(d & Hd & _)]; [done|]. rewrite (Hrt eq_refl) in Hd. apply Hext in Hd. congruence.
        - rewrite Ht, (lookup_insert_ne (M := gmap string)) in Hx' by done. by apply Hroot. }
      split; [done|]. split.
      { destruct Htop as [[x Hx']|Htd]; [exists x; by apply Hx|]. rewrite Htd in Hin. apply elem_of_list_singleton in Hin. injection Hin as -> _. by exists m. }
      destruct (decide (role = "targets")) as [-> |Hne]; [by eapply chain_top; [|apply Hsig1]|].
      destruct (Htodo _ _ Hin) as [[? _]|(mp & b & Hc & Hmp & Hd)]; [done|]. destruct Hver as [[-> _]|(d & Hd' & Hsg)]; [apply Hext in Hmp; congruence|].
      rewrite Hmp in Hd'. injection Hd' as <-. eapply chain_next; [by eapply signed_chain_frame|by apply Hx|done|done|done]. }
  destruct (mget (tg_targets (md_signed m)) path) as [x|] eqn:Ee; [injection H as <- <-; exists role, m; split; [done|]; split; [done|by apply entry_spec]|].
  assert (forall r p, (r, p) ∈ rest -> (r = "targets" /\ p = "root") \/ exists m b, signed_chain (w_trusted w1) path p /\ t_targets (w_trusted w1) !! p = Some m /\ delegated m path r b) as Hrest.
  { intros r p Hi. destruct (Htodo r p) as [?|(x & b & Hc & Hx & Hd)]; [rewrite Hpre; apply elem_of_app; right; by right|by left|]. right. exists x, b. split; [by eapply signed_chain_frame|]. split; [by apply Hext1|done]. }
  destruct (tg_delegations (md_signed m)) as [d|] eqn:Ed.
  - apply sbind_inv in H as [(w2 & roles & H2 & H)|[(e & H2 & [=])|[H2 [=]]]]. injection H2 as <- Hroles. apply sbind_inv in H as [(w3 & order & H3 & H)|[(e & H3 & [=])|[H3 [=]]]].
    assert (w_trusted w3 = w_trusted w1 /\ order ≡ₚ map_to_list roles) as (Ht3 & Hperm). { unfold lift, iterate in H3. injection H3 as <- <-. split; [done|]. apply e_order_perm. }
    destruct (take_children order) as [names term] eqn:Etk. pose proof (children_spec _ _ _ _ _ _ _ Ed Hroles Hperm Etk) as Hch.
    eapply IH in H; [exact H|left; by rewrite Ht3|by rewrite Ht3|by rewrite Ht3|done|]. rewrite Ht3. intros r p [Hi|Hi]%elem_of_app.
    + apply elem_of_list_fmap in Hi as (n & [= -> ->] & Hn). right. destruct (children_delegated _ _ _ _ _ Hch Hn) as [b Hb]. exists m, b. done.
    + destruct term; [by apply elem_of_nil in Hi|]. by eapply Hrest.
  - eapply IH in H; [exact H|by left|done|done|done|done].
Qed.

Lemma info_signed now w w' path tf : session E c now w -> get_target_info E c path w = (w', Ok tf) ->
  (forall r, is_Some (t_targets (w_trusted w) !! r) -> r = "targets") -> t_targets (w_trusted w') !! "root" = None ->
  exists r m, signed_chain (w_trusted w') path r /\ t_targets (w_trusted w') !! r = Some m /\ entry m path tf.
Proof.
  intros Hs Hg Hfresh Hno. destruct (info_cases _ _ _ _ Hg) as (w1 & o1 & H1 & [(-> & Ht & Hg1)|(_ & _ & H)]); [|by destruct (H tf)].
  destruct (info_session now path _ _ _ _ _ Hs H1 Hg) as [Hs1 Hs'].
  assert (forall r, is_Some (t_targets (w_trusted w1) !! r) -> r = "targets") as Hfresh1.
  { destruct H1 as [(_ & -> & _)|[_ Hr]]; [done|]. intros r [x Hx]. destruct (decide (r = "targets")) as [?|Hne]; [done|]. exfalso. cbn [call_api] in Hr. apply refresh_steps in Hr as [Hr _].
    assert (t_targets (w_trusted w) !! r = None) as Hn. { destruct (t_targets (w_trusted w) !! r) eqn:Er; [|done]. exfalso. apply Hne, Hfresh. rewrite Er. eauto. }
    destruct (c_unsafe_local c) eqn:Eu.
    - apply (no_new_targets E c KLocal) with (n := r) in Hr; [congruence| |done]. intros data dl [? _]. done.
    - apply (no_new_targets E c KRefresh) with (n := r) in Hr; [congruence| |done]. intros data dl [? _]. done. }
  unfold get_target_info in Hg1. destruct Ht as [m0 Hm0].
  apply sbind_inv in Hg1 as [(w2 & t2 & H2 & Hg1)|[(e & [=] & _)|[[=] _]]]. unfold get_trusted in H2. injection H2 as <- <-. change TARGETS with "targets" in Hg1. rewrite Hm0 in Hg1.
  apply sbind_inv in Hg1 as [(w2 & [] & H2 & Hg1)|[(e & [=] & _)|[[=] _]]]. injection H2 as <-. unfold pre_order_walk in Hg1.
  eapply walk_signed; [exact Hg1|by right|by left; apply Hfresh1| |done|].
  - intros m Hm. destruct (session_dinv _ _ _ _ Hs1) as (_ & _ & Hd & _). by apply Hd.
  - intros r p Hin. apply elem_of_list_singleton in Hin. injection Hin as -> ->. by left.
Qed.

(** ** C55, C56 *)
Lemma info_search path w w' o : get_target_info E c path w = (w', o) -> exists w1 o1,
  ((is_Some (t_targets (w_trusted w) !! "targets") /\ w1 = w /\ o1 = Ok tt) \/ (t_targets (w_trusted w) !! "targets" = None /\ call_api E c Refresh w = (w1, o1))) /\
  ((o1 = Ok tt /\ exists l v evs sub, search (w_trusted w') path [] ["targets"] l v /\ NoDup l /\ Z.of_nat (List.length l) <= Z.max 0 (c_max_delegations c + 1) /\
      (forall tf, o = Ok tf <-> v = Found tf) /\ (v = OutOfBudget -> Z.of_nat (List.length l) = Z.max 0 (c_max_delegations c + 1)) /\
      happened (w_io w1) (w_io w') evs /\ sub `sublist_of` l /\ urls_for c sub (downloads evs) /\
      (v = Failed -> exists r, last l = Some r /\ stuck E c evs (w_trusted w') path r)) \/
   (o1 <> Ok tt /\ w' = w1 /\ forall r, o <> Ok r)).
Proof.
  intros Hg. destruct (info_cases _ _ _ _ Hg) as (w1 & o1 & H1 & [(-> & Ht & Hg1)|(Ho & -> & H)]); exists w1; [|exists o1; split; [done|by right]].
  exists (Ok tt). split; [done|]. left. split; [done|]. destruct (get_target_info_search _ _ _ _ _ _ Hg1 Ht) as (_ & l & v & evs & sub & Hse & Hlen & Hv & Hh & Hsub & Hu & Hst).
  exists l, v, evs, sub. split; [done|]. split; [by eapply search_inspected|]. unfold budget in *. split; [lia|]. split.
  { intros tf. destruct o as [x|e|]; cbn in Hv; [subst v; naive_solver| |subst v; done]. split; [done|]. destruct Hv as [-> |(_ & [-> |[-> |[-> _]]])]; done. }
  split; [|done]. intros ->. destruct o as [x|e|]; cbn in Hv; [done| |done]. destruct Hv as [?|(_ & [?|[?|[_ Hv]]])]; [done|done|done|]. lia.
Qed.

(** ** C53, C60, C61 *)
Lemma api_events a w w' o : call_api E c a w = (w', o) -> (forall tf p u, a <> DownloadTarget tf p u) -> (forall tf p, a <> FindCachedTarget tf p) ->
  exists bs, explains (w_io w) (w_io w') (List.concat bs) /\ Forall (block E c KAny (w_trusted w) (w_trusted w')) bs.
Proof.
  intros H Hn1 Hn2. destruct (call_api_steps _ _ _ _ _ _ H) as [(tf & p & ->)|[(tf & p & u & ->)|Hk]]; [by destruct (Hn2 tf p)|by destruct (Hn1 tf p u)|]. by eapply ksteps_blocks.
Qed.
Lemma happened_eq i i' evs evs' : happened i i' evs -> happened i i' evs' -> evs = evs'.
Proof. apply happened_fun. Qed.
Lemma metadata_downloads a w w' o evs url len r : call_api E c a w = (w', o) -> (forall tf p u, a <> DownloadTarget tf p u) ->
  happened (w_io w) (w_io w') evs -> EvGet url len r ∈ evs -> exists t, passed (w_trusted w) t (w_trusted w') /\ allowed_download c t url len.
Proof.
  intros H Hn1 He Hin. destruct a as [|path|tf p u|tf p]; [| |by destruct (Hn1 tf p u)|].
  - destruct (api_events _ _ _ _ H) as (bs & [Hex _] & Hf); [done|done|]. rewrite (happened_eq _ _ _ _ He Hex) in Hin. destruct (blocks_get E c KAny _ _ _ _ _ _ Hf Hin) as (_ & t1 & ?). by exists t1.
  - destruct (api_events _ _ _ _ H) as (bs & [Hex _] & Hf); [done|done|]. rewrite (happened_eq _ _ _ _ He Hex) in Hin. destruct (blocks_get E c KAny _ _ _ _ _ _ Hf Hin) as (_ & t1 & ?). by exists t1.
  - exfalso. cbn [call_api] in H. destruct (lift (find_cached_target E c tf p) w) as [w1 o1] eqn:Hf. injection H as <- _. apply lift_inv in Hf as [Hf _]. apply find_cached_run in Hf as (_ & evs' & Hex & Hev & _).
    rewrite (happened_eq _ _ _ _ He Hex) in Hin. destruct Hev as [-> |(q & x & -> & _)]; [by apply elem_of_nil in Hin|apply elem_of_list_singleton in Hin; done].
Qed.
Lemma target_downloads tf p u w w' o evs url len r : call_api E c (DownloadTarget tf p u) w = (w', o) -> happened (w_io w) (w_io w') evs -> EvGet url len r ∈ evs -> len = tf_length tf.
Proof.
  cbn [call_api]. destruct (download_target E c tf p u w) as [w1 o1] eqn:Hd. intros [= <- _] He Hin. apply download_target_run in Hd as (_ & evs' & [Hex _] & Hrun). rewrite (happened_eq _ _ _ _ He Hex) in Hin.
  assert (forall pre, Forall (get_only tf) pre -> EvGet url len r ∈ pre -> len = tf_length tf) as Hpre by (intros pre Hf Hi; rewrite Forall_forall in Hf; apply (Hf _ Hi)).
  inversion Hrun as [? ? Hf|pre url' q data Hf|pre url' q data Hf|pre url' q data ew e Hf _ _ _ Hew]; subst; [by eapply Hpre|apply (choice_get_only tf) in Hf..].
  - apply elem_of_app in Hin as [Hin|Hin]; [by eapply Hpre|]. apply elem_of_list_singleton in Hin. congruence.
  - apply elem_of_app in Hin as [Hin|Hin]; [by eapply Hpre|]. apply elem_of_cons in Hin as [?|Hin]; [congruence|]. by apply elem_of_list_singleton in Hin.
  - apply elem_of_app in Hin as [Hin|Hin]; [by eapply Hpre|]. apply elem_of_cons in Hin as [?|Hin]; [congruence|]. apply elem_of_list_singleton in Hin. destruct Hew as [-> |[n ->]]; done.
Qed.
Lemma new_events now i i' o : updater_new E c now i = (i', o) -> exists evs0 evs, explains i i' (evs0 ++ evs) /\ Forall (fun e => exists p b, e = EvMkdir p b) evs0 /\ persist_events E c "root" (c_trusted_root c) evs /\
  (c_disable_cache c = true -> evs0 = [] /\ evs = []) /\ (evs <> [] -> exists t, tm_new (c_trusted_root c) now = Ok t).
Proof.
  assert (forall i, exists evs0 evs, explains i i (evs0 ++ evs) /\ Forall (fun e => exists p b, e = EvMkdir p b) evs0 /\ persist_events E c "root" (c_trusted_root c) evs /\ (c_disable_cache c = true -> evs0 = [] /\ evs = []) /\ (evs <> [] -> exists t, tm_new (c_trusted_root c) now = Ok t)) as Hnil.
  { intros i0. exists [], []. split; [apply explains_nil|]. split; [constructor|]. split; [constructor|]. done. }
  unfold updater_new. destruct (_ || _); [intros [= <- <-]; apply Hnil|]. intros H.
  apply sbind_inv in H as [(i1 & t1 & H1 & H)|[(e & H1 & ->)|[H1 ->]]]; apply sout_inv in H1 as [-> Ht]; [|apply Hnil|apply Hnil].
  assert (forall i2 o2, ensure_paths E c i = (i2, o2) -> exists evs0, explains i i2 evs0 /\ Forall (fun e => exists p b, e = EvMkdir p b) evs0 /\ (c_disable_cache c = true -> evs0 = [])) as Hens.
  { intros i2 o2. unfold ensure_paths. destruct (c_disable_cache c); [intros [= <- <-]; exists []; split; [apply explains_nil|split; [constructor|done]]|].
    intros H2. unfold sbind, mkdir_all in H2. repeat case_match; simplify_eq.
    all: try (eexists ([_] ++ [_]); split; [eapply explains_app; apply explains_log; done|]; split; [repeat constructor; eauto|done]).
    all: eexists [_]; split; [apply explains_log; done|]; split; [repeat constructor; eauto|done]. }
  apply sbind_inv in H as [(i2 & [] & H2 & H)|[(e & H2 & ->)|[H2 ->]]]; apply Hens in H2 as (evs0 & Hex0 & Hf & Hd0).
  2,3: exists evs0, []; rewrite app_nil_r; split; [done|]; split; [done|]; split; [constructor|]; split; [intros Hc; split; [by apply Hd0|done]|done].
  assert (forall i3 o3, persist_metadata E c ROOT (c_trusted_root c) i2 = (i3, o3) -> exists evs0 evs, explains i i3 (evs0 ++ evs) /\ Forall (fun e => exists p b, e = EvMkdir p b) evs0 /\ persist_events E c "root" (c_trusted_root c) evs /\
  (c_disable_cache c = true -> evs0 = [] /\ evs = []) /\ (evs <> [] -> exists t, tm_new (c_trusted_root c) now = Ok t)) as Hp.
  { intros i3 o3 H3. apply persist_shape in H3 as (evs & Hex & Hpe & _ & Hdis & _). exists evs0, evs. split; [by eapply explains_app|]. split; [done|]. split; [done|]. split; [intros Hc; split; [by apply Hd0|by apply Hdis]|]. intros _. by exists t1. }
  apply sbind_inv in H as [(i3 & [] & H3 & H)|[(e & H3 & ->)|[H3 ->]]]; apply Hp in H3; [|done|done]. by injection H as <- _.
Qed.
Lemma mkdirs_crash (evs0 evs : list event) d d' : Forall (fun e => exists p b, e = EvMkdir p b) evs0 -> crash d (evs0 ++ evs) d' -> crash d evs d'.
Proof.
  intros Hf Hc. induction Hf as [|e l (p & b & ->) _ IH]; [done|]. apply IH. cbn in Hc. apply crash_cons in Hc as [Hc|Hc]; [|done].
  apply crash_one in Hc as [-> |[-> |(? & ? & ? & ? & _)]]; [|cbn|done]; exists [], (l ++ evs); split; [done|by left|done|by left].
Qed.
Lemma new_crash now i i' o evs d q : updater_new E c now i = (i', o) -> happened i i' evs -> crash (io_disk i) evs d -> ~ tmp_name E q ->
  d !! q = io_disk i !! q \/ (q = cache_name c "root" /\ d !! q = Some (c_trusted_root c) /\ exists r, document (c_trusted_root c) r /\ root_signs r "root" r).
Proof.
  intros H He Hc Hq. apply new_events in H as (evs0 & evs1 & [Hex _] & Hf & Hp & _ & Hok). rewrite (happened_eq _ _ _ _ He Hex) in Hc. apply mkdirs_crash in Hc; [|done].
  destruct (persist_crash E c _ _ _ _ _ q Hp Hq Hc) as [?|[-> Hd]]; [by left|]. destruct (decide (evs1 = [])) as [-> |Hne].
  - apply crash_nil in Hc as ->. by left.
  - right. split; [done|]. split; [done|]. destruct (Hok Hne) as (t & (r & H1 & H2 & _)%tm_new_spec). by exists r.
Qed.
Lemma api_crash a w w' o evs d q : call_api E c a w = (w', o) -> (forall tf p u, a <> DownloadTarget tf p u) -> happened (w_io w) (w_io w') evs -> crash (io_disk (w_io w)) evs d -> ~ tmp_name E q ->
  d !! q = io_disk (w_io w) !! q \/ exists role data t, q = cache_name c role /\ d !! q = Some data /\ passed (w_trusted w) t (w_trusted w') /\ holds t role data.
Proof.
  intros H Hn He Hc Hq. destruct a as [|path|tf p u|tf p]; [| |by destruct (Hn tf p u)|].
  1,2: destruct (api_events _ _ _ _ H) as (bs & [Hex _] & Hf); [done|done|]; rewrite (happened_eq _ _ _ _ He Hex) in Hc; destruct (blocks_crash E c KAny _ _ _ q Hf Hq _ _ Hc) as [?|(role & data & t1 & _ & ?)]; [by left|right; by exists role, data, t1].
  left. cbn [call_api] in H. destruct (lift (find_cached_target E c tf p) w) as [w1 o1] eqn:Hf. injection H as <- _. apply lift_inv in Hf as [Hf _]. apply find_cached_run in Hf as (_ & evs' & Hex & Hev & _).
  rewrite (happened_eq _ _ _ _ He Hex) in Hc. destruct Hev as [-> |(p' & x & -> & _)]; [by apply crash_nil in Hc as ->|]. apply crash_one in Hc as [-> |[-> |(? & ? & ? & ? & _)]]; done.
Qed.
Lemma api_rename a w w' o pre p q post : call_api E c a w = (w', o) -> happened (w_io w) (w_io w') (pre ++ EvRename p q :: post) ->
  exists pre' role data t, pre = pre' ++ [EvWrite p data] /\ tmp_name E p /\ q = cache_name c role /\ passed (w_trusted w) t (w_trusted w') /\ holds t role data.
Proof.
  intros H He. assert ((forall tf p u, a <> DownloadTarget tf p u) /\ (forall tf p, a <> FindCachedTarget tf p)) as [Hn1 Hn2].
  { split; intros tf fp; [intros u| ]; intros ->; cbn [call_api] in H.
    - destruct (download_target E c tf fp u w) as [w1 o1] eqn:Hd. injection H as <- _. apply download_target_run in Hd as (_ & evs' & [Hex _] & Hrun). pose proof (happened_eq _ _ _ _ He Hex) as Heq.
      assert (EvRename p q ∈ evs') as Hin by (rewrite <- Heq; apply elem_of_app; right; by left).
      assert (forall pre, Forall (get_only tf) pre -> EvRename p q ∉ pre) as Hpre by (intros pre0 Hf Hi; rewrite Forall_forall in Hf; by apply (Hf _ Hi)).
      clear Heq He Hex. inversion Hrun as [? ? Hf|pre0 url' q0 data Hf|pre0 url' q0 data Hf|pre0 url' q0 data ew e Hf _ _ _ Hew]; subst evs'; [exact (Hpre _ Hf Hin)|apply (choice_get_only tf) in Hf..]; (apply elem_of_app in Hin as [Hin|Hin]; [exact (Hpre _ Hf Hin)|]).
      + by apply elem_of_list_singleton in Hin.
      + apply elem_of_cons in Hin as [Hin|Hin]; [done|by apply elem_of_list_singleton in Hin].
      + apply elem_of_cons in Hin as [Hin|Hin]; [done|]. apply elem_of_list_singleton in Hin. destruct Hew as [-> |[n ->]]; done.
    - destruct (lift (find_cached_target E c tf fp) w) as [w1 o1] eqn:Hf. injection H as <- _. apply lift_inv in Hf as [Hf _]. apply find_cached_run in Hf as (_ & evs' & Hex & Hev & _). pose proof (happened_eq _ _ _ _ He Hex) as Heq.
      assert (EvRename p q ∈ evs') as Hin by (rewrite <- Heq; apply elem_of_app; right; by left). destruct Hev as [-> |(p' & x & -> & _)]; [by apply elem_of_nil in Hin|by apply elem_of_list_singleton in Hin]. }
  destruct (api_events _ _ _ _ H Hn1 Hn2) as (bs & [Hex _] & Hf). pose proof (happened_eq _ _ _ _ He Hex) as Heq. symmetry in Heq. destruct (blocks_rename E c KAny _ _ _ _ _ _ _ Hf Heq) as (pre' & role & data & t1 & -> & _ & -> & Hp & Hh).
  exists pre', role, data, t1. split; [done|]. split; [|done]. eapply (blocks_write E c KAny _ _ _ p data Hf). rewrite Heq. apply elem_of_app. left. apply elem_of_app. right. by left.
Qed.

(** ** C65 *)
Definition no_change (e : event) : Prop := match e with EvMkdir _ _ | EvCreate _ | EvWrite _ _ | EvRename _ _ | EvRemove _ | EvFail _ _ => False | _ => True end.
Lemma no_change_replay evs d : Forall no_change evs -> replay d evs = d.
Proof. intros H. revert d. induction H as [|e l He _ IH]; intros d; [done|]. unfold replay in *. cbn [fold_left]. rewrite IH. by destruct e. Qed.
Lemma ksteps_off K w w' : c_disable_cache c = true -> ksteps E c K w w' -> exists evs, happened (w_io w) (w_io w') evs /\ Forall no_change evs /\ io_disk (w_io w') = io_disk (w_io w).
Proof.
  intros Hoff H. induction H as [|k w1 w2 _ (evs & He & Hf & Hd) Hk Hs]; [exists []; split; [unfold happened; by rewrite app_nil_r|done]|].
  assert (exists evs', happened (w_io w1) (w_io w2) evs' /\ Forall no_change evs' /\ io_disk (w_io w2) = io_disk (w_io w1)) as (evs' & He' & Hf' & Hd').
  { inversion Hs; subst; cbn.
    - eexists [_]. split; [done|]. split; [|done]. by constructor.
    - eexists [_]. split; [done|]. split; [|done]. by constructor.
    - eexists [_]. split; [done|]. split; [|done]. by constructor.
    - exists []. split; [unfold happened; cbn; by rewrite app_nil_r|done].
    - unfold lift. destruct (persist_metadata E c role data (w_io w1)) as [i1 o1] eqn:Ep. apply persist_disabled in Ep as [-> ->]; [|done]. exists []. split; [unfold happened; cbn; by rewrite app_nil_r|done]. }
  exists (evs ++ evs'). split; [by eapply happened_app|]. split; [by apply Forall_app|congruence].
Qed.
Lemma api_off a w w' o : c_disable_cache c = true -> call_api E c a w = (w', o) -> exists evs, happened (w_io w) (w_io w') evs /\ Forall no_change evs /\ io_disk (w_io w') = io_disk (w_io w).
Proof.
  intros Hoff H. destruct (call_api_steps _ _ _ _ _ _ H) as [(tf & p & ->)|[(tf & p & u & ->)|Hk]]; cbn [call_api] in H.
  - destruct (lift (find_cached_target E c tf p) w) as [w1 o1] eqn:Hf. injection H as <- _. apply lift_inv in Hf as [Hf _]. apply find_cached_run in Hf as (Hd & evs' & Hex & Hev & _). exists evs'. split; [done|]. split; [|done].
    destruct Hev as [-> |(p' & x & -> & _)]; by repeat constructor.
  - destruct (download_target E c tf p u w) as [w1 o1] eqn:Hd. injection H as <- _. apply download_target_run in Hd as (_ & evs' & [Hex Hrep] & Hrun).
    assert (Forall no_change evs') as Hf.
    { assert (forall pre, Forall (get_only tf) pre -> Forall no_change pre) as Hpre by (intros pre Hf; eapply Forall_impl; [exact Hf|]; by intros []).
      inversion Hrun; subst; [by apply Hpre| |congruence|congruence]. apply Forall_app. split; [apply Hpre; by apply choice_get_only|by repeat constructor]. }
    exists evs'. split; [done|]. split; [done|]. rewrite Hrep. by apply no_change_replay.
  - by eapply ksteps_off.
Qed.
Lemma new_off now i i' o : c_disable_cache c = true -> updater_new E c now i = (i', o) -> i' = i.
Proof.
  intros Hoff H. apply new_events in H as (evs0 & evs & [Hh Hd] & _ & _ & He & _). destruct (He Hoff) as [-> ->]. unfold happened in Hh. cbn in *. rewrite app_nil_r in Hh. destruct i, i'. cbn in *. congruence.
Qed.

(** ** C64 *)
Lemma local_no_gets w w' o evs : c_unsafe_local c = true -> call_api E c Refresh w = (w', o) -> happened (w_io w) (w_io w') evs -> gets evs = [] /\ io_disk (w_io w') = io_disk (w_io w).
Proof.
  intros Hu H He. cbn [call_api] in H. apply refresh_steps in H as [Hk _]. rewrite Hu in Hk. clear o.
  assert (exists evs, happened (w_io w) (w_io w') evs /\ gets evs = [] /\ io_disk (w_io w') = io_disk (w_io w)) as (evs' & He' & Hg & Hd); [|by rewrite (happened_eq _ _ _ _ He He')].
  clear He evs. induction Hk as [|k w1 w2 _ (evs & He & Hf & Hd) Hk Hs]; [exists []; split; [unfold happened; by rewrite app_nil_r|done]|].
  assert (exists evs', happened (w_io w1) (w_io w2) evs' /\ gets evs' = [] /\ io_disk (w_io w2) = io_disk (w_io w1)) as (evs' & He' & Hf' & Hd').
  { inversion Hs; subst; cbn; try done.
    - by eexists [_].
    - by eexists [_].
    - exists []. split; [unfold happened; cbn; by rewrite app_nil_r|done]. }
  exists (evs ++ evs'). split; [by eapply happened_app|]. split; [by rewrite gets_app, Hf, Hf'|congruence].
Qed.
(** what a successful local refresh has read and checked *)
Lemma local_verified w w' : c_unsafe_local c = true -> call_api E c Refresh w = (w', Ok tt) -> exists d1 d2 d3 ts sn tg fs ft evs,
  happened (w_io w) (w_io w') evs /\ EvRead (local_name c "timestamp") (Ok d1) ∈ evs /\ EvRead (local_name c "snapshot") (Ok d2) ∈ evs /\ EvRead (local_name c "targets") (Ok d3) ∈ evs /\
  document d1 ts /\ document d2 sn /\ document d3 tg /\ t_timestamp (w_trusted w') = Some ts /\ t_snapshot (w_trusted w') = Some sn /\ t_targets (w_trusted w') !! "targets" = Some tg /\
  names_snapshot ts fs /\ matches_file fs d2 /\ lists_file sn "targets.json" ft /\ matches_file ft d3.
Proof.
  intros Hu. cbn [call_api]. unfold refresh. rewrite Hu. unfold unsafe_refresh. intros H.
  apply sbind_inv in H as [(w1 & d1 & H1 & H)|[(e & H1 & [=])|[H1 [=]]]]. apply load_local_events in H1 as [He1 Ht1].
  apply sbind_inv in H as [(w2 & ts & H2 & H)|[(e & H2 & [=])|[H2 [=]]]]. apply on_trusted_inv in H2 as [H2 Hi2].
  apply sbind_inv in H as [(w3 & d2 & H3 & H)|[(e & H3 & [=])|[H3 [=]]]]. apply load_local_events in H3 as [He3 Ht3].
  apply sbind_inv in H as [(w4 & sn & H4 & H)|[(e & H4 & [=])|[H4 [=]]]]. apply upd_snapshot_inv in H4 as (order & Ho & H4 & Hi4).
  apply sbind_inv in H as [(w5 & d3 & H5 & H)|[(e & H5 & [=])|[H5 [=]]]]. apply load_local_events in H5 as [He5 Ht5].
  apply sbind_inv in H as [(w6 & tg & H6 & H)|[(e & H6 & [=])|[H6 [=]]]]. apply on_trusted_inv in H6 as [H6 Hi6]. injection H as ->.
  apply update_timestamp_spec in H2 as ((_ & _ & Hd1 & _) & _ & (_ & Hts2 & _)).
  apply update_snapshot_spec in H4 as (Hok4 & _ & Hrep4); [|done]. destruct Hrep4 as (_ & Hts4 & Hsn4 & _).
  apply update_delegated_spec in H6 as [Hok6 Hrep6]. destruct Hrep6 as (_ & Hts6 & Hsn6 & _ & Htg6 & _).
  destruct Hok4 as (ts' & Hts' & _ & _ & [?|(fs & Hn & Hm)] & Hd2 & _); [done|]. destruct Hok6 as (sn' & ft & Hsn' & _ & Hl & Hm3 & Hd3 & _).
  rewrite Ht5, Hsn4 in Hsn'. injection Hsn' as <-. rewrite Ht3, Hts2 in Hts'. injection Hts' as <-.
  exists d1, d2, d3, ts, sn, tg, fs, ft, ([EvRead (local_name c "timestamp") (Ok d1)] ++ [EvRead (local_name c "snapshot") (Ok d2)] ++ [EvChoice] ++ [EvRead (local_name c "targets") (Ok d3)]).
  split. { rewrite Hi6. rewrite Hi2 in He3. eapply happened_app; [exact He1|]. eapply happened_app; [exact He3|]. eapply happened_app; [|exact He5]. rewrite Hi4. done. }
  split; [set_solver|]. split; [set_solver|]. split; [set_solver|]. rewrite Hts6, Ht5, Hts4, Ht3, Hsn6, Ht5. done.
Qed.

(** ** C72 *)
Definition base_of (u : string) : string := ensure_slash (if String.eqb u "" then c_targets_url c else u).
Lemma first_hash_spec (h : hashes) l : l ≡ₚ mlist h -> (first_hash l = "" /\ forall alg dig, ~ lists h alg dig) \/ exists alg dig, lists h alg dig /\ first_hash l = hex_encode dig.
Proof.
  intros Hp. destruct l as [|[alg dig] l]; [left|right].
  - split; [done|]. intros alg dig (m & -> & Hm). cbn in Hp. apply Permutation_nil in Hp. apply elem_of_map_to_list in Hm. rewrite Hp in Hm. by apply elem_of_nil in Hm.
  - exists alg, dig. split; [|done]. assert ((alg, dig) ∈ mlist h) as Hin by (rewrite <- Hp; by left). destruct h as [m|]; cbn in Hin; [|by apply elem_of_nil in Hin]. exists m. split; [done|by apply elem_of_map_to_list].
Qed.
Lemma download_url tf p u w w' o evs url len r : call_api E c (DownloadTarget tf p u) w = (w', o) -> happened (w_io w) (w_io w') evs -> EvGet url len r ∈ evs ->
  if rt_consistent (md_signed (t_root (w_trusted w))) && c_prefix_hash c
  then exists h, (h = "" /\ (forall alg dig, ~ lists (tf_hashes tf) alg dig) \/ exists alg dig, lists (tf_hashes tf) alg dig /\ h = hex_encode dig) /\ url = base_of u +:+ prefixed_path (tf_path tf) h
  else url = base_of u +:+ tf_path tf.
Proof.
  cbn [call_api]. destruct (download_target E c tf p u w) as [w1 o1] eqn:H. intros [= <- _] He Hin. unfold download_target in H.
  assert (forall i i', io_trace i' = io_trace i -> happened i i' evs -> False) as Hnone. { intros i i' Heq Hh. unfold happened in Hh. rewrite Heq in Hh. rewrite <- (app_nil_r (io_trace i)) in Hh at 1. apply app_inv_head in Hh. subst evs. by apply elem_of_nil in Hin. }
  apply sbind_inv in H as [(w2 & fp & H2 & H)|[(e & H2 & ->)|[H2 ->]]]; apply sout_inv in H2 as [-> _]; [|exfalso; by eapply Hnone|exfalso; by eapply Hnone].
  apply sbind_inv in H as [(w3 & bu & H3 & H)|[(e & H3 & ->)|[H3 ->]]]; apply sout_inv in H3 as [-> Hbu]; [|exfalso; by eapply Hnone|exfalso; by eapply Hnone].
  assert (bu = base_of u) as -> by (unfold base_of; destruct (String.eqb u ""); [destruct (String.eqb (c_targets_url c) ""); [done|]|]; by injection Hbu as <-).
  apply sbind_inv in H as [(w4 & t & H4 & H)|[(e & [=] & _)|[[=] _]]]. unfold get_trusted in H4. injection H4 as <- <-.
  assert (forall w5 data path, (forall evs', happened (w_io w) (w_io w5) evs' -> EvGet url len r ∉ evs') -> (exists evs', happened (w_io w) (w_io w5) evs') ->
    (do data := lift (fetch E (base_of u +:+ path) (tf_length tf)) in do _ := sout (targetfile_verify tf data) in do _ := (if c_disable_cache c then sret tt else lift (write_file E fp data)) in sret (fp, data)) w5 = (w1, data) ->
    url = base_of u +:+ path) as Hfetch.
  { intros w5 o5 path Hno [evs' He'] Hd. assert (exists x evs2, happened (w_io w5) (w_io w1) (EvGet (base_of u +:+ path) (tf_length tf) x :: evs2) /\ EvGet url len r ∉ evs2) as (x & evs2 & He2 & Hn2).
    { apply sbind_inv in Hd as [(w6 & data & H6 & Hd)|[(e & H6 & ->)|[H6 ->]]]; apply fetch_events in H6; [|exists (Err e), []; split; [done|by intros ?%elem_of_nil]|exists Panic, []; split; [done|by intros ?%elem_of_nil]].
      exists (Ok data). apply sbind_inv in Hd as [(w7 & [] & H7 & Hd)|[(e & H7 & ->)|[H7 ->]]]; apply sout_inv in H7 as [-> _]; [|exists []; split; [done|by intros ?%elem_of_nil]|exists []; split; [done|by intros ?%elem_of_nil]].
      assert (forall w8 o8, (if c_disable_cache c then sret tt else lift (write_file E fp data)) w6 = (w8, o8) -> exists evs2, happened (w_io w6) (w_io w8) evs2 /\ EvGet url len r ∉ evs2) as Hw.
      { intros w8 o8. destruct (c_disable_cache c); [intros [= <- _]; exists []; split; [apply happened_nil|by intros ?%elem_of_nil]|]. intros [Hw _]%lift_inv. unfold write_file in Hw. destruct (e_io E _); [|destruct (e_partial E _)]; injection Hw as <- _; eexists [_]; (split; [done|intros Hi%elem_of_list_singleton; done]). }
      apply sbind_inv in Hd as [(w8 & [] & H8 & Hd)|[(e & H8 & ->)|[H8 ->]]]; apply Hw in H8 as (evs2 & He2 & Hn2); [injection Hd as <- _|..]; exists evs2; (split; [by eapply (happened_app _ _ _ [_])|done]). }
    pose proof (happened_app _ _ _ _ _ He' He2) as He3. pose proof (happened_eq _ _ _ _ He He3) as ->. apply elem_of_app in Hin as [Hin|Hin]; [by apply Hno in Hin|]. apply elem_of_cons in Hin as [Hin|Hin]; [by injection Hin as ->|done]. }
  change (consistent (w_trusted w)) with (rt_consistent (md_signed (t_root (w_trusted w)))) in H. destruct (rt_consistent (md_signed (t_root (w_trusted w))) && c_prefix_hash c).
  - apply sbind_inv in H as [(w4 & path & H4 & H)|[(e & H4 & ->)|[H4 ->]]].
    + apply sbind_inv in H4 as [(w5 & hs & H5 & H4)|[(e & H5 & [=])|[H5 [=]]]]. injection H4 as <- <-. unfold lift, iterate in H5. injection H5 as <- <-.
      exists (first_hash (e_order E string (io_trace (w_io w)) (mlist (tf_hashes tf)))). split; [apply first_hash_spec, e_order_perm|]. eapply Hfetch; [| |exact H].
      * intros evs' Hh Hi. cbn in Hh. unfold happened in Hh. cbn in Hh. apply app_inv_head in Hh. subst evs'. by apply elem_of_list_singleton in Hi.
      * by exists [EvChoice].
    + apply sbind_inv in H4 as [(w5 & hs & H5 & [=])|[(e' & H5 & _)|[H5 [=]]]]. unfold lift, iterate in H5. done.
    + apply sbind_inv in H4 as [(w5 & hs & H5 & [=])|[(e' & H5 & [=])|[H5 _]]]. unfold lift, iterate in H5. done.
  - apply sbind_inv in H as [(w4 & path & H4 & H)|[(e & [=] & _)|[[=] _]]]. injection H4 as <- <-. eapply Hfetch; [| |exact H].
    + intros evs' Hh Hi. unfold happened in Hh. rewrite <- (app_nil_r (io_trace (w_io w))) in Hh at 1. apply app_inv_head in Hh. subst evs'. by apply elem_of_nil in Hi.
    + exists []. apply happened_nil.
Qed.

(** ** C74 *)
Lemma root_file a w w' o evs d now : session E c now w -> call_api E c a w = (w', o) -> (forall tf p u, a <> DownloadTarget tf p u) -> happened (w_io w) (w_io w') evs -> crash (io_disk (w_io w)) evs d ->
  t_targets (w_trusted w') !! "root" = None ->
  d !! cache_name c "root" = io_disk (w_io w) !! cache_name c "root" \/
  exists data r n, d !! cache_name c "root" = Some data /\ document data r /\ root_chain n (t_root (w_trusted w)) r.
Proof.
  intros Hs H Hn He Hc Hno. destruct (api_crash _ _ _ _ _ _ (cache_name c "root") H Hn He Hc) as [?|(role & data & t & Hq & Hd & [Hp1 Hp2] & Hh)]; [intros ?; by eapply tmp_not_cache|by left|].
  apply cache_name_inj in Hq as <-. right. destruct Hh as [[_ Hdoc]|[[[=] _]|[[[=] _]|(m & Hm & _)]]].
  - destruct (root_chain_calls (w_trusted w) t) as [n Hch]; [by apply dcalls_calls|apply reachable_range; by eapply session_reachable|]. by exists data, (t_root t), n.
  - eapply dcalls_targets_keep in Hm; [|exact Hp2]. congruence.
Qed.
End Claims.

(** ** C57 *)
Lemma info_fun {CR : Crypto} E E' c c' path w1 w1' w2 w2' o1 o2 : get_target_info E c path w1 = (w1', Ok o1) -> get_target_info E' c' path w2 = (w2', Ok o2) ->
  agree (w_trusted w1') (w_trusted w2') -> one_way (w_trusted w1') path -> o1 = o2.
Proof.
  intros H1 H2 Ha Ho. apply info_search in H1 as (v1 & q1 & _ & [(_ & l1 & x1 & e1 & s1 & Hs1 & _ & _ & Hv1 & _)|(_ & _ & H)]); [|by destruct (H o1)]. apply info_search in H2 as (v2 & q2 & _ & [(_ & l2 & x2 & e2 & s2 & Hs2 & _ & _ & Hv2 & _)|(_ & _ & H)]); [|by destruct (H o2)].
  rewrite (proj1 (Hv1 o1) eq_refl) in Hs1. rewrite (proj1 (Hv2 o2) eq_refl) in Hs2. destruct (search_fun _ _ _ _ _ _ _ Hs1 Ha Ho) with (l' := l2) (v' := Found o2) as [_ Hf]; try done. by injection Hf.
Qed.

(** ** C72, C73: names *)
Lemma prefixed_plain path h : no_slash path -> prefixed_path path h = h +:+ "." +:+ path.
Proof.
  intros Hn. unfold prefixed_path. enough (cut_on "/" path = None) as -> by done. revert Hn. unfold no_slash. induction path as [|a s IH]; [done|]. cbn [string_any cut_on String.append]. destruct (Ascii.eqb "/" a) eqn:Ea; [done|]. cbn [orb]. intros Hs. rewrite Ascii.eqb_sym, Ea. by rewrite (IH Hs).
Qed.
Lemma prefixed_dir d n h : no_slash d -> prefixed_path (d +:+ "/" +:+ n) h = d +:+ "/" +:+ h +:+ "." +:+ n.
Proof.
  intros Hd. unfold prefixed_path. enough (cut_on "/" (d +:+ "/" +:+ n) = Some (d, n)) as -> by done. revert Hd. unfold no_slash. induction d as [|a s IH]; [done|]. cbn [string_any cut_on String.append]. destruct (Ascii.eqb "/" a) eqn:Ea; [done|]. cbn [orb]. intros Hs. change (String a s +:+ "/" +:+ n) with (String a (s +:+ "/" +:+ n)). cbn [cut_on]. rewrite Ascii.eqb_sym, Ea. by rewrite (IH Hs).
Qed.
Section Paths.
Context {CR : Crypto} (E : env) (c : config).
Lemma escape_plain s : s <> "" -> s <> "." -> s <> ".." -> plain_name (query_escape s).
Proof.
  intros H1 H2 H3. split_and!; [| | |apply query_escape_no_slash]; intros H.
  - apply H1. by apply query_escape_inj.
  - apply H2. apply query_escape_inj. exact H.
  - apply H3. apply query_escape_inj. exact H.
Qed.
Lemma target_path_plain : plain_base (c_targets_dir c) = true -> exists prefix, (forall tf, (c_targets_dir c <> "" \/ c_disable_cache c = true) -> tf_path tf <> "" -> tf_path tf <> "." -> tf_path tf <> ".." -> target_file_path E c tf = Ok (prefix +:+ query_escape (tf_path tf))) /\
  (has_prefix "/" (c_targets_dir c) = true -> prefix = dir_prefix (c_targets_dir c)).
Proof.
  intros Hb. destruct (has_prefix "/" (c_targets_dir c)) eqn:Ep.
  - exists (dir_prefix (c_targets_dir c)). split; [|done]. intros tf Hd H1 H2 H3. unfold target_file_path, url_join. rewrite Hb, Ep.
    replace (String.eqb (c_targets_dir c) "" && negb (c_disable_cache c)) with false by (destruct Hd as [Hd| ->]; [by rewrite (proj2 (String.eqb_neq _ _) Hd)|by rewrite andb_false_r]).
    rewrite path_join_plain by (by apply escape_plain). by rewrite in_dir_prefix.
  - exists (str_drop 1 (dir_prefix ("/" +:+ c_targets_dir c))). split; [|done]. intros tf Hd H1 H2 H3. unfold target_file_path, url_join. rewrite Hb, Ep.
    replace (String.eqb (c_targets_dir c) "" && negb (c_disable_cache c)) with false by (destruct Hd as [Hd| ->]; [by rewrite (proj2 (String.eqb_neq _ _) Hd)|by rewrite andb_false_r]).
    rewrite path_join_plain by (by apply escape_plain). rewrite in_dir_prefix. f_equal.
    assert (dir_prefix ("/" +:+ c_targets_dir c) <> "") as Hne.
    { unfold dir_prefix, path_clean. change (String.eqb ("/" +:+ c_targets_dir c) "") with false. change (has_prefix "/" ("/" +:+ c_targets_dir c)) with true. cbv zeta. cbn match. set (j := join_str _ _). change ("/" +:+ j) with (String "/" j). destruct j; done. }
    destruct (dir_prefix ("/" +:+ c_targets_dir c)); [done|done].
Qed.
End Paths.
