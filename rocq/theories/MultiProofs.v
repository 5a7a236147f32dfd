(** * Proofs about the multi-repository client (C76-C79, C84-C87) *)
From stdpp Require Import base gmap strings list.
From Coq Require Import ZArith Lia Ascii String.
From Verif Require Import GoBase GoStr Json GoTime Types Marshal Keys Glob Metadata TrustedMetadata Fetcher Updater MultiRepo SpecBasic SpecTrusted SpecUpdater SpecMulti.
From Verif Require Import UpdaterProofs ApiProofs ClaimProofs FinalProofs.
Open Scope Z_scope.

Section Multi.
Context {CR : Crypto} (E : env).
Implicit Types (s : mrstate) (gs : list group).

(** ** Groups *)
(** every group is made of answers *)
Definition group_of (l : list (string * targetfile)) (g : group) : Prop := vouch l g.1 g.2 /\ (exists r, (r, g.1) ∈ l /\ r ∈ g.2).
Lemma vouch_mono l l' info rs : vouch l info rs -> (forall x, x ∈ l -> x ∈ l') -> vouch l' info rs.
Proof. intros [H1 H2] Hl. split; [done|]. intros r Hr. destruct (H2 r Hr) as (i & Hi & He). exists i. split; [by apply Hl|done]. Qed.
Lemma add_answer_groups l repo info gs : Forall (group_of l) gs -> Forall (group_of (l ++ [(repo, info)])) (add_answer repo info gs).
Proof.
  intros H. assert (forall x, x ∈ l -> x ∈ l ++ [(repo, info)]) as Hl by set_solver.
  assert (Forall (group_of (l ++ [(repo, info)])) gs) as H'.
  { eapply Forall_impl; [exact H|]. intros g [H1 (r & H2 & H3)]. split; [by eapply vouch_mono|]. exists r. split; [by apply Hl|done]. }
  unfold add_answer. destruct (existsb _ gs) eqn:Ex.
  - rewrite Forall_forall in H' |- *. intros g Hg. apply elem_of_list_fmap in Hg as (g0 & -> & Hg0). specialize (H' g0 Hg0). destruct (targetfile_equal g0.1 info) eqn:Eq; [|done].
    destruct (decide (repo ∈ g0.2)) as [Hin|Hin]; [done|]. destruct H' as [[Hn Hv] (r & Hr & Hr2)]. split.
    + split; cbn [fst snd]. { apply NoDup_app. split; [done|]. split; [set_solver|apply NoDup_singleton]. }
      intros r' [Hr'|Hr']%elem_of_app; [by apply Hv|]. apply elem_of_list_singleton in Hr' as ->. exists info. split; [set_solver|by right].
    + exists r. cbn [fst snd]. split; [done|set_solver].
  - apply Forall_app. split; [done|]. apply Forall_singleton. split; cbn [fst snd].
    + split; [apply NoDup_singleton|]. intros r Hr%elem_of_list_singleton. subst r. exists info. split; [set_solver|by left].
    + exists repo. split; [set_solver|by left].
Qed.

(** the answers, folded into groups *)
Definition groups (l : list (string * targetfile)) (gs : list group) : list group := fold_left (fun gs x => add_answer x.1 x.2 gs) l gs.
Lemma groups_of l l0 gs : Forall (group_of l0) gs -> Forall (group_of (l0 ++ l)) (groups l gs).
Proof.
  revert l0 gs. induction l as [|[r i] l IH]; intros l0 gs H; [by rewrite app_nil_r|]. cbn. rewrite cons_middle, app_assoc. apply IH. by apply add_answer_groups.
Qed.
Lemma called_trans target s s1 s2 : called E target s s1 -> called E target s1 s2 -> called E target s s2.
Proof. intros H1 H2. induction H2 as [|s2 s3 r o H2 IH Ha]; [done|]. by econstructor. Qed.
Lemma called_one target s s1 r o : ask E target r s = (s1, o) -> called E target s s1.
Proof. intros H. econstructor; [constructor|exact H]. Qed.
Lemma asked_called target repos s l s' : asked E target repos s l s' -> called E target s s'.
Proof. induction 1 as [|r rs s s1 info l s' Ha _ IH|r rs s s1 e l s' Ha _ IH]; [constructor|eapply called_trans; [by eapply called_one|done]..]. Qed.
Lemma collect_spec target repos gs s s' o : collect E repos target gs s = (s', o) ->
  (exists l, asked E target repos s l s' /\ o = Ok (groups l gs)) \/ (called E target s s' /\ o = Panic).
Proof.
  revert gs s. induction repos as [|r repos IH]; intros gs s H; cbn [collect] in H.
  - injection H as <- <-. left. exists []. split; [constructor|done].
  - apply satt_inv in H as [(s1 & info & H1 & H)|[(s1 & e & H1 & H)|[H1 ->]]]; fold (ask E target r) in H1.
    + destruct info as [info|]; [|apply sout_inv in H as [-> ->]; right; split; [by eapply called_one|done]].
      apply IH in H as [(l & Hl & ->)|[Hc ->]]; [|right; split; [eapply called_trans; [by eapply called_one|done]|done]].
      left. exists ((r, info) :: l). split; [by econstructor|done].
    + apply IH in H as [(l & Hl & ->)|[Hc ->]]; [|right; split; [eapply called_trans; [by eapply called_one|done]|done]].
      left. exists l. split; [by econstructor|done].
    + right. split; [by eapply called_one|done].
Qed.
Lemma collect_run target repos gs s l s' : asked E target repos s l s' -> collect E repos target gs s = (s', Ok (groups l gs)).
Proof.
  intros H. revert gs. induction H as [s|r rs s s1 info l s' Ha _ IH|r rs s s1 e l s' Ha _ IH]; intros gs; cbn [collect]; [done|..]; unfold satt; fold (ask E target r); rewrite Ha; apply IH.
Qed.

(** ** Choosing a group *)
Definition reaches (thr : Z) (g : group) : Prop := thr <= Z.of_nat (List.length g.2).
Lemma pick_found thr gs var : (Forall (fun g => ~ reaches thr g) gs /\ pick thr gs true var = Ok (match last gs with Some g => Some g | None => var end)) \/
  ((exists g, g ∈ gs /\ reaches thr g) /\ pick thr gs true var = Err (EOther "more than one target info matching the necessary threshold value")).
Proof.
  revert var. induction gs as [|g gs IH]; intros var; [left; by split|]. cbn [pick]. destruct (Z.leb_spec thr (Z.of_nat (List.length g.2))) as [H|H].
  - right. split; [exists g; split; [by left|done]|done].
  - destruct (IH (Some g)) as [[Hf ->]|[(g' & Hg & Hr) ->]].
    + left. split; [constructor; [unfold reaches; lia|done]|]. destruct gs as [|x gs]; [done|]. change (last (g :: x :: gs)) with (last (x :: gs)). destruct (last (x :: gs)) eqn:Ex; [done|by apply last_None in Ex].
    + right. split; [exists g'; split; [by right|done]|done].
Qed.
Lemma pick_start thr gs var : (Forall (fun g => ~ reaches thr g) gs /\ pick thr gs false var = Ok None) \/
  (exists l1 h l2, gs = l1 ++ h :: l2 /\ Forall (fun g => ~ reaches thr g) l1 /\ reaches thr h /\ pick thr gs false var = pick thr l2 true (Some h)).
Proof.
  revert var. induction gs as [|g gs IH]; intros var; [left; by split|]. cbn [pick]. destruct (Z.leb_spec thr (Z.of_nat (List.length g.2))) as [H|H].
  - right. exists [], g, gs. done.
  - destruct (IH (Some g)) as [[Hf ->]|(l1 & h & l2 & -> & Hf & Hr & ->)].
    + left. split; [constructor; [unfold reaches; lia|done]|done].
    + right. exists (g :: l1), h, l2. split; [done|]. split; [constructor; [unfold reaches; lia|done]|done].
Qed.
Lemma consensus_none thr gs : Forall (fun g => ~ reaches thr g) gs -> consensus thr gs = Ok None.
Proof.
  intros H. unfold consensus. destruct (pick_start thr gs None) as [[_ ?]|(l1 & h & l2 & -> & _ & Hr & _)]; [done|]. apply Forall_app in H as [_ H]. by inversion H.
Qed.
Lemma consensus_some thr gs g : consensus thr gs = Ok (Some g) -> last gs = Some g /\ exists l1 h l2, gs = l1 ++ h :: l2 /\ reaches thr h /\ Forall (fun g => ~ reaches thr g) (l1 ++ l2).
Proof.
  unfold consensus. destruct (pick_start thr gs None) as [[_ ->]|(l1 & h & l2 & -> & Hf & Hr & ->)]; [done|].
  destruct (pick_found thr l2 (Some h)) as [[Hf2 ->]|[_ ->]]; [|done]. intros [= Hl]. split.
  - rewrite last_app. destruct l2 as [|x l2]; [exact Hl|]. change (last (h :: x :: l2)) with (last (x :: l2)). destruct (last (x :: l2)) as [y|] eqn:Ex; [exact Hl|by apply last_None in Ex].
  - exists l1, h, l2. split; [done|]. split; [done|]. by apply Forall_app.
Qed.
Lemma consensus_conflict thr l1 h1 l2 h2 l3 : reaches thr h1 -> reaches thr h2 -> consensus thr (l1 ++ h1 :: l2 ++ h2 :: l3) = Err (EOther "more than one target info matching the necessary threshold value").
Proof.
  intros H1 H2. unfold consensus. destruct (pick_start thr (l1 ++ h1 :: l2 ++ h2 :: l3) None) as [[Hf _]|(k1 & k & k2 & Heq & Hf & Hk & ->)].
  - apply Forall_app in Hf as [_ Hf]. by inversion Hf.
  - destruct (pick_found thr k2 (Some k)) as [[Hf2 _]|[_ ->]]; [|done]. exfalso.
    assert (h2 ∈ k2) as Hin; [|rewrite Forall_forall in Hf2; by apply (Hf2 h2)].
    rewrite app_comm_cons, app_assoc in Heq. revert Heq.
    assert (forall (a b : list group) x c y d, a ++ x :: b = c ++ y :: d -> (exists e, c = a ++ x :: e) \/ (a = c /\ x = y /\ b = d) \/ (exists e, a = c ++ y :: e /\ d = e ++ x :: b)) as Hcut.
    { clear. intros a. induction a as [|z a IH]; intros b x c y d H; destruct c as [|z' c]; cbn in H; injection H as Ha Hb; subst.
      - right; left. done.
      - left. by exists c.
      - right; right. by exists a.
      - destruct (IH _ _ _ _ _ Hb) as [(e & ->)|[(-> & -> & ->)|(e & -> & ->)]]; [left; by exists e|right; left; done|right; right; by exists e]. }
    intros Heq. destruct (Hcut _ _ _ _ _ _ Heq) as [(e & ->)|[(<- & _ & _)|(e & _ & ->)]].
    + apply Forall_app in Hf as [Hf _]. apply Forall_app in Hf as [_ Hf]. by inversion Hf.
    + apply Forall_app in Hf as [_ Hf]. by inversion Hf.
    + set_solver.
Qed.

(** ** The search *)
Fixpoint try_pairs (l : list (mapping * string)) (target : string) : MR group :=
  match l with
  | [] => sout (Err (EOther "target info not found"))
  | (m, p) :: l =>
      do matched := sout (glob_match p target) in
      if matched : bool then
        do gs := collect E (slist (mp_repos m)) target [] in
        do r := sout (consensus (mp_threshold m) gs) in
        match r with Some g => sret g | None => if mp_terminating m then sout (Err (EOther "target info not found")) else try_pairs l target end
      else try_pairs l target
  end.
Lemma try_paths_pairs m ps target rest s : 
  (do r := try_paths E m ps target in match r with inl g => sret g | inr true => sout (Err (EOther "target info not found")) | inr false => try_pairs rest target end) s = try_pairs (map (pair m) ps ++ rest) target s.
Proof.
  revert s. induction ps as [|p ps IH]; intros s; [done|]. cbn [try_paths map app try_pairs]. unfold sbind, sout, sret in *. destruct (glob_match p target) as [[]| |]; [|apply IH|done|done].
  destruct (collect E (slist (mp_repos m)) target [] s) as [s1 [gs| |]]; [|done|done]. destruct (consensus (mp_threshold m) gs) as [[g|]| |]; [done| |done|done]. destruct (mp_terminating m); [done|]. apply IH.
Qed.
Lemma try_mappings_pairs ms target s : try_mappings E (map Some ms) target s = try_pairs (patterns ms) target s.
Proof.
  revert s. induction ms as [|m ms IH]; intros s; [done|]. unfold patterns. cbn [map try_mappings flat_map]. fold (patterns ms). rewrite <- try_paths_pairs. unfold sbind. destruct (try_paths E m _ target s) as [s1 [[g|[]]| |]]; [done|done|apply IH|done|done].
Qed.
Lemma passes_run target pre rest s s1 : passes E target pre s s1 -> try_pairs (pre ++ rest) target s = try_pairs rest target s1.
Proof.
  induction 1 as [s|m p l s s' Hm _ IH|m p l s answers s1 s' Hm Ha Hv Ht _ IH]; [done|..]; cbn [app try_pairs]; unfold sbind at 1; cbn; rewrite Hm; [done|].
  unfold sbind at 1. rewrite (collect_run _ _ _ _ _ _ Ha). unfold sbind at 1. cbn. rewrite consensus_none; [by rewrite Ht|].
  pose proof (groups_of answers [] [] (List.Forall_nil _)) as Hg. cbn in Hg. eapply Forall_impl; [exact Hg|]. intros g [Hvg _]. apply Hv in Hvg. unfold reaches. lia.
Qed.

(** ** C76 *)
Lemma groups_single l gs : (forall r i r' i', (r, i) ∈ l -> (r', i') ∈ l -> targetfile_equal i i' = true) -> (forall g r i, g ∈ gs -> (r, i) ∈ l -> targetfile_equal g.1 i = true) ->
  (List.length gs <= 1)%nat -> (List.length (groups l gs) <= 1)%nat.
Proof.
  revert gs. induction l as [|[r i] l IH]; intros gs H1 H2 Hn; [done|]. cbn. apply IH.
  - intros r1 i1 r2 i2 Ha Hb. eapply H1; right; eassumption.
  - intros g r' i' Hg Hi. unfold add_answer in Hg. destruct (existsb _ gs).
    + apply elem_of_list_fmap in Hg as (g0 & -> & Hg0). assert (targetfile_equal g0.1 i' = true) by (eapply H2; [done|by right; eauto]). destruct (targetfile_equal g0.1 i); [|done]. by destruct (decide _).
    + apply elem_of_app in Hg as [Hg|Hg]; [eapply H2; [done|by right; eauto]|]. apply elem_of_list_singleton in Hg as ->. cbn. eapply H1; [left|by right; eauto].
  - unfold add_answer. destruct (existsb _ gs) eqn:Ex; [by rewrite map_length|]. destruct gs as [|g gs]; [done|]. cbn in Ex. rewrite (H2 g r i) in Ex; [done|by left|by left].
Qed.
Lemma try_pairs_ok target l s s' g : try_pairs l target s = (s', Ok g) ->
  exists m p s1 answers, (m, p) ∈ l /\ glob_match p target = Ok true /\ called E target s s1 /\ asked E target (slist (mp_repos m)) s1 answers s' /\ consensus (mp_threshold m) (groups answers []) = Ok (Some g).
Proof.
  revert s. induction l as [|[m p] l IH]; intros s H; [done|]. cbn [try_pairs] in H. apply sbind_inv in H as [(s1 & matched & H1 & H)|[(e & H1 & [=])|[H1 [=]]]]. apply sout_inv in H1 as [-> H1].
  assert (forall s0, called E target s s0 -> try_pairs l target s0 = (s', Ok g) -> exists m0 p0 s1 answers, (m0, p0) ∈ (m, p) :: l /\ glob_match p0 target = Ok true /\ called E target s s1 /\ asked E target (slist (mp_repos m0)) s1 answers s' /\ consensus (mp_threshold m0) (groups answers []) = Ok (Some g)) as Hrest.
  { intros s0 Hc Hr. apply IH in Hr as (m0 & p0 & s2 & answers & Hin & Hm & Hc2 & Ha & Hg). exists m0, p0, s2, answers. split; [by right|]. split; [done|]. split; [by eapply called_trans|done]. }
  destruct matched; [|eapply Hrest; [constructor|done]].
  apply sbind_inv in H as [(s1 & gs & H2 & H)|[(e & H2 & [=])|[H2 [=]]]]. apply collect_spec in H2 as [(answers & Ha & Hgs)|[_ [=]]]. injection Hgs as ->.
  apply sbind_inv in H as [(s2 & r & H2 & H)|[(e & H2 & [=])|[H2 [=]]]]. apply sout_inv in H2 as [-> H2]. destruct r as [g'|].
  - injection H as <- <-. exists m, p, s, answers. split; [by left|]. split; [done|]. split; [constructor|]. by split.
  - destruct (mp_terminating m); [done|]. eapply Hrest; [by eapply asked_called|done].
Qed.
Lemma mr_info_ok rm ms target s s' info repos : rm_mapping rm = Some (map Some ms) -> mr_get_target_info E rm target s = (s', Ok (info, repos)) ->
  exists m p s1 answers, m ∈ ms /\ p ∈ slist (mp_paths m) /\ glob_match p target = Ok true /\ called E target s s1 /\ asked E target (slist (mp_repos m)) s1 answers s' /\
    vouch answers info repos /\ (exists r, r ∈ repos /\ (r, info) ∈ answers) /\
    (exists info' repos' r', vouch answers info' repos' /\ (r', info') ∈ answers /\ mp_threshold m <= Z.of_nat (List.length repos')) /\
    ((forall r i r' i', (r, i) ∈ answers -> (r', i') ∈ answers -> targetfile_equal i i' = true) -> mp_threshold m <= Z.of_nat (List.length repos)).
Proof.
  intros Hm H. unfold mr_get_target_info in H. rewrite Hm in H. change (slist (Some (map Some ms))) with (map Some ms) in H. rewrite try_mappings_pairs in H. apply try_pairs_ok in H as (m & p & s1 & answers & Hin & Hp & Hc & Ha & Hg).
  exists m, p, s1, answers. unfold patterns in Hin. apply elem_of_list_In, in_flat_map in Hin as (m0 & Hm0 & Hin). apply in_map_iff in Hin as (p0 & [= -> ->] & Hp0). apply elem_of_list_In in Hm0, Hp0.
  split; [done|]. split; [done|]. split; [done|]. split; [done|]. split; [done|].
  pose proof (groups_of answers [] [] (List.Forall_nil _)) as Hgs. cbn in Hgs. apply consensus_some in Hg as [Hl (l1 & h & l2 & Heq & Hr & Hn)].
  assert (group_of answers (info, repos)) as [Hv (r & Hr1 & Hr2)]. { rewrite Forall_forall in Hgs. apply Hgs. by apply last_Some_elem_of. }
  assert (group_of answers h) as [Hvh (r' & Hr1' & _)]. { rewrite Forall_forall in Hgs. apply Hgs. rewrite Heq. set_solver. }
  split; [exact Hv|]. split; [by exists r|]. split; [exists h.1, h.2, r'; split; [exact Hvh|]; split; [exact Hr1'|exact Hr]|].
  intros Hall. pose proof (groups_single answers [] Hall) as Hs. rewrite Heq in Hs, Hl. rewrite app_length in Hs. cbn in Hs. assert (l1 = [] /\ l2 = []) as [-> ->].
  { assert (List.length l1 + S (List.length l2) <= 1)%nat as Hlen by (apply Hs; [intros g ? ? Hx; by apply elem_of_nil in Hx|lia]). destruct l1, l2; cbn in Hlen; try lia; done. }
  cbn in Hl. injection Hl as ->. exact Hr.
Qed.

(** ** C77 *)
Lemma mr_info_pre rm ms pre rest target s s1 : rm_mapping rm = Some (map Some ms) -> patterns ms = pre ++ rest -> passes E target pre s s1 -> mr_get_target_info E rm target s = try_pairs rest target s1.
Proof. intros Hm Hp H. unfold mr_get_target_info. rewrite Hm. change (slist (Some (map Some ms))) with (map Some ms). rewrite try_mappings_pairs, Hp. by apply passes_run. Qed.
Lemma mr_info_terminating rm ms pre m p post target s s1 answers s2 : rm_mapping rm = Some (map Some ms) -> patterns ms = pre ++ (m, p) :: post -> passes E target pre s s1 ->
  glob_match p target = Ok true -> asked E target (slist (mp_repos m)) s1 answers s2 -> (forall info rs, vouch answers info rs -> Z.of_nat (List.length rs) < mp_threshold m) -> mp_terminating m = true ->
  mr_get_target_info E rm target s = (s2, Err (EOther "target info not found")).
Proof.
  intros Hm Hp Hpre Hg Ha Hv Ht. rewrite (mr_info_pre _ _ _ _ _ _ _ Hm Hp Hpre). cbn [try_pairs]. unfold sbind, sout. rewrite Hg, (collect_run _ _ _ _ _ _ Ha), consensus_none; [by rewrite Ht|].
  pose proof (groups_of answers [] [] (List.Forall_nil _)) as Hgs. cbn in Hgs. eapply Forall_impl; [exact Hgs|]. intros g [Hvg _]. apply Hv in Hvg. unfold reaches. lia.
Qed.
(** the groups are classes of answers *)
Definition classes (l : list (string * targetfile)) (gs : list group) : Prop :=
  Forall (fun g : group => NoDup g.2 /\ exists r, (r, g.1) ∈ l) gs /\ (forall r i, (r, i) ∈ l -> exists g, g ∈ gs /\ r ∈ g.2 /\ targetfile_equal g.1 i = true) /\
  (forall i j g h, gs !! i = Some g -> gs !! j = Some h -> targetfile_equal g.1 h.1 = true -> i = j).
Lemma groups_classes all l0 l gs : comparable all -> (forall x, x ∈ l0 ++ l -> x ∈ all) -> classes l0 gs -> classes (l0 ++ l) (groups l gs).
Proof.
  intros (Hrefl & Hsym & Htrans). revert l0 gs. induction l as [|[r i] l IH]; intros l0 gs Hall (H1 & H2 & H3); [by rewrite app_nil_r|].
  cbn. rewrite cons_middle, app_assoc. apply IH; [intros x; rewrite <- app_assoc; apply Hall|]. clear IH.
  assert ((r, i) ∈ all) as Hri by (apply Hall; set_solver).
  assert (forall g, g ∈ gs -> exists r, (r, g.1) ∈ all) as Hg. { intros g Hg. rewrite Forall_forall in H1. destruct (H1 g Hg) as [_ (r' & Hr')]. exists r'. apply Hall. set_solver. }
  unfold add_answer. destruct (existsb _ gs) eqn:Ex.
  - set (f := fun g : group => if targetfile_equal g.1 i then if decide (r ∈ g.2) then g else (g.1, g.2 ++ [r]) else g).
    assert (forall g, (f g).1 = g.1) as Hf1. { intros g. unfold f. destruct (targetfile_equal g.1 i); [by destruct (decide _)|done]. }
    assert (forall g x, x ∈ g.2 -> x ∈ (f g).2) as Hf2. { intros g x Hx. unfold f. destruct (targetfile_equal g.1 i); [|done]. destruct (decide _); [done|]. cbn. set_solver. }
    split; [|split].
    + rewrite Forall_forall in H1 |- *. intros g' (g & -> & Hin)%elem_of_list_fmap. destruct (H1 g Hin) as [Hn (r' & Hr')]. split.
      * unfold f. destruct (targetfile_equal g.1 i); [|done]. destruct (decide (r ∈ g.2)) as [|Hni]; [done|]. cbn. apply NoDup_app. split; [done|]. split; [set_solver|apply NoDup_singleton].
      * exists r'. rewrite Hf1. set_solver.
    + intros r' i' [Hin|Hin]%elem_of_app.
      * destruct (H2 _ _ Hin) as (g & Hgin & Hr & He). exists (f g). split; [by apply elem_of_list_fmap_1|]. split; [by apply Hf2|by rewrite Hf1].
      * apply elem_of_list_singleton in Hin as [= -> ->]. apply existsb_exists in Ex as (g & Hgin & He). apply elem_of_list_In in Hgin. exists (f g). split; [by apply elem_of_list_fmap_1|]. rewrite Hf1. split; [|done]. unfold f. rewrite He. destruct (decide (r ∈ g.2)); [done|]. cbn. set_solver.
    + intros a b g h Hga Hhb. apply list_lookup_fmap_Some in Hga as (g0 & Hg0 & ->). apply list_lookup_fmap_Some in Hhb as (h0 & Hh0 & ->). rewrite !Hf1. by eapply H3.
  - assert (forall g, g ∈ gs -> targetfile_equal g.1 i = false) as Hno. { intros g Hgin. destruct (targetfile_equal g.1 i) eqn:He; [|done]. assert (existsb (fun g : group => targetfile_equal g.1 i) gs = true) as Hx; [|congruence]. apply existsb_exists. exists g. split; [by apply elem_of_list_In|done]. }
    split; [|split].
    + apply Forall_app. split. { eapply Forall_impl; [exact H1|]. intros g [Hn (r' & Hr')]. split; [done|]. exists r'. set_solver. }
      apply Forall_singleton. split; [apply NoDup_singleton|]. exists r. set_solver.
    + intros r' i' [Hin|Hin]%elem_of_app.
      * destruct (H2 _ _ Hin) as (g & Hgin & Hr & He). exists g. split; [set_solver|done].
      * apply elem_of_list_singleton in Hin as [= -> ->]. exists (i, [r]). split; [set_solver|]. split; [by left|by eapply Hrefl].
    + intros a b g h Hga Hhb He. apply lookup_app_Some in Hga as [Hga|[Hla Hga]]; apply lookup_app_Some in Hhb as [Hhb|[Hlb Hhb]].
      * by eapply H3.
      * apply list_lookup_singleton_Some in Hhb as [Hb <-]. cbn in He. rewrite Hno in He; [done|by eapply elem_of_list_lookup_2].
      * apply list_lookup_singleton_Some in Hga as [Hb <-]. cbn in He. destruct (Hg h) as [r' Hr']; [by eapply elem_of_list_lookup_2|]. eapply Hsym in He; [|exact Hri|exact Hr']. rewrite Hno in He; [done|by eapply elem_of_list_lookup_2].
      * apply list_lookup_singleton_Some in Hga as [Ha _]. apply list_lookup_singleton_Some in Hhb as [Hb _]. lia.
Qed.
Lemma classes_reach l gs info rs thr r0 : comparable l -> classes l gs -> (r0, info) ∈ l -> vouch l info rs -> thr <= Z.of_nat (List.length rs) -> exists n g, gs !! n = Some g /\ targetfile_equal g.1 info = true /\ reaches thr g.
Proof.
  intros (Hrefl & Hsym & Htrans) (H1 & H2 & H3) Hin [Hn Hv] Hthr. destruct (H2 _ _ Hin) as (g & Hg & _ & He). apply elem_of_list_lookup in Hg as [n Hg]. exists n, g. split; [done|]. split; [done|]. unfold reaches.
  rewrite Forall_forall in H1. destruct (H1 g) as [Hng (rg & Hrg)]; [by eapply elem_of_list_lookup_2|].
  assert (List.length rs <= List.length g.2)%nat; [|lia]. apply submseteq_length. apply NoDup_submseteq; [done|]. intros r Hr. destruct (Hv r Hr) as (i & Hi & Hei). destruct (H2 _ _ Hi) as (g' & Hg' & Hr' & He').
  destruct (H1 g') as [_ (rg' & Hrg')]; [done|]. apply elem_of_list_lookup in Hg' as [n' Hg'].
  assert (targetfile_equal info i = true) as Hei' by (destruct Hei as [-> |?]; [by eapply Hrefl|done]).
  assert (targetfile_equal g.1 g'.1 = true) as Heq. { eapply (Htrans _ _ _ _ _ _ Hrg Hi Hrg'); [by eapply (Htrans _ _ _ _ _ _ Hrg Hin Hi)|by eapply (Hsym _ _ _ _ Hrg' Hi)]. }
  pose proof (H3 _ _ _ _ Hg Hg' Heq) as <-. rewrite Hg in Hg'. by injection Hg' as <-.
Qed.
Lemma mr_info_conflict rm ms pre m p post target s s1 answers s2 info1 rs1 r1 info2 rs2 r2 : rm_mapping rm = Some (map Some ms) -> patterns ms = pre ++ (m, p) :: post -> passes E target pre s s1 ->
  glob_match p target = Ok true -> asked E target (slist (mp_repos m)) s1 answers s2 -> comparable answers ->
  (r1, info1) ∈ answers -> vouch answers info1 rs1 -> mp_threshold m <= Z.of_nat (List.length rs1) ->
  (r2, info2) ∈ answers -> vouch answers info2 rs2 -> mp_threshold m <= Z.of_nat (List.length rs2) -> targetfile_equal info1 info2 = false ->
  mr_get_target_info E rm target s = (s2, Err (EOther "more than one target info matching the necessary threshold value")).
Proof.
  intros Hm Hp Hpre Hg Ha Hc Hi1 Hv1 Ht1 Hi2 Hv2 Ht2 Hne. rewrite (mr_info_pre _ _ _ _ _ _ _ Hm Hp Hpre). cbn [try_pairs]. unfold sbind, sout. rewrite Hg, (collect_run _ _ _ _ _ _ Ha).
  enough (consensus (mp_threshold m) (groups answers []) = Err (EOther "more than one target info matching the necessary threshold value")) as -> by done.
  assert (classes answers (groups answers [])) as Hcl. { apply (groups_classes answers [] answers []); [done|done|]. split; [constructor|]. split; [intros ? ? Hx; by apply elem_of_nil in Hx|done]. }
  destruct (classes_reach _ _ _ _ _ _ Hc Hcl Hi1 Hv1 Ht1) as (n1 & g1 & Hg1 & He1 & Hr1). destruct (classes_reach _ _ _ _ _ _ Hc Hcl Hi2 Hv2 Ht2) as (n2 & g2 & Hg2 & He2 & Hr2).
  destruct Hc as (Hrefl & Hsym & Htrans). destruct Hcl as (Hrep & _ & _). rewrite Forall_forall in Hrep.
  destruct (Hrep g1) as [_ (q1 & Hq1)]; [by eapply elem_of_list_lookup_2|]. destruct (Hrep g2) as [_ (q2 & Hq2)]; [by eapply elem_of_list_lookup_2|].
  assert (n1 <> n2) as Hn. { intros <-. rewrite Hg1 in Hg2. injection Hg2 as <-. assert (targetfile_equal info1 info2 = true); [|congruence]. eapply (Htrans _ _ _ _ _ _ Hi1 Hq1 Hi2); [by eapply (Hsym _ _ _ _ Hq1 Hi1)|done]. }
  assert (forall (gs : list group) a b g h, gs !! a = Some g -> gs !! b = Some h -> (a < b)%nat -> exists l1 l2 l3, gs = l1 ++ g :: l2 ++ h :: l3) as Hsplit.
  { clear. intros gs a b g h Ha Hb Hlt. apply list_elem_of_split_length in Ha as (l1 & l2 & -> & ->) || (rewrite <- (take_drop_middle _ _ _ Ha) in Hb |- *). rewrite lookup_app_r in Hb by (rewrite take_length; lia).
    assert (List.length (take a gs) = a) as Hla by (apply take_length_le; apply lookup_lt_Some in Ha; lia). rewrite Hla in Hb. destruct (b - a)%nat as [|k] eqn:Ek; [lia|]. cbn in Hb.
    exists (take a gs), (take k (drop (S a) gs)), (drop (S k) (drop (S a) gs)). by rewrite (take_drop_middle _ _ _ Hb). }
  destruct (Nat.lt_ge_cases n1 n2) as [Hlt|Hge].
  - destruct (Hsplit _ _ _ _ _ Hg1 Hg2 Hlt) as (l1 & l2 & l3 & ->). by apply consensus_conflict.
  - destruct (Hsplit _ _ _ _ _ Hg2 Hg1 ltac:(lia)) as (l1 & l2 & l3 & ->). by apply consensus_conflict.
Qed.

(** ** The clients of the repositories *)
Definition sane (now : Z) s : Prop := forall n cl, mr_clients s !! n = Some cl -> session E (cl_cfg cl) now (mkWorld (cl_trusted cl) (mr_io s)).
Definition moves s s' : Prop :=
  (forall now, sane now s -> sane now s') /\
  (forall n cl, mr_clients s !! n = Some cl -> exists cl', mr_clients s' !! n = Some cl' /\ cl_cfg cl' = cl_cfg cl /\ disciplined_calls (cl_trusted cl) (cl_trusted cl')) /\
  (forall n, mr_clients s !! n = None -> mr_clients s' !! n = None).
Lemma moves_refl s : moves s s.
Proof. split; [done|]. split; [|done]. intros n cl H. exists cl. split; [done|]. split; [done|constructor]. Qed.
Lemma moves_trans s1 s2 s3 : moves s1 s2 -> moves s2 s3 -> moves s1 s3.
Proof.
  intros (H1 & H2 & H3) (K1 & K2 & K3). split; [auto|]. split; [|auto]. intros n cl H. destruct (H2 n cl H) as (cl1 & Ha & Hb & Hc). destruct (K2 n cl1 Ha) as (cl2 & Ka & Kb & Kc).
  exists cl2. split; [done|]. split; [congruence|by eapply BlockProofs.dcalls_trans].
Qed.
Lemma moves_files s i : moves s (mkMr (mr_clients s) i).
Proof.
  split. { intros now H n cl Hn. cbn in Hn |- *. apply H in Hn. change (mkWorld (cl_trusted cl) i) with (mkWorld (w_trusted (mkWorld (cl_trusted cl) (mr_io s))) i). by constructor. }
  split; [|done]. intros n cl H. exists cl. split; [done|]. split; [done|constructor].
Qed.
Definition good {A} (m : MR A) : Prop := forall s, moves s (fst (m s)).
Lemma good_bind {A B} (m : MR A) (k : A -> MR B) : good m -> (forall a, good (k a)) -> good (sbind m k).
Proof.
  intros Hm Hk s. unfold sbind. specialize (Hm s). destruct (m s) as [s1 [a| |]]; cbn in *; [|done|done]. eapply moves_trans; [exact Hm|apply Hk].
Qed.
Lemma good_att {A B} (m : MR A) (k : A + gerr -> MR B) : good m -> (forall a, good (k a)) -> good (satt m k).
Proof.
  intros Hm Hk s. unfold satt. specialize (Hm s). destruct (m s) as [s1 [a|e|]]; cbn in *; [| |done]; (eapply moves_trans; [exact Hm|apply Hk]).
Qed.
Lemma good_out {A} (o : outcome A) : good (sout o).
Proof. intros s. apply moves_refl. Qed.
Lemma good_ret {A} (a : A) : good (sret a).
Proof. intros s. apply moves_refl. Qed.
Lemma good_lift {A} (m : IO A) : good (mr_lift m).
Proof. intros s. unfold mr_lift. destruct (m (mr_io s)) as [i o]. apply moves_files. Qed.
Lemma good_client {A} repo (f : config -> M A) : (forall c w, fst (f c w) = w \/ exists a, fst (f c w) = fst (call_api E c a w)) -> good (on_client repo f).
Proof.
  intros Hf s. unfold on_client. destruct (mr_clients s !! repo) as [cl|] eqn:Ecl; [|apply moves_refl].
  specialize (Hf (cl_cfg cl) (mkWorld (cl_trusted cl) (mr_io s))). destruct (f (cl_cfg cl) _) as [w o]. cbn [fst] in *.
  assert (disciplined_calls (cl_trusted cl) (w_trusted w)) as Hd. { destruct Hf as [-> |[a ->]]; [constructor|]. apply (call_api_calls E (cl_cfg cl) a (mkWorld (cl_trusted cl) (mr_io s))). }
  split; [|split].
  - intros now Hs n cl' Hn. cbn [mr_clients mr_io] in Hn |- *. apply lookup_insert_Some in Hn as [[<- <-]|[Hne Hn]].
    + cbn [cl_cfg cl_trusted]. replace (mkWorld (w_trusted w) (w_io w)) with w by (by destruct w). apply Hs in Ecl. destruct Hf as [-> |[a ->]]; [done|by constructor].
    + apply Hs in Hn. change (mkWorld (cl_trusted cl') (w_io w)) with (mkWorld (w_trusted (mkWorld (cl_trusted cl') (mr_io s))) (w_io w)). by constructor.
  - intros n cl' Hn. cbn [mr_clients]. destruct (decide (repo = n)) as [<-|Hne].
    + rewrite Ecl in Hn. injection Hn as <-. rewrite lookup_insert. eexists. split; [done|]. split; [done|exact Hd].
    + rewrite lookup_insert_ne by done. exists cl'. split; [done|]. split; [done|constructor].
  - intros n Hn. cbn [mr_clients]. rewrite lookup_insert_ne; [done|]. intros <-. congruence.
Qed.
Lemma good_ask target repo : good (ask E target repo).
Proof. apply good_client. intros c w. right. exists (GetTargetInfo target). cbn [call_api]. by destruct (get_target_info E c target w). Qed.
Lemma called_moves target s s' : called E target s s' -> moves s s'.
Proof. induction 1 as [|s1 s2 r o _ IH Ha]; [apply moves_refl|]. eapply moves_trans; [exact IH|]. pose proof (good_ask target r s1) as H. by rewrite Ha in H. Qed.
Lemma good_collect repos target gs : good (collect E repos target gs).
Proof.
  revert gs. induction repos as [|r repos IH]; intros gs; cbn [collect]; [apply good_ret|]. apply good_att; [apply (good_ask target r)|]. intros [[i|]|e]; [apply IH|apply good_out|apply IH].
Qed.
Lemma good_try_paths m ps target : good (try_paths E m ps target).
Proof.
  induction ps as [|p ps IH]; cbn [try_paths]; [apply good_ret|]. apply good_bind; [apply good_out|]. intros []; [|exact IH]. apply good_bind; [apply good_collect|]. intros gs. apply good_bind; [apply good_out|].
  intros [g|]; [apply good_ret|]. destruct (mp_terminating m); [apply good_ret|exact IH].
Qed.
Lemma good_try_mappings ms target : good (try_mappings E ms target).
Proof. induction ms as [|[m|] ms IH]; cbn [try_mappings]; [apply good_out| |apply good_out]. apply good_bind; [apply good_try_paths|]. intros [g|[]]; [apply good_ret|apply good_out|exact IH]. Qed.
Lemma good_info rm target : good (mr_get_target_info E rm target).
Proof. apply good_try_mappings. Qed.
Lemma good_add_top_level rm names acc : good (add_top_level E rm names acc).
Proof. revert acc. induction names as [|n names IH]; intros acc; cbn [add_top_level]; [apply good_ret|]. apply good_bind; [apply good_info|]. intros g. destruct (acc !! n); [destruct (targetfile_equal _ _); [apply IH|apply good_out]|apply IH]. Qed.
Lemma good_top_level_clients rm l acc : good (top_level_clients E rm l acc).
Proof.
  revert acc. induction l as [|n l IH]; intros acc; cbn [top_level_clients]; [apply good_ret|]. apply good_bind; [apply good_client; intros c w; left; reflexivity|]. intros m. apply good_bind; [apply good_lift|]. intros l'. apply good_bind; [apply good_add_top_level|exact IH].
Qed.
Lemma good_top_level rm : good (mr_top_level_targets E rm).
Proof. intros s. unfold mr_top_level_targets. apply (good_bind _ _ (good_lift _)). intros l. apply good_top_level_clients. Qed.
Lemma good_refresh_list l : good (mr_refresh_list E l).
Proof. induction l as [|n l IH]; cbn [mr_refresh_list]; [apply good_ret|]. apply good_bind; [|done]. apply good_client. intros c w. right. by exists Refresh. Qed.
Lemma good_refresh : good (mr_refresh E).
Proof.
  intros s. unfold mr_refresh, iterate. cbv beta iota. eapply moves_trans; [apply (moves_files s)|]. apply good_refresh_list.
Qed.
Lemma good_find tf fp repo : good (on_client repo (fun c => lift (find_cached_target E c tf fp))).
Proof. apply good_client. intros c w. right. exists (FindCachedTarget tf fp). cbn [call_api]. by destruct (lift (find_cached_target E c tf fp) w). Qed.
Lemma good_download1 tf fp u repo : good (on_client repo (fun c => download_target E c tf fp u)).
Proof. apply good_client. intros c w. right. exists (DownloadTarget tf fp u). cbn [call_api]. by destruct (download_target E c tf fp u w). Qed.
Lemma good_download repos tf fp u : good (mr_download_target E repos tf fp u).
Proof.
  induction repos as [|r repos IH]; cbn [mr_download_target]; [apply good_out|]. apply good_bind; [apply good_find|]. intros x. destruct (_ && _); [apply good_ret|]. apply good_att; [apply good_download1|]. intros [y|e]; [apply good_ret|exact IH].
Qed.
Lemma good_call rm a : good (mr_call E rm a).
Proof.
  destruct a as [|target| |repos tf fp u]; intros s; unfold mr_call.
  - apply good_refresh.
  - pose proof (good_info rm target s) as H; revert H; by destruct (mr_get_target_info E rm target s).
  - pose proof (good_top_level rm s) as H; revert H; by destruct (mr_top_level_targets E rm s).
  - pose proof (good_download repos tf fp u s) as H; revert H; by destruct (mr_download_target E repos tf fp u s).
Qed.

(** ** C79 *)
Lemma init_client_ok now mc name urls i i' cl : init_client E now mc name urls i = (i', Ok cl) -> mget (rm_repos (mc_map mc)) name = Some urls ->
  made_for mc name cl /\ exists i0, updater_new E (cl_cfg cl) now i0 = (i', Ok (cl_trusted cl)).
Proof.
  intros H Hu. unfold init_client in H. destruct urls as [[|u l]|]; cbn in H; [done| |done]. destruct (mget (mc_roots mc) name) as [root|] eqn:Er; [|done].
  apply sbind_inv in H as [(i1 & x & H1 & H)|[(e & H1 & [=])|[H1 [=]]]]. apply sbind_inv in H as [(i2 & c & H2 & H)|[(e & H2 & [=])|[H2 [=]]]]. apply sout_inv in H2 as [-> H2].
  unfold config_new in H2. destruct (url_join E u "targets") as [tu| |]; [|done|done]. cbn in H2. injection H2 as ->.
  apply satt_inv in H as [(i3 & t & H3 & H)|[(i3 & e & H3 & H)|[H3 [=]]]]; [|done]. injection H as <- <-. split; [|by exists i1].
  exists root, u, l. done.
Qed.
Lemma init_clients_ok now mc l acc i i' cls : init_clients E now mc l acc i = (i', Ok cls) -> (forall n u, (n, u) ∈ l -> mget (rm_repos (mc_map mc)) n = Some u) ->
  (forall n cl, acc !! n = Some cl -> made_for mc n cl /\ session E (cl_cfg cl) now (mkWorld (cl_trusted cl) i)) ->
  (forall n cl, cls !! n = Some cl -> made_for mc n cl /\ session E (cl_cfg cl) now (mkWorld (cl_trusted cl) i')) /\ (forall n, is_Some (cls !! n) <-> is_Some (acc !! n) \/ n ∈ l.*1).
Proof.
  revert acc i. induction l as [|[n u] l IH]; intros acc i H Hl Hacc; cbn [init_clients] in H.
  - injection H as <- <-. split; [done|]. intros n. rewrite elem_of_nil. tauto.
  - apply sbind_inv in H as [(i1 & cl & H1 & H)|[(e & H1 & [=])|[H1 [=]]]]. apply init_client_ok in H1 as [Hm (i0 & Hn)]; [|by apply Hl; left].
    apply IH in H as [Ha Hb].
    + split; [done|]. intros n'. rewrite Hb, fmap_cons, elem_of_cons. cbn. destruct (decide (n = n')) as [->|Hne]; [rewrite lookup_insert; naive_solver|]. rewrite lookup_insert_ne by done. naive_solver.
    + intros n' u' Hin. apply Hl. by right.
    + intros n' cl' Hn'. apply lookup_insert_Some in Hn' as [[<- <-]|[Hne Hn']]; [split; [done|by eapply session_new]|]. destruct (Hacc _ _ Hn') as [Hx Hy]. split; [done|].
      change (mkWorld (cl_trusted cl') i1) with (mkWorld (w_trusted (mkWorld (cl_trusted cl') i)) i1). by constructor.
Qed.
Lemma mlist_mget {A} (m : gomap A) n a : (n, a) ∈ mlist m <-> mget m n = Some a.
Proof. destruct m as [m|]; unfold mlist, mget; cbn; [apply elem_of_map_to_list|]. rewrite elem_of_nil. done. Qed.
Lemma mr_new_ok now mc i i' cls : mr_new E now mc i = (i', Ok cls) ->
  (forall n cl, cls !! n = Some cl -> made_for mc n cl /\ session E (cl_cfg cl) now (mkWorld (cl_trusted cl) i')) /\ (forall n, is_Some (cls !! n) <-> is_Some (mget (rm_repos (mc_map mc)) n)).
Proof.
  unfold mr_new. intros H. apply sbind_inv in H as [(i1 & l & H1 & H)|[(e & H1 & [=])|[H1 [=]]]]. unfold iterate in H1. injection H1 as <- <-.
  set (l := e_order E _ (io_trace i) (mlist (rm_repos (mc_map mc)))) in *. assert (l ≡ₚ mlist (rm_repos (mc_map mc))) as Hp by apply e_order_perm.
  apply init_clients_ok in H as [Ha Hb].
  - split; [done|]. intros n. rewrite Hb, lookup_empty, elem_of_list_fmap. split.
    + intros [[? [=]]|([n' u] & -> & Hin)]. exists u. apply mlist_mget. by rewrite <- Hp.
    + intros [u Hu]. right. exists (n, u). split; [done|]. rewrite Hp. by apply mlist_mget.
  - intros n u Hin. apply mlist_mget. by rewrite <- Hp.
  - intros n cl Hn. by rewrite lookup_empty in Hn.
Qed.
Lemma mr_session_inv mc now s : mr_session E mc now s -> sane now s /\ (forall n cl, mr_clients s !! n = Some cl -> made_for mc n cl) /\ (forall n, is_Some (mr_clients s !! n) <-> is_Some (mget (rm_repos (mc_map mc)) n)).
Proof.
  assert (forall s s', sane now s /\ (forall n cl, mr_clients s !! n = Some cl -> made_for mc n cl) /\ (forall n, is_Some (mr_clients s !! n) <-> is_Some (mget (rm_repos (mc_map mc)) n)) -> moves s s' ->
    sane now s' /\ (forall n cl, mr_clients s' !! n = Some cl -> made_for mc n cl) /\ (forall n, is_Some (mr_clients s' !! n) <-> is_Some (mget (rm_repos (mc_map mc)) n))) as Hmv.
  { intros s1 s2 (H1 & H2 & H3) (M1 & M2 & M3). split; [auto|]. split.
    - intros n cl Hn. destruct (mr_clients s1 !! n) as [cl1|] eqn:E1; [|rewrite M3 in Hn; done]. destruct (M2 n cl1 E1) as (cl2 & Ha & Hb & _). rewrite Hn in Ha. injection Ha as <-. specialize (H2 n cl1 E1). unfold made_for in *. by rewrite Hb.
    - intros n. rewrite <- H3. split; intros [cl Hn].
      + destruct (mr_clients s1 !! n) as [cl1|] eqn:E1; [by eexists|]. rewrite M3 in Hn; done.
      + destruct (M2 n cl Hn) as (cl2 & Ha & _). by exists cl2. }
  induction 1 as [i i' cls H|s a _ IH|s i _ IH].
  - apply mr_new_ok in H as [Ha Hb]. split; [|split; [|done]]; [intros n cl Hn; exact (proj2 (Ha n cl Hn))|intros n cl Hn; exact (proj1 (Ha n cl Hn))].
  - eapply Hmv; [exact IH|apply good_call].
  - eapply Hmv; [exact IH|apply moves_files].
Qed.

(** ** C86: Refresh *)
Lemma on_client_other {A} repo (f : config -> M A) s n : n <> repo -> mr_clients (fst (on_client repo f s)) !! n = mr_clients s !! n.
Proof. intros Hn. unfold on_client. destruct (mr_clients s !! repo); [|done]. destruct (f _ _). cbn. by rewrite lookup_insert_ne. Qed.
Lemma refresh_list_ok now l s s' : sane now s -> mr_refresh_list E l s = (s', Ok tt) -> 
  (forall n cl, n ∈ l -> mr_clients s' !! n = Some cl -> t_ref (cl_trusted cl) = now /\ top_level_set (cl_trusted cl)) /\ (forall n, n ∉ l -> mr_clients s' !! n = mr_clients s !! n).
Proof.
  revert s. induction l as [|n l IH]; intros s Hs H; cbn [mr_refresh_list] in H.
  - injection H as <-. split; [|done]. intros n cl Hn. by apply elem_of_nil in Hn.
  - apply sbind_inv in H as [(s1 & [] & H1 & H)|[(e & H1 & [=])|[H1 [=]]]].
    assert (good (on_client n (fun c => refresh E c))) as Hg. { apply good_client. intros c w. right. by exists Refresh. }
    assert (sane now s1) as Hs1. { specialize (Hg s). rewrite H1 in Hg. by apply Hg. }
    pose proof (fun m => on_client_other n (fun c => refresh E c) s m) as Hoth. rewrite H1 in Hoth. cbn [fst] in Hoth.
    destruct (IH _ Hs1 H) as [Ha Hb]. split.
    + intros n' cl Hin Hcl. destruct (decide (n' ∈ l)) as [Hl|Hl]; [by eapply Ha|]. apply elem_of_cons in Hin as [-> |?]; [|done]. rewrite Hb in Hcl by done.
      unfold on_client in H1. destruct (mr_clients s !! n) as [cl0|] eqn:E0; [|done]. destruct (refresh E (cl_cfg cl0) _) as [w o] eqn:Hr. injection H1 as <- ->. cbn in Hcl. rewrite lookup_insert in Hcl. injection Hcl as <-. cbn [cl_trusted].
      apply Hs in E0. split; [|by eapply refresh_complete]. apply (session_ref E (cl_cfg cl0)). eapply (session_step E (cl_cfg cl0) now _ Refresh); [exact E0|exact Hr].
    + intros n' Hn'. apply not_elem_of_cons in Hn' as [Hne Hnl]. rewrite Hb by done. by apply Hoth.
Qed.
Lemma mr_refresh_ok now s s' : sane now s -> mr_refresh E s = (s', Ok tt) -> forall n cl, mr_clients s' !! n = Some cl -> t_ref (cl_trusted cl) = now /\ top_level_set (cl_trusted cl).
Proof.
  intros Hs H n cl Hn. unfold mr_refresh, iterate in H. cbv beta iota in H. set (i := log _ _ _) in H.
  destruct (moves_files s i) as [Hf _]. pose proof (good_refresh_list (map fst (e_order E client (io_trace (mr_io s)) (mlist (Some (mr_clients s))))) (mkMr (mr_clients s) i)) as (_ & _ & Hnone). rewrite H in Hnone. cbn [fst mr_clients] in Hnone.
  destruct (refresh_list_ok now _ _ _ (Hf now Hs) H) as [Ha Hb]. eapply Ha; [|exact Hn].
  destruct (mr_clients s !! n) as [cl0|] eqn:E0; [|rewrite Hnone in Hn; done]. apply elem_of_list_fmap. exists (n, cl0). split; [done|]. rewrite e_order_perm. by apply mlist_mget.
Qed.

(** ** C78 *)
Lemma mr_download_ok repos tf fp u s s' p data : mr_download_target E repos tf fp u s = (s', Ok (p, data)) ->
  matches_target tf data /\ exists pre r post s1 cl evs, repos = pre ++ r :: post /\ given_up E tf fp u pre s s1 /\ mr_clients s1 !! r = Some cl /\ file_for E (cl_cfg cl) tf fp p /\
    happened (mr_io s1) (mr_io s') evs /\
    ((io_disk (mr_io s1) !! p = Some data /\ data <> "" /\ forall e, e ∈ evs -> exists q x, e = EvRead q x) \/
     (exists url, gets evs = [(url, Ok data)])).
Proof.
  revert s. induction repos as [|r repos IH]; intros s H; cbn [mr_download_target] in H; [done|].
  apply sbind_inv in H as [(s1 & [q x] & H1 & H)|[(e & H1 & [=])|[H1 [=]]]]. pose proof H1 as Hfind.
  unfold on_client in H1. destruct (mr_clients s !! r) as [cl|] eqn:Ecl; [|done]. unfold lift in H1. cbn [w_io w_trusted] in H1. destruct (find_cached_target E (cl_cfg cl) tf fp (mr_io s)) as [i1 o1] eqn:Hf. injection H1 as <- ->.
  apply find_cached_ok in Hf as (Hd1 & (evs1 & Hh1 & Hr1) & Ho1). cbn [fst snd w_io w_trusted] in *.
  destruct (negb (q =? "")%string && negb (x =? "")%string) eqn:Eb.
  - apply andb_prop in Eb as [Eq Ex]. injection H as <- <- <-. destruct Ho1 as [[= -> ->]|[(p' & d' & [= <- <-] & Hdisk & Hm & Hff)|(_ & _ & Hno)]]; [done| |by destruct (Hno (q, x))].
    split; [done|]. exists [], r, repos, s, cl, evs1. split; [done|]. split; [constructor|]. split; [done|]. split; [done|]. split; [done|]. left. split; [done|]. split; [|done]. intros ->. done.
  - assert (q = "" \/ x = "") as Hq. { destruct (String.eqb_spec q ""); [by left|]. destruct (String.eqb_spec x ""); [by right|]. done. }
    set (s1 := mkMr _ i1) in *. apply satt_inv in H as [(s2 & [p2 d2] & H2 & H)|[(s2 & e & H2 & H)|[H2 [=]]]].
    + injection H as <- -> ->. unfold on_client in H2. destruct (mr_clients s1 !! r) as [cl1|] eqn:Ecl1; [|done]. subst s1. cbn [mr_clients mr_io] in *. rewrite lookup_insert in Ecl1. injection Ecl1 as <-. cbn [cl_cfg cl_trusted] in H2.
      destruct (download_target E (cl_cfg cl) tf fp u _) as [w2 o2] eqn:Hdl. injection H2 as <- ->. apply download_ok in Hdl as (Hm & Hff & _ & (url & evs2 & Hh2 & Hg) & _). cbn [w_io] in *.
      split; [done|]. exists [], r, repos, s, cl, (evs1 ++ evs2). split; [done|]. split; [constructor|]. split; [done|]. split; [done|]. split; [by eapply WalkProofs.happened_app|]. right. exists url. rewrite RootProofs.gets_app, Hg.
      assert (gets evs1 = []) as ->; [|done]. clear -Hr1. induction evs1 as [|e l IHl]; [done|]. destruct (Hr1 e) as (? & ? & ->); [by left|]. cbn. apply IHl. intros e' He'. apply Hr1. by right.
    + apply IH in H as (Hm & pre & r' & post & s3 & cl3 & evs & -> & Hg & Hrest). split; [done|]. exists (r :: pre), r', post, s3, cl3, evs. split; [done|]. split; [by econstructor|done].
Qed.

(** ** C84 *)
Lemma sane_called now target s s' : sane now s -> called E target s s' -> sane now s'.
Proof. intros Hs Hc. by apply (called_moves _ _ _ Hc). Qed.
Lemma ask_panic now target r s s' : sane now s -> is_Some (mr_clients s !! r) -> (ask E target r s = (s', Panic) \/ ask E target r s = (s', Ok None)) ->
  exists cl w', mr_clients s !! r = Some cl /\ get_target_info E (cl_cfg cl) target (mkWorld (cl_trusted cl) (mr_io s)) = (w', Panic).
Proof.
  intros Hs [cl Hcl] H. exists cl. unfold ask, on_client in H. rewrite Hcl in H. destruct (get_target_info E (cl_cfg cl) target _) as [w' o] eqn:Hg. exists w'. split; [done|].
  destruct H as [[= _ ->]|[= _ ->]]; [done|]. apply info_authorised with (now := now) in Hg as (tf & _ & _ & [=] & _). exact (Hs r cl Hcl).
Qed.
Lemma collect_panic now target repos gs s s' : sane now s -> (forall r, r ∈ repos -> is_Some (mr_clients s !! r)) -> collect E repos target gs s = (s', Panic) ->
  exists s1 r cl w', called E target s s1 /\ mr_clients s1 !! r = Some cl /\ get_target_info E (cl_cfg cl) target (mkWorld (cl_trusted cl) (mr_io s1)) = (w', Panic).
Proof.
  revert gs s. induction repos as [|r repos IH]; intros gs s Hs Hr H; cbn [collect] in H; [done|].
  assert (is_Some (mr_clients s !! r)) as Hcl by (apply Hr; by left). fold (ask E target r) in H.
  assert (forall s1 o gs, ask E target r s = (s1, o) -> collect E repos target gs s1 = (s', Panic) -> exists s1 r cl w', called E target s s1 /\ mr_clients s1 !! r = Some cl /\ get_target_info E (cl_cfg cl) target (mkWorld (cl_trusted cl) (mr_io s1)) = (w', Panic)) as Hrest.
  { intros s1 o gs' Ha Hc. apply called_one in Ha as Hca. pose proof (called_moves _ _ _ Hca) as (Hm1 & Hm2 & _). apply IH in Hc as (s2 & r2 & cl2 & w2 & Hc2 & Hx); [|by apply Hm1|].
    - exists s2, r2, cl2, w2. split; [by eapply called_trans|done].
    - intros r' Hr'. destruct (Hr r') as [cl' Hcl']; [by right|]. destruct (Hm2 _ _ Hcl') as (cl'' & Hx & _). by exists cl''. }
  apply satt_inv in H as [(s1 & info & H1 & H)|[(s1 & e & H1 & H)|[H1 _]]].
  - destruct info as [info|]; [by eapply Hrest|]. destruct (ask_panic now target r s s1 Hs Hcl) as (cl & w' & Hx); [by right|]. exists s, r, cl, w'. split; [constructor|done].
  - by eapply Hrest.
  - destruct (ask_panic now target r s s' Hs Hcl) as (cl & w' & Hx); [by left|]. exists s, r, cl, w'. split; [constructor|done].
Qed.
Lemma consensus_no_panic thr gs : consensus thr gs <> Panic.
Proof.
  unfold consensus. destruct (pick_start thr gs None) as [[_ ->]|(l1 & h & l2 & _ & _ & _ & ->)]; [done|]. by destruct (pick_found thr l2 (Some h)) as [[_ ->]|[_ ->]].
Qed.
Lemma try_pairs_panic now target l s s' : sane now s -> (forall m p r, (m, p) ∈ l -> r ∈ slist (mp_repos m) -> is_Some (mr_clients s !! r)) -> try_pairs l target s = (s', Panic) ->
  exists s1 r cl w', called E target s s1 /\ mr_clients s1 !! r = Some cl /\ get_target_info E (cl_cfg cl) target (mkWorld (cl_trusted cl) (mr_io s1)) = (w', Panic).
Proof.
  revert s. induction l as [|[m p] l IH]; intros s Hs Hr H; [done|]. cbn [try_pairs] in H.
  assert (forall s1, called E target s s1 -> try_pairs l target s1 = (s', Panic) -> exists s1 r cl w', called E target s s1 /\ mr_clients s1 !! r = Some cl /\ get_target_info E (cl_cfg cl) target (mkWorld (cl_trusted cl) (mr_io s1)) = (w', Panic)) as Hrest.
  { intros s1 Hca Hc. pose proof (called_moves _ _ _ Hca) as (Hm1 & Hm2 & _). apply IH in Hc as (s2 & r2 & cl2 & w2 & Hc2 & Hx); [|by apply Hm1|].
    - exists s2, r2, cl2, w2. split; [by eapply called_trans|done].
    - intros m' p' r' Hin Hr'. destruct (Hr m' p' r') as [cl' Hcl']; [by right|done|]. destruct (Hm2 _ _ Hcl') as (cl'' & Hx & _). by exists cl''. }
  apply sbind_inv in H as [(s1 & matched & H1 & H)|[(e & _ & [=])|[H1 _]]].
  2: { apply sout_inv in H1 as [_ H1]. by destruct (GlobProofs.glob_match_no_panic p target). }
  apply sout_inv in H1 as [-> H1]. destruct matched; [|eapply Hrest; [constructor|done]].
  apply sbind_inv in H as [(s1 & gs & H2 & H)|[(e & _ & [=])|[H2 _]]].
  - apply collect_spec in H2 as [(answers & Ha & _)|[_ [=]]]. apply sbind_inv in H as [(s2 & r & H2 & H)|[(e & _ & [=])|[H2 _]]].
    + apply sout_inv in H2 as [-> H2]. destruct r as [g|]; [done|]. destruct (mp_terminating m); [done|]. eapply Hrest; [by eapply asked_called|done].
    + apply sout_inv in H2 as [_ H2]. by destruct (consensus_no_panic (mp_threshold m) gs).
  - eapply collect_panic; [done| |exact H2]. intros r Hin. eapply Hr; [by left|done].
Qed.
Lemma mr_info_panic mc now target s s' : mr_session E mc now s -> well_named (mc_map mc) -> mr_get_target_info E (mc_map mc) target s = (s', Panic) ->
  exists s1 r cl w', called E target s s1 /\ mr_clients s1 !! r = Some cl /\ get_target_info E (cl_cfg cl) target (mkWorld (cl_trusted cl) (mr_io s1)) = (w', Panic).
Proof.
  intros Hs Hw H. destruct (mr_session_inv _ _ _ Hs) as (Hsane & _ & Hdom).
  assert (exists ms, slist (rm_mapping (mc_map mc)) = map Some ms /\ forall m r, m ∈ ms -> r ∈ slist (mp_repos m) -> is_Some (mget (rm_repos (mc_map mc)) r)) as (ms & Hms & Hn).
  { unfold well_named in Hw. induction (slist (rm_mapping (mc_map mc))) as [|om l IH]; [exists []; split; [done|]; intros ? ? Hx; by apply elem_of_nil in Hx|].
    destruct IH as (ms & -> & Hms). { intros om' Hin. apply Hw. by right. } destruct (Hw om) as (m & -> & Hm); [by left|]. exists (m :: ms). split; [done|]. intros m' r [-> |Hin]%elem_of_cons; [apply Hm|by apply Hms]. }
  unfold mr_get_target_info in H. rewrite Hms, try_mappings_pairs in H. eapply try_pairs_panic; [exact Hsane| |exact H].
  intros m p r Hin Hr. apply Hdom. unfold patterns in Hin. apply elem_of_list_In, in_flat_map in Hin as (m0 & Hm0 & Hin). apply in_map_iff in Hin as (p0 & [= -> ->] & Hp0). apply elem_of_list_In in Hm0. by eapply Hn.
Qed.

(** ** C85 *)
Lemma later_trans rm s s1 s2 : later E rm s s1 -> later E rm s1 s2 -> later E rm s s2.
Proof. intros H1 H2. induction H2 as [|s2 t H2 IH|s2 i H2 IH]; [done|by constructor|by constructor]. Qed.
Lemma later_moves rm s s' : later E rm s s' -> moves s s'.
Proof. induction 1 as [|s1 t _ IH|s1 i _ IH]; [apply moves_refl|eapply moves_trans; [exact IH|apply good_info]|eapply moves_trans; [exact IH|apply moves_files]]. Qed.
Definition from_search rm s (acc : gmap string targetfile) : Prop :=
  forall n tf, acc !! n = Some tf -> exists s1 s2 repos, later E rm s s1 /\ mr_get_target_info E rm n s1 = (s2, Ok (tf, repos)).
Lemma add_top_level_ok rm s0 names acc s s' acc' : add_top_level E rm names acc s = (s', Ok acc') -> later E rm s0 s -> from_search rm s0 acc ->
  later E rm s0 s' /\ from_search rm s0 acc' /\ (forall n, n ∈ names \/ is_Some (acc !! n) <-> is_Some (acc' !! n)).
Proof.
  revert acc s. induction names as [|n names IH]; intros acc s H Hl Ha; cbn [add_top_level] in H.
  - injection H as <- <-. split; [done|]. split; [done|]. intros n. rewrite elem_of_nil. tauto.
  - apply sbind_inv in H as [(s1 & g & H1 & H)|[(e & H1 & [=])|[H1 [=]]]].
    assert (later E rm s0 s1) as Hl1. { replace s1 with (fst (mr_get_target_info E rm n s)) by (by rewrite H1). by constructor. }
    destruct (acc !! n) as [v|] eqn:Ev.
    + destruct (targetfile_equal v g.1); [|done]. apply IH in H as (Hx & Hy & Hz); [|done|done]. split; [done|]. split; [done|]. intros n'. rewrite <- Hz, elem_of_cons. split; [intros [[-> |?]|?]; [right; by exists v|by left|by right]|tauto].
    + destruct g as [tf repos]. apply IH in H as (Hx & Hy & Hz); [|done|].
      * split; [done|]. split; [done|]. intros n'. rewrite <- Hz, elem_of_cons. cbn [fst]. destruct (decide (n = n')) as [<-|Hne]; [rewrite lookup_insert; split; [right; by eexists|by intros _; left; left]|]. rewrite lookup_insert_ne by done. split; [intros [[-> |?]|?]; [done|by left|by right]|tauto].
      * intros n' tf' Hn'. cbn [fst] in Hn'. apply lookup_insert_Some in Hn' as [[<- <-]|[Hne Hn']]; [|by apply Ha]. exists s, s1, repos. done.
Qed.
Lemma top_level_clients_ok rm s0 l acc s s' acc' : top_level_clients E rm l acc s = (s', Ok acc') -> later E rm s0 s -> from_search rm s0 acc ->
  later E rm s0 s' /\ from_search rm s0 acc' /\ (forall n, is_Some (acc !! n) -> is_Some (acc' !! n)) /\
  (forall r, r ∈ l -> exists s1 cl m, later E rm s0 s1 /\ mr_clients s1 !! r = Some cl /\ t_targets (cl_trusted cl) !! "targets" = Some m /\ forall n o, entry m n o -> is_Some (acc' !! n)) /\
  (forall n, is_Some (acc' !! n) -> is_Some (acc !! n) \/ exists r s1 cl m o, r ∈ l /\ later E rm s0 s1 /\ mr_clients s1 !! r = Some cl /\ t_targets (cl_trusted cl) !! "targets" = Some m /\ entry m n o).
Proof.
  revert acc s. induction l as [|r l IH]; intros acc s H Hl Ha; cbn [top_level_clients] in H.
  - injection H as <- <-. split; [done|]. split; [done|]. split; [done|]. split; [intros r Hr; by apply elem_of_nil in Hr|by left].
  - apply sbind_inv in H as [(s1 & m & H1 & H)|[(e & H1 & [=])|[H1 [=]]]].
    unfold on_client in H1. destruct (mr_clients s !! r) as [cl|] eqn:Ecl; [|done]. cbn [w_trusted w_io] in H1. injection H1 as Hs1 Hm. rewrite insert_id in Hs1 by (rewrite Ecl; by destruct cl). replace (mkMr (mr_clients s) (mr_io s)) with s in Hs1 by (by destruct s). subst s1.
    apply sbind_inv in H as [(s1 & names & H1 & H)|[(e & H1 & [=])|[H1 [=]]]]. unfold mr_lift, iterate in H1. injection H1 as <- <-.
    apply sbind_inv in H as [(s2 & acc1 & H1 & H)|[(e & H1 & [=])|[H1 [=]]]]. apply (add_top_level_ok rm s0) in H1 as (Hl1 & Ha1 & Hn1); [|by constructor|done].
    apply IH in H as (Hl2 & Ha2 & Hmono & Hall & Hsome); [|done|done]. split; [done|]. split; [done|].
    unfold top_level_targets, TARGETS in Hm. destruct (t_targets (cl_trusted cl) !! "targets") as [md|] eqn:Emd; [|done]. injection Hm as Hm.
    assert (forall n, n ∈ map fst (e_order E (option targetfile) (io_trace (mr_io s)) (mlist m)) <-> exists o, entry md n o) as Hnames.
    { intros n. split.
      - intros Hin. apply elem_of_list_fmap in Hin as ([n' o] & -> & Hin). rewrite e_order_perm in Hin. apply mlist_mget in Hin. rewrite <- Hm in Hin. exists o. unfold entry. destruct (tg_targets (md_signed md)) as [tl|]; [exists tl; done|done].
      - intros (o & tl & Htl & Ho). apply elem_of_list_fmap. exists (n, o). split; [done|]. rewrite e_order_perm. apply mlist_mget. by rewrite <- Hm, Htl. }
    split; [|split].
    + intros n Hn. apply Hmono, Hn1. by right.
    + intros r' [-> |Hr']%elem_of_cons; [|by apply Hall]. exists s, cl, md. split; [done|]. split; [done|]. split; [done|]. intros n o Ho. apply Hmono, Hn1. left. apply Hnames. by exists o.
    + intros n Hn. apply Hsome in Hn as [Hn|(r' & s3 & cl3 & m3 & o & Hr' & Hx)].
      * apply Hn1 in Hn as [Hn|Hn]; [|by left]. right. apply Hnames in Hn as [o Ho]. exists r, s, cl, md, o. split; [by left|]. done.
      * right. exists r', s3, cl3, m3, o. split; [by right|done].
Qed.
Lemma mr_top_level_ok rm s s' acc : mr_top_level_targets E rm s = (s', Ok acc) -> from_search rm s acc /\
  (forall r cl m n o, mr_clients s !! r = Some cl -> t_targets (cl_trusted cl) !! "targets" = Some m -> entry m n o -> is_Some (acc !! n)) /\
  (forall n, is_Some (acc !! n) -> exists r s1 cl m o, later E rm s s1 /\ mr_clients s1 !! r = Some cl /\ t_targets (cl_trusted cl) !! "targets" = Some m /\ entry m n o).
Proof.
  intros H. unfold mr_top_level_targets in H. apply sbind_inv in H as [(s1 & names & H1 & H)|[(e & H1 & [=])|[H1 [=]]]]. unfold mr_lift, iterate in H1. injection H1 as <- <-.
  apply (top_level_clients_ok rm s) in H as (Hl & Ha & _ & Hall & Hsome); [|constructor; constructor|intros n tf Hn; by rewrite lookup_empty in Hn].
  split; [done|]. split.
  - intros r cl m n o Hcl Hm Ho. destruct (Hall r) as (s1 & cl1 & m1 & Hl1 & Hcl1 & Hm1 & Hin). { apply elem_of_list_fmap. exists (r, cl). split; [done|]. rewrite e_order_perm. by apply elem_of_map_to_list. }
    apply later_moves in Hl1 as (_ & Hmv & _). destruct (Hmv _ _ Hcl) as (cl2 & Hcl2 & _ & Hd). rewrite Hcl1 in Hcl2. injection Hcl2 as <-. apply (dcalls_targets_keep _ _ _ _ Hd) in Hm. rewrite Hm1 in Hm. injection Hm as ->. by eapply Hin.
  - intros n Hn. apply Hsome in Hn as [[? Hn]|(r & s1 & cl & m & o & _ & Hx)]; [by rewrite lookup_empty in Hn|]. exists r, s1, cl, m, o. done.
Qed.
End Multi.

(** ** C76: completeness, where the answers come from *)
Lemma consensus_single thr g : reaches thr g -> consensus thr [g] = Ok (Some g).
Proof. intros H. unfold consensus. cbn [pick]. unfold reaches in H. destruct (Z.leb_spec thr (Z.of_nat (List.length g.2))); [done|lia]. Qed.
Lemma mr_info_complete {CR : Crypto} E rm ms pre m p post target s s1 answers s2 info rs r0 : rm_mapping rm = Some (map Some ms) -> patterns ms = pre ++ (m, p) :: post -> passes E target pre s s1 ->
  glob_match p target = Ok true -> asked E target (slist (mp_repos m)) s1 answers s2 ->
  (forall r i r' i', (r, i) ∈ answers -> (r', i') ∈ answers -> targetfile_equal i i' = true) -> (r0, info) ∈ answers -> vouch answers info rs -> mp_threshold m <= Z.of_nat (List.length rs) ->
  exists info' repos r', mr_get_target_info E rm target s = (s2, Ok (info', repos)) /\ (r', info') ∈ answers /\ mp_threshold m <= Z.of_nat (List.length repos).
Proof.
  intros Hm Hp Hpre Hg Ha Hall Hin Hv Ht. rewrite (mr_info_pre E _ _ _ _ _ _ _ Hm Hp Hpre). cbn [try_pairs]. unfold sbind, sout. rewrite Hg, (collect_run E _ _ _ _ _ _ Ha).
  assert (comparable answers) as Hc. { split; [intros; by eapply Hall|]. split; intros; by eapply Hall. }
  assert (classes answers (groups answers [])) as Hcl. { apply (groups_classes answers [] answers []); [done|done|]. split; [constructor|]. split; [intros ? ? Hx; by apply elem_of_nil in Hx|done]. }
  destruct (classes_reach _ _ _ _ _ _ Hc Hcl Hin Hv Ht) as (n & g & Hgn & _ & Hr). pose proof (groups_single answers [] Hall) as Hs. destruct Hcl as (Hrep & _ & _). rewrite Forall_forall in Hrep.
  destruct (Hrep g) as [_ (r' & Hr')]; [by eapply elem_of_list_lookup_2|].
  assert (groups answers [] = [g]) as ->. { specialize (Hs ltac:(intros ? ? ? Hx; by apply elem_of_nil in Hx) ltac:(cbn; lia)). destruct (groups answers []) as [|g' [|? ?]]; [done| |cbn in Hs; lia]. destruct n; [by injection Hgn as ->|done]. }
  rewrite consensus_single by done. destruct g as [info' repos]. exists info', repos, r'. done.
Qed.
Lemma ask_answer {CR : Crypto} E mc now target s s1 r s2 info : mr_session E mc now s -> called E target s s1 -> ask E target r s1 = (s2, Ok (Some info)) ->
  exists cl role m, mr_clients s2 !! r = Some cl /\ made_for mc r cl /\ session E (cl_cfg cl) now (mkWorld (cl_trusted cl) (mr_io s2)) /\
    leads (cl_trusted cl) target "targets" role /\ t_targets (cl_trusted cl) !! role = Some m /\ entry m target (Some info) /\ tf_path info = target.
Proof.
  intros Hs Hc Ha. destruct (mr_session_inv E _ _ _ Hs) as (Hsane & Hmade & Hdom). pose proof (called_moves E _ _ _ Hc) as (M1 & M2 & M3). apply M1 in Hsane.
  pose proof (good_ask E target r s1) as (K1 & _ & _). rewrite Ha in K1. cbn [fst] in K1. specialize (K1 now Hsane).
  unfold ask, on_client in Ha. destruct (mr_clients s1 !! r) as [cl|] eqn:Ecl; [|done]. destruct (get_target_info E (cl_cfg cl) target _) as [w' o] eqn:Hg. injection Ha as <- ->.
  apply info_authorised with (now := now) in Hg as (tf & role & m & [= ->] & Hpath & Hl & Hm & He); [|exact (Hsane r cl Ecl)].
  exists (mkClient (cl_cfg cl) (w_trusted w')), role, m. cbn [mr_clients cl_cfg cl_trusted mr_io] in *. split; [by rewrite lookup_insert|]. split.
  - destruct (mr_clients s !! r) as [cl0|] eqn:E0; [|rewrite M3 in Ecl; done]. destruct (M2 _ _ E0) as (cl1 & Hx & Hy & _). rewrite Ecl in Hx. injection Hx as <-. specialize (Hmade _ _ E0). unfold made_for in *. cbn [cl_cfg]. by rewrite Hy.
  - split; [|done]. apply (K1 r (mkClient (cl_cfg cl) (w_trusted w'))). cbn [mr_clients]. by rewrite lookup_insert.
Qed.

(** ** C79 *)
Lemma new_config_ok data roots mc : mr_new_config data roots = Ok mc -> mc_roots mc = roots /\ (forall n urls, mget (rm_repos (mc_map mc)) n = Some urls -> is_Some (mget roots n)) /\ data <> "" /\ mmap roots <> ∅.
Proof.
  unfold mr_new_config. destruct ((data =? "")%string || bool_decide (mmap roots = ∅)) eqn:E0; [done|]. apply orb_false_elim in E0 as [Hd Hr]. apply String.eqb_neq in Hd. apply bool_decide_eq_false in Hr.
  destruct (parse_json data) as [j|]; [|done]. intros H.
  assert (exists m, decode_struct repomap_fields repomap_zero j = Ok m /\ forallb (fun kv => bool_decide (is_Some (mget roots kv.1))) (mlist (rm_repos m)) = true /\ mc = mkMrConfig m roots "" "" false) as (m & _ & Hf & ->).
  { destruct j; try done; cbn [obind] in H |- *; (match type of H with context [decode_struct ?a ?b ?c] => destruct (decode_struct a b c) as [m| |] end; [|done|done]); cbn [obind] in H; (destruct (forallb _ _) eqn:Ef; [|done]); injection H as <-; by exists m. }
  split; [done|]. split; [|done]. intros n urls Hn. cbn in Hn. apply mlist_mget in Hn. rewrite forallb_forall in Hf. apply elem_of_list_In in Hn. specialize (Hf _ Hn). by apply bool_decide_eq_true in Hf.
Qed.
Lemma metadata_dirs mc n1 n2 cl1 cl2 : made_for mc n1 cl1 -> made_for mc n2 cl2 -> PathProofs.plain_name n1 -> PathProofs.plain_name n2 -> c_metadata_dir (cl_cfg cl1) = c_metadata_dir (cl_cfg cl2) -> n1 = n2.
Proof.
  intros (? & ? & ? & _ & _ & _ & _ & -> & _) (? & ? & ? & _ & _ & _ & _ & -> & _) H1 H2 H. rewrite !PathProofs.path_join_plain in H by done. by apply PathProofs.in_dir_inj in H.
Qed.

(** ** C88 *)
Lemma mr_new_no_dir {CR : Crypto} E now mc i i' cls : mr_new E now mc i = (i', Ok cls) -> mc_targets_dir mc = "" -> mc_disable_cache mc = false -> cls = ∅.
Proof.
  intros H Ht Hd. unfold mr_new in H. apply sbind_inv in H as [(i1 & l & _ & H)|[(e & _ & [=])|[_ [=]]]]. destruct l as [|[n urls] l]; cbn [init_clients] in H; [by injection H as _ <-|]. exfalso.
  apply sbind_inv in H as [(i2 & cl & H & _)|[(e & _ & [=])|[_ [=]]]]. unfold init_client in H. destruct (slist urls) as [|u us]; [done|]. destruct (mget (mc_roots mc) n); [|done].
  apply sbind_inv in H as [(i3 & x & H & _)|[(e & _ & [=])|[_ [=]]]]. unfold mr_ensure_paths in H. rewrite Hd, Ht in H. apply sbind_inv in H as [(i4 & y & _ & H)|[(e & _ & [=])|[_ [=]]]]. done.
Qed.
