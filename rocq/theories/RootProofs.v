(** * Proofs about the root update (C52) *)
From stdpp Require Import base gmap strings list.
From Coq Require Import ZArith Lia Ascii String.
From Verif Require Import GoBase GoStr GoTime Types Marshal Keys Metadata TrustedMetadata Fetcher Updater SpecBasic SpecTrusted SpecUpdater.
From Verif Require Import StrProofs PathProofs DelegProofs SigProofs BasicProofs TrustedProofs EventProofs UpdaterProofs WalkProofs BlockProofs ApiProofs.
Open Scope Z_scope.

Section Root.
Context {CR : Crypto} (E : env) (c : config).

Lemma http_status_spec e status : http_status e = Some status <-> http_error status e.
Proof.
  split.
  - induction e; cbn; try done; [intros [= ->]; constructor|]. intros H. constructor. auto.
  - induction 1; done.
Qed.
Lemma gets_app a b : gets (a ++ b) = gets a ++ gets b.
Proof. induction a as [|[] a IH]; cbn; congruence. Qed.
Lemma persist_gets role data evs : persist_events E c role data evs -> gets evs = [].
Proof. destruct 1 as [| | | |p ew er _ [->|[n ->]] [->| ->]]; done. Qed.
Lemma download_gets w role len v w' o : lift (download_metadata E c role len v) w = (w', o) -> exists evs, happened (w_io w) (w_io w') evs /\ gets evs = [(url_of c role v, o)].
Proof. intros H%download_events. eexists. split; [exact H|done]. Qed.
Lemma successes_app a b : successes (a ++ b) = successes a + successes b.
Proof. induction a as [|[u []] a IH]; cbn [successes app]; lia. Qed.
Lemma consecutive_nil N : consecutive c N [].
Proof. intros i u r. by rewrite lookup_nil. Qed.
Lemma consecutive_one N r : consecutive c N [(url_of c "root" (fmt_dec (N + 1)), r)].
Proof. intros [|i] u r'; cbn; [|done]. intros [= <- <-]. split; [f_equal; f_equal; lia|lia]. Qed.
Lemma consecutive_cons N data l : consecutive c (N + 1) l -> consecutive c N ((url_of c "root" (fmt_dec (N + 1)), Ok data) :: l).
Proof.
  intros H [|i] u r; cbn [lookup list_lookup].
  - intros [= <- <-]. split; [f_equal; f_equal; lia|eauto].
  - intros Hi. destruct (H i u r Hi) as [-> Hr]. split; [f_equal; f_equal; lia|]. cbn. intros. apply Hr. lia.
Qed.

Definition loop_end (fuel : nat) (N : Z) (l : list (string * outcome string)) (N' : Z) (o : outcome unit) : Prop :=
  (o = Ok tt -> N' = N + successes l /\ ((List.length l = fuel /\ successes l = Z.of_nat fuel) \/ exists u e, last l = Some (u, Err e) /\ not_found e)) /\
  (forall u e, last l = Some (u, Err e) -> not_found e \/ o = Err e) /\ (forall u, last l = Some (u, Panic) -> o = Panic).
Lemma root_loop_spec fuel : forall w w' o next, root_loop E c fuel next w = (w', o) ->
  in_int64 (rt_version (md_signed (t_root (w_trusted w)))) = true ->
  let N := rt_version (md_signed (t_root (w_trusted w))) in
  N + Z.of_nat fuel < 2 ^ 63 -> next = wrap64 (N + 1) ->
  exists evs, happened (w_io w) (w_io w') evs /\ (List.length (gets evs) <= fuel)%nat /\ consecutive c N (gets evs) /\
    loop_end fuel N (gets evs) (rt_version (md_signed (t_root (w_trusted w')))) o.
Proof.
  induction fuel as [|fuel IH]; intros w w' o next H Hv N Hb Hn; cbn [root_loop] in H.
  { injection H as <- <-. exists []. split; [apply happened_nil|]. cbn. split; [lia|]. split; [apply consecutive_nil|]. split; [intros _; split; [cbn; fold N; lia|by left]|done]. }
  assert (next = N + 1) as ->.
  { rewrite Hn. apply wrap64_id. unfold in_int64, two63 in *. apply andb_prop in Hv as [H1%Z.leb_le H2%Z.ltb_lt]. fold N in H1, H2. clearbody N. apply andb_true_intro. split; [apply Z.leb_le|apply Z.ltb_lt]; lia. }
  apply satt_inv in H as [(w1 & data & H1 & H)|[(w1 & e & H1 & H)|[H1 ->]]]; pose proof (lift_inv _ _ _ _ H1) as [_ Ht1]; apply download_gets in H1 as (evs1 & He1 & Hg1); change ROOT with "root" in Hg1.
  - apply sbind_inv in H as [(w2 & r & H2 & H)|[(e & H2 & ->)|[H2 ->]]]; apply on_trusted_inv in H2 as [H2 Hi2]; rewrite Ht1 in H2.
    2: { exists evs1. rewrite Hi2, Hg1. split; [done|]. cbn. split; [lia|]. split; [apply consecutive_one|]. split; [done|]. split; intros; discriminate. }
    2: { exists evs1. rewrite Hi2, Hg1. split; [done|]. cbn. split; [lia|]. split; [apply consecutive_one|]. split; [done|]. split; intros; discriminate. }
    pose proof H2 as Hr. apply update_root_spec in Hr as [(_ & Hdoc & _ & Hnv & _) Hrep%root_replaced_iff]; [|done]. fold N in Hnv.
    assert (rt_version (md_signed (t_root (w_trusted w2))) = N + 1) as Hv2. { rewrite Hrep. cbn. destruct Hnv as [[? ?]|[? ?]]; lia. }
    assert (in_int64 (rt_version (md_signed (t_root (w_trusted w2)))) = true) as Hr2 by (rewrite Hrep; cbn; by eapply document_range).
    apply sbind_inv in H as [(w3 & [] & H3 & H)|[(e & H3 & ->)|[H3 ->]]]; pose proof (lift_inv _ _ _ _ H3) as [_ Ht3]; apply persist_happened in H3 as (evs3 & He3 & Hg3%persist_gets); rewrite Hi2 in He3.
    2: { exists (evs1 ++ evs3). rewrite gets_app, Hg1, Hg3. split; [by eapply happened_app|]. cbn. split; [lia|]. split; [apply consecutive_one|]. split; [done|]. split; intros; discriminate. }
    2: { exists (evs1 ++ evs3). rewrite gets_app, Hg1, Hg3. split; [by eapply happened_app|]. cbn. split; [lia|]. split; [apply consecutive_one|]. split; [done|]. split; intros; discriminate. }
    apply IH in H as (evs4 & He4 & Hl4 & Hc4 & Hx4 & Hy4 & Hz4); [|by rewrite Ht3|rewrite Ht3, Hv2; lia|by rewrite Ht3, Hv2].
    rewrite Ht3, Hv2 in Hc4, Hx4. exists (evs1 ++ evs3 ++ evs4). rewrite !gets_app, Hg1, Hg3. cbn [app]. split; [by do 2 (eapply happened_app; [done|])|].
    split; [cbn; lia|]. split; [by apply consecutive_cons|]. split; [|split]; cbn [successes length last].
    + intros Ho. destruct (Hx4 Ho) as [HN Hd]. split; [rewrite HN; fold N; ring|]. destruct Hd as [[Hd1 Hd2]|(u & e & Hd & Hnf)]; [left; split; [cbn; by rewrite Hd1|lia]|]. right. exists u, e. split; [|done]. cbn. by destruct (gets evs4).
    + intros u e. destruct (gets evs4) eqn:Eg; [by intros [=]|]. intros Hl. by apply (Hy4 u).
    + intros u. destruct (gets evs4) eqn:Eg; [by intros [=]|]. intros Hl. by apply (Hz4 u).
  - exists evs1. rewrite Hg1. cbn.
    destruct (http_status e) as [status|] eqn:Es.
    + destruct ((status =? 404) || (status =? 403)) eqn:Eb; injection H as <- <-; (split; [done|]); (split; [lia|]); (split; [apply consecutive_one|]).
      * assert (not_found e) as Hnf. { apply http_status_spec in Es. apply orb_prop in Eb as [->%Z.eqb_eq| ->%Z.eqb_eq]; [by left|by right]. }
        rewrite Ht1. split; [intros _; split; [cbn; fold N; lia|right; eauto]|]. split; [intros ? ? [= _ <-]; by left|by intros ? [=]].
      * split; [done|]. split; [intros ? ? [= _ <-]; by right|by intros ? [=]].
    + injection H as <- <-. split; [done|]. split; [lia|]. split; [apply consecutive_one|]. split; [done|]. split; [intros ? ? [= _ <-]; by right|by intros ? [=]].
  - exists evs1. rewrite Hg1. cbn. split; [done|]. split; [lia|]. split; [apply consecutive_one|]. split; [done|]. split; [by intros ? ? [=]|done].
Qed.
Lemma load_root_spec w w' o : load_root E c w = (w', o) -> in_int64 (rt_version (md_signed (t_root (w_trusted w)))) = true ->
  let N := rt_version (md_signed (t_root (w_trusted w))) in
  0 <= c_max_root_rotations c -> N + c_max_root_rotations c < 2 ^ 63 - 1 ->
  exists evs, happened (w_io w) (w_io w') evs /\ Z.of_nat (List.length (gets evs)) <= c_max_root_rotations c /\ consecutive c N (gets evs) /\
    loop_end (Z.to_nat (c_max_root_rotations c)) N (gets evs) (rt_version (md_signed (t_root (w_trusted w')))) o.
Proof.
  intros H Hv N H0 Hb. unfold load_root in H. fold N in H. pose proof Hv as Hv'. unfold in_int64, two63 in Hv. fold N in Hv. apply andb_prop in Hv as [Hv1%Z.leb_le Hv2%Z.ltb_lt].
  assert (wrap64 (N + 1) = N + 1) as E1. { apply wrap64_id. unfold in_int64, two63. apply andb_true_intro. split; [apply Z.leb_le|apply Z.ltb_lt]; lia. }
  assert (wrap64 (N + 1 + c_max_root_rotations c) = N + 1 + c_max_root_rotations c) as E2. { apply wrap64_id. unfold in_int64, two63. apply andb_true_intro. split; [apply Z.leb_le|apply Z.ltb_lt]; lia. }
  rewrite E1, E2 in H. replace (N + 1 + c_max_root_rotations c - (N + 1)) with (c_max_root_rotations c) in H by lia.
  apply root_loop_spec in H as (evs & He & Hl & Hc & Hx); [|done|fold N; lia|fold N; lia]. exists evs. split; [done|]. split; [lia|]. done.
Qed.
Lemma perform_root_keep t cl : (forall data, cl <> UpdateRoot data) -> t_root (fst (perform t cl)) = t_root t.
Proof.
  destruct cl as [data|data|order data tr|data role dl]; intros H.
  - by destruct (H data).
  - rewrite fst_perform_ts. unfold update_timestamp. repeat case_match; done.
  - rewrite fst_perform_sn. unfold update_snapshot. repeat case_match; done.
  - rewrite fst_perform_tg. unfold update_delegated_targets. repeat case_match; done.
Qed.
Lemma ksteps_root_keep K w w' : ksteps E c K w w' -> (forall data, ~ K (KCall (UpdateRoot data))) -> t_root (w_trusted w') = t_root (w_trusted w).
Proof.
  intros H HK. induction H as [|k w1 w2 _ IH Hk Hs]; [done|]. rewrite <- IH. apply ustep_trusted in Hs as [->|(cl & -> & _ & _ & -> & _)]; [done|].
  apply perform_root_keep. intros data ->. by apply (HK data).
Qed.
Lemma las_app a b : list_ascii_of_string (a +:+ b) = list_ascii_of_string a ++ list_ascii_of_string b.
Proof. induction a as [|x a IH]; [done|]. exact (f_equal (cons x) IH). Qed.
Lemma app_inv_tail_s a b s : a +:+ s = b +:+ s -> a = b.
Proof.
  intros H%(f_equal list_ascii_of_string). rewrite !las_app in H. apply app_inv_tail in H.
  by rewrite <- (string_of_list_ascii_of_string a), <- (string_of_list_ascii_of_string b), H.
Qed.
Lemma suffix_differs a b s s' : a +:+ s = b +:+ s' -> exists p q, rev (list_ascii_of_string s) ++ p = rev (list_ascii_of_string s') ++ q.
Proof. intros H%(f_equal (fun x => rev (list_ascii_of_string x))). rewrite !las_app, !rev_app_distr in H. eauto. Qed.
Lemma url_suffix role v : exists p, url_of c role v = p +:+ query_escape role +:+ ".json".
Proof.
  unfold url_of. generalize (query_escape role). generalize (if has_suffix "/" (c_metadata_url c) then c_metadata_url c else c_metadata_url c +:+ "/"). intros base q.
  destruct (String.eqb v ""); [by exists base|]. exists (base +:+ (v +:+ ".")). by rewrite !app_assoc_s.
Qed.
Lemma url_root_other role v v' : role = "timestamp" \/ role = "snapshot" \/ role = "targets" -> url_of c "root" v <> url_of c role v'.
Proof.
  intros Hr H. destruct (url_suffix "root" v) as [p Hp]. destruct (url_suffix role v') as [q Hq]. rewrite Hp, Hq in H. apply suffix_differs in H as (a & b & H).
  destruct Hr as [->|[->| ->]]; vm_compute in H; discriminate.
Qed.
Lemma after_root_gets w w' o : after_root E c w = (w', o) -> exists evs, happened (w_io w) (w_io w') evs /\ t_root (w_trusted w') = t_root (w_trusted w) /\
  forall v, url_of c "root" v ∉ map fst (gets evs).
Proof.
  intros H. apply after_root_steps in H as [H _]. pose proof (ksteps_root_keep _ _ _ H) as Hk. apply ksteps_blocks in H as (bs & [He _] & Hb). exists (List.concat bs). split; [done|]. split; [apply Hk; intros ? []|].
  intros v Hin. assert (exists len r, EvGet (url_of c "root" v) len r ∈ List.concat bs) as (len & r & Hget).
  { clear -Hin. induction (List.concat bs) as [|[] l IH]; cbn in Hin; [by apply elem_of_nil in Hin| |destruct (IH Hin) as (? & ? & ?); do 2 eexists; right; done..].
    apply elem_of_cons in Hin as [->|Hin]; [do 2 eexists; left|]. destruct (IH Hin) as (? & ? & ?). do 2 eexists. by right. }
  destruct (blocks_get _ _ _ _ _ _ _ _ _ Hb Hget) as [(role & v2 & Hr & Hu) _]. by apply url_root_other in Hu.
Qed.
Lemma refresh_root w w' o : c_unsafe_local c = false -> refresh E c w = (w', o) -> in_int64 (rt_version (md_signed (t_root (w_trusted w)))) = true ->
  let N := rt_version (md_signed (t_root (w_trusted w))) in
  0 <= c_max_root_rotations c -> N + c_max_root_rotations c < 2 ^ 63 - 1 ->
  exists evs1 evs2, happened (w_io w) (w_io w') (evs1 ++ evs2) /\ Z.of_nat (List.length (gets evs1)) <= c_max_root_rotations c /\ consecutive c N (gets evs1) /\
    (forall v, url_of c "root" v ∉ map fst (gets evs2)) /\
    (forall u e, last (gets evs1) = Some (u, Err e) -> not_found e \/ (o = Err e /\ evs2 = [])) /\
    (o = Ok tt -> rt_version (md_signed (t_root (w_trusted w'))) = N + successes (gets evs1) /\
       (successes (gets evs1) = c_max_root_rotations c \/ exists u e, last (gets evs1) = Some (u, Err e) /\ not_found e)).
Proof.
  intros Hu H Hv N H0 Hb. unfold refresh in H. rewrite Hu, online_refresh_split in H.
  apply sbind_inv in H as [(w1 & [] & H1 & H)|[(e & H1 & ->)|[H1 ->]]]; apply load_root_spec in H1 as (evs1 & He1 & Hl & Hc & Hx & Hy & Hz); try done; fold N in Hc, Hx, Hb.
  - apply after_root_gets in H as (evs2 & He2 & Hr & Hg). exists evs1, evs2. split; [by eapply happened_app|]. split; [done|]. split; [done|]. split; [done|].
    split; [intros u e Hu'; left; by destruct (Hy u e Hu')|]. intros _. rewrite Hr. destruct (Hx eq_refl) as [HN [[? ?]|?]]; (split; [done|]); [left; lia|by right].
  - exists evs1, []. rewrite app_nil_r. split; [done|]. split; [done|]. split; [done|]. split; [intros v; cbn; apply not_elem_of_nil|]. split; [|done]. intros u e' Hu'. destruct (Hy u e' Hu'); auto.
  - exists evs1, []. rewrite app_nil_r. split; [done|]. split; [done|]. split; [done|]. split; [intros v; cbn; apply not_elem_of_nil|]. split; [|done]. intros u e' Hu'. destruct (Hy u e' Hu'); auto.
Qed.
End Root.
