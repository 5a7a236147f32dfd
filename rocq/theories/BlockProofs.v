(** * Proofs about the events of API calls: blocks, crashes, persisted content *)
From stdpp Require Import base gmap strings list.
From Coq Require Import ZArith Lia Ascii String.
From Verif Require Import GoBase GoStr GoTime Types Marshal Keys Metadata TrustedMetadata Fetcher Updater SpecBasic SpecTrusted SpecUpdater.
From Verif Require Import StrProofs PathProofs DelegProofs SigProofs TrustedProofs EventProofs UpdaterProofs WalkProofs.
Open Scope Z_scope.

(** ** Temporary names end in a digit, cache names in ".json" *)
Lemma snoc_inj_s a b x y : a +:+ s1 x = b +:+ s1 y -> a = b /\ x = y.
Proof.
  intros H. assert (String.length a = String.length b) as Hl by (apply (f_equal String.length) in H; rewrite !app_len_s in H; cbn in H; lia).
  apply string_app_inj_len in H as [-> H]; [|done]. by injection H as ->.
Qed.
Lemma fmt_dec_last n : exists s d, 0 <= d < 10 /\ fmt_dec n = s +:+ s1 (hexdig d).
Proof.
  assert (forall n, 0 <= n -> exists s d, 0 <= d < 10 /\ string_of_digits (digits_of 10 n) = s +:+ s1 (hexdig d)) as H.
  { intros k Hk. destruct (digits_of_val 10 k) as [_ Hd]; [done|done|]. destruct (digits_of 10 k) as [|x l _] eqn:Ek using rev_ind; [by apply digits_of_nonnil in Ek|]. rewrite string_of_digits_app.
    apply Forall_app in Hd as [_ Hd]. inversion Hd; subst. by exists (string_of_digits l), x. }
  unfold fmt_dec, fmt_base. destruct (Z.ltb_spec n 0) as [Hn|Hn]; [|by apply H]. destruct (H (- n)) as (s & d & Hd & ->); [lia|]. exists ("-" +:+ s), d. split; [done|]. by rewrite app_assoc_s.
Qed.
Lemma hexdig_not_n d : 0 <= d < 10 -> hexdig d <> "n"%char.
Proof. intros Hd H. pose proof (hexval_digit d ltac:(lia)) as Hv. rewrite H in Hv. done. Qed.
Lemma tmp_not_json E p s : tmp_name E p -> p <> s +:+ ".json".
Proof.
  intros (dir & n & _ & ->) H. destruct (fmt_dec_last n) as (t & d & Hr & Hd). rewrite Hd in H.
  assert ((dir +:+ "/tuf_tmp" +:+ t) +:+ s1 (hexdig d) = (s +:+ ".jso") +:+ s1 "n") as H' by (rewrite !app_assoc_s; exact H).
  apply snoc_inj_s in H' as [_ H']. by apply hexdig_not_n in H'.
Qed.
Lemma cache_name_json c role : exists s, cache_name c role = s +:+ ".json".
Proof.
  unfold cache_name, json_of. rewrite path_join_plain by (apply json_plain, query_escape_no_slash). rewrite in_dir_prefix. exists (dir_prefix (c_metadata_dir c) +:+ query_escape role). by rewrite app_assoc_s.
Qed.
Lemma tmp_not_cache E c p role : tmp_name E p -> p <> cache_name c role.
Proof. intros Hp ->. destruct (cache_name_json c role) as [s Hs]. by eapply tmp_not_json. Qed.

(** ** Replays and crashes *)
Lemma replay_app d a b : replay d (a ++ b) = replay (replay d a) b.
Proof. unfold replay. by rewrite fold_left_app. Qed.
Lemma crash_app d a b d' : crash d (a ++ b) d' -> crash d a d' \/ crash (replay d a) b d'.
Proof.
  intros (e1 & e2 & He & H). apply app_eq_inv in He as [(k & -> & ->)|(k & -> & ->)].
  - destruct H as [-> |(p & data & rest & n & Hw & ->)].
    + left. exists e1, k. auto.
    + destruct k as [|e k].
      * right. exists [], b. split; [done|]. right. exists p, data, rest, n. rewrite app_nil_r. done.
      * left. injection Hw as -> Hw. exists e1, (EvWrite p data :: k). split; [done|]. right. by exists p, data, k, n.
  - right. exists k, e2. split; [done|]. rewrite replay_app in H. done.
Qed.
Lemma crash_nil d d' : crash d [] d' -> d' = d.
Proof. intros (e1 & e2 & He & H). symmetry in He. apply app_eq_nil in He as [-> ->]. destruct H as [-> |(p & data & rest & n & [=] & _)]. done. Qed.
Lemma crash_one d e d' : crash d [e] d' -> d' = d \/ d' = apply_event d e \/ exists p data n, e = EvWrite p data /\ d' = <[p := str_take n data]> d.
Proof.
  intros (e1 & e2 & He & H). destruct e1 as [|x e1].
  - cbn in He. subst e2. destruct H as [-> |(p & data & rest & n & [= -> <-] & ->)]; [auto|]. right; right. eauto.
  - injection He as <- He. symmetry in He. apply app_eq_nil in He as [-> ->]. destruct H as [-> |(p & data & rest & n & [=] & _)]. auto.
Qed.
Lemma crash_cons d e es d' : crash d (e :: es) d' -> crash d [e] d' \/ crash (apply_event d e) es d'.
Proof. apply (crash_app d [e] es). Qed.

Section Blocks.
Context {CR : Crypto} (E : env) (c : config).

Lemma dcalls_trans t1 t2 t3 : disciplined_calls t1 t2 -> disciplined_calls t2 t3 -> disciplined_calls t1 t3.
Proof. intros H1 H2. revert H1. induction H2 as [|t2 t3 cl _ IH Hp Hd]; [done|]. intros H1. constructor; auto. Qed.
(** a block of events, done while the trusted set went from [t] to [t'] *)
Inductive block (K : kind -> Prop) (t t' : trusted) : list event -> Prop :=
  | block_read p r : K (KRead p) -> block K t t' [EvRead p r]
  | block_get url len r t1 : K (KGet url len) -> passed t t1 t' -> allowed_download c t1 url len -> block K t t' [EvGet url len r]
  | block_choice : block K t t' [EvChoice]
  | block_persist role data evs t1 : K (KPersist role data) -> passed t t1 t' -> holds t1 role data -> persist_events E c role data evs -> block K t t' evs.
Lemma block_later K t t' t'' evs : block K t t' evs -> disciplined_calls t' t'' -> block K t t'' evs.
Proof.
  intros [p r Hk|url len r t1 Hk [H1 H2] Ha| |role data evs' t1 Hk [H1 H2] Hh Hp] H; [by constructor| |constructor|].
  - eapply block_get; [done| |done]. split; [done|by eapply dcalls_trans].
  - eapply block_persist; [done| |done|done]. split; [done|by eapply dcalls_trans].
Qed.
Lemma ksteps_blocks K w w' : ksteps E c K w w' -> exists bs, explains (w_io w) (w_io w') (List.concat bs) /\ Forall (block K (w_trusted w) (w_trusted w')) bs.
Proof.
  intros H. induction H as [|k w1 w2 Hks (bs & Hex & Hbs) Hk Hs]; [exists []; split; [apply explains_nil|constructor]|].
  pose proof (ksteps_calls _ _ _ _ _ Hks) as Hc1.
  assert (disciplined_calls (w_trusted w1) (w_trusted w2)) as Hc2.
  { apply ustep_trusted in Hs as [-> |(cl & _ & Hp & Hd & -> & _)]; [constructor|]. econstructor; [constructor|done|done]. }
  assert (Forall (block K (w_trusted w) (w_trusted w2)) bs) as Hbs' by (eapply Forall_impl; [exact Hbs|]; intros b Hb; by eapply block_later).
  assert (forall b, explains (w_io w1) (w_io w2) b -> block K (w_trusted w) (w_trusted w2) b -> exists bs, explains (w_io w) (w_io w2) (List.concat bs) /\ Forall (block K (w_trusted w) (w_trusted w2)) bs) as Hadd.
  { intros b Hb Hb'. exists (bs ++ [b]). rewrite List.concat_app. cbn. rewrite app_nil_r. split; [by eapply explains_app|]. apply Forall_app. split; [done|by constructor]. }
  destruct Hs as [p|url len Ha| |cl Hp Hd|role data Hh].
  - eapply Hadd; [|by constructor]. unfold lift, read_file. cbn. by apply explains_log.
  - eapply Hadd; [|eapply block_get; [done|split; [exact Hc1|done]|done]]. unfold lift, fetch. cbn. by apply explains_log.
  - apply (Hadd [EvChoice]); [|apply block_choice]. cbn. by apply explains_log.
  - exists bs. cbn in *. split; done.
  - unfold lift in *. destruct (persist_metadata E c role data (w_io w1)) as [i o] eqn:Ep. cbn in *. apply persist_shape in Ep as (evs & Hex' & Hpe & _).
    eapply Hadd; [done|]. eapply block_persist; [done| |done|done]. split; done.
Qed.

(** ** Crashes leave whole files *)
Lemma persist_crash role data evs d d' q : persist_events E c role data evs -> ~ tmp_name E q -> crash d evs d' ->
  d' !! q = d !! q \/ (q = cache_name c role /\ d' !! q = Some data).
Proof.
  intros Hpe Hq H.
  assert (forall p x (d : disk), tmp_name E p -> <[p:=x]> d !! q = d !! q) as Hins by (intros p x d0 Hp; apply lookup_insert_ne; congruence).
  assert (forall p (d : disk), tmp_name E p -> delete p d !! q = d !! q) as Hdel by (intros p d0 Hp; apply lookup_delete_ne; congruence).
  assert (forall p x (d : disk), <[p:=x]> d !! p = Some x) as Hsame by (intros; apply lookup_insert).
  assert (forall p p' x (d : disk), p <> p' -> <[p:=x]> d !! p' = d !! p') as Hother by (intros; by apply lookup_insert_ne).
  destruct Hpe as [|p Hp|p Hp|p Hp|p ew er Hp Hw Hr].
  - apply crash_nil in H. by left; rewrite H.
  - apply crash_one in H as [-> |[-> |(p' & x & n & [=] & _)]]; by left.
  - apply crash_cons in H as [H|H]; [apply crash_one in H as [-> |[-> |(p' & x & n & [=] & _)]]; left; cbn [apply_event]; by rewrite ?Hins|].
    apply crash_cons in H as [H|H]; [apply crash_one in H as [-> |[-> |(p' & x & n & [= <- <-] & ->)]]; left; cbn [apply_event]; by rewrite ?Hins|].
    apply crash_one in H as [-> |[-> |(p' & x & n & [=] & _)]]; [left; cbn [apply_event]; by rewrite ?Hins|]. cbn [apply_event]. rewrite Hsame.
    destruct (decide (q = cache_name c role)) as [-> |Hne]; [right; by rewrite Hsame|left]. rewrite Hother by done. by rewrite Hdel, !Hins.
  - apply crash_cons in H as [H|H]; [apply crash_one in H as [-> |[-> |(p' & x & n & [=] & _)]]; left; cbn [apply_event]; by rewrite ?Hins|].
    apply crash_cons in H as [H|H]; [apply crash_one in H as [-> |[-> |(p' & x & n & [= <- <-] & ->)]]; left; cbn [apply_event]; by rewrite ?Hins|].
    apply crash_one in H as [-> |[-> |(p' & x & n & [=] & _)]]; left; cbn [apply_event]; by rewrite ?Hins.
  - left. apply crash_cons in H as [H|H]; [apply crash_one in H as [-> |[-> |(p' & x & n & [=] & _)]]; cbn [apply_event]; by rewrite ?Hins|].
    assert (forall d', crash (apply_event d (EvCreate p)) [ew] d' -> d' !! q = d !! q) as H2.
    { intros d1 H1. apply crash_one in H1 as [-> |[-> |(p' & x & n & Hx & ->)]]; cbn [apply_event].
      - by rewrite Hins.
      - destruct Hw as [-> |[n ->]]; cbn [apply_event]; by rewrite ?Hins.
      - destruct Hw as [-> |[k ->]]; [done|]. injection Hx as <- <-. by rewrite !Hins. }
    apply crash_cons in H as [H|H]; [by apply H2|].
    assert (apply_event (apply_event d (EvCreate p)) ew !! q = d !! q) as H3.
    { apply H2. exists [ew], []. split; [done|]. by left. }
    apply crash_one in H as [-> |[-> |(p' & x & n & Hx & _)]]; [done| |destruct Hr; congruence].
    destruct Hr as [-> | ->]; cbn [apply_event]; [rewrite Hdel by done|]; exact H3.
Qed.
Lemma crash_whole evs d : crash d evs (replay d evs).
Proof. exists evs, []. rewrite app_nil_r. auto. Qed.
Lemma blocks_crash K t t' bs q : Forall (block K t t') bs -> ~ tmp_name E q -> forall d d', crash d (List.concat bs) d' ->
  d' !! q = d !! q \/ exists role data t1, K (KPersist role data) /\ q = cache_name c role /\ d' !! q = Some data /\ passed t t1 t' /\ holds t1 role data.
Proof.
  intros Hbs Hq. induction Hbs as [|b bs Hb Hbs IH]; intros d d' H; [apply crash_nil in H; left; by rewrite H|]. cbn in H.
  assert (forall d', crash d b d' -> d' !! q = d !! q \/ exists role data t1, K (KPersist role data) /\ q = cache_name c role /\ d' !! q = Some data /\ passed t t1 t' /\ holds t1 role data) as Hone.
  { intros d1 H1. destruct Hb as [p r Hk|url len r t1 Hk Hp Ha| |role data evs t1 Hk Hp Hh Hpe].
    - apply crash_one in H1 as [-> |[-> |(p' & x & n & [=] & _)]]; by left.
    - apply crash_one in H1 as [-> |[-> |(p' & x & n & [=] & _)]]; by left.
    - apply crash_one in H1 as [-> |[-> |(p' & x & n & [=] & _)]]; by left.
    - apply (persist_crash _ _ _ _ _ q Hpe Hq) in H1 as [H1|[Hq1 H1]]; [by left|]. right. exists role, data, t1. done. }
  apply crash_app in H as [H|H]; [by apply Hone|]. apply IH in H as [H|H]; [|by right]. rewrite H. apply Hone. apply crash_whole.
Qed.

(** ** What is renamed, written and downloaded *)
Lemma concat_split {A} (bs : list (list A)) pre e post : List.concat bs = pre ++ e :: post -> exists bs1 b bs2 x y, bs = bs1 ++ b :: bs2 /\ b = x ++ e :: y /\ pre = List.concat bs1 ++ x /\ post = y ++ List.concat bs2.
Proof.
  revert pre; induction bs as [|b bs IH]; intros pre; cbn; [by destruct pre|]. intros H. apply app_eq_inv in H as [(k & -> & Hk)|(k & -> & Hk)].
  - destruct k as [|x k].
    + cbn in Hk. symmetry in Hk. apply (IH []) in Hk as (bs1 & b' & bs2 & x & y & -> & -> & Hp & ->). exists (pre :: bs1), (x ++ e :: y), bs2, x, y.
      rewrite app_nil_r. split; [done|]. split; [done|]. symmetry in Hp. apply app_eq_nil in Hp as [Hp ->]. cbn. rewrite Hp, !app_nil_r. done.
    + injection Hk as <- ->. exists [], (pre ++ e :: k), bs, pre, k. done.
  - apply IH in Hk as (bs1 & b' & bs2 & x & y & -> & -> & -> & ->). exists (b :: bs1), (x ++ e :: y), bs2, x, y. split; [done|]. split; [done|]. cbn. by rewrite app_assoc.
Qed.
Lemma blocks_rename K t t' bs pre p q post : Forall (block K t t') bs -> List.concat bs = pre ++ EvRename p q :: post ->
  exists pre' role data t1, pre = pre' ++ [EvWrite p data] /\ K (KPersist role data) /\ q = cache_name c role /\ passed t t1 t' /\ holds t1 role data.
Proof.
  intros Hbs H. apply concat_split in H as (bs1 & b & bs2 & x & y & -> & Hb' & -> & ->). apply Forall_app in Hbs as [_ Hbs]. inversion Hbs as [|? ? Hb _]; subst.
  inversion Hb as [p' r Hk Hx|url len r t1 Hk Hp Ha Hx|Hx|role data evs t1 Hk Hp Hh Hpe Hx].
  - destruct x as [|? x]; [done|injection Hx as _ Hx; by destruct x].
  - destruct x as [|? x]; [done|injection Hx as _ Hx; by destruct x].
  - destruct x as [|? x]; [done|injection Hx as _ Hx; by destruct x].
  - clear Hx. remember (x ++ EvRename p q :: y) as evs' eqn:Hx. destruct Hpe as [|p' Hp'|p' Hp'|p' Hp'|p' ew er Hp' Hw Hr].
    + by destruct x.
    + destruct x as [|? x]; [done|injection Hx as _ Hx; by destruct x].
    + destruct x as [|? [|? [|? x]]]; [done|done| |injection Hx as _ _ _ Hx; by destruct x]. injection Hx as <- <- -> <- <-. exists (List.concat bs1 ++ [EvCreate p]), role, data, t1.
      split; [by rewrite <- app_assoc|]. done.
    + destruct x as [|? [|? [|? x]]]; [done|done|done|injection Hx as _ _ _ Hx; by destruct x].
    + exfalso. destruct x as [|? [|? [|? x]]]; [done| | |injection Hx as _ _ _ Hx; by destruct x].
      * injection Hx as _ Hx. destruct Hw as [-> |[? ->]]; done.
      * injection Hx as _ _ Hx. destruct Hr as [-> | ->]; done.
Qed.
Lemma blocks_in K t t' bs e : Forall (block K t t') bs -> e ∈ List.concat bs -> exists b, block K t t' b /\ e ∈ b.
Proof.
  intros Hbs He. apply elem_of_list_In, in_concat in He as (b & Hb & He). exists b. split; [|by apply elem_of_list_In]. rewrite Forall_forall in Hbs. apply Hbs. by apply elem_of_list_In.
Qed.
Lemma persist_in role data evs e : persist_events E c role data evs -> e ∈ evs -> exists p, tmp_name E p /\
  (e = EvCreate p \/ (exists x, e = EvWrite p x) \/ e = EvRemove p \/ (exists op, e = EvFail op p) \/ e = EvRename p (cache_name c role)).
Proof.
  intros Hp He. destruct Hp as [|p Hp|p Hp|p Hp|p ew er Hp Hw Hr].
  - by apply elem_of_nil in He.
  - apply elem_of_list_singleton in He as ->. exists p. eauto 10.
  - exists p. split; [done|]. rewrite !elem_of_cons, elem_of_nil in He. destruct He as [-> |[-> |[-> |[]]]]; eauto 10.
  - exists p. split; [done|]. rewrite !elem_of_cons, elem_of_nil in He. destruct He as [-> |[-> |[-> |[]]]]; eauto 10.
  - exists p. split; [done|]. rewrite !elem_of_cons, elem_of_nil in He. destruct He as [-> |[-> |[-> |[]]]]; eauto 10; [destruct Hw as [-> |[? ->]]|destruct Hr as [-> | ->]]; eauto 10.
Qed.
Lemma blocks_get K t t' bs url len r : Forall (block K t t') bs -> EvGet url len r ∈ List.concat bs -> K (KGet url len) /\ exists t1, passed t t1 t' /\ allowed_download c t1 url len.
Proof.
  intros Hbs He. destruct (blocks_in _ _ _ _ _ Hbs He) as (b & Hb & Hin). destruct Hb as [p r' Hk|u l r' t1 Hk Hp Ha| |role data evs t1 Hk Hp Hh Hpe].
  - by apply elem_of_list_singleton in Hin.
  - apply elem_of_list_singleton in Hin. injection Hin as -> -> ->. eauto.
  - by apply elem_of_list_singleton in Hin.
  - destruct (persist_in _ _ _ _ Hpe Hin) as (p & _ & [?|[[? ?]|[?|[[? ?]|?]]]]); congruence.
Qed.
Lemma blocks_write K t t' bs p data : Forall (block K t t') bs -> EvWrite p data ∈ List.concat bs -> tmp_name E p.
Proof.
  intros Hbs He. destruct (blocks_in _ _ _ _ _ Hbs He) as (b & Hb & Hin). destruct Hb as [p' r' Hk|u l r' t1 Hk Hp Ha| |role data' evs t1 Hk Hp Hh Hpe]; [by apply elem_of_list_singleton in Hin..|].
  destruct (persist_in _ _ _ _ Hpe Hin) as (p' & Hp' & [?|[[x Hx]|[?|[[? ?]|?]]]]); try congruence.
Qed.
(** without persisting, the files stay *)
Lemma persist_disabled role data : c_disable_cache c = true -> forall i i' o, persist_metadata E c role data i = (i', o) -> i' = i /\ o = Ok tt.
Proof. intros Hc i i' o. unfold persist_metadata. rewrite Hc. by intros [= <- <-]. Qed.
End Blocks.
