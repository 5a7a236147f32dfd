(** * Proofs for C33-C37 *)
From stdpp Require Import base gmap strings list.
From Coq Require Import ZArith Lia Ascii String.
From Verif Require Import GoBase GoStr Json GoTime Types Marshal Keys Metadata SpecKeys StrProofs.
Open Scope Z_scope.

Section KeysProofs.
Context {CR : Crypto}.

Lemma root_role_mget x n r : root_role x n r <-> mget (rt_roles x) n = Some (Some r).
Proof. unfold root_role, mget. destruct (rt_roles x); naive_solver. Qed.
Lemma in_table_mget keys i k : in_table keys i k <-> mget keys i = Some (Some k).
Proof. unfold in_table, mget. destruct keys; naive_solver. Qed.
Lemma ids_of_slist r : ids_of r = slist (r_keyids r).
Proof. done. Qed.
Lemma add_id_with i l : slist (add_id i l) = with_id i (slist l).
Proof. unfold add_id, with_id. by destruct (decide _). Qed.

(** ** C34 *)
Lemma root_add_key_spec x k n y :
  root_add_key x k n = Ok y <->
  exists r r' i, root_role x n r /\ key_id k = Ok i /\ same_header x y /\
    table_with (rt_keys x) (rt_keys y) i (with_cached_id k i) /\
    root_role y n r' /\ role_with_ids r r' (with_id i (ids_of r)) /\ (r_keyids r' = None <-> i ∈ ids_of r /\ r_keyids r = None) /\
    forall n', n' <> n -> mget (rt_roles y) n' = mget (rt_roles x) n'.
Proof.
  unfold root_add_key. split.
  - destruct (mget (rt_roles x) n) as [[r|]|] eqn:Er; try done. destruct (key_id k) as [i| |] eqn:Ek; try done. cbn [obind].
    unfold mset. destruct (rt_keys x) as [m|] eqn:Em; try done. cbn [obind]. intros [= <-].
    exists r, (with_keyids r (add_id i (r_keyids r))), i. rewrite !root_role_mget. split; [done|]. split; [done|]. split; [done|].
    split; [by exists m|]. split; [cbn; by rewrite lookup_insert|]. split; [split; [exact (add_id_with i (r_keyids r))|done]|].
    split.
    + cbn. unfold add_id. rewrite ids_of_slist. destruct (decide _); naive_solver.
    + intros n' Hn. cbn. rewrite lookup_insert_ne by done. by destruct (rt_roles x).
  - intros (r & r' & i & Hr & Hk & Hh & (m & Hm & Hm') & Hr' & Hi & Hnil & Ho). rewrite root_role_mget in Hr, Hr'. rewrite Hr, Hk. cbn [obind].
    unfold mset. rewrite Hm. cbn [obind]. f_equal.
    destruct x as [xt xs xc xv xe xk xr xu], y as [yt ys yc yv ye yk yr yu]. unfold same_header in Hh; cbn in *. unfold with_roles; cbn.
    destruct Hh as (-> & -> & -> & -> & -> & ->). subst xk. subst yk. f_equal.
    destruct yr as [yr|]; [|done]. f_equal. apply map_eq. intros n'. destruct (decide (n' = n)) as [->|Hn].
    + rewrite lookup_insert. cbn in Hr'. rewrite Hr'. f_equal. f_equal. destruct r as [l t u], r' as [l' t' u']. destruct Hi as (Hi & Ht & Hu). cbn in *. subst. unfold with_keyids; cbn. f_equal.
      unfold ids_of in *; cbn in *. unfold add_id. destruct l as [l|]; cbn in *.
      * unfold with_id in Hi. destruct l' as [l'|]; [|naive_solver]. subst. by destruct (decide _).
      * destruct l' as [l'|]; cbn in *; [|naive_solver]. subst. unfold with_id. destruct (decide _) as [H|H]; [|done]. by apply elem_of_nil in H.
    + rewrite lookup_insert_ne by done. specialize (Ho n' Hn). cbn in Ho. by destruct xr.
Qed.
Lemma root_add_key_unknown x k n : mget (rt_roles x) n = None <-> exists msg, root_add_key x k n = Err (ErrValue msg).
Proof.
  unfold root_add_key. destruct (mget (rt_roles x) n) as [[r|]|].
  - split; [done|]. destruct (key_id k) eqn:E; cbn; try (by intros [? ?]).
    + unfold mset. destruct (rt_keys x); cbn; by intros [? ?].
    + exfalso. revert E. unfold key_id. repeat case_match; done.
  - split; [done|]. by intros [? ?].
  - split; eauto.
Qed.
Lemma key_id_no_err k e : key_id k <> Err e.
Proof. unfold key_id. repeat case_match; done. Qed.
Lemma root_add_key_err x k n e : root_add_key x k n = Err e -> mget (rt_roles x) n = None.
Proof.
  unfold root_add_key. destruct (mget (rt_roles x) n) as [[r|]|]; try done.
  destruct (key_id k) eqn:E; cbn; try done; [|by apply key_id_no_err in E]. unfold mset. by destruct (rt_keys x).
Qed.

Lemma used_by_roles_spec i l b : used_by_roles i l = Ok b ->
  (forall n o, (n, o) ∈ l -> o <> None) -> b = true <-> exists n r, (n, Some r) ∈ l /\ i ∈ slist (r_keyids r).
Proof.
  induction l as [|[n [r|]] l IH]; cbn.
  - intros [= <-] _. split; [done|]. intros (n & r & H & _). by apply elem_of_nil in H.
  - intros H Hn. destruct (decide _) as [Hi|Hi].
    + injection H as <-. split; [|done]. intros _. exists n, r. split; [left|done].
    + rewrite IH; [|done|intros n' o' H'; apply (Hn n'); by right]. split.
      * intros (n' & r' & H' & Hr'). exists n', r'. split; [by right|done].
      * intros (n' & r' & H' & Hr'). apply elem_of_cons in H' as [[= -> ->]|H']; [done|]. by exists n', r'.
  - done.
Qed.
Lemma used_by_roles_total i l : (forall n o, (n, o) ∈ l -> o <> None) -> exists b, used_by_roles i l = Ok b.
Proof.
  induction l as [|[n [r|]] l IH]; cbn; intros Hn; [eauto| |].
  - destruct (decide _); [eauto|]. apply IH. intros n' o' H'. apply (Hn n'). by right.
  - exfalso. by apply (Hn n None); [left|].
Qed.

Definition no_nil_roles (x : root_t) : Prop := forall n, mget (rt_roles x) n <> Some None.

Lemma root_revoke_key_spec x i n y : no_nil_roles x ->
  root_revoke_key x i n = Ok y <->
  exists r r', root_role x n r /\ i ∈ ids_of r /\ same_header x y /\
    root_role y n r' /\ role_with_ids r r' (without_id i (ids_of r)) /\ r_keyids r' <> None /\
    (forall n', n' <> n -> mget (rt_roles y) n' = mget (rt_roles x) n') /\
    ((exists n' r'', root_role y n' r'' /\ i ∈ ids_of r'') -> rt_keys y = rt_keys x) /\
    (~ (exists n' r'', root_role y n' r'' /\ i ∈ ids_of r'') -> table_without (rt_keys x) (rt_keys y) i).
Proof.
  intros Hnn. unfold root_revoke_key.
  assert (forall (m : gmap string (option role)) r0 n0, rt_roles x = Some m -> forall n' o, (n', o) ∈ map_to_list (<[n0 := Some r0]> m) -> o <> None) as Hnil.
  { intros m r0 n0 Hm n' o Hin%elem_of_map_to_list Ho. subst o. destruct (decide (n' = n0)) as [->|Hne].
    - by rewrite lookup_insert in Hin.
    - rewrite lookup_insert_ne in Hin by done. apply (Hnn n'). by rewrite Hm. }
  assert (forall (m : gmap string (option role)) b, used_by_roles i (map_to_list m) = Ok b -> (forall n' o, (n', o) ∈ map_to_list m -> o <> None) ->
            b = true <-> exists n' r'', m !! n' = Some (Some r'') /\ i ∈ ids_of r'') as Hused.
  { intros m b Hb Hm. rewrite (used_by_roles_spec i _ b Hb Hm). setoid_rewrite elem_of_map_to_list. done. }
  split.
  - destruct (mget (rt_roles x) n) as [[r|]|] eqn:Er; try done. destruct (decide _) as [Hi|Hi]; [|done].
    destruct (rt_roles x) as [m|] eqn:Em; [|done]. cbn [mmap default id from_option].
    set (r' := with_keyids r (remove_id i (r_keyids r))). set (roles := <[n := Some r']> m).
    destruct (used_by_roles i (map_to_list roles)) as [b| |] eqn:Eb; try done. cbn [obind]. intros [= <-].
    exists r, r'. assert (forall n' r'', root_role (with_roles x (if b then rt_keys x else mdel i (rt_keys x)) (Some roles)) n' r'' <-> roles !! n' = Some (Some r'')) as Hrr by (intros; by rewrite root_role_mget).
    specialize (Hused roles b Eb (Hnil m r' n eq_refl)).
    split; [by rewrite root_role_mget, Em|]. split; [done|]. split; [done|]. split; [apply Hrr, lookup_insert|]. split; [done|]. split; [done|].
    split; [intros n' Hn; cbn; unfold roles; by rewrite lookup_insert_ne|]. setoid_rewrite Hrr. split.
    + intros H. by rewrite (proj2 Hused H).
    + intros H. destruct b; [by destruct H; apply Hused|]. cbn. unfold mdel. destruct (rt_keys x) as [km|]; [|by repeat split].
      split; [done|]. cbn. split; [by rewrite lookup_delete|]. intros j Hj. by rewrite lookup_delete_ne.
  - intros (r & r' & Hr & Hi & Hh & Hr' & Hi' & Hnn' & Ho & Ht & Hf). rewrite root_role_mget in Hr. rewrite Hr.
    destruct (decide _) as [_|Hx]; [|by rewrite ids_of_slist in Hi].
    destruct (rt_roles x) as [m|] eqn:Em; [|done]. cbn [mmap default id from_option].
    assert (with_keyids r (remove_id i (r_keyids r)) = r') as Er'.
    { destruct r as [l t u], r' as [l' t' u']. destruct Hi' as (H1 & H2 & H3). cbn in *. subst. unfold with_keyids, remove_id; cbn. destruct l' as [l'|]; [|done]. cbn in H1. by subst. }
    rewrite Er'. set (roles := <[n := Some r']> m). destruct (used_by_roles_total i (map_to_list roles) (Hnil m r' n eq_refl)) as [b Hb].
    rewrite Hb. cbn [obind]. f_equal. assert (rt_roles y = Some roles) as Hy.
    { rewrite root_role_mget in Hr'. destruct (rt_roles y) as [ym|]; [|done]. f_equal. apply map_eq. intros n'. unfold roles. destruct (decide (n' = n)) as [->|Hn].
      - rewrite lookup_insert. apply Hr'.
      - rewrite lookup_insert_ne by done. apply (Ho n' Hn). }
    specialize (Hused roles b Hb (Hnil m r' n eq_refl)).
    assert ((exists n' r'', root_role y n' r'' /\ i ∈ ids_of r'') <-> b = true) as Hu by (rewrite Hused; setoid_rewrite root_role_mget; by rewrite Hy).
    assert ((if b then rt_keys x else mdel i (rt_keys x)) = rt_keys y) as Hk.
    { destruct b; [symmetry; apply Ht; by apply Hu|]. destruct Hf as (H1 & H2 & H3); [by rewrite Hu|].
      destruct (rt_keys x) as [km|]; [|symmetry; by apply H1]. cbn. destruct (rt_keys y) as [ky|]; [|naive_solver]. f_equal. apply map_eq. intros j. destruct (decide (j = i)) as [->|Hj].
      - by rewrite lookup_delete.
      - rewrite lookup_delete_ne by done. symmetry. by apply H3. }
    rewrite Hk. unfold with_roles. rewrite <- Hy. destruct Hh as (<- & <- & <- & <- & <- & <-). by destruct y.
Qed.
Lemma root_revoke_key_err x i n : no_nil_roles x ->
  (exists msg, root_revoke_key x i n = Err (ErrValue msg)) <-> ~ exists r, root_role x n r /\ i ∈ ids_of r.
Proof.
  intros Hnn. setoid_rewrite root_role_mget. unfold root_revoke_key. destruct (mget (rt_roles x) n) as [[r|]|] eqn:Er.
  - destruct (decide _) as [Hi|Hi].
    + split; [|intros H; destruct H; eauto]. destruct (used_by_roles _ _) eqn:E; cbn; try by intros [? ?].
      intros [? [= ->]]. exfalso. revert E. generalize (map_to_list (<[n := Some (with_keyids r (remove_id i (r_keyids r)))]> (mmap (rt_roles x)))).
      intros l; induction l as [|[? [?|]] l IH]; cbn; try done. by destruct (decide _).
    + split; [|by eauto]. intros _ (r' & [= <-] & H). done.
  - by apply Hnn in Er.
  - split; [|by eauto]. intros _ (r' & [=] & H).
Qed.
Lemma root_revoke_key_no_panic x i n : no_nil_roles x -> root_revoke_key x i n <> Panic.
Proof.
  intros Hnn. unfold root_revoke_key. destruct (mget (rt_roles x) n) as [[r|]|] eqn:Er; try done; [|by apply Hnn in Er].
  destruct (decide _); [|done]. destruct (used_by_roles_total i (map_to_list (<[n := Some (with_keyids r (remove_id i (r_keyids r)))]> (mmap (rt_roles x))))) as [b Hb].
  - intros n' o Hin%elem_of_map_to_list Ho. subst o. destruct (decide (n' = n)) as [->|Hne].
    + by rewrite lookup_insert in Hin.
    + rewrite lookup_insert_ne in Hin by done. apply (Hnn n'). by destruct (rt_roles x).
  - by rewrite Hb.
Qed.

(** ** C33 *)
Definition root_inv (x : root_t) : Prop :=
  consistent_keys x /\ no_nil_roles x /\ rt_keys x <> None /\ (forall i k, in_table (rt_keys x) i k -> key_id k = Ok i) /\
  (forall i o, mget (rt_keys x) i = Some o -> o <> None) /\
  (forall n, (exists r, root_role x n r) <-> n ∈ [ROOT; SNAPSHOT; TARGETS; TIMESTAMP]).

Lemma root_inv_init e : root_inv (md_signed (Root e)).
Proof.
  assert (forall n o, mget (rt_roles (md_signed (Root e))) n = Some o -> o = Some new_role) as Hn.
  { intros n o H. unfold mget in H. cbn [md_signed Root rt_roles] in H. repeat (apply lookup_insert_Some in H as [[_ H]|[_ H]]; [by subst o|]). by rewrite lookup_empty in H. }
  split; [|split; [|split; [|split; [|split]]]].
  - split; [|split].
    + intros n r i Hr%root_role_mget. apply Hn in Hr. injection Hr as ->. intros H. by apply elem_of_nil in H.
    + intros i k H. done.
    + intros n r Hr%root_role_mget. apply Hn in Hr. injection Hr as ->. constructor.
  - intros n H. apply Hn in H. done.
  - done.
  - intros i k H%in_table_mget. done.
  - done.
  - intros n. setoid_rewrite root_role_mget. unfold mget; cbn [md_signed Root rt_roles].
    rewrite !elem_of_cons, elem_of_nil. split.
    + intros [r H]. repeat (apply lookup_insert_Some in H as [[<- _]|[_ H]]; [by eauto 6|]). by rewrite lookup_empty in H.
    + intros [->|[->|[->|[->|[]]]]]; exists new_role; vm_compute; reflexivity.
Qed.
Lemma key_id_ne k i : key_id k = Ok i -> i <> "".
Proof.
  unfold key_id. destruct (String.eqb_spec (k_id k) "").
  - case_match; try done. intros [= <-]. intros Hl. apply (f_equal String.length) in Hl. by rewrite hex_encode_length, sha256_length in Hl.
  - by intros [= <-].
Qed.
Lemma key_id_cached k i : i <> "" -> key_id (key_cache i k) = Ok i.
Proof. intros Hi. unfold key_id. cbn. by destruct (String.eqb_spec i ""). Qed.
Lemma with_id_in i j l : j ∈ with_id i l <-> j = i \/ j ∈ l.
Proof. unfold with_id. destruct (decide _); [naive_solver|]. rewrite elem_of_app, elem_of_list_singleton. tauto. Qed.
Lemma with_id_nodup i l : NoDup l -> NoDup (with_id i l).
Proof.
  intros Hl. unfold with_id. destruct (decide _) as [|Hn]; [done|]. apply NoDup_app. split; [done|]. split; [|apply NoDup_singleton].
  intros x Hx Hs. apply elem_of_list_singleton in Hs as ->. done.
Qed.

Lemma root_inv_add x k n y : root_inv x -> root_add_key x k n = Ok y -> root_inv y.
Proof.
  intros ((H1 & H2 & H3) & Hnn & Hkn & Hids & Hnk & Hrole) H.
  apply root_add_key_spec in H as (r & r' & i & Hr & Hk & Hh & (m & Hm & Hm') & Hr' & Hi & _ & Ho).
  assert (forall n' r0, root_role y n' r0 -> (n' = n /\ r0 = r') \/ (n' <> n /\ root_role x n' r0)) as Hroles.
  { intros n' r0 H0. destruct (decide (n' = n)) as [->|Hn].
    - left. rewrite root_role_mget in H0, Hr'. split; [done|congruence].
    - right. split; [done|]. rewrite root_role_mget in *. by rewrite <- Ho. }
  destruct Hi as (Hi & _ & _). split; [split; [|split]|split; [|split; [|split; [|split]]]].
  - intros n' r0 j H0 Hj. rewrite Hm'. assert (j = i \/ (exists k0, in_table (rt_keys x) j k0)) as [->|[k0 Hk0]].
    { apply Hroles in H0 as [[-> ->]|[Hn H0]]; [|right; by apply (H1 n' r0)].
      rewrite Hi in Hj. apply with_id_in in Hj as [->|Hj]; [by left|]. right. by apply (H1 n r). }
    + eexists; eexists; split; [done|]. apply lookup_insert.
    + destruct (decide (j = i)) as [->|Hji]; eexists; eexists; (split; [done|]); [apply lookup_insert|].
      rewrite lookup_insert_ne by done. apply in_table_mget in Hk0. rewrite Hm in Hk0. apply Hk0.
  - intros j k0 Hj. rewrite Hm' in Hj. cbn in Hj. apply lookup_insert_Some in Hj as [[<- _]|[Hn Hj]].
    + exists n, r'. split; [done|]. rewrite Hi. apply with_id_in. by left.
    + destruct (H2 j k0) as (n' & r0 & Hr0 & Hj0); [by rewrite Hm|]. destruct (decide (n' = n)) as [->|Hn'].
      * exists n, r'. split; [done|]. rewrite Hi. apply with_id_in. right. rewrite root_role_mget in Hr, Hr0. congruence.
      * exists n', r0. split; [|done]. rewrite root_role_mget in *. by rewrite Ho.
  - intros n' r0 H0. apply Hroles in H0 as [[-> ->]|[Hn H0]]; [|by apply (H3 n')]. rewrite Hi. apply with_id_nodup. by apply (H3 n).
  - intros n' Hx. destruct (decide (n' = n)) as [->|Hn]; [rewrite root_role_mget in Hr'; congruence|]. rewrite Ho in Hx by done. by apply (Hnn n').
  - by rewrite Hm'.
  - intros j k0 Hj. apply in_table_mget in Hj. rewrite Hm' in Hj. cbn in Hj. apply lookup_insert_Some in Hj as [[<- [= <-]]|[Hn Hj]].
    + apply key_id_cached. by apply (key_id_ne k).
    + apply Hids, in_table_mget. by rewrite Hm.
  - intros j o Hj. rewrite Hm' in Hj. cbn in Hj. apply lookup_insert_Some in Hj as [[_ <-]|[_ Hj]]; [done|]. apply (Hnk j). by rewrite Hm.
  - intros n'. rewrite <- Hrole. split.
    + intros [r0 H0]. apply Hroles in H0 as [[-> _]|[_ H0]]; eauto.
    + intros [r0 H0]. destruct (decide (n' = n)) as [->|Hn]; [by exists r'|]. exists r0. rewrite root_role_mget in *. by rewrite Ho.
Qed.
Lemma root_inv_revoke x i n y : root_inv x -> root_revoke_key x i n = Ok y -> root_inv y.
Proof.
  intros ((H1 & H2 & H3) & Hnn & Hkn & Hids & Hnk & Hrole) H.
  apply (root_revoke_key_spec x i n y Hnn) in H as (r & r' & Hr & Hir & Hh & Hr' & (Hi & _) & _ & Ho & Ht & Hf).
  assert (forall n' r0, root_role y n' r0 -> (n' = n /\ r0 = r') \/ (n' <> n /\ root_role x n' r0)) as Hroles.
  { intros n' r0 H0. destruct (decide (n' = n)) as [->|Hn].
    - left. rewrite root_role_mget in H0, Hr'. split; [done|congruence].
    - right. split; [done|]. rewrite root_role_mget in *. by rewrite <- Ho. }
  assert (forall j, j ∈ ids_of r' <-> j <> i /\ j ∈ ids_of r) as Hin by (intros j; rewrite Hi; unfold without_id; by rewrite elem_of_list_filter).
  destruct (rt_keys x) as [kx|] eqn:Ekx; [|done].
  assert (exists ky, rt_keys y = Some ky /\ ((ky = kx /\ exists n' r0, root_role y n' r0 /\ i ∈ ids_of r0) \/ (ky = delete i kx /\ ~ exists n' r0, root_role y n' r0 /\ i ∈ ids_of r0))) as (ky & Eky & Hky).
  { destruct (decide (mget (rt_roles y) n = Some (Some r'))) as [_|Hx]; [|by rewrite root_role_mget in Hr'].
    destruct (rt_roles y) as [ym|] eqn:Ey; [|by apply root_role_mget in Hr'; rewrite Ey in Hr'].
    destruct (decide (map_Exists (fun _ o => match o with Some r0 => bool_decide (i ∈ ids_of r0) | None => false end = true) ym)) as [He|He].
    - destruct He as (n' & [r0|] & H0 & H4); [|done]. apply bool_decide_eq_true in H4. assert (exists n' r0, root_role y n' r0 /\ i ∈ ids_of r0) as Hu by (exists n', r0; by rewrite root_role_mget, Ey).
      exists kx. split; [by apply Ht|]. by left.
    - assert (~ exists n' r0, root_role y n' r0 /\ i ∈ ids_of r0) as Hu.
      { intros (n' & r0 & H0 & H4). apply He. exists n', (Some r0). rewrite root_role_mget, Ey in H0. split; [done|]. by apply bool_decide_eq_true. }
      destruct (Hf Hu) as (Ha & Hb & Hc). destruct (rt_keys y) as [ky|]; [|naive_solver]. exists ky. split; [done|]. right. split; [|done].
      apply map_eq. intros j. destruct (decide (j = i)) as [->|Hj]; [by rewrite lookup_delete|]. rewrite lookup_delete_ne by done. by apply Hc. }
  split; [split; [|split]|split; [|split; [|split; [|split]]]].
  - intros n' r0 j H0 Hj. setoid_rewrite in_table_mget. rewrite Eky. cbn.
    assert (exists k0, kx !! j = Some (Some k0)) as [k0 Hk0].
    { setoid_rewrite in_table_mget in H1. apply Hroles in H0 as [[-> ->]|[Hn H0]].
      - apply Hin in Hj as [_ Hj]. by apply (H1 n r).
      - by apply (H1 n' r0). }
    exists k0. destruct Hky as [[-> _]|[-> Hu]]; [done|]. rewrite lookup_delete_ne; [done|]. intros ->. apply Hu. eauto.
  - intros j k0 Hj. rewrite Eky in Hj. cbn in Hj.
    destruct (decide (j = i)) as [->|Hji].
    { destruct Hky as [[-> Hu]|[-> Hu]]; [done|]. by rewrite lookup_delete in Hj. }
    assert (kx !! j = Some k0) as Hj'. { destruct Hky as [[-> Hu]|[-> Hu]]; [done|]. by rewrite lookup_delete_ne in Hj. }
    destruct (H2 j k0 Hj') as (n' & r0 & Hr0 & Hj0). destruct (decide (n' = n)) as [->|Hn'].
    + exists n, r'. split; [done|]. apply Hin. split; [done|]. rewrite root_role_mget in Hr, Hr0. congruence.
    + exists n', r0. split; [|done]. rewrite root_role_mget in *. by rewrite Ho.
  - intros n' r0 H0. apply Hroles in H0 as [[-> ->]|[Hn H0]]; [|by apply (H3 n')]. rewrite Hi. apply NoDup_filter. by apply (H3 n).
  - intros n' Hx. destruct (decide (n' = n)) as [->|Hn]; [rewrite root_role_mget in Hr'; congruence|]. rewrite Ho in Hx by done. by apply (Hnn n').
  - by rewrite Eky.
  - intros j k0 Hj. apply in_table_mget in Hj. rewrite Eky in Hj. cbn in Hj. apply Hids, in_table_mget.
    destruct Hky as [[-> _]|[-> _]]; [done|]. by apply lookup_delete_Some in Hj as [_ ?].
  - intros j o Hj. rewrite Eky in Hj. cbn in Hj. apply (Hnk j). destruct Hky as [[-> _]|[-> _]]; [done|]. by apply lookup_delete_Some in Hj as [_ ?].
  - intros n'. rewrite <- Hrole. split.
    + intros [r0 H0]. apply Hroles in H0 as [[-> _]|[_ H0]]; eauto.
    + intros [r0 H0]. destruct (decide (n' = n)) as [->|Hn]; [by exists r'|]. exists r0. rewrite root_role_mget in *. by rewrite Ho.
Qed.
Lemma root_inv_history x y : key_history x y -> root_inv x -> root_inv y.
Proof. induction 1; intros Hx; [done|eapply root_inv_add; [|done]; auto|eapply root_inv_revoke; [|done]; auto]. Qed.

Lemma history_consistent e x : key_history (md_signed (Root e)) x ->
  consistent_keys x /\ (forall i k, in_table (rt_keys x) i k -> key_id k = Ok i) /\
  (forall n, (exists r, root_role x n r) <-> n ∈ [ROOT; SNAPSHOT; TARGETS; TIMESTAMP]).
Proof. intros H. pose proof (root_inv_history _ _ H (root_inv_init e)) as (H1 & H2 & H3 & H4 & H5 & H6). eauto. Qed.
Lemma history_no_panic e x : key_history (md_signed (Root e)) x ->
  (forall i n, root_revoke_key x i n <> Panic) /\ (forall k n, (exists i, key_id k = Ok i) -> root_add_key x k n <> Panic).
Proof.
  intros H. pose proof (root_inv_history _ _ H (root_inv_init e)) as (H1 & H2 & H3 & H4 & H5 & H6). split.
  - intros i n. by apply root_revoke_key_no_panic.
  - intros k n [i Hi]. unfold root_add_key. destruct (mget (rt_roles x) n) as [[r|]|] eqn:Er; try done; [|by apply H2 in Er].
    rewrite Hi. cbn [obind]. unfold mset. destruct (rt_keys x); [done|done].
Qed.
Lemma history_revoke e x i n y : key_history (md_signed (Root e)) x ->
  root_revoke_key x i n = Ok y <->
  exists r r', root_role x n r /\ i ∈ ids_of r /\ same_header x y /\
    root_role y n r' /\ role_with_ids r r' (without_id i (ids_of r)) /\ r_keyids r' <> None /\
    (forall n', n' <> n -> mget (rt_roles y) n' = mget (rt_roles x) n') /\
    ((exists n' r'', root_role y n' r'' /\ i ∈ ids_of r'') -> rt_keys y = rt_keys x) /\
    (~ (exists n' r'', root_role y n' r'' /\ i ∈ ids_of r'') -> table_without (rt_keys x) (rt_keys y) i).
Proof. intros H. apply root_revoke_key_spec. by destruct (root_inv_history _ _ H (root_inv_init e)) as (_ & H2 & _). Qed.

(** ** C35 *)
Lemma with_dr_keyids_spec r l : dr_with_ids r (with_dr_keyids r l) (slist l).
Proof. done. Qed.
Lemma existsb_name n (l : list delegatedrole) : existsb (fun r => String.eqb (dr_name r) n) l = true <-> exists r, r ∈ l /\ dr_name r = n.
Proof. rewrite existsb_exists. setoid_rewrite String.eqb_eq. by setoid_rewrite elem_of_list_In. Qed.
Lemma add_to_first_spec i n l : forall l' b c, add_to_first i n l = (l', b, c) ->
  (l' = l /\ forall r, r ∈ l -> dr_name r = n -> i ∈ dr_ids r) \/
  (exists l1 r r' l2, l = l1 ++ r :: l2 /\ l' = l1 ++ r' :: l2 /\ dr_name r = n /\ i ∉ dr_ids r /\ dr_with_ids r r' (dr_ids r ++ [i]) /\
     forall r0, r0 ∈ l1 -> dr_name r0 = n -> i ∈ dr_ids r0).
Proof.
  induction l as [|r l IH]; intros l' b c; cbn.
  - intros [= <- <- <-]. left. split; [done|]. intros r Hr. by apply elem_of_nil in Hr.
  - destruct (String.eqb_spec (dr_name r) n) as [Hn|Hn].
    + destruct (decide _) as [Hi|Hi].
      * destruct (add_to_first i n l) as [[l0 b0] c0] eqn:E. intros [= <- <- <-]. destruct (IH _ _ _ eq_refl) as [[-> H]|(l1 & r0 & r' & l2 & -> & -> & H1 & H2 & H3 & H4)].
        -- left. split; [done|]. intros r0 [->|Hr0]%elem_of_cons; [done|auto].
        -- right. exists (r :: l1), r0, r', l2. repeat split; try done. 1-7: apply H3. intros r1 [->|Hr1]%elem_of_cons; [done|auto].
      * intros [= <- <- <-]. right. exists [], r, (with_dr_keyids r (Some (slist (dr_keyids r) ++ [i]))), l. repeat split; try done. intros r0 Hr0. by apply elem_of_nil in Hr0.
    + destruct (add_to_first i n l) as [[l0 b0] c0] eqn:E. intros [= <- <- <-]. destruct (IH _ _ _ eq_refl) as [[-> H]|(l1 & r0 & r' & l2 & -> & -> & H1 & H2 & H3 & H4)].
      * left. split; [done|]. intros r0 [->|Hr0]%elem_of_cons; [done|auto].
      * right. exists (r :: l1), r0, r', l2. repeat split; try done. 1-7: apply H3. intros r1 [->|Hr1]%elem_of_cons; [done|auto].
Qed.
Lemma remove_from_first_spec i n l : match remove_from_first i n l with
  | None => forall r, r ∈ l -> dr_name r <> n
  | Some None => exists l1 r l2, l = l1 ++ r :: l2 /\ dr_name r = n /\ i ∉ dr_ids r /\ forall r0, r0 ∈ l1 -> dr_name r0 <> n
  | Some (Some l') => exists l1 r r' l2, l = l1 ++ r :: l2 /\ l' = l1 ++ r' :: l2 /\ dr_name r = n /\ i ∈ dr_ids r /\
      dr_with_ids r r' (without_id i (dr_ids r)) /\ forall r0, r0 ∈ l1 -> dr_name r0 <> n
  end.
Proof.
  induction l as [|r l IH]; cbn.
  - intros r Hr. by apply elem_of_nil in Hr.
  - destruct (String.eqb_spec (dr_name r) n) as [Hn|Hn].
    + destruct (decide _) as [Hi|Hi].
      * exists [], r, (with_dr_keyids r (remove_id i (dr_keyids r))), l. repeat split; try done. intros r0 Hr0. by apply elem_of_nil in Hr0.
      * exists [], r, l. repeat split; try done. intros r0 Hr0. by apply elem_of_nil in Hr0.
    + destruct (remove_from_first i n l) as [[l'|]|].
      * destruct IH as (l1 & r0 & r' & l2 & -> & -> & H1 & H2 & H3 & H4). exists (r :: l1), r0, r', l2. repeat split; try done. 1-7: apply H3. intros r1 [->|Hr1]%elem_of_cons; [done|auto].
      * destruct IH as (l1 & r0 & l2 & -> & H1 & H2 & H4). exists (r :: l1), r0, l2. repeat split; try done. intros r1 [->|Hr1]%elem_of_cons; [done|auto].
      * intros r0 [->|Hr0]%elem_of_cons; [done|auto].
Qed.

Lemma targets_add_std x k n d l : tg_delegations x = Some d -> d_roles d = Some l -> d_keys d <> None -> (exists i, key_id k = Ok i) ->
  (exists y, targets_add_key x k n = Ok y) <-> exists r, r ∈ l /\ dr_name r = n.
Proof.
  intros Hd Hl Hk [i Hi]. unfold targets_add_key. rewrite Hd, Hl, Hi. rewrite <- existsb_name. destruct (existsb _ _); [|split; [by intros [? ?]|done]].
  split; [done|intros _]. cbn [obind]. destruct (add_to_first i n l) as [[l' b] c]. unfold mset. destruct (d_keys d) as [m|]; [|done]. cbn. eauto.
Qed.
Lemma targets_add_std_effect x k n d l y : tg_delegations x = Some d -> d_roles d = Some l -> targets_add_key x k n = Ok y ->
  exists i d' l', key_id k = Ok i /\ same_but_delegations x y /\ tg_delegations y = Some d' /\ d_succinct d' = d_succinct d /\ d_unrec d' = d_unrec d /\
    table_with (d_keys d) (d_keys d') i (with_cached_id k i) /\ d_roles d' = Some l' /\
    ((l' = l /\ (exists r, r ∈ l /\ dr_name r = n) /\ forall r, r ∈ l -> dr_name r = n -> i ∈ dr_ids r) \/
     (exists l1 r r' l2, l = l1 ++ r :: l2 /\ l' = l1 ++ r' :: l2 /\ dr_name r = n /\ i ∉ dr_ids r /\ dr_with_ids r r' (dr_ids r ++ [i]) /\
       forall r0, r0 ∈ l1 -> dr_name r0 = n -> i ∈ dr_ids r0)).
Proof.
  intros Hd Hl. unfold targets_add_key. rewrite Hd, Hl. destruct (existsb _ _) eqn:E; [|done]. apply existsb_name in E.
  destruct (key_id k) as [i| |]; try done. cbn [obind]. destruct (add_to_first i n l) as [[l' b] c] eqn:Ea. unfold mset. destruct (d_keys d) as [m|] eqn:Em; [|done]. cbn [obind].
  intros [= <-]. exists i. eexists. exists l'. repeat (split; [done|]). split; [by exists m|]. split; [done|].
  destruct (add_to_first_spec _ _ _ _ _ _ Ea) as [[-> H]|H]; [left|by right]. done.
Qed.
(** with distinct role names *)
Lemma nodup_names_split l1 r l2 : NoDup (map dr_name (l1 ++ r :: l2)) -> forall r0, r0 ∈ l1 ++ l2 -> dr_name r0 <> dr_name r.
Proof.
  intros H r0 Hr0 He. rewrite map_app in H. cbn in H. apply NoDup_app in H as (_ & Hd & H2). apply NoDup_cons in H2 as [Hn _].
  apply elem_of_app in Hr0 as [Hr0|Hr0].
  - apply (Hd (dr_name r0)); [by apply elem_of_list_fmap_1|]. rewrite He. left.
  - apply Hn. rewrite <- He. by apply elem_of_list_fmap_1.
Qed.

Lemma targets_add_std_unique x k n d l y : tg_delegations x = Some d -> d_roles d = Some l -> NoDup (map dr_name l) -> targets_add_key x k n = Ok y ->
  exists i d' l', key_id k = Ok i /\ same_but_delegations x y /\ tg_delegations y = Some d' /\ d_succinct d' = d_succinct d /\ d_unrec d' = d_unrec d /\
    table_with (d_keys d) (d_keys d') i (with_cached_id k i) /\ d_roles d' = Some l' /\ (exists r, r ∈ l /\ dr_name r = n) /\
    Forall2 (fun r r' => (dr_name r = n /\ dr_with_ids r r' (with_id i (dr_ids r))) \/ (dr_name r <> n /\ r' = r)) l l'.
Proof.
  intros Hd Hl Hu H. destruct (targets_add_std_effect x k n d l y Hd Hl H) as (i & d' & l' & H1 & H2 & H3 & H4 & H5 & H6 & H7 & H8).
  exists i, d', l'. repeat (split; [done|]). destruct H8 as [(-> & He & Ha)|(l1 & r & r' & l2 & -> & -> & Hn & Hi & Hr & _)].
  - split; [done|]. apply Forall_Forall2_diag, Forall_forall. intros r Hr. destruct (decide (dr_name r = n)) as [Hn|Hn]; [left|by right].
    split; [done|]. unfold with_id. destruct (decide _) as [|Hx]; [done|]. by destruct Hx; apply Ha.
  - split; [exists r; split; [apply elem_of_app; right; left|done]|].
    assert (forall r0, r0 ∈ l1 ++ l2 -> (dr_name r0 = n /\ dr_with_ids r0 r0 (with_id i (dr_ids r0))) \/ (dr_name r0 <> n /\ r0 = r0)) as Ho.
    { intros r0 Hr0. right. split; [|done]. rewrite <- Hn. by apply (nodup_names_split l1 r l2). }
    apply Forall2_app; [|constructor].
    + apply Forall_Forall2_diag, Forall_forall. intros r0 Hr0. apply Ho, elem_of_app. by left.
    + left. split; [done|]. unfold with_id. by destruct (decide _).
    + apply Forall_Forall2_diag, Forall_forall. intros r0 Hr0. apply Ho, elem_of_app. by right.
Qed.
Lemma targets_unknown x k i n : (tg_delegations x = None \/ exists d l, tg_delegations x = Some d /\ d_roles d = Some l /\ forall r, r ∈ l -> dr_name r <> n) ->
  (exists msg, targets_add_key x k n = Err (ErrValue msg)) /\ (exists msg, targets_revoke_key x i n = Err (ErrValue msg)).
Proof.
  intros [Hd|(d & l & Hd & Hl & Hn)]; unfold targets_add_key, targets_revoke_key; rewrite Hd; [by eauto|]. rewrite Hl. split.
  - destruct (existsb _ _) eqn:E; [|by eauto]. apply existsb_name in E as (r & Hr & E). by apply Hn in E.
  - pose proof (remove_from_first_spec i n l) as H. destruct (remove_from_first i n l) as [[l'|]|]; [| |by eauto].
    + destruct H as (l1 & r & r' & l2 & -> & _ & H & _). exfalso. apply (Hn r); [|done]. apply elem_of_app; right; left.
    + destruct H as (l1 & r & l2 & -> & H & _). exfalso. apply (Hn r); [|done]. apply elem_of_app; right; left.
Qed.
Lemma mdel_without keys i : table_without keys (mdel i keys) i.
Proof. destruct keys as [m|]; [|by repeat split]. split; [done|]. cbn. split; [by rewrite lookup_delete|]. intros j Hj. by rewrite lookup_delete_ne. Qed.
Lemma targets_revoke_std x i n d l y : tg_delegations x = Some d -> d_roles d = Some l -> targets_revoke_key x i n = Ok y ->
  exists d' l1 r r' l2, same_but_delegations x y /\ tg_delegations y = Some d' /\ d_succinct d' = d_succinct d /\ d_unrec d' = d_unrec d /\
    l = l1 ++ r :: l2 /\ d_roles d' = Some (l1 ++ r' :: l2) /\ dr_name r = n /\ (forall r0, r0 ∈ l1 -> dr_name r0 <> n) /\
    i ∈ dr_ids r /\ dr_with_ids r r' (without_id i (dr_ids r)) /\
    ((exists r0, r0 ∈ l1 ++ r' :: l2 /\ i ∈ dr_ids r0) -> d_keys d' = d_keys d) /\
    (~ (exists r0, r0 ∈ l1 ++ r' :: l2 /\ i ∈ dr_ids r0) -> table_without (d_keys d) (d_keys d') i).
Proof.
  intros Hd Hl. unfold targets_revoke_key. rewrite Hd, Hl. pose proof (remove_from_first_spec i n l) as H. destruct (remove_from_first i n l) as [[l'|]|]; try done.
  destruct H as (l1 & r & r' & l2 & -> & -> & H1 & H2 & H3 & H4). intros [= <-]. eexists. exists l1, r, r', l2. repeat (split; [done|]). cbn [d_keys].
  destruct (existsb _ _) eqn:E.
  - apply existsb_exists in E as (r0 & Hr0%elem_of_list_In & Hi0%bool_decide_eq_true). split; [done|]. intros Hx. exfalso. apply Hx. eauto.
  - split; [|intros _; apply mdel_without]. intros (r0 & Hr0 & Hi0). exfalso. assert (existsb (fun r => bool_decide (i ∈ slist (dr_keyids r))) (l1 ++ r' :: l2) = true) as Ht; [|congruence].
    apply existsb_exists. exists r0. split; [by apply elem_of_list_In|]. by apply bool_decide_eq_true.
Qed.
Lemma targets_revoke_std_fails x i n d l : tg_delegations x = Some d -> d_roles d = Some l ->
  (exists y, targets_revoke_key x i n = Ok y) \/ (exists msg, targets_revoke_key x i n = Err (ErrValue msg)) /\
    forall r l1 l2, l = l1 ++ r :: l2 -> dr_name r = n -> (forall r0, r0 ∈ l1 -> dr_name r0 <> n) -> i ∉ dr_ids r.
Proof.
  intros Hd Hl. unfold targets_revoke_key. rewrite Hd, Hl. pose proof (remove_from_first_spec i n l) as H. destruct (remove_from_first i n l) as [[l'|]|].
  - left. eauto.
  - right. split; [eauto|]. destruct H as (l1 & r & l2 & -> & H1 & H2 & H3). intros r0 m1 m2 He Hn Hb.
    assert (r0 = r) as ->; [|done]. clear H2 Hl. revert m1 He Hb. induction l1 as [|a l1 IH]; intros [|b m1] He Hb; cbn in He; injection He; intros; subst; try done.
    + exfalso. eapply Hb; [left|done].
    + exfalso. eapply H3; [left|done].
    + eapply IH; [|eassumption|]; [intros; apply H3; by right|]. intros; apply Hb; by right.
  - right. split; [eauto|]. intros r l1 l2 -> Hn _. exfalso. apply (H r); [|done]. apply elem_of_app; right; left.
Qed.
(** succinct *)
Lemma targets_add_succinct x k n d s y : tg_delegations x = Some d -> d_roles d = None -> d_succinct d = Some s -> targets_add_key x k n = Ok y ->
  exists i d' s', key_id k = Ok i /\ same_but_delegations x y /\ tg_delegations y = Some d' /\ d_roles d' = None /\ d_unrec d' = d_unrec d /\
    table_with (d_keys d) (d_keys d') i (with_cached_id k i) /\ d_succinct d' = Some s' /\ sr_with_ids s s' (with_id i (sr_ids s)).
Proof.
  intros Hd Hl Hs. unfold targets_add_key. rewrite Hd, Hl, Hs. destruct (key_id k) as [i| |]; try done. cbn [obind]. unfold mset. destruct (d_keys d) as [m|] eqn:Em; [|done]. cbn [obind].
  intros [= <-]. eexists i, _, _. repeat (split; [done|]). split; [by exists m|]. split; [done|]. split; [exact (add_id_with i (sr_keyids s))|done].
Qed.
Lemma targets_revoke_succinct x i n d s y : tg_delegations x = Some d -> d_roles d = None -> d_succinct d = Some s ->
  (targets_revoke_key x i n = Ok y -> exists d' s', i ∈ sr_ids s /\ same_but_delegations x y /\ tg_delegations y = Some d' /\ d_roles d' = None /\ d_unrec d' = d_unrec d /\
    table_without (d_keys d) (d_keys d') i /\ d_succinct d' = Some s' /\ sr_with_ids s s' (without_id i (sr_ids s))) /\
  ((exists msg, targets_revoke_key x i n = Err (ErrValue msg)) <-> i ∉ sr_ids s).
Proof.
  intros Hd Hl Hs. unfold targets_revoke_key. rewrite Hd, Hl, Hs. change (sr_ids s) with (slist (sr_keyids s)). destruct (decide _) as [Hi|Hi].
  - split; [|split; [by intros [? ?]|done]]. intros [= <-]. eexists _, _. repeat (split; [done|]). split; [apply mdel_without|]. done.
  - split; [done|]. split; eauto.
Qed.
(** preservation of consistency *)
Definition cons_t (x : targets_t) : Prop :=
  exists d, tg_delegations x = Some d /\ (is_Some (d_roles d) \/ is_Some (d_succinct d)) /\ consistent_delegations d.
Lemma table_with_mget keys keys' i k : table_with keys keys' i k -> forall j, mget keys' j = if decide (j = i) then Some (Some k) else mget keys j.
Proof. intros (m & -> & ->) j. cbn. destruct (decide _) as [->|]; [by rewrite lookup_insert|by rewrite lookup_insert_ne]. Qed.
Lemma consistent_add d d' i k ls ls' : table_with (d_keys d) (d_keys d') i k -> active_ids d = ls -> active_ids d' = ls' ->
  (forall ids, ids ∈ ls' -> exists ids0, ids0 ∈ ls /\ (ids = ids0 \/ ids = with_id i ids0)) ->
  (forall ids0, ids0 ∈ ls -> exists ids, ids ∈ ls' /\ forall j, j ∈ ids0 -> j ∈ ids) ->
  (exists ids, ids ∈ ls' /\ i ∈ ids) -> consistent_delegations d -> consistent_delegations d'.
Proof.
  intros Ht El El' Hf Hb Hi (H1 & H2 & H3). pose proof (table_with_mget _ _ _ _ Ht) as Hm. unfold consistent_delegations. setoid_rewrite in_table_mget. setoid_rewrite in_table_mget in H1. rewrite El' in *. rewrite El in *. split; [|split].
  - intros ids j Hids Hj. rewrite Hm. destruct (decide _) as [|Hne]; [eauto|]. destruct (Hf ids Hids) as (ids0 & Hin & [-> | ->]).
    + by apply (H1 ids0).
    + apply with_id_in in Hj as [->|Hj]; [done|]. by apply (H1 ids0).
  - intros j k0 Hj. rewrite Hm in Hj. destruct (decide _) as [->|Hne]; [done|]. destruct (H2 j k0 Hj) as (ids0 & Hin & Hj0). destruct (Hb ids0 Hin) as (ids & Hids & Hsub). eauto.
  - intros ids Hids. destruct (Hf ids Hids) as (ids0 & Hin & [-> | ->]); [by apply H3|]. by apply with_id_nodup, H3.
Qed.
Lemma consistent_remove d d' i ls ls' : active_ids d = ls -> active_ids d' = ls' ->
  ((exists ids, ids ∈ ls' /\ i ∈ ids) -> d_keys d' = d_keys d) -> (~ (exists ids, ids ∈ ls' /\ i ∈ ids) -> table_without (d_keys d) (d_keys d') i) ->
  (forall ids, ids ∈ ls' -> exists ids0, ids0 ∈ ls /\ (ids = ids0 \/ ids = without_id i ids0)) ->
  (forall ids0, ids0 ∈ ls -> exists ids, ids ∈ ls' /\ forall j, j <> i -> j ∈ ids0 -> j ∈ ids) ->
  consistent_delegations d -> consistent_delegations d'.
Proof.
  intros El El' Hu Hn Hf Hb (H1 & H2 & H3). unfold consistent_delegations. setoid_rewrite in_table_mget. setoid_rewrite in_table_mget in H1. rewrite El' in *. rewrite El in *.
  assert (forall j, j <> i \/ (exists ids, ids ∈ ls' /\ i ∈ ids) -> mget (d_keys d') j = mget (d_keys d) j) as Hm.
  { intros j Hj. destruct (decide (Exists (fun ids => i ∈ ids) ls')) as [He|He].
    - apply Exists_exists in He. by rewrite Hu.
    - assert (~ exists ids, ids ∈ ls' /\ i ∈ ids) as Hx by (by rewrite <- Exists_exists). destruct Hj as [Hj|Hj]; [|done]. by apply Hn. }
  split; [|split].
  - intros ids j Hids Hj. rewrite Hm.
    + destruct (Hf ids Hids) as (ids0 & Hin & [-> | ->]); [by apply (H1 ids0)|]. apply elem_of_list_filter in Hj as [_ Hj]. by apply (H1 ids0).
    + destruct (decide (j = i)) as [->|Hne]; [right; eauto|by left].
  - intros j k0 Hj. destruct (decide (Exists (fun ids => j ∈ ids) ls')) as [He|He]; [by apply Exists_exists in He|]. exfalso.
    destruct (decide (j = i)) as [->|Hne].
    + destruct Hn as (_ & Hx & _); [by rewrite <- Exists_exists|]. congruence.
    + rewrite Hm in Hj by (by left). destruct (H2 j k0 Hj) as (ids0 & Hin & Hj0). destruct (Hb ids0 Hin) as (ids & Hids & Hsub). apply He, Exists_exists. eauto.
  - intros ids Hids. destruct (Hf ids Hids) as (ids0 & Hin & [-> | ->]); [by apply H3|]. by apply NoDup_filter, H3.
Qed.
Lemma cons_add x k n y : cons_t x -> targets_add_key x k n = Ok y -> cons_t y.
Proof.
  intros (d & Hd & Hs & Hc) H. destruct (d_roles d) as [l|] eqn:El.
  - destruct (targets_add_std_effect x k n d l y Hd El H) as (i & d' & l' & H1 & H2 & H3 & H4 & H5 & H6 & H7 & H8).
    exists d'. split; [done|]. split; [left; by rewrite H7|].
    apply (consistent_add d d' i (with_cached_id k i) (map dr_ids l) (map dr_ids l')); [done|by unfold active_ids; rewrite El|by unfold active_ids; rewrite H7| | | |done].
    + intros ids. destruct H8 as [(-> & _)|(l1 & r & r' & l2 & -> & -> & Hn & Hi & (Hr & _) & _)]; [eauto|]. rewrite !map_app. cbn [map]. setoid_rewrite elem_of_app. setoid_rewrite elem_of_cons.
      intros [Hids|[->|Hids]]; [eauto 8| |eauto 8]. exists (dr_ids r). split; [auto|]. right. rewrite Hr. unfold with_id. by destruct (decide _).
    + intros ids. destruct H8 as [(-> & _)|(l1 & r & r' & l2 & -> & -> & Hn & Hi & (Hr & _) & _)]; [eauto|]. rewrite !map_app. cbn [map]. setoid_rewrite elem_of_app. setoid_rewrite elem_of_cons.
      intros [Hids|[->|Hids]]; [eauto 8| |eauto 8]. exists (dr_ids r'). split; [auto|]. rewrite Hr. intros j Hj. apply elem_of_app. by left.
    + destruct H8 as [(-> & (r & Hr & Hn) & Ha)|(l1 & r & r' & l2 & -> & -> & Hn & Hi & (Hr & _) & _)].
      * exists (dr_ids r). split; [by apply elem_of_list_fmap_1|auto].
      * exists (dr_ids r'). split; [apply elem_of_list_fmap_1; apply elem_of_app; right; left|]. rewrite Hr. apply elem_of_app. right. left.
  - destruct (d_succinct d) as [s|] eqn:Es; [|by destruct Hs as [[? ?]|[? ?]]].
    destruct (targets_add_succinct x k n d s y Hd El Es H) as (i & d' & s' & H1 & H2 & H3 & H4 & H5 & H6 & H7 & (H8 & _)).
    exists d'. split; [done|]. split; [right; by rewrite H7|].
    apply (consistent_add d d' i (with_cached_id k i) [sr_ids s] [sr_ids s']); [done|by unfold active_ids; rewrite El, Es|by unfold active_ids; rewrite H4, H7| | | |done]; rewrite H8.
    + intros ids Hs1; apply elem_of_list_singleton in Hs1 as ->. exists (sr_ids s). split; [left|auto].
    + intros ids Hs1; apply elem_of_list_singleton in Hs1 as ->. exists (with_id i (sr_ids s)). split; [left|]. intros j Hj. apply with_id_in. by right.
    + exists (with_id i (sr_ids s)). split; [left|]. apply with_id_in. by left.
Qed.
Lemma cons_revoke x i n y : cons_t x -> targets_revoke_key x i n = Ok y -> cons_t y.
Proof.
  intros (d & Hd & Hs & Hc) H. destruct (d_roles d) as [l|] eqn:El.
  - destruct (targets_revoke_std x i n d l y Hd El H) as (d' & l1 & r & r' & l2 & H2 & H3 & H4 & H5 & El2 & H6 & H7 & H8 & H9 & (H10 & _) & H11 & H12).
    exists d'. split; [done|]. split; [left; by rewrite H6|].
    assert ((exists ids, ids ∈ map dr_ids (l1 ++ r' :: l2) /\ i ∈ ids) <-> exists r0, r0 ∈ l1 ++ r' :: l2 /\ i ∈ dr_ids r0) as Hx.
    { split; [intros (ids & (r0 & -> & Hr0)%elem_of_list_fmap & Hi); eauto|]. intros (r0 & Hr0 & Hi). exists (dr_ids r0). split; [by apply elem_of_list_fmap_1|done]. }
    apply (consistent_remove d d' i (map dr_ids l) (map dr_ids (l1 ++ r' :: l2))); [by unfold active_ids; rewrite El|by unfold active_ids; rewrite H6|by rewrite Hx|by rewrite Hx| | |done]; rewrite El2.
    + intros ids. rewrite !map_app. cbn [map]. setoid_rewrite elem_of_app. setoid_rewrite elem_of_cons. intros [Hids|[->|Hids]]; [eauto 8| |eauto 8]. exists (dr_ids r). rewrite H10. eauto 8.
    + intros ids. rewrite !map_app. cbn [map]. setoid_rewrite elem_of_app. setoid_rewrite elem_of_cons. intros [Hids|[->|Hids]]; [eauto 8| |eauto 8]. exists (dr_ids r'). split; [auto|]. rewrite H10. intros j Hj Hj'. by apply elem_of_list_filter.
  - destruct (d_succinct d) as [s|] eqn:Es; [|by destruct Hs as [[? ?]|[? ?]]].
    destruct (targets_revoke_succinct x i n d s y Hd El Es) as [Hf _]. destruct (Hf H) as (d' & s' & H1 & H2 & H3 & H4 & H5 & H6 & H7 & (H8 & _)).
    exists d'. split; [done|]. split; [right; by rewrite H7|].
    apply (consistent_remove d d' i [sr_ids s] [sr_ids s']); [by unfold active_ids; rewrite El, Es|by unfold active_ids; rewrite H4, H7| |done| | |done]; rewrite H8.
    + intros (ids & Hs1 & Hi); apply elem_of_list_singleton in Hs1 as ->. by apply elem_of_list_filter in Hi as [? _].
    + intros ids Hs1; apply elem_of_list_singleton in Hs1 as ->. exists (sr_ids s). split; [left|auto].
    + intros ids Hs1; apply elem_of_list_singleton in Hs1 as ->. exists (without_id i (sr_ids s)). split; [left|]. intros j Hj Hj'. by apply elem_of_list_filter.
Qed.
Lemma cons_history x y d : targets_key_history x y -> tg_delegations x = Some d -> (is_Some (d_roles d) \/ is_Some (d_succinct d)) -> consistent_delegations d ->
  exists d', tg_delegations y = Some d' /\ consistent_delegations d'.
Proof.
  intros Hh Hd Hs Hc. assert (cons_t x) as Hx by (by exists d). clear Hd Hs Hc. assert (cons_t y) as (d' & ? & _ & ?); [|eauto].
  induction Hh; [done|eapply cons_add; [|done]; auto|eapply cons_revoke; [|done]; auto].
Qed.

(** delegations with neither kind of role *)
Definition bare_targets (d : delegations) : targets_t := mkTargets TARGETS SPECIFICATION_VERSION 1 time_zero (Some ∅) (Some d) None.
Definition bare_delegations : delegations := mkDelegations (Some ∅) None None None.
Lemma bare_add_key k i n : key_id k = Ok i -> exists y d',
  consistent_delegations bare_delegations /\ active_ids bare_delegations = [] /\
  targets_add_key (bare_targets bare_delegations) k n = Ok y /\ tg_delegations y = Some d' /\ active_ids d' = [] /\ (exists k', in_table (d_keys d') i k') /\
  forall n', is_ok (targets_revoke_key y i n') = false.
Proof.
  intros Hk. eexists _, _. split; [split; [|split]|split; [done|]].
  - intros ids j Hids. by apply elem_of_nil in Hids.
  - intros j k0 H. cbn in H. by rewrite lookup_empty in H.
  - intros ids Hids. by apply elem_of_nil in Hids.
  - split; [unfold targets_add_key; cbn; rewrite Hk; reflexivity|]. split; [done|]. split; [done|].
    split; [eexists; eexists; split; [reflexivity|]; apply lookup_insert|done].
Qed.

(** ** C36 *)
Lemma public_key_round_trip p k : pem_round_trip -> key_from_public_key p = Ok k -> to_public_key k = Ok p.
Proof.
  intros Hp. destruct p as [der|der|raw|t]; cbn [key_from_public_key].
  - destruct (pem_encode (PkRSA der)) as [s|] eqn:E; [|done]. intros [= <-]. destruct (Hp _ _ E) as [H1 H2]. unfold to_public_key. cbn [k_type k_val kv_public]. rewrite H1, H2. done.
  - destruct (pem_encode (PkECDSA der)) as [s|] eqn:E; [|done]. intros [= <-]. destruct (Hp _ _ E) as [H1 H2]. unfold to_public_key. cbn [k_type k_val kv_public]. rewrite H1, H2. done.
  - intros [= <-]. unfold to_public_key. cbn [k_type k_val kv_public]. rewrite hex_decode_encode. done.
  - done.
Qed.
Lemma public_key_types p : (exists k, key_from_public_key p = Ok k) <->
  match p with PkRSA _ | PkECDSA _ => exists s, pem_encode p = Some s | PkEd25519 _ => True | PkOther _ => False end.
Proof.
  destruct p as [d|d|d|d]; cbn.
  1,2: destruct (pem_encode _); split; intros [? ?]; simplify_eq; eauto.
  - split; eauto.
  - split; [by intros [? ?]|done].
Qed.
Lemma key_from_fields p k : key_from_public_key p = Ok k -> k_id k = "" /\ kv_unrec (k_val k) = None /\ k_unrec k = None /\
  match p with
  | PkRSA _ => k_type k = "rsa" /\ k_scheme k = "rsassa-pss-sha256" /\ pem_encode p = Some (kv_public (k_val k))
  | PkECDSA _ => k_type k = "ecdsa" /\ k_scheme k = "ecdsa-sha2-nistp256" /\ pem_encode p = Some (kv_public (k_val k))
  | PkEd25519 raw => k_type k = "ed25519" /\ k_scheme k = "ed25519" /\ kv_public (k_val k) = hex_encode raw
  | PkOther _ => False
  end.
Proof. destruct p; cbn; try destruct (pem_encode _); intros H; simplify_eq; done. Qed.

(** ** C37 *)
Lemma decode_struct_inv {A} (P : A -> Prop) (fs : fields A) a0 j a :
  decode_struct fs a0 j = Ok a -> P a0 -> (forall n f x v y, (n, f) ∈ fs -> P x -> f v x = Ok y -> P y) -> P a.
Proof.
  intros H H0 Hf. assert (forall n f, field_exact fs n = Some f -> exists n', (n', f) ∈ fs) as He.
  { intros n f. clear. induction fs as [|[m g] fs IH]; cbn; [done|]. destruct (String.eqb m n); [intros [= <-]; exists m; left|]. intros [n' Hn']%IH. exists n'. by right. }
  assert (forall n f, field_fold fs n = Some f -> exists n', (n', f) ∈ fs) as Hd.
  { intros n f. clear. induction fs as [|[m g] fs IH]; cbn; [done|]. destruct (String.eqb (fold_key m) n); [intros [= <-]; exists m; left|]. intros [n' Hn']%IH. exists n'. by right. }
  assert (forall n f, field_lookup fs n = Some f -> exists n', (n', f) ∈ fs) as Hl.
  { intros n f. unfold field_lookup. destruct (field_exact fs n) eqn:E; [intros [= <-]; by apply (He n)|]. apply Hd. }
  destruct j; cbn in H; simplify_eq; try done. revert a0 H H0. induction l as [|[k v] l IH]; intros a0 H H0; cbn in H; [by simplify_eq|].
  destruct (field_lookup fs k) as [f|] eqn:E; [|eauto]. destruct (f v a0) as [a1| |] eqn:Ef; cbn in H; try done. apply Hl in E as [n' Hn']. eauto.
Qed.
Lemma key_unmarshal_id j k : key_unmarshal j = Ok k -> k_id k = "".
Proof.
  unfold key_unmarshal. destruct (decode_struct key_fields key_zero j) as [a| |] eqn:E; try done. cbn [obind]. destruct (decode_dict j) as [dict| |]; try done. cbn [obind]. intros [= <-]. cbn.
  apply (decode_struct_inv (fun k => k_id k = "") _ _ _ _ E); [done|]. intros n f x v y Hin Hx Hy.
  unfold key_fields in Hin. repeat (apply elem_of_cons in Hin as [[= -> ->]|Hin]; [|]); [..|by apply elem_of_nil in Hin].
  - destruct (dec_string v (k_type x)); try done. cbn in Hy. injection Hy as <-. done.
  - destruct (dec_string v (k_scheme x)); try done. cbn in Hy. injection Hy as <-. done.
  - destruct (keyval_unmarshal v); try done. cbn in Hy. injection Hy as <-. done.
Qed.
Lemma key_id_fresh k i : k_id k = "" -> key_id k = Ok i <-> exists data, encode_canonical (key_marshal k) = Ok data /\ i = hex_encode (sha256 data).
Proof. intros H. unfold key_id. rewrite H. cbn. destruct (encode_canonical (key_marshal k)) as [data| |]; naive_solver. Qed.
Lemma key_id_panics k : key_id k = Panic <-> k_id k = "" /\ ~ exists data, encode_canonical (key_marshal k) = Ok data.
Proof. unfold key_id. destruct (String.eqb_spec (k_id k) ""); [|naive_solver]. destruct (encode_canonical (key_marshal k)) as [data| |]; naive_solver. Qed.
Lemma key_id_collision k1 k2 i d1 d2 : k_id k1 = "" -> k_id k2 = "" -> key_id k1 = Ok i -> key_id k2 = Ok i ->
  encode_canonical (key_marshal k1) = Ok d1 -> encode_canonical (key_marshal k2) = Ok d2 -> sha256 d1 = sha256 d2.
Proof.
  intros H1 H2 Hi1 Hi2 E1 E2. apply key_id_fresh in Hi1 as (? & E1' & ->); [|done]. apply key_id_fresh in Hi2 as (? & E2' & Hh); [|done].
  apply hex_encode_inj. congruence.
Qed.
Lemma key_id_stable k i : key_id k = Ok i -> key_id (with_cached_id k i) = Ok i.
Proof. intros H. apply key_id_cached. by apply (key_id_ne k). Qed.
End KeysProofs.
