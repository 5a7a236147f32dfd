(** * Proofs about signing and delegation verification *)
From stdpp Require Import base gmap strings list fin_sets.
From Coq Require Import ZArith Lia String.
From Verif Require Import GoBase GoStr Json GoTime Types Marshal Keys Metadata SpecSig.
Open Scope Z_scope.

Lemma obind_ok {A B} (o : outcome A) (f : A -> outcome B) b :
  obind o f = Ok b <-> exists a, o = Ok a /\ f a = Ok b.
Proof. destruct o; cbn; naive_solver. Qed.
Lemma mget_some {V} (m : gomap V) k v : mget m k = Some v <-> exists m', m = Some m' /\ m' !! k = Some v.
Proof. destruct m; cbn; naive_solver. Qed.

(** ** delegation lookup *)
Lemma root_delegation_spec x name dg :
  root_delegation x name = Ok dg <-> root_delegates x name (dg_keys dg) (dg_keyids dg) (dg_threshold dg).
Proof.
  unfold root_delegation, root_delegates, mget. destruct dg as [ks ids thr]; cbn.
  destruct (rt_roles x) as [rs|]; [|naive_solver].
  destruct (rs !! name) as [[r|]|] eqn:E; [|naive_solver..].
  split; [intros [= <- <- <-]; eauto 10|].
  intros (? & ? & [= <-] & ? & -> & -> & ->). naive_solver.
Qed.
Lemma find_role_some l name r :
  find_role l name = Some r <->
  exists l1 l2, l = l1 ++ r :: l2 /\ Forall (fun r' => dr_name r' <> name) l1 /\ dr_name r = name.
Proof.
  induction l as [|r' l IH]; cbn.
  - split; [done|]. intros ([] & ? & ? & _); done.
  - destruct (String.eqb_spec (dr_name r') name) as [E|E].
    + split.
      * intros [= <-]. exists [], l. done.
      * intros (l1 & l2 & Heq & Hf & Hn). destruct l1 as [|a l1]; cbn in Heq; [congruence|].
        injection Heq as -> ->. apply Forall_cons in Hf as [? _]. done.
    + rewrite IH. split.
      * intros (l1 & l2 & -> & Hf & Hn). exists (r' :: l1), l2. split_and!; try done. by constructor.
      * intros (l1 & l2 & Heq & Hf & Hn). destruct l1 as [|a l1]; cbn in Heq; [congruence|].
        injection Heq as -> ->. apply Forall_cons in Hf as [_ ?]. eauto.
Qed.
Lemma targets_delegation_spec x name dg :
  (targets_delegation x name = Ok dg /\ dg_keyids dg <> []) <->
  (targets_delegates x name (dg_keys dg) (dg_keyids dg) (dg_threshold dg) /\ dg_keyids dg <> []).
Proof.
  unfold targets_delegation, targets_delegates. destruct dg as [ks ids thr]; cbn.
  destruct (tg_delegations x) as [d|]; [|naive_solver].
  destruct (d_roles d) as [l|] eqn:Hr.
  - destruct (find_role l name) as [r|] eqn:Hf; cbn.
    + apply find_role_some in Hf as Hf'. destruct Hf' as (l1 & l2 & -> & HF & Hn).
      split.
      * intros [[= <- <- <-] Hne]. split; [|done]. exists d. split_and!; try done. left. eauto 10.
      * intros [(d' & [= <-] & -> & [(l1' & r' & l2' & Heq & HF' & Hn' & -> & ->)|(? & ? & _)]) Hne]; [|congruence].
        split; [|done].
        assert (find_role (l1 ++ r :: l2) name = Some r') as Hr'.
        { rewrite Hr in Heq. injection Heq as ->. apply find_role_some. eauto. }
        rewrite Hf in Hr'. by injection Hr' as ->.
    + split; [naive_solver|]. intros [(d' & [= <-] & -> & [(l1' & r' & l2' & Heq & HF' & Hn' & -> & ->)|(? & ? & _)]) Hne]; [|congruence].
      rewrite Hr in Heq. injection Heq as ->.
      assert (find_role (l1' ++ r' :: l2') name = Some r') by (apply find_role_some; eauto). congruence.
  - destruct (d_succinct d) as [s|] eqn:Hs.
    + split.
      * intros [[= <- <- <-] Hne]. split; [|done]. exists d. split_and!; try done. right. eauto 10.
      * intros [(d' & [= <-] & -> & [(l1' & r' & l2' & Heq & _)|(s' & _ & ? & -> & ->)]) Hne]; [congruence|].
        split; [|done]. replace s' with s by congruence. done.
    + split; [naive_solver|].
      intros [(d' & [= <-] & -> & [(l1' & r' & l2' & Heq & _)|(s' & _ & ? & -> & ->)]) Hne]; congruence.
Qed.

(** ** signatures *)
Lemma last_sig_app l1 l2 id acc : last_sig (l1 ++ l2) id acc = last_sig l2 id (last_sig l1 id acc).
Proof. revert acc; induction l1 as [|s l IH]; intros acc; cbn; [done|]. apply IH. Qed.
Lemma last_sig_none l id acc : Forall (fun s => sig_keyid s <> id) l -> last_sig l id acc = acc.
Proof.
  induction 1 as [|s l Hs Hl IH] in acc |- *; cbn; [done|].
  destruct (String.eqb_spec (sig_keyid s) id); [done|]. apply IH.
Qed.
Lemma last_signature_eq sigs id s : last_signature sigs id s -> s = last_sig sigs id "".
Proof.
  intros [(a & x & b & -> & <- & <- & Hb)|[Hn ->]].
  - rewrite last_sig_app; cbn. rewrite last_sig_none by done. by rewrite String.eqb_refl.
  - by rewrite last_sig_none.
Qed.
Lemma last_sig_acc sigs id acc : last_sig sigs id acc = (if decide (Exists (fun s => sig_keyid s = id) sigs) then last_sig sigs id "" else acc).
Proof.
  revert acc; induction sigs as [|s l IH]; intros acc; cbn.
  - destruct (decide _) as [H|]; [by apply Exists_nil in H|done].
  - destruct (String.eqb_spec (sig_keyid s) id) as [E|E].
    + rewrite decide_True; [done|by constructor].
    + rewrite IH. destruct (decide (Exists _ l)) as [H1|H1].
      * rewrite decide_True; [|by right]. done.
      * rewrite decide_False; [done|]. rewrite Exists_cons. tauto.
Qed.
Lemma last_sig_spec sigs id : last_signature sigs id (last_sig sigs id "").
Proof.
  unfold last_signature. induction sigs as [|s l IH]; cbn.
  - right. split; [constructor|done].
  - destruct (decide (Exists (fun s => sig_keyid s = id) l)) as [He|He].
    + rewrite last_sig_acc, decide_True by done. left.
      destruct IH as [(l1 & s' & l2 & -> & ?)|[Hn _]].
      * exists (s :: l1), s', l2. naive_solver.
      * exfalso. apply Exists_exists in He as (x & Hx & ?). rewrite Forall_forall in Hn. by apply (Hn x).
    + rewrite last_sig_acc, decide_False by done.
      assert (Forall (fun s' => sig_keyid s' <> id) l) as Hf.
      { apply Forall_forall. intros x Hx Heq. apply He, Exists_exists. eauto. }
      destruct (String.eqb_spec (sig_keyid s) id) as [E|E].
      * left. exists [], s, l. done.
      * right. split; [by constructor|done].
Qed.

Lemma last_signature_iff sigs id s : last_signature sigs id s <-> s = last_sig sigs id "".
Proof. split; [apply last_signature_eq|]. intros ->. apply last_sig_spec. Qed.

(** ** The verification loop *)
Section Verify.
Context {CR : Crypto}.

Lemma verify_signature_ok pk msg sg b :
  verify_signature pk msg sg = Ok b <-> proper_pk pk /\ b = raw_verify pk msg sg.
Proof.
  unfold verify_signature, proper_pk. destruct pk as [d|d|r|t]; try naive_solver.
  destruct (Nat.eqb_spec (String.length r) 32) as [E|E].
  - split; [intros [= <-]; naive_solver|naive_solver].
  - split; [done|]. intros [H _]. by specialize (H r eq_refl).
Qed.

Context {D : Type} {RD : RoleTy D}.
Implicit Types (keys : gomap (option key)) (dm : metadata D).

Definition good_id keys dm (p : string) (id : string) : bool :=
  match mget keys id with
  | Some (Some k) => match to_public_key k with
                     | Ok pk => raw_verify pk p (last_sig (slist (md_sigs dm)) id "")
                     | _ => false end
  | _ => false
  end.
Lemma good_id_spec keys dm p id :
  good_id keys dm p id = true <-> signed_by keys (slist (md_sigs dm)) p id.
Proof.
  unfold good_id, signed_by, resolves. split.
  - destruct (mget keys id) as [[k|]|] eqn:Hk; [|done..]. destruct (to_public_key k) as [pk| |] eqn:Hp; [|done..].
    intros Hv. apply mget_some in Hk as (m & -> & Hm). eexists pk, _. split_and!; [eauto 10|apply last_sig_spec|done].
  - intros (pk & sg & (m & k & -> & Hm & Hp) & ->%last_signature_iff & Hv). cbn. by rewrite Hm, Hp.
Qed.

Lemma verify_loop_ok keys dm ids acc s :
  ids <> [] ->
  verify_loop keys dm ids acc = Ok s <->
  (forall id, id ∈ ids -> exists pk, resolves keys id pk /\ proper_pk pk) /\ exists p, signing_payload (md_signed dm) = Ok p /\ s = list_to_set (filter (fun id => good_id keys dm p id = true) ids) ∪ acc.
Proof.
  revert acc. induction ids as [|id ids IH]; intros acc Hne; [done|]. clear Hne.
  cbn [verify_loop].
  assert (Hhd : forall pk, resolves keys id pk <-> exists k, mget keys id = Some (Some k) /\ to_public_key k = Ok pk).
  { intros pk. unfold resolves. split.
    - intros (m & k & -> & ? & ?). eauto.
    - intros (k & (m & -> & ?)%mget_some & ?). eauto 10. }
  destruct (mget keys id) as [[k|]|] eqn:Hk.
  2,3: split; [done|intros [Ha _]; destruct (Ha id) as (pk & (? & ? & _)%Hhd & _); [left|done]].
  destruct (to_public_key k) as [pk| |] eqn:Hp; cbn [obind].
  2,3: split; [done|intros [Ha _]; destruct (Ha id) as (pk' & (? & ? & ?)%Hhd & _); [left|congruence]].
  destruct (signing_payload (md_signed dm)) as [p| |] eqn:Hpay; cbn [obind]; [|naive_solver..].
  destruct (verify_signature pk p (last_sig (slist (md_sigs dm)) id "")) as [b| |] eqn:Hv; cbn [obind].
  2,3: (split; [done|]; intros [Ha _]; destruct (Ha id) as (pk' & (? & ? & ?)%Hhd & Hpr); [left|];
        assert (pk' = pk) as -> by congruence;
        assert (verify_signature pk p (last_sig (slist (md_sigs dm)) id "") = Ok _) as Hbad
          by (apply verify_signature_ok; eauto); congruence).
  apply verify_signature_ok in Hv as [Hpr Hb].
  assert (Hg : good_id keys dm p id = b) by (unfold good_id; by rewrite Hk, Hp, Hb).
  destruct ids as [|id' ids'].
  - cbn [verify_loop]. split.
    + intros [= <-]. split.
      * intros ? ->%elem_of_list_singleton. exists pk. split; [apply Hhd; eauto|done].
      * exists p. split; [done|]. rewrite filter_cons, Hg. destruct b; cbn; set_solver.
    + intros [_ (p' & [= <-] & ->)]. f_equal. rewrite filter_cons, Hg. destruct b; cbn; set_solver.
  - rewrite IH by done. split.
    + intros [Ha (p' & [= <-] & ->)]. split.
      * intros i [->|Hi]%elem_of_cons; [|eauto]. exists pk. split; [apply Hhd; eauto|done].
      * exists p. split; [done|]. rewrite (filter_cons _ id), Hg. destruct b; cbn; set_solver.
    + intros [Ha (p' & [= <-] & ->)]. split.
      * intros i Hi. apply Ha. by right.
      * exists p. split; [done|]. rewrite (filter_cons _ id), Hg. destruct b; cbn; set_solver.
Qed.

Lemma threshold_size keys ids thr dm p :
  threshold_signed keys ids thr (slist (md_sigs dm)) p <->
  thr <= Z.of_nat (size (list_to_set (filter (fun id => good_id keys dm p id = true) ids) : gset string)).
Proof.
  set (G := list_to_set (filter (fun id => good_id keys dm p id = true) ids) : gset string).
  assert (HG : forall id, id ∈ G <-> id ∈ ids /\ signed_by keys (slist (md_sigs dm)) p id).
  { intros id. unfold G. rewrite elem_of_list_to_set, elem_of_list_filter, good_id_spec. tauto. }
  unfold threshold_signed. split.
  - intros (good & Hnd & Hgood & Hlen). etrans; [exact Hlen|].
    apply Nat2Z.inj_le. rewrite <- (size_list_to_set (C := gset string) good) by done.
    apply subseteq_size. intros i Hi%elem_of_list_to_set. by apply HG, Hgood.
  - intros Hlen. exists (elements G). split_and!.
    + apply NoDup_elements.
    + intros id Hid%elem_of_elements. by apply HG.
    + done.
Qed.

Lemma verify_delegation_ok (dg : delegation) dm :
  verify_delegation dg dm = Ok tt <->
  accepts (dg_keys dg) (dg_keyids dg) (dg_threshold dg) (slist (md_sigs dm)) (signing_payload (md_signed dm)).
Proof.
  unfold verify_delegation, accepts. destruct dg as [keys ids thr]; cbn [dg_keys dg_keyids dg_threshold].
  destruct ids as [|i ids']; [naive_solver|].
  rewrite obind_ok. split.
  - intros (s & (Ha & p & Hp & ->)%verify_loop_ok & Hs); [|done].
    split_and!; [done|done|]. exists p. split; [done|]. apply threshold_size.
    rewrite union_empty_r_L in Hs. case_match eqn:Hlt; [done|]. apply Z.ltb_ge in Hlt. done.
  - intros (_ & Ha & p & Hp & Ht%threshold_size). eexists. split.
    + apply verify_loop_ok; [done|]. eauto.
    + rewrite union_empty_r_L. case_match eqn:Hlt; [|done]. apply Z.ltb_lt in Hlt. lia.
Qed.
End Verify.

(** ** VerifyDelegate for the two delegator types *)
Section Delegate.
Context {CR : Crypto} {D : Type} {RD : RoleTy D}.
Implicit Types (dm : metadata D).

Lemma verify_delegate_root_ok (m : metadata root_t) name dm :
  verify_delegate m name dm = Ok tt <->
  exists keys ids thr, root_delegates (md_signed m) name keys ids thr /\
    accepts keys ids thr (slist (md_sigs dm)) (signing_payload (md_signed dm)).
Proof.
  unfold verify_delegate. rewrite obind_ok. split.
  - intros (dg & Hd & Hv). apply verify_delegation_ok in Hv. apply root_delegation_spec in Hd. eauto 10.
  - intros (keys & ids & thr & Hd & Ha). exists (mkDelegation keys ids thr).
    split; [by apply root_delegation_spec|by apply verify_delegation_ok].
Qed.
Lemma verify_delegate_targets_ok (m : metadata targets_t) name dm :
  verify_delegate m name dm = Ok tt <->
  exists keys ids thr, targets_delegates (md_signed m) name keys ids thr /\
    accepts keys ids thr (slist (md_sigs dm)) (signing_payload (md_signed dm)).
Proof.
  unfold verify_delegate. rewrite obind_ok. split.
  - intros (dg & Hd & Hv). apply verify_delegation_ok in Hv.
    edestruct (targets_delegation_spec (md_signed m) name dg) as [[Hd' _] _]; [split; [exact Hd|apply Hv]|]. eauto 10.
  - intros (keys & ids & thr & Hd & Ha). exists (mkDelegation keys ids thr).
    edestruct (targets_delegation_spec (md_signed m) name (mkDelegation keys ids thr)) as [_ [Hd' _]]; [split; [exact Hd|apply Ha]|].
    split; [done|by apply verify_delegation_ok].
Qed.

(** the result depends on the signatures only through the last one per listed key ID *)
Lemma verify_loop_ext keys dm dm' ids acc :
  md_signed dm = md_signed dm' ->
  (forall id, id ∈ ids -> last_sig (slist (md_sigs dm)) id "" = last_sig (slist (md_sigs dm')) id "") ->
  verify_loop keys dm ids acc = verify_loop keys dm' ids acc.
Proof.
  intros Hs. revert acc. induction ids as [|id ids IH]; intros acc Hl; cbn [verify_loop]; [done|].
  rewrite Hs, (Hl id) by left.
  destruct (mget keys id) as [[k|]|]; [|done..].
  destruct (to_public_key k); cbn; [|done..]. destruct (signing_payload (md_signed dm')); cbn; [|done..].
  destruct (verify_signature _ _ _); cbn; [|done..]. apply IH. intros i Hi. apply Hl. by right.
Qed.
Lemma verify_delegation_ext (dg : delegation) dm dm' :
  md_signed dm = md_signed dm' ->
  (forall id, id ∈ dg_keyids dg -> last_sig (slist (md_sigs dm)) id "" = last_sig (slist (md_sigs dm')) id "") ->
  verify_delegation dg dm = verify_delegation dg dm'.
Proof.
  intros Hs Hl. unfold verify_delegation. destruct (dg_keyids dg) as [|i ids] eqn:E; [done|].
  by rewrite (verify_loop_ext _ dm dm').
Qed.
Lemma last_sig_filter l id acc : last_sig l id acc = last_sig (filter (fun s => sig_keyid s = id) l) id acc.
Proof.
  revert acc; induction l as [|s l IH]; intros acc; [done|].
  rewrite filter_cons. cbn [last_sig]. destruct (decide (sig_keyid s = id)) as [E|E].
  - cbn [last_sig]. destruct (String.eqb_spec (sig_keyid s) id); [|done]. apply IH.
  - destruct (String.eqb_spec (sig_keyid s) id); [done|]. apply IH.
Qed.

(** ** panics *)
Lemma verify_loop_panic keys dm ids acc :
  signing_payload (md_signed dm) <> Panic ->
  verify_loop keys dm ids acc = Panic <->
  exists l1 id l2, ids = l1 ++ id :: l2 /\
    (forall i, i ∈ l1 -> exists pk, resolves keys i pk /\ proper_pk pk) /\
    (l1 <> [] -> exists p, signing_payload (md_signed dm) = Ok p) /\
    (mget keys id = Some None \/
     exists raw p, resolves keys id (PkEd25519 raw) /\ String.length raw <> 32%nat /\ signing_payload (md_signed dm) = Ok p).
Proof.
  intros Hnp. revert acc. induction ids as [|id ids IH]; intros acc; cbn [verify_loop].
  - split; [done|]. intros ([] & ? & ? & ? & _); done.
  - assert (Hhd : forall pk, resolves keys id pk <-> exists k, mget keys id = Some (Some k) /\ to_public_key k = Ok pk).
    { intros pk. unfold resolves. split.
      - intros (m & k & -> & ? & ?). eauto.
      - intros (k & (m & -> & ?)%mget_some & ?). eauto 10. }
    (* facts about the head from the right-hand side *)
    assert (Hrhs : forall l1 i l2, id :: ids = l1 ++ i :: l2 ->
       (l1 = [] /\ i = id) \/ exists l1', l1 = id :: l1' /\ ids = l1' ++ i :: l2).
    { intros [|a l1] i l2; cbn; intros [= -> ->]; eauto. }
    destruct (mget keys id) as [[k|]|] eqn:Hk.
    2: { split; [|done]. intros _. exists [], id, ids. split_and!; [done|set_solver|done|eauto]. }
    2: { split; [done|]. intros (l1 & i & l2 & Heq & Hl1 & Hp & Hi).
         destruct (Hrhs _ _ _ Heq) as [[-> ->]|(l1' & -> & _)].
         - destruct Hi as [?|(r & p & (? & ? & ?)%Hhd & _)]; congruence.
         - destruct (Hl1 id) as (pk & (? & ? & _)%Hhd & _); [left|done]. }
    destruct (to_public_key k) as [pk| |] eqn:Hpk; cbn [obind].
    2: { split; [done|]. intros (l1 & i & l2 & Heq & Hl1 & Hp & Hi).
         destruct (Hrhs _ _ _ Heq) as [[-> ->]|(l1' & -> & _)].
         - destruct Hi as [?|(r & p & (? & ? & ?)%Hhd & _)]; congruence.
         - destruct (Hl1 id) as (pk & (? & ? & ?)%Hhd & _); [left|congruence]. }
    2: { exfalso. clear -Hpk. unfold to_public_key in Hpk. repeat case_match; done. }
    destruct (signing_payload (md_signed dm)) as [p| |] eqn:Hpay; cbn [obind]; [| |done].
    2: { split; [done|]. intros (l1 & i & l2 & Heq & Hl1 & Hp & Hi).
         destruct (Hrhs _ _ _ Heq) as [[-> ->]|(l1' & -> & _)].
         - destruct Hi as [?|(r & p & _ & _ & ?)]; congruence.
         - destruct Hp; done. }
    destruct (verify_signature pk p (last_sig (slist (md_sigs dm)) id "")) as [b| |] eqn:Hv; cbn [obind].
    + apply verify_signature_ok in Hv as [Hpr Hb]. rewrite IH by done. split.
      * intros (l1 & i & l2 & -> & Hl1 & Hp & Hi). exists (id :: l1), i, l2. split_and!; [done| |eauto|done].
        intros j [->|Hj]%elem_of_cons; [|eauto]. exists pk. split; [apply Hhd; eauto|done].
      * intros (l1 & i & l2 & Heq & Hl1 & Hp & Hi).
        destruct (Hrhs _ _ _ Heq) as [[-> ->]|(l1' & -> & ->)].
        -- destruct Hi as [?|(r & p' & (? & ? & ?)%Hhd & Hr & ?)]; [congruence|].
           assert (pk = PkEd25519 r) as -> by congruence. by specialize (Hpr r eq_refl).
        -- exists l1', i, l2. split_and!; [done| |eauto|done]. intros j Hj. apply Hl1. by right.
    + exfalso. unfold verify_signature in Hv. repeat case_match; done.
    + split; [|done]. intros _. exists [], id, ids. split_and!; [done|set_solver|done|right].
      unfold verify_signature in Hv. destruct pk as [| |r|]; try done.
      destruct (Nat.eqb_spec (String.length r) 32); [done|]. exists r, p. split_and!; [apply Hhd; eauto|done|done].
Qed.
Lemma verify_delegation_no_panic (dg : delegation) dm :
  signing_payload (md_signed dm) <> Panic ->
  (forall id, id ∈ dg_keyids dg -> mget (dg_keys dg) id <> Some None) ->
  (forall id pk, id ∈ dg_keyids dg -> resolves (dg_keys dg) id pk -> proper_pk pk) ->
  verify_delegation dg dm <> Panic.
Proof.
  intros Hp Hn Hpr. unfold verify_delegation. destruct (dg_keyids dg) as [|i ids] eqn:E; [done|].
  destruct (verify_loop _ _ _ _) as [s| |] eqn:Hv; cbn; [by case_match|done|].
  apply verify_loop_panic in Hv as (l1 & id & l2 & Heq & _ & _ & Hi); [|done]. exfalso.
  assert (id ∈ i :: ids) by (rewrite Heq; set_solver).
  destruct Hi as [?|(r & p & Hr & Hlen & _)]; [by eapply Hn|]. apply Hlen. by eapply Hpr.
Qed.
End Delegate.

(** marshalling and canonicalisation never panic *)
Lemma obind_no_panic {A B} (o : outcome A) (f : A -> outcome B) :
  o <> Panic -> (forall a, o = Ok a -> f a <> Panic) -> obind o f <> Panic.
Proof. destruct o; cbn; naive_solver. Qed.
Lemma encode_canonical_no_panic j : encode_canonical j <> Panic.
Proof. unfold encode_canonical. by case_match. Qed.
Lemma enc_time_no_panic t : enc_time t <> Panic.
Proof. unfold enc_time. by case_match. Qed.
Lemma oseq_no_panic {A} (l : list (outcome A)) : Forall (fun o => o <> Panic) l -> oseq l <> Panic.
Proof. induction 1; cbn; [done|]. apply obind_no_panic; [done|]. intros a _. by apply obind_no_panic. Qed.
Class NoPanic (T : Type) `{RoleTy T} := marshal_no_panic : forall x : T, signed_marshal x <> Panic.
Global Instance root_np : NoPanic root_t.
Proof. intros x. cbn. unfold root_marshal. apply obind_no_panic; [apply enc_time_no_panic|done]. Qed.
Global Instance snapshot_np : NoPanic snapshot_t.
Proof. intros x. cbn. unfold snapshot_marshal. apply obind_no_panic; [apply enc_time_no_panic|done]. Qed.
Global Instance timestamp_np : NoPanic timestamp_t.
Proof. intros x. cbn. unfold timestamp_marshal. apply obind_no_panic; [apply enc_time_no_panic|done]. Qed.
Global Instance targets_np : NoPanic targets_t.
Proof.
  intros x. cbn. unfold targets_marshal. apply obind_no_panic; [apply enc_time_no_panic|]. intros e _.
  apply obind_no_panic; [|done]. destruct (tg_delegations x) as [d|]; [|done].
  apply obind_no_panic; [|done]. unfold delegations_marshal. apply obind_no_panic; [|done].
  destruct (d_roles d) as [l|]; [|by case_match].
  apply obind_no_panic; [|done]. apply oseq_no_panic. apply Forall_forall. intros o (r & -> & _)%elem_of_list_fmap.
  unfold delegatedrole_marshal. repeat case_match; done.
Qed.
Lemma signing_payload_no_panic {T} `{NoPanic T} (x : T) : signing_payload x <> Panic.
Proof.
  unfold signing_payload. apply obind_no_panic; [apply marshal_no_panic|]. intros. apply encode_canonical_no_panic.
Qed.

(** ** Signing *)
Section Sign.
Context {CR : Crypto} {D : Type} {RD : RoleTy D}.
Implicit Types (m : metadata D).
Lemma sign_signed s m : md_signed (fst (sign s m)) = md_signed m.
Proof. unfold sign. case_match; done. Qed.
Lemma sign_by_signed l m : md_signed (sign_by l m) = md_signed m.
Proof. revert m; induction l as [|s l IH]; intros m; cbn; [done|]. by rewrite IH, sign_signed. Qed.

(** the two things that a Sign call can do to the signatures *)
Lemma sign_cases s m :
  fst (sign s m) = m \/
  exists id sb payload, signer_keyid s id /\ signing_payload (md_signed m) = Ok payload /\ sg_sign s payload = Ok sb /\
    slist (md_sigs (fst (sign s m))) = slist (md_sigs m) ++ [mkSignature id sb None].
Proof.
  unfold sign. destruct (signing_payload (md_signed m)) as [p| |] eqn:Hp; cbn; [|by left..].
  destruct (sg_sign s p) as [sb| |] eqn:Hs; cbn; [|by left..].
  destruct (sg_public s) as [pk| |] eqn:Hpk; cbn; [|by left..].
  destruct (key_from_public_key pk) as [k| |] eqn:Hk; cbn; [|by left..].
  destruct (key_id k) as [i| |] eqn:Hi; cbn; [|by left..].
  right. exists i, sb, p. split_and!; try done. unfold signer_keyid. eauto.
Qed.
Lemma sign_works s m pk id p :
  working_signer s pk -> signer_keyid s id -> signing_payload (md_signed m) = Ok p ->
  raw_verify pk p (last_sig (slist (md_sigs (fst (sign s m)))) id "") = true.
Proof.
  intros [Hpk Hw] (pk' & k & Hpk' & Hk & Hi) Hp. unfold sign. rewrite Hp. cbn.
  destruct (Hw p) as (sb & -> & Hv). rewrite Hpk' in *. cbn. rewrite Hk. cbn. rewrite Hi. cbn.
  rewrite last_sig_app. cbn. by rewrite String.eqb_refl.
Qed.
Lemma sign_keeps s m pk id p :
  (signer_keyid s id -> working_signer s pk) -> signing_payload (md_signed m) = Ok p ->
  raw_verify pk p (last_sig (slist (md_sigs m)) id "") = true ->
  raw_verify pk p (last_sig (slist (md_sigs (fst (sign s m)))) id "") = true.
Proof.
  intros Hc Hp Hv. destruct (sign_cases s m) as [->|(i & sb & p' & Hi & Hp' & Hs & ->)]; [done|].
  rewrite last_sig_app. cbn. destruct (String.eqb_spec i id) as [->|]; [|done].
  destruct (Hc Hi) as [_ Hw]. destruct (Hw p) as (sb' & Hs' & Hv'). congruence.
Qed.
Lemma sign_by_good l m pk id p :
  signing_payload (md_signed m) = Ok p ->
  (forall s, s ∈ l -> signer_keyid s id -> working_signer s pk) ->
  (raw_verify pk p (last_sig (slist (md_sigs m)) id "") = true \/ exists s, s ∈ l /\ signer_keyid s id) ->
  raw_verify pk p (last_sig (slist (md_sigs (sign_by l m))) id "") = true.
Proof.
  revert m. induction l as [|s l IH]; intros m Hp Hw Hor; cbn.
  - destruct Hor as [?|(s & Hs & _)]; [done|]. by apply elem_of_nil in Hs.
  - apply IH; [by rewrite sign_signed|intros; apply Hw; [by right|done]|].
    destruct Hor as [Hv|(s' & [->|Hs']%elem_of_cons & Hk)].
    + left. apply sign_keeps; [|done..]. apply Hw. left.
    + left. apply sign_works; [|done..]. apply Hw; [left|done].
    + right. eauto.
Qed.

Lemma sign_verify keys ids thr l m p (good : list string) :
  signing_payload (md_signed m) = Ok p ->
  ids <> [] ->
  (forall id, id ∈ ids -> exists pk, resolves keys id pk /\ proper_pk pk) ->
  NoDup good -> thr <= Z.of_nat (List.length good) ->
  (forall id, id ∈ good -> id ∈ ids /\ exists s, s ∈ l /\ signer_keyid s id) ->
  (forall s id pk, s ∈ l -> id ∈ good -> signer_keyid s id -> resolves keys id pk -> working_signer s pk) ->
  accepts keys ids thr (slist (md_sigs (sign_by l m))) (signing_payload (md_signed (sign_by l m))).
Proof.
  intros Hp Hne Hres Hnd Hlen Hg Hw. split; [done|]. split; [done|]. exists p. split; [by rewrite sign_by_signed|].
  exists good. split; [done|]. split; [|done]. intros id Hid. destruct (Hg id Hid) as [Hin Hs].
  split; [done|]. destruct (Hres id Hin) as (pk & Hr & _). eexists pk, _. split; [done|]. split; [apply last_sig_spec|].
  apply sign_by_good; [done| |by right]. intros s Hsl Hk. by apply (Hw s id).
Qed.
End Sign.

(** ** Consequences *)
Section Consequences.
Context {CR : Crypto} {D : Type} {RD : RoleTy D}.
Implicit Types (dm : metadata D).

Lemma accepts_ids_ext keys ids ids' thr sigs payload :
  (forall id, id ∈ ids <-> id ∈ ids') -> accepts keys ids thr sigs payload -> accepts keys ids' thr sigs payload.
Proof.
  intros Hext (Hne & Hres & p & Hp & good & Hnd & Hg & Hlen). split.
  - destruct ids as [|i ids]; [done|]. intros ->. assert (i ∈ []) as Hbad%elem_of_nil; [|done]. apply Hext. left.
  - split; [intros id Hid; apply Hres; by apply Hext|]. exists p. split; [done|]. exists good. split_and!; try done.
    intros id Hid. rewrite <- Hext. auto.
Qed.
Lemma root_delegates_fun x name k1 i1 t1 k2 i2 t2 :
  root_delegates x name k1 i1 t1 -> root_delegates x name k2 i2 t2 -> k1 = k2 /\ i1 = i2 /\ t1 = t2.
Proof.
  intros (r1 & ro1 & H1 & H2 & -> & -> & ->) (r2 & ro2 & H3 & H4 & -> & -> & ->).
  assert (r1 = r2) as -> by congruence. assert (ro1 = ro2) as -> by congruence. done.
Qed.
Lemma targets_delegates_fun x name k1 i1 t1 k2 i2 t2 :
  targets_delegates x name k1 i1 t1 -> targets_delegates x name k2 i2 t2 -> k1 = k2 /\ i1 = i2 /\ t1 = t2.
Proof.
  intros (d1 & H1 & -> & Hc1) (d2 & H2 & -> & Hc2). assert (d1 = d2) as -> by congruence. split; [done|].
  destruct Hc1 as [(a & r & b & Hr & Hf & Hn & -> & ->)|(s & Hr & Hs & -> & ->)];
  destruct Hc2 as [(a' & r' & b' & Hr' & Hf' & Hn' & -> & ->)|(s' & Hr' & Hs' & -> & ->)]; try congruence.
  - assert (find_role (a ++ r :: b) name = Some r) as E1 by (apply find_role_some; eauto).
    assert (find_role (a' ++ r' :: b') name = Some r') as E2 by (apply find_role_some; eauto).
    rewrite Hr in Hr'. injection Hr' as Hr'. rewrite Hr', E2 in E1. by injection E1 as ->.
  - rewrite Hs in Hs'. by injection Hs' as ->.
Qed.
Lemma same_ids_same_success x x' name keys ids ids' thr dm :
  root_delegates (md_signed x) name keys ids thr -> root_delegates (md_signed x') name keys ids' thr ->
  (forall id, id ∈ ids <-> id ∈ ids') ->
  verify_delegate x name dm = Ok tt <-> verify_delegate x' name dm = Ok tt.
Proof.
  intros H1 H2 Hext. rewrite !verify_delegate_root_ok. split.
  - intros (k & i & t & Hd & Ha). destruct (root_delegates_fun _ _ _ _ _ _ _ _ H1 Hd) as (<- & <- & <-).
    do 3 eexists. split; [exact H2|]. by eapply accepts_ids_ext.
  - intros (k & i & t & Hd & Ha). destruct (root_delegates_fun _ _ _ _ _ _ _ _ H2 Hd) as (<- & <- & <-).
    do 3 eexists. split; [exact H1|]. eapply accepts_ids_ext; [|done]. done.
Qed.
Lemma same_ids_same_success_targets x x' name keys ids ids' thr dm :
  targets_delegates (md_signed x) name keys ids thr -> targets_delegates (md_signed x') name keys ids' thr ->
  (forall id, id ∈ ids <-> id ∈ ids') ->
  verify_delegate x name dm = Ok tt <-> verify_delegate x' name dm = Ok tt.
Proof.
  intros H1 H2 Hext. rewrite !verify_delegate_targets_ok. split.
  - intros (k & i & t & Hd & Ha). destruct (targets_delegates_fun _ _ _ _ _ _ _ _ H1 Hd) as (<- & <- & <-).
    do 3 eexists. split; [exact H2|]. by eapply accepts_ids_ext.
  - intros (k & i & t & Hd & Ha). destruct (targets_delegates_fun _ _ _ _ _ _ _ _ H2 Hd) as (<- & <- & <-).
    do 3 eexists. split; [exact H1|]. eapply accepts_ids_ext; [|done]. done.
Qed.
(** at most as many key IDs count as there are different key IDs among the signatures and the listed IDs *)
Lemma accepts_count keys ids thr sigs payload :
  (forall pk p, raw_verify pk p "" = false) ->
  accepts keys ids thr sigs payload ->
  thr <= Z.of_nat (size ((list_to_set ids ∩ list_to_set (map sig_keyid sigs)) : gset string)).
Proof.
  intros Hempty (_ & _ & p & -> & good & Hnd & Hg & Hlen). etrans; [exact Hlen|]. apply Nat2Z.inj_le.
  rewrite <- (size_list_to_set (C := gset string) good) by done.
  apply subseteq_size. intros i Hi%elem_of_list_to_set. destruct (Hg i Hi) as [Hin (pk & sg & _ & Hl & Hv)].
  apply elem_of_intersection. split; [by apply elem_of_list_to_set|]. apply elem_of_list_to_set.
  destruct Hl as [(l1 & s & l2 & -> & <- & _)|[_ ->]].
  - apply elem_of_list_fmap. exists s. split; [done|]. set_solver.
  - by rewrite Hempty in Hv.
Qed.
Lemma accepts_one keys ids thr sigs payload :
  1 <= thr -> accepts keys ids thr sigs payload ->
  exists id p, id ∈ ids /\ payload = Ok p /\ signed_by keys sigs p id.
Proof.
  intros Hthr (_ & _ & p & -> & good & Hnd & Hg & Hlen).
  destruct good as [|i good]; cbn in Hlen; [lia|]. destruct (Hg i) as [? ?]; [left|]. eauto.
Qed.
Lemma accepts_distinct keys ids thr sigs payload :
  (forall i j pk, i ∈ ids -> j ∈ ids -> resolves keys i pk -> resolves keys j pk -> i = j) ->
  accepts keys ids thr sigs payload ->
  exists p (pks : list pubkey), payload = Ok p /\ NoDup pks /\ thr <= Z.of_nat (List.length pks) /\
    forall pk, pk ∈ pks -> exists id sig, id ∈ ids /\ resolves keys id pk /\ last_signature sigs id sig /\ raw_verify pk p sig = true.
Proof.
  intros Hinj (_ & _ & p & -> & good & Hnd & Hg & Hlen). exists p.
  assert (exists pks, List.length pks = List.length good /\ NoDup pks /\
     forall pk, pk ∈ pks -> exists id sig, id ∈ good /\ resolves keys id pk /\ last_signature sigs id sig /\ raw_verify pk p sig = true) as (pks & Hl & Hn & Hp).
  { clear Hlen. induction good as [|i good IH].
    - exists []. split_and!; [done|constructor|]. intros pk Hpk. by apply elem_of_nil in Hpk.
    - apply NoDup_cons in Hnd as [Hni Hnd]. destruct IH as (pks & Hl & Hn & Hp); [done|intros; apply Hg; by right|].
      destruct (Hg i) as [Hii (pk & sg & Hr & Hs & Hv)]; [left|].
      exists (pk :: pks). split_and!; [cbn; by rewrite Hl| |].
      + apply NoDup_cons. split; [|done]. intros Hpk. destruct (Hp _ Hpk) as (j & sg' & Hj & Hr' & _).
        apply Hni. replace i with j; [done|]. eapply Hinj; [|done|done|done]. apply Hg. by right.
      + intros pk' [->|Hpk']%elem_of_cons.
        * exists i, sg. split_and!; try done. left.
        * destruct (Hp _ Hpk') as (j & sg' & Hj & ?). exists j, sg'. split; [by right|done]. }
  exists pks. split_and!; try done; [by rewrite Hl|]. intros pk Hpk. destruct (Hp pk Hpk) as (id & sg & Hid & ?).
  exists id, sg. split; [by apply Hg|done].
Qed.
Lemma threshold_not_met keys ids thr dm p :
  ids <> [] -> (forall id, id ∈ ids -> exists pk, resolves keys id pk /\ proper_pk pk) ->
  signing_payload (md_signed dm) = Ok p -> ~ threshold_signed keys ids thr (slist (md_sigs dm)) p ->
  exists msg, verify_delegation (mkDelegation keys ids thr) dm = Err (ErrUnsignedMetadata msg).
Proof.
  intros Hne Hres Hp Hn. unfold verify_delegation. cbn [dg_keys dg_keyids dg_threshold].
  destruct ids as [|i ids]; [done|].
  rewrite (proj2 (verify_loop_ok keys dm (i :: ids) ∅ _ Hne) (conj Hres (ex_intro _ p (conj Hp eq_refl)))).
  cbn [obind]. rewrite union_empty_r_L. case_match eqn:Hlt; [eauto|].
  exfalso. apply Hn, threshold_size. by apply Z.ltb_ge in Hlt.
Qed.
End Consequences.
