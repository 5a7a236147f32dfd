(** * Which keys the root metadata of examples/repository lists for which roles (C111) *)
From stdpp Require Import base gmap strings list.
From Coq Require Import ZArith Lia Ascii String.
From Verif Require Import GoBase GoStr Json GoTime Types Marshal Keys Metadata TrustedMetadata Fetcher Updater Files Cli ExampleClients ExampleRepos
  StrProofs SpecUtf8 SpecText SpecSerial SpecRound RoundBase SpecDeleg SpecBasic BasicProofs SpecSig SigProofs SpecKeys KeysProofs SpecTrusted SpecPublish PublishProofs PlainProofs FilesProofs SpecUpdater SpecReach HonestProofs PropertiesReach TrustedProofs PathProofs SpecRepos ReposProofs ServedProofs GenerateProofs RunsProofs.
Open Scope Z_scope.

Section Teams.
Context {CR : Crypto} (key : string -> signer) (all : list string) (Hpem : pem_round_trip) (Hwork : keys_work key all).
Definition kpk (n : string) : pubkey := match sg_public (key n) with Ok p => p | _ => PkOther "" end.
Definition kid (n : string) : string := match public_part (key n) with Ok k => match key_id k with Ok i => i | _ => "" end | _ => "" end.
Lemma key_facts n : n ∈ all -> exists k, public_part (key n) = Ok k /\ key_from_public_key (kpk n) = Ok k /\ key_id k = Ok (kid n) /\ to_public_key k = Ok (kpk n) /\ working_signer (key n) (kpk n) /\ proper_pk (kpk n) /\ signer_keyid (key n) (kid n).
Proof.
  intros Hn. destruct Hwork as [Hw _]. destruct (Hw n Hn) as (p & id & W1 & W2 & p' & k & K1 & K2 & K3). pose proof W1 as [W3 _]. rewrite K1 in W3. injection W3 as ->. exists k.
  assert (kpk n = p) as Ep by (unfold kpk; by rewrite K1). assert (public_part (key n) = Ok k) as Epp by (unfold public_part; by rewrite K1). assert (kid n = id) as Ei by (unfold kid; by rewrite Epp, K3). rewrite Ep, Ei.
  split; [done|]. split; [done|]. split; [done|]. split; [by apply public_key_round_trip|]. split; [done|]. split; [done|]. by exists p, k.
Qed.
Lemma kid_inj n n' : n ∈ all -> n' ∈ all -> kid n = kid n' -> n = n'.
Proof. intros H1 H2 H. destruct (key_facts n H1) as (k & _ & _ & _ & _ & _ & _ & K), (key_facts n' H2) as (k' & _ & _ & _ & _ & _ & _ & K'). destruct Hwork as [_ Hd]. rewrite H in K. by apply (Hd n n' (kid n')). Qed.
(** role [n] of [x] has the keys [ks] and the threshold [thr] *)
Definition team_of (x : root_t) (n : string) (ks : list string) (thr : Z) : Prop :=
  (forall k, k ∈ ks -> k ∈ all) /\ exists r, root_role x n r /\ ids_of r = map kid ks /\ r_threshold r = thr /\ forall k, k ∈ ks -> resolves (rt_keys x) (kid k) (kpk k).
Lemma kids_in k ks : k ∈ all -> (forall k, k ∈ ks -> k ∈ all) -> kid k ∈ map kid ks <-> k ∈ ks.
Proof. intros Hk Hks. rewrite elem_of_list_In, in_map_iff. setoid_rewrite <- elem_of_list_In. split; [|intros H; by exists k]. intros (k' & He & Hk'). assert (k' = k) as -> by (apply kid_inj; [by apply Hks|done|done]). done. Qed.

Lemma team_add x k n y ks thr : k ∈ all -> add_public (key k) n x = Ok y -> team_of x n ks thr -> team_of y n (if decide (k ∈ ks) then ks else ks ++ [k]) thr /\ forall n' ks' thr', n' <> n -> team_of x n' ks' thr' -> team_of y n' ks' thr'.
Proof.
  intros Hk H (Ha & r & Hr & Hids & Ht & Hres). destruct (key_facts k Hk) as (kk & K1 & K2 & K3 & K4 & _). unfold add_public in H. rewrite K1 in H. cbn [obind] in H.
  apply root_add_key_spec in H as (r0 & r' & i & Hr0 & Hi & _ & (m & Hm & Hm') & Hr' & (Hi1 & Hi2 & _) & _ & Ho). rewrite K3 in Hi. injection Hi as <-. rewrite root_role_mget in Hr, Hr0. rewrite Hr in Hr0. injection Hr0 as <-.
  assert (forall j, j ∈ all -> resolves (rt_keys x) (kid j) (kpk j) -> resolves (rt_keys y) (kid j) (kpk j)) as Hkeep.
  { intros j Hj (m0 & k0 & Q1 & Q2 & Q3). rewrite Hm in Q1. injection Q1 as <-. destruct (decide (k = j)) as [<-|Hne].
    - eexists. exists (with_cached_id kk (kid k)). split; [exact Hm'|]. split; [apply lookup_insert|done].
    - eexists. exists k0. split; [exact Hm'|]. split; [|done]. rewrite lookup_insert_ne; [done|]. intros Hx. apply Hne. by apply kid_inj. }
  assert (resolves (rt_keys y) (kid k) (kpk k)) as Hnew by (eexists; exists (with_cached_id kk (kid k)); split; [exact Hm'|]; split; [apply lookup_insert|done]).
  split.
  - split; [intros j; case_decide; [apply Ha|]; intros [Hj|Hj]%elem_of_app; [by apply Ha|by apply elem_of_list_singleton in Hj as ->]|]. exists r'. split; [done|]. split; [|split; [by rewrite Hi2|]].
    + rewrite Hi1, Hids. unfold with_id. destruct (decide (k ∈ ks)) as [Hin|Hin]; [rewrite decide_True; [done|by apply kids_in]|]. rewrite decide_False; [by rewrite map_app|]. by rewrite kids_in.
    + intros j Hj. destruct (decide (j = k)) as [->|Hne]; [done|]. assert (j ∈ ks) as Hj' by (case_decide; [done|]; by apply elem_of_app in Hj as [?|?%elem_of_list_singleton]). apply Hkeep; [by apply Ha|by apply Hres].
  - intros n' ks' thr' Hn (Ha' & r1 & Q1 & Q2 & Q3 & Q4). split; [done|]. exists r1. split; [|split; [done|split; [done|]]].
    + rewrite root_role_mget in *. by rewrite Ho.
    + intros j Hj. apply Hkeep; [by apply Ha'|by apply Q4].
Qed.
Lemma id_used (y : root_t) (id : string) : (exists n' r'', root_role y n' r'' /\ id ∈ ids_of r'') \/ ~ (exists n' r'', root_role y n' r'' /\ id ∈ ids_of r'').
Proof.
  pose (Q := fun (n : string) (o : option role) => match o with Some r => id ∈ ids_of r | None => False end).
  assert (forall n o, Decision (Q n o)) as HQ by (intros n [r|]; cbn; apply _).
  destruct (rt_roles y) as [m|] eqn:Em.
  - destruct (decide (map_Exists Q m)) as [(n & o & H1 & H2)|Hno].
    + left. destruct o as [r|]; [|done]. exists n, r. split; [|done]. rewrite root_role_mget, Em. exact H1.
    + right. intros (n & r & H1 & H2). apply Hno. exists n, (Some r). split; [|done]. rewrite root_role_mget, Em in H1. exact H1.
  - right. intros (n & r & H1 & _). rewrite root_role_mget, Em in H1. done.
Qed.
Lemma team_revoke x k n y ks thr : (forall n, mget (rt_roles x) n <> Some None) -> k ∈ all -> root_revoke_key x (kid k) n = Ok y -> team_of x n ks thr -> team_of y n (filter (fun j => j <> k) ks) thr /\ forall n' ks' thr', n' <> n -> team_of x n' ks' thr' -> team_of y n' ks' thr'.
Proof.
  intros Hnn Hk H (Ha & r & Hr & Hids & Ht & Hres). apply root_revoke_key_spec in H as (r0 & r' & Hr0 & Hin & _ & Hr' & (Hi1 & Hi2 & _) & _ & Ho & T1 & T2); [|exact Hnn]. rewrite root_role_mget in Hr, Hr0. rewrite Hr in Hr0. injection Hr0 as <-.
  assert (ids_of r' = map kid (filter (fun j => j <> k) ks)) as Hids'.
  { rewrite Hi1, Hids. unfold without_id. clear -Ha Hk Hwork Hpem. induction ks as [|j ks IH]; [done|]. cbn [map]. assert (j ∈ all) as Hj by (apply Ha; left). rewrite !filter_cons. rewrite IH by (intros l Hl; apply Ha; by right).
    destruct (decide (j <> k)) as [Hne|Hne]; [rewrite decide_True; [done|]; intros Hx; apply Hne; by apply kid_inj|]. rewrite decide_False; [done|]. intros Hx. apply Hne. intros ->. by apply Hx. }
  assert (forall n0 r1 ks0, root_role y n0 r1 -> ids_of r1 = map kid ks0 -> (forall j, j ∈ ks0 -> j ∈ all) -> forall j, j ∈ ks0 -> resolves (rt_keys x) (kid j) (kpk j) -> resolves (rt_keys y) (kid j) (kpk j)) as Hkeep.
  { intros n0 r1 ks0 Q1 Q2 Q3 j Hj Hx. destruct (id_used y (kid k)) as [Hu|Hu].
    - by rewrite (T1 Hu).
    - destruct (T2 Hu) as (N & _ & Hother). assert (j <> k) as Hne by (intros ->; apply Hu; exists n0, r1; split; [done|]; rewrite Q2; by apply kids_in).
      assert (kid j <> kid k) as Hkne by (intros He; apply Hne; apply kid_inj; [by apply Q3|done|done]). destruct Hx as (m0 & k0 & X1 & X2 & X3). specialize (Hother (kid j) Hkne). rewrite X1 in Hother. cbn in Hother. rewrite X2 in Hother.
      destruct (rt_keys y) as [m1|]; [|done]. by exists m1, k0. }
  split.
  - split; [intros j [_ Hj]%elem_of_list_filter; by apply Ha|]. exists r'. split; [done|]. split; [done|]. split; [by rewrite Hi2|]. intros j Hj. eapply (Hkeep n r' _ Hr' Hids'); [|done|]; [intros l [_ Hl]%elem_of_list_filter; by apply Ha|]. apply elem_of_list_filter in Hj as [_ Hj]. by apply Hres.
  - intros n' ks' thr' Hn (Ha' & r1 & Q1 & Q2 & Q3 & Q4). assert (root_role y n' r1) as Q5 by (rewrite root_role_mget in *; by rewrite Ho). split; [done|]. exists r1. split; [done|]. split; [done|]. split; [done|]. intros j Hj. eapply (Hkeep n' r1 ks'); [done|done|done|done|by apply Q4].
Qed.

(** ** Steps on root objects *)
Context (Htext : text_keys key).
Definition ready (x : root_t) : Prop := plain_root x /\ exists m, rt_keys x = Some m.
Lemma ready_new e : time_ok e -> ready (md_signed (Root e)).
Proof. intros He. split; [by apply plain_root_new|by eexists]. Qed.
Lemma team_new e n : n ∈ ["root"; "snapshot"; "targets"; "timestamp"] -> team_of (md_signed (Root e)) n [] 1.
Proof.
  intros Hn. split; [by intros k ?%elem_of_nil|]. exists new_role. split; [|split; [done|split; [done|by intros k ?%elem_of_nil]]]. rewrite root_role_mget.
  rewrite !elem_of_cons, elem_of_nil in Hn. repeat destruct Hn as [->|Hn]; done.
Qed.
Lemma add_run x k n ks thr : k ∈ all -> k ∉ ks -> ready x -> team_of x n ks thr ->
  exists y, add_public (key k) n x = Ok y /\ ready y /\ same_header x y /\ team_of y n (ks ++ [k]) thr /\ forall n' ks' thr', n' <> n -> team_of x n' ks' thr' -> team_of y n' ks' thr'.
Proof.
  intros Hk Hni [Hp [m Hm]] Ht. destruct (key_facts k Hk) as (kk & K1 & K2 & K3 & K4 & _). pose proof Ht as (_ & r & Hr & _). apply root_role_mget in Hr.
  assert (exists y, add_public (key k) n x = Ok y) as [y Hy] by (unfold add_public; rewrite K1; cbn [obind]; unfold root_add_key; rewrite Hr, K3; cbn [obind]; rewrite Hm; cbn [mset obind]; by eexists).
  exists y. split; [done|]. destruct (add_public_ok key k (key k) x y Htext eq_refl n Hy Hp) as [Hpy Hh]. destruct (team_add x k n y ks thr Hk Hy Ht) as [Ht' Ho]. rewrite decide_False in Ht' by done.
  split; [split; [done|]|split; [done|split; done]]. destruct Ht' as (_ & r' & _ & _ & _ & Hres). destruct (Hres k) as (m' & _ & Hm' & _); [apply elem_of_app; right; by left|]. by exists m'.
Qed.
Lemma revoke_run x k n ks thr : k ∈ ks -> (exists j, j ∈ ks /\ j <> k) -> ready x -> team_of x n ks thr ->
  exists y, root_revoke_key x (kid k) n = Ok y /\ ready y /\ same_header x y /\ team_of y n (filter (fun j => j <> k) ks) thr /\ forall n' ks' thr', n' <> n -> team_of x n' ks' thr' -> team_of y n' ks' thr'.
Proof.
  intros Hk (j & Hj & Hjk) [Hp [m Hm]] Ht. pose proof Ht as (Ha & r & Hr & Hids & _). apply root_role_mget in Hr. pose proof Hp as (_ & _ & _ & Hnn).
  assert (exists y, root_revoke_key x (kid k) n = Ok y) as [y Hy].
  { unfold root_revoke_key. rewrite Hr. change (slist (r_keyids r)) with (ids_of r). rewrite Hids, decide_True by (apply kids_in; [by apply Ha|done|done]).
    destruct (used_by_roles_total (kid k) (map_to_list (<[n := Some (with_keyids r (remove_id (kid k) (r_keyids r)))]> (mmap (rt_roles x))))) as [b ->]; [|cbn [obind]; by eexists].
    intros n' o Hin%elem_of_map_to_list Ho. subst o. apply lookup_insert_Some in Hin as [[_ ?]|[_ Hin]]; [done|]. apply (Hnn n'). destruct (rt_roles x); done. }
  exists y. split; [done|]. destruct (team_revoke x k n y ks thr Hnn (Ha k Hk) Hy Ht) as [Ht' Ho]. pose proof Hy as (_ & _ & _ & _ & Hh & _)%root_revoke_key_spec; [|exact Hnn].
  split; [split; [by eapply plain_root_revoke|]|split; [done|split; done]]. destruct Ht' as (_ & r' & _ & _ & _ & Hres). destruct (Hres j) as (m' & _ & Hm' & _); [by apply elem_of_list_filter|]. by exists m'.
Qed.
Lemma threshold_run x n v ks thr : int_ok v -> ready x -> team_of x n ks thr ->
  exists y, set_threshold n v x = Ok y /\ ready y /\ same_header x y /\ team_of y n ks v /\ forall n' ks' thr', n' <> n -> team_of x n' ks' thr' -> team_of y n' ks' thr'.
Proof.
  intros Hv [Hp Hm] (Ha & r & Hr & Hids & Ht & Hres). apply root_role_mget in Hr. unfold set_threshold. rewrite Hr. eexists. split; [reflexivity|].
  assert (exists mm, rt_roles x = Some mm) as [mm Hmm] by (destruct (rt_roles x) as [mm|]; [by exists mm|done]).
  split; [split; [|exact Hm]|split; [done|split]].
  - pose proof Hp as ((_ & _ & _ & _ & _ & H6 & _) & _). destruct (H6 n (Some r) Hr) as [_ Hrw]. destruct (Hrw r eq_refl) as (R1 & R2 & _). apply (plain_root_roles x n r); done.
  - split; [done|]. eexists. split; [rewrite root_role_mget; cbn; by rewrite lookup_insert|]. done.
  - intros n' ks' thr' Hn (Ha' & r' & Q1 & Q2 & Q3 & Q4). split; [done|]. exists r'. split; [|done]. rewrite root_role_mget in *. cbn. rewrite lookup_insert_ne by done. rewrite Hmm in *. done.
Qed.
Lemma version_ready v x : int_ok v -> ready x -> ready (set_root_version v x).
Proof. intros Hv [((H1 & H2 & H3 & H4 & H5 & H6 & H7) & Hb & Ht & Hnn) Hm]. split; [|done]. split; [|done]. split; [done|]. split; [done|]. split; [done|]. done. Qed.
Lemma version_team v x n ks thr : team_of x n ks thr -> team_of (set_root_version v x) n ks thr.
Proof. done. Qed.
Lemma kept_ready x : ready x -> ready (root_kept x).
Proof. intros [Hp [m Hm]]. split; [by apply plain_root_kept|]. cbn [root_kept rt_keys]. rewrite Hm. by eexists. Qed.
Lemma kept_team x n ks thr : team_of x n ks thr -> team_of (root_kept x) n ks thr.
Proof.
  intros (Ha & r & Hr & Hids & Ht & Hres). split; [done|]. exists (role_kept r). split; [|split; [done|split; [done|]]].
  - rewrite root_role_mget in *. cbn [root_kept rt_roles]. destruct (rt_roles x) as [m|]; [|done]. cbn in *. by rewrite lookup_fmap, Hr.
  - intros k Hk. destruct (Hres k Hk) as (m & kk & H1 & H2 & H3). exists (option_map key_kept <$> m), (key_kept kk). cbn [root_kept rt_keys]. rewrite H1. split; [done|]. split; [by rewrite lookup_fmap, H2|]. exact H3.
Qed.

(** ** What the keys of a role sign is accepted *)
Lemma team_signs_all {D} {RD : RoleTy D} (rm : metadata root_t) n ks thr S good (dm : metadata D) : team_of (md_signed rm) n ks thr -> ks <> [] -> (forall k, k ∈ S -> k ∈ all) -> NoDup good -> (forall k, k ∈ good -> k ∈ ks /\ k ∈ S) -> thr <= Z.of_nat (List.length good) ->
  bare_signed (md_signed dm) -> root_signs rm n (sign_by (map key S) dm).
Proof.
  intros (Ha & r & (m & Hm & Hmr) & Hids & Ht & Hres) Hne HS Hnd Hg Hlen Hb. destruct (bare_payload _ Hb) as [p Hp]. exists (rt_keys (md_signed rm)), (ids_of r), thr. split; [exists m, r; by split_and!|].
  apply (sign_verify _ _ _ (map key S) dm p (map kid good)); [done| | | |by rewrite map_length| |].
  - rewrite Hids. by destruct ks.
  - intros id. rewrite Hids. intros Hid. apply elem_of_list_In, in_map_iff in Hid as (k & <- & Hk%elem_of_list_In). exists (kpk k). split; [by apply Hres|]. by destruct (key_facts k (Ha k Hk)) as (_ & _ & _ & _ & _ & _ & ? & _).
  - assert (forall k, k ∈ good -> k ∈ all) as Hga by (intros k Hk; apply Ha, (Hg k Hk)). clear -Hnd Hga Hwork Hpem. induction Hnd as [|k good Hk Hnd IH]; [constructor|]. cbn [map]. apply NoDup_cons. split; [|apply IH; intros j Hj; apply Hga; by right].
    rewrite kids_in; [done|apply Hga; left|intros j Hj; apply Hga; by right].
  - intros id Hid. apply elem_of_list_In, in_map_iff in Hid as (k & <- & Hk%elem_of_list_In). destruct (Hg k Hk) as [H1 H2]. split; [rewrite Hids; by apply kids_in; [apply Ha|..]|]. exists (key k). split; [apply elem_of_list_In, in_map; by apply elem_of_list_In|].
    by destruct (key_facts k (Ha k H1)) as (_ & _ & _ & _ & _ & _ & _ & ?).
  - intros s id pk Hs Hid Hsk Hr'. apply elem_of_list_In, in_map_iff in Hs as (j & <- & Hj%elem_of_list_In). apply elem_of_list_In, in_map_iff in Hid as (k & <- & Hk%elem_of_list_In). destruct (Hg k Hk) as [H1 _].
    destruct (key_facts j (HS j Hj)) as (_ & _ & _ & _ & _ & W & _ & K). pose proof (signer_keyid_fun _ _ _ Hsk K) as He. apply kid_inj in He as <-; [|by apply Ha|by apply HS]. by rewrite (resolves_fun _ _ _ _ Hr' (Hres k H1)).
Qed.
Lemma sign_all_run {T} {RT : RoleTy T} l (m : metadata T) : (forall k, k ∈ l -> k ∈ all) -> bare_signed (md_signed m) -> signed_with_all (map key l) m = Ok (sign_by (map key l) m).
Proof.
  revert m. induction l as [|k l IH]; intros m Hl Hb; [done|]. cbn [map signed_with_all]. rewrite (sign_by_run key all k m Hwork) by (done || (apply Hl; left)). cbn [obind sign_by]. rewrite IH; [done|intros j Hj; apply Hl; by right|].
  pose proof (sign_by_signed [key k] m) as He. cbn [sign_by] in He. by rewrite He.
Qed.
(** signatures by different keys *)
Lemma signed_writable {T} {RT : RoleTy T} {SS : SignedSpec T} l (m : metadata T) : (forall k, k ∈ l -> k ∈ all) -> NoDup l -> signed_wf (md_signed m) -> signed_type (md_signed m) = role_name -> bare_signed (md_signed m) -> no_extra (md_unrec m) ->
  Forall (fun s => no_extra (sig_unrec s)) (slist (md_sigs m)) -> (exists ks, map sig_keyid (slist (md_sigs m)) = map kid ks /\ NoDup (ks ++ l) /\ forall k, k ∈ ks -> k ∈ all) -> writable (sign_by (map key l) m).
Proof.
  intros Hl Hnd Hw Ht Hb Hu Hs (ks & Hks & Hndk & Hka). destruct (sign_by_sigs (map key l) (map kid l) m (bare_payload _ Hb)) as (Hu' & sigs & Hsg & Hm & Hun).
  { clear -Hl Hwork Hpem. induction l as [|k l IH]; [constructor|]. cbn [map]. constructor; [|apply IH; intros j Hj; apply Hl; by right]. destruct (key_facts k) as (_ & _ & _ & _ & _ & W & _ & K); [apply Hl; left|]. split; [by exists (kpk k)|done]. }
  assert (map sig_keyid (slist (md_sigs (sign_by (map key l) m))) = map kid (ks ++ l)) as Hall by (rewrite Hsg, map_app, Hks, Hm; by rewrite map_app).
  assert (forall k, k ∈ ks ++ l -> k ∈ all) as Hina by (intros k [?|?]%elem_of_app; [by apply Hka|by apply Hl]).
  apply bare_writable; rewrite ?sign_by_signed; try done.
  - apply Forall_and. split.
    + rewrite Hsg. apply Forall_app. split; [done|]. eapply Forall_impl; [exact Hun|]. intros s Hx. by rewrite Hx.
    + apply Forall_forall. intros s Hs'. assert (sig_keyid s ∈ map kid (ks ++ l)) as Hin by (rewrite <- Hall; apply elem_of_list_In, in_map; by apply elem_of_list_In). apply elem_of_list_In, in_map_iff in Hin as (k & <- & Hk%elem_of_list_In).
      destruct (key_facts k (Hina k Hk)) as (_ & _ & _ & _ & _ & _ & _ & K). apply (signer_id_text _ _ K).
  - rewrite Hall. clear -Hndk Hina Hwork Hpem. induction Hndk as [|k l' Hk Hnd IH]; [constructor|]. cbn [map]. apply NoDup_cons. split; [|apply IH; intros j Hj; apply Hina; by right].
    rewrite kids_in; [done|apply Hina; left|intros j Hj; apply Hina; by right].
  - by rewrite Hu'.
Qed.
End Teams.
