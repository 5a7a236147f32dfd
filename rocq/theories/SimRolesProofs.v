(** * Proofs for C119: delegations of the simulator *)
From stdpp Require Import base gmap strings list.
From Coq Require Import ZArith Lia Ascii String.
From Verif Require Import GoBase GoStr Json GoTime Types Marshal Keys Metadata TrustedMetadata Fetcher Updater Files Cli ExampleClients ExampleRepos Simulator
  StrProofs SpecUtf8 SpecText SpecSerial JsonProofs SerialProofs SpecRound RoundBase RoundProofs RoundStructs CanonProofs RoundKept LoadBase LoadProofs
  SpecDeleg DelegProofs SpecBasic BasicProofs SpecSig SigProofs SpecKeys KeysProofs SpecTrusted SpecPublish PublishProofs PlainProofs FilesProofs SpecUpdater SpecReach HonestProofs ReachProofs PropertiesReach PropertiesCache TrustedProofs PathProofs SpecRepos ReposProofs ServedProofs GenerateProofs RunsProofs TeamsProofs SpecSimulator SimulatorProofs SpecSimRoles.
Open Scope Z_scope.

(** ** A search through roles without delegations *)
Section Leaves.
Context {CR : Crypto} (t : trusted) (path : string).
Lemma search_none seen l v : search t path seen [] l v -> l = [] /\ (v = Exhausted \/ v = OutOfBudget).
Proof. inversion 1; subst; split; auto. Qed.
Lemma leaf_children m names term : tg_delegations (md_signed m) = None -> children m path names term -> names = [] /\ term = false.
Proof.
  intros Hd (order & _ & Hin & H). assert (order = []) as ->.
  { destruct order as [|[n b] order]; [done|]. destruct (proj1 (Hin n b)) as (d & Hd' & _); [left|]. by rewrite Hd in Hd'. }
  destruct H as [(-> & -> & _)|(_ & pre & n & post & H & _)]; [done|]. by destruct pre.
Qed.
Lemma leaf_search names : forall seen l v, (forall n, n ∈ names -> n ∉ seen /\ exists m, t_targets t !! n = Some m /\ tg_delegations (md_signed m) = None) -> NoDup names -> search t path seen names l v ->
  (exists o n m, v = Found o /\ n ∈ names /\ t_targets t !! n = Some m /\ entry m path o) \/ v = Failed \/
  ((v = Exhausted \/ v = OutOfBudget) /\ (forall n m o, n ∈ l -> t_targets t !! n = Some m -> ~ entry m path o) /\ exists rest, names = l ++ rest /\ (v = Exhausted -> rest = [])).
Proof.
  induction names as [|r names IH]; intros seen l v Hn Hnd Hs.
  - apply search_none in Hs as [-> Hv]. right. right. split; [exact Hv|]. split; [by intros n m o ?%elem_of_nil|]. by exists [].
  - destruct (Hn r ltac:(left)) as (Hr & m & Hm & Hdel). apply NoDup_cons in Hnd as [Hrn Hnd]. inversion Hs as [|? ?|? ? ? ? ? Hx|? ? ?|? ? ? m' o Hx Hm' He|? ? ? m' ns term l' v' Hx Hm' Hno Hch Hs1 Hv|? ? ? m' ns l' Hx Hm' Hno Hch Hs1|? ? ? m' ns l1 l2 v' Hx Hm' Hno Hch Hs1 Hs2]; subst.
    + right. right. split; [by right|]. split; [by intros n m0 o ?%elem_of_nil|]. by exists (r :: names).
    + done.
    + right. by left.
    + left. exists o, r, m'. split; [done|]. split; [left|done].
    + rewrite Hm in Hm'. injection Hm' as <-. apply leaf_children in Hch as [-> ->]; [|done]. apply search_none in Hs1 as [-> [->| ->]]; [done|]. right. right. split; [by right|]. split; [|by exists names]. intros n m0 o ->%elem_of_list_singleton Hm0 He. rewrite Hm in Hm0. injection Hm0 as <-. by apply (Hno o).
    + rewrite Hm in Hm'. injection Hm' as <-. by apply leaf_children in Hch as [_ ?].
    + rewrite Hm in Hm'. injection Hm' as <-. apply leaf_children in Hch as [-> _]; [|done]. apply search_none in Hs1 as [-> _]. cbn [app] in Hs2 |- *.
      destruct (IH (r :: seen) l2 v) as [(o & n & m0 & H1 & H2 & H3)|[H|(H1 & H2 & rest & -> & H3)]]; [|done|exact Hs2| | |].
      * intros n Hin. destruct (Hn n ltac:(by right)) as [H1 H2]. split; [|done]. intros [->|?]%elem_of_cons; done.
      * left. exists o, n, m0. split; [done|]. split; [by right|done].
      * right. by left.
      * right. right. split; [done|]. split; [|by exists rest]. intros n m0 o [->|Hin]%elem_of_cons Hm0; [|exact (H2 n m0 o Hin Hm0)]. rewrite Hm in Hm0. injection Hm0 as <-. apply Hno.
Qed.
End Leaves.

Section Roles.
Context {CR : Crypto} (E : env) (key : string -> signer) (N : nat).
Context (Hpem : pem_round_trip) (Hwork : keys_work key (names N)) (Htext : text_keys key).
Notation kid := (kid key).
Notation kpk := (kpk key).
Notation names := (names N).

(** ** Adding a delegation *)
(** a delegated role, its content, and the name of its key *)
Definition given : Type := delegatedrole * targets_t * string.
Definition grant (x : given) : delegatedrole := with_dr_keyids x.1.1 (Some [kid x.2]).
Definition name_of (x : given) : string := dr_name x.1.1.
Definition md_of (x : given) : metadata targets_t := mkMetadata x.1.2 None (Some ∅).
Definition dels (S : sim) : delegations := default no_delegations (tg_delegations (md_signed (sm_targets S))).
Definition deleg (S : sim) (l : list given) : Prop :=
  (d_succinct (dels S) = None /\ d_roles (dels S) = Some (map grant l) /\ (exists m, d_keys (dels S) = Some m) /\ delegations_wf (dels S) /\ bare_delegations (dels S) /\ forall x, x ∈ l -> resolves (d_keys (dels S)) (kid x.2) (kpk x.2)) /\
  (forall x, x ∈ l -> x.2 ∈ names /\ fresh_role x.1.1 /\ leaf_content x.1.2 /\ sm_signers S !! name_of x = Some {[kid x.2 := key x.2]} /\ sm_delegates S !! name_of x = Some (md_of x)) /\
  (forall n m, sm_delegates S !! n = Some m -> exists x, x ∈ l /\ name_of x = n /\ m = md_of x) /\
  (forall n, n ∉ top_level_roles -> n ∉ map name_of l -> sm_signers S !! n = None) /\ NoDup (map name_of l).
Lemma leaf_plain x : leaf_content x -> plain_targets x.
Proof. intros (H1 & H2 & H3 & H4 & H5). split; [done|]. split; [|done]. split; [done|]. split; [done|]. rewrite H5. by intros d [=]. Qed.
Lemma add_last i r pre : (forall r', r' ∈ pre -> dr_name r' <> dr_name r) -> i ∉ slist (dr_keyids r) -> add_to_first i (dr_name r) (pre ++ [r]) = (pre ++ [with_dr_keyids r (Some (slist (dr_keyids r) ++ [i]))], true, true).
Proof.
  intros Hp Hi. induction pre as [|r' pre IH]; cbn [app add_to_first].
  - rewrite String.eqb_refl, decide_False by done. done.
  - rewrite (proj2 (String.eqb_neq _ _)) by (apply Hp; left). rewrite IH by (intros r0 Hr0; apply Hp; by right). done.
Qed.
Lemma public_wf n k i : n ∈ names -> public_part (key n) = Ok k -> key_wf (key_cache i k) /\ bare_key (key_cache i k).
Proof.
  intros Hn Hk. destruct (key_facts key names Hpem Hwork n Hn) as (k' & K1 & K2 & K3 & K4 & K5 & _ & K7). rewrite Hk in K1. injection K1 as <-.
  destruct (key_from_fields _ k K2) as (Hk0 & H2 & H1 & H3). assert (utf8_text (kv_public (k_val k))) as Htx by (destruct K5 as [K5 _]; by apply (Htext n _ k K5)).
  assert (utf8_text (k_type k) /\ utf8_text (k_scheme k)) as (Hty & Hsc) by (destruct (kpk n) as [der|der|raw|t]; [..|done]; destruct H3 as (-> & -> & _); (split; by apply plain_text)).
  split; [|split; cbn; [by rewrite H1|by rewrite H2]]. split; [done|]. split; [done|]. cbn. split; [split; [done|rewrite H2; by intros ? ? ?]|rewrite H1; by intros ? ? ?].
Qed.
Lemma add_delegation_run r x S kr b0 r0 ls e local l : (sm_keys S < N)%nat -> fresh_role r -> leaf_content x -> dr_name r ∉ map name_of l ->
  crew key N S kr -> chain key S kr b0 r0 ls -> body e local S -> deleg S l ->
  exists S' k, add_delegation key "targets" r x S = Ok S' /\ sm_keys S' = Datatypes.S (sm_keys S) /\ crew key N S' kr /\ chain key S' kr b0 r0 ls /\ body e local S' /\ deleg S' (l ++ [(r, x, k)]) /\
    tg_targets (md_signed (sm_targets S')) = tg_targets (md_signed (sm_targets S)).
Proof.
  intros Hkeys Hr Hx Hnew Hc Hch Hb ((D1 & D2 & (mk & D3) & D4 & D5 & D6) & L1 & L2 & L3 & L4). set (k := fmt_dec (Z.of_nat (sm_keys S))). assert (k ∈ names) as Hk by (by apply name_in).
  destruct (key_facts key names Hpem Hwork k Hk) as (kk & K1 & K2 & K3 & K4 & _ & _ & K7). pose proof (public_wf k kk (kid k) Hk K1) as [Wk Bk].
  pose proof Hr as (R1 & R2 & R3 & R4 & R5 & R6). set (name := dr_name r) in *.
  set (new := (r, x, k) : given). set (d2 := mkDelegations (Some (<[kid k := Some (key_cache (kid k) kk)]> mk)) (Some (map grant (l ++ [new]))) None (d_unrec (dels S))).
  assert (name ∉ top_level_roles) as Htop by (destruct R1 as [_ R1]; unfold top_level_roles; rewrite !not_elem_of_cons in *; tauto).
  assert (targets_add_key (with_delegations (md_signed (sm_targets S)) (mkDelegations (d_keys (dels S)) (Some (slist (d_roles (dels S)) ++ [r])) (d_succinct (dels S)) (d_unrec (dels S)))) kk name = Ok (with_delegations (md_signed (sm_targets S)) d2)) as Hadd.
  { unfold targets_add_key. cbn [with_delegations tg_delegations d_roles d_succinct d_keys d_unrec]. rewrite D2. change (slist (Some (map grant l))) with (map grant l).
    assert (existsb (fun r0 => String.eqb (dr_name r0) name) (map grant l ++ [r]) = true) as -> by (apply existsb_exists; exists r; split; [apply in_app_iff; right; by left|apply String.eqb_refl]).
    rewrite K3. cbn [obind]. unfold name. rewrite add_last; [| |rewrite R5; by intros ?%elem_of_nil].
    - rewrite D3, D1. cbn [mset obind]. unfold d2. rewrite map_app. cbn [map]. unfold grant at 3. cbn [fst snd new]. rewrite R5. done.
    - intros r' Hr' He. apply Hnew. unfold name. rewrite <- He. apply elem_of_list_In, in_map_iff in Hr' as (y & <- & Hy). change (dr_name (grant y)) with (name_of y). apply elem_of_list_In, in_map. done. }
  assert (sm_delegates S !! name = None) as Hnone by (destruct (sm_delegates S !! name) as [m|] eqn:Em; [|done]; exfalso; apply L2 in Em as (y & Hy & He & _); apply Hnew; rewrite <- He; apply elem_of_list_In, in_map, elem_of_list_In, Hy).
  assert (sm_signers S !! name = None) as Hsig by (by apply L3).
  set (S' := mkSim (<[name := md_of new]> (sm_delegates S)) (sm_roots S) (<[name := {[kid k := key k]}]> (sm_signers S)) (sm_files S) (sm_compute S) (sm_prefix S)
     (set_signed (sm_targets S) (with_delegations (md_signed (sm_targets S)) d2)) (sm_snapshot S) (sm_timestamp S) (sm_root S) (sm_local S) (Datatypes.S (sm_keys S))).
  exists S', k. split.
  { unfold add_delegation. cbn [get_delegator String.eqb Ascii.eqb Bool.eqb]. fold k name (dels S). rewrite K1. rewrite Hadd. cbn [obind]. rewrite K3. cbn [obind orb]. unfold set_delegator. cbn [String.eqb Ascii.eqb Bool.eqb].
    unfold add_signer. cbn [set_keys set_targets set_signers sm_delegates sm_signers sm_keys]. rewrite Hnone, Hsig. cbn [from_option]. unfold id.
    assert (option_map d_succinct (tg_delegations (md_signed (sm_targets S))) <> Some (Some (mkSuccinctRoles None 0 0 "" None)) /\ forall s, option_map d_succinct (tg_delegations (md_signed (sm_targets S))) <> Some (Some s)) as [_ Hs].
    { split; unfold dels in D1; destruct (tg_delegations _) as [d|]; cbn in *; try done; rewrite D1; done. }
    destruct (option_map d_succinct (tg_delegations (md_signed (sm_targets S)))) as [[s|]|]; [by destruct (Hs s)|done..]. }
  assert (delegations_wf d2) as Wd.
  { destruct D4 as (A1 & A2 & A3 & A4). split; [|split; [|split; [by intros s [=]|exact A4]]].
    - intros i o Hi. cbn in Hi. apply lookup_insert_Some in Hi as [[<- <-]|[_ Hi]]; [|apply A1; rewrite D3; exact Hi]. split; [by apply (signer_id_text _ _ K7)|]. by intros ? [= <-].
    - cbn [d2 d_roles slist]. rewrite D2 in A2. rewrite map_app. apply Forall_app. split; [exact A2|]. apply Forall_cons_2; [|apply Forall_nil_2]. destruct R3 as (Q1 & Q2 & Q3). split; [exact Q1|]. split; [|exact Q3]. cbn. apply Forall_cons_2; [by apply (signer_id_text _ _ K7)|apply Forall_nil_2]. }
  assert (bare_delegations d2) as Bd.
  { destruct D5 as (A1 & A2 & A3 & A4). split; [exact A1|]. split; [|split; [|done]].
    - intros i k' Hi. cbn in Hi. apply lookup_insert_Some in Hi as [[<- [= <-]]|[_ Hi]]; [done|]. apply (A2 i). rewrite D3. exact Hi.
    - cbn [d2 d_roles slist]. rewrite D2 in A3. rewrite map_app. apply Forall_app. split; [exact A3|]. apply Forall_cons_2; [exact R4|apply Forall_nil_2]. }
  split; [done|]. destruct Hc as (C1 & C2 & C3). split; [|split; [exact Hch|split; [|split]]].
  - split; [exact C1|]. split; [exact C2|]. intros n Hn. destruct (C3 n Hn) as [T1 T2]. split; [exact T1|]. cbn [S' sm_signers]. rewrite lookup_insert_ne; [exact T2|]. by intros <-.
  - destruct Hb as ((((W1 & W2 & W3 & W4 & W5 & W6 & W7 & W8) & (B1 & B2 & B3) & Ty) & Un & Ex & Me) & Hb).
    split; [|exact Hb]. split; [|split; [exact Un|split; [exact Ex|exact Me]]]. split; [|split; [|exact Ty]].
    + split; [exact W1|]. split; [exact W2|]. split; [exact W3|]. split; [exact W4|]. split; [exact W5|]. split; [exact W6|]. split; [|exact W8]. by intros d [= <-].
    + split; [exact B1|]. split; [exact B2|]. by intros d [= <-].
  - change (dels S') with d2. split; [|split; [|split; [|split]]].
    + split; [done|]. split; [done|]. split; [by eexists|]. split; [exact Wd|]. split; [exact Bd|]. intros y [Hy| ->%elem_of_list_singleton]%elem_of_app.
      * destruct (D6 y Hy) as (m & k0 & Q1 & Q2 & Q3). rewrite D3 in Q1. injection Q1 as <-. destruct (decide (kid y.2 = kid k)) as [He|He].
        { assert (y.2 = k) as -> by (apply (kid_inj key names Hpem Hwork); [by apply L1|done|done]). eexists. exists (key_cache (kid k) kk). split; [done|]. split; [apply lookup_insert|exact K4]. }
        eexists. exists k0. split; [done|]. split; [|done]. by rewrite lookup_insert_ne.
      * eexists. exists (key_cache (kid k) kk). split; [done|]. split; [apply lookup_insert|exact K4].
    + intros y [Hy| ->%elem_of_list_singleton]%elem_of_app.
      * destruct (L1 y Hy) as (Q1 & Q2 & Q3 & Q4 & Q5). assert (name_of y <> name) as Hne by (intros He; apply Hnew; rewrite <- He; apply elem_of_list_In, in_map, elem_of_list_In, Hy). split; [done|]. split; [done|]. split; [done|]. cbn [S' sm_signers sm_delegates]. rewrite !lookup_insert_ne by done. done.
      * split; [done|]. split; [done|]. split; [done|]. split; apply lookup_insert.
    + intros n m Hm. cbn [S' sm_delegates] in Hm. apply lookup_insert_Some in Hm as [[<- <-]|[_ Hm]]; [exists new; split; [apply elem_of_app; right; by left|done]|]. destruct (L2 n m Hm) as (y & Hy & Q). exists y. split; [apply elem_of_app; by left|done].
    + intros n Hn Hni. rewrite map_app in Hni. apply not_elem_of_app in Hni as [Hn1 Hn2]. cbn [S' sm_signers]. rewrite lookup_insert_ne; [by apply L3|]. intros He. apply Hn2. rewrite <- He. by left.
    + rewrite map_app. apply NoDup_app. split; [exact L4|]. split; [|apply NoDup_singleton]. intros n Hn ->%elem_of_list_singleton. done.
  - done.
Qed.
(** ** The files of delegated roles *)
Lemma fetch_role S l x : deleg S l -> x ∈ l -> exists b, to_bytes (one key x.2 (md_of x)) = Ok b /\ document b (metadata_kept (one key x.2 (md_of x))) /\ forall tr v, fetch_metadata E tr S (name_of x) v = Ok b.
Proof.
  intros (_ & L1 & _) Hx. destruct (L1 x Hx) as (K & ([_ Hn] & _) & Hc & Hs & Hd). pose proof (leaf_plain _ Hc) as Hp. pose proof (plain_targets_signed _ Hp) as Hb. destruct Hp as (Hw & _ & Hty).
  destruct (one_bytes key x.2 (md_of x) is_targets) as (b & B1 & B2); [by apply (one_writable key N Hpem Hwork)|]. exists b. split; [done|]. split; [done|]. intros tr v. unfold fetch_metadata. rewrite !not_elem_of_cons in Hn. destruct Hn as (_ & _ & _ & N1 & N2 & N3 & N4 & _). fold (name_of x) in *.
  rewrite (proj2 (String.eqb_neq (name_of x) "root") N1), (proj2 (String.eqb_neq (name_of x) "timestamp") N2), (proj2 (String.eqb_neq (name_of x) "snapshot") N3), (proj2 (String.eqb_neq (name_of x) "targets") N4), Hd. rewrite <- B1. by apply (serve_one E key N Hwork).
Qed.
Lemma role_signed S l x k : deleg S l -> x ∈ l -> targets_signs (one key k (sm_targets S)) (name_of x) (one key x.2 (md_of x)).
Proof.
  intros ((D1 & D2 & D3 & _ & _ & D6) & L1 & _ & _ & L4) Hx. destruct (L1 x Hx) as (K & (_ & _ & _ & _ & _ & Hthr) & Hc & _). pose proof (plain_targets_signed _ (leaf_plain _ Hc)) as Hb. destruct (bare_payload _ Hb) as [p Hp].
  destruct (key_facts key names Hpem Hwork x.2 K) as (_ & _ & _ & _ & _ & W & Pp & K7).
  assert (tg_delegations (md_signed (sm_targets S)) = Some (dels S)) as Hd by (unfold dels in *; destruct (tg_delegations _); [done|]; cbn in D2; destruct l; [by apply elem_of_nil in Hx|done]).
  pose proof Hx as Hx'. apply elem_of_list_split in Hx' as (l1 & l2 & ->). rewrite map_app in L4. cbn [map] in L4. rewrite map_app in D2. cbn [map] in D2.
  eexists _, [kid x.2], 1. split.
  { exists (dels S). rewrite one_signed. split; [done|]. split; [reflexivity|]. left. exists (map grant l1), (grant x), (map grant l2). split; [done|]. split; [|split; [done|split; [done|by rewrite <- Hthr]]].
    apply Forall_forall. intros r0 Hr0 He. apply elem_of_list_In, in_map_iff in Hr0 as (y & <- & Hy). apply NoDup_app in L4 as (_ & L4 & _). apply (L4 (name_of y)); [by apply elem_of_list_In, in_map|]. change (name_of y) with (dr_name (grant y)). rewrite He. by left. }
  assert (resolves (d_keys (dels S)) (kid x.2) (kpk x.2)) as Hres by (by apply D6).
  unfold one at 1. apply (sign_verify _ _ _ [key x.2] _ p [kid x.2]); try done.
  - intros i ->%elem_of_list_singleton. by exists (kpk x.2).
  - apply NoDup_singleton.
  - intros i ->%elem_of_list_singleton. split; [by left|]. exists (key x.2). split; [by left|done].
  - intros s i pk ->%elem_of_list_singleton ->%elem_of_list_singleton _ Hr. by rewrite (resolves_fun _ _ _ _ Hr Hres).
Qed.

(** ** Before the first delegation *)
Lemma new_key_signers n role S S' : n <> role -> new_root_key key role S = Ok S' -> sm_signers S' !! n = sm_signers S !! n.
Proof.
  intros Hn H. unfold new_root_key in H. destruct (public_part _) as [k|?|]; [|done..]. destruct (match root_add_key _ _ _ with Ok x => Ok x | Err _ => _ | Panic => Panic end) as [x|?|]; [|done..]. cbn [obind] in H. destruct (key_id k) as [i|?|]; [|done..]. cbn [obind] in H. injection H as <-.
  unfold add_signer. cbn [set_signers sm_signers]. by rewrite lookup_insert_ne.
Qed.
Lemma new_keys_signers n roles : n ∉ roles -> forall S S', new_root_keys key roles S = Ok S' -> sm_signers S' !! n = sm_signers S !! n.
Proof.
  induction roles as [|r roles IH]; intros Hn S S'; cbn [new_root_keys]; [by intros [= <-]|]. apply not_elem_of_cons in Hn as [Hr Hn]. destruct (new_root_key key r S) as [S1|?|] eqn:E1; [|done..]. cbn [obind]. intros H%IH; [|done]. rewrite H. by apply (new_key_signers n r).
Qed.
Lemma rotate_signers n roles : n ∉ roles -> forall S S', rotate_all key roles S = Ok S' -> sm_signers S' !! n = sm_signers S !! n.
Proof.
  induction roles as [|r roles IH]; intros Hn S S'; cbn [rotate_all]; [by intros [= <-]|]. apply not_elem_of_cons in Hn as [Hr Hn]. destruct (rotate_keys key r S) as [S1|?|] eqn:E1; [|done..]. cbn [obind]. intros H%IH; [|done]. rewrite H. clear H.
  unfold rotate_keys in E1. destruct (mget _ r) as [[x|]|]; [|done..]. apply (new_keys_signers n) in E1; [|intros [? _]%elem_of_list_In%repeat_spec%(fun e => conj e I); done].
  rewrite E1. cbn [set_signers set_sim_root sm_signers]. destruct (sm_signers S !! r); [by rewrite lookup_insert_ne|done].
Qed.
Lemma publish_signers tr S S' : publish_root E tr S = Ok S' -> sm_signers S' = sm_signers S.
Proof. unfold publish_root. destruct (sign_each _ _) as [m|?|]; [|done..]. cbn [obind]. destruct (to_bytes m); [| |done]; by intros [= <-]. Qed.
Lemma timestamp_signers tr S S' : sim_update_timestamp E tr S = Ok S' -> sm_signers S' = sm_signers S.
Proof. unfold sim_update_timestamp. destruct (file_info _ _ _ _ _) as [f|?|]; [|done..]. cbn [obind]. destruct (mset _ _ _) as [l|?|]; [|done..]. cbn [obind]. by intros [= <-]. Qed.
Lemma perform_signers n tr tr' a S S' : n ∉ top_level_roles -> sensible a -> perform E key tr tr' a S = Ok S' -> sm_signers S' !! n = sm_signers S !! n.
Proof.
  intros Hn Ha H. destruct a as [p data|v|b|b| | |roles b]; cbn [perform] in H.
  - unfold add_target in H. change (targetfile_from_bytes p data ["sha256"]) with (Ok (info_of p data)) in H. cbn [obind get_delegator String.eqb Ascii.eqb Bool.eqb] in H. destruct (tg_targets _) as [m|]; [|done]. cbn [mset obind] in H. by injection H as <-.
  - by injection H as <-.
  - by injection H as <-.
  - by injection H as <-.
  - apply timestamp_signers in H. by rewrite H.
  - unfold sim_update_snapshot in H. destruct (list_roles _ _ _ _ _) as [f|?|]; [|done..]. cbn [obind] in H. apply timestamp_signers in H. by rewrite H.
  - destruct (rotate_all key roles S) as [S1|?|] eqn:E1; [|done..]. cbn [obind] in H. apply publish_signers in H. rewrite H. cbn [set_sim_root sm_signers]. apply (rotate_signers n roles); [|done]. intros Hr. apply Ha in Hr. apply Hn. unfold top_level_roles. rewrite !elem_of_cons in *. tauto.
Qed.
Lemma perform_all_signers n h : n ∉ top_level_roles -> forall S S', Forall (fun x => sensible x.2) h -> perform_all E key h S = Ok S' -> sm_signers S' !! n = sm_signers S !! n.
Proof.
  intros Hn. induction h as [|[[tr tr'] a] h IH]; intros S S' Hs; cbn [perform_all]; [by intros [= <-]|]. apply Forall_cons in Hs as [Ha Hs]. destruct (perform E key tr tr' a S) as [S1|?|] eqn:E1; [|done..]. cbn [obind]. intros H%IH; [|done]. rewrite H. by apply (perform_signers n tr tr' a).
Qed.
Lemma new_signers n tr e local S : n ∉ top_level_roles -> new_repository E key tr e local = Ok S -> sm_signers S !! n = None.
Proof.
  intros Hn. unfold new_repository. destruct (new_root_keys key _ _) as [S1|?|] eqn:E1; [|done..]. cbn [obind]. intros H%publish_signers. rewrite H. apply (new_keys_signers n) in E1; [|done]. rewrite E1. apply lookup_empty.
Qed.
Lemma deleg_none S e local f : content e local S -> listed S f -> (forall n, n ∉ top_level_roles -> sm_signers S !! n = None) -> deleg S [].
Proof.
  intros (_ & _ & _ & _ & Hd & _) [Hn _] Hs. unfold deleg, dels. rewrite Hn. cbn [default from_option no_delegations d_succinct d_roles d_keys map]. split; [|split; [|split; [|split]]].
  - split; [done|]. split; [done|]. split; [by eexists|]. split; [|split; [|by intros x ?%elem_of_nil]].
    + split; [intros i o Hi; cbn in Hi; by rewrite lookup_empty in Hi|]. split; [apply Forall_nil_2|]. split; [by intros ? [=]|by intros ? ? ?].
    + split; [done|]. split; [intros i o Hi; cbn in Hi; by rewrite lookup_empty in Hi|]. split; [apply Forall_nil_2|done].
  - by intros x ?%elem_of_nil.
  - intros n m. rewrite Hd. by rewrite lookup_empty.
  - intros n Hn' _. by apply Hs.
  - apply NoDup_nil_2.
Qed.

(** ** UpdateSnapshot *)
Lemma json_inj a b : a +:+ ".json" = b +:+ ".json" -> a = b.
Proof. intros H. rewrite <- (take_own a ".json"), <- (take_own b ".json"). by rewrite H. Qed.
Lemma list_roles_run tr S l : forall m, plain_files m -> NoDup (map fst l) -> (forall role v, (role, v) ∈ l -> int_ok v /\ utf8_text (role +:+ ".json") /\ exists b, forall tr v, fetch_metadata E tr S role v = Ok b) ->
  exists m', list_roles E tr S l m = Ok m' /\ plain_files m' /\ (forall role v b, (role, v) ∈ l -> (forall tr v, fetch_metadata E tr S role v = Ok b) -> exists g, mget m' (role +:+ ".json") = Some (Some g) /\ mf_version g = v /\ describes g b) /\
    forall n, (forall role v, (role, v) ∈ l -> n <> role +:+ ".json") -> mget m' n = mget m n.
Proof.
  induction l as [|[role v] l IH]; intros m Hm Hnd Hl; cbn [list_roles map fst] in *.
  - exists m. split; [done|]. split; [done|]. split; [by intros role v b ?%elem_of_nil|done].
  - apply NoDup_cons in Hnd as [Hr Hnd]. destruct (Hl role v ltac:(left)) as (Hv & Hu & b & Hb). destruct (info_run E tr S role v b Hv (fun tr => Hb tr (-1))) as (f & Hi & Hw & Hdesc). rewrite Hi. cbn [obind].
    destruct Hm as (M1 & M2 & M3). destruct (meta_insert m (role +:+ ".json") f v M1 M2 M3 Hu Hw) as (m1 & I1 & I2 & I3 & I4 & (mm & I5 & I6) & I7). rewrite I1. cbn [obind].
    destruct (IH m1 (conj I2 (conj I3 I4)) Hnd) as (m' & Q1 & Q2 & Q3 & Q4); [intros role' v' Hin; apply Hl; by right|]. exists m'. split; [done|]. split; [done|].
    assert (forall role' v', (role', v') ∈ l -> role +:+ ".json" <> role' +:+ ".json") as Hne by (intros role' v' Hin He%json_inj; subst role'; apply Hr; apply elem_of_list_In; change role with (fst (role, v')); by apply in_map, elem_of_list_In).
    split.
    + intros role' v' b' [[= -> ->]|Hin]%elem_of_cons Hb'; [|by apply (Q3 role' v' b')]. exists f. split; [rewrite Q4 by done; rewrite I5; exact I6|]. split; [by destruct Hw as (_ & _ & ?)|]. assert (b' = b) as -> by (specialize (Hb [] 0); rewrite Hb' in Hb; by injection Hb). done.
    + intros n Hn. rewrite Q4 by (intros role' v' Hin; apply (Hn role' v'); by right). apply I7. apply (Hn role v). left.
Qed.
Definition in_snapshot (S : sim) (x : given) : Prop := exists g b, lists_file (sm_snapshot S) (name_of x +:+ ".json") g /\ mf_version g = tg_version x.1.2 /\ to_bytes (one key x.2 (md_of x)) = Ok b /\ describes g b.
Lemma role_text s : string_all url_unreserved s = true -> utf8_text (s +:+ ".json").
Proof.
  intros H. apply plain_text. assert (forall c, url_unreserved c = true -> plain_char c = true) as Hc by (intros [[] [] [] [] [] [] [] []]; vm_compute; done).
  induction s as [|c s IH]; [done|]. change (String c s +:+ ".json") with (String c (s +:+ ".json")). cbn [string_all] in *. apply andb_true_iff in H as [H1 H2]. rewrite (Hc c H1). by apply IH.
Qed.
Lemma snapshot_roles tr tr' S kr b0 r0 ls e local l : crew key N S kr -> chain key S kr b0 r0 ls -> body e local S -> deleg S l ->
  exists S', sim_update_snapshot E tr tr' S = Ok S' /\ crew key N S' kr /\ chain key S' kr b0 r0 ls /\ body e local S' /\ deleg S' l /\ synced key S' kr /\ Forall (in_snapshot S') l /\ sm_targets S' = sm_targets S /\ sm_keys S' = sm_keys S.
Proof.
  intros Hc Hch Hb Hd. destruct (fetch_targets E key N Hpem Hwork S kr e local Hc Hb) as (bg & Hbg & _ & Hf). pose proof Hb as (T1 & T2 & T3 & T4). destruct T1 as (((_ & _ & Hv & _) & _ & Hty) & _).
  destruct T2 as ((W1 & W2 & W3 & W4 & W5 & W6) & (B1 & B2) & Ty & Un & Ex & Me).
  assert (forall role v, (role, v) ∈ Simulator.all_targets E tr S <-> (role = "targets" /\ v = tg_version (md_signed (sm_targets S))) \/ exists x, x ∈ l /\ role = name_of x /\ v = tg_version x.1.2) as Hall.
  { intros role v. unfold Simulator.all_targets. rewrite Hty, elem_of_cons. destruct Hd as (_ & L1 & L2 & _). split.
    - intros [[= -> ->]|H]; [by left|right]. apply elem_of_list_In, in_map_iff in H as ([n m] & [= <- <-] & Hin%elem_of_list_In). rewrite (e_order_perm E) in Hin. apply elem_of_map_to_list in Hin. apply L2 in Hin as (x & Hx & <- & ->). by exists x.
    - intros [[-> ->]|(x & Hx & -> & ->)]; [by left|right]. destruct (L1 x Hx) as (_ & _ & _ & _ & Hm). apply elem_of_list_In, in_map_iff. exists (name_of x, md_of x). split; [done|]. apply elem_of_list_In. rewrite (e_order_perm E). by apply elem_of_map_to_list. }
  assert (NoDup (map fst (Simulator.all_targets E tr S))) as Hnd.
  { unfold Simulator.all_targets. cbn [map fst]. rewrite map_map. cbn [fst]. rewrite Hty. apply NoDup_cons. split.
    - intros H. apply elem_of_list_In, in_map_iff in H as ([n m] & He & Hin%elem_of_list_In). cbn [fst] in He. subst n. rewrite (e_order_perm E) in Hin. apply elem_of_map_to_list in Hin. destruct Hd as (_ & L1 & L2 & _). apply L2 in Hin as (x & Hx & He & _). destruct (L1 x Hx) as (_ & ([_ Hn] & _) & _). apply Hn. change (dr_name x.1.1) with (name_of x). rewrite He. rewrite !elem_of_cons. tauto.
    - assert (map fst (e_order E (metadata targets_t) tr (map_to_list (sm_delegates S))) ≡ₚ map fst (map_to_list (sm_delegates S))) as Hp by (apply Permutation_map, (e_order_perm E)). rewrite Hp. apply (NoDup_fst_map_to_list (M := gmap string)). }
  destruct (list_roles_run tr S (Simulator.all_targets E tr S) (sn_meta (md_signed (sm_snapshot S)))) as (m' & M1 & (M2 & M3 & M4) & M5 & M6); [exact (conj W5 (conj B2 Me))|exact Hnd| |].
  { intros role v [[-> ->]|(x & Hx & -> & ->)]%Hall.
    - split; [done|]. split; [by apply plain_text|]. exists bg. done.
    - pose proof Hd as (_ & L1 & _). destruct (L1 x Hx) as (_ & ([Hn _] & _) & ((_ & _ & Hv' & _) & _) & _). split; [done|]. split; [by apply role_text|]. destruct (fetch_role S l x Hd Hx) as (b & _ & _ & Hfx). by exists b. }
  unfold sim_update_snapshot. rewrite M1. cbn [obind].
  match goal with |- context [sim_update_timestamp E tr' ?s] => set (S1 := s) end. assert (crew key N S1 kr) as Hc1 by exact Hc. assert (body e local S1) as Hb1.
  { destruct Hb as (Q1 & _ & Q3 & Q4). split; [exact Q1|]. split; [|split; [exact Q3|exact Q4]]. cbn [S1 set_sim_snapshot sm_snapshot set_signed md_signed md_unrec].
    split; [|split; [split; [exact B1|exact M3]|split; [exact Ty|split; [exact Un|split; [exact Ex|exact M4]]]]]. split; [exact W1|]. split; [exact W2|]. split; [apply wrap64_int|]. split; [exact W4|]. split; [exact M2|exact W6]. }
  destruct (timestamp_body E key N Hpem Hwork tr' S1 kr e local Hc1 Hb1) as (x & f & bs & H1 & H2 & H3 & H4 & H5 & H6). exists (set_sim_timestamp S1 x). split; [done|]. split; [exact Hc|]. split; [exact Hch|]. split; [done|]. split; [exact Hd|].
  assert (forall n g, mget m' n = Some (Some g) -> lists_file (sm_snapshot (set_sim_timestamp S1 x)) n g) as Hlist by (intros n g Hg; destruct m' as [mm|]; [|done]; by exists mm).
  split; [|split; [|done]].
  - destruct (M5 "targets" (tg_version (md_signed (sm_targets S))) bg) as (g & G1 & G2 & G3); [apply Hall; by left|exact Hf|]. exists f, g, bs, bg. split; [exact H3|]. split; [exact H4|]. split; [exact H5|]. split; [exact H6|]. split; [by apply Hlist|]. split; [exact G2|]. split; [exact Hbg|exact G3].
  - apply Forall_forall. intros y Hy. destruct (fetch_role S l y Hd Hy) as (b & Y1 & _ & Y3). destruct (M5 (name_of y) (tg_version y.1.2) b) as (g & G1 & G2 & G3); [apply Hall; right; by exists y|exact Y3|]. exists g, b. split; [by apply Hlist|]. done.
Qed.

(** ** Any history *)
Lemma deleg_same S S' l : dels S' = dels S -> sm_delegates S' = sm_delegates S -> (forall n, n ∉ top_level_roles -> sm_signers S' !! n = sm_signers S !! n) -> deleg S l -> deleg S' l.
Proof.
  intros H1 H2 H3 (D & L1 & L2 & L3 & L4). unfold deleg. rewrite H1, H2. split; [done|]. split; [|split; [done|split; [|done]]].
  - intros x Hx. destruct (L1 x Hx) as (Q1 & Q2 & Q3 & Q4 & Q5). rewrite H3; [done|]. destruct Q2 as [[_ Q2] _]. change (dr_name x.1.1) with (name_of x) in Q2. unfold top_level_roles. rewrite !not_elem_of_cons in *. tauto.
  - intros n Hn Hni. rewrite H3 by done. by apply L3.
Qed.
Lemma perform_roles tr tr' a S kr b0 r0 ls e local l : sensible a -> (sm_keys S + keys_made a <= N)%nat -> Z.of_nat (List.length ls) < 2 ^ 62 -> crew key N S kr -> chain key S kr b0 r0 ls -> body e local S -> deleg S l ->
  exists S' kr' l', perform E key tr tr' a S = Ok S' /\ sm_keys S' = (sm_keys S + keys_made a)%nat /\ crew key N S' kr' /\ chain key S' kr' b0 r0 (ls ++ l') /\ body e local S' /\ deleg S' l /\ (List.length l' <= 1)%nat.
Proof.
  intros Ha Hn Hl Hc Hch Hb Hd.
  destruct a as [path data|v|b|b| | |roles b]; cbn [keys_made] in *.
  - destruct Ha as [Hp Hlen]. destruct (add_target_body key N path data S kr b0 r0 ls e local Hp Hlen Hc Hch Hb) as (S' & H1 & H2 & H3 & H4 & H5 & H6 & H7 & H8). exists S', kr, []. rewrite app_nil_r. split; [done|]. split; [lia|]. split; [done|]. split; [done|]. split; [done|]. split; [|cbn; lia].
    apply (deleg_same S); [unfold dels; by rewrite H8|done|intros; by rewrite H7|done].
  - eexists _, kr, []. rewrite app_nil_r. split; [done|]. split; [cbn; lia|]. split; [exact Hc|]. split; [exact Hch|]. split; [by apply version_body|]. split; [exact Hd|cbn; lia].
  - eexists _, kr, []. rewrite app_nil_r. split; [done|]. split; [cbn; lia|]. split; [exact Hc|]. split; [exact Hch|]. split; [exact Hb|]. split; [exact Hd|cbn; lia].
  - eexists _, kr, []. rewrite app_nil_r. split; [done|]. split; [cbn; lia|]. split; [exact Hc|]. split; [exact Hch|]. split; [exact Hb|]. split; [exact Hd|cbn; lia].
  - destruct (timestamp_body E key N Hpem Hwork tr S kr e local Hc Hb) as (x & f & bs & H1 & H2 & _). eexists _, kr, []. rewrite app_nil_r. split; [exact H1|]. split; [cbn; lia|]. split; [exact Hc|]. split; [exact Hch|]. split; [exact H2|]. split; [exact Hd|cbn; lia].
  - destruct (snapshot_roles tr tr' S kr b0 r0 ls e local l Hc Hch Hb Hd) as (S' & H1 & H2 & H3 & H4 & H5 & _ & _ & _ & H6). exists S', kr, []. rewrite app_nil_r. split; [exact H1|]. split; [lia|]. split; [done|]. split; [done|]. split; [done|]. split; [done|cbn; lia].
  - destruct (new_root_body E key N Hpem Hwork Htext tr roles b S kr b0 r0 ls e local Ha Hn Hl Hc Hch Hb) as (S' & kr' & x & H1 & H2 & H3 & H4 & H5 & _ & H7 & H8). exists S', kr', [x]. split; [exact H1|]. split; [done|]. split; [done|]. split; [done|]. split; [done|]. split; [|cbn; lia].
    apply (deleg_same S); [unfold dels; by rewrite H8|done| |done]. intros n Hnt. exact (perform_signers n tr tr' (NewRoot roles b) S S' Hnt Ha H1).
Qed.
(** the targets that are listed *)
Definition lists_all (S : sim) (f : string -> option targetfile) : Prop := exists m, tg_targets (md_signed (sm_targets S)) = Some m /\ forall path, m !! path = option_map Some (f path).
Lemma perform_lists tr tr' a S S' f : perform E key tr tr' a S = Ok S' -> lists_all S f ->
  lists_all S' (fun path => match a with AddTargetFile p data => if String.eqb p path then Some (info_of p data) else f path | _ => f path end).
Proof.
  intros H Hl. destruct a as [p data|v|b|b| | |roles b]; cbn [perform] in H.
  - unfold add_target in H. change (targetfile_from_bytes p data ["sha256"]) with (Ok (info_of p data)) in H. cbn [obind get_delegator String.eqb Ascii.eqb Bool.eqb] in H. destruct Hl as (m & Hm & Hf). rewrite Hm in H. cbn [mset obind] in H. injection H as <-.
    exists (<[p := Some (info_of p data)]> m). split; [done|]. intros path. destruct (String.eqb_spec p path) as [->|Hn]; [apply lookup_insert|]. rewrite lookup_insert_ne by done. apply Hf.
  - injection H as <-. exact Hl.
  - injection H as <-. exact Hl.
  - injection H as <-. exact Hl.
  - apply timestamp_targets in H. unfold lists_all. by rewrite H.
  - apply snapshot_targets in H. unfold lists_all. by rewrite H.
  - destruct (rotate_all key roles S) as [S1|?|] eqn:E1; [|done..]. cbn [obind] in H. apply publish_targets in H. apply rotate_all_targets in E1. unfold lists_all. rewrite H. cbn [set_sim_root sm_targets]. by rewrite E1.
Qed.
Definition good_step (s : step) : Prop := match s with Act _ _ a => sensible a | Delegate r x => fresh_role r /\ leaf_content x end.
Definition step_keys (s : step) : nat := match s with Act _ _ a => keys_made a | Delegate _ _ => 1 end.
Lemma steps_run h : forall S kr b0 r0 ls e local l, Forall good_step h -> (sm_keys S + sum_list (map step_keys h) <= N)%nat -> Z.of_nat (List.length ls + List.length h) < 2 ^ 62 -> NoDup (map name_of l ++ map (fun x => dr_name x.1) (delegations_of h)) ->
  crew key N S kr -> chain key S kr b0 r0 ls -> body e local S -> deleg S l -> forall f, lists_all S f ->
  exists S' kr' ls' l', take_steps E key h S = Ok S' /\ crew key N S' kr' /\ chain key S' kr' b0 r0 (ls ++ ls') /\ body e local S' /\ deleg S' (l ++ l') /\ map fst l' = delegations_of h /\ (List.length ls' <= List.length h)%nat /\
    lists_all S' (fun path => match last_added (acts h) path with Some data => Some (info_of path data) | None => f path end).
Proof.
  induction h as [|s h IH]; intros S kr b0 r0 ls e local l Hg Hk Hlen Hnd Hc Hch Hb Hd f Hf.
  - exists S, kr, [], []. rewrite !app_nil_r. cbn. done.
  - assert (sm_keys S + (step_keys s + sum_list (map step_keys h)) <= N)%nat as Hk' by exact Hk. clear Hk. cbn [List.length] in Hlen. apply Forall_cons in Hg as [Hs Hg]. destruct s as [tr tr' a|r x]; cbn [take_steps step_keys good_step] in *.
    + destruct (perform_roles tr tr' a S kr b0 r0 ls e local l Hs) as (S1 & kr1 & l1 & H1 & H2 & H3 & H4 & H5 & H6 & H7); [lia|lia|done..|]. rewrite H1. cbn [obind].
      destruct (IH S1 kr1 b0 r0 (ls ++ l1) e local l Hg) with (f := fun path => match a with AddTargetFile p data => if String.eqb p path then Some (info_of p data) else f path | _ => f path end) as (S' & kr' & ls' & l' & Q1 & Q2 & Q3 & Q4 & Q5 & Q6 & Q7 & m & Hm & Q8); [lia|rewrite app_length; lia|exact Hnd|done..|exact (perform_lists tr tr' a S S1 f H1 Hf)|].
      exists S', kr', (l1 ++ ls'), l'. rewrite app_assoc. split; [done|]. split; [done|]. split; [done|]. split; [done|]. split; [done|]. split; [exact Q6|]. split; [rewrite app_length; cbn [List.length]; lia|]. exists m. split; [done|]. intros path. rewrite Q8. change (acts (Act tr tr' a :: h)) with ((tr, tr', a) :: acts h). cbn [last_added]. destruct (last_added (acts h) path); [done|]. destruct a; try done. destruct (String.eqb_spec path0 path); by subst.
    + destruct Hs as [Hr Hx]. change (delegations_of (Delegate r x :: h)) with ((r, x) :: delegations_of h) in *. cbn [map fst] in Hnd |- *. destruct (add_delegation_run r x S kr b0 r0 ls e local l) as (S1 & k & H1 & H2 & H3 & H4 & H5 & H6 & H7); try done; [lia| |].
      { apply NoDup_app in Hnd as (_ & Hn & _). intros Hin. apply (Hn _ Hin). by left. }
      rewrite H1. cbn [obind]. destruct (IH S1 kr b0 r0 ls e local (l ++ [(r, x, k)]) Hg) with (f := f) as (S' & kr' & ls' & l' & Q1 & Q2 & Q3 & Q4 & Q5 & Q6 & Q7 & Q8); [lia|lia| |done..|unfold lists_all; by rewrite H7|].
      { rewrite map_app, <- app_assoc. exact Hnd. }
      exists S', kr', ls', ((r, x, k) :: l'). split; [done|]. split; [done|]. split; [done|]. split; [done|]. split; [by rewrite <- app_assoc in Q5|]. split; [cbn; by rewrite Q6|]. split; [cbn [List.length]; lia|done].
Qed.
Lemma step_keys_sum h : sum_list (map step_keys h) = (sum_list (map (fun x => keys_made x.2) (acts h)) + List.length (delegations_of h))%nat.
Proof.
  induction h as [|s h IH]; [done|]. change (sum_list (map step_keys (s :: h))) with (step_keys s + sum_list (map step_keys h))%nat. rewrite IH. destruct s as [tr tr' a|r x].
  - change (acts (Act tr tr' a :: h)) with ((tr, tr', a) :: acts h). change (delegations_of (Act tr tr' a :: h)) with (delegations_of h). cbn [map snd]. change (sum_list (keys_made a :: ?l)) with (keys_made a + sum_list l)%nat. cbn [step_keys]. unfold sum_list at 2. fold (sum_list (map (fun x : trace * trace * act => keys_made x.2) (acts h))). lia.
  - change (acts (Delegate r x :: h)) with (acts h). change (delegations_of (Delegate r x :: h)) with ((r, x) :: delegations_of h). cbn [step_keys List.length]. lia.
Qed.
(** ** What clients see *)
Lemma entry_kept k (m : metadata targets_t) path o : entry (metadata_kept (one key k m)) path o <-> exists o0, mget (tg_targets (md_signed m)) path = Some o0 /\ o = option_map (targetfile_kept path) o0.
Proof.
  unfold entry. cbn [metadata_kept md_signed signed_kept targets_spec targets_kept tg_targets]. rewrite one_signed. destruct (tg_targets (md_signed m)) as [mm|]; cbn [option_map mget]; [|split; [by intros (? & ? & _)|by intros (? & ? & _)]]. split.
  - intros (l & [= <-] & Hl). rewrite map_lookup_imap in Hl. destruct (mm !! path) as [o0|]; [|done]. cbn in Hl. injection Hl as <-. by exists o0.
  - intros (o0 & Ho & ->). eexists. split; [done|]. rewrite map_lookup_imap, Ho. done.
Qed.
Lemma delegated_kept S l k path n term : deleg S l -> delegated (metadata_kept (one key k (sm_targets S))) path n term <-> exists x, x ∈ l /\ name_of x = n /\ is_delegated_path x.1.1 path = true /\ dr_terminating x.1.1 = term.
Proof.
  intros ((D1 & D2 & _) & _ & _ & _ & L4). unfold delegated. cbn [metadata_kept md_signed signed_kept targets_spec targets_kept tg_delegations]. rewrite one_signed. split.
  - intros (d & Hd & H). destruct (tg_delegations (md_signed (sm_targets S))) as [d0|] eqn:E0; [|done]. cbn [option_map] in Hd. injection Hd as <-. assert (dels S = d0) as <- by (unfold dels; by rewrite E0). cbn [delegations_kept d_roles d_succinct] in H. rewrite D2 in H. cbn [option_map] in H.
    destruct H as [(l1 & r & l2 & Hl & Hn & Ht & Hp & _)|[? _]]; [|done]. injection Hl as Hl. assert (r ∈ map delegatedrole_kept (map grant l)) as Hr by (rewrite Hl; apply elem_of_app; right; left). apply elem_of_list_In in Hr. rewrite map_map in Hr. apply in_map_iff in Hr as (x & <- & Hx). exists x. split; [by apply elem_of_list_In|]. done.
  - intros (x & Hx & Hn & Hp & Ht). assert (tg_delegations (md_signed (sm_targets S)) = Some (dels S)) as Hd.
    { unfold dels in *. destruct (tg_delegations (md_signed (sm_targets S))) as [d|]; [reflexivity|]. cbn [default from_option d_roles no_delegations] in D2. destruct l; [by apply elem_of_nil in Hx|discriminate D2]. }
    exists (delegations_kept (dels S)). rewrite Hd. split; [done|]. left. apply elem_of_list_split in Hx as (l1 & l2 & ->). exists (map delegatedrole_kept (map grant l1)), (delegatedrole_kept (grant x)), (map delegatedrole_kept (map grant l2)).
    cbn [delegations_kept d_roles]. rewrite D2. cbn [option_map]. rewrite !map_app. cbn [map]. split; [done|]. split; [done|]. split; [done|]. split; [done|]. intros r' Hr' He. exfalso. apply elem_of_list_In in Hr'. rewrite map_map in Hr'. apply in_map_iff in Hr' as (y & <- & Hy).
    change (name_of y = n) in He. rewrite map_app in L4. cbn [map] in L4. apply NoDup_app in L4 as (_ & _ & L4). apply NoDup_cons in L4 as [L4 _]. apply L4. rewrite Hn, <- He. apply elem_of_list_In. by apply in_map.
Qed.
Definition published_as (S : sim) (x : given) (f : role_file) : Prop :=
  rf_md f = metadata_kept (one key x.2 (md_of x)) /\ to_bytes (one key x.2 (md_of x)) = Ok (rf_data f) /\ exists g, rf_info f = metafile_kept g /\ lists_file (sm_snapshot S) (name_of x +:+ ".json") g /\ mf_version g = tg_version x.1.2 /\ describes g (rf_data f).
Lemma all_published S l : NoDup (map name_of l) -> Forall (in_snapshot S) l -> exists D : gmap string role_file, (forall n f, D !! n = Some f -> exists x, x ∈ l /\ name_of x = n /\ published_as S x f) /\ forall x, x ∈ l -> exists f, D !! name_of x = Some f /\ published_as S x f.
Proof.
  induction l as [|x l IH]; intros Hnd Hl.
  - exists ∅. split; [intros n f; by rewrite lookup_empty|by intros x ?%elem_of_nil].
  - cbn [map] in Hnd. apply NoDup_cons in Hnd as [Hx Hnd]. apply Forall_cons in Hl as [(g & b & G1 & G2 & G3 & G4) Hl]. destruct (IH Hnd Hl) as (D & D1 & D2). set (f := mkRoleFile b (metadata_kept (one key x.2 (md_of x))) (metafile_kept g)).
    assert (published_as S x f) as Hf by (split; [done|]; split; [done|]; by exists g). exists (<[name_of x := f]> D). split.
    + intros n f' H. apply (lookup_insert_Some (M := gmap string)) in H as [[<- <-]|[_ H]]; [exists x; split; [left|done]|]. destruct (D1 n f' H) as (y & Hy & Q). exists y. split; [by right|done].
    + intros y [->|Hy]%elem_of_cons; [exists f; split; [apply (lookup_insert (M := gmap string))|done]|]. destruct (D2 y Hy) as (f' & Hf' & Q). exists f'. split; [|done]. rewrite (lookup_insert_ne (M := gmap string)); [done|]. intros He. apply Hx. rewrite He. apply elem_of_list_In, in_map, elem_of_list_In, Hy.
Qed.
Lemma named_role tr S v name data b : dotless name -> name <> "timestamp" -> rt_consistent (md_signed (sm_root S)) = b -> (forall w, fetch_metadata E tr S name w = Ok data) ->
  fetch_named E tr S (if b then fmt_dec v +:+ "." +:+ name else name) = Ok data.
Proof.
  intros Hd Hn Hb Hf. change (no_dot name) in Hd. unfold fetch_named. destruct b.
  - rewrite partition_two by (apply fmt_dec_no_dot || done). rewrite Hb. rewrite (proj2 (String.eqb_neq (fmt_dec v +:+ "." +:+ name) "timestamp")); [rewrite orb_true_r; apply Hf|].
    intros Hx%(f_equal partition_dot). rewrite partition_two in Hx by (apply fmt_dec_no_dot || done). rewrite partition_plain in Hx by done. injection Hx as Hx _. by apply (fmt_dec_ne v).
  - rewrite partition_plain by done. destruct (_ || _); apply Hf.
Qed.
Section Client.
Context (path_of : string -> option string).
Lemma sim_roles E2 S kr b0 r0 ls e local c now i l f path earlier : crew key N S kr -> chain key S kr b0 r0 ls -> body e local S -> deleg S l -> synced key S kr -> Forall (in_snapshot S) l ->
  (exists m, tg_targets (md_signed (sm_targets S)) = Some m /\ forall path, m !! path = option_map Some (f path)) -> Z.of_nat (List.length ls) < 2 ^ 62 ->
  fetches_from E E2 path_of c S -> fits E c S -> new_client E2 c b0 i -> Z.of_nat (List.length ls) <= c_max_root_rotations c -> now <= instant e ->
  (forall x, x ∈ l -> role_reachable E path_of c S (name_of x) /\ now <= instant (tg_expires x.1.2)) -> Z.of_nat (List.length l) <= c_max_delegations c ->
  exists i' t w w' o, updater_new E2 c now i = (i', Ok t) /\ asked E2 c earlier (mkWorld t i') w /\ get_target_info E2 c path w = (w', o) /\
    match f path with
    | Some tf => o = Ok (Some (targetfile_kept path tf))
    | None => (exists x tf, x ∈ l /\ covers x.1.1 path /\ knows x.1.2 path tf /\ o = Ok (Some (targetfile_kept path tf))) \/
        ((exists e, o = Err e) /\ ((forall x tf, x ∈ l -> covers x.1.1 path -> ~ knows x.1.2 path tf) \/ exists x, x ∈ l /\ covers x.1.1 path /\ dr_terminating x.1.1 = true /\ forall tf, ~ knows x.1.2 path tf))
    end.
Proof.
  intros Hc Hch Hb Hd Hsy Hin (mt & Hmt & Hft) Hls Hfetch Hfit (C1 & C2 & C3 & C4 & C5 & C6 & C7 & C8) Hrot Hnow Hreach Hmax.
  destruct (sim_published E key N Hpem Hwork path_of E2 S kr b0 r0 ls e local c now Hc Hch Hb Hsy Hls Hfetch Hfit C2 (proj2 C8) Hrot Hnow) as (P & Hhon & Hon & Hcan & P1 & P2 & P3 & _ & _).
  destruct Hch as (_ & R2 & R3 & _). set (r := metadata_kept (one key (kr "root") (sm_root S))) in *.
  pose proof Hd as (_ & L1 & _ & _ & L4). destruct (all_published S l L4 Hin) as (D & D1 & D2).
  assert (rt_consistent (md_signed r) = rt_consistent (md_signed (sm_root S))) as Rc by (unfold r; cbn [metadata_kept md_signed signed_kept root_spec root_kept rt_consistent]; by rewrite one_signed).
  assert (works E2 c r0 r P now D i) as Hworks.
  { split; [by rewrite C1|]. split; [done|]. split; [done|]. split; [rewrite C1; intros ->; destruct R2 as [R2 _]; by vm_compute in R2|]. split; [done|]. split; [done|]. split; [done|]. split; [done|]. rewrite C5.
    assert (forall n data, ¬ ((∅ : disk) !! n = Some data)) as Hno by (intros n data Hx; discriminate (eq_trans (eq_sym Hx) (lookup_empty (M := gmap string) n))).
    split; [|split; [|split]]; [intros data H; by apply Hno in H..|intros name f0 data _ H; by apply Hno in H]. }
  assert (forall n g, D !! n = Some g -> role_name_ok n /\ role_served E2 c r P now n g) as Hserved.
  { intros n g Hg. destruct (D1 n g Hg) as (x & Hx & <- & F1 & F2 & gi & F3 & F4 & F5 & F6). destruct (L1 x Hx) as (K & (Nm & Nd & _) & Hcont & _). destruct (Hreach x Hx) as ((U1 & U2 & U3) & Hexp). split; [done|].
    destruct (fetch_role S l x Hd Hx) as (b & B1 & B2 & B3). rewrite F2 in B1. injection B1 as <-. destruct (U3 [] 0 _ (B3 [] 0)) as [Z1 Z2].
    split; [by rewrite F1|]. split; [rewrite F1, expired_kept by constructor; unfold expired_at; rewrite one_signed; cbn; lia|]. split; [rewrite P2, F3; apply lists_kept; unfold lists_file; rewrite one_signed; exact F4|].
    split; [rewrite F3; by apply matches_kept, F6|]. split; [rewrite F1, F3; cbn [metadata_kept md_signed]; rewrite one_signed; cbn; by rewrite F5|]. split; [done|].
    intros tr len Hlen. destruct Hfetch as [Hnet _]. rewrite Hnet. apply download_ok; [|done]. unfold version_in_url. rewrite Rc. pose proof Nm as [Nq Nt]. apply query_escape_id in Nq. rewrite !not_elem_of_cons in Nt.
    pose proof (named_role tr S (mf_version (rf_info g)) (name_of x) (rf_data g) _ Nd ltac:(apply Nt) eq_refl (B3 tr)) as Hnr. destruct (rt_consistent (md_signed (sm_root S))).
    - rewrite url_name by exact Nq. unfold versioned_name. rewrite <- Hnr. apply fetch_json. change (dr_name x.1.1) with (name_of x). rewrite U2. by rewrite !app_assoc_s.
    - rewrite <- Hnr. apply fetch_json. rewrite <- U1. unfold url_of, with_slash. change (dr_name x.1.1) with (name_of x) in Nq. rewrite Nq. done. }
  assert (forall n g, D !! n = Some g -> tg_delegations (md_signed (rf_md g)) = None) as Hleaf.
  { intros n g Hg. destruct (D1 n g Hg) as (x & Hx & <- & F1 & _). destruct (L1 x Hx) as (_ & _ & (_ & _ & _ & _ & Hn) & _). rewrite F1. cbn [metadata_kept md_signed]. rewrite one_signed. cbn. by rewrite Hn. }
  assert ("targets" ∉ map name_of l) as Htn. { intros H. apply elem_of_list_In, in_map_iff in H as (x & He & Hx%elem_of_list_In). destruct (L1 x Hx) as (_ & ([_ Hn] & _) & _). apply Hn. change (dr_name x.1.1) with (name_of x). rewrite He, !elem_of_cons. tauto. }
  assert (forall n g, all_roles P D !! n = Some g -> (n = "targets" /\ rf_md g = metadata_kept (one key (kr "targets") (sm_targets S))) \/ D !! n = Some g) as Hroles.
  { intros n g H. unfold all_roles in H. apply (lookup_insert_Some (M := gmap string)) in H as [[<- <-]|[_ H]]; [left; by rewrite <- P3|by right]. }
  assert (forall n, n <> "targets" -> all_roles P D !! n = D !! n) as Hroles2 by (intros n Hn; unfold all_roles; by apply (lookup_insert_ne (M := gmap string))).
  assert (forall p, honest_roles E2 c r P now D p) as Hhr.
  { intros p. split; [exact Hserved|]. intros n g Hg. apply Hroles in Hg as [[-> Hg]|Hg].
    - split.
      + intros d Hdel. rewrite Hg in Hdel. cbn [metadata_kept md_signed signed_kept targets_spec targets_kept tg_delegations] in Hdel. rewrite one_signed in Hdel. destruct (tg_delegations (md_signed (sm_targets S))) as [d0|] eqn:E0; [|done]. cbn [option_map] in Hdel. injection Hdel as <-.
        destruct Hd as ((_ & Hdr & _) & _). unfold dels in Hdr. rewrite E0 in Hdr. cbn [default from_option] in Hdr. unfold id in Hdr. unfold roles_for_target. cbn [delegations_kept d_roles]. rewrite Hdr. cbn [option_map]. by eexists.
      + intros n term Hdel _. rewrite Hg in *. apply (delegated_kept S l) in Hdel as (x & Hx & <- & _); [|done]. destruct (D2 x Hx) as (f' & Hf' & F1 & _). exists f'. split; [rewrite Hroles2; [done|]|].
        * intros He. apply Htn. rewrite <- He. by apply elem_of_list_In, in_map, elem_of_list_In.
        * rewrite F1. apply targets_signs_ok. rewrite targets_verify_kept by constructor. apply targets_signs_ok. by apply (role_signed S l).
    - pose proof (Hleaf n g Hg) as Hn. split; [intros d; by rewrite Hn|]. intros n' term (d & Hdel & _). by rewrite Hn in Hdel. }
  destruct (C103_search E2 c r0 r P now D i path earlier Hworks) as (i' & t & w & w' & o & li & v & H1 & H2 & H3 & H4 & H5 & H6); [apply Forall_forall; intros p _; apply Hhr|].
  exists i', t, w, w', o. split; [done|]. split; [done|]. split; [done|].
  assert (t_targets (everything r P D now) !! "targets" = Some (metadata_kept (one key (kr "targets") (sm_targets S)))) as Htop by (apply everything_lookup; eexists; split; [unfold all_roles; apply (lookup_insert (M := gmap string))|cbn [rf_md]; by rewrite P3]).
  assert (forall o', entry (metadata_kept (one key (kr "targets") (sm_targets S))) path o' <-> o' = option_map (targetfile_kept path) (f path) /\ f path <> None) as Hent.
  { intros o'. rewrite entry_kept, Hmt. cbn [mget]. rewrite Hft. destruct (f path) as [tf|]; cbn [option_map]; split; [intros (o0 & [= <-] & ->); done|intros [-> _]; by exists (Some tf)|by intros (? & ? & _)|by intros [_ ?]]. }
  assert (forall names term, children (metadata_kept (one key (kr "targets") (sm_targets S))) path names term -> NoDup names /\ (forall n, n ∈ names -> exists x, x ∈ l /\ name_of x = n /\ covers x.1.1 path) /\
    ((forall x, x ∈ l -> covers x.1.1 path -> name_of x ∈ names) \/ (term = true /\ exists x, x ∈ l /\ covers x.1.1 path /\ dr_terminating x.1.1 = true /\ name_of x ∈ names))) as Hchild.
  { intros names0 term (order & O1 & O2 & O3). setoid_rewrite (delegated_kept S l (kr "targets") path) in O2; [|done].
    assert (forall n b, (n, b) ∈ order -> exists x, x ∈ l /\ name_of x = n /\ covers x.1.1 path) as O4 by (intros n b Hnb; apply O2 in Hnb as (x & X1 & X2 & X3 & _); by exists x).
    destruct O3 as [(_ & -> & _)|(-> & pre & n & post & -> & -> & _)].
    - split; [done|]. split.
      + intros n Hn. apply elem_of_list_In, in_map_iff in Hn as ([n' b] & <- & Hn%elem_of_list_In). by apply (O4 n' b).
      + left. intros x Hx Hcov. apply elem_of_list_In, in_map_iff. exists (name_of x, dr_terminating x.1.1). split; [done|]. apply elem_of_list_In, O2. by exists x.
    - split; [|split].
      + rewrite map_app in O1. cbn [map fst] in O1. apply NoDup_app in O1 as (A1 & A2 & A3). apply NoDup_app. split; [done|]. split; [|apply NoDup_singleton]. intros z Hz ->%elem_of_list_singleton. apply (A2 n Hz). left.
      + intros z [Hz|Hz]%elem_of_app; [|apply elem_of_list_singleton in Hz as ->; apply (O4 n true); apply elem_of_app; right; left]. apply elem_of_list_In, in_map_iff in Hz as ([n' b] & <- & Hn%elem_of_list_In). apply (O4 n' b), elem_of_app. by left.
      + right. split; [done|]. destruct (proj1 (O2 n true)) as (x & X1 & X2 & X3 & X4); [apply elem_of_app; right; left|]. exists x. split; [done|]. split; [done|]. split; [done|]. rewrite X2. apply elem_of_app. right. by left. }
  assert (forall x, x ∈ l -> exists m, t_targets (everything r P D now) !! name_of x = Some m /\ tg_delegations (md_signed m) = None /\ m = metadata_kept (one key x.2 (md_of x))) as Hx0.
  { intros x Hx. destruct (D2 x Hx) as (g & Hg & F1 & _). exists (rf_md g). split; [apply everything_lookup; exists g; split; [|done]; rewrite Hroles2; [done|]; intros He; apply Htn; rewrite <- He; by apply elem_of_list_In, in_map, elem_of_list_In|]. split; [by apply (Hleaf (name_of x))|done]. }
  assert (forall x n m, x ∈ l -> name_of x = n -> t_targets (everything r P D now) !! n = Some m -> m = metadata_kept (one key x.2 (md_of x))) as Hx1.
  { intros x n m Hx <- Hm. destruct (Hx0 x Hx) as (m' & Hm' & _ & ->). rewrite Hm in Hm'. by injection Hm' as ->. }
  assert (forall x tf, x ∈ l -> knows x.1.2 path tf -> exists m, t_targets (everything r P D now) !! name_of x = Some m /\ entry m path (Some (targetfile_kept path tf))) as Hknow.
  { intros x tf Hx Hk. destruct (Hx0 x Hx) as (m & Hm & _ & ->). eexists. split; [exact Hm|]. apply entry_kept. exists (Some tf). done. }
  assert (forall names term, children (metadata_kept (one key (kr "targets") (sm_targets S))) path names term -> (forall n m o, n ∈ names -> t_targets (everything r P D now) !! n = Some m -> ~ entry m path o) ->
    (forall x tf, x ∈ l -> covers x.1.1 path -> ~ knows x.1.2 path tf) \/ exists x, x ∈ l /\ covers x.1.1 path /\ dr_terminating x.1.1 = true /\ forall tf, ~ knows x.1.2 path tf) as Hnone.
  { intros names term Hch Hno. destruct (Hchild names term Hch) as (_ & _ & [Hall|(_ & x & X1 & X2 & X3 & X4)]).
    - left. intros x tf Hx Hcov Hk. destruct (Hknow x tf Hx Hk) as (m & Hm & He). by apply (Hno _ _ _ (Hall x Hx Hcov) Hm He).
    - right. exists x. split; [done|]. split; [done|]. split; [done|]. intros tf Hk. destruct (Hknow x tf X1 Hk) as (m & Hm & He). by apply (Hno _ _ _ X4 Hm He). }
  assert (forall names term l' v', children (metadata_kept (one key (kr "targets") (sm_targets S))) path names term -> search (everything r P D now) path ["targets"] names l' v' ->
    (exists x tf, v' = Found (Some (targetfile_kept path tf)) /\ x ∈ l /\ covers x.1.1 path /\ knows x.1.2 path tf) \/ v' = Failed \/
    ((v' = Exhausted \/ v' = OutOfBudget) /\ (v' = Exhausted \/ Z.of_nat (List.length l) <= Z.of_nat (List.length l') -> (forall x tf, x ∈ l -> covers x.1.1 path -> ~ knows x.1.2 path tf) \/ exists x, x ∈ l /\ covers x.1.1 path /\ dr_terminating x.1.1 = true /\ forall tf, ~ knows x.1.2 path tf))) as Hsub.
  { intros names term l' v' Hch Hs. destruct (Hchild names term Hch) as (N1 & N2 & _). destruct (leaf_search (everything r P D now) path names ["targets"] l' v') as [(o' & n & m & -> & Hn & Hm & He)|[->|(Hv & Hno & rest & Hr & Hrest)]]; [|done|exact Hs| | |].
    - intros n Hn. destruct (N2 n Hn) as (x & Hx & <- & _). split; [|destruct (Hx0 x Hx) as (m & Hm & Hd0 & _); by exists m]. intros He%elem_of_list_singleton. apply Htn. rewrite <- He. by apply elem_of_list_In, in_map, elem_of_list_In.
    - left. destruct (N2 n Hn) as (x & Hx & Hxn & Hcov). rewrite (Hx1 x n m Hx Hxn Hm) in He. apply entry_kept in He as (o0 & Ho & ->). destruct (L1 x Hx) as (_ & _ & (Hwf & _) & _). cbn [md_of md_signed] in Ho.
      assert (exists tf, o0 = Some tf) as [tf ->]. { destruct o0 as [tf|]; [by exists tf|]. exfalso. destruct Hwf as (_ & _ & _ & _ & _ & Hwf & _). exact (Hwf path Ho). }
      exists x, tf. done.
    - right. by left.
    - right. right. split; [done|]. intros Hlen. apply (Hnone names term Hch). assert (rest = []) as ->; [|by rewrite Hr, app_nil_r].
      destruct Hlen as [->|Hlen]; [by apply Hrest|]. assert (List.length names <= List.length l)%nat as Hle.
      { rewrite <- (map_length name_of l). apply (submseteq_length (A := string)). apply NoDup_submseteq; [done|]. intros n Hn. destruct (N2 n Hn) as (x & Hx & <- & _). by apply elem_of_list_In, in_map, elem_of_list_In. }
      rewrite Hr, app_length in Hle. destruct rest; [done|]. cbn [List.length] in Hle. lia. }
  clear Hnone Hknow Hchild Hhr Hserved Hworks.
  inversion H4 as [|? ?|? ? ? ? ? Hx|? ? ?|? ? ? m' o' Hx Hm' He|? ? ? m' ns term l' v' Hx Hm' Hno Hch Hs1 Hv|? ? ? m' ns l' Hx Hm' Hno Hch Hs1|? ? ? m' ns l1 l2 v' Hx Hm' Hno Hch Hs1 Hs2]; subst; try rewrite Htop in Hm'; try injection Hm' as <-.
  - exfalso. destruct H6 as [_ H6]. cbn [List.length] in H6. lia.
  - by apply elem_of_nil in Hx.
  - done.
  - apply Hent in He as [-> Hf]. destruct (f path) as [tf|]; [done|by destruct Hf].
  - assert (f path = None) as ->. { destruct (f path) as [tf|] eqn:Ef; [|done]. exfalso. apply (Hno (Some (targetfile_kept path tf))). apply (proj2 (Hent _)). rewrite ?Ef. done. }
    destruct (Hsub _ _ _ _ Hch Hs1) as [(x & tf & -> & Q)|[->|([->| ->] & Q)]]; [left; exists x, tf; destruct Q as (? & ? & ?); done|done|done|]. right. destruct H6 as [-> H6]. split; [by eexists|]. apply Q. right. cbn [List.length] in H6. lia.
  - assert (f path = None) as ->. { destruct (f path) as [tf|] eqn:Ef; [|done]. exfalso. apply (Hno (Some (targetfile_kept path tf))). apply (proj2 (Hent _)). rewrite ?Ef. done. }
    destruct (Hsub _ _ _ _ Hch Hs1) as [(x & tf & [=] & Q)|[[=]|(_ & Q)]]. right. rewrite H6. split; [by eexists|]. apply Q. by left.
  - assert (f path = None) as ->. { destruct (f path) as [tf|] eqn:Ef; [|done]. exfalso. apply (Hno (Some (targetfile_kept path tf))). apply (proj2 (Hent _)). rewrite ?Ef. done. }
    destruct (Hsub _ _ _ _ Hch Hs1) as [(x & tf & [=] & Q)|[[=]|(_ & Q)]]. right. apply search_none in Hs2 as [-> [->| ->]]; [rewrite H6|destruct H6 as [-> _]]; (split; [by eexists|]; apply Q; by left).
Qed.
End Client.
End Roles.
