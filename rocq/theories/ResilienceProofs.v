(** * Proofs of compromise resilience (C95) *)
From stdpp Require Import base gmap strings list.
From Coq Require Import ZArith Lia String.
From Verif Require Import GoBase GoTime Types Marshal Keys Metadata TrustedMetadata Fetcher Updater SpecSig SpecBasic SpecTrusted SpecUpdater SpecResilience SigProofs TrustedProofs UpdaterProofs ApiProofs ClaimProofs FedProofs.
Open Scope Z_scope.

Section Proofs.
Context {CR : Crypto} (stolen : pubkey -> bool) (made : pubkey -> string -> Prop).
Local Notation unforged := (unforged stolen made).
Local Notation few_stolen := (few_stolen stolen).
Local Notation owner_signed := (owner_signed stolen made).
Local Notation approved := (approved stolen made).

Lemma resolves_fun keys id pk pk' : resolves keys id pk -> resolves keys id pk' -> pk = pk'.
Proof. intros (m & k & H1 & H2 & H3) (m' & k' & H1' & H2' & H3'). congruence. Qed.

Definition stolen_id (keys : gomap (option key)) (id : string) : bool :=
  match mget keys id with Some (Some k) => match to_public_key k with Ok pk => stolen pk | _ => false end | _ => false end.
Lemma stolen_id_spec keys id pk : resolves keys id pk -> stolen_id keys id = stolen pk.
Proof. intros (m & k & -> & Hk & Hp). unfold stolen_id. cbn. by rewrite Hk, Hp. Qed.

Lemma honest_signer {D} `{RoleTy D} keys ids thr (m : metadata D) :
  accepts keys ids thr (default [] (md_sigs m)) (signing_payload (md_signed m)) -> unforged m -> few_stolen keys ids thr -> owner_signed keys ids m.
Proof.
  intros (_ & _ & p & Hp & good & Hnd & Hg & Hlen) Hu Hf.
  destruct (decide (Forall (fun id => stolen_id keys id = true) good)) as [Hall|Hex].
  - exfalso. enough (Z.of_nat (List.length good) < thr) by lia. apply Hf; [done|]. intros id Hid. destruct (Hg id Hid) as [Hi (pk & sig & Hr & _)]. split; [done|].
    exists pk. split; [done|]. rewrite Forall_forall in Hall. rewrite <-(stolen_id_spec keys id pk Hr). by apply Hall.
  - apply not_Forall_Exists in Hex; [|apply _]. apply Exists_exists in Hex as (id & Hid & Hs). cbn in Hs. destruct (Hg id Hid) as [Hi (pk & sig & Hr & Hl & Hv)].
    assert (stolen pk = false) as Hst. { rewrite (stolen_id_spec keys id pk Hr) in Hs. by destruct (stolen pk). }
    exists id, pk, p. split; [done|]. split; [done|]. split; [done|]. split; [done|].
    destruct (Hu pk p sig Hp) as [Hx|Hx]; [|done|congruence|done].
    destruct Hl as [(l1 & s & l2 & Hl & _ & Hsig & _)|[_ ->]]; [right|by left]. exists s. split; [|done]. rewrite Hl. set_solver.
Qed.
Lemma owner_approved {D} `{RoleTy D} keys ids (m : metadata D) : owner_signed keys ids m -> approved m.
Proof. intros (id & pk & p & _ & _ & Hs & Hp & Hm). by exists pk, p. Qed.

Lemma root_honest {D} `{RoleTy D} r name (m : metadata D) : root_signs r name m -> unforged m -> root_safe stolen r name -> root_vouches stolen made r name m.
Proof. intros (keys & ids & thr & Hd & Ha) Hu Hs. exists keys, ids, thr. split; [done|]. apply (honest_signer keys ids thr); [done|done|by apply Hs]. Qed.
Lemma targets_honest {D} `{RoleTy D} d name (m : metadata D) : targets_signs d name m -> unforged m -> targets_safe stolen d name -> targets_vouches stolen made d name m.
Proof. intros (keys & ids & thr & Hd & Ha) Hu Hs. exists keys, ids, thr. split; [done|]. apply (honest_signer keys ids thr); [done|done|by apply Hs]. Qed.
Lemma root_vouches_approved {D} `{RoleTy D} r name (m : metadata D) : root_vouches stolen made r name m -> approved m.
Proof. intros (keys & ids & thr & _ & Ho). by eapply owner_approved. Qed.
Lemma targets_vouches_approved {D} `{RoleTy D} d name (m : metadata D) : targets_vouches stolen made d name m -> approved m.
Proof. intros (keys & ids & thr & _ & Ho). by eapply owner_approved. Qed.

(** ** The documents a trusted set holds are among those it was shown *)
Definition held_from (shown : string -> Prop) (r0 : metadata root_t) (t : trusted) : Prop :=
  (t_root t = r0 \/ exists data, shown data /\ from_bytes data = Ok (t_root t)) /\
  (forall ts, t_timestamp t = Some ts -> exists data, shown data /\ from_bytes data = Ok ts) /\
  (forall sn, t_snapshot t = Some sn -> exists data, shown data /\ from_bytes data = Ok sn) /\
  (forall name m, t_targets t !! name = Some m -> exists data, shown data /\ from_bytes data = Ok m).
Lemma calls_on_calls shown t t' : calls_on shown t t' -> calls t t'.
Proof. induction 1; [constructor|by constructor]. Qed.
Lemma calls_on_inv (P : trusted -> Prop) shown t t' : calls_on shown t t' -> P t -> in_int64 (rt_version (md_signed (t_root t))) = true ->
  (forall s, P s -> in_int64 (rt_version (md_signed (t_root s))) = true ->
    (forall data r, shown data -> root_ok s data r -> P (set_root s r)) /\
    (forall data ts, shown data -> timestamp_ok s data ts -> P (set_timestamp s ts)) /\
    (forall data tr sn, shown data -> snapshot_ok s data tr sn -> P (set_snapshot s sn)) /\
    (forall data role dl m, shown data -> targets_ok s data role dl m -> P (set_targets s role m))) ->
  P t' /\ in_int64 (rt_version (md_signed (t_root t'))) = true.
Proof.
  intros Hc HP Hv Hs. induction Hc as [t|t t' c Hc IH Hp Hd]; [done|]. destruct (IH HP Hv) as [HP' Hv']. destruct (Hs t' HP' Hv') as (H1 & H2 & H3 & H4).
  destruct (step_cases t' c Hv' Hp) as [->|[(data & r & -> & Hok & ->)|[(data & ts & -> & Hok & ->)|[(order & data & tr & sn & -> & Hok & ->)|(data & role & dl & m & -> & Hok & ->)]]]]; cbn [call_data] in Hd.
  - done.
  - split; [by eapply H1|]. destruct Hok as (_ & Hx & _). by eapply document_range.
  - split; [by eapply H2|done].
  - split; [by eapply H3|done].
  - split; [by eapply H4|done].
Qed.
Lemma calls_on_held shown t t' : calls_on shown t t' -> in_int64 (rt_version (md_signed (t_root t))) = true -> held_from shown (t_root t) t -> held_from shown (t_root t) t'.
Proof.
  intros Hc Hv Hh. apply (calls_on_inv (held_from shown (t_root t)) shown t t' Hc Hh Hv). clear. intros s (H1 & H2 & H3 & H4) _. split; [|split; [|split]].
  - intros data r Hs (_ & [Hd _] & _). split; [right; by exists data|done].
  - intros data ts Hs (_ & _ & [Hd _] & _). split; [done|]. split; [|done]. cbn. intros x [= <-]. by exists data.
  - intros data tr sn Hs (ts & _ & _ & _ & _ & [Hd _] & _). split; [done|]. split; [done|]. split; [|done]. cbn. intros x [= <-]. by exists data.
  - intros data role dl m Hs (sn & f & _ & _ & _ & _ & [Hd _] & _). split; [done|]. split; [done|]. split; [done|]. cbn. intros name m' [[_ <-]|[_ Hl]]%lookup_insert_Some; [by exists data|by eapply H4].
Qed.

(** ** Roots *)
Section Intact.
Context (intact : string -> Prop) (shown : string -> Prop).
Context (Huf : genuine stolen made shown) (Hroot : intact "root") (Hcr : careful_roots stolen made shown intact) (Hct : careful_targets stolen made shown intact).

Lemma roots_kept t t' : calls_on shown t t' -> in_int64 (rt_version (md_signed (t_root t))) = true -> (forall name, intact name -> root_safe stolen (t_root t) name) ->
  (t_root t' = t_root t \/ approved (t_root t')) /\ forall name, intact name -> root_safe stolen (t_root t') name.
Proof.
  intros Hc Hv Hs. apply (calls_on_inv (fun s => (t_root s = t_root t \/ approved (t_root s)) /\ forall name, intact name -> root_safe stolen (t_root s) name) shown t t' Hc); [by auto|done|].
  clear Hc t'. intros s [H1 H2] _. split; [|split; [|split]]; try done.
  intros data r Hd (_ & [Hf _] & Hsg & _). cbn. assert (approved r) as Ha. { eapply root_vouches_approved. apply (root_honest (t_root s) "root"); [done|by eapply (proj1 Huf)|by apply H2]. }
  split; [by right|]. by eapply Hcr.
Qed.
Lemma trail_exists t name : authorised t name -> exists l, trail t name l.
Proof. induction 1 as [name m H1 H2|d dm name m Ha [l IH] H1 H2 H3]; [exists [name]; by eapply trail_root|exists (name :: l); by eapply trail_delegated]. Qed.
Lemma vtrail_loaded t name l : vouched_trail stolen made t name l -> forall m, t_targets t !! name = Some m -> approved m.
Proof. intros H m Hm. destruct H as [name m' Hm' Hr|d dm name m' l Hv Hd Hm' Hr]; assert (m' = m) as -> by congruence; [by eapply root_vouches_approved|by eapply targets_vouches_approved]. Qed.
Lemma trail_vouched t name l : trail t name l -> (forall n, intact n -> root_safe stolen (t_root t) n) -> (forall n m, t_targets t !! n = Some m -> exists data, shown data /\ from_bytes data = Ok m) ->
  Forall intact l -> vouched_trail stolen made t name l.
Proof.
  intros Ht Hs Hx. assert (forall n m, t_targets t !! n = Some m -> unforged m) as Hu. { intros n m Hm. destruct (Hx n m Hm) as (data & Hsh & Hf). by eapply (proj2 (proj2 (proj2 Huf))). }
  induction Ht as [name m H1 H2|d dm name m l Ht IH H1 H2 H3]; intros Hi.
  - apply Forall_cons in Hi as [Hi _]. eapply vtrail_root; [done|]. apply root_honest; [done|by eapply Hu|by apply Hs].
  - apply Forall_cons in Hi as [Hi Hl]. eapply vtrail_delegated; [by apply IH|done|done|]. apply targets_honest; [done|by eapply Hu|]. destruct (Hx _ _ H1) as (data & Hsh & Hf). eapply Hct; [done|done| |done]. eapply vtrail_loaded; [by apply IH|done].
Qed.

(** ** Sessions of the client *)
Lemma shown_calls E c now w : shown_session shown E c now w -> session E c now w /\ exists t0, tm_new (c_trusted_root c) now = Ok t0 /\ calls_on shown t0 (w_trusted w).
Proof.
  induction 1 as [i i' t H|w a w' o Hs [IHs (t0 & Ht & IH)] H Hd|w i Hs [IHs IH]].
  - split; [by econstructor|]. exists t. split; [|constructor]. apply updater_new_ok in H as [H _]. done.
  - split; [rewrite <-(fst_eq _ _ _ H); by constructor|]. exists t0. split; [done|]. eapply calls_on_trans; [exact IH|]. apply api_fed in H as [_ H]. by eapply calls_on_mono; [exact Hd|].
  - split; [by constructor|done].
Qed.
Lemma session_resilient E c now w r0 : shown_session shown E c now w -> from_bytes (c_trusted_root c) = Ok r0 -> (forall name, intact name -> root_safe stolen r0 name) ->
  (t_root (w_trusted w) = r0 \/ approved (t_root (w_trusted w))) /\
  (forall ts, t_timestamp (w_trusted w) = Some ts -> intact "timestamp" -> root_vouches stolen made (t_root (w_trusted w)) "timestamp" ts) /\
  (forall sn, t_snapshot (w_trusted w) = Some sn -> intact "snapshot" -> root_vouches stolen made (t_root (w_trusted w)) "snapshot" sn) /\
  (forall m, t_targets (w_trusted w) !! "targets" = Some m -> intact "targets" -> root_vouches stolen made (t_root (w_trusted w)) "targets" m) /\
  (forall name m, t_targets (w_trusted w) !! name = Some m -> exists l, trail (w_trusted w) name l /\ (Forall intact l -> vouched_trail stolen made (w_trusted w) name l)).
Proof.
  intros Hs Hb Hsafe. destruct (shown_calls _ _ _ _ Hs) as [Hse (t0 & Ht & Hc)]. pose proof (session_reachable E c now w Hse) as Hre. pose proof (session_dinv E c now w Hse) as (_ & _ & Htg & Hd).
  pose proof (new_range _ _ _ Ht) as Hv. apply tm_new_spec in Ht as (r & [Hr _] & _ & ->). rewrite Hb in Hr. injection Hr as <-.
  assert (held_from shown r0 (w_trusted w)) as (Hh1 & Hh2 & Hh3 & Hh4).
  { apply (calls_on_held shown _ _ Hc Hv). split; [by left|]. split; [done|]. split; [done|]. intros name m Hx. cbn in Hx. by rewrite lookup_empty in Hx. }
  destruct (roots_kept _ _ Hc Hv Hsafe) as [Hk1 Hk2]. destruct (toplevel_inv _ Hre) as (_ & H2 & H3 & _).
  split; [exact Hk1|]. split; [|split; [|split]].
  - intros ts Hts Hi. destruct (Hh2 ts Hts) as (data & Hsh & Hf). apply root_honest; [by apply H2|by eapply (proj1 (proj2 Huf))|by apply Hk2].
  - intros sn Hsn Hi. destruct (Hh3 sn Hsn) as (data & Hsh & Hf). apply root_honest; [by apply H3|by eapply (proj1 (proj2 (proj2 Huf)))|by apply Hk2].
  - intros m Hm Hi. destruct (Hh4 _ m Hm) as (data & Hsh & Hf). apply root_honest; [by apply Htg|by eapply (proj2 (proj2 (proj2 Huf)))|by apply Hk2].
  - intros name m Hm. destruct (Hd name m Hm) as (_ & _ & _ & _ & _ & _ & Ha). destruct (trail_exists _ _ Ha) as [l Hl]. exists l. split; [done|]. by apply trail_vouched.
Qed.
End Intact.

(** ** Checking examples *)
Lemma few_stolen_count keys ids thr : Z.of_nat (List.length (filter (fun id => stolen_id keys id = true) (remove_dups ids))) < thr -> few_stolen keys ids thr.
Proof.
  intros H l Hnd Hl. enough (List.length l <= List.length (filter (fun id => stolen_id keys id = true) (remove_dups ids)))%nat by lia.
  apply submseteq_length, NoDup_submseteq; [done|]. intros id Hid. destruct (Hl id Hid) as (H1 & pk & H2 & H3). apply elem_of_list_filter. split; [by rewrite (stolen_id_spec _ _ _ H2)|by apply elem_of_remove_dups].
Qed.
Definition few_b (keys : gomap (option key)) (ids : list string) (thr : Z) : bool := Z.of_nat (List.length (filter (fun id => stolen_id keys id = true) (remove_dups ids))) <? thr.
Definition root_safe_b (weak : list string) (r : metadata root_t) : bool :=
  forallb (fun p => bool_decide (p.1 ∈ weak) || match p.2 with Some ro => few_b (rt_keys (md_signed r)) (default [] (r_keyids ro)) (r_threshold ro) | None => true end) (map_to_list (default ∅ (rt_roles (md_signed r)))).
Lemma root_safe_sound weak r : root_safe_b weak r = true -> forall name, name ∉ weak -> root_safe stolen r name.
Proof.
  intros H name Hw keys ids thr (roles & ro & Hr & Hl & -> & -> & ->). unfold root_safe_b in H. rewrite forallb_forall in H. rewrite Hr in H. cbn [default] in H.
  specialize (H (name, Some ro)). apply few_stolen_count. apply Z.ltb_lt. destruct (bool_decide (name ∈ weak)) eqn:Hb; [by apply bool_decide_eq_true in Hb|].
  cbn in H. rewrite Hb in H. apply H. apply elem_of_list_In, elem_of_map_to_list. done.
Qed.
Definition targets_safe_b (weak : list string) (m : metadata targets_t) : bool :=
  match tg_delegations (md_signed m) with
  | None => true
  | Some d => match d_roles d with
              | Some l => forallb (fun r => bool_decide (dr_name r ∈ weak) || few_b (d_keys d) (default [] (dr_keyids r)) (dr_threshold r)) l
              | None => match d_succinct d with None => true | Some s => few_b (d_keys d) (default [] (sr_keyids s)) (sr_threshold s) end
              end
  end.
Lemma targets_safe_sound weak m : targets_safe_b weak m = true -> forall name, name ∉ weak -> targets_safe stolen m name.
Proof.
  intros H name Hw keys ids thr (d & Hd & -> & Hx). unfold targets_safe_b in H. rewrite Hd in H. destruct Hx as [(l1 & r & l2 & Hr & _ & Hn & -> & ->)|(s & Hr & Hs & -> & ->)].
  - rewrite Hr in H. rewrite forallb_forall in H. specialize (H r). apply few_stolen_count. apply Z.ltb_lt. destruct (bool_decide (dr_name r ∈ weak)) eqn:Hb; [apply bool_decide_eq_true in Hb; by rewrite Hn in Hb|].
    cbn in H. apply H. apply elem_of_list_In. set_solver.
  - rewrite Hr, Hs in H. apply few_stolen_count. by apply Z.ltb_lt.
Qed.
End Proofs.
