(** * Metadata without unrecognised fields and custom data: it can always be written and read back *)
From stdpp Require Import base gmap strings list.
From Coq Require Import ZArith Lia Ascii String.
From Verif Require Import GoBase GoStr Json GoTime Types Marshal Keys Metadata TrustedMetadata SpecUtf8 SpecText JsonText SpecSerial JsonProofs SerialProofs SpecRound RoundBase RoundProofs RoundStructs CanonProofs RoundKept LoadBase LoadProofs
  SpecBasic BasicProofs SpecSig SigProofs SpecKeys KeysProofs SpecTrusted TrustedProofs SpecPublish PublishProofs.
Open Scope Z_scope.

Definition no_extra (u : unrec) : Prop := mmap u = ∅.
Lemma obj_of_no_extra u known : no_extra u -> obj_of u known = obj_of None known.
Proof. unfold no_extra, obj_of. destruct u as [m|]; cbn; [|done]. intros ->. by rewrite map_to_list_empty. Qed.
Lemma extra_none names u : no_extra u -> extra_ok names u.
Proof. unfold no_extra. intros H k v Hk. destruct u as [m|]; cbn in *; [|done]. subst m. by rewrite lookup_empty in Hk. Qed.
Lemma no_extra_kept u : no_extra u -> no_extra (kept_extra u).
Proof. done. Qed.

(** ** No unrecognised fields *)
Definition bare_key (k : key) : Prop := no_extra (k_unrec k) /\ no_extra (kv_unrec (k_val k)).
Definition bare_keys (m : gomap (option key)) : Prop := forall i k, mget m i = Some (Some k) -> bare_key k.
Definition bare_roles (m : gomap (option role)) : Prop := forall n r, mget m n = Some (Some r) -> no_extra (r_unrec r).
Definition bare_files (m : gomap (option metafile)) : Prop := forall n f, mget m n = Some (Some f) -> no_extra (mf_unrec f).
Definition bare_root (x : root_t) : Prop := no_extra (rt_unrec x) /\ bare_keys (rt_keys x) /\ bare_roles (rt_roles x).
Definition bare_snapshot (x : snapshot_t) : Prop := no_extra (sn_unrec x) /\ bare_files (sn_meta x).
Definition bare_timestamp (x : timestamp_t) : Prop := no_extra (ts_unrec x) /\ bare_files (ts_meta x).
Definition bare_delegations (d : delegations) : Prop :=
  no_extra (d_unrec d) /\ bare_keys (d_keys d) /\ Forall (fun r => no_extra (dr_unrec r)) (slist (d_roles d)) /\ d_succinct d = None.
Definition bare_targets (x : targets_t) : Prop :=
  no_extra (tg_unrec x) /\ (forall n f, mget (tg_targets x) n = Some (Some f) -> no_extra (tf_unrec f) /\ tf_custom f = None) /\
  forall d, tg_delegations x = Some d -> bare_delegations d.

Ltac fields := repeat (first [apply Forall_nil_2|apply Forall_cons_2; cbn [snd]]); try (first [apply easy_str; lia|apply easy_bool; lia|apply easy_strings; lia|apply easy_int; [lia|done]]).
Lemma easy_bare_key k : bare_key k -> easy 2 (key_marshal k).
Proof. intros [H1 H2]. unfold key_marshal, keyval_marshal. rewrite (obj_of_no_extra (k_unrec k)), (obj_of_no_extra (kv_unrec (k_val k))) by done. apply easy_known; [lia|]. fields. apply easy_known; [lia|]. fields. Qed.
Lemma easy_keys m : bare_keys m -> easy 3 (enc_keys m).
Proof. intros H. apply easy_ptrs; [lia|]. intros i k Hi. by apply easy_bare_key, (H i). Qed.
Lemma easy_hashes D h : 1 <= D -> easy D (enc_hashes h).
Proof. intros HD. apply easy_map; [lia|]. intros k v _. apply easy_str. lia. Qed.
Lemma easy_files m : bare_files m -> ptrs_ok metafile_wf m -> easy 3 (enc_meta m).
Proof.
  intros H Hw. apply easy_ptrs; [lia|]. intros n f Hn. destruct (Hw n (Some f) Hn) as [_ Hf]. destruct (Hf f eq_refl) as (H1 & _ & H2 & _). unfold metafile_marshal. rewrite obj_of_no_extra by (by apply (H n)).
  apply easy_known; [lia|]. apply Forall_app. split; [destruct (_ =? _); fields|]. apply Forall_app. split; [destruct (decide _); fields; apply easy_hashes; lia|fields].
Qed.
Lemma easy_root x : root_wf x -> bare_root x -> exists j, signed_marshal x = Ok j /\ easy 4 j.
Proof.
  intros (_ & _ & Hv & Ht & _ & Hr & _) (Hu & Hk & Hb). destruct (enc_time_ok _ Ht) as (s & Hs & _). change (signed_marshal x) with (root_marshal x). unfold root_marshal. rewrite Hs. cbn [obind].
  rewrite obj_of_no_extra by done. eexists. split; [done|]. apply easy_known; [lia|]. fields; [by apply easy_keys|]. apply easy_ptrs; [lia|]. intros n r Hn. destruct (Hr n (Some r) Hn) as [_ Hf]. destruct (Hf r eq_refl) as (_ & H2 & _).
  unfold role_marshal. rewrite obj_of_no_extra by (by apply (Hb n)). apply easy_known; [lia|]. fields.
Qed.
Lemma easy_bare_snapshot x : snapshot_wf x -> bare_snapshot x -> exists j, signed_marshal x = Ok j /\ easy 4 j.
Proof.
  intros (_ & _ & Hv & Ht & Hm & _) (Hu & Hb). destruct (enc_time_ok _ Ht) as (s & Hs & _). change (signed_marshal x) with (snapshot_marshal x). unfold snapshot_marshal. rewrite Hs. cbn [obind].
  rewrite obj_of_no_extra by done. eexists. split; [done|]. apply easy_known; [lia|]. fields. by apply easy_files.
Qed.
Lemma easy_bare_timestamp x : timestamp_wf x -> bare_timestamp x -> exists j, signed_marshal x = Ok j /\ easy 4 j.
Proof.
  intros (_ & _ & Hv & Ht & Hm & _) (Hu & Hb). destruct (enc_time_ok _ Ht) as (s & Hs & _). change (signed_marshal x) with (timestamp_marshal x). unfold timestamp_marshal. rewrite Hs. cbn [obind].
  rewrite obj_of_no_extra by done. eexists. split; [done|]. apply easy_known; [lia|]. fields. by apply easy_files.
Qed.
Lemma easy_roles l : Forall delegatedrole_wf l -> Forall (fun r => no_extra (dr_unrec r)) l -> exists js, oseq (map delegatedrole_marshal l) = Ok js /\ Forall (easy 2) js.
Proof.
  induction l as [|r l IH]; intros Hw Hb; [exists []; split; [done|constructor]|]. inversion_clear Hw as [|? ? Hr Hl]. inversion_clear Hb as [|? ? Br Bl]. destruct (IH Hl Bl) as (js & Hj & Hf).
  destruct Hr as (_ & _ & Ht & _ & _ & Hp & _). cbn [map oseq].
  assert (exists j, delegatedrole_marshal r = Ok j /\ easy 2 j) as (j & -> & He).
  { unfold delegatedrole_marshal. destruct (dr_paths r), (dr_hash_prefixes r); try (destruct Hp; discriminate); rewrite (obj_of_no_extra (dr_unrec r)) by done; eexists; (split; [done|]); (apply easy_known; [lia|]); cbn [app]; fields. }
  cbn [obind]. rewrite Hj. cbn [obind]. exists (j :: js). split; [done|]. by constructor.
Qed.
Lemma easy_bare_targets x : targets_wf x -> bare_targets x -> exists j, signed_marshal x = Ok j /\ easy 5 j.
Proof.
  intros (_ & _ & Hv & Ht & Hf & Hn & Hd & _) (Hu & Hb & Hbd). destruct (enc_time_ok _ Ht) as (s & Hs & _). change (signed_marshal x) with (targets_marshal x). unfold targets_marshal. rewrite Hs. cbn [obind].
  assert (easy 4 (enc_map (enc_ptr targetfile_marshal) (tg_targets x))) as Hfiles.
  { apply easy_ptrs; [lia|]. intros n f Hnf. destruct (Hf n (Some f) Hnf) as [_ Hw]. destruct (Hw f eq_refl) as (Hlen & _). destruct (Hb n f Hnf) as [Hu' Hc]. unfold targetfile_marshal. rewrite obj_of_no_extra, Hc by done.
    apply easy_known; [lia|]. cbn [app]. fields. apply easy_hashes. lia. }
  destruct (tg_delegations x) as [d|] eqn:Ed.
  - destruct (Hd d eq_refl) as (_ & Hr & _). destruct (Hbd d eq_refl) as (Hu' & Hk & Hbr & Hsu). unfold delegations_marshal.
    assert (exists tail, (match d_roles d, d_succinct d with
               | Some l, _ => let! r := oseq (map delegatedrole_marshal l) in Ok [("roles", JArr r)]
               | None, Some s => Ok [("succinct_roles", succinct_marshal s)]
               | None, None => Ok []
               end) = Ok tail /\ Forall (fun kv => easy 3 kv.2) tail) as (tail & -> & Htail).
    { rewrite Hsu. destruct (d_roles d) as [l|]; [|by exists []]. destruct (easy_roles l Hr Hbr) as (js & -> & Hjs). cbn [obind]. eexists. split; [done|]. constructor; [|constructor]. apply easy_arr; [lia|done]. }
    cbn [obind]. rewrite (obj_of_no_extra (d_unrec d)), obj_of_no_extra by done. eexists. split; [done|]. apply easy_known; [lia|]. cbn [app]. fields; [done|]. apply easy_known; [lia|]. constructor; [cbn [snd]; by apply easy_keys|].
    done.
  - cbn [obind]. rewrite obj_of_no_extra by done. eexists. split; [done|]. apply easy_known; [lia|]. cbn [app]. fields. done.
Qed.

(** ** Signed objects *)
Lemma bare_document {T} {RT : RoleTy T} (m : metadata T) : (exists j, signed_marshal (md_signed m) = Ok j /\ easy 5 j) -> Forall (fun s => no_extra (sig_unrec s)) (slist (md_sigs m)) -> no_extra (md_unrec m) -> shallow m.
Proof.
  intros (j & Hj & He) Hs Hu d. unfold metadata_marshal. rewrite Hj. cbn [obind]. intros [= <-]. rewrite obj_of_no_extra by done.
  assert (easy 6 (obj_of None [("signed", j); ("signatures", enc_slice signature_marshal (md_sigs m))])) as [H _].
  { apply easy_known; [lia|]. fields; [done|]. apply easy_slice; [lia|]. intros s Hin. rewrite Forall_forall in Hs. unfold signature_marshal. rewrite obj_of_no_extra by (by apply Hs). apply easy_known; [lia|]. fields. }
  unfold max_nesting_depth. lia.
Qed.
Definition bare_signed {T} {RT : RoleTy T} (x : T) : Prop := exists j, signed_marshal x = Ok j /\ easy 5 j.
Lemma bare_payload {T} {RT : RoleTy T} (x : T) : bare_signed x -> exists p, signing_payload x = Ok p.
Proof. intros (j & Hj & _ & He). unfold signing_payload. rewrite Hj. cbn [obind]. by apply encodes_payload. Qed.
Lemma bare_writable {T} {RT : RoleTy T} {SS : SignedSpec T} (m : metadata T) : signed_wf (md_signed m) -> signed_type (md_signed m) = role_name -> bare_signed (md_signed m) ->
  Forall (fun s => no_extra (sig_unrec s) /\ utf8_text (sig_keyid s)) (slist (md_sigs m)) -> NoDup (map sig_keyid (slist (md_sigs m))) -> no_extra (md_unrec m) -> writable m.
Proof.
  intros Hw Ht Hb Hs Hn Hu. split.
  - split; [done|]. split; [done|]. split; [|split; [done|by apply extra_none]]. eapply Forall_impl; [exact Hs|]. intros s [H1 H2]. split; [done|by apply extra_none].
  - apply bare_document; [done| |done]. eapply Forall_impl; [exact Hs|]. by intros s [H1 _].
Qed.
Lemma easy4_bare {T} {RT : RoleTy T} (x : T) : (exists j, signed_marshal x = Ok j /\ easy 4 j) -> bare_signed x.
Proof. intros (j & Hj & He). exists j. split; [done|]. eapply easy_depth; [done|lia]. Qed.

Section Roots.
Context {CR : Crypto}.
(** ** Root objects: everything the API can do to one keeps it well-formed and free of unrecognised fields *)
Definition plain_root (x : root_t) : Prop := root_wf x /\ bare_root x /\ rt_type x = "root" /\ forall n, mget (rt_roles x) n <> Some None.
Lemma plain_root_new e : time_ok e -> plain_root (md_signed (Root e)).
Proof.
  intros He. assert (forall n o, mget (rt_roles (md_signed (Root e))) n = Some o -> o = Some new_role /\ utf8_text n) as Hr.
  { intros n o H. cbn [md_signed Root rt_roles mget] in H. repeat (apply lookup_insert_Some in H as [[<- <-]|[_ H]]; [split; [done|by apply plain_text]|]). by rewrite lookup_empty in H. }
  split; [|split; [|split; [done|]]].
  - split; [by apply plain_text|]. split; [by apply plain_text|]. split; [done|]. split; [done|]. split; [intros i o H; cbn in H; by rewrite lookup_empty in H|]. split; [|by intros ? ? ?].
    intros n o H. apply Hr in H as [-> H]. split; [done|]. intros r [= <-]. split; [constructor|]. split; [done|]. by intros ? ? ?.
  - split; [done|]. split; [intros i k H; cbn in H; by rewrite lookup_empty in H|]. intros n r H. apply Hr in H as [[= ->] _]. done.
  - intros n H. by apply Hr in H as [? _].
Qed.
Lemma utf8_key_id k i : k_id k = "" -> key_id k = Ok i -> utf8_text i.
Proof. intros Hk Hi. apply (key_id_fresh k i Hk) in Hi as (d & _ & ->). apply plain_text, hex_plain. Qed.
Lemma plain_root_add x k i n y : plain_root x -> key_wf k -> bare_key k -> k_id k = "" -> key_id k = Ok i -> root_add_key x k n = Ok y -> plain_root y.
Proof.
  intros (Hw & Hb & Ht & Hnn) Hkw Hkb Hkf Hi. unfold root_add_key. destruct (mget (rt_roles x) n) as [[r|]|] eqn:En; [|done..]. rewrite Hi. cbn [obind]. destruct (mset i _ (rt_keys x)) as [keys| |] eqn:Ek; [|done..]. cbn [obind]. intros [= <-].
  pose proof (utf8_key_id k i Hkf Hi) as Hti. destruct Hw as (H1 & H2 & H3 & H4 & H5 & H6 & H7), Hb as (B1 & B2 & B3).
  assert (forall j o, mget keys j = Some o -> (j = i /\ o = Some (key_cache i k)) \/ mget (rt_keys x) j = Some o) as Hkeys.
  { intros j o Hj. unfold mset in Ek. destruct (rt_keys x) as [m|]; [|done]. injection Ek as <-. cbn in Hj. apply lookup_insert_Some in Hj as [[<- <-]|[_ Hj]]; [by left|by right]. }
  destruct (H6 n (Some r) En) as [Htn Hrw]. specialize (Hrw r eq_refl) as (R1 & R2 & R3).
  assert (forall n' o, mget (Some (<[n := Some (with_keyids r (add_id i (r_keyids r)))]> (mmap (rt_roles x)))) n' = Some o -> (n' = n /\ o = Some (with_keyids r (add_id i (r_keyids r)))) \/ mget (rt_roles x) n' = Some o) as Hroles.
  { intros n' o Hn'. cbn in Hn'. apply lookup_insert_Some in Hn' as [[<- <-]|[_ Hn']]; [by left|right]. destruct (rt_roles x); done. }
  split; [|split; [|split; [done|]]].
  - split; [done|]. split; [done|]. split; [done|]. split; [done|]. split; [|split; [|done]].
    + intros j o Hj. cbn [rt_keys with_roles] in Hj. apply Hkeys in Hj as [[-> ->]|Hj]; [|by apply H5]. split; [done|]. intros ? [= <-]. exact Hkw.
    + intros n' o Hn'. cbn [rt_roles with_roles] in Hn'. apply Hroles in Hn' as [[-> ->]|Hn']; [|by apply H6]. split; [done|]. intros ? [= <-]. split; [|done]. unfold with_keyids, strs_ok, add_id. cbn [r_keyids]. destruct (decide _); [done|]. cbn. apply Forall_app. split; [done|by constructor].
  - split; [done|]. split.
    + intros j k' Hj. cbn [rt_keys with_roles] in Hj. apply Hkeys in Hj as [[-> [= ->]]|Hj]; [exact Hkb|by apply (B2 j)].
    + intros n' r' Hn'. cbn [rt_roles with_roles] in Hn'. apply Hroles in Hn' as [[-> [= ->]]|Hn']; [exact (B3 n r En)|by apply (B3 n')].
  - intros n' Hn'. cbn [rt_roles with_roles] in Hn'. apply Hroles in Hn' as [[-> ?]|Hn']; [done|by apply (Hnn n')].
Qed.
Lemma plain_root_roles x n r r' : plain_root x -> mget (rt_roles x) n = Some (Some r) -> strs_ok (r_keyids r') -> int_ok (r_threshold r') -> r_unrec r' = r_unrec r ->
  forall keys, (forall j o, mget keys j = Some o -> mget (rt_keys x) j = Some o) -> plain_root (with_roles x keys (Some (<[n := Some r']> (mmap (rt_roles x))))).
Proof.
  intros (Hw & Hb & Ht & Hnn) En Hs Hi Hun keys Hkeys. destruct Hw as (H1 & H2 & H3 & H4 & H5 & H6 & H7), Hb as (B1 & B2 & B3).
  destruct (H6 n (Some r) En) as [Htn Hrw]. specialize (Hrw r eq_refl) as (R1 & R2 & R3).
  assert (forall n' o, mget (Some (<[n := Some r']> (mmap (rt_roles x)))) n' = Some o -> (n' = n /\ o = Some r') \/ mget (rt_roles x) n' = Some o) as Hroles.
  { intros n' o Hn'. cbn in Hn'. apply lookup_insert_Some in Hn' as [[<- <-]|[_ Hn']]; [by left|right]. destruct (rt_roles x); done. }
  split; [|split; [|split; [done|]]].
  - split; [done|]. split; [done|]. split; [done|]. split; [done|]. split; [|split; [|done]].
    + intros j o Hj. cbn [rt_keys with_roles] in Hj. by apply H5, Hkeys.
    + intros n' o Hn'. cbn [rt_roles with_roles] in Hn'. apply Hroles in Hn' as [[-> ->]|Hn']; [|by apply H6]. split; [done|]. intros ? [= <-]. split; [done|]. split; [done|]. by rewrite Hun.
  - split; [done|]. split; [intros j k' Hj; by apply (B2 j), Hkeys|]. intros n' r0 Hn'. cbn [rt_roles with_roles] in Hn'. apply Hroles in Hn' as [[-> [= ->]]|Hn']; [rewrite Hun; by apply (B3 n)|by apply (B3 n')].
  - intros n' Hn'. cbn [rt_roles with_roles] in Hn'. apply Hroles in Hn' as [[-> ?]|Hn']; [done|by apply (Hnn n')].
Qed.
Lemma plain_root_revoke x i n y : plain_root x -> root_revoke_key x i n = Ok y -> plain_root y.
Proof.
  intros Hx. unfold root_revoke_key. destruct (mget (rt_roles x) n) as [[r|]|] eqn:En; [|done..]. destruct (decide _); [|done]. destruct (used_by_roles _ _) as [b| |]; [|done..]. cbn [obind]. intros [= <-].
  pose proof Hx as ((_ & _ & _ & _ & _ & H6 & _) & _). destruct (H6 n (Some r) En) as [_ Hrw]. destruct (Hrw r eq_refl) as (R1 & R2 & _).
  apply (plain_root_roles x n r); [done|done| |done|done|].
  - unfold strs_ok, with_keyids, remove_id. cbn [r_keyids slist default]. apply Forall_forall. intros s Hs. cbn in Hs. apply elem_of_list_filter in Hs as [_ Hs]. unfold strs_ok in R1. rewrite Forall_forall in R1. by apply R1.
  - intros j o. destruct b; [done|]. unfold mdel. destruct (rt_keys x) as [m|]; cbn; [|done]. by intros [_ ?]%lookup_delete_Some.
Qed.
Lemma plain_root_kept x : plain_root x -> plain_root (root_kept x).
Proof.
  intros ((H1 & H2 & H3 & H4 & H5 & H6 & H7) & (B1 & B2 & B3) & Ht & Hnn).
  assert (forall j o, mget (map_kept key_kept (rt_keys x)) j = Some o -> exists o', mget (rt_keys x) j = Some o' /\ o = option_map key_kept o') as Hk.
  { intros j o. destruct (rt_keys x) as [m|]; cbn; [|done]. rewrite lookup_fmap. destruct (m !! j) as [o'|]; cbn; [|done]. intros [= <-]. eauto. }
  assert (forall j o, mget (map_kept role_kept (rt_roles x)) j = Some o -> exists o', mget (rt_roles x) j = Some o' /\ o = option_map role_kept o') as Hr.
  { intros j o. destruct (rt_roles x) as [m|]; cbn; [|done]. rewrite lookup_fmap. destruct (m !! j) as [o'|]; cbn; [|done]. intros [= <-]. eauto. }
  split; [|split; [|split; [done|]]].
  - split; [done|]. split; [done|]. split; [done|]. split; [done|]. split; [|split].
    + intros j o Hj. apply Hk in Hj as (o' & Hj & ->). destruct (H5 j o' Hj) as [Hj1 Hj2]. split; [done|]. intros k Hk'. destruct o' as [k0|]; [|done]. injection Hk' as <-. destruct (Hj2 k0 eq_refl) as (K1 & K2 & (K3 & K4) & K5). destruct (B2 j k0 Hj) as [E1 E2].
      split; [done|]. split; [done|]. split; [split; [done|by apply extra_none, no_extra_kept]|by apply extra_none, no_extra_kept].
    + intros j o Hj. apply Hr in Hj as (o' & Hj & ->). destruct (H6 j o' Hj) as [Hj1 Hj2]. split; [done|]. intros k Hk'. destruct o' as [k0|]; [|done]. injection Hk' as <-. destruct (Hj2 k0 eq_refl) as (K1 & K2 & K3).
      split; [done|]. split; [done|]. by apply extra_none, no_extra_kept, (B3 j).
    + by apply extra_none, no_extra_kept.
  - split; [by apply no_extra_kept|]. split.
    + intros j k Hj. apply Hk in Hj as ([k0|] & Hj & [= ->]). destruct (B2 j k0 Hj). split; by apply no_extra_kept.
    + intros j r Hj. apply Hr in Hj as ([k0|] & Hj & [= ->]). by apply no_extra_kept, (B3 j).
  - intros n Hn. apply Hr in Hn as ([k0|] & Hn & ?); [done|]. by apply (Hnn n).
Qed.
Lemma plain_root_signed x : plain_root x -> bare_signed x.
Proof. intros (Hw & Hb & _). by apply easy4_bare, easy_root. Qed.
End Roots.
