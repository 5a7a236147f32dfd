(** * What is kept is written the same way and kept again *)
From stdpp Require Import base gmap strings list sorting.
From Coq Require Import ZArith Lia Ascii String.
From Verif Require Import GoBase GoStr Json GoTime Types Marshal Metadata StrProofs SpecUtf8 SpecText SpecSerial JsonProofs SigProofs SpecRound RoundBase RoundProofs RoundStructs CanonProofs.
Open Scope Z_scope.

Lemma obj_of_kept u known : obj_of (kept_extra u) known = obj_of u known.
Proof. by destruct u. Qed.
Lemma keyval_marshal_kept x : keyval_marshal (keyval_kept x) = keyval_marshal x.
Proof. apply obj_of_kept. Qed.
Lemma key_marshal_kept x : key_marshal (key_kept x) = key_marshal x.
Proof. unfold key_marshal, key_kept. cbn [k_unrec k_type k_scheme k_val]. by rewrite obj_of_kept, keyval_marshal_kept. Qed.
Lemma signature_marshal_kept x : signature_marshal (signature_kept x) = signature_marshal x.
Proof. apply obj_of_kept. Qed.
Lemma role_marshal_kept x : role_marshal (role_kept x) = role_marshal x.
Proof. apply obj_of_kept. Qed.
Lemma metafile_marshal_kept x : metafile_marshal (metafile_kept x) = metafile_marshal x.
Proof.
  unfold metafile_marshal, metafile_kept. cbn [mf_unrec mf_length mf_hashes mf_version]. rewrite obj_of_kept. f_equal. f_equal. f_equal. destruct (decide (mmap (mf_hashes x) = ∅)) as [E|E]; [done|]. by rewrite decide_False.
Qed.
Lemma targetfile_marshal_kept n x : targetfile_marshal (targetfile_kept n x) = targetfile_marshal x.
Proof. apply obj_of_kept. Qed.
Lemma delegatedrole_marshal_kept x : delegatedrole_marshal (delegatedrole_kept x) = delegatedrole_marshal x.
Proof. unfold delegatedrole_marshal, delegatedrole_kept. cbn. destruct (dr_paths x), (dr_hash_prefixes x); rewrite ?obj_of_kept; done. Qed.
Lemma succinct_marshal_kept x : succinct_marshal (succinct_kept x) = succinct_marshal x.
Proof. apply obj_of_kept. Qed.
Lemma ptrs_marshal_kept {V} (f : V -> json) (g : V -> V) (m : gomap (option V)) : (forall x, f (g x) = f x) -> enc_map (enc_ptr f) (map_kept g m) = enc_map (enc_ptr f) m.
Proof.
  intros H. destruct m as [m|]; [|done]. unfold map_kept. cbn [option_map]. rewrite enc_map_fmap. apply enc_map_ext. intros k [x|] _; [|done]. cbn. apply H.
Qed.
Lemma keys_marshal_kept m : enc_keys (map_kept key_kept m) = enc_keys m.
Proof. apply ptrs_marshal_kept, key_marshal_kept. Qed.
Lemma meta_marshal_kept m : enc_meta (map_kept metafile_kept m) = enc_meta m.
Proof. apply ptrs_marshal_kept, metafile_marshal_kept. Qed.
Lemma delegations_marshal_kept x : delegations_marshal (delegations_kept x) = delegations_marshal x.
Proof.
  unfold delegations_marshal, delegations_kept. cbn [d_keys d_roles d_succinct d_unrec]. rewrite keys_marshal_kept.
  destruct (d_roles x) as [l|]; cbn [option_map]; [|destruct (d_succinct x); cbn [option_map obind]; by rewrite obj_of_kept, ?succinct_marshal_kept].
  rewrite map_map. rewrite (map_ext _ _ delegatedrole_marshal_kept). destruct (oseq (map delegatedrole_marshal l)); cbn [obind]; by rewrite ?obj_of_kept.
Qed.
Lemma root_marshal_kept x : root_marshal (root_kept x) = root_marshal x.
Proof.
  unfold root_marshal, root_kept. cbn [rt_type rt_spec rt_consistent rt_version rt_expires rt_keys rt_roles rt_unrec]. rewrite keys_marshal_kept, (ptrs_marshal_kept _ _ _ role_marshal_kept).
  destruct (enc_time (rt_expires x)); cbn [obind]; by rewrite ?obj_of_kept.
Qed.
Lemma snapshot_marshal_kept x : snapshot_marshal (snapshot_kept x) = snapshot_marshal x.
Proof.
  unfold snapshot_marshal, snapshot_kept. cbn [sn_type sn_spec sn_version sn_expires sn_meta sn_unrec]. rewrite meta_marshal_kept. destruct (enc_time (sn_expires x)); cbn [obind]; by rewrite ?obj_of_kept.
Qed.
Lemma timestamp_marshal_kept x : timestamp_marshal (timestamp_kept x) = timestamp_marshal x.
Proof.
  unfold timestamp_marshal, timestamp_kept. cbn [ts_type ts_spec ts_version ts_expires ts_meta ts_unrec]. rewrite meta_marshal_kept. destruct (enc_time (ts_expires x)); cbn [obind]; by rewrite ?obj_of_kept.
Qed.
Lemma nodup_keys {V W} (f : V -> W) (m : gmap string V) : NoDup (map (fun kv => (kv.1, f kv.2)) (map_to_list m)).*1.
Proof. change (NoDup (fst <$> ((fun kv : string * V => (kv.1, f kv.2)) <$> map_to_list m))). rewrite <- list_fmap_compose. apply NoDup_fst_map_to_list. Qed.
Lemma enc_map_imap {V} (f : V -> json) (h : string -> V -> V) (m : gmap string V) : (forall k v, f (h k v) = f v) -> enc_map f (Some (map_imap (fun k v => Some (h k v)) m)) = enc_map f (Some m).
Proof.
  intros H. cbn [enc_map]. f_equal. apply sortedk_ext; [apply obj_norm_sorted..|]. intros [k j]. rewrite !obj_norm_elem by apply nodup_keys. split.
  - intros ([k' v] & Heq & Hin)%elem_of_list_In%in_map_iff. injection Heq as <- <-. apply elem_of_list_In, elem_of_map_to_list in Hin. rewrite map_lookup_imap in Hin. destruct (m !! k') as [v0|] eqn:E; [|done]. cbn in Hin. injection Hin as <-.
    apply elem_of_list_In, in_map_iff. exists (k', v0). cbn. rewrite H. split; [done|]. by apply elem_of_list_In, elem_of_map_to_list.
  - intros ([k' v] & Heq & Hin)%elem_of_list_In%in_map_iff. injection Heq as <- <-. apply elem_of_list_In, elem_of_map_to_list in Hin.
    apply elem_of_list_In, in_map_iff. exists (k', h k' v). cbn. rewrite H. split; [done|]. apply elem_of_list_In, elem_of_map_to_list. by rewrite map_lookup_imap, Hin.
Qed.
Lemma targets_marshal_kept x : targets_marshal (targets_kept x) = targets_marshal x.
Proof.
  unfold targets_marshal, targets_kept. cbn [tg_type tg_spec tg_version tg_expires tg_targets tg_delegations tg_unrec].
  assert (enc_map (enc_ptr targetfile_marshal) (option_map (map_imap (fun n o => Some (option_map (targetfile_kept n) o))) (tg_targets x)) = enc_map (enc_ptr targetfile_marshal) (tg_targets x)) as ->.
  { destruct (tg_targets x) as [m|]; [|done]. apply (enc_map_imap _ (fun n o => option_map (targetfile_kept n) o)). intros k [v|]; [|done]. cbn. apply targetfile_marshal_kept. }
  destruct (enc_time (tg_expires x)); cbn [obind]; [|done..]. destruct (tg_delegations x) as [d|]; cbn [option_map].
  - rewrite delegations_marshal_kept. destruct (delegations_marshal d); cbn [obind]; by rewrite ?obj_of_kept.
  - cbn [obind]. by rewrite obj_of_kept.
Qed.
Lemma signed_marshal_kept {T} {RT : RoleTy T} {SS : SignedSpec T} (x : T) : tuf_role T RT SS -> signed_marshal (signed_kept x) = signed_marshal x.
Proof. destruct 1; [apply root_marshal_kept|apply snapshot_marshal_kept|apply timestamp_marshal_kept|apply targets_marshal_kept]. Qed.
Lemma metadata_marshal_kept {T} {RT : RoleTy T} {SS : SignedSpec T} (m : metadata T) : tuf_role T RT SS -> metadata_marshal (metadata_kept m) = metadata_marshal m.
Proof.
  intros H. unfold metadata_marshal, metadata_kept. cbn [md_signed md_sigs md_unrec]. rewrite (signed_marshal_kept _ H). destruct (signed_marshal (md_signed m)); cbn [obind]; [|done..]. rewrite obj_of_kept. do 5 f_equal.
  destruct (md_sigs m) as [l|]; [|done]. cbn [option_map enc_slice]. rewrite map_map. by rewrite (map_ext _ _ signature_marshal_kept).
Qed.
Lemma to_bytes_kept {T} {RT : RoleTy T} {SS : SignedSpec T} (m : metadata T) : tuf_role T RT SS -> to_bytes (metadata_kept m) = to_bytes m.
Proof. intros H. unfold to_bytes. by rewrite metadata_marshal_kept. Qed.
Lemma payload_kept {T} {RT : RoleTy T} {SS : SignedSpec T} (x : T) : tuf_role T RT SS -> signing_payload (signed_kept x) = signing_payload x.
Proof. intros H. unfold signing_payload. by rewrite signed_marshal_kept. Qed.

(** ** Keeping twice *)
Lemma map_kept_idem {V} (f : V -> V) m : (forall x, f (f x) = f x) -> map_kept f (map_kept f m) = map_kept f m.
Proof.
  intros H. destruct m as [m|]; [|done]. unfold map_kept. cbn. f_equal. rewrite <- map_fmap_compose. apply map_fmap_ext. intros k [x|] _; [|done]. cbn. by rewrite H.
Qed.
Lemma key_kept_idem x : key_kept (key_kept x) = key_kept x. Proof. done. Qed.
Lemma metafile_kept_idem x : metafile_kept (metafile_kept x) = metafile_kept x.
Proof. unfold metafile_kept. cbn. f_equal. destruct (decide (mmap (mf_hashes x) = ∅)); [by case_decide|]. by rewrite decide_False. Qed.
Lemma delegations_kept_idem x : delegations_kept (delegations_kept x) = delegations_kept x.
Proof.
  unfold delegations_kept. cbn [d_keys d_roles d_succinct d_unrec]. rewrite map_kept_idem by done. f_equal.
  - destruct (d_roles x) as [l|]; [|done]. cbn. by rewrite map_map.
  - destruct (d_roles x) as [l|]; [done|]. cbn. by destruct (d_succinct x).
Qed.
Lemma signed_kept_idem {T} {RT : RoleTy T} {SS : SignedSpec T} (x : T) : tuf_role T RT SS -> signed_kept (signed_kept x) = signed_kept x.
Proof.
  destruct 1; cbn.
  - unfold root_kept. cbn. by rewrite !map_kept_idem.
  - unfold snapshot_kept. cbn. rewrite map_kept_idem; [done|apply metafile_kept_idem].
  - unfold timestamp_kept. cbn. rewrite map_kept_idem; [done|apply metafile_kept_idem].
  - unfold targets_kept. cbn. f_equal.
    + destruct (tg_targets x) as [m|]; [|done]. cbn. f_equal. apply map_eq. intros k. rewrite !map_lookup_imap. by destruct (m !! k) as [[t|]|].
    + destruct (tg_delegations x) as [d|]; [|done]. cbn. by rewrite delegations_kept_idem.
Qed.
Lemma metadata_kept_idem {T} {RT : RoleTy T} {SS : SignedSpec T} (m : metadata T) : tuf_role T RT SS -> metadata_kept (metadata_kept m) = metadata_kept m.
Proof.
  intros H. unfold metadata_kept. cbn [md_signed md_sigs md_unrec]. rewrite (signed_kept_idem _ H). f_equal. destruct (md_sigs m); [|done]. cbn. by rewrite map_map.
Qed.
