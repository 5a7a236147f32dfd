(** * Proofs for C89: what the repository side signs and saves is what the client accepts *)
From stdpp Require Import base gmap strings list.
From Coq Require Import ZArith Lia Ascii String.
From Verif Require Import GoBase GoStr Json GoTime Types Marshal Keys Metadata TrustedMetadata SpecUtf8 SpecText JsonText SpecSerial JsonProofs SerialProofs SpecRound RoundBase RoundProofs RoundStructs CanonProofs RoundKept LoadBase LoadProofs
  SpecBasic BasicProofs SpecSig SigProofs SpecKeys KeysProofs SpecTrusted TrustedProofs SpecPublish.
Open Scope Z_scope.

Section Publish.
Context {CR : Crypto}.

(** ** Saving and loading does not change what verifies *)
Lemma last_sig_kept l id acc : last_sig (map signature_kept l) id acc = last_sig l id acc.
Proof. revert acc. induction l as [|s l IH]; intros acc; cbn; [done|]. apply IH. Qed.
Lemma verify_loop_kept {D} {RD : RoleTy D} {SD : SignedSpec D} keys (dm : metadata D) ids acc : tuf_role D RD SD ->
  verify_loop (map_kept key_kept keys) (metadata_kept dm) ids acc = verify_loop keys dm ids acc.
Proof.
  intros Hr. revert acc. induction ids as [|id ids IH]; intros acc; cbn [verify_loop]; [done|].
  assert (mget (map_kept key_kept keys) id = option_map (option_map key_kept) (mget keys id)) as ->.
  { destruct keys as [m|]; cbn; [|done]. rewrite lookup_fmap. by destruct (m !! id). }
  destruct (mget keys id) as [[k|]|]; cbn [option_map]; [|done..]. change (to_public_key (key_kept k)) with (to_public_key k).
  destruct (to_public_key k) as [pk| |]; cbn [obind]; [|done..]. cbn [metadata_kept md_signed md_sigs]. rewrite payload_kept by done.
  destruct (signing_payload (md_signed dm)) as [p| |]; cbn [obind]; [|done..].
  assert (slist (option_map (map signature_kept) (md_sigs dm)) = map signature_kept (slist (md_sigs dm))) as -> by (by destruct (md_sigs dm)).
  rewrite last_sig_kept. destruct (verify_signature _ _ _) as [ok| |]; cbn [obind]; [|done..]. apply IH.
Qed.
Lemma verify_delegation_kept {D} {RD : RoleTy D} {SD : SignedSpec D} keys ids thr (dm : metadata D) : tuf_role D RD SD ->
  verify_delegation (mkDelegation (map_kept key_kept keys) ids thr) (metadata_kept dm) = verify_delegation (mkDelegation keys ids thr) dm.
Proof. intros Hr. unfold verify_delegation. cbn [dg_keyids dg_keys dg_threshold]. destruct ids; [done|]. by rewrite verify_loop_kept. Qed.
Lemma root_verify_kept {D} {RD : RoleTy D} {SD : SignedSpec D} (m : metadata root_t) name (dm : metadata D) : tuf_role D RD SD ->
  verify_delegate (metadata_kept m) name (metadata_kept dm) = verify_delegate m name dm.
Proof.
  intros Hr. unfold verify_delegate, delegation_of, root_delegator, root_delegation. cbn [metadata_kept md_signed signed_kept root_spec root_kept rt_roles rt_keys].
  assert (mget (map_kept role_kept (rt_roles (md_signed m))) name = option_map (option_map role_kept) (mget (rt_roles (md_signed m)) name)) as ->.
  { destruct (rt_roles (md_signed m)) as [x|]; cbn; [|done]. rewrite lookup_fmap. by destruct (x !! name). }
  destruct (mget (rt_roles (md_signed m)) name) as [[r|]|]; cbn [option_map obind]; [|done..]. apply (verify_delegation_kept _ _ _ dm Hr).
Qed.
Lemma find_role_kept l name : find_role (map delegatedrole_kept l) name = option_map delegatedrole_kept (find_role l name).
Proof. induction l as [|r l IH]; cbn; [done|]. by destruct (String.eqb _ _). Qed.
Lemma targets_verify_kept {D} {RD : RoleTy D} {SD : SignedSpec D} (m : metadata targets_t) name (dm : metadata D) : tuf_role D RD SD ->
  verify_delegate (metadata_kept m) name (metadata_kept dm) = verify_delegate m name dm.
Proof.
  intros Hr. unfold verify_delegate, delegation_of, targets_delegator, targets_delegation. cbn [metadata_kept md_signed signed_kept targets_spec targets_kept tg_delegations].
  destruct (tg_delegations (md_signed m)) as [d|]; cbn [option_map obind]; [|done]. destruct d as [keys [roles|] succ u]; cbn.
  - rewrite find_role_kept. destruct (find_role roles name) as [r|]; cbn [option_map obind]; [|done]. apply (verify_delegation_kept _ _ _ dm Hr).
  - destruct succ as [s|]; cbn [option_map obind]; [|done]. apply (verify_delegation_kept _ _ _ dm Hr).
Qed.
Lemma root_signs_kept {D} {RD : RoleTy D} {SD : SignedSpec D} (m : metadata root_t) name (dm : metadata D) : tuf_role D RD SD ->
  root_signs m name dm -> root_signs (metadata_kept m) name (metadata_kept dm).
Proof. intros Hr H. apply root_signs_ok. rewrite root_verify_kept by done. by apply root_signs_ok. Qed.
Lemma signed_type_kept {T} {RT : RoleTy T} {SS : SignedSpec T} (x : T) : tuf_role T RT SS -> signed_type (signed_kept x) = signed_type x.
Proof. intros H. destruct H; done. Qed.
Lemma signed_expires_kept {T} {RT : RoleTy T} {SS : SignedSpec T} (x : T) : tuf_role T RT SS -> signed_expires (signed_kept x) = signed_expires x.
Proof. intros H. destruct H; done. Qed.
Lemma document_kept {T} {RT : RoleTy T} {SS : SignedSpec T} (m : metadata T) b : tuf_role T RT SS -> metadata_wf m -> from_bytes b = Ok (metadata_kept m) -> document b (metadata_kept m).
Proof. intros Hr (_ & Ht & _) H. split; [done|]. cbn. by rewrite signed_type_kept. Qed.
Lemma expired_kept {T} {RT : RoleTy T} {SS : SignedSpec T} (m : metadata T) now : tuf_role T RT SS -> expired_at (metadata_kept m) now <-> expired_at m now.
Proof. intros Hr. unfold expired_at. cbn. by rewrite signed_expires_kept. Qed.
Lemma matches_kept f data : matches_file f data -> matches_file (metafile_kept f) data.
Proof.
  intros [Hh Hl]. split; [|done]. destruct f as [len h v u]. unfold metafile_kept. cbn [mf_length mf_hashes mf_version mf_unrec] in *. destruct (decide (mmap h = ∅)); [|exact Hh].
  intros m alg d [=].
Qed.
Lemma names_kept ts f : names_snapshot ts f -> names_snapshot (metadata_kept ts) (metafile_kept f).
Proof. intros (meta & Hm & Hf). exists (fmap (option_map metafile_kept) meta). cbn. rewrite Hm. split; [done|]. by rewrite lookup_fmap, Hf. Qed.
Lemma lists_kept sn n f : lists_file sn n f -> lists_file (metadata_kept sn) n (metafile_kept f).
Proof. intros (meta & Hm & Hf). exists (fmap (option_map metafile_kept) meta). cbn. rewrite Hm. split; [done|]. by rewrite lookup_fmap, Hf. Qed.

(** ** A publication that verifies in memory is accepted by the client *)
Lemma published_accepted (r : metadata root_t) (ts : metadata timestamp_t) (sn : metadata snapshot_t) (tg : metadata targets_t) now order :
  (forall l, order l ≡ₚ l) -> publication r ts sn tg -> ~ expired_at r now -> ~ expired_at ts now -> ~ expired_at sn now -> ~ expired_at tg now ->
  exists br bt bs bg t0 t1 t2 t3, to_bytes r = Ok br /\ to_bytes ts = Ok bt /\ to_bytes sn = Ok bs /\ to_bytes tg = Ok bg /\
    tm_new br now = Ok t0 /\ update_timestamp t0 bt = (t1, Ok (metadata_kept ts)) /\ update_snapshot order t1 bs false = (t2, Ok (metadata_kept sn)) /\
    update_targets t2 bg = (t3, Ok (metadata_kept tg)) /\ t_root t3 = metadata_kept r.
Proof.
  intros Ho ((Wr & Sr) & (Wt & St) & (Ws & Ss) & (Wg & Sg) & Vr & Vt & Vs & Vg & (f & Hf & Hfv & Hfm) & (g & Hg & Hgv & Hgm)) Xr Xt Xs Xg.
  destruct (save_load r root_signed_rt Wr Sr) as (br & Br & Lr). destruct (save_load ts timestamp_signed_rt Wt St) as (bt & Bt & Lt).
  destruct (save_load sn snapshot_signed_rt Ws Ss) as (bs & Bs & Ls). destruct (save_load tg targets_signed_rt Wg Sg) as (bg & Bg & Lg).
  set (t0 := mkTrusted (metadata_kept r) None None ∅ now). set (t1 := set_timestamp t0 (metadata_kept ts)). set (t2 := set_snapshot t1 (metadata_kept sn)).
  set (t3 := set_targets t2 "targets" (metadata_kept tg)).
  exists br, bt, bs, bg, t0, t1, t2, t3. do 4 (split; [done|]).
  assert (final_snapshot t1 (metadata_kept sn)) as Hfin.
  { split; [rewrite expired_kept; [done|constructor]|]. exists (metadata_kept ts), (metafile_kept f). split; [done|]. split; [by apply names_kept|]. done. }
  split. { apply tm_new_spec. exists (metadata_kept r). split; [apply document_kept; [constructor|done|done]|]. split; [|done]. apply root_signs_kept; [constructor|done]. }
  split. { apply update_timestamp_spec. split; [|split; [rewrite expired_kept; [done|constructor]|done]]. split; [done|]. split; [cbn; rewrite expired_kept; [done|constructor]|].
    split; [apply document_kept; [constructor|done|done]|]. split; [apply root_signs_kept; [constructor|done]|]. done. }
  split. { apply update_snapshot_spec; [done|]. split; [|split; [done|done]]. exists (metadata_kept ts). split; [done|]. split; [done|]. split; [cbn; rewrite expired_kept; [done|constructor]|].
    split; [right; exists (metafile_kept f); split; [by apply names_kept|apply matches_kept; by apply Hfm]|]. split; [apply document_kept; [constructor|done|done]|]. split; [apply root_signs_kept; [constructor|done]|]. done. }
  split; [|done]. apply update_delegated_spec. split; [|by apply targets_replaced_iff].
  exists (metadata_kept sn), (metafile_kept g). split; [done|]. split; [done|]. split; [by apply lists_kept|]. split; [apply matches_kept; by apply Hgm|]. split; [apply document_kept; [constructor|done|done]|].
  split; [left; split; [done|apply root_signs_kept; [constructor|done]]|]. split; [done|]. rewrite expired_kept; [done|constructor].
Qed.

(** ** Values without unrecognised fields nest little and have a canonical form *)
Definition encodes (j : json) : Prop := is_Some (cjson (json_sanitize j)).
Definition easy (D : Z) (j : json) : Prop := jdepth j <= D /\ encodes j.
Lemma encodes_payload j : encodes j -> exists p, encode_canonical j = Ok p.
Proof. intros [p Hp]. exists p. unfold encode_canonical. by rewrite Hp. Qed.
Lemma easy_str D s : 0 <= D -> easy D (JStr s). Proof. intros. split; [done|]. by eexists. Qed.
Lemma easy_bool D b : 0 <= D -> easy D (JBool b). Proof. intros. split; [done|]. destruct b; by eexists. Qed.
Lemma easy_null D : 0 <= D -> easy D JNull. Proof. intros. split; [done|]. by eexists. Qed.
Lemma easy_int D z : 0 <= D -> int_ok z -> easy D (enc_int z).
Proof. intros ? H. split; [done|]. unfold encodes, enc_int, fmt_dec. cbn [json_sanitize cjson]. by rewrite StrProofs.parse_int_fmt. Qed.
Lemma easy_arr D l : 1 <= D -> Forall (easy (D - 1)) l -> easy D (JArr l).
Proof.
  intros HD Hl. split; [apply jdepth_arr; split; [done|]; eapply Forall_impl; [exact Hl|]; by intros j [? _]|]. unfold encodes. cbn [json_sanitize cjson].
  destruct (seq_opt (map cjson (map json_sanitize l))) as [r|] eqn:E; [done|exfalso]. apply seq_opt_none in E. rewrite map_map in E. apply elem_of_list_In, in_map_iff in E as (j & Hj & Hin).
  rewrite Forall_forall in Hl. apply elem_of_list_In, Hl in Hin as [_ [p Hp]]. congruence.
Qed.
Lemma easy_obj D l : 1 <= D -> Forall (fun kv => easy (D - 1) kv.2) l -> easy D (JObj l).
Proof.
  intros HD Hl. split; [apply jdepth_obj; split; [done|]; eapply Forall_impl; [exact Hl|]; by intros j [? _]|]. unfold encodes. cbn [json_sanitize cjson].
  destruct (seq_kv _) as [r|] eqn:E; [done|exfalso]. unfold seq_kv in E. apply seq_opt_none, elem_of_list_In, in_map_iff in E as ([k o] & Ho & Hin). cbn in Ho. destruct o as [o|]; [done|].
  apply elem_of_list_In, obj_norm_in in Hin. rewrite map_map in Hin. apply elem_of_list_In, in_map_iff in Hin as ([k' j] & Hj & Hin). cbn in Hj. injection Hj as _ Hj.
  rewrite Forall_forall in Hl. apply elem_of_list_In, Hl in Hin as [_ [p Hp]]. cbn in Hp. congruence.
Qed.
Lemma easy_norm D l : 1 <= D -> Forall (fun kv => easy (D - 1) kv.2) l -> easy D (JObj (obj_norm l)).
Proof. intros HD Hl. apply easy_obj; [done|]. apply Forall_forall. intros kv Hin%obj_norm_in. rewrite Forall_forall in Hl. by apply Hl. Qed.
Lemma easy_known D known : 1 <= D -> Forall (fun kv => easy (D - 1) kv.2) known -> easy D (obj_of None known).
Proof. intros HD Hk. by apply easy_norm. Qed.
Lemma easy_map {V} (f : V -> json) D m : 1 <= D -> (forall k v, mget m k = Some v -> easy (D - 1) (f v)) -> easy D (enc_map f m).
Proof.
  intros HD Hm. destruct m as [m|]; cbn [enc_map]; [|apply easy_null; lia]. apply easy_norm; [done|]. apply Forall_forall. intros kv Hin.
  apply elem_of_list_In, in_map_iff in Hin as ([k v] & <- & Hin). apply elem_of_list_In, elem_of_map_to_list in Hin. cbn. by eapply Hm.
Qed.
Lemma easy_ptrs {V} (f : V -> json) D m : 1 <= D -> (forall k x, mget m k = Some (Some x) -> easy (D - 1) (f x)) -> easy D (enc_map (enc_ptr f) m).
Proof. intros HD Hm. apply easy_map; [done|]. intros k [x|] H; cbn; [by eapply Hm|apply easy_null; lia]. Qed.
Lemma easy_slice {A} (f : A -> json) D l : 1 <= D -> (forall x, x ∈ slist l -> easy (D - 1) (f x)) -> easy D (enc_slice f l).
Proof.
  intros HD Hl. destruct l as [l|]; cbn [enc_slice]; [|apply easy_null; lia]. apply easy_arr; [done|]. apply Forall_forall. intros j (x & <- & Hin)%elem_of_list_In%in_map_iff. apply Hl. by apply elem_of_list_In.
Qed.
Lemma easy_strings D l : 1 <= D -> easy D (enc_strings l).
Proof. intros HD. apply easy_slice; [done|]. intros x _. apply easy_str. lia. Qed.
Lemma easy_time D t j : 0 <= D -> enc_time t = Ok j -> easy D j.
Proof. intros HD. unfold enc_time. destruct (print_time t); [|done]. intros [= <-]. by apply easy_str. Qed.
Lemma easy_depth D D' j : easy D j -> D <= D' -> easy D' j.
Proof. intros [? ?] ?. split; [lia|done]. Qed.
Ltac fields := repeat (first [apply Forall_nil_2|apply Forall_cons_2; cbn [snd]]); try (first [apply easy_str; lia|apply easy_bool; lia|apply easy_strings; lia|apply easy_int; [lia|done]]).
Lemma easy_key k : k_unrec k = None -> kv_unrec (k_val k) = None -> easy 2 (key_marshal k).
Proof. intros H1 H2. unfold key_marshal, keyval_marshal. rewrite H1, H2. apply easy_known; [lia|]. fields. apply easy_known; [lia|]. fields. Qed.
Lemma easy_role r : r_unrec r = None -> int_ok (r_threshold r) -> easy 2 (role_marshal r).
Proof. intros H1 H2. unfold role_marshal. rewrite H1. apply easy_known; [lia|]. fields. Qed.
Lemma easy_signature s : sig_unrec s = None -> easy 1 (signature_marshal s).
Proof. intros H1. unfold signature_marshal. rewrite H1. apply easy_known; [lia|]. fields. Qed.
Lemma easy_metafile v : int_ok v -> easy 1 (metafile_marshal (mkMetaFile 0 None v None)).
Proof. intros H. unfold metafile_marshal. cbn [mf_length mf_hashes mf_version mf_unrec]. destruct (decide _) as [_|Hn]; [|by destruct Hn]. apply easy_known; [lia|]. cbn. fields. Qed.
(** the whole document *)
Lemma easy_document {T} {RT : RoleTy T} (m : metadata T) : (exists j, signed_marshal (md_signed m) = Ok j /\ easy 4 j) -> Forall (fun s => sig_unrec s = None) (slist (md_sigs m)) -> md_unrec m = None -> shallow m.
Proof.
  intros (j & Hj & He) Hs Hu d. unfold metadata_marshal. rewrite Hj. cbn [obind]. intros [= <-]. rewrite Hu.
  assert (easy 5 (obj_of None [("signed", j); ("signatures", enc_slice signature_marshal (md_sigs m))])) as [H _].
  { apply easy_known; [lia|]. fields; [done|]. apply easy_slice; [lia|]. intros s Hin. rewrite Forall_forall in Hs. eapply easy_depth; [by apply easy_signature, Hs|lia]. }
  unfold max_nesting_depth. lia.
Qed.
Lemma easy_payload {T} {RT : RoleTy T} (x : T) : (exists j, signed_marshal x = Ok j /\ easy 4 j) -> exists p, signing_payload x = Ok p.
Proof. intros (j & Hj & _ & He). unfold signing_payload. rewrite Hj. cbn [obind]. by apply encodes_payload. Qed.

(** ** Signing *)
Lemma sign_by_sigs {D} {RD : RoleTy D} (l : list signer) ids (m : metadata D) : (exists p, signing_payload (md_signed m) = Ok p) ->
  Forall2 (fun s id => (exists pk, working_signer s pk) /\ signer_keyid s id) l ids ->
  md_unrec (sign_by l m) = md_unrec m /\ exists sigs, slist (md_sigs (sign_by l m)) = slist (md_sigs m) ++ sigs /\ map sig_keyid sigs = ids /\ Forall (fun s => sig_unrec s = None) sigs.
Proof.
  intros Hp H. revert m Hp. induction H as [|s id l ids [[pk [Hpk Hw]] Hid] _ IH]; intros m [p Hp].
  - split; [done|]. exists []. by rewrite app_nil_r.
  - cbn [sign_by]. destruct Hid as (pk' & k & Hpk' & Hk & Hi). destruct (Hw p) as (sg & Hsg & _).
    assert (fst (sign s m) = mkMetadata (md_signed m) (Some (slist (md_sigs m) ++ [mkSignature id sg None])) (md_unrec m)) as E.
    { unfold sign. rewrite Hp. cbn [obind]. rewrite Hsg, Hpk'. cbn [obind]. rewrite Hk. cbn [obind]. rewrite Hi. done. }
    rewrite E. destruct (IH (mkMetadata (md_signed m) (Some (slist (md_sigs m) ++ [mkSignature id sg None])) (md_unrec m))) as (Hu & sigs & Hs & Hm & Hf); [by exists p|].
    split; [done|]. exists (mkSignature id sg None :: sigs). rewrite Hs. split; [cbn; by rewrite <- app_assoc|]. cbn. split; [by rewrite Hm|by constructor].
Qed.

(** ** Root objects made by the API *)
Definition own_key (k : key) : Prop := k_unrec k = None /\ kv_unrec (k_val k) = None /\ utf8_text (k_type k) /\ utf8_text (k_scheme k) /\ utf8_text (kv_public (k_val k)) /\
  exists p, to_public_key k = Ok p /\ proper_pk p.
Lemma own_key_from p k i : pem_round_trip -> key_from_public_key p = Ok k -> proper_pk p -> utf8_text (kv_public (k_val k)) -> own_key (with_cached_id k i).
Proof.
  intros Hpem Hk Hp Htx. pose proof (public_key_round_trip p k Hpem Hk) as Hr. destruct (key_from_fields p k Hk) as (_ & H1 & H2 & H3). split; [done|]. split; [done|].
  assert (utf8_text (k_type k) /\ utf8_text (k_scheme k) /\ utf8_text (kv_public (k_val k))) as (? & ? & ?).
  { destruct p as [der|der|raw|t]; [..|done]; destruct H3 as (-> & -> & H3); (split; [by apply plain_text|split; [by apply plain_text|done]]). }
  split; [done|]. split; [done|]. split; [done|]. by exists p.
Qed.
Definition api_inv (e : gotime) (x : root_t) : Prop :=
  key_history (md_signed (Root e)) x /\ same_header (md_signed (Root e)) x /\
  (forall i k, mget (rt_keys x) i = Some (Some k) -> own_key k /\ utf8_text i) /\
  (forall n r, mget (rt_roles x) n = Some (Some r) -> r_threshold r = 1 /\ r_unrec r = None /\ utf8_text n).
Lemma revoke_keys_sub x id n y : root_revoke_key x id n = Ok y -> forall j o, mget (rt_keys y) j = Some o -> mget (rt_keys x) j = Some o.
Proof.
  unfold root_revoke_key. destruct (mget (rt_roles x) n) as [[r|]|]; try done. destruct (decide _); [|done]. destruct (used_by_roles _ _) as [b| |]; cbn [obind]; try done. intros [= <-] j o. cbn.
  destruct b; [done|]. unfold mdel. destruct (rt_keys x) as [m|]; cbn; [|done]. by intros [_ ?]%lookup_delete_Some.
Qed.
Lemma api_root_inv e x : pem_round_trip -> api_root e x -> api_inv e x.
Proof.
  intros Hpem. induction 1 as [|x p k n y Hx IH Hk Hp Htx Ha|x id n y Hx IH Hr].
  - split; [constructor|]. split; [done|]. split; [intros i k H; cbn in H; by rewrite lookup_empty in H|]. intros n r H. cbn [md_signed Root rt_roles mget] in H.
    repeat (apply lookup_insert_Some in H as [[<- [= <-]]|[_ H]]; [split_and!; [done|done|by apply plain_text]|]). by rewrite lookup_empty in H.
  - destruct IH as (Hh & Hs & Hkeys & Hroles). split; [by econstructor|]. apply root_add_key_spec in Ha as (r & r' & i & Hr & Hi & Hs' & (m & Hm & Hm') & Hr' & (_ & Ht & Hu) & _ & Ho).
    split. { unfold same_header in *. destruct Hs as (? & ? & ? & ? & ? & ?), Hs' as (? & ? & ? & ? & ? & ?). split_and!; congruence. }
    split.
    + intros j k' Hj. rewrite Hm' in Hj. cbn in Hj. apply lookup_insert_Some in Hj as [[<- [= <-]]|[_ Hj]].
      * split; [by eapply own_key_from|]. apply (key_id_fresh k i) in Hi as (d & _ & ->); [apply plain_text, hex_plain|]. by destruct (key_from_fields p k Hk).
      * apply Hkeys. by rewrite Hm.
    + intros n' r0 H0. destruct (decide (n' = n)) as [->|Hn].
      * rewrite root_role_mget in Hr, Hr'. destruct (Hroles _ _ Hr) as (? & ? & ?). rewrite Hr' in H0. injection H0 as <-. split_and!; congruence.
      * rewrite Ho in H0 by done. by apply Hroles.
  - destruct IH as (Hh & Hs & Hkeys & Hroles). split; [by eapply kh_revoke|]. pose proof (root_inv_history _ _ Hh (root_inv_init e)) as (_ & Hnn & _).
    destruct (proj1 (root_revoke_key_spec x id n y Hnn) Hr) as (r & r' & Hrr & Hir & Hs' & Hr' & (_ & Ht & Hu) & _ & Ho & _ & _).
    split. { unfold same_header in *. destruct Hs as (? & ? & ? & ? & ? & ?), Hs' as (? & ? & ? & ? & ? & ?). split_and!; congruence. }
    split.
    + intros j k Hj. apply Hkeys. by eapply revoke_keys_sub.
    + intros n' r0 H0. destruct (decide (n' = n)) as [->|Hn].
      * rewrite root_role_mget in Hrr, Hr'. destruct (Hroles _ _ Hrr) as (? & ? & ?). rewrite Hr' in H0. injection H0 as <-. split_and!; congruence.
      * rewrite Ho in H0 by done. by apply Hroles.
Qed.

Lemma api_listed_text e x n r i : api_inv e x -> root_role x n r -> i ∈ ids_of r -> utf8_text i /\ exists p, resolves (rt_keys x) i p /\ proper_pk p.
Proof.
  intros (Hh & _ & Hk & _) Hr Hi. pose proof (root_inv_history _ _ Hh (root_inv_init e)) as ((H1 & _) & _). destruct (H1 n r i Hr Hi) as (k & m & Hm & Hik).
  destruct (Hk i k) as ((_ & _ & _ & _ & _ & p & Hp & Hpp) & Ht); [by rewrite Hm|]. split; [done|]. exists p. split; [|done]. by exists m, k.
Qed.
Lemma api_root_wf e x : api_inv e x -> time_ok e -> root_wf x.
Proof.
  intros Hx He. pose proof Hx as (Hh & (H1 & H2 & H3 & H4 & H5 & H6) & Hk & Hr). pose proof (root_inv_history _ _ Hh (root_inv_init e)) as (_ & Hnn & _).
  unfold root_wf. rewrite H1, H2, H4, H5, H6. split; [by apply plain_text|]. split; [by apply plain_text|]. split; [done|]. split; [done|]. split; [|split; [|by intros k v Hn]].
  - intros i [k|] Hi.
    + destruct (Hk i k Hi) as ((Ha & Hb & Hc & Hd & He' & _) & Ht). split; [done|]. intros y [= <-]. split; [done|]. split; [done|]. split; [split; [done|]; rewrite Hb; by intros ? ? ?|rewrite Ha; by intros ? ? ?].
    + pose proof (root_inv_history _ _ Hh (root_inv_init e)) as (_ & _ & _ & _ & Hno & _). by destruct (Hno i None Hi).
  - intros n [r|] Hn; [|by apply Hnn in Hn]. destruct (Hr n r Hn) as (Ha & Hb & Hc). split; [done|]. intros y [= <-]. split; [|split; [rewrite Ha; done|rewrite Hb; by intros ? ? ?]].
    apply Forall_forall. intros i Hi. eapply api_listed_text; [done| |exact Hi]. by apply root_role_mget.
Qed.
Lemma api_root_easy e x : api_inv e x -> time_ok e -> exists j, signed_marshal x = Ok j /\ easy 4 j.
Proof.
  intros (Hh & (H1 & H2 & H3 & H4 & H5 & H6) & Hk & Hr) He. destruct (enc_time_ok e He) as (s & Hs & _). change (signed_marshal x) with (root_marshal x). unfold root_marshal.
  rewrite H1, H2, H4, H5, H6. cbn [md_signed Root rt_expires]. rewrite Hs. cbn [obind]. eexists. split; [done|]. apply easy_known; [lia|]. fields.
  - apply easy_ptrs; [lia|]. intros i k Hi. destruct (Hk i k Hi) as ((Ha & Hb & _) & _). eapply easy_depth; [by apply easy_key|lia].
  - apply easy_ptrs; [lia|]. intros n r Hn. destruct (Hr n r Hn) as (Ha & Hb & _). eapply easy_depth; [apply easy_role; [done|by rewrite Ha]|lia].
Qed.
Lemma team_members x name l : team x name l -> exists ids, NoDup ids /\ ids <> [] /\ Forall2 (fun s id => (exists pk, working_signer s pk) /\ signer_keyid s id) l ids /\
  exists r, root_role x name r /\ forall id, id ∈ ids -> id ∈ ids_of r.
Proof.
  intros (ids & Hne & Hnd & Hf). exists ids. split; [done|]. split; [done|]. split; [eapply Forall2_impl; [exact Hf|]; intros s id (p & ? & ? & _); eauto|].
  destruct Hf as [|s id l ids (p & _ & _ & _ & r & Hr & Hid) Hf]; [done|]. exists r. split; [done|]. intros i [->|Hi]%elem_of_cons; [done|].
  clear Hne Hnd. induction Hf as [|s' id' l ids (p' & _ & _ & _ & r' & Hr' & Hid') _ IH]; [by apply elem_of_nil in Hi|]. apply elem_of_cons in Hi as [->|Hi]; [|by apply IH].
  rewrite root_role_mget in Hr, Hr'. congruence.
Qed.
Lemma signer_keyid_fun s i j : signer_keyid s i -> signer_keyid s j -> i = j.
Proof. intros (p & k & H1 & H2 & H3) (p' & k' & H1' & H2' & H3'). congruence. Qed.
Lemma resolves_fun keys i p q : resolves keys i p -> resolves keys i q -> p = q.
Proof. intros (m & k & -> & H1 & H2) (m' & k' & [= <-] & H1' & H2'). congruence. Qed.
Lemma team_signs {D} {RD : RoleTy D} e (rm : metadata root_t) name l (dm : metadata D) : api_inv e (md_signed rm) -> team (md_signed rm) name l -> (exists p, signing_payload (md_signed dm) = Ok p) ->
  root_signs rm name (sign_by l dm).
Proof.
  intros Hx Ht [p Hp]. destruct (team_members _ _ _ Ht) as (ids & Hnd & Hne & Hf & r & Hr & Hin). destruct Ht as (ids' & _ & _ & Hf').
  pose proof Hx as (_ & _ & _ & Hroles). destruct (Hroles name r) as (Hthr & _); [by apply root_role_mget|].
  destruct Hr as (m & Hm & Hmr). exists (rt_keys (md_signed rm)), (ids_of r), 1. split.
  { exists m, r. split_and!; [done|done|done|done|done]. }
  apply (sign_verify _ _ _ l dm p ids); [done| | |done| | |].
  - destruct ids as [|i ids]; [done|]. assert (i ∈ ids_of r) as Hi by (apply Hin; left). intros E. rewrite E in Hi. by apply elem_of_nil in Hi.
  - intros i Hi. eapply (api_listed_text e); [done| |exact Hi]. by exists m.
  - destruct ids; [done|]. cbn [List.length]. lia.
  - intros i Hi. split; [by apply Hin|]. apply elem_of_list_lookup in Hi as (n & Hn). destruct (Forall2_lookup_r _ _ _ _ _ Hf Hn) as (s & Hs & _ & Hk). exists s. split; [by eapply elem_of_list_lookup_2|done].
  - intros s i pk Hs Hi Hk Hres. apply elem_of_list_lookup in Hs as (n & Hn). destruct (Forall2_lookup_l _ _ _ _ _ Hf' Hn) as (j & Hj & q & Hw & Hkj & Hq & _).
    rewrite <- (signer_keyid_fun _ _ _ Hk Hkj) in Hq. by rewrite (resolves_fun _ _ _ _ Hres Hq).
Qed.
(** an object of the constructors, signed by a team *)
Lemma signed_writable {D} {RD : RoleTy D} {SD : SignedSpec D} e x name l (dm : metadata D) : api_inv e x -> team x name l -> (exists j, signed_marshal (md_signed dm) = Ok j /\ easy 4 j) ->
  signed_wf (md_signed dm) -> signed_type (md_signed dm) = role_name -> md_sigs dm = Some [] -> md_unrec dm = None -> writable (sign_by l dm).
Proof.
  intros Hx Ht He Hw Hty Hsg Hu. destruct (team_members _ _ _ Ht) as (ids & Hnd & Hne & Hf & r & Hr & Hin).
  destruct (sign_by_sigs l ids dm (easy_payload _ He) Hf) as (Hu' & sigs & Hs & Hm & Hun). rewrite Hsg in Hs. cbn in Hs. split.
  - split; [by rewrite sign_by_signed|]. split; [by rewrite sign_by_signed|]. split; [|split].
    + rewrite Hs. apply Forall_forall. intros s Hin'. rewrite Forall_forall in Hun. split; [|rewrite (Hun s Hin'); by intros ? ? ?].
      eapply api_listed_text; [done|exact Hr|]. apply Hin. rewrite <- Hm. apply elem_of_list_In, in_map, elem_of_list_In, Hin'.
    + unfold unique_key_ids. change (default [] ?a) with (slist a). rewrite Hs, Hm. done.
    + rewrite Hu', Hu. by intros ? ? ?.
  - apply easy_document; [by rewrite sign_by_signed|by rewrite Hs|by rewrite Hu'].
Qed.
Lemma easy_timestamp e : time_ok e -> exists j, signed_marshal (md_signed (Timestamp e)) = Ok j /\ easy 4 j.
Proof.
  intros He. destruct (enc_time_ok e He) as (s & Hs & _). change (signed_marshal (md_signed (Timestamp e))) with (timestamp_marshal (md_signed (Timestamp e))). unfold timestamp_marshal. cbn [md_signed Timestamp ts_expires ts_unrec ts_type ts_spec ts_version ts_meta]. rewrite Hs. cbn [obind].
  eexists. split; [done|]. apply easy_known; [lia|]. fields. apply easy_ptrs; [lia|]. intros n f Hn. cbn in Hn. apply lookup_singleton_Some in Hn as [_ [= <-]]. eapply easy_depth; [by apply easy_metafile|lia].
Qed.
Lemma easy_snapshot e : time_ok e -> exists j, signed_marshal (md_signed (Snapshot e)) = Ok j /\ easy 4 j.
Proof.
  intros He. destruct (enc_time_ok e He) as (s & Hs & _). change (signed_marshal (md_signed (Snapshot e))) with (snapshot_marshal (md_signed (Snapshot e))). unfold snapshot_marshal. cbn [md_signed Snapshot sn_expires sn_unrec sn_type sn_spec sn_version sn_meta]. rewrite Hs. cbn [obind].
  eexists. split; [done|]. apply easy_known; [lia|]. fields. apply easy_ptrs; [lia|]. intros n f Hn. cbn in Hn. apply lookup_singleton_Some in Hn as [_ [= <-]]. eapply easy_depth; [by apply easy_metafile|lia].
Qed.
Lemma easy_targets e : time_ok e -> exists j, signed_marshal (md_signed (Targets e)) = Ok j /\ easy 4 j.
Proof.
  intros He. destruct (enc_time_ok e He) as (s & Hs & _). change (signed_marshal (md_signed (Targets e))) with (targets_marshal (md_signed (Targets e))). unfold targets_marshal. cbn [md_signed Targets tg_expires tg_unrec tg_type tg_spec tg_version tg_targets tg_delegations]. rewrite Hs. cbn [obind].
  eexists. split; [done|]. apply easy_known; [lia|]. cbn [app]. fields. apply easy_ptrs; [lia|]. intros n f Hn. cbn in Hn. by rewrite lookup_empty in Hn.
Qed.
Lemma metafile_version_wf v : int_ok v -> metafile_wf (mkMetaFile 0 None v None).
Proof. intros H. split; [done|]. split; [by intros ? ? ?|]. split; [done|]. by intros ? ? ?. Qed.
Lemma timestamp_new_wf e : time_ok e -> timestamp_wf (md_signed (Timestamp e)).
Proof.
  intros He. split; [by apply plain_text|]. split; [by apply plain_text|]. split; [done|]. split; [done|]. split; [|by intros ? ? ?].
  intros n o Hn. cbn in Hn. apply lookup_singleton_Some in Hn as [<- <-]. split; [by apply plain_text|]. intros x [= <-]. by apply metafile_version_wf.
Qed.
Lemma snapshot_new_wf e : time_ok e -> snapshot_wf (md_signed (Snapshot e)).
Proof.
  intros He. split; [by apply plain_text|]. split; [by apply plain_text|]. split; [done|]. split; [done|]. split; [|by intros ? ? ?].
  intros n o Hn. cbn in Hn. apply lookup_singleton_Some in Hn as [<- <-]. split; [by apply plain_text|]. intros x [= <-]. by apply metafile_version_wf.
Qed.
Lemma targets_new_wf e : time_ok e -> targets_wf (md_signed (Targets e)).
Proof.
  intros He. split; [by apply plain_text|]. split; [by apply plain_text|]. split; [done|]. split; [done|]. split; [intros n o Hn; cbn in Hn; by rewrite lookup_empty in Hn|].
  split; [intros n; cbn; by rewrite lookup_empty|]. split; [by intros d [=]|]. by intros ? ? ?.
Qed.
Lemma matches_any v data : matches_file (mkMetaFile 0 None v None) data.
Proof. split; [intros m alg d [=]|by left]. Qed.
Lemma bootstrap_publication er et es eg x lr lt ls lg : pem_round_trip -> time_ok er -> time_ok et -> time_ok es -> time_ok eg -> api_root er x ->
  team x "root" lr -> team x "timestamp" lt -> team x "snapshot" ls -> team x "targets" lg ->
  publication (sign_by lr (with_content (Root er) x)) (sign_by lt (Timestamp et)) (sign_by ls (Snapshot es)) (sign_by lg (Targets eg)).
Proof.
  intros Hpem Hr Ht Hs Hg Hx%api_root_inv Tr Tt Ts Tg; [|done..].
  assert (md_signed (sign_by lr (with_content (Root er) x)) = x) as Ex by (by rewrite sign_by_signed).
  unfold publication. rewrite !sign_by_signed.
  split. { eapply signed_writable; [done|done|by apply (api_root_easy er)|by apply (api_root_wf er)| |done|done]. destruct Hx as (_ & (H & _) & _). exact H. }
  split. { eapply signed_writable; [done|done|by apply easy_timestamp|by apply timestamp_new_wf|done|done|done]. }
  split. { eapply signed_writable; [done|done|by apply easy_snapshot|by apply snapshot_new_wf|done|done|done]. }
  split. { eapply signed_writable; [done|done|by apply easy_targets|by apply targets_new_wf|done|done|done]. }
  split. { eapply team_signs; [by rewrite Ex|by rewrite Ex|]. by apply easy_payload, (api_root_easy er). }
  split. { eapply team_signs; [by rewrite Ex|by rewrite Ex|]. by apply easy_payload, easy_timestamp. }
  split. { eapply team_signs; [by rewrite Ex|by rewrite Ex|]. by apply easy_payload, easy_snapshot. }
  split. { eapply team_signs; [by rewrite Ex|by rewrite Ex|]. by apply easy_payload, easy_targets. }
  split; (eexists; split; [eexists; rewrite ?sign_by_signed; split; [done|by apply lookup_singleton]|]; split; [done|intros b _; apply matches_any]).
Qed.

(** ** Signing again *)
Lemma signer_id_text s id : signer_keyid s id -> utf8_text id.
Proof. intros (p & k & _ & Hk & Hi). apply (key_id_fresh k id) in Hi as (d & _ & ->); [apply plain_text, hex_plain|]. by destruct (key_from_fields p k Hk). Qed.
Lemma signed_again {T} {RT : RoleTy T} {SS : SignedSpec T} (m : metadata T) s pk id p : tuf_role T RT SS -> metadata_wf m -> working_signer s pk -> signer_keyid s id ->
  signing_payload (md_signed m) = Ok p -> id ∈ map sig_keyid (slist (md_sigs m)) -> shallow (fst (sign s m)) ->
  exists b msg, to_bytes (fst (sign s m)) = Ok b /\ from_bytes (T := T) b = Err (ErrValue msg).
Proof.
  intros Hr%tuf_role_rt (Hw & Hty & Hs & _ & Hu) Hwk Hid Hp Hin Hsh.
  destruct (sign_by_sigs [s] [id] m) as (Hu' & sigs & Hsg & Hm & Hun); [by exists p|constructor; [split; [by exists pk|done]|constructor]|]. cbn [sign_by] in *.
  assert (Forall signature_wf sigs) as Hsw.
  { apply Forall_forall. intros x Hx. rewrite Forall_forall in Hun. split; [|rewrite (Hun x Hx); by intros ? ? ?].
    assert (sig_keyid x ∈ map sig_keyid sigs) as Hxi by (by apply elem_of_list_In, in_map, elem_of_list_In). rewrite Hm in Hxi. apply elem_of_list_singleton in Hxi as ->. by eapply signer_id_text. }
  destruct (metadata_rt_sigs (fst (sign s m)) Hr) as (j & Ej & (Hn & Ht & Hk) & Hdoc & Hd).
  - by rewrite sign_signed. - by rewrite sign_signed. - rewrite Hsg. by apply Forall_app. - by rewrite Hu'.
  - destruct (from_bytes_duplicate (T := T) (print_json j) (reread j) (metadata_kept (fst (sign s m)))) as (msg & Hmsg).
    + apply parse_json_print; [done|by apply Hsh].
    + by apply numbers_ok_reread.
    + done.
    + done.
    + unfold unique_key_ids, metadata_kept. cbn [md_sigs]. change (default [] ?a) with (slist a).
      assert (slist (option_map (map signature_kept) (md_sigs (fst (sign s m)))) = map signature_kept (slist (md_sigs (fst (sign s m))))) as -> by (by destruct (md_sigs (fst (sign s m)))).
      rewrite map_map. change (NoDup (map sig_keyid (slist (md_sigs (fst (sign s m))))) -> False). rewrite Hsg, map_app, Hm. intros (_ & Hx & _)%NoDup_app. by apply (Hx id Hin); left.
    + exists (print_json j), msg. split; [|done]. unfold to_bytes. by rewrite Ej.
Qed.
Lemma cleared_then_signed {T} {RT : RoleTy T} {SS : SignedSpec T} (m : metadata T) l ids p : tuf_role T RT SS -> signed_wf (md_signed m) -> signed_type (md_signed m) = role_name ->
  extra_ok ["signed"; "signatures"] (md_unrec m) -> Forall2 (fun s id => (exists pk, working_signer s pk) /\ signer_keyid s id) l ids -> NoDup ids ->
  signing_payload (md_signed m) = Ok p -> shallow (sign_by l (clear_signatures m)) ->
  exists b m', to_bytes (sign_by l (clear_signatures m)) = Ok b /\ from_bytes b = Ok m' /\ m' = metadata_kept (sign_by l (clear_signatures m)) /\ map sig_keyid (default [] (md_sigs m')) = ids.
Proof.
  intros Hr Hw Hty Hu Hl Hnd Hp Hsh. destruct (sign_by_sigs l ids (clear_signatures m)) as (Hu' & sigs & Hsg & Hm & Hun); [by exists p|done|]. cbn in Hsg.
  destruct (save_load (sign_by l (clear_signatures m)) (tuf_role_rt _ _ _ Hr)) as (b & Hb & Hl').
  - split; [by rewrite sign_by_signed|]. split; [by rewrite sign_by_signed|]. split; [|split].
    + rewrite Hsg. apply Forall_forall. intros x Hx. rewrite Forall_forall in Hun. split; [|rewrite (Hun x Hx); by intros ? ? ?].
      assert (sig_keyid x ∈ ids) as Hxi by (rewrite <- Hm; by apply elem_of_list_In, in_map, elem_of_list_In).
      apply elem_of_list_lookup in Hxi as (n & Hn). destruct (Forall2_lookup_r _ _ _ _ _ Hl Hn) as (s & _ & _ & Hk). by eapply signer_id_text.
    + unfold unique_key_ids. change (default [] ?a) with (slist a). by rewrite Hsg, Hm.
    + by rewrite Hu'.
  - done.
  - exists b, (metadata_kept (sign_by l (clear_signatures m))). split; [done|]. split; [done|]. split; [done|]. cbn [metadata_kept md_sigs]. change (default [] ?a) with (slist a).
    assert (slist (option_map (map signature_kept) (md_sigs (sign_by l (clear_signatures m)))) = map signature_kept (slist (md_sigs (sign_by l (clear_signatures m))))) as -> by (by destruct (md_sigs (sign_by l (clear_signatures m)))).
    rewrite map_map. cbn. by rewrite Hsg.
Qed.
End Publish.
