(** * Properties C89 and C96: what is published with this library is what its client accepts *)
From stdpp Require Import base gmap strings list.
From Coq Require Import ZArith Lia Ascii String.
From Verif Require Import GoBase GoStr Json GoTime Types Marshal Keys Metadata TrustedMetadata SpecUtf8 SpecSerial SpecRound RoundBase RoundStructs CanonProofs SpecBasic SpecSig SpecKeys SpecTrusted SpecPublish PublishProofs Toy.
Open Scope Z_scope.

(** ** C89 *)
(** Saving and loading both sides does not change the answer of VerifyDelegate *)
Theorem C89_same_verdict_root {CR : Crypto} {D} {RD : RoleTy D} {SD : SignedSpec D} (m : metadata root_t) (dm : metadata D) : tuf_role D RD SD -> writable m -> writable dm ->
  exists b bd (m' : metadata root_t) (dm' : metadata D), to_bytes m = Ok b /\ to_bytes dm = Ok bd /\ from_bytes b = Ok m' /\ from_bytes bd = Ok dm' /\
    forall name, verify_delegate m' name dm' = verify_delegate m name dm.
Proof.
  intros Hr [Wm Sm] [Wd Sd]. destruct (save_load m root_signed_rt Wm Sm) as (b & Hb & Hl). destruct (save_load dm (tuf_role_rt _ _ _ Hr) Wd Sd) as (bd & Hbd & Hld).
  exists b, bd, (metadata_kept m), (metadata_kept dm). do 4 (split; [done|]). intros name. exact (root_verify_kept m name dm Hr).
Qed.
Print Assumptions C89_same_verdict_root.
Theorem C89_same_verdict_targets {CR : Crypto} {D} {RD : RoleTy D} {SD : SignedSpec D} (m : metadata targets_t) (dm : metadata D) : tuf_role D RD SD -> writable m -> writable dm ->
  exists b bd (m' : metadata targets_t) (dm' : metadata D), to_bytes m = Ok b /\ to_bytes dm = Ok bd /\ from_bytes b = Ok m' /\ from_bytes bd = Ok dm' /\
    forall name, verify_delegate m' name dm' = verify_delegate m name dm.
Proof.
  intros Hr [Wm Sm] [Wd Sd]. destruct (save_load m targets_signed_rt Wm Sm) as (b & Hb & Hl). destruct (save_load dm (tuf_role_rt _ _ _ Hr) Wd Sd) as (bd & Hbd & Hld).
  exists b, bd, (metadata_kept m), (metadata_kept dm). do 4 (split; [done|]). intros name. exact (targets_verify_kept m name dm Hr).
Qed.
Print Assumptions C89_same_verdict_targets.
(** A publication that VerifyDelegate accepts in memory is accepted by the trusted metadata set, file by file, until
    something expires *)
Theorem C89_published {CR : Crypto} (r : metadata root_t) (ts : metadata timestamp_t) (sn : metadata snapshot_t) (tg : metadata targets_t) now order :
  (forall l, order l ≡ₚ l) -> publication r ts sn tg -> ~ expired_at r now -> ~ expired_at ts now -> ~ expired_at sn now -> ~ expired_at tg now ->
  exists br bt bs bg t0 t1 t2 t3, to_bytes r = Ok br /\ to_bytes ts = Ok bt /\ to_bytes sn = Ok bs /\ to_bytes tg = Ok bg /\
    tm_new br now = Ok t0 /\ update_timestamp t0 bt = (t1, Ok (metadata_kept ts)) /\ update_snapshot order t1 bs false = (t2, Ok (metadata_kept sn)) /\
    update_targets t2 bg = (t3, Ok (metadata_kept tg)) /\ t_root t3 = metadata_kept r.
Proof. exact (published_accepted r ts sn tg now order). Qed.
Print Assumptions C89_published.
(** In particular the first version of a repository: Root, AddKey and RevokeKey, Timestamp, Snapshot, Targets, and Sign
    with at least one key of each role *)
Theorem C89_bootstrap {CR : Crypto} er et es eg (x : root_t) (lr lt ls lg : list signer) now order : (forall l, order l ≡ₚ l) -> pem_round_trip ->
  time_ok er -> time_ok et -> time_ok es -> time_ok eg -> now <= instant er -> now <= instant et -> now <= instant es -> now <= instant eg ->
  api_root er x -> team x "root" lr -> team x "timestamp" lt -> team x "snapshot" ls -> team x "targets" lg ->
  exists br bt bs bg t0 t1 t2 t3 (ts : metadata timestamp_t) (sn : metadata snapshot_t) (tg : metadata targets_t),
    to_bytes (sign_by lr (with_content (Root er) x)) = Ok br /\ to_bytes (sign_by lt (Timestamp et)) = Ok bt /\
    to_bytes (sign_by ls (Snapshot es)) = Ok bs /\ to_bytes (sign_by lg (Targets eg)) = Ok bg /\
    tm_new br now = Ok t0 /\ update_timestamp t0 bt = (t1, Ok ts) /\ update_snapshot order t1 bs false = (t2, Ok sn) /\ update_targets t2 bg = (t3, Ok tg) /\
    rt_version (md_signed (t_root t3)) = 1 /\ rt_consistent (md_signed (t_root t3)) = true /\ rt_expires (md_signed (t_root t3)) = er /\
    ts_version (md_signed ts) = 1 /\ ts_expires (md_signed ts) = et /\ sn_version (md_signed sn) = 1 /\ sn_expires (md_signed sn) = es /\
    tg_version (md_signed tg) = 1 /\ tg_expires (md_signed tg) = eg /\ tg_targets (md_signed tg) = Some ∅ /\ tg_delegations (md_signed tg) = None.
Proof.
  intros Ho Hpem Hr Ht Hs Hg Nr Nt Ns Ng Hx Tr Tt Ts Tg. pose proof (bootstrap_publication er et es eg x lr lt ls lg Hpem Hr Ht Hs Hg Hx Tr Tt Ts Tg) as Hpub.
  pose proof (api_root_inv er x Hpem Hx) as (_ & (_ & _ & H1 & H2 & H3 & _) & _).
  destruct (published_accepted _ _ _ _ now order Ho Hpub) as (br & bt & bs & bg & t0 & t1 & t2 & t3 & Br & Bt & Bs & Bg & A0 & A1 & A2 & A3 & A4).
  - unfold expired_at. rewrite SigProofs.sign_by_signed. cbn. rewrite H3. cbn. lia.
  - unfold expired_at. rewrite SigProofs.sign_by_signed. cbn. lia.
  - unfold expired_at. rewrite SigProofs.sign_by_signed. cbn. lia.
  - unfold expired_at. rewrite SigProofs.sign_by_signed. cbn. lia.
  - eexists br, bt, bs, bg, t0, t1, t2, t3, _, _, _. do 4 (split; [done|]). split; [exact A0|]. split; [exact A1|]. split; [exact A2|]. split; [exact A3|]. rewrite A4.
    cbn. rewrite !SigProofs.sign_by_signed. cbn. rewrite H1, H2, H3. done.
Qed.
Print Assumptions C89_bootstrap.
(** three keys; root is signed by two of them *)
Definition c89_add (o : outcome root_t) (pn : pubkey * string) : outcome root_t := let! x := o in root_add_key (CR := toy_crypto) x (toy_key pn.1) pn.2.
Definition c89_keys : list (pubkey * string) := [(pkA, "root"); (pkB, "root"); (pkC, "timestamp"); (pkC, "snapshot"); (pkA, "targets"); (pkB, "timestamp")].
Definition c89_root : root_t := match fold_left c89_add c89_keys (Ok (md_signed (Root t2030))) with Ok x => match root_revoke_key x (toy_id pkB) "timestamp" with Ok y => y | _ => x end | _ => md_signed (Root t2030) end.
Lemma c89_built x l y : api_root (CR := toy_crypto) t2030 x -> Forall (fun pn => pn.1 = pkA \/ pn.1 = pkB \/ pn.1 = pkC) l -> fold_left c89_add l (Ok x) = Ok y -> api_root (CR := toy_crypto) t2030 y.
Proof.
  intros Hx Hl. revert x Hx. induction Hl as [|[p n] l Hp _ IH]; intros x Hx H; [by injection H as <-|]. cbn in Hp. cbn [fold_left c89_add obind fst snd] in H.
  destruct (root_add_key x (toy_key p) n) as [z| |] eqn:E.
  - apply (IH z); [|done]. eapply (api_add _ x p (toy_key p) n); [done| | | |done].
    + destruct Hp as [-> | [-> | ->]]; reflexivity.
    + intros raw. destruct Hp as [-> | [-> | ->]]; [by intros [= <-]|done..].
    + destruct Hp as [-> | [-> | ->]]; apply plain_text; reflexivity.
  - exfalso. clear -H. induction l as [|q l IH]; [done|]. by apply IH.
  - exfalso. clear -H. induction l as [|q l IH]; [done|]. by apply IH.
Qed.
Lemma ok_inv {A} (o : outcome A) (P : A -> bool) : match o with Ok a => P a | _ => false end = true -> exists a, o = Ok a /\ P a = true.
Proof. destruct o; [eauto|done..]. Qed.
Definition member_b (x : root_t) (name : string) (p : pubkey) : bool :=
  match mget (rt_roles x) name, mget (rt_keys x) (toy_id p) with
  | Some (Some r), Some (Some k) => bool_decide (toy_id p ∈ ids_of r) && match to_public_key (CR := toy_crypto) k with Ok q => bool_decide (q = p) | _ => false end
  | _, _ => false end.
Lemma c89_team x name ps : forallb (member_b x name) ps = true -> ps <> [] -> NoDup (map toy_id ps) -> Forall (fun p => p = pkA \/ p = pkB \/ p = pkC) ps -> team (CR := toy_crypto) x name (map toy_signer ps).
Proof.
  intros Hm Hne Hnd Hps. exists (map toy_id ps). split; [by destruct ps|]. split; [done|]. clear Hne Hnd. induction Hps as [|p ps Hp _ IH]; [constructor|].
  cbn in Hm. apply andb_true_iff in Hm as [Hm Hm']. cbn [map]. constructor; [|by apply IH]. exists p. split.
  { split; [done|]. intros msg. eexists. split; [done|]. apply String.eqb_refl. }
  split. { exists p, (toy_key p). split; [done|]. destruct Hp as [-> | [-> | ->]]; (split; [reflexivity|vm_compute; reflexivity]). }
  unfold member_b in Hm. destruct (mget (rt_roles x) name) as [[r|]|] eqn:Er; try done. destruct (mget (rt_keys x) (toy_id p)) as [[k|]|] eqn:Ek; try done.
  apply andb_true_iff in Hm as [H1%bool_decide_eq_true H2]. destruct (to_public_key (CR := toy_crypto) k) as [q| |] eqn:Eq; try done. apply bool_decide_eq_true in H2 as ->. split.
  - destruct (rt_keys x) as [m|] eqn:Em; [|done]. exists m, k. done.
  - exists r. split; [|done]. destruct (rt_roles x) as [m|] eqn:Em; [|done]. by exists m.
Qed.
Example C89_case : api_root (CR := toy_crypto) t2030 c89_root /\ pem_round_trip (CR := toy_crypto) /\ time_ok t2030 /\
  team (CR := toy_crypto) c89_root "root" (map toy_signer [pkB; pkA]) /\ team (CR := toy_crypto) c89_root "timestamp" (map toy_signer [pkC]) /\
  team (CR := toy_crypto) c89_root "snapshot" (map toy_signer [pkC]) /\ team (CR := toy_crypto) c89_root "targets" (map toy_signer [pkA]).
Proof.
  split.
  { destruct (ok_inv (fold_left c89_add c89_keys (Ok (md_signed (Root t2030)))) (fun x => match root_revoke_key x (toy_id pkB) "timestamp" with Ok _ => true | _ => false end)) as (x & Hx & Hr); [vm_compute; reflexivity|].
    unfold c89_root. rewrite Hx. destruct (root_revoke_key x (toy_id pkB) "timestamp") as [y| |] eqn:Ey; [|done..]. eapply api_revoke; [|exact Ey].
    eapply c89_built; [constructor| |exact Hx]. unfold c89_keys. repeat (apply Forall_cons; split; [cbn; tauto|]). by apply Forall_nil. }
  split; [intros [] s; cbn; intros [= <-]; done|]. split; [vm_compute; repeat split; try reflexivity; intros [=]|].
  split_and!; (apply c89_team; [vm_compute; reflexivity|done| |repeat (apply Forall_cons; split; [tauto|]); by apply Forall_nil]); (apply (bool_decide_unpack _); vm_compute; reflexivity).
Qed.

(** ** C96 *)
(** Sign adds a signature.  Signing once more with a key that has signed before gives a file that is not accepted. *)
Theorem C96_signed_again {CR : Crypto} {T} {RT : RoleTy T} {SS : SignedSpec T} (m : metadata T) (s : signer) pk id p : tuf_role T RT SS -> metadata_wf m -> working_signer s pk -> signer_keyid s id ->
  signing_payload (md_signed m) = Ok p -> (exists sg, sg ∈ default [] (md_sigs m) /\ sig_keyid sg = id) -> shallow (fst (sign s m)) ->
  exists b msg, to_bytes (fst (sign s m)) = Ok b /\ from_bytes (T := T) b = Err (ErrValue msg).
Proof.
  intros Hr Hm Hw Hi Hp (sg & Hsg & Hid) Hs. apply (signed_again m s pk id p Hr Hm Hw Hi Hp); [|done]. rewrite <- Hid. by apply elem_of_list_In, in_map, elem_of_list_In.
Qed.
Print Assumptions C96_signed_again.
(** After ClearSignatures the file carries exactly the signatures of those who sign then, whatever it carried before *)
Theorem C96_cleared {CR : Crypto} {T} {RT : RoleTy T} {SS : SignedSpec T} (m : metadata T) (l : list signer) ids p : tuf_role T RT SS -> signed_wf (md_signed m) -> signed_type (md_signed m) = role_name ->
  extra_ok ["signed"; "signatures"] (md_unrec m) -> Forall2 (fun s id => (exists pk, working_signer s pk) /\ signer_keyid s id) l ids -> NoDup ids ->
  signing_payload (md_signed m) = Ok p -> shallow (sign_by l (clear_signatures m)) ->
  exists b (m' : metadata T), to_bytes (sign_by l (clear_signatures m)) = Ok b /\ from_bytes b = Ok m' /\ md_signed m' = signed_kept (md_signed m) /\ map sig_keyid (default [] (md_sigs m')) = ids.
Proof.
  intros Hr Hw Ht Hu Hl Hn Hp Hs. destruct (cleared_then_signed m l ids p Hr Hw Ht Hu Hl Hn Hp Hs) as (b & m' & Hb & Hm & -> & Hi). exists b, (metadata_kept (sign_by l (clear_signatures m))).
  split; [done|]. split; [done|]. split; [|done]. cbn. by rewrite SigProofs.sign_by_signed.
Qed.
Print Assumptions C96_cleared.

(** signed by [pkA] and [pkB]; signing with [pkA] again; and starting afresh with [pkC] *)
Definition c96_doc : metadata targets_t := sign_by (CR := toy_crypto) (map toy_signer [pkA; pkB]) (Targets t2030).
Lemma c96_signers ps : Forall (fun p => p = pkA \/ p = pkB \/ p = pkC) ps -> Forall2 (fun s id => (exists pk, working_signer (CR := toy_crypto) s pk) /\ signer_keyid (CR := toy_crypto) s id) (map toy_signer ps) (map toy_id ps).
Proof.
  induction 1 as [|p ps Hp _ IH]; [constructor|]. cbn [map]. constructor; [|done]. split.
  { exists p. split; [done|]. intros msg. eexists. split; [done|]. apply String.eqb_refl. }
  exists p, (toy_key p). split; [done|]. destruct Hp as [-> | [-> | ->]]; (split; [reflexivity|vm_compute; reflexivity]).
Qed.
Lemma c96_shape ps (m : metadata targets_t) : md_signed m = md_signed (Targets t2030) -> md_unrec m = None -> slist (md_sigs m) = [] -> Forall (fun p => p = pkA \/ p = pkB \/ p = pkC) ps ->
  shallow (sign_by (CR := toy_crypto) (map toy_signer ps) m).
Proof.
  intros Hs Hu Hg Hps. assert (Ht : time_ok t2030) by (vm_compute; repeat split; try reflexivity; intros [=]).
  destruct (easy_targets t2030 Ht) as (j & Hj & He).
  assert (Hp : exists p, signing_payload (md_signed m) = Ok p). { rewrite Hs. apply easy_payload. by exists j. }
  destruct (sign_by_sigs (CR := toy_crypto) (map toy_signer ps) (map toy_id ps) m Hp (c96_signers ps Hps)) as (Hu' & sigs & Hsg & Hm & Hun).
  apply easy_document; [rewrite SigProofs.sign_by_signed, Hs; by exists j|by rewrite Hsg, Hg|by rewrite Hu', Hu].
Qed.
Lemma c96_snoc ps p (m : metadata targets_t) : sign_by (CR := toy_crypto) (map toy_signer (ps ++ [p])) m = fst (sign (CR := toy_crypto) (toy_signer p) (sign_by (CR := toy_crypto) (map toy_signer ps) m)).
Proof. revert m. induction ps as [|q ps IH]; intros m; [done|]. cbn [app map sign_by]. apply IH. Qed.
Lemma c96_first (m : metadata targets_t) sigs id l : slist (md_sigs m) = sigs -> map sig_keyid sigs = id :: l -> exists sg, sg ∈ default [] (md_sigs m) /\ sig_keyid sg = id.
Proof. intros <- H. destruct (md_sigs m) as [[|sg sgs]|]; [discriminate H| |discriminate H]. injection H as H1 _. exists sg. split; [by left|exact H1]. Qed.
Definition t2030_ok : time_ok t2030. Proof. vm_compute; repeat split; try reflexivity; intros [=]. Qed.
Lemma c96_all ps : forallb (fun p => bool_decide (p = pkA) || bool_decide (p = pkB) || bool_decide (p = pkC)) ps = true -> Forall (fun p => p = pkA \/ p = pkB \/ p = pkC) ps.
Proof. rewrite forallb_forall, Forall_forall. intros H p Hp%elem_of_list_In%H. rewrite !orb_true_iff, !bool_decide_eq_true in Hp. tauto. Qed.
Lemma c96_wf : metadata_wf (sign_by (CR := toy_crypto) (map toy_signer [pkA; pkB]) (Targets t2030)).
Proof.
  destruct C89_case as (Hx & Hpem & _). pose proof (api_root_inv (CR := toy_crypto) t2030 c89_root Hpem Hx) as Hinv.
  refine (proj1 (signed_writable (CR := toy_crypto) t2030 c89_root "root" (map toy_signer [pkA; pkB]) (Targets t2030) Hinv _ (easy_targets t2030 t2030_ok) (targets_new_wf t2030 t2030_ok) eq_refl eq_refl eq_refl)).
  apply c89_team; [vm_compute; reflexivity|done| |by apply c96_all]. apply (bool_decide_unpack _); vm_compute; reflexivity.
Qed.
Lemma c96_signed_by ps : Forall (fun p => p = pkA \/ p = pkB \/ p = pkC) ps -> md_unrec (sign_by (CR := toy_crypto) (map toy_signer ps) (Targets t2030)) = None /\
  exists sigs, slist (md_sigs (sign_by (CR := toy_crypto) (map toy_signer ps) (Targets t2030))) = sigs /\ map sig_keyid sigs = map toy_id ps.
Proof.
  intros H. destruct (sign_by_sigs (CR := toy_crypto) (map toy_signer ps) (map toy_id ps) (Targets t2030) (easy_payload _ (easy_targets t2030 t2030_ok)) (c96_signers ps H)) as (Hu & sigs & Hsg & Hm & _). split; [exact Hu|]. exists sigs. by split.
Qed.
Lemma c96_listed : exists sg, sg ∈ default [] (md_sigs (sign_by (CR := toy_crypto) (map toy_signer [pkA; pkB]) (Targets t2030))) /\ sig_keyid sg = toy_id pkA.
Proof. destruct (c96_signed_by [pkA; pkB] (c96_all [pkA; pkB] eq_refl)) as (_ & sigs & Hsg & Hm). exact (c96_first _ sigs (toy_id pkA) [toy_id pkB] Hsg Hm). Qed.
Lemma c96_again : shallow (fst (sign (CR := toy_crypto) (toy_signer pkA) (sign_by (CR := toy_crypto) (map toy_signer [pkA; pkB]) (Targets t2030)))).
Proof. rewrite <- (c96_snoc [pkA; pkB] pkA (Targets t2030)). apply c96_shape; [reflexivity..|by apply c96_all]. Qed.
Lemma c96_afresh ps qs : Forall (fun p => p = pkA \/ p = pkB \/ p = pkC) ps -> Forall (fun p => p = pkA \/ p = pkB \/ p = pkC) qs ->
  shallow (sign_by (CR := toy_crypto) (map toy_signer qs) (clear_signatures (sign_by (CR := toy_crypto) (map toy_signer ps) (Targets t2030)))).
Proof. intros Hp Hq. destruct (c96_signed_by ps Hp) as (Hu & _). apply c96_shape; unfold clear_signatures; cbn [md_signed md_sigs md_unrec]; [by rewrite SigProofs.sign_by_signed|exact Hu|reflexivity|done]. Qed.
Example C96_case : metadata_wf c96_doc /\ (exists sg, sg ∈ default [] (md_sigs c96_doc) /\ sig_keyid sg = toy_id pkA) /\
  shallow (fst (sign (CR := toy_crypto) (toy_signer pkA) c96_doc)) /\ shallow (sign_by (CR := toy_crypto) (map toy_signer [pkC]) (clear_signatures c96_doc)) /\
  signer_keyid (CR := toy_crypto) (toy_signer pkA) (toy_id pkA) /\ (exists p, signing_payload (md_signed c96_doc) = Ok p).
Proof.
  split; [exact c96_wf|]. split; [exact c96_listed|]. split; [exact c96_again|]. split; [exact (c96_afresh [pkA; pkB] [pkC] (c96_all [pkA; pkB] eq_refl) (c96_all [pkC] eq_refl))|].
  split. { pose proof (c96_signers [pkA] (c96_all [pkA] eq_refl)) as H. apply Forall2_cons in H as [[_ H] _]. exact H. }
  unfold c96_doc. rewrite SigProofs.sign_by_signed. apply easy_payload, easy_targets, t2030_ok.
Qed.
