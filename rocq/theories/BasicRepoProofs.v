(** * Proofs for C111: the metadata that examples/repository makes *)
From stdpp Require Import base gmap strings list.
From Coq Require Import ZArith Lia Ascii String.
From Verif Require Import GoBase GoStr Json GoTime Types Marshal Keys Metadata TrustedMetadata Fetcher Updater Files Cli ExampleClients ExampleRepos
  StrProofs SpecUtf8 SpecText SpecSerial SpecRound RoundBase CanonProofs RoundKept SpecDeleg SpecBasic BasicProofs SpecSig SigProofs SpecKeys KeysProofs SpecTrusted SpecPublish PublishProofs PlainProofs FilesProofs SpecUpdater SpecReach HonestProofs PropertiesReach TrustedProofs PathProofs SpecRepos ReposProofs ServedProofs GenerateProofs RunsProofs TeamsProofs.
Open Scope Z_scope.

Definition basic_keys : list string := ["root"; "timestamp"; "snapshot"; "targets"; "another"; "go-scripts"; "new"; "rsa"; "ecdsa"].

Section Basic.
Context {CR : Crypto} (key : string -> signer) (expires : string -> gotime).
Context (Hpem : pem_round_trip) (Hwork : keys_work key basic_keys) (Htext : text_keys key) (Ht : forall n, time_ok (expires n)).
Notation team := (team_of key basic_keys).
Notation kid := (kid key).
Notation kpk := (kpk key).
Definition online : list string := ["targets"; "snapshot"; "timestamp"].
Lemma in_keys n : bool_decide (n ∈ basic_keys) = true -> n ∈ basic_keys.
Proof. apply bool_decide_eq_true_1. Qed.
Lemma all_keys l : forallb (fun n => bool_decide (n ∈ basic_keys)) l = true -> forall n, n ∈ l -> n ∈ basic_keys.
Proof. rewrite forallb_forall. intros H n Hn. by apply in_keys, H, elem_of_list_In. Qed.
Lemma both_lists (l l1 l2 : list string) : forallb (fun n => bool_decide (n ∈ l1) && bool_decide (n ∈ l2)) l = true -> forall n, n ∈ l -> n ∈ l1 /\ n ∈ l2.
Proof. rewrite forallb_forall. intros H n Hn%elem_of_list_In. apply H, andb_true_iff in Hn as [?%bool_decide_eq_true_1 ?%bool_decide_eq_true_1]. done. Qed.
Lemma add_one x k n ks thr : bool_decide (k ∈ basic_keys) = true -> bool_decide (k ∉ ks) = true -> ready x -> team x n ks thr ->
  exists y, add_public (key k) n x = Ok y /\ ready y /\ same_header x y /\ team y n (ks ++ [k]) thr /\ forall n' ks' thr', n' <> n -> team x n' ks' thr' -> team y n' ks' thr'.
Proof. intros H1%in_keys H2%bool_decide_eq_true_1. by apply add_run. Qed.

(** ** Root metadata *)
Lemma first_root_run : exists x, first_root key expires = Ok x /\ ready x /\ same_header (md_signed (Root (expires "root"))) x /\ team x "root" ["root"; "another"] 2 /\ forall n, n ∈ online -> team x n [n] 1.
Proof.
  unfold first_root. cbn [key_loop add_keys]. set (x0 := md_signed (Root (expires "root"))). pose proof (ready_new (expires "root") (Ht "root")) as R0.
  assert (forall n, n ∈ ["root"; "snapshot"; "targets"; "timestamp"] -> team x0 n [] 1) as T0 by (intros n Hn; by apply team_new).
  destruct (add_one x0 "targets" "targets" [] 1) as (x1 & A1 & R1 & H1 & T1 & O1); [reflexivity|reflexivity|done|apply T0; set_solver|]. unfold key_loop. cbn [add_keys]. rewrite A1. cbn [obind].
  destruct (add_one x1 "snapshot" "snapshot" [] 1) as (x2 & A2 & R2 & H2 & T2 & O2); [reflexivity|reflexivity|done|apply O1; [done|]; apply T0; set_solver|]. rewrite A2. cbn [obind].
  destruct (add_one x2 "timestamp" "timestamp" [] 1) as (x3 & A3 & R3 & H3 & T3 & O3); [reflexivity|reflexivity|done|apply O2; [done|]; apply O1; [done|]; apply T0; set_solver|]. rewrite A3. cbn [obind].
  destruct (add_one x3 "root" "root" [] 1) as (x4 & A4 & R4 & H4 & T4 & O4); [reflexivity|reflexivity|done|apply O3; [done|]; apply O2; [done|]; apply O1; [done|]; apply T0; set_solver|]. rewrite A4. cbn [obind].
  destruct (add_one x4 "another" "root" ["root"] 1) as (x5 & A5 & R5 & H5 & T5 & O5); [reflexivity|reflexivity|done|done|]. rewrite A5. cbn [obind].
  destruct (threshold_run key basic_keys x5 "root" 2 ["root"; "another"] 1) as (x6 & A6 & R6 & H6 & T6 & O6); [done|done|done|]. exists x6. split; [done|]. split; [done|]. split; [by repeat (eapply same_header_trans; [eassumption|])|]. split; [done|].
  intros n Hn. unfold online in Hn. rewrite !elem_of_cons, elem_of_nil in Hn. destruct Hn as [->|[->|[->|[]]]].
  - apply O6, O5, O4, O3, O2; done.
  - apply O6, O5, O4, O3; done.
  - apply O6, O5, O4; done.
Qed.
Definition next_root (m m' : metadata root_t) (ks : list string) (thr : Z) : Prop :=
  ready (md_signed m') /\ rt_version (md_signed m') = rt_version (md_signed m) + 1 /\ rt_consistent (md_signed m') = rt_consistent (md_signed m) /\ rt_expires (md_signed m') = rt_expires (md_signed m) /\
  md_sigs m' = Some [] /\ md_unrec m' = md_unrec m /\ team (md_signed m') "root" ks thr /\ forall n, n ∈ online -> team (md_signed m) n [n] 1 -> team (md_signed m') n [n] 1.
Lemma rotated_run m : int_ok (rt_version (md_signed m) + 1) -> ready (md_signed m) -> team (md_signed m) "root" ["root"; "another"] 2 -> exists m', rotated_root key m = Ok m' /\ next_root m m' ["another"; "new"] 2.
Proof.
  intros Hv R T. unfold rotated_root. destruct (key_facts key basic_keys Hpem Hwork "root") as (k & K1 & _ & K3 & _); [by apply in_keys|]. rewrite K1. cbn [obind]. rewrite K3. cbn [obind].
  destruct (revoke_run key basic_keys Hpem Hwork (md_signed m) "root" "root" ["root"; "another"] 2) as (x1 & A1 & R1 & H1 & T1 & O1); [left|exists "another"; split; [right; left|done]|done|done|]. rewrite A1. cbn [obind].
  change (filter (fun j => j <> "root") ["root"; "another"]) with ["another"] in T1. destruct (add_one x1 "new" "root" ["another"] 2) as (x2 & A2 & R2 & H2 & T2 & O2); [reflexivity|reflexivity|done|done|]. rewrite A2. cbn [obind].
  eexists. split; [reflexivity|]. pose proof (same_header_trans _ _ _ H1 H2) as (_ & _ & Hc & Hver & Hex & _). unfold next_root. cbn [md_signed clear_signatures set_signed md_sigs md_unrec].
  split; [apply version_ready; [by rewrite Hver|done]|]. split; [cbn; by rewrite Hver|]. split; [done|]. split; [done|]. split; [done|]. split; [done|]. split; [done|].
  intros n Hn Hx. assert (n <> "root") by (unfold online in Hn; set_solver). apply version_team, O2, O1; done.
Qed.
Lemma grown_run m : int_ok (rt_version (md_signed m) + 1) -> ready (md_signed m) -> team (md_signed m) "root" ["another"; "new"] 2 -> exists m', grown_root key m = Ok m' /\ next_root m m' ["another"; "new"; "rsa"; "ecdsa"] 4.
Proof.
  intros Hv R T. unfold grown_root.
  destruct (add_one (md_signed m) "rsa" "root" ["another"; "new"] 2) as (x1 & A1 & R1 & H1 & T1 & O1); [reflexivity|reflexivity|done|done|]. rewrite A1. cbn [obind].
  destruct (add_one x1 "ecdsa" "root" ["another"; "new"; "rsa"] 2) as (x2 & A2 & R2 & H2 & T2 & O2); [reflexivity|reflexivity|done|done|]. rewrite A2. cbn [obind].
  destruct (threshold_run key basic_keys x2 "root" 4 ["another"; "new"; "rsa"; "ecdsa"] 2) as (x3 & A3 & R3 & H3 & T3 & O3); [done|done|done|]. rewrite A3. cbn [obind].
  eexists. split; [reflexivity|]. pose proof (same_header_trans _ _ _ (same_header_trans _ _ _ H1 H2) H3) as (_ & _ & Hc & Hver & Hex & _). unfold next_root. cbn [md_signed clear_signatures set_signed md_sigs md_unrec].
  split; [apply version_ready; [by rewrite Hver|done]|]. split; [cbn; by rewrite Hver|]. split; [done|]. split; [done|]. split; [done|]. split; [done|]. split; [done|].
  intros n Hn Hx. assert (n <> "root") by (unfold online in Hn; set_solver). apply version_team, O3, O2, O1; done.
Qed.

(** ** The other metadata *)
Definition with_target (e : gotime) (tf : targetfile) : metadata targets_t := mkMetadata (mkTargets TARGETS SPECIFICATION_VERSION 1 e (Some (<[target_name := Some tf]> ∅)) None None) (Some []) None.
Lemma with_target_plain e place data : time_ok e -> Z.of_nat (String.length data) < 2 ^ 63 -> plain_targets (md_signed (with_target e (info_of place data))).
Proof.
  intros He Hs. eapply (plain_set_target target_name (info_of place data) (Targets e)); [reflexivity|by apply plain_targets_new|by apply plain_text|by apply info_wf|done|done].
Qed.
Definition scripts (id : string) (k : Types.key) : delegations := mkDelegations (Some {[id := Some (key_cache id k)]}) (Some [mkDelegatedRole "go-scripts" (Some [id]) 1 true None (Some ["*.go"]) None]) None None.
Lemma scripts_run : exists k, script_delegations key = Ok (scripts (kid "go-scripts") k) /\ to_public_key k = Ok (kpk "go-scripts") /\ delegations_wf (scripts (kid "go-scripts") k) /\ bare_delegations (scripts (kid "go-scripts") k).
Proof.
  destruct (key_facts key basic_keys Hpem Hwork "go-scripts") as (k & K1 & K2 & K3 & K4 & K5 & _ & K7); [by apply in_keys|]. exists k. unfold script_delegations. rewrite K1. cbn [obind]. rewrite K3. cbn [obind]. split; [done|]. split; [done|].
  destruct (key_from_fields _ k K2) as (Hk0 & H2 & H1 & H3). assert (utf8_text (kv_public (k_val k))) as Htx by (destruct K5 as [K5 _]; by apply (Htext "go-scripts" _ k K5)). pose proof (signer_id_text _ _ K7) as Hid.
  assert (utf8_text (k_type k) /\ utf8_text (k_scheme k)) as (Hty & Hsc) by (destruct (kpk "go-scripts") as [der|der|raw|t]; [..|done]; destruct H3 as (-> & -> & _); (split; by apply plain_text)).
  split.
  - split; [|split; [|split; [by intros s [=]|by intros ? ? ?]]].
    + intros i o Hi. cbn in Hi. apply lookup_singleton_Some in Hi as [<- <-]. split; [done|]. intros ? [= <-]. split; [done|]. split; [done|]. cbn. split; [split; [done|rewrite H2; by intros ? ? ?]|rewrite H1; by intros ? ? ?].
    + cbn. constructor; [|constructor]. split; [by apply plain_text|]. split; [cbn; by constructor|]. split; [done|]. split; [constructor|]. split; [cbn; constructor; [by apply plain_text|constructor]|]. split; [by left|]. by intros ? ? ?.
  - split; [done|]. split; [|split; [|done]].
    + intros i k' Hi. cbn in Hi. apply lookup_singleton_Some in Hi as [<- [= <-]]. split; cbn; [by rewrite H1|by rewrite H2].
    + cbn. constructor; [done|constructor].
Qed.
Definition delegating_targets (d : delegations) : targets_t := mkTargets TARGETS SPECIFICATION_VERSION 2 (expires "targets2") (Some ∅) (Some d) None.
Definition snapshot2 : snapshot_t := mkSnapshot SNAPSHOT SPECIFICATION_VERSION 2 (expires "snapshot") (Some (<["go-scripts.json" := Some (MetaFile 1)]> (<["targets.json" := Some (MetaFile 2)]> {["targets.json" := Some (mkMetaFile 0 None 1 None)]}))) None.
Definition timestamp2 : timestamp_t := mkTimestamp TIMESTAMP SPECIFICATION_VERSION 2 (expires "timestamp") (Some (<["snapshot.json" := Some (MetaFile 2)]> {["snapshot.json" := Some (mkMetaFile 0 None 1 None)]})) None.
Lemma MetaFile_wf v : 1 <= v -> int_ok v -> metafile_wf (MetaFile v).
Proof. intros H1 H2. unfold MetaFile. rewrite (proj2 (Z.ltb_ge v 1) H1). split; [done|]. split; [by intros ? ? ?|]. split; [done|]. by intros ? ? ?. Qed.
Lemma MetaFile_any v data : matches_file (MetaFile v) data.
Proof. split; [|by left]. intros m alg d [= <-] H. by rewrite lookup_empty in H. Qed.
Lemma snapshot2_plain : snapshot_wf snapshot2 /\ bare_snapshot snapshot2.
Proof.
  assert (forall n o, mget (sn_meta snapshot2) n = Some o -> utf8_text n /\ exists f, o = Some f /\ metafile_wf f /\ no_extra (mf_unrec f)) as H.
  { intros n o Hn. cbn in Hn. repeat (apply lookup_insert_Some in Hn as [[<- <-]|[_ Hn]]; [split; [by apply plain_text|]; eexists; split; [reflexivity|]; split; [by apply MetaFile_wf|done]|]).
    apply lookup_singleton_Some in Hn as [<- <-]. split; [by apply plain_text|]. eexists. split; [reflexivity|]. split; [by apply metafile_version_wf|done]. }
  split; [|split; [done|]].
  - split; [by apply plain_text|]. split; [by apply plain_text|]. split; [done|]. split; [apply Ht|]. split; [|by intros ? ? ?]. intros n o Hn. apply H in Hn as (Hn & f & -> & Hf & _). split; [done|]. by intros ? [= <-].
  - intros n f Hn. apply H in Hn as (_ & g & [= ->] & _ & Hg). done.
Qed.
Lemma timestamp2_plain : timestamp_wf timestamp2 /\ bare_timestamp timestamp2.
Proof.
  assert (forall n o, mget (ts_meta timestamp2) n = Some o -> utf8_text n /\ exists f, o = Some f /\ metafile_wf f /\ no_extra (mf_unrec f)) as H.
  { intros n o Hn. cbn in Hn. repeat (apply lookup_insert_Some in Hn as [[<- <-]|[_ Hn]]; [split; [by apply plain_text|]; eexists; split; [reflexivity|]; split; [by apply MetaFile_wf|done]|]).
    apply lookup_singleton_Some in Hn as [<- <-]. split; [by apply plain_text|]. eexists. split; [reflexivity|]. split; [by apply metafile_version_wf|done]. }
  split; [|split; [done|]].
  - split; [by apply plain_text|]. split; [by apply plain_text|]. split; [done|]. split; [apply Ht|]. split; [|by intros ? ? ?]. intros n o Hn. apply H in Hn as (Hn & f & -> & Hf & _). split; [done|]. by intros ? [= <-].
  - intros n f Hn. apply H in Hn as (_ & g & [= ->] & _ & Hg). done.
Qed.
Lemma delegating_plain d : delegations_wf d -> bare_delegations d -> plain_targets (delegating_targets d).
Proof.
  intros Hd Hb. split; [|split; [|done]].
  - split; [by apply plain_text|]. split; [by apply plain_text|]. split; [done|]. split; [apply Ht|]. split; [intros n o Hn; cbn in Hn; by rewrite lookup_empty in Hn|]. split; [intros n Hn; cbn in Hn; by rewrite lookup_empty in Hn|]. split; [by intros ? [= <-]|by intros ? ? ?].
  - split; [done|]. split; [intros n f Hn; cbn in Hn; by rewrite lookup_empty in Hn|]. by intros ? [= <-].
Qed.

(** ** Signed metadata *)
Definition fresh {T} (x : T) : metadata T := mkMetadata x (Some []) None.
Definition T1 (tf : targetfile) : metadata targets_t := sign_by [key "targets"] (with_target (expires "targets") tf).
Definition S1 : metadata snapshot_t := sign_by [key "snapshot"] (Snapshot (expires "snapshot")).
Definition M1 : metadata timestamp_t := sign_by [key "timestamp"] (Timestamp (expires "timestamp")).
Definition R0 (x : root_t) : metadata root_t := sign_by [key "root"] (fresh x).
Definition R1 (x : root_t) : metadata root_t := sign_by [key "another"] (metadata_kept (R0 x)).
Definition GO (tf : targetfile) : metadata targets_t := sign_by [key "go-scripts"] (with_target (expires "go-scripts") tf).
Definition T2 (d : delegations) : metadata targets_t := sign_by [key "targets"] (fresh (delegating_targets d)).
Definition S2 : metadata snapshot_t := sign_by [key "snapshot"] (fresh snapshot2).
Definition M2 : metadata timestamp_t := sign_by [key "timestamp"] (fresh timestamp2).
Definition signers2 : list string := ["root"; "another"; "new"].
Definition signers3 : list string := ["root"; "another"; "new"; "rsa"; "ecdsa"].
Lemma sign_by_unrec {T} {RT : RoleTy T} l (m : metadata T) : md_unrec (sign_by l m) = md_unrec m.
Proof.
  revert m. induction l as [|s l IH]; intros m; [done|]. cbn [sign_by]. rewrite IH. unfold sign. destruct (let! payload := signing_payload (md_signed m) in _) as [sg| |]; done.
Qed.
Lemma fresh_writable {T} {RT : RoleTy T} {SS : SignedSpec T} l (x : T) : forallb (fun n => bool_decide (n ∈ basic_keys)) l = true -> bool_decide (NoDup l) = true -> signed_wf x -> signed_type x = role_name -> bare_signed x -> writable (sign_by (map key l) (fresh x)).
Proof.
  intros Hl Hn%bool_decide_eq_true_1 Hw Hty Hb. apply (signed_writable key basic_keys Hpem Hwork); try done; [by apply all_keys|constructor|]. exists []. split; [done|]. split; [done|by intros k ?%elem_of_nil].
Qed.
Lemma bare_snapshot1 : bare_signed (md_signed (Snapshot (expires "snapshot"))).
Proof. by apply easy4_bare, easy_snapshot. Qed.
Lemma bare_timestamp1 : bare_signed (md_signed (Timestamp (expires "timestamp"))).
Proof. by apply easy4_bare, easy_timestamp. Qed.
Lemma bare_snapshot2 : bare_signed snapshot2.
Proof. destruct snapshot2_plain. by apply easy4_bare, easy_bare_snapshot. Qed.
Lemma bare_timestamp2 : bare_signed timestamp2.
Proof. destruct timestamp2_plain. by apply easy4_bare, easy_bare_timestamp. Qed.
Lemma online_signs {D} {RD : RoleTy D} (rm : metadata root_t) n (dm : metadata D) : n ∈ online -> team (md_signed rm) n [n] 1 -> bare_signed (md_signed dm) -> root_signs rm n (sign_by [key n] dm).
Proof.
  intros Hn Hteam Hb. assert (n ∈ basic_keys) as Hin by (unfold online, basic_keys in *; set_solver).
  apply (team_signs_all key basic_keys Hpem Hwork rm n [n] 1 [n] [n]); try done; [by intros k ->%elem_of_list_singleton|apply NoDup_singleton].
Qed.
(** signing before saving and after loading is signing twice *)
Lemma sign_after_load {T} {RT : RoleTy T} {SS : SignedSpec T} (m : metadata T) k : tuf_role T RT SS -> k ∈ basic_keys -> bare_signed (md_signed m) -> metadata_kept (sign_by [key k] (metadata_kept m)) = metadata_kept (sign_by [key k] m).
Proof.
  intros Hr Hk Hb. destruct (key_facts key basic_keys Hpem Hwork k Hk) as (kk & _ & K2 & K3 & _ & [W1 W2] & _). destruct (bare_payload _ Hb) as [p Hp]. destruct (W2 p) as (sg & Hsg & _).
  cbn [sign_by]. unfold sign. cbn [metadata_kept md_signed]. rewrite payload_kept by done. rewrite Hp. cbn [obind]. rewrite Hsg. rewrite W1. cbn [obind]. rewrite K2. cbn [obind]. rewrite K3. cbn [obind fst].
  unfold metadata_kept. cbn [md_signed md_sigs md_unrec]. rewrite (signed_kept_idem _ Hr). f_equal. cbn. f_equal. rewrite !map_app. f_equal. destruct (md_sigs m) as [l|]; [|done]. cbn. by rewrite map_map.
Qed.
Lemma kept_bare_root x : ready x -> bare_signed (root_kept x).
Proof. intros [Hp _]%kept_ready. by apply plain_root_signed. Qed.
Lemma ready_bare x : ready x -> bare_signed x.
Proof. intros [Hp _]. by apply plain_root_signed. Qed.
Lemma R1_signed x : md_signed (R1 x) = root_kept x.
Proof. unfold R1. rewrite sign_by_signed. unfold R0. cbn [metadata_kept md_signed]. by rewrite sign_by_signed. Qed.
Lemma R0_writable x : ready x -> writable (R0 x).
Proof. intros Hx. pose proof Hx as [(H1 & _ & H3 & _) _]. apply (fresh_writable ["root"]); [reflexivity|reflexivity|done|done|by apply ready_bare]. Qed.
Lemma R1_writable x : ready x -> writable (R1 x).
Proof.
  intros Hx. pose proof (kept_ready x Hx) as [(H1 & _ & H3 & _) _]. unfold R1. change [key "another"] with (map key ["another"]).
  assert (md_signed (metadata_kept (R0 x)) = root_kept x) as Hs by (unfold R0; cbn [metadata_kept md_signed]; by rewrite sign_by_signed).
  destruct (sign_by_sigs [key "root"] [kid "root"] (fresh x) (bare_payload _ (ready_bare _ Hx))) as (_ & sigs & Hsg & Hm & Hun).
  { destruct (key_facts key basic_keys Hpem Hwork "root") as (_ & _ & _ & _ & _ & W & _ & K); [by apply in_keys|]. constructor; [|constructor]. split; [by eexists|done]. }
  cbn in Hsg. apply (signed_writable key basic_keys Hpem Hwork); rewrite ?Hs; try done.
  - by apply all_keys.
  - apply NoDup_singleton.
  - by apply kept_bare_root.
  - cbn [metadata_kept md_unrec]. unfold R0. by rewrite sign_by_unrec.
  - cbn [metadata_kept md_sigs]. assert (slist (option_map (map signature_kept) (md_sigs (R0 x))) = map signature_kept (slist (md_sigs (R0 x)))) as -> by (by destruct (md_sigs (R0 x))). unfold R0. cbn [sign_by] in *. rewrite Hsg.
    clear -Hun. induction Hun as [|s l Hs _ IH]; cbn; constructor; [|done]. cbn. unfold no_extra, kept_extra. cbn. by rewrite Hs.
  - exists ["root"]. split; [|split; [by apply (bool_decide_unpack _)|by apply all_keys]]. cbn [metadata_kept md_sigs].
    assert (slist (option_map (map signature_kept) (md_sigs (R0 x))) = map signature_kept (slist (md_sigs (R0 x)))) as -> by (by destruct (md_sigs (R0 x))). unfold R0. cbn [sign_by] in *. rewrite Hsg, map_map. cbn. exact Hm.
Qed.
Lemma R1_signs x : ready x -> team x "root" ["root"; "another"] 2 -> root_signs (R1 x) "root" (R1 x).
Proof.
  intros Hx Hteam. apply root_signs_ok. rewrite <- (root_verify_kept (R1 x) "root" (R1 x) is_root). unfold R1 at 2. rewrite sign_after_load; [|constructor|by apply in_keys|unfold R0; rewrite sign_by_signed; by apply ready_bare].
  change (sign_by [key "another"] (R0 x)) with (sign_by (map key ["root"; "another"]) (fresh x)).
  assert (forall m m' : metadata root_t, md_signed m = md_signed m' -> forall dm : metadata root_t, verify_delegate m "root" dm = verify_delegate m' "root" dm) as Hsame by (intros m m' He dm; unfold verify_delegate, delegation_of, root_delegator; by rewrite He).
  rewrite (Hsame _ (metadata_kept (fresh x))); [|cbn [metadata_kept md_signed fresh]; rewrite R1_signed; exact (signed_kept_idem x is_root)].
  rewrite (root_verify_kept (fresh x) "root" _ is_root). apply root_signs_ok. apply (team_signs_all key basic_keys Hpem Hwork (fresh x) "root" ["root"; "another"] 2 ["root"; "another"] ["root"; "another"]); try done.
  - by apply all_keys.
  - by apply (bool_decide_unpack _).
  - by apply ready_bare.
Qed.
Lemma go_signs k tf : bare_signed (md_signed (with_target (expires "go-scripts") tf)) -> to_public_key k = Ok (kpk "go-scripts") -> targets_signs (T2 (scripts (kid "go-scripts") k)) "go-scripts" (GO tf).
Proof.
  intros Hb Hk. destruct (bare_payload _ Hb) as [p Hp]. destruct (key_facts key basic_keys Hpem Hwork "go-scripts") as (_ & _ & _ & _ & _ & W & Pp & K); [by apply in_keys|].
  eexists _, [kid "go-scripts"], 1. split.
  { exists (scripts (kid "go-scripts") k). unfold T2. rewrite sign_by_signed. split; [done|]. split; [reflexivity|]. left. eexists [], _, []. split; [reflexivity|]. done. }
  assert (resolves (d_keys (scripts (kid "go-scripts") k)) (kid "go-scripts") (kpk "go-scripts")) as Hres by (eexists; eexists; split; [reflexivity|]; split; [apply lookup_singleton|done]).
  apply (sign_verify _ _ _ [key "go-scripts"] _ p [kid "go-scripts"]); try done.
  - intros i ->%elem_of_list_singleton. by exists (kpk "go-scripts").
  - apply NoDup_singleton.
  - intros i ->%elem_of_list_singleton. split; [by left|]. exists (key "go-scripts"). split; [by left|done].
  - intros s i pk ->%elem_of_list_singleton ->%elem_of_list_singleton _ Hr. by rewrite (resolves_fun _ _ _ _ Hr Hres).
Qed.

(** ** Everything the program makes *)
Definition made (place data : string) (x : root_t) (k : Types.key) (r2a r3a : metadata root_t) : Prop :=
  let tf := info_of place data in let d := scripts (kid "go-scripts") k in let r1 := R1 x in let r2 := sign_by (map key signers2) r2a in let r3 := sign_by (map key signers3) r3a in
  (first_root key expires = Ok x /\ script_delegations key = Ok d /\ rotated_root key r1 = Ok r2a /\ grown_root key r2 = Ok r3a) /\
  (ready x /\ bare_signed (md_signed (T1 tf)) /\ bare_signed (md_signed (T2 d)) /\ bare_signed (md_signed (GO tf)) /\ ready (md_signed r2a) /\ ready (md_signed r3a)) /\
  (writable (T1 tf) /\ writable S1 /\ writable M1 /\ writable (R0 x) /\ writable r1) /\ (writable (T2 d) /\ writable S2 /\ writable M2 /\ writable (GO tf) /\ writable r2 /\ writable r3) /\
  (root_signs r1 "root" r1 /\ root_signs r1 "targets" (T1 tf) /\ root_signs r1 "snapshot" S1 /\ root_signs r1 "timestamp" M1) /\
  (root_signs r1 "root" r2 /\ root_signs r2 "root" r2 /\ root_signs r2 "targets" (T2 d) /\ root_signs r2 "snapshot" S2 /\ root_signs r2 "timestamp" M2) /\ targets_signs (T2 d) "go-scripts" (GO tf) /\
  (root_signs r2 "root" r3 /\ root_signs r3 "root" r3 /\ root_signs r3 "targets" (T2 d) /\ root_signs r3 "snapshot" S2 /\ root_signs r3 "timestamp" M2) /\
  (rt_version (md_signed r1) = 1 /\ rt_version (md_signed r2) = 2 /\ rt_version (md_signed r3) = 3 /\ rt_consistent (md_signed r3) = true /\ rt_expires (md_signed r3) = expires "root").
Lemma made_ok place data : Z.of_nat (String.length data) < 2 ^ 63 -> exists x k r2a r3a, made place data x k r2a r3a.
Proof.
  intros Hsmall. destruct first_root_run as (x & A1 & B1 & (_ & _ & C1 & V1 & E1 & _) & D1 & O1). destruct scripts_run as (k & A2 & B2 & C2 & D2).
  assert (forall n, n ∈ online -> team (md_signed (R1 x)) n [n] 1) as O1' by (intros n Hn; rewrite R1_signed; by apply kept_team, O1).
  assert (rt_version (md_signed (R1 x)) = 1) as V1' by (rewrite R1_signed; cbn; by rewrite V1).
  assert (ready (md_signed (R1 x))) as B1' by (rewrite R1_signed; by apply kept_ready).
  destruct (rotated_run (R1 x)) as (r2a & A3 & B3 & V3 & C3 & E3 & S3 & U3 & D3 & O3); [by rewrite V1'|done|rewrite R1_signed; by apply kept_team|].
  set (r2 := sign_by (map key signers2) r2a). assert (md_signed r2 = md_signed r2a) as M2' by apply sign_by_signed. rewrite V1' in V3.
  destruct (grown_run r2) as (r3a & A4 & B4 & V4 & C4 & E4 & S4 & U4 & D4 & O4); [by rewrite M2', V3|by rewrite M2'|by rewrite M2'|]. rewrite M2' in V4, C4, E4, O4.
  exists x, k, r2a, r3a. unfold made. fold r2. set (r3 := sign_by (map key signers3) r3a). assert (md_signed r3 = md_signed r3a) as M3' by apply sign_by_signed.
  assert (md_unrec r2a = Some ∅) as Hu2 by (rewrite U3; unfold R1; rewrite sign_by_unrec; cbn [metadata_kept md_unrec]; unfold R0; by rewrite sign_by_unrec). assert (md_unrec r3a = Some ∅) as Hu3 by (rewrite U4; unfold r2; by rewrite sign_by_unrec).
  assert (bare_signed (md_signed (with_target (expires "targets") (info_of place data)))) as W1 by (by apply plain_targets_signed, with_target_plain). assert (bare_signed (md_signed (with_target (expires "go-scripts") (info_of place data)))) as W2 by (by apply plain_targets_signed, with_target_plain).
  assert (bare_signed (delegating_targets (scripts (kid "go-scripts") k))) as W3 by (by apply plain_targets_signed, delegating_plain).
  assert (forall l (m : metadata root_t), forallb (fun n => bool_decide (n ∈ basic_keys)) l = true -> bool_decide (NoDup l) = true -> ready (md_signed m) -> md_sigs m = Some [] -> md_unrec m = Some ∅ -> writable (sign_by (map key l) m)) as Hrw.
  { intros l m H1 H2%bool_decide_eq_true_1 H3 H4 H5. pose proof H3 as [(Q1 & _ & Q3 & _) _]. apply (signed_writable key basic_keys Hpem Hwork); try done; [by apply all_keys|by apply ready_bare|by rewrite H5|by rewrite H4; constructor|]. exists []. rewrite H4. split; [done|]. split; [done|by intros j ?%elem_of_nil]. }
  split; [done|]. split. { unfold T1, T2, GO. rewrite !sign_by_signed. done. }
  split. { split; [|split; [|split; [|split]]].
    - destruct (with_target_plain (expires "targets") place data) as (Q1 & _ & Q3); [done|done|]. by apply (fresh_writable ["targets"]).
    - apply (fresh_writable ["snapshot"] (md_signed (Snapshot (expires "snapshot")))); [reflexivity|reflexivity|by apply snapshot_new_wf|done|apply bare_snapshot1].
    - apply (fresh_writable ["timestamp"] (md_signed (Timestamp (expires "timestamp")))); [reflexivity|reflexivity|by apply timestamp_new_wf|done|apply bare_timestamp1].
    - by apply R0_writable. - by apply R1_writable. }
  split. { split; [|split; [|split; [|split; [|split]]]].
    - destruct (delegating_plain (scripts (kid "go-scripts") k) C2 D2) as (Q1 & _ & Q3). by apply (fresh_writable ["targets"]).
    - apply (fresh_writable ["snapshot"] snapshot2); [reflexivity|reflexivity|apply snapshot2_plain|done|apply bare_snapshot2].
    - apply (fresh_writable ["timestamp"] timestamp2); [reflexivity|reflexivity|apply timestamp2_plain|done|apply bare_timestamp2].
    - destruct (with_target_plain (expires "go-scripts") place data) as (Q1 & _ & Q3); [done|done|]. by apply (fresh_writable ["go-scripts"]).
    - by apply Hrw. - by apply Hrw. }
  assert (forall n, n ∈ online -> team (md_signed r2) n [n] 1) as O2' by (intros n Hn; rewrite M2'; apply O3; [done|by apply O1']).
  assert (forall n, n ∈ online -> team (md_signed r3) n [n] 1) as O3' by (intros n Hn; rewrite M3'; apply O4; [done|]; rewrite <- M2'; by apply O2').
  assert ("targets" ∈ online /\ "snapshot" ∈ online /\ "timestamp" ∈ online) as (I1 & I2 & I3) by (split_and!; by apply (bool_decide_unpack _)).
  split. { split; [by apply R1_signs|]. split; [by apply online_signs; [|apply O1'|]|]. split; [by apply online_signs; [|apply O1'|apply bare_snapshot1]|]. by apply online_signs; [|apply O1'|apply bare_timestamp1]. }
  split. { split; [|split; [|split; [by apply online_signs; [|apply O2'|]|split; [by apply online_signs; [|apply O2'|apply bare_snapshot2]|by apply online_signs; [|apply O2'|apply bare_timestamp2]]]]].
    - apply (team_signs_all key basic_keys Hpem Hwork (R1 x) "root" ["root"; "another"] 2 signers2 ["root"; "another"]); [rewrite R1_signed; by apply kept_team|done|by apply all_keys|by apply (bool_decide_unpack _)|by apply both_lists|done|by apply ready_bare].
    - apply (team_signs_all key basic_keys Hpem Hwork r2 "root" ["another"; "new"] 2 signers2 ["another"; "new"]); [by rewrite M2'|done|by apply all_keys|by apply (bool_decide_unpack _)|by apply both_lists|done|by apply ready_bare]. }
  split; [by apply go_signs|].
  split. { split; [|split; [|split; [by apply online_signs; [|apply O3'|]|split; [by apply online_signs; [|apply O3'|apply bare_snapshot2]|by apply online_signs; [|apply O3'|apply bare_timestamp2]]]]].
    - apply (team_signs_all key basic_keys Hpem Hwork r2 "root" ["another"; "new"] 2 signers3 ["another"; "new"]); [by rewrite M2'|done|by apply all_keys|by apply (bool_decide_unpack _)|by apply both_lists|done|by apply ready_bare].
    - apply (team_signs_all key basic_keys Hpem Hwork r3 "root" ["another"; "new"; "rsa"; "ecdsa"] 4 signers3 ["another"; "new"; "rsa"; "ecdsa"]); [by rewrite M3'|done|by apply all_keys|by apply (bool_decide_unpack _)|by apply both_lists|done|by apply ready_bare]. }
  split; [done|]. split; [by rewrite M2'|]. rewrite M3', V4, C4, E4, V3, C3, E3, R1_signed. cbn. by rewrite C1, E1.
Qed.
End Basic.
