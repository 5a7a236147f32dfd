(** * A concrete honest repository: a checker for the conditions of SpecUpdater.v, used to exhibit concrete cases *)
From stdpp Require Import base gmap strings list.
From Coq Require Import ZArith Lia Ascii String.
From Verif Require Import GoBase GoStr GoTime Types Marshal Keys Metadata TrustedMetadata Fetcher Updater SpecBasic SpecTrusted SpecUpdater.
From Verif Require Import BasicProofs TrustedProofs Toy Examples ExamplesUpdater.
Open Scope Z_scope.

Definition served (files : list (string * string)) (url data : string) : bool := match find_file files url with Some d => String.eqb d data | None => false end.
Lemma served_ok files url data : served files url data = true -> serves (ex_env files) url data.
Proof.
  unfold served, serves. intros H tr len Hl. cbn. unfold serve. destruct (find_file files url) as [d|]; [|done]. apply String.eqb_eq in H as ->. by rewrite (proj2 (Z.leb_le _ _) Hl).
Qed.
Definition missing (files : list (string * string)) (url : string) : bool := match find_file files url with Some _ => false | None => true end.
Lemma missing_ok files url : missing files url = true -> forall tr len, exists e, e_net (ex_env files) tr url len = Err e /\ not_found e.
Proof. unfold missing. intros H tr len. cbn. unfold serve. destruct (find_file files url); [done|]. exists (ErrDownloadHTTP 404 url). split; [done|]. left. constructor. Qed.

Definition doc_b {T} `{RoleTy T} (m : metadata T) : bool := String.eqb (signed_type (md_signed m)) role_name.
Definition fresh_b {T} `{RoleTy T} (m : metadata T) (now : Z) : bool := now <=? instant (signed_expires (md_signed m)).
Lemma fresh_ok {T} `{RoleTy T} (m : metadata T) now : fresh_b m now = true -> ~ expired_at m now.
Proof. unfold fresh_b, expired_at. rewrite Z.leb_le. lia. Qed.
Definition signs_b {T} `{RoleTy T} (r : metadata root_t) (name : string) (m : metadata T) : bool := match verify_delegate r name m with Ok _ => true | _ => false end.
Lemma signs_ok {T} `{RoleTy T} (r : metadata root_t) (name : string) (m : metadata T) : signs_b r name m = true -> root_signs r name m.
Proof. unfold signs_b. destruct (verify_delegate r name m) as [[]| |] eqn:E; [|done..]. intros _. by apply root_signs_ok. Qed.
Definition matches_b (f : metafile) (data : string) : bool := match metafile_verify (Some f) data with Ok _ => true | _ => false end.
Lemma matches_ok f data : matches_b f data = true -> matches_file f data.
Proof. unfold matches_b. destruct (metafile_verify (Some f) data) as [[]| |] eqn:E; [|done..]. intros _. by apply metafile_verify_ok. Qed.

(** the repository publishes one new root, a timestamp, a snapshot and targets metadata *)
Definition honest_b (files : list (string * string)) (c : config) (now : Z) (d1 dts dsn dtg : string) : bool :=
  match from_bytes (T := root_t) (c_trusted_root c), from_bytes (T := root_t) d1, from_bytes (T := timestamp_t) dts, from_bytes (T := snapshot_t) dsn, from_bytes (T := targets_t) dtg with
  | Ok r0, Ok r1, Ok ts, Ok sn, Ok tg =>
      match snapshot_meta ts, mget (sn_meta (md_signed sn)) "targets.json" with
      | Some f, Some (Some g) =>
          (doc_b r0 && signs_b r0 "root" r0) && (doc_b r1 && signs_b r0 "root" r1 && signs_b r1 "root" r1 && (rt_version (md_signed r1) =? rt_version (md_signed r0) + 1) && fresh_b r1 now) &&
          (doc_b ts && signs_b r1 "timestamp" ts && fresh_b ts now && matches_b f dsn && (sn_version (md_signed sn) =? mf_version f)) &&
          (doc_b sn && signs_b r1 "snapshot" sn && fresh_b sn now && matches_b g dtg && (tg_version (md_signed tg) =? mf_version g)) &&
          (doc_b tg && signs_b r1 "targets" tg && fresh_b tg now) &&
          ((Z.of_nat (String.length d1) <=? c_root_max c) && served files (url_of c "root" (fmt_dec (rt_version (md_signed r0) + 1))) d1 && missing files (url_of c "root" (fmt_dec (rt_version (md_signed r1) + 1)))) &&
          ((Z.of_nat (String.length dts) <=? c_timestamp_max c) && served files (url_of c "timestamp" "") dts) &&
          ((Z.of_nat (String.length dsn) <=? c_snapshot_max c) && served files (url_of c "snapshot" (version_in_url r1 (mf_version f))) dsn) &&
          ((Z.of_nat (String.length dtg) <=? c_targets_max c) && served files (url_of c "targets" (version_in_url r1 (mf_version g))) dtg) &&
          (negb (c_unsafe_local c) && (1 <=? c_max_root_rotations c) && (rt_version (md_signed r0) + c_max_root_rotations c <? 2 ^ 63 - 1))
      | _, _ => false
      end
  | _, _, _, _, _ => false
  end.
Lemma honest_check files c now d1 dts dsn dtg : honest_b files c now d1 dts dsn dtg = true ->
  exists r0 r1 ts sn tg f g, let P := mkPublication [(d1, r1)] dts ts dsn sn dtg tg f g in
    document (c_trusted_root c) r0 /\ root_signs r0 "root" r0 /\ honest r0 r1 now P /\ on_server (ex_env files) c r0 r1 P /\ can_follow c r0 P.
Proof.
  unfold honest_b. destruct (from_bytes (T := root_t) (c_trusted_root c)) as [r0| |] eqn:H0; [|done..]. destruct (from_bytes (T := root_t) d1) as [r1| |] eqn:H1; [|done..].
  destruct (from_bytes (T := timestamp_t) dts) as [ts| |] eqn:H2; [|done..]. destruct (from_bytes (T := snapshot_t) dsn) as [sn| |] eqn:H3; [|done..]. destruct (from_bytes (T := targets_t) dtg) as [tg| |] eqn:H4; [|done..].
  destruct (snapshot_meta ts) as [f|] eqn:Hf; [|done]. destruct (mget (sn_meta (md_signed sn)) "targets.json") as [[g|]|] eqn:Hg; [|done..].
  rewrite !andb_true_iff, negb_true_iff, !Z.leb_le, !Z.eqb_eq, Z.ltb_lt. unfold doc_b. rewrite !String.eqb_eq.
  intros [[[[[[[[[[A1 A2] B] C] D] F] G] I] J] K] L].
  destruct B as [[[[B1 B2] B3] B4] B5]. destruct C as [[[[C1 C2] C3] C4] C5]. destruct D as [[[[D1 D2] D3] D4] D5]. destruct F as [[F1 F2] F3].
  destruct G as [[G1 G2] G3]. destruct I as [I1 I2]. destruct J as [J1 J2]. destruct K as [K1 K2]. destruct L as [[L1 L2] L3].
  exists r0, r1, ts, sn, tg, f, g. cbv zeta. split; [by split|]. split; [by apply signs_ok|]. split; [|split].
  - split. { cbn. eapply one_update; [by split|by apply signs_ok|by apply signs_ok|done|constructor]. }
    split; [by apply fresh_ok|]. cbn. split. { split; [by split|]. split; [by apply signs_ok|by apply fresh_ok]. }
    split. { split; [by apply snapshot_meta_spec|]. split; [by apply matches_ok|done]. }
    split. { split; [by split|]. split; [by apply signs_ok|by apply fresh_ok]. }
    split. { split; [by apply lists_file_mget|]. split; [by apply matches_ok|done]. }
    split; [by split|]. split; [by apply signs_ok|by apply fresh_ok].
  - split. { intros [|i] data r Hi; [|by destruct i]. injection Hi as <- <-. split; [done|]. rewrite Z.add_0_r. by apply served_ok. }
    split; [by apply missing_ok|]. cbn. split; [split; [done|by apply served_ok]|]. split; (split; [done|by apply served_ok]).
  - split; [done|]. split; [done|done].
Qed.
Lemma ex_honest : honest_b ex_files ex_config ex_now (bytes_of (ex_root 2)) (bytes_of ex_timestamp) (bytes_of ex_snapshot) (bytes_of ex_targets) = true.
Proof. vm_compute. reflexivity. Qed.
Lemma ex_disk_works d off local root : (forall n, d !! ("/w/tuf_tmp" +:+ fmt_dec n) = None) -> disk_works (ex_env ex_files) (ex_config_with root off local) d.
Proof. intros H. right. split; [done|]. split; [done|]. split; [done|]. exists "/w". by split. Qed.
(** an older timestamp and targets metadata that do not match *)
Definition older_b (old dts dsn dtg : string) (garbage : string) : bool :=
  match from_bytes (T := timestamp_t) old, from_bytes (T := timestamp_t) dts, from_bytes (T := snapshot_t) dsn with
  | Ok o, Ok ts, Ok sn =>
      match snapshot_meta o, snapshot_meta ts, mget (sn_meta (md_signed sn)) "targets.json" with
      | Some f', Some f, Some (Some g) => doc_b o && is_ok (signing_payload (md_signed o)) && (ts_version (md_signed o) <? ts_version (md_signed ts)) && (mf_version f' <=? mf_version f) && negb (matches_b g garbage)
      | _, _, _ => false
      end
  | _, _, _ => false
  end.
Lemma older_check old garbage r0 r1 now P : older_b old (pub_timestamp P) (pub_snapshot P) (pub_targets P) garbage = true -> honest r0 r1 now P -> cached_timestamp r1 P old /\ cached_targets r1 now P garbage.
Proof.
  unfold older_b. intros H (_ & _ & ([H1 _] & _) & (H2 & _) & ([H3 _] & _) & (H4 & _) & _). destruct (from_bytes (T := timestamp_t) old) as [o| |] eqn:Ho; [|done..]. rewrite H1, H3 in H.
  apply snapshot_meta_spec in H2. apply lists_file_mget in H4. rewrite H2, H4 in H. destruct (snapshot_meta o) as [f'|] eqn:Hf; [|done].
  rewrite !andb_true_iff, negb_true_iff, Z.ltb_lt, Z.leb_le in H. destruct H as [[[[A1 A2] A3] A4] A5]. split.
  - exists o. split; [split; [done|by apply String.eqb_eq]|]. split; [destruct (signing_payload (md_signed o)) as [p| |]; [by exists p|done..]|]. intros _. right. split; [done|]. exists f'. split; [by apply snapshot_meta_spec|done].
  - intros Hm. exfalso. apply metafile_verify_ok in Hm. unfold matches_b in A5. by rewrite Hm in A5.
Qed.
Lemma ex_older : older_b (bytes_of (ex_timestamp_v 8)) (bytes_of ex_timestamp) (bytes_of ex_snapshot) (bytes_of ex_targets) "{" = true.
Proof. vm_compute. reflexivity. Qed.
