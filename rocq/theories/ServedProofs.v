(** * A publication in a directory that a web server delivers (C110, C111) *)
From stdpp Require Import base gmap strings list.
From Coq Require Import ZArith Lia Ascii String.
From Verif Require Import GoBase GoStr Json GoTime Types Marshal Keys Metadata TrustedMetadata Fetcher Updater Files Cli ExampleClients ExampleRepos
  StrProofs SpecUtf8 SpecText SpecSerial SpecRound RoundBase SpecDeleg SpecBasic BasicProofs SpecSig SigProofs SpecKeys KeysProofs SpecTrusted SpecPublish PublishProofs PlainProofs FilesProofs SpecUpdater SpecReach HonestProofs PropertiesReach TrustedProofs PathProofs SpecRepos ReposProofs FinalProofs.
Open Scope Z_scope.

Section Served.
Context {CR : Crypto}.
Lemma url_versioned c role v : v <> "" -> query_escape role = role -> url_of c role v = with_slash (c_metadata_url c) +:+ (v +:+ "." +:+ role +:+ ".json").
Proof. intros Hv Hr. unfold url_of, with_slash. rewrite Hr. by rewrite (proj2 (String.eqb_neq v "") Hv). Qed.
Lemma fmt_dec_ne n : fmt_dec n <> "".
Proof. destruct (FinalProofs.fmt_dec_last n) as (d & H & _). intros Hx. by rewrite Hx in H. Qed.
Lemma url_name c role v : query_escape role = role -> url_of c role (fmt_dec v) = with_slash (c_metadata_url c) +:+ versioned_name v role.
Proof. intros H. unfold versioned_name. apply url_versioned; [apply fmt_dec_ne|done]. Qed.
Lemma dir_serves E d dir url name data : serves_dir E d dir url -> d !! file_in dir name = Some data -> serves E (with_slash url +:+ name) data.
Proof. intros H Hd. specialize (H name). by rewrite Hd in H. Qed.
Lemma dir_on_server E c d dir r0 r P : serves_dir E d dir (c_metadata_url c) -> within_limits c d dir -> rt_consistent (md_signed r) = true ->
  (forall i data r1, pub_roots P !! i = Some (data, r1) -> d !! file_in dir (versioned_name (rt_version (md_signed r0) + 1 + Z.of_nat i) "root") = Some data) ->
  d !! file_in dir (versioned_name (rt_version (md_signed r) + 1) "root") = None -> d !! file_in dir "timestamp.json" = Some (pub_timestamp P) ->
  d !! file_in dir (versioned_name (mf_version (pub_snapshot_info P)) "snapshot") = Some (pub_snapshot P) ->
  d !! file_in dir (versioned_name (mf_version (pub_targets_info P)) "targets") = Some (pub_targets P) -> on_server E c r0 r P.
Proof.
  intros Hs Hl Hc Hroots Hnone Hts Hsn Htg. unfold on_server, version_in_url. rewrite Hc. split; [|split; [|split; [|split]]].
  - intros i data r1 Hi. specialize (Hroots i data r1 Hi). split; [pose proof (Hl _ _ Hroots); lia|]. rewrite url_name by done. by eapply dir_serves.
  - intros tr len. rewrite url_name by done. specialize (Hs (versioned_name (rt_version (md_signed r) + 1) "root")). rewrite Hnone in Hs. apply Hs.
  - split; [pose proof (Hl _ _ Hts); lia|]. eapply (dir_serves _ _ _ _ "timestamp.json"); done.
  - split; [intros _; pose proof (Hl _ _ Hsn); lia|]. rewrite url_name by done. by eapply dir_serves.
  - split; [intros _; pose proof (Hl _ _ Htg); lia|]. rewrite url_name by done. by eapply dir_serves.
Qed.
(** a new client of such a publication *)
Lemma served_works E c d dir root r0 r P now i D : new_client E c root i -> document root r0 -> root <> "" -> root_signs r0 "root" r0 -> honest r0 r now P -> serves_dir E d dir (c_metadata_url c) -> within_limits c d dir -> rt_consistent (md_signed r) = true ->
  rt_version (md_signed r0) = 1 -> Z.of_nat (List.length (pub_roots P)) <= c_max_root_rotations c ->
  (forall i data r1, pub_roots P !! i = Some (data, r1) -> d !! file_in dir (versioned_name (rt_version (md_signed r0) + 1 + Z.of_nat i) "root") = Some data) ->
  d !! file_in dir (versioned_name (rt_version (md_signed r) + 1) "root") = None -> d !! file_in dir "timestamp.json" = Some (pub_timestamp P) ->
  d !! file_in dir (versioned_name (mf_version (pub_snapshot_info P)) "snapshot") = Some (pub_snapshot P) ->
  d !! file_in dir (versioned_name (mf_version (pub_targets_info P)) "targets") = Some (pub_targets P) -> works E c r0 r P now D i.
Proof.
  intros (C1 & C2 & C3 & C4 & C5 & C6 & C7 & C8) Hd Hne Hs Hh Hsd Hl Hc Hv Hrot H1 H2 H3 H4 H5. unfold works. rewrite C1.
  split; [exact Hd|]. split; [exact Hs|]. split; [exact C3|]. split; [exact Hne|]. split; [exact Hh|]. split; [by eapply dir_on_server|]. split; [split; [done|]; split; [done|]; lia|]. split; [done|].
  rewrite C5. split; [done|]. split; [done|]. split; [done|]. done.
Qed.
End Served.
