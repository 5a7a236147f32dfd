(** * The programs that make repositories succeed if nothing fails around them (C110, C111) *)
From stdpp Require Import base gmap strings list.
From Coq Require Import ZArith Lia Ascii String.
From Verif Require Import GoBase GoStr Json GoTime Types Marshal Keys Metadata TrustedMetadata Fetcher Updater Files Cli ExampleClients ExampleRepos
  StrProofs SpecUtf8 SpecText SpecSerial SpecRound RoundBase SpecDeleg SpecBasic BasicProofs SpecSig SigProofs SpecKeys KeysProofs SpecTrusted SpecPublish PublishProofs PlainProofs FilesProofs SpecUpdater SpecReach HonestProofs PropertiesReach TrustedProofs PathProofs SpecRepos ReposProofs ServedProofs GenerateProofs.
Open Scope Z_scope.

(** ** Steps *)
Lemma sbind_run {S A B} (m : S -> S * outcome A) (f : A -> S -> S * outcome B) s s1 a : m s = (s1, Ok a) -> sbind m f s = f a s1.
Proof. unfold sbind. by intros ->. Qed.
Lemma sout_run {S A B} (a : A) (f : A -> S -> S * outcome B) s (o : outcome A) : o = Ok a -> sbind (sout o) f s = f a s.
Proof. by intros ->. Qed.
Lemma read_run E p i data : (forall tr, e_io E tr = true) -> io_disk i !! p = Some data -> exists i', read_file E p i = (i', Ok data) /\ io_disk i' = io_disk i.
Proof. intros Hio H. unfold read_file. rewrite H, Hio. by eexists. Qed.
Lemma write_run E p i data : (forall tr, e_io E tr = true) -> exists i', write_file E p data i = (i', Ok tt) /\ io_disk i' = <[p := data]> (io_disk i).
Proof. intros Hio. unfold write_file. rewrite Hio. by eexists. Qed.
Lemma to_file_run {T} {RT : RoleTy T} E (m : metadata T) p i b : (forall tr, e_io E tr = true) -> to_bytes_fmt true m = Ok b -> exists i', to_file E m p true i = (i', Ok tt) /\ io_disk i' = <[p := b]> (io_disk i).
Proof. intros Hio Hb. unfold to_file. rewrite (sout_run b) by done. by apply write_run. Qed.

Section Runs.
Context {CR : Crypto}.
Lemma signed_with_run {T} {RT : RoleTy T} s (m : metadata T) p id : working_signer s p -> signer_keyid s id -> (exists b, signing_payload (md_signed m) = Ok b) -> signed_with s m = Ok (sign_by [s] m).
Proof.
  intros [H1 H2] (p' & k & H3 & H4 & H5) [b Hb]. destruct (H2 b) as (sg & Hsg & _). unfold signed_with. cbn [sign_by]. unfold sign. rewrite Hb. cbn [obind]. rewrite Hsg. cbn [obind]. rewrite H3. cbn [obind]. rewrite H4. cbn [obind]. by rewrite H5.
Qed.
Lemma target_run E place i data : (forall tr, e_io E tr = true) -> io_disk i !! place = Some data -> exists i', targetfile_from_file E place ["sha256"] i = (i', Ok (info_of place data)) /\ io_disk i' = io_disk i.
Proof. intros Hio H. destruct (read_run E place i data Hio H) as (i' & H1 & H2). exists i'. split; [|done]. unfold targetfile_from_file. erewrite sbind_run by exact H1. done. Qed.
Lemma list_run E l d b names m i data lm : l <> [] -> Forall plain_name (l ++ d) -> plain_name b -> (forall tr, e_io E tr = true) -> e_cwd E = Some (abs_path l) -> io_disk i !! abs_path (l ++ d ++ [b]) = Some data -> tg_targets (md_signed m) = Some lm ->
  exists i1 m1, list_targets E (join_str "/" (d ++ [b]) :: names) m i = list_targets E names m1 i1 /\ io_disk i1 = <[abs_path (l ++ d ++ [hash_name data b]) := data]> (io_disk i) /\ exists lm1, tg_targets (md_signed m1) = Some lm1.
Proof.
  intros Hl Hd Hb Hio Hcwd Hdata Hlm. cbn [list_targets].
  assert (Forall plain_name (d ++ [b])) as Hdb by (apply snoc_plain; [by apply Forall_app in Hd as [_ ?]|done]). assert (Forall plain_name l) as Hpl by (by apply Forall_app in Hd as [? _]).
  rewrite (sbind_run _ _ i i (abs_path l)) by (unfold getwd; by rewrite Hcwd). rewrite join_abs by (done || apply snoc_ne).
  destruct (target_run E _ _ _ Hio Hdata) as (i1 & H1 & D1). erewrite sbind_run by exact H1. unfold set_target at 1. rewrite Hlm. cbn [mset obind]. erewrite sout_run by reflexivity.
  assert (iterate E (tf_hashes (info_of (abs_path (l ++ d ++ [b])) data)) i1 = (log (io_disk i1) i1 EvChoice, Ok [("sha256", sha256 data)])) as Hit.
  { unfold iterate. do 2 f_equal. cbn [info_of tf_hashes mlist]. pose proof (e_order_perm E string (io_trace i1) (map_to_list {["sha256" := sha256 data]})) as Hp.
    rewrite map_to_list_singleton in Hp. apply Permutation_singleton_r in Hp. by rewrite map_to_list_singleton. }
  erewrite sbind_run by exact Hit. destruct (read_run E (abs_path (l ++ d ++ [b])) (log (io_disk i1) i1 EvChoice) data Hio) as (i2 & H2 & D2); [cbn; by rewrite D1|].
  destruct (write_run E (path_join [split_dir (abs_path (l ++ d ++ [b])); hex_encode (sha256 data) +:+ "." +:+ split_file (abs_path (l ++ d ++ [b]))]) i2 data Hio) as (i3 & H3 & D3).
  assert (copy_all E (abs_path (l ++ d ++ [b])) [("sha256", sha256 data)] (log (io_disk i1) i1 EvChoice) = (i3, Ok tt)) as Hc.
  { cbn [copy_all]. unfold copy_hash_prefixed. erewrite sbind_run; [reflexivity|]. erewrite sbind_run by exact H2. exact H3. }
  erewrite sbind_run by exact Hc. do 2 eexists. split; [reflexivity|]. split; [|cbn; by eexists].
  rewrite D3, D2. cbn [io_disk log]. rewrite D1. f_equal.
  rewrite (app_assoc l d [b]). rewrite split_dir_abs, split_file_abs by (done || by destruct l).
  change (hex_encode (sha256 data) +:+ "." +:+ b) with (join_str "/" [hash_name data b]). rewrite join_slash; [by rewrite <- app_assoc|by destruct l|done|done|]. constructor; [|constructor]. apply hash_name_plain. apply Hb.
Qed.

(** ** The key loop *)
Lemma team_one x n s : team x n [s] <-> exists id p, working_signer s p /\ signer_keyid s id /\ resolves (rt_keys x) id p /\ exists r, root_role x n r /\ id ∈ ids_of r.
Proof.
  split.
  - intros (ids & _ & _ & Hf). inversion Hf as [|? id ? ids' (p & H) Hf']; subst. by exists id, p.
  - intros (id & p & H). exists [id]. split; [done|]. split; [apply NoDup_singleton|]. constructor; [|constructor]. by exists p.
Qed.
Lemma add_public_run e key x n p id : pem_round_trip -> text_keys key -> api_root e x -> n ∈ ["root"; "snapshot"; "targets"; "timestamp"] -> working_signer (key n) p -> proper_pk p -> signer_keyid (key n) id ->
  exists y, add_public (key n) n x = Ok y /\ api_root e y /\ team y n [key n] /\
    forall n' m i, n' <> n -> signer_keyid (key m) i -> i <> id -> team x n' [key m] -> team y n' [key m].
Proof.
  intros Hpem Htext Hx Hn Hw Hp (p' & k & H1 & H2 & H3). pose proof Hw as [H1' _]. rewrite H1 in H1'. injection H1' as ->.
  assert (exists y, root_add_key x k n = Ok y) as [y Hy]. { pose proof Hx as (Hh & _)%api_root_inv; [|done]. pose proof (root_inv_history _ _ Hh (root_inv_init e)) as (_ & _ & Hk & _ & _ & Hall). apply Hall in Hn as [r Hr].
    unfold root_add_key. apply root_role_mget in Hr. rewrite Hr, H3. cbn [obind]. destruct (rt_keys x); [|done]. cbn [mset obind]. by eexists. }
  exists y. unfold add_public, public_part. rewrite H1. cbn [obind]. rewrite H2. cbn [obind]. split; [done|]. pose proof (Htext n p k H1 H2) as Htx.
  assert (api_root e y) as Hay by (by eapply api_add). split; [done|].
  apply root_add_key_spec in Hy as (r0 & r' & i & Hr0 & Hi & Hh & (m & Hm & Hm') & Hr' & (Hids & _) & _ & Ho). rewrite H3 in Hi. injection Hi as <-.
  pose proof (public_key_round_trip p k Hpem H2) as Hrt. split.
  - apply team_one. exists id, p. split; [done|]. split; [by exists p, k|]. split.
    + eexists. exists (with_cached_id k id). split; [exact Hm'|]. split; [apply lookup_insert|]. done.
    + exists r'. split; [done|]. rewrite Hids. apply with_id_in. by left.
  - intros n' m' j Hn' Hj Hji (id0 & q & Q1 & Q2 & Q3 & r1 & Q4 & Q5)%team_one. apply team_one. exists id0, q. split; [done|]. split; [done|]. split.
    + destruct Q3 as (mm & kk & Q31 & Q32 & Q33). eexists. exists kk. split; [exact Hm'|]. split; [|done]. rewrite lookup_insert_ne; [rewrite Q31 in Hm; by injection Hm as <-|]. intros <-. apply Hji. by eapply signer_keyid_fun.
    + exists r1. split; [|done]. rewrite root_role_mget in *. by rewrite Ho.
Qed.
Lemma add_keys_run e key : pem_round_trip -> text_keys key -> forall names x, api_root e x -> NoDup names -> (forall n, n ∈ names -> n ∈ ["root"; "snapshot"; "targets"; "timestamp"]) -> keys_work key names ->
  exists y, add_keys key names x = Ok y /\ api_root e y /\ (forall n, n ∈ names -> team y n [key n]) /\
    forall n m i, n ∉ names -> signer_keyid (key m) i -> (forall n', n' ∈ names -> ~ signer_keyid (key n') i) -> team x n [key m] -> team y n [key m].
Proof.
  intros Hpem Htext. induction names as [|n names IH]; intros x Hx Hnd Hin [Hw Hd]; [exists x; split; [done|]; split; [done|]; split; [by intros n ?%elem_of_nil|done]|]. apply NoDup_cons in Hnd as [Hni Hnd].
  destruct (Hw n) as (p & id & W1 & W2 & W3); [left|]. destruct (add_public_run e key x n p id) as (x1 & A1 & A2 & A3 & A4); try done; [apply Hin; left|].
  destruct (IH x1 A2 Hnd) as (y & B1 & B2 & B3 & B4); [intros m Hm; apply Hin; by right|split; [intros m Hm; apply Hw; by right|intros m m' i Hm Hm'; apply Hd; by right]|].
  exists y. cbn [add_keys]. rewrite A1. cbn [obind]. split; [done|]. split; [done|]. split.
  - intros m [->|Hm]%elem_of_cons; [|by apply B3]. eapply (B4 n n id); [done|done| |done]. intros n' Hn' Hx'. assert (n = n') as <- by (apply (Hd n n' id); [left|by right|done|done]). done.
  - intros m m' i Hm Hi Hother Ht. eapply (B4 m m' i); [intros ?; apply Hm; by right|done|intros n' Hn'; apply Hother; by right|]. eapply (A4 m m' i); [intros ->; apply Hm; left|done| |done]. intros ->. apply (Hother n); [left|done].
Qed.

(** ** The program succeeds *)
Lemma sign_by_run {T} {RT : RoleTy T} key names n (m : metadata T) : keys_work key names -> n ∈ names -> bare_signed (md_signed m) -> signed_with (key n) m = Ok (sign_by [key n] m).
Proof. intros [Hw _] Hn Hb. destruct (Hw n Hn) as (p & id & W1 & _ & W3). eapply signed_with_run; [done|done|by apply bare_payload]. Qed.
Lemma generate_run E key expires parent nm i d1 d2 d3 : Forall plain_name (parent ++ [nm]) -> pem_round_trip -> text_keys key -> keys_work key ["root"; "timestamp"; "snapshot"; "targets"] -> (forall n, time_ok (expires n)) ->
  (forall tr, e_io E tr = true) -> e_cwd E = Some (at_ parent nm []) -> (forall p data, io_disk i !! p = Some data -> Z.of_nat (String.length data) < 2 ^ 63) ->
  io_disk i !! at_ parent nm ["targets"; "map.json"] = Some d1 -> io_disk i !! at_ parent nm ["targets"; "sigstore-tuf-root"; "root.json"] = Some d2 -> io_disk i !! at_ parent nm ["targets"; "staging"; "root.json"] = Some d3 ->
  exists i', generate_main E key expires i = (i', Ok tt).
Proof.
  intros Hdir Hpem Htext Hk Ht Hio Hcwd Hsmall D1 D2 D3. unfold generate_main.
  assert (exists i1 tg, list_targets E target_names (Targets (expires "targets")) i = (i1, Ok tg)) as (i1 & tg & Hl).
  { unfold target_names. 
    change "targets/map.json" with (join_str "/" (["targets"] ++ ["map.json"])). destruct (list_run E (parent ++ [nm]) ["targets"] "map.json" ["targets/sigstore-tuf-root/root.json"; "targets/staging/root.json"] (Targets (expires "targets")) i d1 ∅) as (i1 & m1 & -> & I1 & l1 & L1);
      [apply snoc_ne|apply Forall_app; split; [done|plain]|by apply plain_name_b|done|done|by rewrite <- app_assoc|done|].
    change "targets/sigstore-tuf-root/root.json" with (join_str "/" (["targets"; "sigstore-tuf-root"] ++ ["root.json"])). rewrite <- app_assoc in I1.
    destruct (list_run E (parent ++ [nm]) ["targets"; "sigstore-tuf-root"] "root.json" ["targets/staging/root.json"] m1 i1 d2 l1) as (i2 & m2 & -> & I2 & l2 & L2);
      [apply snoc_ne|apply Forall_app; split; [done|plain]|by apply plain_name_b|done|done| |done|].
    { rewrite <- app_assoc, I1. rewrite (lookup_other (io_disk i)); [done|]. cbn [app]. apply (at_ne parent nm Hdir ["targets"; hash_name d1 "map.json"]); [plain; by apply hash_name_plain|plain|done]. }
    change "targets/staging/root.json" with (join_str "/" (["targets"; "staging"] ++ ["root.json"])). rewrite <- app_assoc in I2.
    destruct (list_run E (parent ++ [nm]) ["targets"; "staging"] "root.json" [] m2 i2 d3 l2) as (i3 & m3 & -> & _);
      [apply snoc_ne|apply Forall_app; split; [done|plain]|by apply plain_name_b|done|done| |done|].
    { rewrite <- app_assoc, I2, I1. cbn [app]. rewrite (lookup_other (<[_ := _]> _)); [rewrite (lookup_other (io_disk i)); [done|]|].
      - apply (at_ne parent nm Hdir ["targets"; hash_name d1 "map.json"]); [plain; by apply hash_name_plain|plain|done].
      - apply (at_ne parent nm Hdir ["targets"; "sigstore-tuf-root"; hash_name d2 "root.json"]); [plain; by apply hash_name_plain|plain|done]. }
    cbn [list_targets]. by do 2 eexists. }
  erewrite sbind_run by exact Hl. destruct (listed_ok E expires parent nm Hdir _ _ _ Ht Hcwd Hl Hsmall) as (e1 & e2 & e3 & _ & _ & _ & _ & Hp & _ & _ & _ & Hsg & Hun & _).
  destruct (add_keys_run (expires "root") key Hpem Htext key_loop (md_signed (Root (expires "root")))) as (x & A1 & A2 & A3 & _).
  { constructor. } { by apply (bool_decide_unpack _). } { intros n Hn. unfold key_loop in Hn. set_solver. } { destruct Hk as [K1 K2]. unfold key_loop. split; [intros n Hn; apply K1; set_solver|intros n n' id Hn Hn'; apply K2; set_solver]. }
  pose proof (add_keys_ok key key_loop _ x Htext A1 (plain_root_new _ (Ht "root"))) as [Hx _].
  assert (api_inv (expires "root") x) as Hinv by (by apply api_root_inv).
  assert (signed_roles key expires tg = Ok (sign_by [key "targets"] tg, sign_by [key "snapshot"] (Snapshot (expires "snapshot")), sign_by [key "timestamp"] (Timestamp (expires "timestamp")), sign_by [key "root"] (set_signed (Root (expires "root")) x))) as Hs.
  { unfold signed_roles. rewrite A1. cbn [obind]. rewrite (sign_by_run key _ "targets" tg Hk) by (set_solver || by apply plain_targets_signed). cbn [obind].
    rewrite (sign_by_run key _ "snapshot" _ Hk) by (set_solver || by apply easy4_bare, easy_snapshot). cbn [obind]. rewrite (sign_by_run key _ "timestamp" _ Hk) by (set_solver || by apply easy4_bare, easy_timestamp). cbn [obind].
    rewrite (sign_by_run key _ "root" _ Hk) by (set_solver || by apply plain_root_signed). done. }
  destruct (signed_roles_ok key expires _ _ _ _ _ Htext Ht Hp Hsg Hun Hs) as ((W1 & W2 & W3 & W4) & _).
  erewrite sout_run by exact Hs. cbn iota beta. rewrite (sbind_run _ _ i1 i1 (at_ parent nm [])) by (unfold getwd; by rewrite Hcwd).
  destruct (fmt_save_load _ true is_targets W1) as (b1 & B1 & _), (fmt_save_load _ true is_snapshot W2) as (b2 & B2 & _), (fmt_save_load _ true is_timestamp W3) as (b3 & B3 & _), (fmt_save_load _ true is_root W4) as (b4 & B4 & _).
  set (r := sign_by [key "root"] (set_signed (Root (expires "root")) x)) in *. set (rt := sign_by [key "targets"] tg) in *. set (rs := sign_by [key "snapshot"] (Snapshot (expires "snapshot"))) in *. set (rm := sign_by [key "timestamp"] (Timestamp (expires "timestamp"))) in *.
  edestruct (to_file_run E rt) as (j1 & J1 & _); [done|exact B1|]. erewrite sbind_run by exact J1. edestruct (to_file_run E rs) as (j2 & J2 & _); [done|exact B2|]. erewrite sbind_run by exact J2.
  edestruct (to_file_run E rm) as (j3 & J3 & _); [done|exact B3|]. erewrite sbind_run by exact J3. edestruct (to_file_run E r) as (j4 & J4 & _); [done|exact B4|]. erewrite sbind_run by exact J4.
  edestruct (to_file_run E r) as (j5 & J5 & _); [done|exact B4|]. erewrite sbind_run by exact J5.
  assert (md_signed r = x) as Er by (unfold r; by rewrite sign_by_signed).
  assert (forall D (RD : RoleTy D) n (dm : metadata D), n ∈ ["root"; "timestamp"; "snapshot"; "targets"] -> bare_signed (md_signed dm) -> verify_delegate r n (sign_by [key n] dm) = Ok tt) as Hv.
  { intros D RD n dm Hn Hb. apply root_signs_ok. apply (team_signs (expires "root")); [by rewrite Er|rewrite Er; apply A3; unfold key_loop; set_solver|by apply bare_payload]. }
  rewrite !sout_run with (a := tt).
  - eexists. unfold sout. f_equal. apply Hv; [set_solver|by apply easy4_bare, easy_timestamp].
  - apply Hv; [set_solver|by apply easy4_bare, easy_snapshot].
  - apply Hv; [set_solver|by apply plain_targets_signed].
  - apply Hv; [set_solver|by apply plain_root_signed].
Qed.
End Runs.
