(** * Proofs for C110: the repository that examples/multirepo/repository makes *)
From stdpp Require Import base gmap strings list.
From Coq Require Import ZArith Lia Ascii String.
From Verif Require Import GoBase GoStr Json GoTime Types Marshal Keys Metadata TrustedMetadata Fetcher Updater Files Cli ExampleClients ExampleRepos
  StrProofs SpecUtf8 SpecText SpecSerial SpecRound RoundBase SpecDeleg SpecBasic BasicProofs SpecSig SigProofs SpecKeys KeysProofs SpecTrusted SpecPublish PublishProofs PlainProofs FilesProofs SpecUpdater SpecReach HonestProofs PropertiesReach TrustedProofs PathProofs SpecRepos ReposProofs ServedProofs.
Open Scope Z_scope.

Lemma slash_free s : SpecDeleg.no_slash s <-> PathProofs.no_slash s.
Proof.
  unfold SpecDeleg.no_slash. induction s as [|c s IH]; [split; [done|constructor]|]. cbn [list_ascii_of_string]. rewrite Forall_cons, IH, no_slash_char. done.
Qed.
Lemma dir_base_inj d b d' b' : PathProofs.no_slash b -> PathProofs.no_slash b' -> d +:+ "/" +:+ b = d' +:+ "/" +:+ b' -> d = d' /\ b = b'.
Proof.
  intros H1 H2 H%(f_equal (split_on "/")). rewrite !split_on_app, !(split_on_slash_free b), !(split_on_slash_free b') in H by done. apply app_inj_tail in H as [H ->]. split; [|done].
  rewrite <- (split_on_join "/" d), <- (split_on_join "/" d'). by rewrite H.
Qed.
Lemma hash_named_flat path h name : PathProofs.no_slash path -> hash_named path h name -> name = h +:+ "." +:+ path.
Proof. intros H [[_ ->]|(d & b & -> & _)]; [done|]. apply no_slash_app in H as [_ H]. apply no_slash_app in H as [H _]. done. Qed.
Lemma hash_named_dir d b h name : PathProofs.no_slash b -> hash_named (d +:+ "/" +:+ b) h name -> name = d +:+ "/" +:+ h +:+ "." +:+ b.
Proof.
  intros Hb [[H _]|(d' & b' & H & Hb' & ->)].
  - apply slash_free, no_slash_app in H as [_ H]. apply no_slash_app in H as [H _]. done.
  - apply dir_base_inj in H as [-> ->]; [done|done|by apply slash_free].
Qed.
(** ** Places below the parent directory *)
Lemma place_ne p a b : Forall plain_name (p ++ a) -> Forall plain_name (p ++ b) -> a <> [] -> b <> [] -> a <> b -> abs_path (p ++ a) <> abs_path (p ++ b).
Proof. intros H1 H2 Ha Hb Hab H. apply Hab. apply abs_inj in H; [|by destruct p, a|by destruct p, b|done|done]. by apply app_inv_head in H. Qed.
Lemma plain_name_b s : (negb (String.eqb s "") && negb (String.eqb s ".") && negb (String.eqb s "..") && negb (string_any (Ascii.eqb "/") s)) = true -> plain_name s.
Proof. rewrite !andb_true_iff, !negb_true_iff, !String.eqb_neq. intros [[[? ?] ?] ?]. done. Qed.

Ltac plain := repeat first [apply Forall_nil_2|apply Forall_cons_2]; try (by apply plain_name_b).
Section Generate.
Context {CR : Crypto} (E : env) (key : string -> signer) (expires : string -> gotime) (parent : list string) (nm : string).
Lemma hash_name_plain data b : PathProofs.no_slash b -> plain_name (hash_name data b).
Proof.
  intros Hb. unfold hash_name. assert (2 < String.length (hex_encode (sha256 data)))%nat by (rewrite hex_encode_length, sha256_length; lia).
  split; [|split; [|split]]; [intros Hx%(f_equal String.length); rewrite !app_len_s in Hx; cbn in Hx; lia..|]. apply no_slash_app. split; [apply hex_no_slash|]. by apply no_slash_app.
Qed.
Lemma hash_name_ne data b : hash_name data b <> b.
Proof. intros Hx%(f_equal String.length). unfold hash_name in Hx. rewrite !app_len_s in Hx. cbn in Hx. lia. Qed.
Definition at_ (l : list string) : string := abs_path (parent ++ nm :: l).
Definition client_root : string := abs_path (parent ++ ["client"; "root.json"]).


Context (Hdir : Forall plain_name (parent ++ [nm])).
Lemma plain_at l : Forall plain_name l -> Forall plain_name (parent ++ nm :: l).
Proof. intros H. apply Forall_app in Hdir as [H1 H2]. apply Forall_app. split; [done|]. apply Forall_cons in H2 as [H2 _]. by constructor. Qed.
Lemma plain_client : Forall plain_name (parent ++ ["client"; "root.json"]).
Proof. apply Forall_app in Hdir as [H1 _]. apply Forall_app. split; [done|]. plain. Qed.
Lemma at_ne a b : Forall plain_name a -> Forall plain_name b -> a <> b -> at_ a <> at_ b.
Proof. intros Ha Hb Hab. apply place_ne; [by apply plain_at|by apply plain_at|done|done|]. by intros [= ?]. Qed.
Lemma at_ne_client a : Forall plain_name a -> (List.length a <> 1)%nat -> at_ a <> client_root.
Proof. intros Ha Hl. apply place_ne; [by apply plain_at|apply plain_client|done|done|]. intros [= _ ->]. done. Qed.
Lemma join_at l m : Forall plain_name l -> m <> [] -> Forall plain_name m -> path_join [at_ l; join_str "/" m] = at_ (l ++ m).
Proof. intros H1 H2 H3. unfold at_. rewrite join_abs; [by rewrite <- app_assoc|by destruct parent|by apply plain_at|done|done]. Qed.
Lemma join_client : path_join [at_ ["metadata"]; "../../client/root.json"] = client_root.
Proof.
  unfold at_, client_root. rewrite (join_clean _ _ (["root.json"; "client"] ++ rev parent)); [rewrite rev_app_distr, rev_involutive; done|by destruct parent|apply plain_at; plain|done|].
  change (split_on "/" "../../client/root.json") with [".."; ".."; "client"; "root.json"]. rewrite rev_app_distr. cbn [rev app fold_left]. unfold clean_step at 4. cbn [String.eqb Ascii.eqb Bool.eqb orb].
  assert (nm <> "..") as Hn by (apply Forall_app in Hdir as [_ H2]; apply Forall_cons in H2 as [H2 _]; apply H2). unfold clean_step at 3. cbn [String.eqb Ascii.eqb Bool.eqb orb]. rewrite (proj2 (String.eqb_neq nm "..") Hn). done.
Qed.

(** the names of the targets and their content *)
Definition listed (tg : metadata targets_t) (d1 d2 d3 : string) : Prop :=
  tg_targets (md_signed tg) = Some (<["staging/root.json" := Some (info_of (at_ ["targets"; "staging"; "root.json"]) d3)]> (<["sigstore-tuf-root/root.json" := Some (info_of (at_ ["targets"; "sigstore-tuf-root"; "root.json"]) d2)]>
    (<["map.json" := Some (info_of (at_ ["targets"; "map.json"]) d1)]> ∅))).
Lemma listed_ok i i' tg : (forall n, time_ok (expires n)) -> e_cwd E = Some (at_ []) -> list_targets E target_names (Targets (expires "targets")) i = (i', Ok tg) ->
  (forall p data, io_disk i !! p = Some data -> Z.of_nat (String.length data) < 2 ^ 63) ->
  exists d1 d2 d3, io_disk i !! at_ ["targets"; "map.json"] = Some d1 /\ io_disk i !! at_ ["targets"; "sigstore-tuf-root"; "root.json"] = Some d2 /\ io_disk i !! at_ ["targets"; "staging"; "root.json"] = Some d3 /\
    listed tg d1 d2 d3 /\ plain_targets (md_signed tg) /\ tg_version (md_signed tg) = 1 /\ tg_expires (md_signed tg) = expires "targets" /\ tg_delegations (md_signed tg) = None /\ md_sigs tg = Some [] /\ md_unrec tg = None /\
    io_disk i' = <[at_ ["targets"; "staging"; hash_name d3 "root.json"] := d3]> (<[at_ ["targets"; "sigstore-tuf-root"; hash_name d2 "root.json"] := d2]> (<[at_ ["targets"; hash_name d1 "map.json"] := d1]> (io_disk i))).
Proof.
  intros Ht Hcwd H Hsmall. unfold target_names in H. 
  change "targets/map.json" with (join_str "/" (["targets"] ++ ["map.json"])) in H. apply (list_step E (parent ++ [nm])) in H as (d1 & i1 & m1 & D1 & S1 & I1 & H); [|apply snoc_ne|apply snoc_plain; [done|by apply plain_name_b]|by apply plain_name_b|done].
  change "targets/sigstore-tuf-root/root.json" with (join_str "/" (["targets"; "sigstore-tuf-root"] ++ ["root.json"])) in H.
  apply (list_step E (parent ++ [nm])) in H as (d2 & i2 & m2 & D2 & S2 & I2 & H); [|apply snoc_ne|apply Forall_app; split; [done|plain]|by apply plain_name_b|done].
  change "targets/staging/root.json" with (join_str "/" (["targets"; "staging"] ++ ["root.json"])) in H.
  apply (list_step E (parent ++ [nm])) in H as (d3 & i3 & m3 & D3 & S3 & I3 & H); [|apply snoc_ne|apply Forall_app; split; [done|plain]|by apply plain_name_b|done].
  apply sret_ok in H as [-> ->]. rewrite <- !app_assoc in *. cbn [app] in *.
  change (abs_path (parent ++ nm :: ?l)) with (at_ l) in *.
  assert (io_disk i !! at_ ["targets"; "sigstore-tuf-root"; "root.json"] = Some d2) as D2'.
  { rewrite I1 in D2. rewrite (lookup_other (io_disk i)) in D2; [done|]. apply at_ne; [plain; by apply hash_name_plain|plain|done]. }
  assert (io_disk i !! at_ ["targets"; "staging"; "root.json"] = Some d3) as D3'.
  { rewrite I2, I1 in D3. rewrite !(lookup_other _) in D3; [done| |]; (apply at_ne; [plain; by apply hash_name_plain|plain|done]). }
  exists d1, d2, d3. split; [done|]. split; [done|]. split; [done|].
  destruct (set_target_ok _ _ _ _ S1) as (A1 & A2 & A3 & A4 & A5 & l1 & L1 & L1'). destruct (set_target_ok _ _ _ _ S2) as (B1 & B2 & B3 & B4 & B5 & l2 & L2 & L2'). destruct (set_target_ok _ _ _ _ S3) as (C1 & C2 & C3 & C4 & C5 & l3 & L3 & L3').
  split. { unfold listed. rewrite L3'. rewrite L2' in L3. injection L3 as <-. rewrite L1' in L2. injection L2 as <-. injection L1 as <-. done. }
  split. { eapply plain_set_target; [exact S3| |by apply plain_text|apply info_wf; by eapply Hsmall|done|done]. eapply plain_set_target; [exact S2| |by apply plain_text|apply info_wf; by eapply Hsmall|done|done].
    eapply plain_set_target; [exact S1| |by apply plain_text|apply info_wf; by eapply Hsmall|done|done]. by apply plain_targets_new. }
  split; [by rewrite C3, B3, A3|]. split; [by rewrite C4, B4, A4|]. split; [by rewrite C5, B5, A5|]. split; [by rewrite C1, B1, A1|]. split; [by rewrite C2, B2, A2|]. by rewrite I3, I2, I1.
Qed.

Definition metadata_file (name : string) : string := at_ ["metadata"; name].
(** what a successful run has done *)
Definition generated (i i' : ios) (tg : metadata targets_t) (sn : metadata snapshot_t) (ts : metadata timestamp_t) (r : metadata root_t) (bg bs bt br d1 d2 d3 : string) : Prop :=
  (io_disk i !! at_ ["targets"; "map.json"] = Some d1 /\ io_disk i !! at_ ["targets"; "sigstore-tuf-root"; "root.json"] = Some d2 /\ io_disk i !! at_ ["targets"; "staging"; "root.json"] = Some d3) /\
  (listed tg d1 d2 d3 /\ tg_version (md_signed tg) = 1 /\ tg_expires (md_signed tg) = expires "targets" /\ tg_delegations (md_signed tg) = None) /\
  (md_signed sn = md_signed (Snapshot (expires "snapshot")) /\ md_signed ts = md_signed (Timestamp (expires "timestamp"))) /\
  (rt_version (md_signed r) = 1 /\ rt_consistent (md_signed r) = true /\ rt_expires (md_signed r) = expires "root") /\
  (writable tg /\ writable sn /\ writable ts /\ writable r) /\
  (root_signs r "root" r /\ root_signs r "targets" tg /\ root_signs r "snapshot" sn /\ root_signs r "timestamp" ts) /\
  (to_bytes_fmt true tg = Ok bg /\ to_bytes_fmt true sn = Ok bs /\ to_bytes_fmt true ts = Ok bt /\ to_bytes_fmt true r = Ok br) /\
  io_disk i' = <[client_root := br]> (<[metadata_file "1.root.json" := br]> (<[metadata_file "timestamp.json" := bt]> (<[metadata_file "1.snapshot.json" := bs]> (<[metadata_file "1.targets.json" := bg]>
    (<[at_ ["targets"; "staging"; hash_name d3 "root.json"] := d3]> (<[at_ ["targets"; "sigstore-tuf-root"; hash_name d2 "root.json"] := d2]> (<[at_ ["targets"; hash_name d1 "map.json"] := d1]> (io_disk i)))))))).
Lemma signed_roles_ok tg0 tg sn ts r : text_keys key -> (forall n, time_ok (expires n)) -> plain_targets (md_signed tg0) -> md_sigs tg0 = Some [] -> md_unrec tg0 = None -> signed_roles key expires tg0 = Ok (tg, sn, ts, r) ->
  (writable tg /\ writable sn /\ writable ts /\ writable r) /\ md_signed tg = md_signed tg0 /\ (md_signed sn = md_signed (Snapshot (expires "snapshot")) /\ md_signed ts = md_signed (Timestamp (expires "timestamp"))) /\
  (rt_version (md_signed r) = 1 /\ rt_consistent (md_signed r) = true /\ rt_expires (md_signed r) = expires "root").
Proof.
  intros Htext Ht Htg Hs Hu. unfold signed_roles. destruct (add_keys key key_loop (md_signed (Root (expires "root")))) as [x| |] eqn:Ex; [|done..]. cbn [obind].
  destruct (signed_with (key "targets") tg0) as [tg'| |] eqn:E1; [|done..]. cbn [obind]. destruct (signed_with (key "snapshot") _) as [sn'| |] eqn:E2; [|done..]. cbn [obind]. destruct (signed_with (key "timestamp") _) as [ts'| |] eqn:E3; [|done..]. cbn [obind].
  destruct (signed_with (key "root") _) as [r'| |] eqn:E4; [|done..]. cbn [obind]. intros [= <- <- <- <-].
  destruct (add_keys_ok key key_loop _ x Htext Ex (plain_root_new _ (Ht "root"))) as [Hx Hh]. pose proof Htg as (Hw & _ & Hty).
  split. { split; [|split; [|split]].
    - eapply once_signed_writable; [exact E1|done|done|by apply plain_targets_signed|by rewrite Hs|by rewrite Hu].
    - eapply once_signed_writable; [exact E2|by apply snapshot_new_wf|done|by apply easy4_bare, easy_snapshot|done|done].
    - eapply once_signed_writable; [exact E3|by apply timestamp_new_wf|done|by apply easy4_bare, easy_timestamp|done|done].
    - eapply once_signed_writable; [exact E4|apply Hx|apply Hx|by apply plain_root_signed|done|done]. }
  apply signed_with_ok in E1 as (-> & _), E2 as (-> & _), E3 as (-> & _), E4 as (-> & _). split; [done|]. split; [done|]. cbn [set_signed md_signed]. destruct Hh as (_ & _ & -> & -> & -> & _). done.
Qed.
Lemma generate_ok i i' : text_keys key -> (forall n, time_ok (expires n)) -> e_cwd E = Some (at_ []) -> (forall p data, io_disk i !! p = Some data -> Z.of_nat (String.length data) < 2 ^ 63) ->
  generate_main E key expires i = (i', Ok tt) -> exists tg sn ts r bg bs bt br d1 d2 d3, generated i i' tg sn ts r bg bs bt br d1 d2 d3.
Proof.
  intros Htext Ht Hcwd Hsmall H. unfold generate_main in H. step H. rename a into tg0. destruct (listed_ok _ _ _ Ht Hcwd H0 Hsmall) as (d1 & d2 & d3 & D1 & D2 & D3 & Hl & Hp & Hv & Hex & Hdel & Hsg & Hun & Hi0).
  step H. apply sout_ok in H1 as [-> Hr]. destruct a as [[[tg sn] ts] r]. destruct (signed_roles_ok _ _ _ _ _ Htext Ht Hp Hsg Hun Hr) as (W & Etg & (Esn & Ets) & (V1 & V2 & V3)).
  step H. apply getwd_ok with (cwd := at_ []) in H1 as [-> ->]; [|done].
  assert (path_join [at_ []; "metadata"] = at_ ["metadata"]) as Ej by (change "metadata" with (join_str "/" ["metadata"]) at 1; rewrite join_at; [done|done|done|plain]). rewrite Ej in H.
  assert (forall n, plain_name n -> path_join [at_ ["metadata"]; n] = metadata_file n) as Em by (intros n Hn; change n with (join_str "/" [n]) at 1; rewrite join_at; [done|plain|done|by constructor]).
  rewrite Etg, Hv, Esn, V1, join_client in H. rewrite !Em in H by (by apply plain_name_b).
  step H. destruct a. apply to_file_ok in H1 as (bg & B1 & _ & ->). step H. destruct a. apply to_file_ok in H1 as (bs & B2 & _ & ->). step H. destruct a. apply to_file_ok in H1 as (bt & B3 & _ & ->). step H. destruct a. apply to_file_ok in H1 as (br & B4 & _ & ->).
  step H. destruct a. apply to_file_ok in H1 as (br' & B5 & _ & ->). rewrite B4 in B5. injection B5 as <-. step H. destruct a. apply sout_ok in H1 as [-> S1]. step H. destruct a. apply sout_ok in H1 as [-> S2]. step H. destruct a. apply sout_ok in H1 as [-> S3].
  apply sout_ok in H as [-> S4]. exists tg, sn, ts, r, bg, bs, bt, br, d1, d2, d3. apply root_signs_ok in S1, S2, S3, S4.
  unfold generated, listed. rewrite Etg. split; [done|]. split; [done|]. split; [done|]. split; [done|]. split; [done|]. split; [done|]. split; [done|]. cbn [io_disk]. by rewrite Hi0.
Qed.

(** ** What a client gets *)
Lemma meta_path n : metadata_file n = file_in (parent ++ [nm; "metadata"]) n.
Proof. unfold metadata_file, at_. change (parent ++ nm :: ["metadata"; n]) with (parent ++ [nm; "metadata"] ++ [n]). rewrite app_assoc. rewrite abs_file; [done|by destruct parent|done]. Qed.
Lemma target_path l : l <> [] -> at_ ("targets" :: l) = file_in (parent ++ [nm; "targets"]) (join_str "/" l).
Proof. intros H. unfold at_. change (parent ++ nm :: "targets" :: l) with (parent ++ [nm; "targets"] ++ l). rewrite app_assoc. rewrite abs_file; [done|by destruct parent|done]. Qed.

Ltac names_plain := unfold metadata_file; plain; try (by apply hash_name_plain).
Ltac differ := let Hx := fresh in intros Hx; first [done|discriminate Hx|injection Hx; let Hy := fresh in intros Hy; first [by apply hash_name_ne in Hy|symmetry in Hy; by apply hash_name_ne in Hy]|injection Hx; intros; done].
Ltac away := first [solve [apply at_ne; [names_plain|names_plain|differ]]|solve [apply at_ne_client; [names_plain|done]]|solve [let Hx := fresh in intros Hx; symmetry in Hx; revert Hx; apply at_ne_client; [names_plain|done]]].
Ltac find_file := unfold metadata_file; repeat first [rewrite lookup_same|rewrite lookup_other by away].
Lemma generated_files i i' tg sn ts r bg bs bt br d1 d2 d3 : generated i i' tg sn ts r bg bs bt br d1 d2 d3 ->
  (io_disk i' !! client_root = Some br /\ io_disk i' !! metadata_file "2.root.json" = io_disk i !! metadata_file "2.root.json") /\
  (io_disk i' !! metadata_file "timestamp.json" = Some bt /\ io_disk i' !! metadata_file "1.snapshot.json" = Some bs /\ io_disk i' !! metadata_file "1.targets.json" = Some bg) /\
  (io_disk i' !! at_ ["targets"; "map.json"] = Some d1 /\ io_disk i' !! at_ ["targets"; hash_name d1 "map.json"] = Some d1) /\
  (io_disk i' !! at_ ["targets"; "sigstore-tuf-root"; "root.json"] = Some d2 /\ io_disk i' !! at_ ["targets"; "sigstore-tuf-root"; hash_name d2 "root.json"] = Some d2) /\
  (io_disk i' !! at_ ["targets"; "staging"; "root.json"] = Some d3 /\ io_disk i' !! at_ ["targets"; "staging"; hash_name d3 "root.json"] = Some d3).
Proof.
  intros ((D1 & D2 & D3) & _ & _ & _ & _ & _ & _ & ->). split; [split|split; [split; [|split]|split; [split|split; [split|split]]]]; find_file; done.
Qed.

Lemma target_kept tg path tf : (exists l, tg_targets (md_signed tg) = Some l /\ l !! path = Some (Some tf)) -> entry (metadata_kept tg) path (Some (targetfile_kept path tf)).
Proof. intros (l & Hl & Hp). unfold entry. cbn. rewrite Hl. eexists. split; [reflexivity|]. by rewrite map_lookup_imap, Hp. Qed.
Lemma entry_same (m : metadata targets_t) path o o' : entry m path o -> entry m path o' -> o = o'.
Proof. intros (l & H1 & H2) (l' & H3 & H4). congruence. Qed.
(** the metadata is that of an honest repository without delegations; then what it lists is delivered *)
Lemma flat_delivers E2 c root r0 r P now i2 path tf data : works E2 c r0 r P now ∅ i2 -> new_client E2 c root i2 -> tg_delegations (md_signed (pub_targets_md P)) = None -> entry (pub_targets_md P) path (Some tf) -> tf_path tf = path ->
  target_served E2 c r tf data -> (exists alg dig, lists (tf_hashes tf) alg dig) ->
  (SpecDeleg.no_slash path \/ exists d n, SpecDeleg.no_slash d /\ SpecDeleg.no_slash n /\ path = d +:+ "/" +:+ n) -> delivers E2 c now i2 path data.
Proof.
  intros Hw (_ & _ & _ & Hurl & _ & _ & Hmax & _) Hdel He Hp Hs Hhash Hslash. exists tf. split; [done|]. split; [apply Hs|]. intros fp p Hf.
  assert (forall n g, all_roles P ∅ !! n = Some g -> n = "targets" /\ rf_md g = pub_targets_md P) as Hall.
  { intros n g. unfold all_roles. rewrite insert_empty. intros [<- <-]%lookup_singleton_Some. done. }
  assert (forall n g k term, all_roles P ∅ !! n = Some g -> ~ delegated (rf_md g) path k term) as Hnone.
  { intros n g k term Hg (d & Hd & _). apply Hall in Hg as [_ Hg]. rewrite Hg in Hd. congruence. }
  destruct (C103_delivered E2 c r0 r P now ∅ i2 path [] "targets" (mkRoleFile (pub_targets P) (pub_targets_md P) (pub_targets_info P)) tf data fp p) as (i' & t & w & w' & w'' & H1 & H2 & H3 & H4 & _); try done.
  - constructor; [|constructor]. split; [done|]. intros n g Hg. split; [|intros k term Hd; by destruct (Hnone n g k term Hg)]. apply Hall in Hg as [_ Hg]. rewrite Hg. intros d Hd. congruence.
  - intros n g k Hg. by apply (Hnone n g k true).
  - unfold all_roles. rewrite insert_empty, map_size_singleton. lia.
  - constructor. cbn. unfold all_roles. rewrite insert_empty, map_fmap_singleton. rewrite lookup_singleton. by eexists.
  - intros x' f' tf' _ Hx He'. apply Hall in Hx as [_ Hx]. rewrite Hx in He'. by eapply entry_same.
  - intros _ _. by rewrite Hp.
  - inversion H2; subst. by exists i', t, w', w''.
Qed.

Lemma info_matches path place data : matches_target (targetfile_kept path (info_of place data)) data /\ (exists alg dig, lists (tf_hashes (targetfile_kept path (info_of place data))) alg dig) /\
  forall alg dig, lists (tf_hashes (targetfile_kept path (info_of place data))) alg dig -> dig = sha256 data.
Proof.
  cbn. split; [split; [|done]|split].
  - intros m alg dig [= <-] [<- <-]%lookup_singleton_Some. cbn. by left.
  - exists "sha256", (sha256 data), {["sha256" := sha256 data]}. split; [done|]. apply lookup_singleton.
  - intros alg dig (m & [= <-] & [_ <-]%lookup_singleton_Some). done.
Qed.
Lemma info_served E2 c (d : disk) dir r path place data : serves_dir E2 d dir (c_targets_url c) -> d !! file_in dir path = Some data -> (forall name, hash_named path (hex_encode (sha256 data)) name -> d !! file_in dir name = Some data) ->
  target_served E2 c r (targetfile_kept path (info_of place data)) data.
Proof.
  intros Hs H1 H2. destruct (info_matches path place data) as (M1 & _ & M2). split; [exact M1|]. split.
  - intros _. cbn. by eapply dir_serves.
  - intros _ _ alg dig name Hl Hn. apply M2 in Hl as ->. eapply dir_serves; [done|]. by apply H2.
Qed.
Lemma generate_delivers i i' tg sn ts r bg bs bt br d1 d2 d3 E2 c now i2 target data : generated i i' tg sn ts r bg bs bt br d1 d2 d3 -> io_disk i !! metadata_file "2.root.json" = None ->
  new_client E2 c br i2 -> serves_dir E2 (io_disk i') (parent ++ [nm; "metadata"]) (c_metadata_url c) -> serves_dir E2 (io_disk i') (parent ++ [nm; "targets"]) (c_targets_url c) -> within_limits c (io_disk i') (parent ++ [nm; "metadata"]) ->
  Forall (fun n => now <= instant (expires n)) ["root"; "targets"; "snapshot"; "timestamp"] ->
  (target, data) ∈ [("map.json", d1); ("sigstore-tuf-root/root.json", d2); ("staging/root.json", d3)] -> delivers E2 c now i2 target data.
Proof.
  intros HG Hno Hc S1 S2 Hlim Hexp Ht. destruct (generated_files _ _ _ _ _ _ _ _ _ _ _ _ _ HG) as ((F1 & F2) & (F3 & F4 & F5) & (F6 & F7) & (F8 & F9) & (F10 & F11)). rewrite Hno in F2.
  destruct HG as (_ & (L1 & L2 & L3 & L4) & (Esn & Ets) & (V1 & V2 & V3) & (W1 & W2 & W3 & W4) & (G1 & G2 & G3 & G4) & (B1 & B2 & B3 & B4) & _).
  rewrite !Forall_cons in Hexp. destruct Hexp as (X1 & X2 & X3 & X4 & _).
  set (P := mkPublication [] bt (metadata_kept ts) bs (metadata_kept sn) bg (metadata_kept tg) (metafile_kept (mkMetaFile 0 None 1 None)) (metafile_kept (mkMetaFile 0 None 1 None))).
  assert (document br (metadata_kept r)) as Hdr by (apply written; [constructor|done|done]).
  assert (honest (metadata_kept r) (metadata_kept r) now P) as Hh.
  { apply (made_honest (metadata_kept r) r [] ts sn tg (mkMetaFile 0 None 1 None) (mkMetaFile 0 None 1 None)); try done; [constructor|..]; unfold expired_at; cbn [signed_expires].
    - change (signed_expires (md_signed r)) with (rt_expires (md_signed r)). rewrite V3. lia.
    - rewrite Ets. change (signed_expires (md_signed (Timestamp (expires "timestamp")))) with (expires "timestamp"). lia.
    - rewrite Esn. change (signed_expires (md_signed (Snapshot (expires "snapshot")))) with (expires "snapshot"). lia.
    - change (signed_expires (md_signed tg)) with (tg_expires (md_signed tg)). rewrite L3. lia.
    - unfold names_snapshot. rewrite Ets. eexists. split; [reflexivity|]. apply (lookup_insert (M := gmap string)).
    - split; [|by left]. by intros m alg dig [=].
    - by rewrite Esn.
    - unfold lists_file. rewrite Esn. eexists. split; [reflexivity|]. apply (lookup_insert (M := gmap string)).
    - split; [|by left]. by intros m alg dig [=]. }
  assert (works E2 c (metadata_kept r) (metadata_kept r) P now ∅ i2) as Hw.
  { destruct Hc as (C1 & C2 & C3 & C4 & C5 & C6 & C7 & C8). apply (served_works E2 c (io_disk i') (parent ++ [nm; "metadata"]) br); try done.
    - intros ->. destruct Hdr as [Hx _]. done.
    - apply root_signs_kept; [constructor|done].
    - cbn. lia.
    - change (rt_version (md_signed (metadata_kept r))) with (rt_version (md_signed r)). rewrite V1. rewrite <- meta_path. done.
    - rewrite <- meta_path. done.
    - rewrite <- meta_path. done.
    - rewrite <- meta_path. done. }
  assert (tg_delegations (md_signed (pub_targets_md P)) = None) as Hd by (cbn; by rewrite L4).
  apply elem_of_cons in Ht as [[= -> ->]|Ht]; [|apply elem_of_cons in Ht as [[= -> ->]|Ht]; [|apply elem_of_list_singleton in Ht as [= -> ->]]].
  - apply (flat_delivers E2 c br (metadata_kept r) (metadata_kept r) P now i2 _ (targetfile_kept "map.json" (info_of (at_ ["targets"; "map.json"]) d1)) d1); try done.
    + apply target_kept. unfold listed in L1. rewrite L1. eexists. split; [reflexivity|]. done.
    + eapply info_served; [done|by rewrite (target_path ["map.json"]) in F6 by done|]. intros name Hn%hash_named_flat; [|done]. subst name. by rewrite (target_path [hash_name d1 "map.json"]) in F7 by done.
    + apply info_matches.
    + left. by apply slash_free.
  - apply (flat_delivers E2 c br (metadata_kept r) (metadata_kept r) P now i2 _ (targetfile_kept "sigstore-tuf-root/root.json" (info_of (at_ ["targets"; "sigstore-tuf-root"; "root.json"]) d2)) d2); try done.
    + apply target_kept. unfold listed in L1. rewrite L1. eexists. split; [reflexivity|]. done.
    + eapply info_served; [done|by rewrite (target_path ["sigstore-tuf-root"; "root.json"]) in F8 by done|]. change "sigstore-tuf-root/root.json" with ("sigstore-tuf-root" +:+ "/" +:+ "root.json"). intros name Hn%hash_named_dir; [|done]. subst name. by rewrite (target_path ["sigstore-tuf-root"; hash_name d2 "root.json"]) in F9 by done.
    + apply info_matches.
    + right. exists "sigstore-tuf-root", "root.json". rewrite !slash_free. done.
  - apply (flat_delivers E2 c br (metadata_kept r) (metadata_kept r) P now i2 _ (targetfile_kept "staging/root.json" (info_of (at_ ["targets"; "staging"; "root.json"]) d3)) d3); try done.
    + apply target_kept. unfold listed in L1. rewrite L1. eexists. split; [reflexivity|]. done.
    + eapply info_served; [done|by rewrite (target_path ["staging"; "root.json"]) in F10 by done|]. change "staging/root.json" with ("staging" +:+ "/" +:+ "root.json"). intros name Hn%hash_named_dir; [|done]. subst name. by rewrite (target_path ["staging"; hash_name d3 "root.json"]) in F11 by done.
    + apply info_matches.
    + right. exists "staging", "root.json". rewrite !slash_free. done.
Qed.
End Generate.
