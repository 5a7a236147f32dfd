(** * Properties C108 and C109: a repository that publishes while clients are at work *)
From stdpp Require Import base gmap strings list.
From Coq Require Import ZArith Lia Ascii String.
From Verif Require Import GoBase GoStr GoTime Types Marshal Keys Metadata TrustedMetadata Fetcher Updater SpecBasic SpecSig SpecDeleg SpecTrusted SpecUpdater SpecReach SpecLive.
From Verif Require Import BasicProofs TrustedProofs WalkProofs HonestProofs ReachProofs LiveProofs LifeProofs Toy Examples ExamplesUpdater ExamplesHonest PropertiesReach.
Open Scope Z_scope.

(** what a client gets that works with release [R]: each search has the result of a pre-order search through that
    release, and its files are delivered *)
Definition serves_release {CR : Crypto} (E : env) (c : config) (r : metadata root_t) (now : Z) (R : release) (w : world) : Prop :=
  (t_root (w_trusted w) = r /\ t_timestamp (w_trusted w) = Some (pub_timestamp_md (rel_pub R)) /\ t_snapshot (w_trusted w) = Some (pub_snapshot_md (rel_pub R)) /\
   forall name m, t_targets (w_trusted w) !! name = Some m -> exists f, all_roles (rel_pub R) (rel_roles R) !! name = Some f /\ m = rf_md f) /\
  (forall path, delegations_follow (all_roles (rel_pub R) (rel_roles R)) path -> exists w' o l v, get_target_info E c path w = (w', o) /\
     search (everything r (rel_pub R) (rel_roles R) now) path [] ["targets"] l v /\ Z.of_nat (List.length l) <= Z.max 0 (c_max_delegations c + 1) /\
     match v with
     | Found tf => o = Ok tf
     | Exhausted | Stopped => o = Err (EOther "target not found")
     | OutOfBudget => o = Err (EOther "target not found") /\ Z.of_nat (List.length l) = Z.max 0 (c_max_delegations c + 1)
     | Failed => False
     end) /\
  (forall tf data fp p, c_targets_url c <> "" -> (tf, data) ∈ rel_files R -> file_for E c tf fp p ->
     exists w', download_target E c tf fp "" w = (w', Ok (p, data)) /\ (c_disable_cache c = false -> io_disk (w_io w') !! p = Some data)).
Lemma inv_serves {CR : Crypto} E c r0 r now R tr0 w : sound_release c r0 r now R -> stays_up E c r R tr0 -> later tr0 (wtr w) -> Inv (moved tr0 E) c r (rel_pub R) now (rel_roles R) w -> serves_release E c r now R w.
Proof.
  intros Hsd Hup Hlt HI. split_and!.
  - destruct HI as (H1 & _). done.
  - destruct HI as (_ & H2 & _). done.
  - destruct HI as (_ & _ & H3 & _). done.
  - destruct HI as (_ & _ & _ & _ & H5 & _). done.
  - intros path Hf. destruct (get_target_info E c path w) as [w' o] eqn:Hg. destruct (live_search E c r0 r now R tr0 path w w' o Hsd Hup Hlt HI Hf Hg) as (_ & _ & l & v & H4 & H5 & H6 & H7).
    exists w', o, l, v. split; [done|]. split; [done|]. unfold budget in *. split; [lia|]. unfold walked in H7. destruct o as [tf|e|]; [by subst v| |done]. destruct H7 as [?|[-> [-> |[-> |[-> Hl]]]]]; [done|done|done|]. split; [done|]. lia.
  - intros tf data fp p Hu Hin Hfile. by eapply live_download.
Qed.

(** ** C108: a client sees exactly one release, whenever the repository publishes *)
(** If a release is announced only when all its files are on the server, and these stay there, then New and Refresh
    succeed at any time, with the metadata of one release; and all later searches and downloads are served from that
    same release, however many others are published meanwhile. *)
Theorem C108_one_release {CR : Crypto} E c r0 r now Rs i : publishing E c (io_trace i) r0 r now Rs -> client_ready E c r0 r now Rs i ->
  exists R i' t w1, R ∈ Rs /\ updater_new E c now i = (i', Ok t) /\ refresh E c (mkWorld t i') = (w1, Ok tt) /\ up_to_date r (rel_pub R) (w_trusted w1) /\
    forall w, used E c R w1 w -> serves_release E c r now R w.
Proof.
  intros Hp Hc. destruct (live_started E c r0 r now Rs i Hp Hc) as (R & i' & t & w1 & tr0 & HR & Hsd & Hup & _ & _ & Hl & Hnew & Href & Hutd & HI & _). exists R, i', t, w1. do 4 (split; [done|]).
  intros w Hused. destruct (live_used E c r0 r now R tr0 w1 w Hsd Hup Hused Hl HI) as [Hl2 HI2]. by apply (inv_serves E c r0 r now R tr0).
Qed.
Print Assumptions C108_one_release.

(** ** C109: a client that is used again and again follows the releases, and never goes back *)
(** The releases seen by successive sessions are in order.  The next session succeeds; it sees a release at least as new
    as those seen before, and as the one that is current when it starts; and all its searches and downloads are served
    from that release.  What matters of the cache at the beginning are the releases still to come: [drop]. *)
Theorem C109_follows {CR : Crypto} E c r0 r clock Rs n i ks i' : timeline E c r0 r clock Rs n -> client_ready E c r0 r (clock (io_trace i)) (drop (n (io_trace i)) Rs) i -> life E c r clock Rs i ks i' ->
  (forall a b j k, ks !! a = Some j -> ks !! b = Some k -> (a <= b)%nat -> (j <= k)%nat) /\
  exists k R i1 t w1, Rs !! k = Some R /\ updater_new E c (clock (io_trace i')) i' = (i1, Ok t) /\ refresh E c (mkWorld t i1) = (w1, Ok tt) /\ up_to_date r (rel_pub R) (w_trusted w1) /\
    (forall j, j ∈ ks -> (j <= k)%nat) /\ (n (io_trace i') <= k <= n (io_trace (w_io w1)))%nat /\ forall w, used E c R w1 w -> serves_release E c r (clock (io_trace i')) R w.
Proof.
  intros Hline Hi Hlife. destruct (life_ready E c r0 r clock Rs n Hline i ks i' Hi Hlife) as (Hr & _ & Hks & Hord). split; [done|].
  destruct (session E c r0 r clock Rs n Hline i' Hr) as (k & R & i1 & t & w1 & tr0 & HR & Hsd & Hup & Hl & Hk & Hnew & Href & Hutd & HI & _). exists k, R, i1, t, w1. do 4 (split; [done|]).
  split; [intros j Hj; apply Hks in Hj; lia|]. split; [exact Hk|]. intros w Hused. destruct (live_used E c r0 r _ R tr0 w1 w Hsd Hup Hused Hl HI) as [Hl2 HI2]. by apply (inv_serves E c r0 r _ R tr0).
Qed.
Print Assumptions C109_follows.

(** ** A concrete repository with two releases *)
Definition lv_d1 (v : Z) (data : string) : metadata targets_t := sign_all [pkB] (unsigned (mkTargets TARGETS SPECIFICATION_VERSION v t2030 (Some {["a/x" := Some (ex_file data)]}) None None)).
Definition lv_targets (v : Z) : metadata targets_t :=
  sign_all [pkA] (unsigned (mkTargets TARGETS SPECIFICATION_VERSION v t2030 (Some {["top" := Some (ex_file "top file")]}) (Some (mkDelegations ex_keys (Some [ex_dr "d1" [idB] false ["a/*"]]) None None)) None)).
Definition lv_snapshot (v : Z) (data : string) : metadata snapshot_t :=
  sign_all [pkC] (unsigned (mkSnapshot SNAPSHOT SPECIFICATION_VERSION v t2030 (Some (<["targets.json" := ex_meta v (bytes_of (lv_targets v))]> {["d1.json" := ex_meta v (bytes_of (lv_d1 v data))]})) None)).
Definition lv_timestamp (v : Z) (data : string) : metadata timestamp_t :=
  sign_all [pkB] (unsigned (mkTimestamp TIMESTAMP SPECIFICATION_VERSION v t2030 (Some {["snapshot.json" := ex_meta v (bytes_of (lv_snapshot v data))]}) None)).
Definition lv_stamp (v : Z) (data : string) : string * string := ("https://r/timestamp.json", bytes_of (lv_timestamp v data)).
Definition lv_static (v : Z) (data : string) : list (string * string) :=
  [("https://r/2.root.json", bytes_of (ex_root 2)); ("https://r/" +:+ fmt_dec v +:+ ".snapshot.json", bytes_of (lv_snapshot v data)); ("https://r/" +:+ fmt_dec v +:+ ".targets.json", bytes_of (lv_targets v));
   ("https://r/" +:+ fmt_dec v +:+ ".d1.json", bytes_of (lv_d1 v data)); ("https://t/a/" +:+ hex_encode (sha256 data) +:+ ".x", data)].
(** release 4, and after [T] events release 5; the files of release 4 stay *)
Definition lv_before := lv_stamp 4 "hello" :: lv_static 4 "hello".
Definition lv_after := lv_stamp 5 "world" :: app (lv_static 5 "world") (lv_static 4 "hello").
Definition phased (before after : list (string * string)) (T : nat) : env :=
  mkEnv (fun tr => serve (if Nat.ltb (List.length tr) T then before else after) tr) (fun _ => true) (fun _ => None) (Some "/w") (fun tr => Z.of_nat (List.length tr)) no_join keep_order keep_order_perm.
Definition lv_env : nat -> env := phased lv_before lv_after.
Definition lv_number (T : nat) (tr : trace) : nat := if Nat.ltb (List.length tr) T then 0 else 1.
Lemma lv_honest4 : honest_b lv_before ex_config ex_now (bytes_of (ex_root 2)) (bytes_of (lv_timestamp 4 "hello")) (bytes_of (lv_snapshot 4 "hello")) (bytes_of (lv_targets 4)) = true.
Proof. vm_compute. reflexivity. Qed.
Lemma lv_honest5 : honest_b lv_after ex_config ex_now (bytes_of (ex_root 2)) (bytes_of (lv_timestamp 5 "world")) (bytes_of (lv_snapshot 5 "world")) (bytes_of (lv_targets 5)) = true.
Proof. vm_compute. reflexivity. Qed.
Lemma find_in files url data : find_file files url = Some data -> In (url, data) files.
Proof. induction files as [|[u d] files IH]; [done|]. cbn. destruct (String.eqb_spec u url) as [->|]; [intros [= ->]; by left|right; auto]. Qed.
(** what is served by the few files is served by the many *)
Definition more_b (few many : list (string * string)) : bool := forallb (fun p => served many p.1 p.2) few.
Lemma more_ok few many url data : more_b few many = true -> serves (ex_env few) url data -> find_file many url = Some data.
Proof.
  intros Hm Hs. pose proof (Hs [] (Z.of_nat (String.length data)) ltac:(lia)) as Hf. cbn in Hf. unfold serve in Hf. destruct (find_file few url) as [d|] eqn:Hq; [|done]. destruct (_ <=? _); [|done]. injection Hf as ->.
  apply find_in in Hq. unfold more_b in Hm. rewrite forallb_forall in Hm. specialize (Hm _ Hq). cbn in Hm. unfold served in Hm. destruct (find_file many url) as [d|]; [|done]. by apply String.eqb_eq in Hm as ->.
Qed.
Lemma serve_found files tr url data len : find_file files url = Some data -> Z.of_nat (String.length data) <= len -> serve files tr url len = Ok data.
Proof. intros Hf Hl. unfold serve. rewrite Hf. by rewrite (proj2 (Z.leb_le _ _) Hl). Qed.
(** a checker for releases with the delegated roles [ds] and the target a/x *)
Definition static_b (c : config) (static : list (string * string)) (d1 dts dsn dtg : string) (ds : list (string * string)) (data : string) : bool :=
  match from_bytes (T := root_t) d1, from_bytes (T := timestamp_t) dts, from_bytes (T := snapshot_t) dsn with
  | Ok r, Ok ts, Ok sn =>
      match snapshot_meta ts, mget (sn_meta (md_signed sn)) "targets.json" with
      | Some f, Some (Some g) => served static (url_of c "snapshot" (version_in_url r (mf_version f))) dsn && served static (url_of c "targets" (version_in_url r (mf_version g))) dtg
      | _, _ => false
      end
  | _, _, _ => false
  end && forallb (fun p => match from_bytes (T := targets_t) p.2 with Ok m => is_ok (signing_payload (md_signed m)) | _ => false end) ds &&
  served static ("https://t/a/" +:+ hex_encode (sha256 data) +:+ ".x") data.
Lemma release_check c before after files static d1 dts dsn dtg ds data : with_slash (c_targets_url c) = "https://t/" -> honest_b files c ex_now d1 dts dsn dtg = true -> reach_b static c d1 dsn dtg ds ex_now "a/x" ["d1"] "d1" data (sha256 data) = true -> static_b c static d1 dts dsn dtg ds data = true ->
  exists r0 r R tf, document (c_trusted_root c) r0 /\ root_signs r0 "root" r0 /\ document d1 r /\ pub_roots (rel_pub R) = [(d1, r)] /\ pub_timestamp (rel_pub R) = dts /\ pub_snapshot (rel_pub R) = dsn /\ pub_targets (rel_pub R) = dtg /\ rel_files R = [(tf, data)] /\
    rel_roles R = list_to_map (omap (load_file (pub_snapshot_md (rel_pub R))) ds) /\
    sound_release c r0 r ex_now R /\ (delegations_follow (all_roles (rel_pub R) (rel_roles R)) "a/x" /\
      (forall n g k, all_roles (rel_pub R) (rel_roles R) !! n = Some g -> ~ delegated (rf_md g) "a/x" k true) /\ size (all_roles (rel_pub R) (rel_roles R)) = S (List.length ds) /\
      (exists x f, leads (everything r (rel_pub R) (rel_roles R) ex_now) "a/x" "targets" x /\ all_roles (rel_pub R) (rel_roles R) !! x = Some f /\ entry (rf_md f) "a/x" (Some tf)) /\
      (forall x f o, leads (everything r (rel_pub R) (rel_roles R) ex_now) "a/x" "targets" x -> all_roles (rel_pub R) (rel_roles R) !! x = Some f -> entry (rf_md f) "a/x" o -> o = Some tf)) /\ on_server (ex_env files) c r0 r (rel_pub R) /\
    forall T tr, (forall tr' url d, later tr tr' -> serves (ex_env static) url d -> find_file (if Nat.ltb (List.length tr') T then before else after) url = Some d) -> stays_up (phased before after T) c r R tr.
Proof.
  intros Hurl Hh Hreach Hst. destruct (honest_check _ _ _ _ _ _ _ Hh) as (r0 & r1 & ts & sn & tg & f & g & H1 & H2 & H3 & H4 & H5). set (P := mkPublication _ _ _ _ _ _ _ _ _) in *. pose proof H3 as (Hu & _ & (Hts & _) & (Hnm & _) & (Hsn & _) & (Hl & _) & (Htg & _)).
  assert (document d1 r1) as Hr1 by (exact (newest_document _ _ _ _ _ Hu)).
  destruct (reach_check static c r1 P ex_now d1 ds "a/x" ["d1"] "d1" data (sha256 data) Hr1 Hsn Htg Hl Hreach) as (D & fd & tf & [K1 K1'] & K2 & K3 & K4 & K5 & K6 & K7 & K8 & K9 & K10 & K11 & K12 & K13 & K14).
  unfold static_b in Hst. destruct Hr1 as [Hr1 Hr1t]. destruct Hts as [Hts Htst]. destruct Hsn as [Hsn Hsnt]. cbn [P pub_snapshot pub_timestamp pub_timestamp_md pub_snapshot_md] in *.
  rewrite Hr1, Hts, Hsn in Hst. apply snapshot_meta_spec in Hnm as Hnm'. apply lists_file_mget in Hl as Hl'. cbn [P pub_snapshot_info pub_targets_info pub_timestamp_md pub_snapshot_md] in Hnm', Hl'. rewrite Hnm', Hl' in Hst. rewrite !andb_true_iff in Hst. destruct Hst as [[[S1 S2] S3] S4].
  exists r0, r1, (mkRelease P D [(tf, data)]), tf. cbn [rel_pub rel_roles rel_files]. do 3 (split; [done|]). do 6 (split; [done|]). split.
  { split; [exact H3|]. split; [exact H5|]. destruct H4 as (_ & _ & [L1 _] & [L2 _] & [L3 _]). split; [exact L1|]. split; [exact L2|]. split; [exact L3|]. split.
    - intros name fr Hf. destruct (K1 name fr Hf) as [Ha (Hb1 & Hb2 & Hb3 & Hb4 & Hb5 & Hb6 & _)]. cbn [rel_roles] in Hf. do 7 (split; [done|]).
      rewrite K14 in Hf. apply elem_of_list_to_map_2 in Hf. apply elem_of_list_omap in Hf as ([nn d2] & Hin & Hld2). rewrite forallb_forall in S3. specialize (S3 _ (proj1 (elem_of_list_In _ _) Hin)). cbn [snd] in S3.
      unfold load_file in Hld2. cbn [fst snd] in Hld2. destruct (from_bytes (T := targets_t) d2) as [m| |] eqn:Hm; [|done..]. destruct (mget (sn_meta (md_signed sn)) (nn +:+ ".json")) as [[gi|]|]; [|done..]. injection Hld2 as _ <-. cbn [rf_md]. destruct (signing_payload (md_signed m)) as [p| |]; [by exists p|done..].
    - intros tf' data' Hin. apply elem_of_list_singleton in Hin as [= -> ->]. split; [done|]. split; [exists "sha256", (sha256 data); by apply K11|]. intros _ _. right. exists "a", "x". rewrite K10. split; [by repeat constructor|]. split; [by repeat constructor|done]. }
  split; [split; [exact K1'|split; [exact K2|split; [exact K4|split; [by exists "d1", fd|exact K8]]]]|]. split; [done|]. intros T tr Hmore.
  assert (forall url d, serves (ex_env static) url d -> serves_from (phased before after T) tr url d) as Hgo.
  { intros url d Hs tr' len Hlt Hlen. cbn. apply serve_found; [|done]. by apply Hmore. }
  split_and!.
  - apply Hgo, served_ok. exact S1.
  - apply Hgo, served_ok. exact S2.
  - intros name fr Hf. apply Hgo. by destruct (K1 name fr Hf) as [_ (_ & _ & _ & _ & _ & _ & ?)].
  - intros tf' data' Hin. apply elem_of_list_singleton in Hin as [= -> ->]. split; [rewrite K12, K13; by intros [?|?]|]. intros _ _ alg dig name [-> ->]%K11 Hn. rewrite K10 in Hn. apply hash_named_ax in Hn as ->. rewrite Hurl. apply Hgo, served_ok. exact S4.
Qed.
Lemma serves_find files url data : serves (ex_env files) url data -> find_file files url = Some data.
Proof. intros Hs. pose proof (Hs [] (Z.of_nat (String.length data)) ltac:(lia)) as Hf. cbn in Hf. unfold serve in Hf. destruct (find_file files url) as [d|]; [|done]. destruct (_ <=? _); [|done]. by injection Hf as ->. Qed.
Lemma phased_timeline {CR : Crypto} c before after T r0 r R R' now : newer R R' -> sound_release c r0 r now R -> sound_release c r0 r now R' -> pub_roots (rel_pub R) = pub_roots (rel_pub R') ->
  on_server (ex_env before) c r0 r (rel_pub R) -> on_server (ex_env after) c r0 r (rel_pub R') -> (forall tr, stays_up (phased before after T) c r R tr) -> (forall tr, (T <= List.length tr)%nat -> stays_up (phased before after T) c r R' tr) ->
  timeline (phased before after T) c r0 r (fun _ => now) [R; R'] (lv_number T).
Proof.
  intros Hnew Hs Hs' Hroots Ho Ho' Hup Hup'. split_and!.
  - intros [|[|i]] [|[|j]] X Y Hij HX HY; try lia; try done. by injection HX as <-; injection HY as <-.
  - assert (forall X, X ∈ [R; R'] -> sound_release c r0 r now X /\ pub_roots (rel_pub X) = pub_roots (rel_pub R)) as HX.
    { intros X [->|[->|[]%elem_of_nil]%elem_of_cons]%elem_of_cons; done. }
    intros X HXin. destruct (HX X HXin) as [(_ & _ & _ & _ & _ & Hroles & _) HXr]. split; [|intros name f Hf; by apply Hroles in Hf as (? & _)].
    destruct Ho as (Hr1 & He1 & _), Ho' as (Hr2 & He2 & _). split.
    + intros i data r1 Hi. rewrite HXr in Hi. destruct (Hr1 _ _ _ Hi) as [Hl Hf1%serves_find]. rewrite Hroots in Hi. destruct (Hr2 _ _ _ Hi) as [_ Hf2%serves_find]. split; [done|]. intros tr len _ Hlen. unfold phased; cbn [e_net]. destruct (Nat.ltb (List.length tr) T); by apply serve_found.
    + intros tr len _. unfold phased; cbn [e_net]. destruct (Nat.ltb (List.length tr) T); [exact (He1 tr len)|exact (He2 tr len)].
  - intros tr tr' (evs & ->). unfold lv_number. split; [|lia]. rewrite app_length. destruct (Nat.ltb_spec (List.length tr) T), (Nat.ltb_spec (List.length tr + List.length evs) T); lia.
  - intros tr. unfold lv_number. destruct (Nat.ltb_spec (List.length tr) T) as [Hlt|Hge].
    + exists R. split; [done|]. split; [done|]. split; [done|]. destruct Ho as (_ & _ & [_ Hts%serves_find] & _). intros len Hlen. unfold phased; cbn [e_net]. rewrite (proj2 (Nat.ltb_lt _ _) Hlt). by apply serve_found.
    + exists R'. split; [done|]. split; [done|]. split; [by apply Hup'|]. destruct Ho' as (_ & _ & [_ Hts%serves_find] & _). intros len Hlen. unfold phased; cbn [e_net]. rewrite (proj2 (Nat.ltb_ge _ _) Hge). by apply serve_found.
Qed.
Definition newer_b (dts dsn dtg dts' dsn' : string) (ds ds' : list (string * string)) : bool :=
  match from_bytes (T := timestamp_t) dts, from_bytes (T := snapshot_t) dsn, from_bytes (T := targets_t) dtg, from_bytes (T := timestamp_t) dts', from_bytes (T := snapshot_t) dsn' with
  | Ok ts, Ok sn, Ok tg, Ok ts', Ok sn' =>
      match snapshot_meta ts, snapshot_meta ts', mget (sn_meta (md_signed sn')) "targets.json" with
      | Some f, Some f', Some (Some g') =>
          (ts_version (md_signed ts) <? ts_version (md_signed ts')) && (mf_version f <=? mf_version f') && negb (sn_version (md_signed sn) =? mf_version f') && negb (tg_version (md_signed tg) =? mf_version g') &&
          forallb (fun p => match p.2, mget (sn_meta (md_signed sn')) p.1 with Some o, Some (Some n) => mf_version o <=? mf_version n | _, _ => false end) (mlist (sn_meta (md_signed sn))) &&
          forallb (fun p => forallb (fun q => negb (tg_version (md_signed (rf_md p.2)) =? mf_version (rf_info q.2))) (omap (load_file sn') ds')) (omap (load_file sn) ds)
      | _, _, _ => false
      end
  | _, _, _, _, _ => false
  end.
Lemma newer_check c r0 r now R R' ds ds' : sound_release c r0 r now R -> sound_release c r0 r now R' -> rel_roles R = list_to_map (omap (load_file (pub_snapshot_md (rel_pub R))) ds) -> rel_roles R' = list_to_map (omap (load_file (pub_snapshot_md (rel_pub R'))) ds') ->
  newer_b (pub_timestamp (rel_pub R)) (pub_snapshot (rel_pub R)) (pub_targets (rel_pub R)) (pub_timestamp (rel_pub R')) (pub_snapshot (rel_pub R')) ds ds' = true -> newer R R'.
Proof.
  intros ((_ & _ & ([A1 _] & _) & (A2%snapshot_meta_spec & _) & ([A3 _] & _) & _ & ([A4 _] & _)) & _) ((_ & _ & ([B1 _] & _) & (B2%snapshot_meta_spec & _) & ([B3 _] & _) & (B4%lists_file_mget & _) & _) & _) HD HD'.
  unfold newer_b. rewrite A1, A2, A3, A4, B1, B2, B3, B4. rewrite !andb_true_iff, !negb_true_iff, Z.ltb_lt, Z.leb_le, !Z.eqb_neq, !forallb_forall. intros [[[[[N1 N2] N3] N4] N5] N6].
  split; [done|]. split; [done|]. split; [|split; [done|split; [done|]]].
  - intros file (o & Ho)%mentions_file_mget. assert (In (file, o) (mlist (sn_meta (md_signed (pub_snapshot_md (rel_pub R)))))) as Hin by (apply elem_of_list_In, mlist_elem; done). specialize (N5 _ Hin). cbn [fst snd] in N5.
    destruct o as [o|]; [|done]. destruct (mget (sn_meta (md_signed (pub_snapshot_md (rel_pub R')))) file) as [[n|]|] eqn:Hn; [|done..]. exists o, n. split; [by apply lists_file_mget|]. split; [by apply lists_file_mget|by apply Z.leb_le].
  - intros name f f' Hf Hf' Hv. exfalso. rewrite HD in Hf. rewrite HD' in Hf'. apply elem_of_list_to_map_2, elem_of_list_In in Hf. apply elem_of_list_to_map_2, elem_of_list_In in Hf'.
    specialize (N6 _ Hf). rewrite forallb_forall in N6. specialize (N6 _ Hf'). cbn [snd] in N6. apply negb_true_iff, Z.eqb_neq in N6. done.
Qed.
Lemma document_same {T} `{RoleTy T} data (m m' : metadata T) : document data m -> document data m' -> m = m'.
Proof. intros [H1 _] [H2 _]. congruence. Qed.
Lemma empty_ready E r0 r now Rs : document (c_trusted_root ex_config) r0 -> root_signs r0 "root" r0 -> (forall tr, e_io E tr = true) -> e_cwd E = Some "/w" -> client_ready E ex_config r0 r now Rs no_files.
Proof.
  intros H1 H2 H3 H4. assert (forall x data, io_disk no_files !! x = Some data -> False) as Hno by (intros x data H; by pose proof (eq_trans (eq_sym H) (lookup_empty (M := gmap string) x)) as [=]).
  split; [exact H1|]. split; [exact H2|]. split; [by intros [=]|]. split; [apply String.eqb_neq; vm_compute; reflexivity|]. split. { right. split; [done|]. split; [done|]. split; [done|]. exists "/w". split; [done|]. intros n. apply (lookup_empty (M := gmap string)). }
  intros R _. split; [intros data H; by destruct (Hno _ _ H)|]. split; [intros data H; by destruct (Hno _ _ H)|]. split; [intros data H; by destruct (Hno _ _ H)|]. intros name f data _ H. by destruct (Hno _ _ H).
Qed.
Definition lv_roles (v : Z) (data : string) : list (string * string) := [("d1", bytes_of (lv_d1 v data))].
(** two releases, of which the second appears after [T] events, at any time *)
Lemma lv_case T : exists r0 r R R' tf tf', timeline (lv_env T) ex_config r0 r (fun _ => ex_now) [R; R'] (lv_number T) /\ client_ready (lv_env T) ex_config r0 r ex_now [R; R'] no_files /\ rel_files R = [(tf, "hello")] /\ rel_files R' = [(tf', "world")] /\
  delegations_follow (all_roles (rel_pub R) (rel_roles R)) "a/x" /\ delegations_follow (all_roles (rel_pub R') (rel_roles R')) "a/x".
Proof.
  destruct (release_check ex_config lv_before lv_after lv_before (lv_static 4 "hello") (bytes_of (ex_root 2)) (bytes_of (lv_timestamp 4 "hello")) (bytes_of (lv_snapshot 4 "hello")) (bytes_of (lv_targets 4)) (lv_roles 4 "hello") "hello") as (r0 & r & R & tf & A1 & A2 & A3 & A4 & A5 & A6 & A6' & A7 & A8 & A9 & A10 & A11 & A12).
  { reflexivity. } { exact lv_honest4. } { vm_compute. reflexivity. } { vm_compute. reflexivity. }
  destruct (release_check ex_config lv_before lv_after lv_after (lv_static 5 "world") (bytes_of (ex_root 2)) (bytes_of (lv_timestamp 5 "world")) (bytes_of (lv_snapshot 5 "world")) (bytes_of (lv_targets 5)) (lv_roles 5 "world") "world") as (r0' & r' & R' & tf' & B1 & B2 & B3 & B4 & B5 & B6 & B6' & B7 & B8 & B9 & B10 & B11 & B12).
  { reflexivity. } { exact lv_honest5. } { vm_compute. reflexivity. } { vm_compute. reflexivity. }
  assert (r0' = r0) as -> by exact (document_same _ _ _ B1 A1). assert (r' = r) as -> by exact (document_same _ _ _ B3 A3). exists r0, r, R, R', tf, tf'. split; [|split; [apply empty_ready; [exact A1|exact A2|reflexivity|reflexivity]|exact (conj A7 (conj B7 (conj (proj1 A10) (proj1 B10))))]].
  apply phased_timeline; try assumption.
  - apply (newer_check ex_config r0 r ex_now R R' (lv_roles 4 "hello") (lv_roles 5 "world")); try assumption. rewrite A5, A6, A6', B5, B6. vm_compute. reflexivity.
  - rewrite A4, B4. reflexivity.
  - intros tr. apply A12. intros tr' url d _ Hs. destruct (Nat.ltb (List.length tr') T); (apply (more_ok (lv_static 4 "hello")); [vm_compute; reflexivity|exact Hs]).
  - intros tr Htr. apply B12. intros tr' url d (evs & ->) Hs. rewrite (proj2 (Nat.ltb_ge _ _)) by (rewrite app_length; lia). apply (more_ok (lv_static 5 "world")); [vm_compute; reflexivity|exact Hs].
Qed.
(** all hypotheses of C108, with a release that appears at any time after the start *)
Example C108_case T : (0 < T)%nat -> exists r0 r R R' tf tf', publishing (lv_env T) ex_config (io_trace no_files) r0 r ex_now [R; R'] /\ client_ready (lv_env T) ex_config r0 r ex_now [R; R'] no_files /\
  newer R R' /\ rel_files R = [(tf, "hello")] /\ rel_files R' = [(tf', "world")] /\ delegations_follow (all_roles (rel_pub R) (rel_roles R)) "a/x" /\ delegations_follow (all_roles (rel_pub R') (rel_roles R')) "a/x".
Proof.
  intros HT. destruct (lv_case T) as (r0 & r & R & R' & tf & tf' & H1 & H2 & H3). exists r0, r, R, R', tf, tf'. split; [|split; [exact H2|]].
  - pose proof (line_publishing _ _ _ _ _ _ _ H1 no_files) as Hp. destruct T; [lia|exact Hp].
  - destruct H1 as [Hnew _]. split; [|exact H3]. by apply (Hnew 0%nat 1%nat); [lia|..].
Qed.
(** New, Refresh, a search for a/x and the download of what was found: the versions, and the file *)
Definition lv_run {CR : Crypto} (E : env) (i : ios) : option (Z * option Z * option Z * list (string * Z) * string * ios) :=
  match started E ex_config i with
  | Some w => match refresh E ex_config w with
              | (w1, Ok _) => match get_target_info E ex_config "a/x" w1 with
                              | (w2, Ok (Some tf)) => match download_target E ex_config tf "" "" w2 with (w3, Ok (_, data)) => Some (loaded_roles (w_trusted w3), data, w_io w3) | _ => None end
                              | _ => None
                              end
              | _ => None
              end
  | None => None
  end.
Definition lv_shown {A} (o : option (A * string * ios)) : option (A * string) := option_map fst o.
(** the client asks for the timestamp in its 12th step: it gets release 5 if that has appeared by then; if it appears
    in the next step, the client gets all of release 4 *)
Example C108_runs : map (fun T => lv_shown (lv_run (lv_env T) no_files)) [11%nat; 12%nat; 1000%nat] =
  [Some (2, Some 5, Some 5, [("d1", 5); ("targets", 5)], "world"); Some (2, Some 4, Some 4, [("d1", 4); ("targets", 4)], "hello"); Some (2, Some 4, Some 4, [("d1", 4); ("targets", 4)], "hello")].
Proof. vm_compute. reflexivity. Qed.

Lemma lookup_two {A} (a b : A) k x : [a; b] !! k = Some x -> x = a \/ x = b.
Proof. destruct k as [|[|k]]; [intros [= <-]; by left|intros [= <-]; by right|by destruct k]. Qed.
(** all hypotheses of C109, with a client that has been used before *)
Example C109_case T : (0 < T)%nat -> exists r0 r R R' k i, timeline (lv_env T) ex_config r0 r (fun _ => ex_now) [R; R'] (lv_number T) /\
  client_ready (lv_env T) ex_config r0 r ex_now (drop (lv_number T (io_trace no_files)) [R; R']) no_files /\ life (lv_env T) ex_config r (fun _ => ex_now) [R; R'] no_files [k] i.
Proof.
  intros HT. destruct (lv_case T) as (r0 & r & R & R' & tf & tf' & H1 & H2 & H3 & H3' & H4 & H4').
  assert (client_ready (lv_env T) ex_config r0 r ex_now (drop (lv_number T (io_trace no_files)) [R; R']) no_files) as Hready by (destruct T; [lia|exact H2]).
  destruct (C109_follows _ _ _ _ _ _ _ _ [] _ H1 Hready (life_begins _ _ _ _ _ _)) as (_ & k & Rk & i1 & t & w1 & HR & Hnew & Href & Hutd & _ & _ & Hsr).
  assert (delegations_follow (all_roles (rel_pub Rk) (rel_roles Rk)) "a/x") as Hf.
  { destruct (lookup_two _ _ _ _ HR) as [Hx|Hx]; rewrite Hx; [exact H4|exact H4']. }
  destruct (get_target_info (lv_env T) ex_config "a/x" w1) as [w2 o] eqn:Hg. exists r0, r, R, R', k, (w_io w2). split; [exact H1|]. split; [exact Hready|].
  change [k] with (app (@nil nat) [k]). eapply life_again; [apply life_begins|exact Hnew|exact Href|exact HR|exact Hutd|]. eapply used_search; [exact Hf|exact Hg|apply used_not].
Qed.
(** release 5 appears while the first session is at work: the second one gets it *)
Example C109_runs : (o ← lv_run (lv_env 12) no_files; let '(v, data, i) := o in o' ← lv_run (lv_env 12) i; let '(v', data', _) := o' in Some (v, data, v', data')) =
  Some (2, Some 4, Some 4, [("d1", 4); ("targets", 4)], "hello", (2, Some 5, Some 5, [("d1", 5); ("targets", 5)]), "world").
Proof. vm_compute. reflexivity. Qed.

(** ** Refuted if files are replaced in place *)
(** Without consistent snapshots the names carry no versions, so the files of a release cannot stay.  Even if at every
    moment the server holds one complete release, a client that works at the moment of a change may fail. *)
Definition complete_at {CR : Crypto} (E : env) (c : config) (r : metadata root_t) (R : release) (tr : trace) : Prop :=
  announces E c tr R /\
  (forall len, Z.of_nat (String.length (pub_snapshot (rel_pub R))) <= len -> e_net E tr (url_of c "snapshot" (version_in_url r (mf_version (pub_snapshot_info (rel_pub R))))) len = Ok (pub_snapshot (rel_pub R))) /\
  (forall len, Z.of_nat (String.length (pub_targets (rel_pub R))) <= len -> e_net E tr (url_of c "targets" (version_in_url r (mf_version (pub_targets_info (rel_pub R))))) len = Ok (pub_targets (rel_pub R))).
Definition ip_root (v : Z) : metadata root_t :=
  sign_all [pkA; pkB] (unsigned (mkRoot ROOT SPECIFICATION_VERSION false v t2030 ex_keys (Some (<[ROOT := ex_role [idA; idB] 2]> (<[TIMESTAMP := ex_role [idB] 1]> (<[SNAPSHOT := ex_role [idC] 1]> (<[TARGETS := ex_role [idA] 1]> ∅))))) None)).
Definition ip_config := ex_config_with (bytes_of (ip_root 1)) false false.
Definition ip_files (v : Z) (data : string) : list (string * string) :=
  [("https://r/2.root.json", bytes_of (ip_root 2)); lv_stamp v data; ("https://r/snapshot.json", bytes_of (lv_snapshot v data)); ("https://r/targets.json", bytes_of (lv_targets v))].
Lemma ip_honest4 : honest_b (ip_files 4 "hello") ip_config ex_now (bytes_of (ip_root 2)) (bytes_of (lv_timestamp 4 "hello")) (bytes_of (lv_snapshot 4 "hello")) (bytes_of (lv_targets 4)) = true.
Proof. vm_compute. reflexivity. Qed.
Lemma ip_honest5 : honest_b (ip_files 5 "world") ip_config ex_now (bytes_of (ip_root 2)) (bytes_of (lv_timestamp 5 "world")) (bytes_of (lv_snapshot 5 "world")) (bytes_of (lv_targets 5)) = true.
Proof. vm_compute. reflexivity. Qed.
Lemma on_server_complete files before after T c r0 r P tr : on_server (ex_env files) c r0 r P -> files = (if Nat.ltb (List.length tr) T then before else after) -> complete_at (phased before after T) c r (mkRelease P ∅ []) tr.
Proof.
  intros (_ & _ & [_ H1%serves_find] & [_ H2%serves_find] & [_ H3%serves_find]) ->. split_and!; intros len Hlen; unfold phased; cbn [e_net]; by apply serve_found.
Qed.
Lemma honest_sound files c r0 r now P : honest r0 r now P -> on_server (ex_env files) c r0 r P -> can_follow c r0 P -> sound_release c r0 r now (mkRelease P ∅ []).
Proof.
  intros H1 (_ & _ & [L1 _] & [L2 _] & [L3 _]) H3. split; [exact H1|]. split; [exact H3|]. split; [exact L1|]. split; [exact L2|]. split; [exact L3|]. split.
  - intros name f Hf. by pose proof (eq_trans (eq_sym Hf) (lookup_empty (M := gmap string) name)) as [=].
  - intros tf data H. by apply elem_of_nil in H.
Qed.
Lemma inconsistent_root data (r : metadata root_t) : document data r -> match from_bytes (T := root_t) data with Ok r => negb (rt_consistent (md_signed r)) | _ => false end = true -> rt_consistent (md_signed r) = false.
Proof. intros [-> _]. by intros ?%negb_true_iff. Qed.
Lemma in_place_roots before after T c r0 r start P P' : pub_roots P = pub_roots P' -> on_server (ex_env before) c r0 r P -> on_server (ex_env after) c r0 r P' ->
  forall X, pub_roots (rel_pub X) = pub_roots P -> roots_up (phased before after T) c start r0 r X.
Proof.
  intros Hroots (Hr1 & He1 & _) (Hr2 & He2 & _) X HX. split.
  - intros i data r1 Hi. rewrite HX in Hi. destruct (Hr1 _ _ _ Hi) as [Hl Hf1%serves_find]. rewrite Hroots in Hi. destruct (Hr2 _ _ _ Hi) as [_ Hf2%serves_find]. split; [done|]. intros tr len _ Hlen. unfold phased; cbn [e_net]. destruct (Nat.ltb (List.length tr) T); by apply serve_found.
  - intros tr len _. unfold phased; cbn [e_net]. destruct (Nat.ltb (List.length tr) T); [exact (He1 tr len)|exact (He2 tr len)].
Qed.
Lemma refresh_fails {CR : Crypto} E c i : match started E c i with Some w => match refresh E c w with (_, Err _) => true | _ => false end | None => false end = true ->
  exists i' t w e, updater_new E c ex_now i = (i', Ok t) /\ refresh E c (mkWorld t i') = (w, Err e).
Proof. unfold started. destruct (updater_new E c ex_now i) as [i' [t| |]] eqn:H1; [|done..]. destruct (refresh E c (mkWorld t i')) as [w [|e|]] eqn:H2; [done| |done]. intros _. by exists i', t, w, e. Qed.
Theorem C108_in_place_refuted : exists (CR : Crypto) (E : env) (c : config) (r0 r : metadata root_t) (now : Z) (Rs : list release) (i : ios), document (c_trusted_root c) r0 /\ root_signs r0 "root" r0 /\ rt_consistent (md_signed r) = false /\ io_disk i = ∅ /\
  (forall R, R ∈ Rs -> sound_release c r0 r now R /\ roots_up E c (io_trace i) r0 r R) /\ (forall tr, exists R, R ∈ Rs /\ complete_at E c r R tr) /\
  exists i' t w e, updater_new E c now i = (i', Ok t) /\ refresh E c (mkWorld t i') = (w, Err e).
Proof.
  destruct (honest_check _ _ _ _ _ _ _ ip_honest4) as (r0 & r & ts & sn & tg & f & g & H1 & H2 & H3 & H4 & H5). set (P := mkPublication _ _ _ _ _ _ _ _ _) in *.
  destruct (honest_check _ _ _ _ _ _ _ ip_honest5) as (r0' & r' & ts' & sn' & tg' & f' & g' & H1' & H2' & H3' & H4' & H5'). set (P' := mkPublication _ _ ts' _ _ _ _ _ _) in *.
  assert (document (bytes_of (ip_root 2)) r) as Hr by (destruct H3 as (Hu & _); exact (newest_document _ _ _ _ _ Hu)). assert (document (bytes_of (ip_root 2)) r') as Hr' by (destruct H3' as (Hu & _); exact (newest_document _ _ _ _ _ Hu)).
  assert (r0' = r0) as -> by exact (document_same _ _ _ H1' H1). assert (r' = r) as -> by exact (document_same _ _ _ Hr' Hr).
  assert (pub_roots P = pub_roots P') as Hpp by (unfold P, P'; cbn [pub_roots]; reflexivity).
  exists toy_crypto, (phased (ip_files 4 "hello") (ip_files 5 "world") 12), ip_config, r0, r, ex_now, [mkRelease P ∅ []; mkRelease P' ∅ []], no_files.
  split; [exact H1|]. split; [exact H2|]. split. { apply (inconsistent_root (bytes_of (ip_root 2))); [exact Hr|vm_compute; reflexivity]. } split; [reflexivity|]. split; [|split].
  - intros R HR. apply elem_of_cons in HR as [HR|HR]; [|apply elem_of_list_singleton in HR]; rewrite HR.
    + split; [exact (honest_sound _ _ _ _ _ _ H3 H4 H5)|]. exact (in_place_roots _ _ _ _ _ _ _ P P' Hpp H4 H4' (mkRelease P ∅ []) eq_refl).
    + split; [exact (honest_sound _ _ _ _ _ _ H3' H4' H5')|]. exact (in_place_roots _ _ _ _ _ _ _ P P' Hpp H4 H4' (mkRelease P' ∅ []) (eq_sym Hpp)).
  - intros tr. destruct (Nat.ltb (List.length tr) 12) eqn:Hlt.
    + exists (mkRelease P ∅ []). split; [apply elem_of_list_here|]. apply (on_server_complete (ip_files 4 "hello") _ _ _ _ r0); [exact H4|]. rewrite Hlt. reflexivity.
    + exists (mkRelease P' ∅ []). split; [apply elem_of_list_further, elem_of_list_here|]. apply (on_server_complete (ip_files 5 "world") _ _ _ _ r0); [exact H4'|]. rewrite Hlt. reflexivity.
  - apply refresh_fails. vm_compute. reflexivity.
Qed.
Print Assumptions C108_in_place_refuted.
