(** * Property C125: new root metadata while clients are at work *)
From stdpp Require Import base gmap strings list.
From Coq Require Import ZArith Lia Ascii String.
From Verif Require Import GoBase GoStr GoTime Types Marshal Keys Metadata TrustedMetadata Fetcher Updater SpecBasic SpecSig SpecDeleg SpecTrusted SpecUpdater SpecReach SpecLive SpecRotate.
From Verif Require Import BasicProofs TrustedProofs WalkProofs HonestProofs ReachProofs LiveProofs LifeProofs RotateProofs Toy Examples ExamplesUpdater ExamplesHonest PropertiesReach PropertiesLive.
Open Scope Z_scope.

(** ** C125 *)
(** If each release is correctly signed for all roots that a client at work may know, then New and Refresh succeed at any
    time; the client trusts the newest root of some moment during Refresh, and everything else is of one release. *)
Theorem C125_rotates {CR : Crypto} E c r0 roots m now Rs i : rotating E c (io_trace i) r0 roots m now Rs ->
  (forall k, (m (io_trace i) <= k <= List.length roots)%nat -> client_ready E c r0 (root_number r0 roots k) now (map (under roots k) Rs) i) ->
  exists k R i' t w1, R ∈ Rs /\ (m (io_trace i) <= k <= m (io_trace (w_io w1)))%nat /\ updater_new E c now i = (i', Ok t) /\ refresh E c (mkWorld t i') = (w1, Ok tt) /\
    up_to_date (root_number r0 roots k) (rel_pub R) (w_trusted w1) /\ forall w, used E c R w1 w -> serves_release E c (root_number r0 roots k) now R w.
Proof.
  intros Hrot Hready. destruct (rotating_started E c r0 roots m now Rs i Hrot Hready) as (k & R & i' & t & w1 & tr0 & HR & Hk & Hsd & Hup & Hl & Hnew & Href & Hutd & HI). exists k, R, i', t, w1. split; [done|]. split; [exact Hk|]. split; [done|]. split; [done|]. split; [exact Hutd|].
  intros w Hused. apply (used_under E c roots k) in Hused. destruct (live_used E c r0 _ now (under roots k R) tr0 w1 w Hsd Hup Hused Hl HI) as [Hl2 HI2]. exact (inv_serves E c r0 _ now (under roots k R) tr0 w Hsd Hup Hl2 HI2).
Qed.
Print Assumptions C125_rotates.
(** If no new root appears while the client is at work, it is enough that releases are signed for the newest root. *)
Theorem C125_calm {CR : Crypto} E c start r0 roots m now Rs : rotating_at_once E c start r0 roots m now Rs -> (forall tr, later start tr -> m tr = m start) -> rotating E c start r0 roots m now Rs.
Proof.
  intros [Hr Hlive] Hm. split; [exact Hr|]. intros tr Htr. destruct (Hlive tr Htr) as (R & HR & Ha & Hs & Hu). exists R. split; [done|]. split; [done|]. intros k Hk. rewrite (Hm tr Htr) in *. by replace k with (m start) by lia.
Qed.
Print Assumptions C125_calm.

(** ** Concrete repositories: one new root after [T] events *)
Definition tail_b (dr dts dsn dtg : string) (now : Z) : bool :=
  match from_bytes (T := root_t) dr, from_bytes (T := timestamp_t) dts, from_bytes (T := snapshot_t) dsn, from_bytes (T := targets_t) dtg with
  | Ok r, Ok ts, Ok sn, Ok tg => fresh_b r now && signs_b r "timestamp" ts && signs_b r "snapshot" sn && signs_b r "targets" tg
  | _, _, _, _ => false
  end.
Lemma tail_check c r0 r now dr P roots : tail_b dr (pub_timestamp P) (pub_snapshot P) (pub_targets P) now = true -> document dr r0 -> sound_release c r0 r now (mkRelease P ∅ []) ->
  sound_release c r0 r0 now (under roots 0 (mkRelease P ∅ [])).
Proof.
  intros Hb [Hr _] ((_ & _ & ([Ht ?] & _ & ?) & Hn & ([Hs ?] & _ & ?) & Hl & ([Hg ?] & _ & ?)) & (? & L0 & ?) & L1 & L2 & L3 & _). unfold tail_b in Hb. cbn [rel_pub] in *. rewrite Hr, Ht, Hs, Hg in Hb. rewrite !andb_true_iff in Hb. destruct Hb as [[[B1 B2] B3] B4].
  split; [|split; [|split; [exact L1|split; [exact L2|split; [exact L3|split]]]]].
  - split; [apply no_updates|]. split; [by apply fresh_ok|]. split; [split; [done|split; [by apply signs_ok|done]]|]. split; [exact Hn|]. split; [split; [done|split; [by apply signs_ok|done]]|]. split; [exact Hl|]. split; [done|split; [by apply signs_ok|done]].
  - split; [done|]. split; [etrans; [|exact L0]; apply (Zle_0_nat (List.length (pub_roots P)))|done].
  - intros name f Hf. by pose proof (eq_trans (eq_sym Hf) (lookup_empty (M := gmap string) name)) as [=].
  - intros tf data Hin. by apply elem_of_nil in Hin.
Qed.
Lemma phased_roots before after T c start r0 r d1 P : root_updates r0 (pub_roots P) r -> pub_roots P = [(d1, r)] -> on_server (ex_env after) c r0 r P -> can_follow c r0 P -> missing before (url_of c "root" (fmt_dec (rt_version (md_signed r0) + 1))) = true ->
  roots_appear (phased before after T) c start r0 [(d1, r)] (lv_number T).
Proof.
  intros Hu Hp (Hr & He & _) (_ & Hn & Hb) Hm. rewrite Hp in *. destruct (Hr 0%nat d1 r eq_refl) as [Hsz Hf%serves_find]. rewrite Z.add_0_r in Hf.
  assert (rt_version (md_signed r) = rt_version (md_signed r0) + 1) as Hv by (destruct (updates_at _ _ _ 0%nat _ _ Hu eq_refl) as (_ & _ & _ & ->); lia).
  split; [by exists r|]. split.
  { intros tr tr' _ (evs & ->). unfold lv_number. rewrite app_length. cbn [List.length]. destruct (Nat.ltb_spec (List.length tr) T), (Nat.ltb_spec (List.length evs + List.length tr) T), (Nat.ltb_spec (List.length tr + List.length evs) T); lia. }
  split.
  { intros tr [|i] data s len _ Hi Hlt Hlen; [|by destruct i]. injection Hi as <- <-. unfold lv_number in Hlt. unfold phased; cbn [e_net]. destruct (Nat.ltb (List.length tr) T); [lia|]. rewrite Z.add_0_r. by apply serve_found. }
  split.
  { intros tr len _. unfold lv_number, phased; cbn [e_net]. destruct (Nat.ltb (List.length tr) T).
    - rewrite Z.add_0_r. exact (missing_ok before _ Hm tr len).
    - replace (rt_version (md_signed r0) + 1 + Z.of_nat 1) with (rt_version (md_signed r) + 1) by lia. exact (He tr len). }
  split; [|done]. intros [|i] data s Hi; [|by destruct i]. by injection Hi as <- <-.
Qed.
(** the files of a release, under the names with versions *)
Definition named_b (c : config) (files : list (string * string)) (dts dsn dtg : string) : bool :=
  match from_bytes (T := timestamp_t) dts, from_bytes (T := snapshot_t) dsn with
  | Ok ts, Ok sn =>
      match snapshot_meta ts, mget (sn_meta (md_signed sn)) "targets.json" with
      | Some f, Some (Some g) => served files (url_of c "snapshot" (fmt_dec (mf_version f))) dsn && served files (url_of c "targets" (fmt_dec (mf_version g))) dtg
      | _, _ => false
      end
  | _, _ => false
  end.
Lemma named_check c files r0 r now P : named_b c files (pub_timestamp P) (pub_snapshot P) (pub_targets P) = true -> honest r0 r now P ->
  find_file files (url_of c "snapshot" (fmt_dec (mf_version (pub_snapshot_info P)))) = Some (pub_snapshot P) /\ find_file files (url_of c "targets" (fmt_dec (mf_version (pub_targets_info P)))) = Some (pub_targets P).
Proof.
  intros Hb (_ & _ & ([Ht _] & _) & (Hn & _) & ([Hs _] & _) & (Hl & _) & _). unfold named_b in Hb. rewrite Ht, Hs in Hb. apply snapshot_meta_spec in Hn. apply lists_file_mget in Hl. rewrite Hn, Hl in Hb. apply andb_true_iff in Hb as [H1%served_ok%serves_find H2%served_ok%serves_find]. done.
Qed.
Lemma phased_up before after T c (r : metadata root_t) P tr : (forall tr', later tr tr' -> find_file (if Nat.ltb (List.length tr') T then before else after) (url_of c "snapshot" (fmt_dec (mf_version (pub_snapshot_info P)))) = Some (pub_snapshot P) /\
    find_file (if Nat.ltb (List.length tr') T then before else after) (url_of c "targets" (fmt_dec (mf_version (pub_targets_info P)))) = Some (pub_targets P)) -> rt_consistent (md_signed r) = true ->
  stays_up (phased before after T) c r (mkRelease P ∅ []) tr.
Proof.
  intros Hf Hc. unfold stays_up, version_in_url. rewrite Hc. cbn [rel_pub rel_roles rel_files]. split; [|split; [|split]].
  - intros tr' len Hl Hlen. apply serve_found; [by apply Hf|done].
  - intros tr' len Hl Hlen. apply serve_found; [by apply Hf|done].
  - intros name f Hl. by pose proof (eq_trans (eq_sym Hl) (lookup_empty (M := gmap string) name)) as [=].
  - intros tf data H. by apply elem_of_nil in H.
Qed.
Lemma consistent_root data (r : metadata root_t) : document data r -> match from_bytes (T := root_t) data with Ok r => rt_consistent (md_signed r) | _ => false end = true -> rt_consistent (md_signed r) = true.
Proof. by intros [-> _]. Qed.
Lemma root_missing c files r0 : document (c_trusted_root c) r0 -> match from_bytes (T := root_t) (c_trusted_root c) with Ok r => missing files (url_of c "root" (fmt_dec (rt_version (md_signed r) + 1))) | _ => false end = true ->
  missing files (url_of c "root" (fmt_dec (rt_version (md_signed r0) + 1))) = true.
Proof. by intros [-> _]. Qed.
(** what is checked by computing; [old] says whether the second release is signed for the first root, too *)
Definition gen_ok c before after d2 dx ts sn tg ts' sn' tg' old : bool :=
  honest_b (("https://r/2.root.json", dx) :: before) c ex_now dx ts sn tg && honest_b after c ex_now d2 ts' sn' tg' && tail_b (c_trusted_root c) ts sn tg ex_now && Bool.eqb (tail_b (c_trusted_root c) ts' sn' tg' ex_now) old &&
  named_b c before ts sn tg && named_b c after ts sn tg && named_b c after ts' sn' tg' && served before (url_of c "timestamp" "") ts &&
  match from_bytes (T := root_t) (c_trusted_root c) with Ok r => missing before (url_of c "root" (fmt_dec (rt_version (md_signed r) + 1))) && rt_consistent (md_signed r) | _ => false end &&
  match from_bytes (T := root_t) d2 with Ok r => rt_consistent (md_signed r) | _ => false end.
Lemma documents_newer r0 r r' now P P' ds ds' : honest r0 r now P -> honest r0 r' now P' -> newer_b (pub_timestamp P) (pub_snapshot P) (pub_targets P) (pub_timestamp P') (pub_snapshot P') ds ds' = true -> newer (mkRelease P ∅ []) (mkRelease P' ∅ []).
Proof.
  intros (_ & _ & ([A1 _] & _) & (A2%snapshot_meta_spec & _) & ([A3 _] & _) & _ & ([A4 _] & _)) (_ & _ & ([B1 _] & _) & (B2%snapshot_meta_spec & _) & ([B3 _] & _) & (B4%lists_file_mget & _) & _).
  unfold newer_b. rewrite A1, A2, A3, A4, B1, B2, B3, B4. rewrite !andb_true_iff, !negb_true_iff, Z.ltb_lt, Z.leb_le, !Z.eqb_neq, !forallb_forall. intros [[[[[N1 N2] N3] N4] N5] _].
  split; [done|]. split; [done|]. split; [|split; [done|split; [done|]]].
  - intros file (o & Ho)%mentions_file_mget. cbn [rel_pub] in Ho. assert (In (file, o) (mlist (sn_meta (md_signed (pub_snapshot_md P))))) as Hin by (apply elem_of_list_In, mlist_elem; done). specialize (N5 _ Hin). cbn [fst snd] in N5.
    destruct o as [o|]; [|done]. destruct (mget (sn_meta (md_signed (pub_snapshot_md P'))) file) as [[n|]|] eqn:Hn; [|done..]. exists o, n. split; [by apply lists_file_mget|]. split; [by apply lists_file_mget|by apply Z.leb_le].
  - intros name f f' Hf. by pose proof (eq_trans (eq_sym Hf) (lookup_empty (M := gmap string) name)) as [=].
Qed.
Lemma gen_pieces c before after d2 dx ts sn tg ts' sn' tg' old T : gen_ok c before after d2 dx ts sn tg ts' sn' tg' old = true ->
  exists r0 r R R', document (c_trusted_root c) r0 /\ root_signs r0 "root" r0 /\ document d2 r /\ pub_timestamp (rel_pub R) = ts /\ pub_timestamp (rel_pub R') = ts' /\
    (forall start, roots_appear (phased before after T) c start r0 [(d2, r)] (lv_number T)) /\
    (forall tr, exists X, [R; R'] !! lv_number T tr = Some X /\ announces (phased before after T) c tr X /\ forall k, ((if old then 0 else lv_number T tr) <= k <= lv_number T tr)%nat ->
       sound_release c r0 (root_number r0 [(d2, r)] k) ex_now (under [(d2, r)] k X) /\ stays_up (phased before after T) c (root_number r0 [(d2, r)] k) X tr) /\
    rel_roles R = ∅ /\ rel_roles R' = ∅ /\ (newer_b ts sn tg ts' sn' [] [] = true -> newer R R').
Proof.
  unfold gen_ok. rewrite !andb_true_iff. intros [[[[[[[[[C1 C2] C3] C4] C5] C6] C7] C8] C9] C10]. apply Bool.eqb_prop in C4.
  destruct (honest_check _ _ _ _ _ _ _ C1) as (r0 & rx & m1 & m2 & m3 & f & g & A1 & A2 & A3 & A4 & A5). destruct (honest_check _ _ _ _ _ _ _ C2) as (r0' & r & m1' & m2' & m3' & f' & g' & B1 & B2 & B3 & B4 & B5).
  assert (r0' = r0) as -> by exact (document_same _ _ _ B1 A1). set (P := mkPublication _ ts _ _ _ _ _ _ _) in *. set (P' := mkPublication _ ts' _ _ _ _ _ _ _) in *.
  assert (document d2 r) as Hr by (destruct B3 as (Hu & _); exact (newest_document _ _ _ _ _ Hu)). pose proof (consistent_root _ _ Hr C10) as Hc.
  destruct (A1) as [Er0 _]. rewrite Er0 in C9. apply andb_true_iff in C9 as [C9 Hc0].
  pose proof (named_check c _ _ _ _ P C5 A3) as N1. pose proof (named_check c _ _ _ _ P C6 A3) as N2. pose proof (named_check c _ _ _ _ P' C7 B3) as N3.
  pose proof (tail_check c r0 rx ex_now _ P [(d2, r)] C3 A1 (honest_sound _ _ _ _ _ _ A3 A4 A5)) as S0.
  pose proof (honest_sound _ _ _ _ _ _ B3 B4 B5) as S1.
  assert (forall s tr, rt_consistent (md_signed s) = true -> stays_up (phased before after T) c s (mkRelease P ∅ []) tr) as U0.
  { intros s tr Hs. apply phased_up; [|exact Hs]. intros tr' _. by destruct (Nat.ltb (List.length tr') T). }
  assert (forall s tr, rt_consistent (md_signed s) = true -> Nat.ltb (List.length tr) T = false -> stays_up (phased before after T) c s (mkRelease P' ∅ []) tr) as U1.
  { intros s tr Hs Ht. apply phased_up; [|exact Hs]. intros tr' (evs & ->). apply Nat.ltb_ge in Ht. rewrite app_length. by rewrite (proj2 (Nat.ltb_ge _ _)) by lia. }
  assert (forall start, roots_appear (phased before after T) c start r0 [(d2, r)] (lv_number T)) as Hra by (intros start; apply (phased_roots before after T c start r0 r d2 P'); [apply B3|done|exact B4|exact B5|exact C9]).
  assert (forall tr, Nat.ltb (List.length tr) T = true -> announces (phased before after T) c tr (mkRelease P ∅ [])) as An0.
  { intros tr Ht len Hlen. unfold phased; cbn [e_net]. rewrite Ht. apply serve_found; [|exact Hlen]. apply served_ok, serves_find in C8. exact C8. }
  assert (forall tr, Nat.ltb (List.length tr) T = false -> announces (phased before after T) c tr (mkRelease P' ∅ [])) as An1.
  { intros tr Ht len Hlen. unfold phased; cbn [e_net]. rewrite Ht. apply serve_found; [|exact Hlen]. destruct B4 as (_ & _ & [_ Hs] & _). by apply serves_find in Hs. }
  exists r0, r, (mkRelease P ∅ []), (mkRelease P' ∅ []). do 5 (split; [done|]). split; [exact Hra|]. split.
  - intros tr. unfold lv_number. destruct (Nat.ltb (List.length tr) T) eqn:Ht.
    + exists (mkRelease P ∅ []). split; [done|]. split; [by apply An0|]. intros k Hk. replace k with 0%nat by (destruct old; lia). split; [exact S0|by apply U0].
    + exists (mkRelease P' ∅ []). split; [done|]. split; [by apply An1|]. intros [|[|k]] Hk; [| |lia]; (split; [|by apply U1]); [|exact S1]. destruct old; [|lia]. exact (tail_check c r0 r ex_now _ P' [(d2, r)] C4 A1 S1).
  - split; [done|]. split; [done|]. intros Hn. apply (documents_newer r0 rx r ex_now P P' [] []); done.
Qed.
Lemma gen_check c before after d2 dx ts sn tg ts' sn' tg' old T start : gen_ok c before after d2 dx ts sn tg ts' sn' tg' old = true ->
  exists r0 r R R', document (c_trusted_root c) r0 /\ root_signs r0 "root" r0 /\ document d2 r /\ pub_timestamp (rel_pub R) = ts /\ pub_timestamp (rel_pub R') = ts' /\
    rotating_at_once (phased before after T) c start r0 [(d2, r)] (lv_number T) ex_now [R; R'] /\ (old = true -> rotating (phased before after T) c start r0 [(d2, r)] (lv_number T) ex_now [R; R']).
Proof.
  intros Hb. destruct (gen_pieces c before after d2 dx ts sn tg ts' sn' tg' old T Hb) as (r0 & r & R & R' & H1 & H2 & H3 & H4 & H5 & H6 & H7 & _). exists r0, r, R, R'. do 5 (split; [done|]). split.
  - split; [apply H6|]. intros tr _. destruct (H7 tr) as (X & HX & Ha & Hs). exists X. split; [by eapply elem_of_list_lookup_2|]. split; [done|]. apply Hs. destruct old; lia.
  - intros ->. split; [apply H6|]. intros tr _. destruct (H7 tr) as (X & HX & Ha & Hs). exists X. split; [by eapply elem_of_list_lookup_2|]. split; [done|]. intros k Hk. apply Hs. lia.
Qed.
(** Release 4, for root 1, and after [T] events root 2, in which the timestamp role has another key, and release 5 *)
Definition ro_stamp (pks : list pubkey) : metadata timestamp_t :=
  sign_all pks (unsigned (mkTimestamp TIMESTAMP SPECIFICATION_VERSION 5 t2030 (Some {["snapshot.json" := ex_meta 5 (bytes_of (lv_snapshot 5 "world"))]}) None)).
Definition ro_root : metadata root_t :=
  sign_all [pkA; pkB] (unsigned (mkRoot ROOT SPECIFICATION_VERSION true 2 t2030 ex_keys
    (Some (<[ROOT := ex_role [idA; idB] 2]> (<[TIMESTAMP := ex_role [idC] 1]> (<[SNAPSHOT := ex_role [idC] 1]> (<[TARGETS := ex_role [idA] 1]> ∅))))) None)).
Definition ro_files (v : Z) (data : string) : list (string * string) := [("https://r/" +:+ fmt_dec v +:+ ".snapshot.json", bytes_of (lv_snapshot v data)); ("https://r/" +:+ fmt_dec v +:+ ".targets.json", bytes_of (lv_targets v))].
Definition ro_before : list (string * string) := lv_stamp 4 "hello" :: ro_files 4 "hello".
Definition ro_after (pks : list pubkey) : list (string * string) :=
  ("https://r/2.root.json", bytes_of ro_root) :: ("https://r/timestamp.json", bytes_of (ro_stamp pks)) :: app (ro_files 5 "world") (ro_files 4 "hello").
Notation ro_env pks T := (phased ro_before (ro_after pks) T).
Lemma ro_both : gen_ok ex_config ro_before (ro_after [pkB; pkC]) (bytes_of ro_root) (bytes_of (ex_root 2)) (bytes_of (lv_timestamp 4 "hello")) (bytes_of (lv_snapshot 4 "hello")) (bytes_of (lv_targets 4))
  (bytes_of (ro_stamp [pkB; pkC])) (bytes_of (lv_snapshot 5 "world")) (bytes_of (lv_targets 5)) true = true.
Proof. vm_compute. reflexivity. Qed.
Lemma ro_new : gen_ok ex_config ro_before (ro_after [pkC]) (bytes_of ro_root) (bytes_of (ex_root 2)) (bytes_of (lv_timestamp 4 "hello")) (bytes_of (lv_snapshot 4 "hello")) (bytes_of (lv_targets 4))
  (bytes_of (ro_stamp [pkC])) (bytes_of (lv_snapshot 5 "world")) (bytes_of (lv_targets 5)) false = true.
Proof. vm_compute. reflexivity. Qed.
Lemma gen_case before after d2 dx ts sn tg ts' sn' tg' T : gen_ok ex_config before after d2 dx ts sn tg ts' sn' tg' true = true ->
  exists r0 r R R', rotating (phased before after T) ex_config (io_trace no_files) r0 [(d2, r)] (lv_number T) ex_now [R; R'] /\
  forall k, client_ready (phased before after T) ex_config r0 (root_number r0 [(d2, r)] k) ex_now (map (under [(d2, r)] k) [R; R']) no_files.
Proof.
  intros Hb. destruct (gen_check _ _ _ _ _ _ _ _ _ _ _ _ T (io_trace no_files) Hb) as (r0 & r & R & R' & H1 & H2 & _ & _ & _ & _ & H3).
  exists r0, r, R, R'. split; [exact (H3 eq_refl)|]. intros k. apply empty_ready; [exact H1|exact H2|intros tr; reflexivity|reflexivity].
Qed.
Lemma gen_calm before after d2 dx ts sn tg ts' sn' tg' : gen_ok ex_config before after d2 dx ts sn tg ts' sn' tg' false = true ->
  exists r0 r Rs, rotating_at_once (phased before after 0) ex_config (io_trace no_files) r0 [(d2, r)] (lv_number 0) ex_now Rs /\ (forall tr, later (io_trace no_files) tr -> lv_number 0 tr = lv_number 0 (io_trace no_files)) /\ lv_number 0 (io_trace no_files) = 1%nat.
Proof.
  intros Hb. destruct (gen_check _ _ _ _ _ _ _ _ _ _ _ _ 0%nat (io_trace no_files) Hb) as (r0 & r & R & R' & _ & _ & _ & _ & _ & H3 & _). exists r0, r, [R; R']. split; [exact H3|]. split; [intros tr _; reflexivity|reflexivity].
Qed.
(** all hypotheses of C125_rotates, for every moment [T]: the timestamp that appears together with the new root is
    signed with the old key and with the new one *)
Example C125_case T : exists r0 r R R', rotating (ro_env [pkB; pkC] T) ex_config (io_trace no_files) r0 [(bytes_of ro_root, r)] (lv_number T) ex_now [R; R'] /\
  forall k, client_ready (ro_env [pkB; pkC] T) ex_config r0 (root_number r0 [(bytes_of ro_root, r)] k) ex_now (map (under [(bytes_of ro_root, r)] k) [R; R']) no_files.
Proof. exact (gen_case _ _ _ _ _ _ _ _ _ _ T ro_both). Qed.
(** what the client ends up with: the versions of root, timestamp, snapshot and targets *)
Definition ro_run (pks : list pubkey) (T : nat) : option (Z * option Z * option Z * list (string * Z)) :=
  match started (ro_env pks T) ex_config no_files with
  | Some w => match refresh (ro_env pks T) ex_config w with (w1, Ok _) => Some (loaded_roles (w_trusted w1)) | _ => None end
  | None => None
  end.
(** If the new root appears before the client's root requests, it trusts root 2 and release 5; in between root 1 and
    release 5; after its timestamp request root 1 and release 4. *)
Example C125_runs : map (ro_run [pkB; pkC]) [5; 6; 7; 8]%nat =
  [Some (2, Some 5, Some 5, [("targets", 5)]); Some (1, Some 5, Some 5, [("targets", 5)]); Some (1, Some 5, Some 5, [("targets", 5)]); Some (1, Some 4, Some 4, [("targets", 4)])].
Proof. vm_compute. reflexivity. Qed.
(** It is not enough that at each moment the timestamp is correctly signed for the root that is the newest then: if root
    and timestamp are replaced at once, after the client's last root request and before its timestamp request, Refresh
    fails, although the cache was empty and nothing else happened. *)
Lemma gen_race before after d2 dx ts sn tg ts' sn' tg' T : gen_ok ex_config before after d2 dx ts sn tg ts' sn' tg' false = true ->
  (exists i' t w e, updater_new (phased before after T) ex_config ex_now no_files = (i', Ok t) /\ refresh (phased before after T) ex_config (mkWorld t i') = (w, Err e)) ->
  exists (CR : Crypto) (E : env) (c : config) (r0 : metadata root_t) (roots : list (string * metadata root_t)) (m : trace -> nat) (now : Z) (Rs : list release) (i : ios), io_disk i = ∅ /\
  rotating_at_once E c (io_trace i) r0 roots m now Rs /\ (forall k, client_ready E c r0 (root_number r0 roots k) now (map (under roots k) Rs) i) /\
  exists i' t w e, updater_new E c now i = (i', Ok t) /\ refresh E c (mkWorld t i') = (w, Err e).
Proof.
  intros Hb Hf. destruct (gen_check _ _ _ _ _ _ _ _ _ _ _ _ T (io_trace no_files) Hb) as (r0 & r & R & R' & H1 & H2 & _ & _ & _ & H3 & _).
  exists toy_crypto, (phased before after T), ex_config, r0, [(d2, r)], (lv_number T), ex_now, [R; R'], no_files. split; [reflexivity|]. split; [exact H3|]. split; [|exact Hf].
  intros k. apply empty_ready; [exact H1|exact H2|intros tr; reflexivity|reflexivity].
Qed.
Lemma ro_race : exists i' t w e, updater_new (ro_env [pkC] 6) ex_config ex_now no_files = (i', Ok t) /\ refresh (ro_env [pkC] 6) ex_config (mkWorld t i') = (w, Err e).
Proof. apply refresh_fails. vm_compute. reflexivity. Qed.
Theorem C125_race_refuted : exists (CR : Crypto) (E : env) (c : config) (r0 : metadata root_t) (roots : list (string * metadata root_t)) (m : trace -> nat) (now : Z) (Rs : list release) (i : ios), io_disk i = ∅ /\
  rotating_at_once E c (io_trace i) r0 roots m now Rs /\ (forall k, client_ready E c r0 (root_number r0 roots k) now (map (under roots k) Rs) i) /\
  exists i' t w e, updater_new E c now i = (i', Ok t) /\ refresh E c (mkWorld t i') = (w, Err e).
Proof. exact (gen_race _ _ _ _ _ _ _ _ _ _ 6%nat ro_new ro_race). Qed.
Print Assumptions C125_race_refuted.
(** the hypotheses of C125_calm: no root appears after [start] *)
Example C125_calm_case : exists r0 r Rs, rotating_at_once (ro_env [pkC] 0) ex_config (io_trace no_files) r0 [(bytes_of ro_root, r)] (lv_number 0) ex_now Rs /\ (forall tr, later (io_trace no_files) tr -> lv_number 0 tr = lv_number 0 (io_trace no_files)) /\ lv_number 0 (io_trace no_files) = 1%nat.
Proof. exact (gen_calm _ _ _ _ _ _ _ _ _ _ ro_new). Qed.
