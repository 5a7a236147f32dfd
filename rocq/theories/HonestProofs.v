(** * Proofs: an honest repository is accepted (C63, C71) *)
From stdpp Require Import base gmap strings list.
From Coq Require Import ZArith Lia Ascii String.
From Verif Require Import GoBase GoStr GoTime Types Marshal Keys Metadata TrustedMetadata Fetcher Updater SpecBasic SpecSig SpecTrusted SpecUpdater.
From Verif Require Import StrProofs PathProofs SigProofs BasicProofs TrustedProofs EventProofs UpdaterProofs WalkProofs BlockProofs ApiProofs RootProofs RefreshProofs.
Open Scope Z_scope.

Section Honest.
Context {CR : Crypto} (E : env) (c : config).

(** ** Running *)
Lemma in_int64_spec z : in_int64 z = true <-> - 2 ^ 63 <= z < 2 ^ 63.
Proof. unfold in_int64. change two63 with (2 ^ 63). rewrite andb_true_iff, Z.leb_le, Z.ltb_lt. done. Qed.
Lemma sbind_run {S A B} (m : S -> S * outcome A) (f : A -> S -> S * outcome B) s s1 a : m s = (s1, Ok a) -> sbind m f s = f a s1.
Proof. intros H. unfold sbind. by rewrite H. Qed.
Lemma satt_run {S A B} (m : S -> S * outcome A) (f : A + gerr -> S -> S * outcome B) s s1 a : m s = (s1, Ok a) -> satt m f s = f (inl a) s1.
Proof. intros H. unfold satt. by rewrite H. Qed.
Lemma satt_err {S A B} (m : S -> S * outcome A) (f : A + gerr -> S -> S * outcome B) s s1 e : m s = (s1, Err e) -> satt m f s = f (inr e) s1.
Proof. intros H. unfold satt. by rewrite H. Qed.

(** ** Persisting *)
Lemma delete_insert_twice (d : gmap string string) p x y : d !! p = None -> delete p (<[p := x]> (<[p := y]> d)) = d.
Proof. intros H. rewrite insert_insert. by apply delete_insert. Qed.
Lemma lookup_other (d : gmap string string) p q x : p <> q -> <[p := x]> d !! q = d !! q.
Proof. apply lookup_insert_ne. Qed.
Lemma lookup_same (d : gmap string string) p x : <[p := x]> d !! p = Some x.
Proof. apply lookup_insert. Qed.
Definition same_but (role : string) (d d' : disk) : Prop := forall r, r <> role -> d' !! cache_name c r = d !! cache_name c r.
Lemma persist_works role data i : disk_works E c (io_disk i) -> exists i', persist_metadata E c role data i = (i', Ok tt) /\ disk_works E c (io_disk i') /\ same_but role (io_disk i) (io_disk i').
Proof.
  intros H. unfold persist_metadata. destruct (c_disable_cache c) eqn:Ec; [exists i; split; [done|]; split; [done|by intros ? ?]|].
  destruct H as [?|(Hd1 & Hd2 & Hio & cwd & Hcwd & Htmp)]; [congruence|]. rewrite Hcwd. rewrite (sbind_run _ _ i i cwd) by done.
  set (p := cwd +:+ "/tuf_tmp" +:+ fmt_dec (e_rand E (io_trace i))).
  assert (tmp_name E p) as Hp by (by exists cwd, (e_rand E (io_trace i))).
  assert (create_temp E cwd i = (log (<[p := ""]> (io_disk i)) i (EvCreate p), Ok p)) as Hc.
  { unfold create_temp. fold p. rewrite Hio. rewrite bool_decide_true by apply Htmp. done. }
  rewrite (sbind_run _ _ _ _ _ Hc). set (i1 := log _ _ _). assert (write_file E p data i1 = (log (<[p := data]> (io_disk i1)) i1 (EvWrite p data), Ok tt)) as Hw by (unfold write_file; by rewrite Hio).
  rewrite (satt_run _ _ _ _ _ Hw). set (i2 := log _ _ _).
  assert (io_disk i2 !! p = Some data) as Hp2 by (apply lookup_same).
  unfold rename. rewrite Hp2, Hio. eexists. split; [reflexivity|]. cbn.
  assert (delete p (<[p:=data]> (<[p:=""]> (io_disk i))) = io_disk i) as Hdel.
  { apply delete_insert_twice. apply Htmp. }
  rewrite Hdel. split.
  - right. split_and!; try done. exists cwd. split; [done|]. intros n. etransitivity; [apply lookup_other|apply Htmp].
    intros Hq. symmetry in Hq. revert Hq. eapply tmp_not_cache. by exists cwd, n.
  - intros r Hr. apply lookup_other. intros Hq%cache_name_inj. congruence.
Qed.
Lemma persist_run role data w : disk_works E c (io_disk (w_io w)) -> exists i', lift (persist_metadata E c role data) w = (mkWorld (w_trusted w) i', Ok tt) /\ disk_works E c (io_disk i') /\ same_but role (io_disk (w_io w)) (io_disk i').
Proof. intros H. destruct (persist_works role data _ H) as (i' & Hp & Hd & Hs). exists i'. unfold lift. by rewrite Hp. Qed.
Lemma download_run role len v data w : serves E (url_of c role v) data -> Z.of_nat (String.length data) <= len ->
  exists i', lift (download_metadata E c role len v) w = (mkWorld (w_trusted w) i', Ok data) /\ io_disk i' = io_disk (w_io w).
Proof.
  intros Hs Hl. unfold lift, download_metadata. change (metadata_url c role v) with (url_of c role v). unfold fetch. rewrite Hs by done. eexists. split; [reflexivity|done].
Qed.

(** ** Verification *)
Lemma root_signs_ok {D} {RD : RoleTy D} r name (m : metadata D) : root_signs r name m -> verify_delegate r name m = Ok tt.
Proof. intros H. by apply verify_delegate_root_ok. Qed.
Lemma root_signs_or {D D'} {RD : RoleTy D} {RD' : RoleTy D'} r name (m : metadata D) (m' : metadata D') : root_signs r name m -> (exists p, signing_payload (md_signed m') = Ok p) ->
  (verify_delegate r name m' = Ok tt /\ root_signs r name m') \/ exists msg, verify_delegate r name m' = Err (ErrUnsignedMetadata msg).
Proof.
  intros (keys & ids & thr & Hd & (Hne & Hres & _)) [p Hp]. assert (delegation_of (md_signed r) name = Ok (mkDelegation keys ids thr)) as Hdg by (by apply (root_delegation_spec _ _ (mkDelegation keys ids thr))).
  destruct (verify_delegate r name m') as [[]|e|] eqn:Ev; [left; split; [done|]; by apply verify_delegate_root_ok| |]; right; unfold verify_delegate in Ev; rewrite Hdg in Ev; cbn [obind] in Ev; unfold verify_delegation in Ev; cbn [dg_keyids dg_keys dg_threshold] in Ev;
    (assert (exists s, verify_loop keys m' ids ∅ = Ok s) as [s Hs] by (eexists; apply verify_loop_ok; [done|]; split; [done|]; exists p; by split));
    (destruct ids as [|id0 ids]; [done|]); rewrite Hs in Ev; cbn [obind] in Ev; destruct (_ <? _); try done; injection Ev as <-; by eexists.
Qed.

(** ** The root *)
Lemma root_updates_version r l r' : root_updates r l r' -> rt_version (md_signed r') = rt_version (md_signed r) + Z.of_nat (List.length l).
Proof. induction 1 as [|r data r1 l r' _ _ _ Hv _ IH]; cbn [List.length]; [lia|]. rewrite IH, Hv. lia. Qed.
Lemma set_root_eta t : set_root t (t_root t) = t.
Proof. by destruct t. Qed.
Lemma not_found_status e : not_found e -> http_status e = Some 404 \/ http_status e = Some 403.
Proof. intros [H|H]; apply http_status_spec in H; auto. Qed.
Lemma root_loop_honest l : forall fuel w r', root_updates (t_root (w_trusted w)) l r' -> t_timestamp (w_trusted w) = None -> (List.length l <= fuel)%nat ->
  in_int64 (rt_version (md_signed (t_root (w_trusted w)))) = true -> rt_version (md_signed (t_root (w_trusted w))) + Z.of_nat fuel < 2 ^ 63 - 1 ->
  (forall i data r1, l !! i = Some (data, r1) -> Z.of_nat (String.length data) <= c_root_max c /\ serves E (url_of c "root" (fmt_dec (rt_version (md_signed (t_root (w_trusted w))) + 1 + Z.of_nat i))) data) ->
  (forall tr len, exists e, e_net E tr (url_of c "root" (fmt_dec (rt_version (md_signed r') + 1))) len = Err e /\ not_found e) -> disk_works E c (io_disk (w_io w)) ->
  exists i', root_loop E c fuel (rt_version (md_signed (t_root (w_trusted w))) + 1) w = (mkWorld (set_root (w_trusted w) r') i', Ok tt) /\ disk_works E c (io_disk i') /\ same_but "root" (io_disk (w_io w)) (io_disk i').
Proof.
  induction l as [|[data r1] l IH]; intros fuel w r' Hu Hts Hf Hr Hv Hs Hend Hd.
  - inversion Hu; subst. rewrite set_root_eta. destruct fuel as [|fuel]; cbn [root_loop]; [destruct w as [t i]; exists i; split; [done|]; split; [done|by intros ? ?]|].
    destruct (Hend (io_trace (w_io w)) (c_root_max c)) as (e & He & Hnf).
    assert (exists i', lift (download_metadata E c ROOT (c_root_max c) (fmt_dec (rt_version (md_signed (t_root (w_trusted w))) + 1))) w = (mkWorld (w_trusted w) i', Err e) /\ io_disk i' = io_disk (w_io w)) as (i' & Hrun & Hdisk).
    { unfold lift, download_metadata. change (metadata_url c ROOT) with (url_of c "root"). unfold fetch. rewrite He. eexists. split; [reflexivity|done]. }
    rewrite (satt_err _ _ _ _ _ Hrun). exists i'. rewrite Hdisk. split; [destruct (not_found_status e Hnf) as [-> | ->]; done|]. split; [done|by intros ? ?].
  - inversion Hu as [|? ? ? ? ? Hdoc Hsig1 Hsig2 Hver Hu']; subst. destruct fuel as [|fuel]; [cbn in Hf; lia|]. cbn [root_loop].
    destruct (Hs 0%nat data r1 eq_refl) as [Hl Hserve]. rewrite Z.add_0_r in Hserve.
    destruct (download_run ROOT (c_root_max c) (fmt_dec (rt_version (md_signed (t_root (w_trusted w))) + 1)) data w Hserve Hl) as (i1 & Hrun1 & Hdisk1).
    rewrite (satt_run _ _ _ _ _ Hrun1).
    apply in_int64_spec in Hr as Hr'.
    assert (on_trusted (fun t => update_root t data) (mkWorld (w_trusted w) i1) = (mkWorld (set_root (w_trusted w) r1) i1, Ok r1)) as Hrun2.
    { unfold on_trusted. cbn [w_trusted]. destruct (update_root_spec (w_trusted w) data (set_root (w_trusted w) r1) r1 Hr) as [_ Hspec]. rewrite Hspec; [done|]. split; [|by apply root_replaced_iff].
      split; [done|]. split; [done|]. split; [done|]. split; [left; lia|done]. }
    rewrite (sbind_run _ _ _ _ _ Hrun2). destruct (persist_run ROOT data (mkWorld (set_root (w_trusted w) r1) i1)) as (i3 & Hrun3 & Hw3 & Hs3); [cbn; by rewrite Hdisk1|]. rewrite (sbind_run _ _ _ _ _ Hrun3). cbn [w_trusted w_io] in *.
    assert (wrap64 (rt_version (md_signed (t_root (w_trusted w))) + 1 + 1) = rt_version (md_signed r1) + 1) as Hw by (rewrite Hver; apply wrap64_id, in_int64_spec; lia).
    rewrite Hw. destruct (IH fuel (mkWorld (set_root (w_trusted w) r1) i3) r') as (i4 & Hrun4 & Hw4 & Hs4); cbn [w_trusted w_io set_root t_root t_timestamp] in *; try done.
    + cbn in Hf; lia.
    + apply in_int64_spec. lia.
    + lia.
    + intros i d r2 Hi. destruct (Hs (S i) d r2 Hi) as [? Hx]. split; [done|]. rewrite Hver. replace (rt_version (md_signed (t_root (w_trusted w))) + 1 + 1 + Z.of_nat i) with (rt_version (md_signed (t_root (w_trusted w))) + 1 + Z.of_nat (S i)) by lia. done.
    + exists i4. rewrite Hrun4. split; [done|]. split; [done|]. intros r Hne. rewrite Hs4, Hs3 by done. by rewrite Hdisk1.
Qed.

(** ** Local files *)
Lemma local_cache role : string_all url_unreserved role = true -> plain_name role -> local_name c role = cache_name c role.
Proof.
  intros Hu Hp. rewrite local_name_plain, cache_name_plain by done. rewrite (proj2 (query_escape_id role) Hu). by rewrite !in_dir_prefix, app_assoc_s.
Qed.
Lemma local_run role w : local_name c role = cache_name c role -> exists i' r, lift (load_local E c role) w = (mkWorld (w_trusted w) i', r) /\ io_disk i' = io_disk (w_io w) /\
  ((exists data, r = Ok data /\ io_disk (w_io w) !! cache_name c role = Some data) \/ exists e, r = Err e).
Proof.
  intros Hn. unfold lift, load_local, read_file. rewrite Hn. eexists _, _. split; [reflexivity|]. split; [done|].
  destruct (io_disk (w_io w) !! cache_name c role) as [data|]; [|by right; eexists]. destruct (e_io E (io_trace (w_io w))); [left|right]; by eexists.
Qed.
Definition file_is (d : disk) (role : string) (P : string -> Prop) : Prop := forall data, d !! cache_name c role = Some data -> P data.

(** ** The timestamp *)
Lemma equal_is msg : errors_is (ErrEqualVersionNumber msg) (ErrEqualVersionNumber "") = true.
Proof. unfold errors_is, err_is_method. rewrite (bool_decide_true (ErrEqualVersionNumber "" = ErrEqualVersionNumber "")) by done. by rewrite !orb_true_r. Qed.
Lemma update_timestamp_run t data ts : t_snapshot t = None -> ~ expired_at (t_root t) (t_ref t) -> document data ts -> root_signs (t_root t) "timestamp" ts -> check_new_timestamp t ts = Ok tt ->
  exists o, update_timestamp t data = (set_timestamp t ts, o) /\ (o = Ok ts \/ expired_at ts (t_ref t) /\ exists msg, o = Err (ErrExpiredMetadata msg)).
Proof.
  intros Hsn Hx [Hb Ht] Hs Hc. unfold update_timestamp. rewrite Hsn. apply not_expired_spec in Hx. rewrite Hx, Hb. cbn [obind]. rewrite (proj2 (check_signed_type_ok ts) Ht). cbn [obind]. change TIMESTAMP with "timestamp". rewrite (root_signs_ok _ _ _ Hs). cbn [obind]. rewrite Hc. cbn [obind].
  eexists. split; [reflexivity|]. unfold check_final_timestamp. cbn. destruct (is_expired (md_signed ts) (t_ref t)) eqn:Ex; [right|by left]. split; [by apply expired_spec|by eexists].
Qed.
Lemma timestamp_tail_honest P t ts w : t_snapshot t = None -> ~ expired_at (t_root t) (t_ref t) -> document (pub_timestamp P) (pub_timestamp_md P) -> root_signs (t_root t) "timestamp" (pub_timestamp_md P) -> ~ expired_at (pub_timestamp_md P) (t_ref t) ->
  names_snapshot (pub_timestamp_md P) (pub_snapshot_info P) ->
  Z.of_nat (String.length (pub_timestamp P)) <= c_timestamp_max c -> serves E (url_of c "timestamp" "") (pub_timestamp P) -> disk_works E c (io_disk (w_io w)) ->
  w_trusted w = t \/ (w_trusted w = set_timestamp t ts /\ (ts = pub_timestamp_md P \/ (ts_version (md_signed ts) < ts_version (md_signed (pub_timestamp_md P)) /\ exists f, names_snapshot ts f /\ mf_version f <= mf_version (pub_snapshot_info P)))) ->
  t_timestamp t = None ->
  exists i', timestamp_tail E c w = (mkWorld (set_timestamp t (pub_timestamp_md P)) i', Ok tt) /\ disk_works E c (io_disk i') /\ same_but "timestamp" (io_disk (w_io w)) (io_disk i').
Proof.
  intros Hsn Hx Hd Hs Hxt Hn Hl Hserve Hw Hst Hts. unfold timestamp_tail.
  destruct (download_run TIMESTAMP (c_timestamp_max c) "" _ w Hserve Hl) as (i1 & Hrun1 & Hd1). rewrite (sbind_run _ _ _ _ _ Hrun1).
  assert ((exists o, update_timestamp (w_trusted w) (pub_timestamp P) = (set_timestamp t (pub_timestamp_md P), Ok o)) \/
    (w_trusted w = set_timestamp t (pub_timestamp_md P) /\ exists msg, update_timestamp (w_trusted w) (pub_timestamp P) = (w_trusted w, Err (ErrEqualVersionNumber msg)))) as [[o Hu]|(Ht & msg & Hu)].
  { assert (forall t', t_snapshot t' = None -> t_root t' = t_root t -> t_ref t' = t_ref t -> check_new_timestamp t' (pub_timestamp_md P) = Ok tt -> update_timestamp t' (pub_timestamp P) = (set_timestamp t' (pub_timestamp_md P), Ok (pub_timestamp_md P))) as Hgo.
    { intros t' H1 H2 H3 H4. destruct (update_timestamp_run t' (pub_timestamp P) (pub_timestamp_md P)) as (o & Ho & [-> |[Hex _]]); [done|by rewrite H2, H3|done|by rewrite H2|done|done|]. rewrite H3 in Hex. done. }
    destruct Hst as [-> |[-> [-> |(Hlt & f & Hf & Hle)]]].
    - left. eexists. apply Hgo; try done. unfold check_new_timestamp. by rewrite Hts.
    - right. split; [done|]. exists "new timestamp version equals the old one". unfold update_timestamp. cbn [set_timestamp t_snapshot t_root t_ref]. rewrite Hsn. apply not_expired_spec in Hx. rewrite Hx. destruct Hd as [Hb Ht]. rewrite Hb. cbn [obind]. rewrite (proj2 (check_signed_type_ok _) Ht). cbn [obind].
      change TIMESTAMP with "timestamp". rewrite (root_signs_ok _ _ _ Hs). cbn [obind]. unfold check_new_timestamp. cbn [set_timestamp t_timestamp]. rewrite Z.ltb_irrefl, Z.eqb_refl. done.
    - left. eexists. change (set_timestamp t (pub_timestamp_md P)) with (set_timestamp (set_timestamp t ts) (pub_timestamp_md P)). apply Hgo; try done. apply check_new_timestamp_ok. cbn. intros old [= <-]. split; [done|]. exists f, (pub_snapshot_info P). done. }
  - assert (on_trusted (fun t => update_timestamp t (pub_timestamp P)) (mkWorld (w_trusted w) i1) = (mkWorld (set_timestamp t (pub_timestamp_md P)) i1, Ok o)) as Hrun2 by (unfold on_trusted; cbn [w_trusted]; by rewrite Hu).
    rewrite (satt_run _ _ _ _ _ Hrun2). destruct (persist_run TIMESTAMP (pub_timestamp P) (mkWorld (set_timestamp t (pub_timestamp_md P)) i1)) as (i3 & Hrun3 & Hw3 & Hs3); [cbn; by rewrite Hd1|]. exists i3. rewrite Hrun3. split; [done|]. split; [done|]. cbn in Hs3. by rewrite <- Hd1.
  - assert (on_trusted (fun t => update_timestamp t (pub_timestamp P)) (mkWorld (w_trusted w) i1) = (mkWorld (w_trusted w) i1, Err (ErrEqualVersionNumber msg))) as Hrun2 by (unfold on_trusted; cbn [w_trusted]; by rewrite Hu).
    rewrite (satt_err _ _ _ _ _ Hrun2). exists i1. rewrite equal_is, Ht, Hd1. split; [reflexivity|]. split; [done|]. by intros ? ?.
Qed.
Lemma load_timestamp_honest P w : let t := w_trusted w in
  t_timestamp t = None -> t_snapshot t = None -> ~ expired_at (t_root t) (t_ref t) -> document (pub_timestamp P) (pub_timestamp_md P) -> root_signs (t_root t) "timestamp" (pub_timestamp_md P) -> ~ expired_at (pub_timestamp_md P) (t_ref t) ->
  names_snapshot (pub_timestamp_md P) (pub_snapshot_info P) ->
  Z.of_nat (String.length (pub_timestamp P)) <= c_timestamp_max c -> serves E (url_of c "timestamp" "") (pub_timestamp P) -> disk_works E c (io_disk (w_io w)) ->
  file_is (io_disk (w_io w)) "timestamp" (cached_timestamp (t_root t) P) ->
  exists i', load_timestamp E c w = (mkWorld (set_timestamp t (pub_timestamp_md P)) i', Ok tt) /\ disk_works E c (io_disk i') /\ same_but "timestamp" (io_disk (w_io w)) (io_disk i').
Proof.
  intros t Hts Hsn Hx Hd Hs Hxt Hn Hl Hserve Hw Hfile. unfold load_timestamp.
  destruct (local_run "timestamp" w) as (i1 & r & Hrun & Hd1 & [(data & -> & Hdata)|[e ->]]); [by apply local_cache| |].
  - rewrite (satt_run _ _ _ _ _ Hrun). destruct (Hfile _ Hdata) as (ts & Hdoc & Hpay & Hsig).
    assert (exists t1, (t1 = t \/ (t1 = set_timestamp t ts /\ root_signs (t_root t) "timestamp" ts)) /\
      (try r := on_trusted (fun t => update_timestamp t data) in match r with inl _ => sret tt | inr e => if errors_is e (ErrRepository "") then sret tt else sout (Err e) end) (mkWorld (w_trusted w) i1) = (mkWorld t1 i1, Ok tt)) as (t1 & Ht1 & Hrun1).
    { destruct (root_signs_or _ _ _ ts Hs Hpay) as [[Hv Hss]|[msg Hv]].
      - destruct (update_timestamp_run t data ts) as (o & Hu & Ho); try done; [unfold check_new_timestamp; by rewrite Hts|]. exists (set_timestamp t ts). split; [by right|]. unfold satt, on_trusted. cbn [w_trusted]. fold t. rewrite Hu.
        destruct Ho as [-> |(_ & msg & ->)]; done.
      - exists t. split; [by left|]. unfold satt, on_trusted. cbn [w_trusted]. fold t. assert (update_timestamp t data = (t, Err (ErrUnsignedMetadata msg))) as ->; [|done].
        unfold update_timestamp. rewrite Hsn. apply not_expired_spec in Hx. rewrite Hx. destruct Hdoc as [Hb Ht]. rewrite Hb. cbn [obind]. rewrite (proj2 (check_signed_type_ok _) Ht). cbn [obind]. change TIMESTAMP with "timestamp". by rewrite Hv. }
    rewrite (sbind_run _ _ _ _ _ Hrun1). destruct (timestamp_tail_honest P t ts (mkWorld t1 i1)) as (i2 & Hrun2 & Hw2 & Hs2); try done; [cbn; by rewrite Hd1| |].
    + cbn. destruct Ht1 as [-> |[-> Hss]]; [by left|right; split; [done|]; by apply Hsig].
    + exists i2. split; [exact Hrun2|]. split; [done|]. cbn in Hs2. by rewrite <- Hd1.
  - rewrite (satt_err _ _ _ _ _ Hrun). rewrite (sbind_run _ _ _ (mkWorld t i1) tt) by done. destruct (timestamp_tail_honest P t (pub_timestamp_md P) (mkWorld t i1)) as (i2 & Hrun2 & Hw2 & Hs2); try done; [cbn; by rewrite Hd1|by left|].
    exists i2. split; [exact Hrun2|]. split; [done|]. cbn in Hs2. by rewrite <- Hd1.
Qed.

(** ** The snapshot *)
Lemma allowed_length f data max : matches_file f data -> (mf_length f = 0 -> Z.of_nat (String.length data) <= max) -> Z.of_nat (String.length data) <= (if mf_length f =? 0 then max else mf_length f).
Proof. intros [_ [H|H]] Hm; destruct (Z.eqb_spec (mf_length f) 0); [auto|lia|auto|lia]. Qed.
Lemma upd_snapshot_run data flag t i t' o : (forall order, (forall l, order l ≡ₚ l) -> update_snapshot order t data flag = (t', o)) ->
  exists i', upd_snapshot E data flag (mkWorld t i) = (mkWorld t' i', o) /\ io_disk i' = io_disk i.
Proof.
  intros H. unfold upd_snapshot, on_trusted. cbn [w_trusted w_io]. rewrite H by (intros; apply e_order_perm). eexists. split; [reflexivity|done].
Qed.
Definition snapshot_tail : M unit :=
  do t := get_trusted in
  match t_timestamp t with
  | None => sout (Err (EOther "trusted timestamp not set"))
  | Some ts =>
      match snapshot_meta ts with
      | None => sout Panic
      | Some f =>
          let length := if mf_length f =? 0 then c_snapshot_max c else mf_length f in
          let version := if consistent t then fmt_dec (mf_version f) else "" in
          do data := lift (download_metadata E c SNAPSHOT length version) in
          do _ := upd_snapshot E data false in
          lift (persist_metadata E c SNAPSHOT data)
      end
  end.
Definition snapshot_here (t : trusted) (P : publication) : Prop :=
  t_timestamp t = Some (pub_timestamp_md P) /\ ~ expired_at (pub_timestamp_md P) (t_ref t) /\ t_targets t !! "targets" = None /\
  names_snapshot (pub_timestamp_md P) (pub_snapshot_info P) /\ matches_file (pub_snapshot_info P) (pub_snapshot P) /\ sn_version (md_signed (pub_snapshot_md P)) = mf_version (pub_snapshot_info P) /\
  document (pub_snapshot P) (pub_snapshot_md P) /\ root_signs (t_root t) "snapshot" (pub_snapshot_md P) /\ ~ expired_at (pub_snapshot_md P) (t_ref t) /\
  (mf_length (pub_snapshot_info P) = 0 -> Z.of_nat (String.length (pub_snapshot P)) <= c_snapshot_max c) /\
  serves E (url_of c "snapshot" (version_in_url (t_root t) (mf_version (pub_snapshot_info P)))) (pub_snapshot P).
Lemma snapshot_tail_honest P t w : snapshot_here t P -> t_snapshot t = None -> disk_works E c (io_disk (w_io w)) ->
  w_trusted w = t \/ (exists old, w_trusted w = set_snapshot t old /\ no_rollback old (pub_snapshot_md P)) ->
  exists i', snapshot_tail w = (mkWorld (set_snapshot t (pub_snapshot_md P)) i', Ok tt) /\ disk_works E c (io_disk i') /\ same_but "snapshot" (io_disk (w_io w)) (io_disk i').
Proof.
  intros (Hts & Hxts & Htg & Hn & Hmf & Hv & Hdoc & Hsig & Hx & Hlen & Hserve) Hsn Hw Ht.
  assert (t_timestamp (w_trusted w) = Some (pub_timestamp_md P)) as Hts' by (destruct Ht as [-> |(old & -> & _)]; done).
  assert (t_root (w_trusted w) = t_root t) as Hroot by (destruct Ht as [-> |(old & -> & _)]; done).
  unfold snapshot_tail. rewrite (sbind_run _ _ w w (w_trusted w)) by done. rewrite Hts'. rewrite (proj2 (snapshot_meta_spec _ _) Hn). cbv zeta.
  assert ((if consistent (w_trusted w) then fmt_dec (mf_version (pub_snapshot_info P)) else "") = version_in_url (t_root t) (mf_version (pub_snapshot_info P))) as -> by (unfold consistent, version_in_url; by rewrite Hroot).
  destruct (download_run "snapshot" (if mf_length (pub_snapshot_info P) =? 0 then c_snapshot_max c else mf_length (pub_snapshot_info P)) _ _ w Hserve) as (i1 & Hrun1 & Hd1); [by apply allowed_length|].
  rewrite (sbind_run _ _ _ _ _ Hrun1).
  destruct (upd_snapshot_run (pub_snapshot P) false (w_trusted w) i1 (set_snapshot t (pub_snapshot_md P)) (Ok (pub_snapshot_md P))) as (i2 & Hrun2 & Hd2).
  { intros order Ho. apply update_snapshot_spec; [done|]. split; [|split].
    - exists (pub_timestamp_md P). split; [done|].
      assert (t_targets (w_trusted w) = t_targets t /\ t_ref (w_trusted w) = t_ref t) as [-> ->] by (destruct Ht as [-> |(old & -> & _)]; done).
      split; [done|]. split; [done|]. split; [right; by exists (pub_snapshot_info P)|]. split; [done|]. split; [by rewrite Hroot|].
      intros old Hold. destruct Ht as [Ht|(old' & Ht & Hr)]; rewrite Ht in Hold; [congruence|]. cbn in Hold. injection Hold as <-. done.
    - assert (t_ref (w_trusted w) = t_ref t) as Hr by (destruct Ht as [-> |(old & -> & _)]; done). split; [by rewrite Hr|]. exists (pub_timestamp_md P), (pub_snapshot_info P). done.
    - apply snapshot_replaced_iff. destruct Ht as [-> |(old & -> & _)]; done. }
  rewrite (sbind_run _ _ _ _ _ Hrun2). destruct (persist_run SNAPSHOT (pub_snapshot P) (mkWorld (set_snapshot t (pub_snapshot_md P)) i2)) as (i3 & Hrun3 & Hw3 & Hs3); [cbn; by rewrite Hd2, Hd1|].
  exists i3. rewrite Hrun3. split; [done|]. split; [done|]. cbn in Hs3. by rewrite <- Hd1, <- Hd2.
Qed.
Lemma load_snapshot_honest P w : snapshot_here (w_trusted w) P -> t_snapshot (w_trusted w) = None -> disk_works E c (io_disk (w_io w)) ->
  file_is (io_disk (w_io w)) "snapshot" (cached_snapshot (t_root (w_trusted w)) (t_ref (w_trusted w)) P) ->
  exists i', load_snapshot E c w = (mkWorld (set_snapshot (w_trusted w) (pub_snapshot_md P)) i', Ok tt) /\ disk_works E c (io_disk i') /\ same_but "snapshot" (io_disk (w_io w)) (io_disk i').
Proof.
  intros Hh Hsn Hw Hfile. pose proof Hh as (Hts & Hxts & Htg & Hn & Hmf & Hv & Hdoc & Hsig & Hx & Hlen & Hserve). unfold load_snapshot.
  destruct (local_run "snapshot" w) as (i1 & r & Hrun & Hd1 & [(data & -> & Hdata)|[e ->]]); [by apply local_cache| |].
  - rewrite (satt_run _ _ _ _ _ Hrun). destruct (Hfile _ Hdata) as (sn & Hd & Hpay & Hhist).
    set (t := w_trusted w) in *.
    assert (exists t1 b i2, (try r := upd_snapshot E data true in match r with inl _ => sret true | inr e => if errors_is e (ErrRepository "") then sret false else sout (Err e) end) (mkWorld t i1) = (mkWorld t1 i2, Ok b) /\ io_disk i2 = io_disk i1 /\
      ((b = true /\ t1 = set_snapshot t (pub_snapshot_md P)) \/ (b = false /\ (t1 = t \/ exists old, t1 = set_snapshot t old /\ no_rollback old (pub_snapshot_md P))))) as (t1 & b & i2 & Hrun1 & Hd2 & Hb).
    { destruct (root_signs_or _ _ _ sn Hsig Hpay) as [[Hvd Hss]|[msg Hvd]].
      - assert (snapshot_ok t data true sn) as Hok.
        { exists (pub_timestamp_md P). split; [done|]. split; [done|]. split; [done|]. split; [by left|]. split; [done|]. split; [done|]. intros old Hold. congruence. }
        destruct (Hhist Hss) as [-> |(Hnr & Hold)].
        + destruct (upd_snapshot_run data true t i1 (set_snapshot t (pub_snapshot_md P)) (Ok (pub_snapshot_md P))) as (i2 & Hrun2 & Hd2).
          { intros order Ho. apply update_snapshot_spec; [done|]. split; [done|]. split; [|by apply snapshot_replaced_iff]. split; [done|]. by exists (pub_timestamp_md P), (pub_snapshot_info P). }
          exists (set_snapshot t (pub_snapshot_md P)), true, i2. rewrite (satt_run _ _ _ _ _ Hrun2). split; [done|]. split; [done|]. by left.
        + exists (set_snapshot t sn), false. eexists. unfold satt, upd_snapshot, on_trusted. cbn [w_trusted w_io].
          set (order := e_order E (option metafile) (io_trace i1)). destruct (update_snapshot_cases order t data true) as [(sn0 & Hok0 & Hfst & Hcase)|(Hno & _)]; [intros; apply e_order_perm| |by apply Hno in Hok].
          assert (sn0 = sn) as -> by (by eapply snapshot_ok_fun). destruct (update_snapshot order t data true) as [t2 o2]. cbn [fst snd] in Hfst, Hcase. subst t2.
          destruct Hcase as [[(Hnx & ts0 & f0 & Hts0 & Hn0 & Hv0) _]|[(_ & msg & ->)|[(_ & _ & msg & ->)|(_ & (ts0 & Hts0 & Hnn) & _)]]].
          * exfalso. rewrite Hts in Hts0. injection Hts0 as <-. apply snapshot_meta_spec in Hn0, Hn. rewrite Hn in Hn0. injection Hn0 as <-. destruct Hold; done.
          * split; [reflexivity|]. split; [done|]. right. split; [done|]. right. by exists sn.
          * split; [reflexivity|]. split; [done|]. right. split; [done|]. right. by exists sn.
          * exfalso. rewrite Hts in Hts0. injection Hts0 as <-. by apply Hnn in Hn.
      - destruct (upd_snapshot_run data true t i1 t (Err (ErrUnsignedMetadata msg))) as (i2 & Hrun2 & Hd2).
        { intros order Ho. unfold update_snapshot. rewrite Hts. unfold TARGETS. rewrite Htg. unfold check_final_timestamp. rewrite Hts. apply not_expired_spec in Hxts. rewrite Hxts. cbn [obind]. destruct Hd as [Hb Ht]. rewrite Hb. cbn [obind].
          rewrite (proj2 (check_signed_type_ok _) Ht). cbn [obind]. change SNAPSHOT with "snapshot". by rewrite Hvd. }
        exists t, false, i2. rewrite (satt_err _ _ _ _ _ Hrun2). split; [done|]. split; [done|]. right. split; [done|by left]. }
    rewrite (sbind_run _ _ _ _ _ Hrun1). destruct Hb as [[-> ->]|[-> Ht1]].
    + exists i2. rewrite Hd2, Hd1. split; [reflexivity|]. split; [done|by intros ? ?].
    + destruct (snapshot_tail_honest P t (mkWorld t1 i2)) as (i3 & Hrun3 & Hw3 & Hs3); [done|done|cbn; by rewrite Hd2, Hd1|done|]. exists i3. split; [exact Hrun3|]. split; [done|]. cbn in Hs3. by rewrite <- Hd1, <- Hd2.
  - rewrite (satt_err _ _ _ _ _ Hrun). rewrite (sbind_run _ _ _ (mkWorld (w_trusted w) i1) false) by done.
    destruct (snapshot_tail_honest P (w_trusted w) (mkWorld (w_trusted w) i1)) as (i3 & Hrun3 & Hw3 & Hs3); [done|done|cbn; by rewrite Hd1|by left|]. exists i3. split; [exact Hrun3|]. split; [done|]. cbn in Hs3. by rewrite <- Hd1.
Qed.

(** ** The targets *)
Definition targets_here (t : trusted) (P : publication) : Prop :=
  t_timestamp t = Some (pub_timestamp_md P) /\ t_snapshot t = Some (pub_snapshot_md P) /\ t_targets t = ∅ /\
  names_snapshot (pub_timestamp_md P) (pub_snapshot_info P) /\ sn_version (md_signed (pub_snapshot_md P)) = mf_version (pub_snapshot_info P) /\ ~ expired_at (pub_snapshot_md P) (t_ref t) /\
  lists_file (pub_snapshot_md P) "targets.json" (pub_targets_info P) /\ matches_file (pub_targets_info P) (pub_targets P) /\ tg_version (md_signed (pub_targets_md P)) = mf_version (pub_targets_info P) /\
  document (pub_targets P) (pub_targets_md P) /\ root_signs (t_root t) "targets" (pub_targets_md P) /\ ~ expired_at (pub_targets_md P) (t_ref t) /\
  (mf_length (pub_targets_info P) = 0 -> Z.of_nat (String.length (pub_targets P)) <= c_targets_max c) /\
  serves E (url_of c "targets" (version_in_url (t_root t) (mf_version (pub_targets_info P)))) (pub_targets P).
Definition targets_tail : M (metadata targets_t) :=
  do t := get_trusted in
  match t_snapshot t with
  | None => sout (Err (EOther "trusted snapshot not set"))
  | Some sn =>
      match mget (sn_meta (md_signed sn)) (json_of TARGETS) with
      | Some (Some f) =>
          let length := if mf_length f =? 0 then c_targets_max c else mf_length f in
          let version := if consistent t then fmt_dec (mf_version f) else "" in
          do data := lift (download_metadata E c TARGETS length version) in
          do m := on_trusted (fun t => update_delegated_targets t data TARGETS ROOT) in
          do _ := lift (persist_metadata E c TARGETS data) in
          sret m
      | _ => sout Panic
      end
  end.
Lemma targets_tail_honest P t i : targets_here t P -> disk_works E c (io_disk i) ->
  exists i', targets_tail (mkWorld t i) = (mkWorld (set_targets t "targets" (pub_targets_md P)) i', Ok (pub_targets_md P)) /\ disk_works E c (io_disk i') /\ same_but "targets" (io_disk i) (io_disk i').
Proof.
  intros (Hts & Hsn & Htg & Hn & Hvs & Hxs & Hl & Hmf & Hv & Hdoc & Hsig & Hx & Hlen & Hserve) Hw.
  unfold targets_tail. rewrite (sbind_run _ _ (mkWorld t i) (mkWorld t i) t) by done. rewrite Hsn. change (json_of TARGETS) with "targets.json". rewrite (proj1 (lists_file_mget _ _ _) Hl). cbv zeta.
  change (if consistent t then fmt_dec (mf_version (pub_targets_info P)) else "") with (version_in_url (t_root t) (mf_version (pub_targets_info P))).
  destruct (download_run "targets" (if mf_length (pub_targets_info P) =? 0 then c_targets_max c else mf_length (pub_targets_info P)) _ _ (mkWorld t i) Hserve) as (i1 & Hrun1 & Hd1); [by apply allowed_length|].
  rewrite (sbind_run _ _ _ _ _ Hrun1).
  assert (on_trusted (fun t => update_delegated_targets t (pub_targets P) TARGETS ROOT) (mkWorld t i1) = (mkWorld (set_targets t "targets" (pub_targets_md P)) i1, Ok (pub_targets_md P))) as Hrun2.
  { unfold on_trusted. cbn [w_trusted w_io]. assert (check_new_targets t (pub_targets P) TARGETS ROOT = Ok (pub_targets_md P)) as Hc.
    { apply check_new_targets_ok. exists (pub_snapshot_md P), (pub_targets_info P). split_and!; try done; [|by left]. split; [done|]. by exists (pub_timestamp_md P), (pub_snapshot_info P). }
    unfold update_delegated_targets. by rewrite Hc. }
  cbn [w_trusted]. rewrite (sbind_run _ _ _ _ _ Hrun2). destruct (persist_run TARGETS (pub_targets P) (mkWorld (set_targets t "targets" (pub_targets_md P)) i1)) as (i3 & Hrun3 & Hw3 & Hs3); [cbn; by rewrite Hd1|].
  rewrite (sbind_run _ _ _ _ _ Hrun3). exists i3. split; [reflexivity|]. split; [done|]. cbn in Hs3, Hd1. by rewrite <- Hd1.
Qed.
Lemma load_targets_honest P w : targets_here (w_trusted w) P -> disk_works E c (io_disk (w_io w)) ->
  file_is (io_disk (w_io w)) "targets" (cached_targets (t_root (w_trusted w)) (t_ref (w_trusted w)) P) ->
  exists i', load_targets E c TARGETS ROOT w = (mkWorld (set_targets (w_trusted w) "targets" (pub_targets_md P)) i', Ok (pub_targets_md P)) /\ disk_works E c (io_disk i') /\ same_but "targets" (io_disk (w_io w)) (io_disk i').
Proof.
  intros Hh Hw Hfile. pose proof Hh as (Hts & Hsn & Htg & Hn & Hvs & Hxs & Hl & Hmf & Hv & Hdoc & Hsig & Hx & Hlen & Hserve). unfold load_targets.
  rewrite (sbind_run _ _ w w (w_trusted w)) by done. rewrite Htg, (lookup_empty (M := gmap string)). set (t := w_trusted w) in *.
  destruct (local_run "targets" w) as (i1 & r & Hrun & Hd1 & [(data & -> & Hdata)|[e ->]]); [by apply local_cache| |].
  - change (lift (load_local E c TARGETS)) with (lift (load_local E c "targets")). rewrite (satt_run _ _ _ _ _ Hrun). fold t.
    assert (final_snapshot t (pub_snapshot_md P)) as Hfin by (split; [done|]; by exists (pub_timestamp_md P), (pub_snapshot_info P)).
    assert ((exists r, update_delegated_targets t data TARGETS ROOT = (set_targets t "targets" (pub_targets_md P), Ok r) /\ r = pub_targets_md P) \/
      exists e, update_delegated_targets t data TARGETS ROOT = (t, Err e) /\ errors_is e (ErrRepository "") = true) as [(r & Hu & ->)|(e & Hu & He)].
    { unfold update_delegated_targets, check_new_targets. rewrite Hsn. rewrite (proj2 (check_final_snapshot_ok t _ Hsn) Hfin). cbn [obind]. change (negb (String.eqb ROOT ROOT)) with false. cbn [andb].
      change (json_of TARGETS) with "targets.json". rewrite (proj1 (lists_file_mget _ _ _) Hl). destruct (metafile_verify_cases (pub_targets_info P) data) as [Hmv|[msg Hmv]]; rewrite Hmv; cbn [obind]; [|right; eexists; split; [reflexivity|done]].
      apply metafile_verify_ok in Hmv. destruct (Hfile _ Hdata Hmv) as (m & Hd & Hpay & Hhist). destruct Hd as [Hb Ht]. rewrite Hb. cbn [obind]. rewrite (proj2 (check_signed_type_ok _) Ht). cbn [obind]. change (String.eqb ROOT ROOT) with true. cbn match. change TARGETS with "targets".
      destruct (root_signs_or _ _ _ m Hsig Hpay) as [[Hvd Hss]|[msg Hvd]]; fold t in Hvd; rewrite Hvd; cbn [obind]; [|right; eexists; split; [reflexivity|done]].
      destruct (Z.eqb_spec (tg_version (md_signed m)) (mf_version (pub_targets_info P))) as [Hq|Hq]; [|right; eexists; split; [reflexivity|done]].
      destruct (is_expired (md_signed m) (t_ref t)) eqn:Ex; [right; eexists; split; [reflexivity|done]|]. apply not_expired_spec in Ex. destruct (Hhist Hss) as [-> |[?|?]]; [|done|done]. left. eexists. split; [reflexivity|done]. }
    + rewrite (sbind_run _ _ _ (mkWorld (set_targets t "targets" (pub_targets_md P)) i1) (Some (pub_targets_md P))) by (unfold satt, on_trusted; cbn [w_trusted w_io]; by rewrite Hu).
      exists i1. split; [reflexivity|]. rewrite Hd1. split; [done|by intros ? ?].
    + rewrite (sbind_run _ _ _ (mkWorld t i1) None) by (unfold satt, on_trusted; cbn [w_trusted w_io]; by rewrite Hu, He).
      rewrite <- Hd1. apply (targets_tail_honest P t i1); [done|by rewrite Hd1].
  - change (lift (load_local E c TARGETS)) with (lift (load_local E c "targets")). rewrite (satt_err _ _ _ _ _ Hrun). fold t. rewrite (sbind_run _ _ _ (mkWorld t i1) None) by done. rewrite <- Hd1. apply (targets_tail_honest P t i1); [done|by rewrite Hd1].
Qed.

(** ** Refresh *)
Lemma refresh_honest r P w : honest (t_root (w_trusted w)) r (t_ref (w_trusted w)) P -> on_server E c (t_root (w_trusted w)) r P -> can_follow c (t_root (w_trusted w)) P -> disk_works E c (io_disk (w_io w)) ->
  in_int64 (rt_version (md_signed (t_root (w_trusted w)))) = true -> t_timestamp (w_trusted w) = None -> t_snapshot (w_trusted w) = None -> t_targets (w_trusted w) = ∅ ->
  file_is (io_disk (w_io w)) "timestamp" (cached_timestamp r P) -> file_is (io_disk (w_io w)) "snapshot" (cached_snapshot r (t_ref (w_trusted w)) P) -> file_is (io_disk (w_io w)) "targets" (cached_targets r (t_ref (w_trusted w)) P) ->
  exists w', refresh E c w = (w', Ok tt) /\ up_to_date r P (w_trusted w') /\ t_ref (w_trusted w') = t_ref (w_trusted w) /\ disk_works E c (io_disk (w_io w')) /\
    forall role, role <> "root" -> role <> "timestamp" -> role <> "snapshot" -> role <> "targets" -> io_disk (w_io w') !! cache_name c role = io_disk (w_io w) !! cache_name c role.
Proof.
  intros (Hu & Hxr & (Hd1 & Hs1 & Hx1) & (Hn & Hm2 & Hv2) & (Hd2 & Hs2 & Hx2) & (Hl & Hm3 & Hv3) & (Hd3 & Hs3 & Hx3)) (Hserve0 & Hend & [Hlen1 Hserve1] & [Hlen2 Hserve2] & [Hlen3 Hserve3]) (Hloc & Hrot & Hbound) Hw Hr Hts Hsn Htg Hf1 Hf2 Hf3.
  unfold refresh. rewrite Hloc. unfold online_refresh. set (t := w_trusted w) in *.
  assert (exists i1, load_root E c w = (mkWorld (set_root t r) i1, Ok tt) /\ disk_works E c (io_disk i1) /\ same_but "root" (io_disk (w_io w)) (io_disk i1)) as (i1 & Hrun1 & Hw1 & Hb1).
  { unfold load_root. fold t. apply in_int64_spec in Hr as Hr'. rewrite (wrap64_id (rt_version (md_signed (t_root t)) + 1)) by (apply in_int64_spec; lia). rewrite wrap64_id by (apply in_int64_spec; lia).
    eapply (root_loop_honest (pub_roots P)); try done; fold t; [lia|lia]. }
  rewrite (sbind_run _ _ _ _ _ Hrun1).
  assert (forall role P, role <> "root" -> file_is (io_disk (w_io w)) role P -> file_is (io_disk i1) role P) as Hk1 by (intros role Q Hne HQ data; rewrite Hb1 by done; apply HQ).
  destruct (load_timestamp_honest P (mkWorld (set_root t r) i1)) as (i2 & Hrun2 & Hw2 & Hb2); cbn [w_trusted w_io set_root t_root t_ref t_timestamp t_snapshot]; try done; [by apply Hk1|].
  rewrite (sbind_run _ _ _ _ _ Hrun2). cbn [w_trusted w_io] in *.
  assert (forall role P, role <> "timestamp" -> file_is (io_disk i1) role P -> file_is (io_disk i2) role P) as Hk2 by (intros role Q Hne HQ data; rewrite Hb2 by done; apply HQ).
  destruct (load_snapshot_honest P (mkWorld (set_timestamp (set_root t r) (pub_timestamp_md P)) i2)) as (i3 & Hrun3 & Hw3 & Hb3); cbn [w_trusted w_io set_root set_timestamp t_root t_ref t_timestamp t_snapshot t_targets]; try done; [| |].
  { split_and!; cbn; try done. by rewrite Htg. }
  { apply Hk2, Hk1; done. }
  rewrite (sbind_run _ _ _ _ _ Hrun3). cbn [w_trusted w_io] in *.
  assert (forall role P, role <> "snapshot" -> file_is (io_disk i2) role P -> file_is (io_disk i3) role P) as Hk3 by (intros role Q Hne HQ data; rewrite Hb3 by done; apply HQ).
  destruct (load_targets_honest P (mkWorld (set_snapshot (set_timestamp (set_root t r) (pub_timestamp_md P)) (pub_snapshot_md P)) i3)) as (i4 & Hrun4 & Hw4 & Hb4); cbn [w_trusted w_io set_root set_snapshot set_timestamp t_root t_ref t_timestamp t_snapshot t_targets]; try done; [|].
  { apply Hk3, Hk2, Hk1; done. }
  rewrite (sbind_run _ _ _ _ _ Hrun4). eexists. split; [reflexivity|]. split; [split; [done|]; split; [done|]; split; [done|]; cbn; rewrite Htg; done|]. split; [done|]. split; [done|].
  intros role H1 H2 H3 H4. cbn [w_io] in *. rewrite Hb4, Hb3, Hb2, Hb1 by done. done.
Qed.
Lemma new_honest r now i : document (c_trusted_root c) r -> root_signs r "root" r -> c_metadata_url c <> "" -> c_trusted_root c <> "" -> disk_works E c (io_disk i) -> 
  exists i', updater_new E c now i = (i', Ok (mkTrusted r None None ∅ now)) /\ disk_works E c (io_disk i') /\ same_but "root" (io_disk i) (io_disk i').
Proof.
  intros Hd Hs Hu1 Hu2 Hw. unfold updater_new. rewrite (proj2 (String.eqb_neq _ _) Hu1), (proj2 (String.eqb_neq _ _) Hu2). cbn [orb].
  assert (tm_new (c_trusted_root c) now = Ok (mkTrusted r None None ∅ now)) as -> by (apply tm_new_spec; by exists r).
  rewrite (sbind_run _ _ i i (mkTrusted r None None ∅ now)) by done.
  assert (exists i1, ensure_paths E c i = (i1, Ok tt) /\ io_disk i1 = io_disk i) as (i1 & Hrun1 & Hd1).
  { unfold ensure_paths. destruct (c_disable_cache c) eqn:Ec; [by exists i|]. destruct Hw as [?|(Hd1 & Hd2 & Hio & _)]; [congruence|].
    assert (forall p i, p <> "" -> exists i', mkdir_all E p i = (i', Ok tt) /\ io_disk i' = io_disk i) as Hmk.
    { intros p i0 Hp. unfold mkdir_all. rewrite (proj2 (String.eqb_neq _ _) Hp), Hio. eexists. split; [reflexivity|done]. }
    destruct (Hmk _ i Hd1) as (i1 & H1 & H1'). rewrite (sbind_run _ _ _ _ _ H1). destruct (Hmk _ i1 Hd2) as (i2 & H2 & H2'). exists i2. split; [done|]. by rewrite H2'. }
  rewrite (sbind_run _ _ _ _ _ Hrun1). destruct (persist_works ROOT (c_trusted_root c) i1) as (i2 & Hrun2 & Hw2 & Hs2); [by rewrite Hd1|]. rewrite (sbind_run _ _ _ _ _ Hrun2). exists i2. rewrite <- Hd1. done.
Qed.
(** New followed by Refresh *)
Lemma honest_session r0 r P now i : document (c_trusted_root c) r0 -> root_signs r0 "root" r0 -> c_metadata_url c <> "" -> c_trusted_root c <> "" ->
  honest r0 r now P -> on_server E c r0 r P -> can_follow c r0 P -> disk_works E c (io_disk i) ->
  file_is (io_disk i) "timestamp" (cached_timestamp r P) -> file_is (io_disk i) "snapshot" (cached_snapshot r now P) -> file_is (io_disk i) "targets" (cached_targets r now P) ->
  exists i' t w', updater_new E c now i = (i', Ok t) /\ call_api E c Refresh (mkWorld t i') = (w', Ok tt) /\ up_to_date r P (w_trusted w').
Proof.
  intros Hd Hs Hu1 Hu2 Hh Hos Hcf Hw Hf1 Hf2 Hf3. destruct (new_honest r0 now i) as (i1 & Hn & Hw1 & Hb); try done.
  assert (forall role P, role <> "root" -> file_is (io_disk i) role P -> file_is (io_disk i1) role P) as Hk1 by (intros role Q Hne HQ data; rewrite Hb by done; apply HQ).
  destruct (refresh_honest r P (mkWorld (mkTrusted r0 None None ∅ now) i1)) as (w' & Hr & Hup & _); cbn [w_trusted w_io t_root t_ref t_timestamp t_snapshot t_targets]; try done; [by eapply document_range|by apply Hk1|by apply Hk1|by apply Hk1|].
  exists i1, (mkTrusted r0 None None ∅ now), w'. done.
Qed.
End Honest.
