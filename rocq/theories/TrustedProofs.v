(** * Proofs for C38-C50 *)
From stdpp Require Import base gmap strings list.
From Coq Require Import ZArith Lia Ascii String.
From Verif Require Import GoBase GoStr Json GoTime Types Marshal Keys Metadata TrustedMetadata SpecSig SigProofs SpecBasic BasicProofs KeysProofs SpecTrusted.
Open Scope Z_scope.

(** ** Version numbers read from documents are 64-bit *)
Lemma dec_int_range j old v : dec_int j old = Ok v -> in_int64 old = true -> in_int64 v = true.
Proof.
  destruct j; cbn; try done; [by intros [= <-]|]. destruct (parse_int 10 lit) as [n|] eqn:E; cbn; [|done]. intros [= <-] _.
  apply parse_int_dec in E as (sg & d & _ & _ & _ & _ & H). unfold in_int64, two63. apply andb_true_intro. split; [apply Z.leb_le|apply Z.ltb_lt]; lia.
Qed.
Lemma root_unmarshal_range j x : root_unmarshal j = Ok x -> in_int64 (rt_version x) = true.
Proof.
  unfold root_unmarshal. destruct (decode_struct root_fields root_zero j) as [a| |] eqn:E; try done. cbn [obind].
  destruct (decode_dict j) as [dict| |]; try done. cbn [obind]. intros [= <-]. cbn.
  apply (decode_struct_inv (fun k => in_int64 (rt_version k) = true) _ _ _ _ E); [done|]. intros n f y v z Hin Hx Hy.
  unfold root_fields in Hin. repeat (apply elem_of_cons in Hin as [[= -> ->]|Hin]; [apply obind_ok in Hy as (w & Hw & Hy); injection Hy as <-; cbn; try done|]); [|by apply elem_of_nil in Hin].
  by apply dec_int_range in Hw.
Qed.
Lemma from_bytes_range (data : string) (r : metadata root_t) : from_bytes data = Ok r -> in_int64 (rt_version (md_signed r)) = true.
Proof.
  unfold from_bytes. destruct (parse_json data) as [j|]; [|done]. unfold from_json. intros H. apply obind_ok in H as (? & _ & H).
  apply obind_ok in H as (m & Hm & H). apply obind_ok in H as (? & _ & H). injection H as ->.
  unfold metadata_unmarshal in Hm. apply obind_ok in Hm as (u & _ & Hm). apply obind_ok in Hm as (d & Hd & Hm).
  destruct (mx_saved d); [done|]. injection Hm as <-. cbn.
  apply (decode_struct_inv (fun x : mdec root_t => in_int64 (rt_version (mx_signed x)) = true) _ _ _ _ Hd); [done|]. intros n f y v z Hin Hx Hy.
  unfold metadata_fields in Hin. apply elem_of_cons in Hin as [[= -> ->]|Hin].
  - apply obind_ok in Hy as (w & Hw & Hy). injection Hy as <-. cbn. by apply root_unmarshal_range in Hw.
  - apply elem_of_list_singleton in Hin as [= -> ->]. destruct v; try (injection Hy as <-; done); apply obind_ok in Hy as (w & Hw & Hy); injection Hy as <-; done.
Qed.
Lemma next_version_wrap v v' : in_int64 v = true -> next_version v v' <-> v' = wrap64 (v + 1).
Proof.
  unfold in_int64, two63, next_version. intros H. apply andb_prop in H as [H1%Z.leb_le H2%Z.ltb_lt].
  destruct (decide (v < 2 ^ 63 - 1)) as [Hv|Hv].
  - rewrite (wrap64_id (v + 1)); [lia|]. unfold in_int64, two63. apply andb_true_intro. split; [apply Z.leb_le|apply Z.ltb_lt]; lia.
  - assert (v = 2 ^ 63 - 1) as -> by lia. change (wrap64 (2 ^ 63 - 1 + 1)) with (- 2 ^ 63). lia.
Qed.

Section TrustedProofs.
Context {CR : Crypto}.

Lemma root_signs_ok {D} {RD : RoleTy D} (r : metadata root_t) name (m : metadata D) : verify_delegate r name m = Ok tt <-> root_signs r name m.
Proof. apply verify_delegate_root_ok. Qed.
Lemma targets_signs_ok {D} {RD : RoleTy D} (d : metadata targets_t) name (m : metadata D) : verify_delegate d name m = Ok tt <-> targets_signs d name m.
Proof. apply verify_delegate_targets_ok. Qed.
Lemma check_signed_type_ok {T} {RT : RoleTy T} (m : metadata T) : check_signed_type m = Ok tt <-> signed_type (md_signed m) = role_name.
Proof. unfold check_signed_type. destruct (String.eqb_spec (signed_type (md_signed m)) role_name); split; done. Qed.
Lemma expired_spec {T} {RT : RoleTy T} (m : metadata T) now : is_expired (md_signed m) now = true <-> expired_at m now.
Proof. apply after_spec. Qed.
Lemma not_expired_spec {T} {RT : RoleTy T} (m : metadata T) now : is_expired (md_signed m) now = false <-> ~ expired_at m now.
Proof. rewrite <- expired_spec. destruct (is_expired _ _); naive_solver. Qed.
Lemma unit_ok (o : outcome unit) u : o = Ok u <-> o = Ok tt.
Proof. by destruct u. Qed.
Lemma document_range (data : string) (r : metadata root_t) : document data r -> in_int64 (rt_version (md_signed r)) = true.
Proof. intros [H _]. by apply from_bytes_range in H. Qed.

(** ** New (C49) *)
Lemma tm_new_spec data now t :
  tm_new data now = Ok t <-> exists r, document data r /\ root_signs r "root" r /\ t = mkTrusted r None None ∅ now.
Proof.
  unfold tm_new, document. split.
  - intros H. apply obind_ok in H as (r & Hr & H). apply obind_ok in H as ([] & Ht & H). apply obind_ok in H as ([] & Hv & H). injection H as <-.
    exists r. split; [split; [done|by apply check_signed_type_ok]|]. split; [by apply root_signs_ok|done].
  - intros (r & [Hr Ht] & Hv & ->). rewrite Hr. cbn [obind]. apply check_signed_type_ok in Ht. rewrite Ht. cbn [obind].
    apply root_signs_ok in Hv. change ROOT with "root". by rewrite Hv.
Qed.

(** ** UpdateRoot *)
Lemma root_replaced_iff t t' r : root_replaced t t' r <-> t' = set_root t r.
Proof. split; [|by intros ->]. destruct t, t'. unfold root_replaced, set_root; cbn. intros (-> & -> & -> & -> & ->). done. Qed.
Lemma update_root_cases t data : in_int64 (rt_version (md_signed (t_root t))) = true ->
  (exists r, root_ok t data r /\ update_root t data = (set_root t r, Ok r)) \/
  ((forall r, ~ root_ok t data r) /\ fst (update_root t data) = t /\ forall r, snd (update_root t data) <> Ok r).
Proof.
  intros Hv. unfold update_root, root_ok. destruct (t_timestamp t) eqn:Ets; [right; split; [naive_solver|done]|].
  match goal with |- context [match ?o with Ok r => _ | Err _ => _ | Panic => _ end] => destruct o as [r|e|] eqn:E end.
  - left. exists r. split; [|done]. split; [done|].
    apply obind_ok in E as (r0 & H1 & E). apply obind_ok in E as ([] & H2 & E). apply obind_ok in E as ([] & H3 & E).
    destruct (Z.eqb_spec (rt_version (md_signed r0)) (wrap64 (rt_version (md_signed (t_root t)) + 1))) as [H4|]; [|done].
    apply obind_ok in E as ([] & H5 & E). injection E as ->.
    split; [split; [done|by apply check_signed_type_ok]|]. split; [by apply root_signs_ok|]. split; [by apply next_version_wrap|by apply root_signs_ok].
  - right. split; [|done]. intros r (_ & [H1 H2] & H3 & H4 & H5). rewrite H1 in E. cbn [obind] in E. apply check_signed_type_ok in H2. rewrite H2 in E. cbn [obind] in E.
    apply root_signs_ok in H3, H5. change ROOT with "root" in E. rewrite H3 in E. cbn [obind] in E. apply next_version_wrap in H4; [|done].
    rewrite (proj2 (Z.eqb_eq _ _) H4), H5 in E. done.
  - right. split; [|done]. intros r (_ & [H1 H2] & H3 & H4 & H5). rewrite H1 in E. cbn [obind] in E. apply check_signed_type_ok in H2. rewrite H2 in E. cbn [obind] in E.
    apply root_signs_ok in H3, H5. change ROOT with "root" in E. rewrite H3 in E. cbn [obind] in E. apply next_version_wrap in H4; [|done].
    rewrite (proj2 (Z.eqb_eq _ _) H4), H5 in E. done.
Qed.
Lemma update_root_spec t data t' r : in_int64 (rt_version (md_signed (t_root t))) = true ->
  update_root t data = (t', Ok r) <-> root_ok t data r /\ root_replaced t t' r.
Proof.
  intros Hv. rewrite root_replaced_iff. destruct (update_root_cases t data Hv) as [(r0 & Hr & E)|(Hn & _ & He)].
  - rewrite E. split.
    + intros [= <- <-]. done.
    + intros [H ->]. assert (r0 = r) as ->; [|done]. destruct H as (_ & [H _] & _), Hr as (_ & [Hr _] & _). congruence.
  - split; [|by intros [H _]; apply Hn in H]. intros H. rewrite H in He. by destruct (He r).
Qed.

(** ** UpdateTimestamp *)
Lemma snapshot_meta_spec ts f : snapshot_meta ts = Some f <-> names_snapshot ts f.
Proof.
  unfold snapshot_meta, names_snapshot, mget. change (json_of SNAPSHOT) with "snapshot.json". destruct (ts_meta (md_signed ts)) as [m|]; [|naive_solver].
  destruct (m !! "snapshot.json") as [[f'|]|] eqn:E; naive_solver.
Qed.
Lemma check_new_timestamp_ok t ts : check_new_timestamp t ts = Ok tt <->
  forall old, t_timestamp t = Some old -> ts_version (md_signed old) < ts_version (md_signed ts) /\
    exists fo fn, names_snapshot old fo /\ names_snapshot ts fn /\ mf_version fo <= mf_version fn.
Proof.
  unfold check_new_timestamp. setoid_rewrite <- snapshot_meta_spec. destruct (t_timestamp t) as [old|]; [|naive_solver].
  destruct (Z.ltb_spec (ts_version (md_signed ts)) (ts_version (md_signed old))) as [H|H].
  { split; [done|]. intros Hx. destruct (Hx old eq_refl) as [H1 _]. lia. }
  destruct (Z.eqb_spec (ts_version (md_signed ts)) (ts_version (md_signed old))) as [H'|H'].
  { split; [done|]. intros Hx. destruct (Hx old eq_refl) as [H1 _]. lia. }
  split.
  - destruct (snapshot_meta ts) as [n|] eqn:En, (snapshot_meta old) as [o|] eqn:Eo; try done.
    destruct (Z.ltb_spec (mf_version n) (mf_version o)); [done|]. intros _ ? [= <-]. split; [lia|]. exists o, n. done.
  - intros Hx. destruct (Hx old eq_refl) as (_ & fo & fn & -> & -> & Hf). destruct (Z.ltb_spec (mf_version fn) (mf_version fo)); [lia|done].
Qed.
Lemma timestamp_replaced_iff t t' ts : timestamp_replaced t t' ts <-> t' = set_timestamp t ts.
Proof. split; [|by intros ->]. destruct t, t'. unfold timestamp_replaced, set_timestamp; cbn. intros (-> & -> & -> & -> & ->). done. Qed.
Lemma update_timestamp_cases t data :
  (exists ts, timestamp_ok t data ts /\ fst (update_timestamp t data) = set_timestamp t ts /\
     ((~ expired_at ts (t_ref t) /\ snd (update_timestamp t data) = Ok ts) \/
      (expired_at ts (t_ref t) /\ exists msg, snd (update_timestamp t data) = Err (ErrExpiredMetadata msg)))) \/
  ((forall ts, ~ timestamp_ok t data ts) /\ fst (update_timestamp t data) = t /\ forall ts, snd (update_timestamp t data) <> Ok ts).
Proof.
  unfold update_timestamp, timestamp_ok. destruct (t_snapshot t) eqn:Es; [right; split; [naive_solver|done]|].
  destruct (is_expired (md_signed (t_root t)) (t_ref t)) eqn:Ex.
  { right. split; [|done]. apply expired_spec in Ex. naive_solver. }
  apply not_expired_spec in Ex.
  match goal with |- context [match ?o with Ok r => _ | Err _ => _ | Panic => _ end] => destruct o as [ts|e|] eqn:E end.
  - left. exists ts. apply obind_ok in E as (ts0 & H1 & E). apply obind_ok in E as ([] & H2 & E). apply obind_ok in E as ([] & H3 & E).
    apply obind_ok in E as ([] & H4 & E). injection E as ->. split.
    + split; [done|]. split; [done|]. split; [split; [done|by apply check_signed_type_ok]|]. split; [by apply root_signs_ok|by apply check_new_timestamp_ok].
    + split; [done|]. unfold check_final_timestamp. cbn [snd t_timestamp set_timestamp t_ref]. destruct (is_expired (md_signed ts) (t_ref t)) eqn:Et.
      * right. apply expired_spec in Et. split; [done|]. by eexists.
      * left. apply not_expired_spec in Et. done.
  - right. split; [|done]. intros ts (_ & _ & [H1 H2] & H3 & H4). rewrite H1 in E. cbn [obind] in E. apply check_signed_type_ok in H2. rewrite H2 in E. cbn [obind] in E.
    apply root_signs_ok in H3. change TIMESTAMP with "timestamp" in E. rewrite H3 in E. cbn [obind] in E. apply check_new_timestamp_ok in H4. by rewrite H4 in E.
  - right. split; [|done]. intros ts (_ & _ & [H1 H2] & H3 & H4). rewrite H1 in E. cbn [obind] in E. apply check_signed_type_ok in H2. rewrite H2 in E. cbn [obind] in E.
    apply root_signs_ok in H3. change TIMESTAMP with "timestamp" in E. rewrite H3 in E. cbn [obind] in E. apply check_new_timestamp_ok in H4. by rewrite H4 in E.
Qed.
Lemma timestamp_ok_fun t data ts ts' : timestamp_ok t data ts -> timestamp_ok t data ts' -> ts = ts'.
Proof. intros (_ & _ & [H _] & _) (_ & _ & [H' _] & _). congruence. Qed.
Lemma update_timestamp_spec t data t' ts :
  update_timestamp t data = (t', Ok ts) <-> timestamp_ok t data ts /\ ~ expired_at ts (t_ref t) /\ timestamp_replaced t t' ts.
Proof.
  rewrite timestamp_replaced_iff. destruct (update_timestamp_cases t data) as [(ts0 & Hok & Hs & Hr)|(Hn & _ & He)]; destruct (update_timestamp t data) as [s o]; cbn in *.
  - subst s. split.
    + intros [= <- ->]. destruct Hr as [[Hx [= ->]]|(_ & msg & ?)]; done.
    + intros (Hok' & Hx & ->). assert (ts0 = ts) as -> by (by eapply timestamp_ok_fun). destruct Hr as [[_ ->]|[? _]]; done.
  - split; [|by intros [H _]; apply Hn in H]. intros [= -> ->]. by destruct (He ts).
Qed.

(** ** UpdateSnapshot *)
Lemma check_rollback_ok new l : check_rollback new l = Ok tt <->
  forall name o, (name, o) ∈ l -> exists fo fn, o = Some fo /\ mget new name = Some (Some fn) /\ mf_version fo <= mf_version fn.
Proof.
  induction l as [|[name info] l IH]; cbn.
  - split; [|done]. intros _ name o H. by apply elem_of_nil in H.
  - destruct (mget new name) as [n|] eqn:En.
    + destruct n as [n|], info as [o|].
      * destruct (Z.ltb_spec (mf_version n) (mf_version o)) as [H|H].
        -- split; [done|]. intros Hx. destruct (Hx name (Some o)) as (fo & fn & [= <-] & Hn & Hv); [left|]. rewrite En in Hn. injection Hn as ->. lia.
        -- rewrite IH. split.
           ++ intros Hx name' o' [[= -> ->]|Hin]%elem_of_cons; [|by apply Hx]. exists o, n. done.
           ++ intros Hx name' o' Hin. apply Hx. by right.
      * split; [done|]. intros Hx. destruct (Hx name None) as (fo & fn & H & _); [left|done].
      * split; [done|]. intros Hx. destruct (Hx name (Some o)) as (fo & fn & _ & H & _); [left|]. rewrite En in H. done.
      * split; [done|]. intros Hx. destruct (Hx name None) as (fo & fn & H & _); [left|done].
    + split; [done|]. intros Hx. destruct (Hx name info) as (fo & fn & _ & H & _); [left|]. by rewrite En in H.
Qed.
Lemma lists_file_mget sn file f : lists_file sn file f <-> mget (sn_meta (md_signed sn)) file = Some (Some f).
Proof. unfold lists_file, mget. destruct (sn_meta (md_signed sn)); naive_solver. Qed.
Lemma mentions_file_mget sn file : mentions_file sn file <-> exists o, mget (sn_meta (md_signed sn)) file = Some o.
Proof. unfold mentions_file, mget. destruct (sn_meta (md_signed sn)); naive_solver. Qed.
Lemma no_rollback_ok order old new : (forall l, order l ≡ₚ l) ->
  check_rollback (sn_meta (md_signed new)) (order (mlist (sn_meta (md_signed old)))) = Ok tt <-> no_rollback old new.
Proof.
  intros Ho. rewrite check_rollback_ok. unfold no_rollback. setoid_rewrite mentions_file_mget. setoid_rewrite lists_file_mget. setoid_rewrite Ho. setoid_rewrite mlist_elem. cbn.
  split.
  - intros H file [o Hf]. destruct (H file o Hf) as (fo & fn & -> & Hn & Hv). exists fo, fn. done.
  - intros H file o Hf. destruct (H file) as (fo & fn & H1 & H2 & H3); [eauto|]. exists fo, fn. split; [congruence|done].
Qed.
Lemma check_final_timestamp_ok t : check_final_timestamp t = Ok tt <-> exists ts, t_timestamp t = Some ts /\ ~ expired_at ts (t_ref t).
Proof.
  unfold check_final_timestamp. setoid_rewrite <- not_expired_spec. destruct (t_timestamp t) as [ts|]; [|split; [done|by intros (? & ? & _)]].
  destruct (is_expired (md_signed ts) (t_ref t)) eqn:E; split; try done.
  - intros (ts' & [= <-] & E'). congruence.
  - intros _. by exists ts.
Qed.
Lemma metafile_ok ts data : metafile_verify (snapshot_meta ts) data = Ok tt <-> exists f, names_snapshot ts f /\ matches_file f data.
Proof.
  setoid_rewrite <- snapshot_meta_spec. destruct (snapshot_meta ts) as [f|].
  - rewrite metafile_verify_ok. unfold matches_file. naive_solver.
  - split; [done|]. by intros (f & ? & _).
Qed.
Lemma check_final_snapshot_ok t sn : t_snapshot t = Some sn -> check_final_snapshot t = Ok tt <-> final_snapshot t sn.
Proof.
  intros Hs. unfold check_final_snapshot, final_snapshot. rewrite Hs. setoid_rewrite <- snapshot_meta_spec. rewrite <- not_expired_spec.
  destruct (t_timestamp t) as [ts|]; [|split; [done|by intros (_ & ? & ? & ? & _)]]. destruct (is_expired (md_signed sn) (t_ref t)); [split; [done|by intros [? _]]|]. split.
  - destruct (snapshot_meta ts) as [f|] eqn:Ef; [|done]. destruct (Z.eqb_spec (sn_version (md_signed sn)) (mf_version f)); [|done]. intros _. split; [done|]. by exists ts, f.
  - intros (_ & ts' & f & [= <-] & -> & H). by rewrite (proj2 (Z.eqb_eq _ _) H).
Qed.
Lemma snapshot_replaced_iff t t' sn : snapshot_replaced t t' sn <-> t' = set_snapshot t sn.
Proof. split; [|by intros ->]. destruct t, t'. unfold snapshot_replaced, set_snapshot; cbn. intros (-> & -> & -> & -> & ->). done. Qed.
Lemma final_snapshot_set t sn : final_snapshot (set_snapshot t sn) sn <-> final_snapshot t sn.
Proof. done. Qed.
Lemma update_snapshot_cases order t data tr : (forall l, order l ≡ₚ l) ->
  (exists sn, snapshot_ok t data tr sn /\ fst (update_snapshot order t data tr) = set_snapshot t sn /\
     ((final_snapshot t sn /\ snd (update_snapshot order t data tr) = Ok sn) \/
      (expired_at sn (t_ref t) /\ exists msg, snd (update_snapshot order t data tr) = Err (ErrExpiredMetadata msg)) \/
      (~ expired_at sn (t_ref t) /\ (exists ts f, t_timestamp t = Some ts /\ names_snapshot ts f /\ sn_version (md_signed sn) <> mf_version f) /\
         exists msg, snd (update_snapshot order t data tr) = Err (ErrBadVersionNumber msg)) \/
      (~ expired_at sn (t_ref t) /\ (exists ts, t_timestamp t = Some ts /\ forall f, ~ names_snapshot ts f) /\ tr = true /\
         snd (update_snapshot order t data tr) = Panic))) \/
  ((forall sn, ~ snapshot_ok t data tr sn) /\ fst (update_snapshot order t data tr) = t /\ forall sn, snd (update_snapshot order t data tr) <> Ok sn).
Proof.
  intros Ho. unfold update_snapshot, snapshot_ok. destruct (t_timestamp t) as [ts|] eqn:Ets; [|right; split; [naive_solver|done]].
  change (t_targets t !! TARGETS) with (t_targets t !! "targets"). destruct (t_targets t !! "targets") eqn:Etg; [right; split; [naive_solver|done]|].
  match goal with |- context [match ?o with Ok r => _ | Err _ => _ | Panic => _ end] => destruct o as [sn|e|] eqn:E end.
  - left. exists sn. apply obind_ok in E as ([] & H0 & E). apply obind_ok in E as ([] & H00 & E).
    apply obind_ok in E as (sn0 & H1 & E). apply obind_ok in E as ([] & H2 & E). apply obind_ok in E as ([] & H3 & E).
    apply obind_ok in E as ([] & H4 & E). injection E as ->.
    assert (tr = true \/ (exists f, names_snapshot ts f /\ matches_file f data)) as Htr by (destruct tr; [by left|right; by apply metafile_ok]).
    split.
    + exists ts. split; [done|]. split; [done|]. split.
      { apply check_final_timestamp_ok in H0 as (ts' & Hts & H0). congruence. }
      split; [done|]. split; [split; [done|by apply check_signed_type_ok]|]. split; [by apply root_signs_ok|].
      intros old Hold. rewrite Hold in H4. by apply (no_rollback_ok order).
    + split; [done|]. cbn [fst snd]. pose proof (check_final_snapshot_ok (set_snapshot t sn) sn eq_refl) as Hf. rewrite final_snapshot_set in Hf.
      destruct (check_final_snapshot (set_snapshot t sn)) as [[]|e|] eqn:Ec; cbn [obind].
      * left. split; [by apply Hf|done].
      * right. unfold check_final_snapshot in Ec. cbn [t_snapshot set_snapshot t_timestamp t_ref] in Ec. rewrite Ets in Ec.
        destruct (is_expired (md_signed sn) (t_ref t)) eqn:Ex.
        -- left. injection Ec as <-. split; [by apply expired_spec|by eexists].
        -- right. left. apply not_expired_spec in Ex. destruct (snapshot_meta ts) as [f|] eqn:Ef; [|done]. destruct (Z.eqb_spec (sn_version (md_signed sn)) (mf_version f)); [done|].
           injection Ec as <-. split; [done|]. split; [|by eexists]. exists ts, f. split; [done|]. split; [by apply snapshot_meta_spec|done].
      * right. right. right. unfold check_final_snapshot in Ec. cbn [t_snapshot set_snapshot t_timestamp t_ref] in Ec. rewrite Ets in Ec.
        destruct (is_expired (md_signed sn) (t_ref t)) eqn:Ex; [done|]. apply not_expired_spec in Ex. split; [done|].
        destruct (snapshot_meta ts) as [f|] eqn:Ef; [destruct (Z.eqb_spec (sn_version (md_signed sn)) (mf_version f)); done|].
        assert (forall f, ~ names_snapshot ts f) as Hnf by (intros f Hx%snapshot_meta_spec; congruence). split; [by exists ts|]. split; [|done].
        destruct Htr as [|(f & Hx & _)]; [done|]. by apply Hnf in Hx.
  - right. split; [|done]. intros sn (ts' & [= <-] & _ & H0 & Htr & [H1 H2] & H3 & H4).
    rewrite (proj2 (check_final_timestamp_ok t)) in E by eauto. cbn [obind] in E.
    assert ((if tr then Ok tt else metafile_verify (snapshot_meta ts) data) = Ok tt) as Htr' by (destruct tr; [done|]; apply metafile_ok; destruct Htr; done).
    rewrite Htr' in E. cbn [obind] in E. rewrite H1 in E. cbn [obind] in E. apply check_signed_type_ok in H2. rewrite H2 in E. cbn [obind] in E.
    apply root_signs_ok in H3. change SNAPSHOT with "snapshot" in E. rewrite H3 in E. cbn [obind] in E.
    destruct (t_snapshot t) as [old|]; [|done]. rewrite (proj2 (no_rollback_ok order old sn Ho) (H4 old eq_refl)) in E. done.
  - right. split; [|done]. intros sn (ts' & [= <-] & _ & H0 & Htr & [H1 H2] & H3 & H4).
    rewrite (proj2 (check_final_timestamp_ok t)) in E by eauto. cbn [obind] in E.
    assert ((if tr then Ok tt else metafile_verify (snapshot_meta ts) data) = Ok tt) as Htr' by (destruct tr; [done|]; apply metafile_ok; destruct Htr; done).
    rewrite Htr' in E. cbn [obind] in E. rewrite H1 in E. cbn [obind] in E. apply check_signed_type_ok in H2. rewrite H2 in E. cbn [obind] in E.
    apply root_signs_ok in H3. change SNAPSHOT with "snapshot" in E. rewrite H3 in E. cbn [obind] in E.
    destruct (t_snapshot t) as [old|]; [|done]. rewrite (proj2 (no_rollback_ok order old sn Ho) (H4 old eq_refl)) in E. done.
Qed.
Lemma snapshot_ok_fun t data tr sn sn' : snapshot_ok t data tr sn -> snapshot_ok t data tr sn' -> sn = sn'.
Proof. intros (? & _ & _ & _ & _ & [H _] & _) (? & _ & _ & _ & _ & [H' _] & _). congruence. Qed.
Lemma update_snapshot_spec order t data tr t' sn : (forall l, order l ≡ₚ l) ->
  update_snapshot order t data tr = (t', Ok sn) <-> snapshot_ok t data tr sn /\ final_snapshot t sn /\ snapshot_replaced t t' sn.
Proof.
  intros Ho. rewrite snapshot_replaced_iff. destruct (update_snapshot_cases order t data tr Ho) as [(sn0 & Hok & Hs & Hr)|(Hn & _ & He)]; destruct (update_snapshot order t data tr) as [s o]; cbn in *.
  - subst s. split.
    + intros [= <- ->]. destruct Hr as [[Hx [= ->]]|[(_ & msg & ?)|[(_ & _ & msg & ?)|(_ & _ & _ & ?)]]]; done.
    + intros (Hok' & Hx & ->). assert (sn0 = sn) as -> by (by eapply snapshot_ok_fun). destruct Hx as (Hx1 & ts & f & Hts & Hf & Hv).
      destruct Hr as [[_ ->]|[[? _]|[(_ & (ts' & f' & Hts' & Hf' & Hv') & _)|(_ & (ts' & Hts' & Hf') & _)]]]; [done|done| |].
      * exfalso. assert (ts' = ts) as -> by congruence. apply snapshot_meta_spec in Hf, Hf'. congruence.
      * exfalso. assert (ts' = ts) as -> by congruence. by apply Hf' in Hf.
  - split; [|by intros [H _]; apply Hn in H]. intros [= -> ->]. by destruct (He sn).
Qed.

(** ** UpdateDelegatedTargets *)
Lemma check_new_targets_ok t data role delegator m : check_new_targets t data role delegator = Ok m <-> targets_ok t data role delegator m.
Proof.
  unfold check_new_targets, targets_ok. change ROOT with "root". change (json_of role) with (String.append role ".json"). split.
  - destruct (t_snapshot t) as [sn|] eqn:Es; [|done]. intros H. apply obind_ok in H as ([] & H0 & H).
    destruct (negb (String.eqb delegator "root") && negb (bool_decide (is_Some (t_targets t !! delegator)))) eqn:Ed; [done|].
    destruct (mget (sn_meta (md_signed sn)) (role +:+ ".json")) as [info|] eqn:Ei; [|done].
    apply obind_ok in H as ([] & H1 & H). apply obind_ok in H as (m' & H2 & H). apply obind_ok in H as ([] & H3 & H). apply obind_ok in H as ([] & H4 & H).
    destruct info as [f|]; [|done]. destruct (Z.eqb_spec (tg_version (md_signed m')) (mf_version f)) as [H5|]; [|done].
    destruct (is_expired (md_signed m') (t_ref t)) eqn:Ex; [done|]. injection H as ->.
    exists sn, f. split; [done|]. split; [by apply check_final_snapshot_ok|]. split; [by apply lists_file_mget|]. split; [by apply metafile_verify_ok|].
    split; [split; [done|by apply check_signed_type_ok]|]. split; [|split; [done|by apply not_expired_spec]].
    destruct (String.eqb_spec delegator "root") as [->|Hd].
    + left. split; [done|by apply root_signs_ok].
    + right. split; [done|]. destruct (t_targets t !! delegator) as [d|]; [|done]. exists d. split; [done|by apply targets_signs_ok].
  - intros (sn & f & Hs & Hf & Hl & Hm & [H1 H2] & Hd & Hv & Hx). rewrite Hs. apply (check_final_snapshot_ok t sn Hs) in Hf. rewrite Hf. cbn [obind].
    apply lists_file_mget in Hl. apply metafile_verify_ok in Hm. apply check_signed_type_ok in H2. apply not_expired_spec in Hx.
    destruct Hd as [[-> Hd]|(Hne & d & Hd1 & Hd)].
    + rewrite String.eqb_refl. cbn [negb andb]. rewrite Hl, Hm. cbn [obind]. rewrite H1. cbn [obind]. rewrite H2. cbn [obind]. apply root_signs_ok in Hd. rewrite Hd. cbn [obind].
      by rewrite (proj2 (Z.eqb_eq _ _) Hv), Hx.
    + apply String.eqb_neq in Hne. rewrite Hne, Hd1. cbn [negb andb]. rewrite bool_decide_eq_true_2 by done. cbn [negb]. rewrite Hl, Hm. cbn [obind]. rewrite H1. cbn [obind]. rewrite H2. cbn [obind].
      apply targets_signs_ok in Hd. rewrite Hd. cbn [obind]. by rewrite (proj2 (Z.eqb_eq _ _) Hv), Hx.
Qed.
Lemma targets_replaced_iff t t' role m : targets_replaced t t' role m <-> t' = set_targets t role m.
Proof.
  unfold targets_replaced. split.
  - destruct t, t'. unfold set_targets; cbn. intros (-> & -> & -> & -> & H1 & H2). f_equal. apply map_eq. intros i. destruct (decide (i = role)) as [->|Hi].
    + by rewrite lookup_insert.
    + rewrite lookup_insert_ne by done. by apply H2.
  - intros ->. unfold set_targets; cbn. rewrite lookup_insert. do 5 (split; [done|]). intros o Ho. by rewrite lookup_insert_ne.
Qed.
Lemma update_delegated_cases t data role delegator :
  (exists m, targets_ok t data role delegator m /\ update_delegated_targets t data role delegator = (set_targets t role m, Ok m)) \/
  ((forall m, ~ targets_ok t data role delegator m) /\ fst (update_delegated_targets t data role delegator) = t /\ forall m, snd (update_delegated_targets t data role delegator) <> Ok m).
Proof.
  unfold update_delegated_targets. setoid_rewrite <- check_new_targets_ok. destruct (check_new_targets t data role delegator) as [m|e|]; [left; by exists m|right; done..].
Qed.
Lemma targets_ok_fun t data role dl m m' : targets_ok t data role dl m -> targets_ok t data role dl m' -> m = m'.
Proof. rewrite <- !check_new_targets_ok. congruence. Qed.
Lemma update_delegated_spec t data role delegator t' m :
  update_delegated_targets t data role delegator = (t', Ok m) <-> targets_ok t data role delegator m /\ targets_replaced t t' role m.
Proof.
  rewrite targets_replaced_iff. destruct (update_delegated_cases t data role delegator) as [(m0 & Hok & E)|(Hn & _ & He)].
  - rewrite E. split; [intros [= <- <-]; done|]. intros [H ->]. assert (m0 = m) as -> by (by eapply targets_ok_fun). done.
  - split; [|by intros [H _]; apply Hn in H]. intros H. rewrite H in He. by destruct (He m).
Qed.

(** ** One call *)
Lemma perform_root t data : in_int64 (rt_version (md_signed (t_root t))) = true ->
  (exists r, root_ok t data r /\ perform t (UpdateRoot data) = (set_root t r, Ok tt)) \/
  ((forall r, ~ root_ok t data r) /\ fst (perform t (UpdateRoot data)) = t /\ snd (perform t (UpdateRoot data)) <> Ok tt).
Proof.
  intros Hv. cbn [perform]. destruct (update_root_cases t data Hv) as [(r & Hr & ->)|(Hn & Hs & He)]; [left; by exists r|right].
  destruct (update_root t data) as [s [r|e|]]; cbn in *; try done. by destruct (He r).
Qed.
Lemma fst_perform_ts t data : fst (perform t (UpdateTimestamp data)) = fst (update_timestamp t data).
Proof. cbn [perform]. by destruct (update_timestamp t data). Qed.
Lemma fst_perform_sn order t data tr : fst (perform t (UpdateSnapshot order data tr)) = fst (update_snapshot order t data tr).
Proof. cbn [perform]. by destruct (update_snapshot order t data tr). Qed.
Lemma fst_perform_tg t data r d : fst (perform t (UpdateDelegated data r d)) = fst (update_delegated_targets t data r d).
Proof. cbn [perform]. by destruct (update_delegated_targets t data r d). Qed.
Lemma fst_perform_rt t data : fst (perform t (UpdateRoot data)) = fst (update_root t data).
Proof. cbn [perform]. by destruct (update_root t data). Qed.

(** what any call does to the state *)
Lemma step_cases t c : in_int64 (rt_version (md_signed (t_root t))) = true -> proper_call c ->
  fst (perform t c) = t \/
  (exists data r, c = UpdateRoot data /\ root_ok t data r /\ fst (perform t c) = set_root t r) \/
  (exists data ts, c = UpdateTimestamp data /\ timestamp_ok t data ts /\ fst (perform t c) = set_timestamp t ts) \/
  (exists order data tr sn, c = UpdateSnapshot order data tr /\ snapshot_ok t data tr sn /\ fst (perform t c) = set_snapshot t sn) \/
  (exists data role dl m, c = UpdateDelegated data role dl /\ targets_ok t data role dl m /\ fst (perform t c) = set_targets t role m).
Proof.
  intros Hv Hc. destruct c as [data|data|order data tr|data role dl].
  - destruct (update_root_cases t data Hv) as [(r & Hr & E)|(_ & Hs & _)]; rewrite fst_perform_rt; [|by left].
    right. left. exists data, r. by rewrite E.
  - destruct (update_timestamp_cases t data) as [(ts & Hr & E & _)|(_ & Hs & _)]; rewrite fst_perform_ts; [|by left].
    right. right. left. exists data, ts. done.
  - destruct (update_snapshot_cases order t data tr Hc) as [(sn & Hr & E & _)|(_ & Hs & _)]; rewrite fst_perform_sn; [|by left].
    right. right. right. left. exists order, data, tr, sn. done.
  - destruct (update_delegated_cases t data role dl) as [(m & Hr & E)|(_ & Hs & _)]; rewrite fst_perform_tg; [|by left].
    right. right. right. right. exists data, role, dl, m. by rewrite E.
Qed.

(** ** Invariants *)
Lemma calls_inv (P : trusted -> Prop) t t' : calls t t' -> P t -> in_int64 (rt_version (md_signed (t_root t))) = true ->
  (forall s, P s -> in_int64 (rt_version (md_signed (t_root s))) = true ->
    (forall data r, root_ok s data r -> P (set_root s r)) /\
    (forall data ts, timestamp_ok s data ts -> P (set_timestamp s ts)) /\
    (forall data tr sn, snapshot_ok s data tr sn -> P (set_snapshot s sn)) /\
    (forall data role dl m, targets_ok s data role dl m -> P (set_targets s role m))) ->
  P t' /\ in_int64 (rt_version (md_signed (t_root t'))) = true.
Proof.
  intros Hc HP Hv Hs. induction Hc as [t|t t' c Hc IH Hp]; [done|]. destruct (IH HP Hv) as [HP' Hv']. destruct (Hs t' HP' Hv') as (H1 & H2 & H3 & H4).
  destruct (step_cases t' c Hv' Hp) as [->|[(data & r & _ & Hok & ->)|[(data & ts & _ & Hok & ->)|[(order & data & tr & sn & _ & Hok & ->)|(data & role & dl & m & _ & Hok & ->)]]]].
  - done.
  - split; [by eapply H1|]. destruct Hok as (_ & Hd & _). by eapply document_range.
  - split; [by eapply H2|done].
  - split; [by eapply H3|done].
  - split; [by eapply H4|done].
Qed.
Lemma new_range data now t : tm_new data now = Ok t -> in_int64 (rt_version (md_signed (t_root t))) = true.
Proof. intros (r & Hd & _ & ->)%tm_new_spec. by eapply document_range. Qed.
Lemma reachable_range t : reachable t -> in_int64 (rt_version (md_signed (t_root t))) = true.
Proof. intros (data & now & t0 & Hn & Hc). eapply (calls_inv (fun _ => True)) in Hc as [_ H]; [exact H|done|by eapply new_range|done]. Qed.
Lemma reachable_inv (P : trusted -> Prop) t : reachable t ->
  (forall data r now, document data r -> root_signs r "root" r -> P (mkTrusted r None None ∅ now)) ->
  (forall s, P s -> in_int64 (rt_version (md_signed (t_root s))) = true ->
    (forall data r, root_ok s data r -> P (set_root s r)) /\
    (forall data ts, timestamp_ok s data ts -> P (set_timestamp s ts)) /\
    (forall data tr sn, snapshot_ok s data tr sn -> P (set_snapshot s sn)) /\
    (forall data role dl m, targets_ok s data role dl m -> P (set_targets s role m))) -> P t.
Proof.
  intros (data & now & t0 & Hn & Hc) H0 Hs. pose proof (new_range _ _ _ Hn) as Hv. apply tm_new_spec in Hn as (r & Hd & Hsg & ->).
  eapply (calls_inv P) in Hc as [H _]; [exact H| |done|done]. by eapply H0.
Qed.
Lemma dcalls_calls t t' : disciplined_calls t t' -> calls t t'.
Proof. induction 1; by constructor. Qed.
Lemma disciplined_inv (P : trusted -> Prop) t0 t : disciplined_calls t0 t -> P t0 -> in_int64 (rt_version (md_signed (t_root t0))) = true ->
  (forall s, P s -> in_int64 (rt_version (md_signed (t_root s))) = true ->
    (forall data r, root_ok s data r -> P (set_root s r)) /\
    (forall data ts, timestamp_ok s data ts -> P (set_timestamp s ts)) /\
    (forall data tr sn, snapshot_ok s data tr sn -> P (set_snapshot s sn)) /\
    (forall data role dl m, targets_ok s data role dl m -> disciplined s (UpdateDelegated data role dl) -> P (set_targets s role m))) ->
  P t.
Proof.
  intros Hc HP Hv Hs. enough (P t /\ in_int64 (rt_version (md_signed (t_root t))) = true) by naive_solver.
  induction Hc as [t|t t' c Hc IH Hp Hdc]; [done|]. destruct (IH HP Hv) as [HP' Hv']. destruct (Hs t' HP' Hv') as (H1 & H2 & H3 & H4).
  destruct (step_cases t' c Hv' Hp) as [->|[(data & r & _ & Hok & ->)|[(data & ts & _ & Hok & ->)|[(order & data & tr & sn & _ & Hok & ->)|(data & role & dl & m & -> & Hok & ->)]]]].
  - done.
  - split; [by eapply H1|]. destruct Hok as (_ & Hd & _). by eapply document_range.
  - split; [by eapply H2|done].
  - split; [by eapply H3|done].
  - split; [by eapply H4|done].
Qed.

(** ** C38 *)
Lemma root_chain_calls t0 t : calls t0 t -> in_int64 (rt_version (md_signed (t_root t0))) = true -> exists n, root_chain n (t_root t0) (t_root t).
Proof.
  intros Hc Hv. eapply (calls_inv (fun t => exists n, root_chain n (t_root t0) (t_root t))) in Hc as [H _]; [exact H| |done|].
  - exists 0%nat. constructor.
  - intros s [n Hn] Hvs. cbn. split; [|by repeat split; intros; exists n]. intros data r (_ & _ & H1 & H2 & H3). exists (S n). by eapply chain_step.
Qed.
Lemma root_chain_version n r r' : root_chain n r r' -> rt_version (md_signed r) + Z.of_nat n < 2 ^ 63 ->
  rt_version (md_signed r') = rt_version (md_signed r) + Z.of_nat n.
Proof.
  induction 1 as [r|n r r1 r2 Hc IH H1 H2 [[H3 H4]|[H3 H4]]]; intros Hl; [lia| |].
  - rewrite H4, IH; lia.
  - rewrite IH in H3; lia.
Qed.

(** ** C40, C42 over histories *)
Lemma timestamp_history t t' old : calls t t' -> in_int64 (rt_version (md_signed (t_root t))) = true -> t_timestamp t = Some old ->
  exists new, t_timestamp t' = Some new /\ (new = old \/ ts_version (md_signed old) < ts_version (md_signed new)) /\
    forall fo, names_snapshot old fo -> exists fn, names_snapshot new fn /\ mf_version fo <= mf_version fn.
Proof.
  intros Hc Hv Ho. eapply (calls_inv (fun t' => exists new, t_timestamp t' = Some new /\ (new = old \/ ts_version (md_signed old) < ts_version (md_signed new)) /\
    forall fo, names_snapshot old fo -> exists fn, names_snapshot new fn /\ mf_version fo <= mf_version fn)) in Hc as [H _]; [exact H| |done|].
  - exists old. split; [done|]. split; [by left|]. intros fo Hf. exists fo. split; [done|lia].
  - intros s (new & Hn & Hver & Hf) _. cbn. split; [by intros; exists new|]. split; [|by split; intros; exists new].
    intros data ts (_ & _ & _ & _ & Hnew). destruct (Hnew new Hn) as (Hlt & fo & fn & Hfo & Hfn & Hle). exists ts. split; [done|]. split.
    + right. destruct Hver as [->|]; lia.
    + intros f0 Hf0. destruct (Hf f0 Hf0) as (f1 & Hf1 & Hle1). assert (f1 = fo) as -> by (apply snapshot_meta_spec in Hf1, Hfo; congruence). exists fn. split; [done|lia].
Qed.
Lemma no_rollback_trans a b c : no_rollback a b -> no_rollback b c -> no_rollback a c.
Proof.
  intros H1 H2 file Hm. destruct (H1 file Hm) as (o & n & Ho & Hn & Hle). destruct (H2 file) as (o' & n' & Ho' & Hn' & Hle').
  { destruct Hn as (meta & ? & ?). by exists meta, (Some n). }
  assert (o' = n) as -> by (apply lists_file_mget in Hn, Ho'; congruence). exists o, n'. split; [done|]. split; [done|lia].
Qed.
Lemma snapshot_history t t' old : calls t t' -> in_int64 (rt_version (md_signed (t_root t))) = true -> t_snapshot t = Some old ->
  exists new, t_snapshot t' = Some new /\ (new = old \/ no_rollback old new).
Proof.
  intros Hc Hv Ho. eapply (calls_inv (fun t' => exists new, t_snapshot t' = Some new /\ (new = old \/ no_rollback old new))) in Hc as [H _]; [exact H| |done|].
  - exists old. split; [done|by left].
  - intros s (new & Hn & Hor) _. cbn. split; [by intros; exists new|]. split; [by intros; exists new|]. split; [|by intros; exists new].
    intros data tr sn (ts & _ & _ & _ & _ & _ & _ & Hnr). exists sn. split; [done|]. right. destruct Hor as [->|Hor]; [by apply Hnr|]. eapply no_rollback_trans; [done|by apply Hnr].
Qed.

(** ** Unrestricted invariants: types, signatures of top-level roles, presence, expiry *)
Lemma types_inv t : reachable t -> rt_type (md_signed (t_root t)) = "root" /\
  (forall ts, t_timestamp t = Some ts -> ts_type (md_signed ts) = "timestamp") /\
  (forall sn, t_snapshot t = Some sn -> sn_type (md_signed sn) = "snapshot") /\
  (forall name m, t_targets t !! name = Some m -> tg_type (md_signed m) = "targets").
Proof.
  intros Hr. eapply (reachable_inv (fun t => rt_type (md_signed (t_root t)) = "root" /\
  (forall ts, t_timestamp t = Some ts -> ts_type (md_signed ts) = "timestamp") /\
  (forall sn, t_snapshot t = Some sn -> sn_type (md_signed sn) = "snapshot") /\
  (forall name m, t_targets t !! name = Some m -> tg_type (md_signed m) = "targets"))); [done| |].
  - cbn. intros data r now [_ Ht] _. done.
  - cbn. intros s (H1 & H2 & H3 & H4) _. repeat split; try done.
    + destruct H as (_ & [_ Ht] & _). done.
    + destruct H as (_ & _ & [_ Ht] & _). intros ? [= <-]. done.
    + destruct H as (? & _ & _ & _ & _ & [_ Ht] & _). intros ? [= <-]. done.
    + destruct H as (? & ? & _ & _ & _ & _ & [_ Ht] & _). intros name m' [[_ <-]|[_ Hl]]%lookup_insert_Some; [done|by eapply H4].
Qed.
Lemma toplevel_inv t : reachable t ->
  root_signs (t_root t) "root" (t_root t) /\
  (forall ts, t_timestamp t = Some ts -> root_signs (t_root t) "timestamp" ts /\ ~ expired_at (t_root t) (t_ref t)) /\
  (forall sn, t_snapshot t = Some sn -> root_signs (t_root t) "snapshot" sn /\ exists ts, t_timestamp t = Some ts /\ ~ expired_at ts (t_ref t)) /\
  (forall name m, t_targets t !! name = Some m -> ~ expired_at m (t_ref t) /\ is_Some (t_snapshot t)).
Proof.
  intros Hr. eapply (reachable_inv (fun t => root_signs (t_root t) "root" (t_root t) /\
  (forall ts, t_timestamp t = Some ts -> root_signs (t_root t) "timestamp" ts /\ ~ expired_at (t_root t) (t_ref t)) /\
  (forall sn, t_snapshot t = Some sn -> root_signs (t_root t) "snapshot" sn /\ exists ts, t_timestamp t = Some ts /\ ~ expired_at ts (t_ref t)) /\
  (forall name m, t_targets t !! name = Some m -> ~ expired_at m (t_ref t) /\ is_Some (t_snapshot t)))); [done| |].
  - cbn. intros data r now _ Hs. done.
  - cbn. intros s (H1 & H2 & H3 & H4) _. repeat split_and.
    + intros data r (Hn & _ & Hs1 & _ & Hs2). split; [done|]. split; [by rewrite Hn|]. split; [|done].
      intros sn Hsn. destruct (H3 sn Hsn) as (_ & ts & Hts & _). congruence.
    + intros data ts (Hn & Hx & _ & Hs & _). split; [done|]. split; [by intros ? [= <-]|]. split; [by rewrite Hn|done].
    + intros data tr sn (ts & Hts & _ & Hx & _ & _ & Hs & _). split; [done|]. split; [done|]. split; [|naive_solver]. intros ? [= <-]. split; [done|by exists ts].
    + intros data role dl m (sn & f & Hsn & _ & _ & _ & _ & _ & _ & Hx). split; [done|]. split; [done|]. split; [done|].
      intros name m' [[_ <-]|[_ Hl]]%lookup_insert_Some; [split; [done|by rewrite Hsn]|by eapply H4].
Qed.

(** ** Disciplined histories (C44, C47) *)
Definition dinv (t : trusted) : Prop :=
  (forall sn, t_snapshot t = Some sn -> is_Some (t_timestamp t)) /\
  (forall name m, t_targets t !! name = Some m -> is_Some (t_targets t !! "targets")) /\
  (forall m, t_targets t !! "targets" = Some m -> root_signs (t_root t) "targets" m) /\
  (forall name m, t_targets t !! name = Some m -> exists sn, t_snapshot t = Some sn /\ final_snapshot t sn /\ as_listed sn name m /\
      ~ expired_at m (t_ref t) /\ vouched_for t name m /\ authorised t name).
Lemma authorised_frame t t' name : authorised t name -> t_root t' = t_root t -> (forall n m, t_targets t !! n = Some m -> t_targets t' !! n = Some m) -> authorised t' name.
Proof.
  intros Ha Hr Ht. induction Ha as [name m H1 H2|d dm name m Ha IH H1 H2 H3].
  - eapply auth_root; [by apply Ht|]. by rewrite Hr.
  - eapply auth_delegated; eauto.
Qed.
Lemma dinv_disciplined t0 t : disciplined_calls t0 t -> (exists data now, tm_new data now = Ok t0) -> dinv t.
Proof.
  intros Hc (data & now & Hn). pose proof (new_range _ _ _ Hn) as Hv. apply tm_new_spec in Hn as (r & _ & _ & ->).
  apply (disciplined_inv dinv _ _ Hc); [|done|].
  { split; [done|]. split; [intros name m Hx; cbn in Hx; by rewrite lookup_empty in Hx|]. split; [intros m Hx; cbn in Hx; by rewrite lookup_empty in Hx|]. intros name m Hx. cbn in Hx. by rewrite lookup_empty in Hx. }
  clear. intros s (H0 & H1 & H2 & H3) Hv. split_and!.
  - intros data r (Hn & _). assert (forall name, t_targets s !! name = None) as Hno.
    { intros name. destruct (t_targets s !! name) as [m|] eqn:E; [|done]. destruct (H3 name m E) as (sn & Hs & _). destruct (H0 sn Hs) as [? ?]. congruence. }
    split; [done|]. split; [done|]. split; cbn; [intros m Hm; by rewrite Hno in Hm|intros name m Hm; by rewrite Hno in Hm].
  - intros data ts (Hn & _). assert (forall name, t_targets s !! name = None) as Hno.
    { intros name. destruct (t_targets s !! name) as [m|] eqn:E; [|done]. destruct (H3 name m E) as (sn & Hs & _). congruence. }
    split; [cbn; intros sn Hs; congruence|]. split; [done|]. split; cbn; [intros m Hm; by rewrite Hno in Hm|intros name m Hm; by rewrite Hno in Hm].
  - intros data tr sn (ts & Hts & Hn & _). assert (forall name, t_targets s !! name = None) as Hno.
    { intros name. destruct (t_targets s !! name) as [m|] eqn:E; [|done]. destruct (H1 name m E) as [? ?]. congruence. }
    split; [cbn; intros; by rewrite Hts|]. split; [done|]. split; cbn; [intros m Hm; by rewrite Hno in Hm|intros name m Hm; by rewrite Hno in Hm].
  - intros data role dl m (sn & f & Hsn & Hfs & Hl & Hm & Hd & Hsig & Hver & Hx) [Hnew Hroot].
    assert (forall n m', t_targets s !! n = Some m' -> t_targets (set_targets s role m) !! n = Some m') as Hkeep.
    { intros n m' Hn. cbn. rewrite lookup_insert_ne; [done|]. intros ->. congruence. }
    assert (is_Some (t_targets (set_targets s role m) !! "targets")) as Htop.
    { cbn. destruct (decide (role = "targets")) as [->|Hne]; [by rewrite lookup_insert|]. rewrite lookup_insert_ne by done.
      destruct Hsig as [[-> _]|(_ & d & Hdl & _)]; [|by eapply H1]. destruct (Hroot eq_refl); done. }
    assert (dl = "root" \/ is_Some (t_targets s !! "targets")) as Hdl.
    { destruct Hsig as [[-> _]|(_ & d & Hdl & _)]; [by left|right; by eapply H1]. }
    split; [done|]. split; [done|]. split.
    + cbn. intros m'. destruct (decide (role = "targets")) as [->|Hne].
      * rewrite lookup_insert. intros [= <-]. destruct Hsig as [[_ Hs]|(_ & d & Hd' & _)]; [done|]. destruct (H1 _ _ Hd') as [? ?]. congruence.
      * rewrite lookup_insert_ne by done. apply H2.
    + intros name m'. cbn [t_targets set_targets]. intros [[<- <-]|[Hne Hl']]%lookup_insert_Some.
      * exists sn. split; [done|]. split; [done|]. split; [exists f, data; done|]. split; [done|]. split.
        -- destruct Hsig as [[_ Hs]|(_ & d & Hd' & Hs)]; [by left|right]. exists dl, d. split; [by apply Hkeep|done].
        -- destruct Hsig as [[_ Hs]|(_ & d & Hd' & Hs)].
           ++ eapply auth_root; [cbn; apply lookup_insert|done].
           ++ destruct (H3 _ _ Hd') as (? & _ & _ & _ & _ & _ & Ha). eapply auth_delegated; [by eapply authorised_frame|by apply Hkeep|cbn; apply lookup_insert|done].
      * destruct (H3 name m' Hl') as (sn' & Hs' & Hf' & Hal & Hx' & Hvf & Ha). exists sn'. split; [done|]. split; [done|]. split; [done|]. split; [done|]. split.
        -- destruct Hvf as [Hs|(d & dm & Hd1 & Hd2)]; [by left|right; exists d, dm; split; [by apply Hkeep|done]].
        -- by eapply authorised_frame.
Qed.

(** ** No panic (C48) *)
Lemma verify_root_np {D} {RD : RoleTy D} {NP : NoPanic D} (r : metadata root_t) name (m : metadata D) : proper_root r -> verify_delegate r name m <> Panic.
Proof.
  intros [Hr [Hk Hp]]. unfold verify_delegate. apply obind_no_panic.
  - unfold delegation_of, root_delegator, root_delegation. specialize (Hr name). destruct (mget (rt_roles (md_signed r)) name) as [[x|]|]; done.
  - intros dg Hdg. apply root_delegation_spec in Hdg as (roles & x & _ & _ & Heq & _).
    apply verify_delegation_no_panic; rewrite ?Heq; [apply signing_payload_no_panic|auto|intros; by eapply Hp].
Qed.
Lemma verify_targets_np {D} {RD : RoleTy D} {NP : NoPanic D} (x : metadata targets_t) name (m : metadata D) : proper_targets x -> verify_delegate x name m <> Panic.
Proof.
  intros Hx. unfold verify_delegate, delegation_of, targets_delegator, targets_delegation.
  destruct (tg_delegations (md_signed x)) as [d|] eqn:Ed; [|done]. destruct (Hx d Ed) as [Hk Hp].
  assert (forall ids thr, verify_delegation (mkDelegation (d_keys d) ids thr) m <> Panic) as Hv.
  { intros ids thr. apply verify_delegation_no_panic; cbn; [apply signing_payload_no_panic|auto|intros; by eapply Hp]. }
  destruct (d_roles d) as [l|]; [destruct (find_role l name)|destruct (d_succinct d)]; cbn; try done; apply Hv.
Qed.
Lemma check_signed_type_np {T} {RT : RoleTy T} (m : metadata T) : check_signed_type m <> Panic.
Proof. unfold check_signed_type. by destruct (String.eqb _ _). Qed.
Lemma metafile_verify_np f data : metafile_verify (Some f) data <> Panic.
Proof. destruct (metafile_verify_cases f data) as [->|[msg ->]]; done. Qed.
Lemma tm_new_np data now : from_bytes (T := root_t) data <> Panic -> (forall r, from_bytes data = Ok r -> proper_root r) -> tm_new data now <> Panic.
Proof.
  intros H1 H2. unfold tm_new. apply obind_no_panic; [done|]. intros r Hr. apply obind_no_panic; [apply check_signed_type_np|]. intros _ _.
  apply obind_no_panic; [by apply verify_root_np, H2|done].
Qed.
Lemma update_root_np t data : from_bytes (T := root_t) data <> Panic -> (forall r, from_bytes data = Ok r -> proper_root r) -> proper_root (t_root t) ->
  snd (update_root t data) <> Panic.
Proof.
  intros H1 H2 Ht. unfold update_root. destruct (t_timestamp t); [done|].
  match goal with |- context [match ?o with Ok r => _ | Err _ => _ | Panic => _ end] => assert (o <> Panic) as Ho; [|by destruct o] end.
  apply obind_no_panic; [done|]. intros r Hr. apply obind_no_panic; [apply check_signed_type_np|]. intros _ _.
  apply obind_no_panic; [by apply verify_root_np|]. intros _ _. destruct (Z.eqb_spec (rt_version (md_signed r)) (wrap64 (rt_version (md_signed (t_root t)) + 1))); [|done].
  apply obind_no_panic; [by apply verify_root_np, H2|done].
Qed.
Lemma update_timestamp_np t data : from_bytes (T := timestamp_t) data <> Panic -> proper_root (t_root t) ->
  (forall old ts, t_timestamp t = Some old -> from_bytes data = Ok ts -> exists fo fn, names_snapshot old fo /\ names_snapshot ts fn) ->
  snd (update_timestamp t data) <> Panic.
Proof.
  intros H1 Ht Hn. unfold update_timestamp. destruct (t_snapshot t); [done|]. destruct (is_expired (md_signed (t_root t)) (t_ref t)); [done|].
  match goal with |- context [match ?o with Ok r => _ | Err _ => _ | Panic => _ end] => assert (o <> Panic) as Ho; [|destruct o; try done] end.
  - apply obind_no_panic; [done|]. intros ts Hts. apply obind_no_panic; [apply check_signed_type_np|]. intros _ _.
    apply obind_no_panic; [by apply verify_root_np|]. intros _ _. apply obind_no_panic; [|done].
    unfold check_new_timestamp. destruct (t_timestamp t) as [old|]; [|done]. destruct (Hn old ts eq_refl Hts) as (fo & fn & H2%snapshot_meta_spec & H3%snapshot_meta_spec). rewrite H2, H3.
    repeat match goal with |- context [if ?b then _ else _] => destruct b; try done end.
  - cbn [snd]. apply obind_no_panic; [|done]. unfold check_final_timestamp. cbn. match goal with |- context [if ?b then _ else _] => by destruct b end.
Qed.
Lemma check_rollback_np new l : (forall name o, (name, o) ∈ l -> o <> None /\ mget new name <> Some None) -> check_rollback new l <> Panic.
Proof.
  induction l as [|[name o] l IH]; intros H; [done|]. cbn. destruct (H name o) as [H1 H2]; [left|]. destruct (mget new name) as [[n|]|]; try done. destruct o as [o|]; [|done].
  destruct (mf_version n <? mf_version o); [done|]. apply IH. intros name' o' Hin. apply H. by right.
Qed.
Lemma update_snapshot_np order t data tr : (forall l, order l ≡ₚ l) -> from_bytes (T := snapshot_t) data <> Panic -> proper_root (t_root t) ->
  (forall ts, t_timestamp t = Some ts -> exists f, names_snapshot ts f) ->
  (forall old sn, t_snapshot t = Some old -> from_bytes data = Ok sn -> forall file, mget (sn_meta (md_signed old)) file <> Some None /\ mget (sn_meta (md_signed sn)) file <> Some None) ->
  snd (update_snapshot order t data tr) <> Panic.
Proof.
  intros Ho H1 Ht Hts Hn. unfold update_snapshot. destruct (t_timestamp t) as [ts|] eqn:Ets; [|done]. destruct (t_targets t !! TARGETS); [done|].
  destruct (Hts ts eq_refl) as (f & Hf). apply snapshot_meta_spec in Hf.
  match goal with |- context [match ?o with Ok r => _ | Err _ => _ | Panic => _ end] => assert (o <> Panic) as Hnp; [|destruct o; try done] end.
  - apply obind_no_panic. { unfold check_final_timestamp. rewrite Ets. match goal with |- context [if ?b then _ else _] => by destruct b end. }
    intros _ _. apply obind_no_panic. { destruct tr; [done|]. rewrite Hf. apply metafile_verify_np. } intros _ _.
    apply obind_no_panic; [done|]. intros sn Hsn. apply obind_no_panic; [apply check_signed_type_np|]. intros _ _.
    apply obind_no_panic; [by apply verify_root_np|]. intros _ _. apply obind_no_panic; [|done]. destruct (t_snapshot t) as [old|]; [|done].
    apply check_rollback_np. intros name o Hin. rewrite Ho in Hin. apply mlist_elem in Hin. cbn in Hin. destruct (Hn old sn eq_refl Hsn name) as [Hx1 Hx2]. split; [|done]. intros ->. done.
  - cbn [snd]. apply obind_no_panic; [|done]. unfold check_final_snapshot. cbn. rewrite Ets, Hf. repeat match goal with |- context [if ?b then _ else _] => destruct b; try done end.
Qed.
Lemma update_delegated_np t data role dl : from_bytes (T := targets_t) data <> Panic -> proper_root (t_root t) ->
  (forall d, t_targets t !! dl = Some d -> proper_targets d) ->
  (forall sn, t_snapshot t = Some sn -> mget (sn_meta (md_signed sn)) (String.append role ".json") <> Some None /\ exists ts f, t_timestamp t = Some ts /\ names_snapshot ts f) ->
  snd (update_delegated_targets t data role dl) <> Panic.
Proof.
  intros H1 Ht Hd Hs. unfold update_delegated_targets. assert (check_new_targets t data role dl <> Panic) as Ho; [|by destruct (check_new_targets t data role dl)].
  unfold check_new_targets. destruct (t_snapshot t) as [sn|] eqn:Es; [|done]. destruct (Hs sn eq_refl) as (Hnn & ts & f & Hts & Hf). apply snapshot_meta_spec in Hf.
  apply obind_no_panic. { unfold check_final_snapshot. rewrite Es, Hts, Hf. repeat match goal with |- context [if ?b then _ else _] => destruct b; try done end. }
  intros _ _. change ROOT with "root". destruct (String.eqb_spec dl "root") as [->|Hne]; cbn [negb andb].
  - change (json_of role) with (String.append role ".json"). destruct (mget (sn_meta (md_signed sn)) (role +:+ ".json")) as [[g|]|]; try done.
    apply obind_no_panic; [apply metafile_verify_np|]. intros _ _. apply obind_no_panic; [done|]. intros m Hm. apply obind_no_panic; [apply check_signed_type_np|]. intros _ _.
    apply obind_no_panic; [by apply verify_root_np|]. intros _ _. repeat match goal with |- context [if ?b then _ else _] => destruct b; try done end.
  - destruct (t_targets t !! dl) as [d|] eqn:Ed.
    + rewrite bool_decide_eq_true_2 by done. cbn [negb]. change (json_of role) with (String.append role ".json"). destruct (mget (sn_meta (md_signed sn)) (role +:+ ".json")) as [[g|]|]; try done.
      apply obind_no_panic; [apply metafile_verify_np|]. intros _ _. apply obind_no_panic; [done|]. intros m Hm. apply obind_no_panic; [apply check_signed_type_np|]. intros _ _.
      apply obind_no_panic; [by apply verify_targets_np, Hd|]. intros _ _. repeat match goal with |- context [if ?b then _ else _] => destruct b; try done end.
    + rewrite bool_decide_eq_false_2; [done|]. by intros [? ?].
Qed.

(** ** Order of the workflow (C39), equal versions (C41), expiry (C46), failures (C45) *)
Lemma workflow_order t :
  (forall ts data, t_timestamp t = Some ts -> exists msg, update_root t data = (t, Err (ErrRuntime msg))) /\
  (forall sn data, t_snapshot t = Some sn -> exists msg, update_timestamp t data = (t, Err (ErrRuntime msg))) /\
  (forall order data tr, t_timestamp t = None \/ is_Some (t_targets t !! "targets") -> exists msg, update_snapshot order t data tr = (t, Err (ErrRuntime msg))) /\
  (forall data role dl, t_snapshot t = None -> exists msg, update_delegated_targets t data role dl = (t, Err (ErrRuntime msg))) /\
  (forall sn data role dl, t_snapshot t = Some sn -> final_snapshot t sn -> dl <> "root" -> t_targets t !! dl = None ->
     exists msg, update_delegated_targets t data role dl = (t, Err (ErrRuntime msg))).
Proof.
  split_and!.
  - intros ts data H. unfold update_root. rewrite H. by eexists.
  - intros sn data H. unfold update_timestamp. rewrite H. by eexists.
  - intros order data tr H. unfold update_snapshot. change TARGETS with "targets". destruct (t_timestamp t) as [ts|]; [|by eexists].
    destruct H as [H|[m H]]; [done|]. rewrite H. by eexists.
  - intros data role dl H. unfold update_delegated_targets, check_new_targets. rewrite H. by eexists.
  - intros sn data role dl Hs Hf Hne Hd. unfold update_delegated_targets, check_new_targets. rewrite Hs. apply (check_final_snapshot_ok t sn Hs) in Hf. rewrite Hf. cbn [obind].
    change ROOT with "root". apply String.eqb_neq in Hne. rewrite Hne, Hd. rewrite bool_decide_eq_false_2 by (by intros [? ?]). by eexists.
Qed.
Lemma unloaded_delegator t data role dl : is_Some (t_timestamp t) -> (forall ts, t_timestamp t = Some ts -> exists f, names_snapshot ts f) ->
  dl <> "root" -> t_targets t !! dl = None -> exists e, update_delegated_targets t data role dl = (t, Err e).
Proof.
  intros [ts Hts] Hn Hne Hd. destruct (Hn ts Hts) as [f Hf]. apply snapshot_meta_spec in Hf. unfold update_delegated_targets, check_new_targets. destruct (t_snapshot t) as [sn|] eqn:Es; [|by eexists].
  unfold check_final_snapshot. rewrite Es, Hts, Hf. destruct (is_expired (md_signed sn) (t_ref t)); [by eexists|].
  destruct (Z.eqb_spec (sn_version (md_signed sn)) (mf_version f)); [|by eexists]. cbn [obind].
  change ROOT with "root". apply String.eqb_neq in Hne. rewrite Hne, Hd. rewrite bool_decide_eq_false_2 by (by intros [? ?]). by eexists.
Qed.
Lemma equal_timestamp t data ts old : t_snapshot t = None -> ~ expired_at (t_root t) (t_ref t) -> t_timestamp t = Some old -> document data ts ->
  root_signs (t_root t) "timestamp" ts -> ts_version (md_signed ts) = ts_version (md_signed old) ->
  exists msg, update_timestamp t data = (t, Err (ErrEqualVersionNumber msg)).
Proof.
  intros Hs Hx Ho [H1 H2] Hsig Hv. unfold update_timestamp. rewrite Hs. apply not_expired_spec in Hx. rewrite Hx. rewrite H1. cbn [obind].
  apply check_signed_type_ok in H2. rewrite H2. cbn [obind]. apply root_signs_ok in Hsig. change TIMESTAMP with "timestamp". rewrite Hsig. cbn [obind].
  unfold check_new_timestamp. rewrite Ho, Hv, Z.ltb_irrefl, Z.eqb_refl. by eexists.
Qed.
Lemma expired_blocks t :
  (forall data, expired_at (t_root t) (t_ref t) -> t_snapshot t = None -> exists msg, update_timestamp t data = (t, Err (ErrExpiredMetadata msg))) /\
  (forall data, expired_at (t_root t) (t_ref t) -> exists e, update_timestamp t data = (t, Err e)) /\
  (forall ts order data tr, t_timestamp t = Some ts -> expired_at ts (t_ref t) -> exists e, update_snapshot order t data tr = (t, Err e)) /\
  (forall sn ts data role dl, t_snapshot t = Some sn -> t_timestamp t = Some ts ->
     expired_at sn (t_ref t) \/ (exists f, names_snapshot ts f /\ sn_version (md_signed sn) <> mf_version f) ->
     exists e, update_delegated_targets t data role dl = (t, Err e)).
Proof.
  split_and!.
  - intros data Hx Hs. unfold update_timestamp. rewrite Hs. apply expired_spec in Hx. rewrite Hx. by eexists.
  - intros data Hx. unfold update_timestamp. apply expired_spec in Hx. rewrite Hx. destruct (t_snapshot t); by eexists.
  - intros ts order data tr Hts Hx. unfold update_snapshot. rewrite Hts. destruct (t_targets t !! TARGETS); [by eexists|].
    unfold check_final_timestamp. rewrite Hts. apply expired_spec in Hx. rewrite Hx. by eexists.
  - intros sn ts data role dl Hs Hts Hor. unfold update_delegated_targets, check_new_targets, check_final_snapshot. rewrite Hs, Hts.
    destruct (is_expired (md_signed sn) (t_ref t)) eqn:Ex; [by eexists|]. apply not_expired_spec in Ex. destruct Hor as [?|(f & Hf & Hv)]; [done|].
    apply snapshot_meta_spec in Hf. rewrite Hf. apply Z.eqb_neq in Hv. rewrite Hv. by eexists.
Qed.
Lemma failed_calls t c t' e : in_int64 (rt_version (md_signed (t_root t))) = true -> proper_call c -> perform t c = (t', Err e) ->
  t' = t \/
  (exists data ts, c = UpdateTimestamp data /\ timestamp_ok t data ts /\ expired_at ts (t_ref t) /\ timestamp_replaced t t' ts) \/
  (exists order data tr sn, c = UpdateSnapshot order data tr /\ snapshot_ok t data tr sn /\
     (expired_at sn (t_ref t) \/ exists ts f, t_timestamp t = Some ts /\ names_snapshot ts f /\ sn_version (md_signed sn) <> mf_version f) /\ snapshot_replaced t t' sn).
Proof.
  intros Hv Hc E. destruct c as [data|data|order data tr|data role dl]; cbn [perform] in E.
  - left. destruct (update_root_cases t data Hv) as [(r & Hr & E1)|(_ & Hs & _)].
    + by rewrite E1 in E.
    + destruct (update_root t data) as [s o]. cbn in *. congruence.
  - destruct (update_timestamp_cases t data) as [(ts & Hok & Hs & Hr)|(_ & Hs & _)]; destruct (update_timestamp t data) as [s o]; cbn in *; subst s.
    + right. left. exists data, ts. split; [done|]. split; [done|]. injection E as <- E. destruct Hr as [[_ ->]|[Hx _]]; [done|]. split; [done|]. by apply timestamp_replaced_iff.
    + left. congruence.
  - destruct (update_snapshot_cases order t data tr Hc) as [(sn & Hok & Hs & Hr)|(_ & Hs & _)]; destruct (update_snapshot order t data tr) as [s o]; cbn in *; subst s.
    + right. right. exists order, data, tr, sn. split; [done|]. split; [done|]. injection E as <- E. split; [|by apply snapshot_replaced_iff].
      destruct Hr as [[_ ->]|[[Hx _]|[(_ & Hx & _)|(_ & _ & _ & ->)]]]; [done|by left|by right|done].
    + left. congruence.
  - left. destruct (update_delegated_cases t data role dl) as [(m & Hr & E1)|(_ & Hs & _)].
    + by rewrite E1 in E.
    + destruct (update_delegated_targets t data role dl) as [s o]. cbn in *. congruence.
Qed.
Lemma kept_timestamp t data ts : timestamp_ok t data ts -> expired_at ts (t_ref t) ->
  exists t' msg, update_timestamp t data = (t', Err (ErrExpiredMetadata msg)) /\ timestamp_replaced t t' ts.
Proof.
  intros Hok Hx. destruct (update_timestamp_cases t data) as [(ts' & Hok' & Hs & Hr)|(Hn & _)]; [|by apply Hn in Hok].
  assert (ts' = ts) as -> by (by eapply timestamp_ok_fun). destruct Hr as [[? _]|(_ & msg & Hm)]; [done|].
  destruct (update_timestamp t data) as [s o]. cbn in *. subst. exists (set_timestamp t ts), msg. split; [done|by apply timestamp_replaced_iff].
Qed.
Lemma kept_snapshot order t data tr sn : (forall l, order l ≡ₚ l) -> snapshot_ok t data tr sn ->
  (expired_at sn (t_ref t) -> exists t' msg, update_snapshot order t data tr = (t', Err (ErrExpiredMetadata msg)) /\ snapshot_replaced t t' sn) /\
  (~ expired_at sn (t_ref t) -> (exists ts f, t_timestamp t = Some ts /\ names_snapshot ts f /\ sn_version (md_signed sn) <> mf_version f) ->
     exists t' msg, update_snapshot order t data tr = (t', Err (ErrBadVersionNumber msg)) /\ snapshot_replaced t t' sn).
Proof.
  intros Ho Hok. destruct (update_snapshot_cases order t data tr Ho) as [(sn' & Hok' & Hs & Hr)|(Hn & _)]; [|by apply Hn in Hok].
  assert (sn' = sn) as -> by (by eapply snapshot_ok_fun). destruct (update_snapshot order t data tr) as [s o]. cbn in *. subst s.
  assert (snapshot_replaced t (set_snapshot t sn) sn) as Hrep by (by apply snapshot_replaced_iff). split.
  - intros Hx. destruct Hr as [[[? _] _]|[(_ & msg & ->)|[(? & _)|(? & _)]]]; try done. by exists (set_snapshot t sn), msg.
  - intros Hx (ts & f & Hts & Hf & Hv). destruct Hr as [[(_ & ts' & f' & Hts' & Hf' & Hv') _]|[[? _]|[(_ & _ & msg & ->)|(_ & (ts' & Hts' & Hf') & _)]]]; try done.
    + exfalso. assert (ts' = ts) as -> by congruence. apply snapshot_meta_spec in Hf, Hf'. congruence.
    + by exists (set_snapshot t sn), msg.
    + exfalso. assert (ts' = ts) as -> by congruence. by apply Hf' in Hf.
Qed.
Lemma panicked_calls t c : in_int64 (rt_version (md_signed (t_root t))) = true -> proper_call c -> snd (perform t c) = Panic ->
  fst (perform t c) = t \/ exists order data sn, c = UpdateSnapshot order data true /\ snapshot_ok t data true sn /\ snapshot_replaced t (fst (perform t c)) sn /\
    exists ts, t_timestamp t = Some ts /\ forall f, ~ names_snapshot ts f.
Proof.
  intros Hv Hc E. destruct c as [data|data|order data tr|data role dl].
  - left. destruct (perform_root t data Hv) as [(r & Hr & E1)|(_ & Hs & _)]; [by rewrite E1 in E|done].
  - left. rewrite fst_perform_ts. cbn [perform] in E. destruct (update_timestamp_cases t data) as [(ts & Hok & Hs & Hr)|(_ & Hs & _)]; [|done].
    destruct (update_timestamp t data) as [s o]; cbn in *. by destruct Hr as [[_ ->]|(_ & msg & ->)].
  - rewrite fst_perform_sn. cbn [perform] in E. destruct (update_snapshot_cases order t data tr Hc) as [(sn & Hok & Hs & Hr)|(_ & Hs & _)]; [|by left].
    right. destruct (update_snapshot order t data tr) as [s o]; cbn in *. destruct Hr as [[_ ->]|[(_ & msg & ->)|[(_ & _ & msg & ->)|(_ & Hts & -> & ->)]]]; try done.
    exists order, data, sn. split; [done|]. split; [done|]. split; [by apply snapshot_replaced_iff|done].
  - left. rewrite fst_perform_tg. cbn [perform] in E. destruct (update_delegated_cases t data role dl) as [(m & Hr & E1)|(_ & Hs & _)]; [by rewrite E1 in E|done].
Qed.
End TrustedProofs.
