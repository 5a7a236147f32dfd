(** * Proofs for C112-C117: the repository simulator *)
From stdpp Require Import base gmap strings list.
From Coq Require Import ZArith Lia Ascii String.
From Verif Require Import GoBase GoStr Json GoTime Types Marshal Keys Metadata TrustedMetadata Fetcher Updater Files Cli ExampleClients ExampleRepos Simulator
  StrProofs SpecUtf8 SpecText SpecSerial JsonProofs SerialProofs SpecRound RoundBase RoundProofs RoundStructs CanonProofs RoundKept LoadBase LoadProofs
  SpecDeleg DelegProofs SpecBasic BasicProofs SpecSig SigProofs SpecKeys KeysProofs SpecTrusted SpecPublish PublishProofs PlainProofs FilesProofs SpecUpdater SpecReach HonestProofs PropertiesReach PropertiesCache TrustedProofs PathProofs SpecRepos ReposProofs ServedProofs GenerateProofs RunsProofs TeamsProofs SpecSimulator.
Open Scope Z_scope.

(** ** Names of files *)
Lemma strip_own p s : strip_prefix p (p +:+ s) = Some s.
Proof. by apply strip_prefix_spec. Qed.
Lemma rev_app_spec s acc : string_rev_app s acc = string_rev_app s "" +:+ acc.
Proof. revert acc. induction s as [|c s IH]; intros acc; [done|]. cbn [string_rev_app]. rewrite IH, (IH (String c "")), app_assoc_s. done. Qed.
Lemma rev_string_app a b : rev_string (a +:+ b) = rev_string b +:+ rev_string a.
Proof.
  unfold rev_string. induction a as [|c a IH]; [by rewrite app_nil_s|]. change (String c a +:+ b) with (String c (a +:+ b)). cbn [string_rev_app]. rewrite rev_app_spec, (rev_app_spec a (String c "")), IH. by rewrite app_assoc_s.
Qed.
Lemma suffix_own p s : has_suffix p (s +:+ p) = true.
Proof. unfold has_suffix. rewrite rev_string_app. unfold has_prefix. by rewrite strip_own. Qed.
Lemma take_own s p : str_take (String.length (s +:+ p) - String.length p) (s +:+ p) = s.
Proof. rewrite app_len_s. replace (String.length s + String.length p - String.length p)%nat with (String.length s) by lia. apply Utf8Proofs.str_take_app. Qed.
(** no dot in it *)
Definition no_dot (s : string) : Prop := string_any (Ascii.eqb ".") s = false.
Lemma split_dot_free s : no_dot s -> split_on "." s = [s].
Proof.
  unfold no_dot. induction s as [|c s IH]; [done|]. cbn [string_any split_on]. intros [H1 H2]%orb_false_iff. rewrite Ascii.eqb_sym in H1. rewrite H1, IH by done. done.
Qed.
Lemma split_dot_cons a s : no_dot a -> split_on "." (a +:+ "." +:+ s) = a :: split_on "." s.
Proof.
  unfold no_dot. induction a as [|c a IH]; [done|]. cbn [string_any]. intros [H1 H2]%orb_false_iff. change (String c a +:+ "." +:+ s) with (String c (a +:+ "." +:+ s)). cbn [split_on]. rewrite Ascii.eqb_sym in H1. rewrite H1, IH by done. done.
Qed.
Lemma partition_plain s : no_dot s -> partition_dot s = ("", s).
Proof. intros H. unfold partition_dot. by rewrite split_dot_free. Qed.
Lemma partition_two a s : no_dot a -> no_dot s -> partition_dot (a +:+ "." +:+ s) = (a, s).
Proof. intros H1 H2. unfold partition_dot. by rewrite split_dot_cons, split_dot_free. Qed.
Lemma digits_no_dot l : Forall (fun d => 0 <= d < 10) l -> no_dot (string_of_digits l).
Proof.
  unfold no_dot. induction 1 as [|d l Hd _ IH]; [done|]. change (string_of_digits (d :: l)) with (String (hexdig d) (string_of_digits l)). cbn [string_any]. rewrite IH, orb_false_r. apply Ascii.eqb_neq. intros Hx. pose proof (hexval_digit d ltac:(lia)) as H. rewrite <- Hx in H. by vm_compute in H.
Qed.
Lemma fmt_dec_no_dot v : no_dot (fmt_dec v).
Proof.
  unfold fmt_dec, fmt_base. destruct (Z.ltb_spec v 0) as [Hn|Hn]; [change (no_dot (String "-" (string_of_digits (digits_of 10 (- v))))); unfold no_dot; cbn [string_any]; apply orb_false_iff; split; [done|]|]; apply digits_no_dot; (eapply Forall_impl; [apply digits_of_val; lia|]; cbn; lia).
Qed.
Lemma atoi_fmt v : 0 <= v < 2 ^ 63 -> atoi_value (fmt_dec v) = v.
Proof.
  intros Hv. unfold fmt_dec, fmt_base. destruct (Z.ltb_spec v 0) as [?|_]; [lia|]. pose proof (parse_nat_fmt 10 v ltac:(lia) ltac:(lia)) as Hp. set (s := string_of_digits (digits_of 10 v)) in *. clearbody s. unfold atoi_value.
  assert (Z.min (two63 - 1) v = v) as Hm by (unfold two63; lia). destruct s as [|c s]; [done|].
  destruct (parse_nat_first 10 c s v ltac:(lia) Hp) as [H1 H2]. destruct c as [[] [] [] [] [] [] [] []]; try done; rewrite Hp; exact Hm.
Qed.

Section Sim.
Context {CR : Crypto} (E : env) (key : string -> signer) (N : nat).
Definition names : list string := map (fun n => fmt_dec (Z.of_nat n)) (seq 0 N).
Context (Hpem : pem_round_trip) (Hwork : keys_work key names) (Htext : text_keys key).
Notation kid := (kid key).
Notation team_of := (team_of key names).
Lemma name_in n : (n < N)%nat -> fmt_dec (Z.of_nat n) ∈ names.
Proof. intros H. apply elem_of_list_In, in_map_iff. exists n. split; [done|]. apply in_seq. lia. Qed.

(** ** Signing with one key *)
Lemma sign_one {T} {RT : RoleTy T} k (m : metadata T) : k ∈ names -> bare_signed (md_signed m) -> sign_each [key k] m = Ok (sign_by [key k] m).
Proof.
  intros Hk Hb. pose proof (sign_by_run key names k m Hwork Hk Hb) as H. unfold signed_with in H. cbn [sign_each sign_by]. destruct (sign (key k) m) as [m' [x| |]]; [done|done|done].
Qed.
Lemma one_order tr (S : sim) role k : sm_signers S !! role = Some {[kid k := key k]} -> signers_in_order E tr S role = [key k].
Proof.
  intros H. unfold signers_in_order. rewrite H. cbn [from_option id]. pose proof (e_order_perm E signer tr (map_to_list ({[kid k := key k]} : gmap string signer))) as Hp. rewrite map_to_list_singleton in Hp. apply Permutation_singleton_r in Hp. unfold id. rewrite map_to_list_singleton, Hp. done.
Qed.
Definition one {T} {RT : RoleTy T} (k : string) (m : metadata T) : metadata T := sign_by [key k] (clear_signatures m).
Lemma one_signed {T} {RT : RoleTy T} k (m : metadata T) : md_signed (one k m) = md_signed m.
Proof. unfold one. by rewrite sign_by_signed. Qed.
Lemma one_writable {T} {RT : RoleTy T} {SS : SignedSpec T} k (m : metadata T) : k ∈ names -> signed_wf (md_signed m) -> signed_type (md_signed m) = role_name -> bare_signed (md_signed m) -> no_extra (md_unrec m) -> writable (one k m).
Proof.
  intros Hk H1 H2 H3 H4. unfold one. apply (signed_writable key names Hpem Hwork [k] (clear_signatures m)); try done.
  - intros j ->%elem_of_list_singleton. done.
  - apply NoDup_singleton.
  - cbn. constructor.
  - exists []. split; [done|]. split; [apply NoDup_singleton|]. by intros j ?%elem_of_nil.
Qed.
Lemma one_bytes {T} {RT : RoleTy T} {SS : SignedSpec T} k (m : metadata T) : tuf_role T RT SS -> writable (one k m) -> exists b, to_bytes (one k m) = Ok b /\ document b (metadata_kept (one k m)).
Proof. intros Hr [Hw Hs]. destruct (save_load (one k m) (tuf_role_rt _ _ _ Hr) Hw Hs) as (b & Hb & Hl). exists b. split; [done|]. by apply document_kept. Qed.
Lemma one_root_signs {D} {RD : RoleTy D} (rm : metadata root_t) n k (m : metadata D) : team_of (md_signed rm) n [k] 1 -> bare_signed (md_signed m) -> root_signs rm n (one k m).
Proof.
  intros Ht Hb. unfold one. pose proof Ht as [Ha _]. apply (team_signs_all key names Hpem Hwork rm n [k] 1 [k] [k] (clear_signatures m)); try done.
  apply NoDup_singleton.
Qed.
Lemma serve_one {T} {RT : RoleTy T} tr S role k (m : metadata T) : k ∈ names -> sm_signers S !! role = Some {[kid k := key k]} -> bare_signed (md_signed m) -> serve E tr S role m = to_bytes (one k m).
Proof. intros Hk Hs Hb. unfold serve. rewrite (one_order tr S role k Hs), sign_one by done. done. Qed.

(** ** Invariants *)
Definition crew (S : sim) (kr : string -> string) : Prop :=
  ready (md_signed (sm_root S)) /\ md_unrec (sm_root S) = None /\
  forall n, n ∈ top_level_roles -> team_of (md_signed (sm_root S)) n [kr n] 1 /\ sm_signers S !! n = Some {[kid (kr n) := key (kr n)]}.
Definition chain (S : sim) (kr : string -> string) (b0 : string) (r0 : metadata root_t) (l : list (string * metadata root_t)) : Prop :=
  sm_roots S = b0 :: map fst l /\ document b0 r0 /\ root_signs r0 "root" r0 /\ root_updates r0 l (metadata_kept (one (kr "root") (sm_root S))) /\
  rt_version (md_signed r0) = 1 /\ rt_version (md_signed (sm_root S)) = 1 + Z.of_nat (List.length l).
Definition plain_files (m : gomap (option metafile)) : Prop := ptrs_ok metafile_wf m /\ bare_files m /\ m <> None.
(** [body]: whatever roles are delegated to; [content]: none *)
Definition body (e : gotime) (local : string) (S : sim) : Prop :=
  (plain_targets (md_signed (sm_targets S)) /\ no_extra (md_unrec (sm_targets S)) /\ tg_expires (md_signed (sm_targets S)) = e /\ tg_targets (md_signed (sm_targets S)) <> None) /\
  (snapshot_wf (md_signed (sm_snapshot S)) /\ bare_snapshot (md_signed (sm_snapshot S)) /\ sn_type (md_signed (sm_snapshot S)) = "snapshot" /\ no_extra (md_unrec (sm_snapshot S)) /\ sn_expires (md_signed (sm_snapshot S)) = e /\ sn_meta (md_signed (sm_snapshot S)) <> None) /\
  (timestamp_wf (md_signed (sm_timestamp S)) /\ bare_timestamp (md_signed (sm_timestamp S)) /\ ts_type (md_signed (sm_timestamp S)) = "timestamp" /\ no_extra (md_unrec (sm_timestamp S)) /\ ts_expires (md_signed (sm_timestamp S)) = e /\ ts_meta (md_signed (sm_timestamp S)) <> None) /\
  rt_expires (md_signed (sm_root S)) = e /\ sm_local S = local.
Definition content (e : gotime) (local : string) (S : sim) : Prop :=
  (plain_targets (md_signed (sm_targets S)) /\ no_extra (md_unrec (sm_targets S)) /\ tg_expires (md_signed (sm_targets S)) = e /\ tg_targets (md_signed (sm_targets S)) <> None) /\
  (snapshot_wf (md_signed (sm_snapshot S)) /\ bare_snapshot (md_signed (sm_snapshot S)) /\ sn_type (md_signed (sm_snapshot S)) = "snapshot" /\ no_extra (md_unrec (sm_snapshot S)) /\ sn_expires (md_signed (sm_snapshot S)) = e /\ sn_meta (md_signed (sm_snapshot S)) <> None) /\
  (timestamp_wf (md_signed (sm_timestamp S)) /\ bare_timestamp (md_signed (sm_timestamp S)) /\ ts_type (md_signed (sm_timestamp S)) = "timestamp" /\ no_extra (md_unrec (sm_timestamp S)) /\ ts_expires (md_signed (sm_timestamp S)) = e /\ ts_meta (md_signed (sm_timestamp S)) <> None) /\
  rt_expires (md_signed (sm_root S)) = e /\ sm_delegates S = ∅ /\ sm_local S = local.
Lemma content_body e local S : content e local S -> body e local S.
Proof. intros (H1 & H2 & H3 & H4 & _ & H5). exact (conj H1 (conj H2 (conj H3 (conj H4 H5)))). Qed.
Lemma body_content e local S : body e local S -> sm_delegates S = ∅ -> content e local S.
Proof. intros (H1 & H2 & H3 & H4 & H5) Hd. exact (conj H1 (conj H2 (conj H3 (conj H4 (conj Hd H5))))). Qed.
Lemma crew_root S kr : crew S kr -> writable (one (kr "root") (sm_root S)) /\ bare_signed (md_signed (sm_root S)).
Proof.
  intros ([Hp _] & Hu & Hk). assert (bare_signed (md_signed (sm_root S))) as Hb by (by apply plain_root_signed). split; [|done]. destruct (Hk "root") as [[Ha _] _]; [apply elem_of_list_In; by left|].
  apply one_writable; [apply Ha; left|apply Hp| |done|by rewrite Hu]. by destruct Hp as (_ & _ & ? & _).
Qed.
Lemma content_targets e local S : body e local S -> signed_wf (md_signed (sm_targets S)) /\ signed_type (md_signed (sm_targets S)) = role_name (T := targets_t) /\ bare_signed (md_signed (sm_targets S)) /\ no_extra (md_unrec (sm_targets S)).
Proof. intros ((H & Hu & _) & _). split; [apply H|]. split; [by destruct H as (_ & _ & ?)|]. split; [by apply plain_targets_signed|done]. Qed.
Lemma content_snapshot e local S : body e local S -> signed_wf (md_signed (sm_snapshot S)) /\ signed_type (md_signed (sm_snapshot S)) = role_name (T := snapshot_t) /\ bare_signed (md_signed (sm_snapshot S)) /\ no_extra (md_unrec (sm_snapshot S)).
Proof. intros (_ & (H1 & H2 & H3 & H4 & _) & _). split; [exact H1|]. split; [exact H3|]. split; [by apply easy4_bare, easy_bare_snapshot|done]. Qed.
Lemma content_timestamp e local S : body e local S -> signed_wf (md_signed (sm_timestamp S)) /\ signed_type (md_signed (sm_timestamp S)) = role_name (T := timestamp_t) /\ bare_signed (md_signed (sm_timestamp S)) /\ no_extra (md_unrec (sm_timestamp S)).
Proof. intros (_ & _ & (H1 & H2 & H3 & H4 & _) & _). split; [exact H1|]. split; [exact H3|]. split; [by apply easy4_bare, easy_bare_timestamp|done]. Qed.

(** ** Keys *)
Lemma new_key_run role S (x := md_signed (sm_root S)) : (sm_keys S < N)%nat -> ready x -> team_of x role [] 1 -> default ∅ (sm_signers S !! role) = ∅ ->
  exists y k, k = fmt_dec (Z.of_nat (sm_keys S)) /\ k ∈ names /\ new_root_key key role S = Ok (set_signers (set_keys (set_sim_root S (set_signed (sm_root S) y)) (Datatypes.S (sm_keys S))) (<[role := {[kid k := key k]}]> (sm_signers S))) /\
    ready y /\ same_header x y /\ team_of y role [k] 1 /\ forall n' ks' thr', n' <> role -> team_of x n' ks' thr' -> team_of y n' ks' thr'.
Proof.
  intros Hn Hr Ht Hd. set (k := fmt_dec (Z.of_nat (sm_keys S))). assert (k ∈ names) as Hk by (by apply name_in). destruct (add_run key names Hpem Hwork Htext x k role [] 1 Hk) as (y & Hy & Hry & Hh & Hty & Ho); [by intros ?%elem_of_nil|done|done|].
  exists y, k. split; [done|]. split; [done|]. split; [|done]. destruct (key_facts key names Hpem Hwork k Hk) as (kk & K1 & _ & K3 & _). unfold add_public in Hy. rewrite K1 in Hy. cbn [obind] in Hy.
  unfold new_root_key. fold k. rewrite K1. fold x. rewrite Hy. cbn [obind]. rewrite K3. cbn [obind]. unfold add_signer. cbn [set_keys set_sim_root sm_signers]. rewrite Hd. done.
Qed.

Definition same_rest (S S' : sim) : Prop :=
  sm_delegates S' = sm_delegates S /\ sm_roots S' = sm_roots S /\ sm_files S' = sm_files S /\ sm_compute S' = sm_compute S /\ sm_prefix S' = sm_prefix S /\ sm_targets S' = sm_targets S /\
  sm_snapshot S' = sm_snapshot S /\ sm_timestamp S' = sm_timestamp S /\ sm_local S' = sm_local S /\ md_unrec (sm_root S') = md_unrec (sm_root S) /\ same_header (md_signed (sm_root S)) (md_signed (sm_root S')).
Lemma same_rest_refl S : same_rest S S.
Proof. unfold same_rest, same_header. by split_and!. Qed.
Lemma same_rest_trans S S1 S2 : same_rest S S1 -> same_rest S1 S2 -> same_rest S S2.
Proof.
  intros (A1 & A2 & A3 & A4 & A5 & A6 & A7 & A8 & A9 & A10 & A11) (B1 & B2 & B3 & B4 & B5 & B6 & B7 & B8 & B9 & B10 & B11). unfold same_rest. split_and!; try congruence. by eapply same_header_trans.
Qed.
Definition staffed (S : sim) (kr : string -> string) (roles : list string) : Prop :=
  forall n, n ∈ roles -> team_of (md_signed (sm_root S)) n [kr n] 1 /\ sm_signers S !! n = Some {[kid (kr n) := key (kr n)]}.
Definition vacant (S : sim) (role : string) : Prop := team_of (md_signed (sm_root S)) role [] 1 /\ default ∅ (sm_signers S !! role) = ∅.
Lemma staff_one role S kr others : (sm_keys S < N)%nat -> ready (md_signed (sm_root S)) -> vacant S role -> staffed S kr others -> role ∉ others ->
  exists S' k, k = fmt_dec (Z.of_nat (sm_keys S)) /\ new_root_key key role S = Ok S' /\ sm_keys S' = Datatypes.S (sm_keys S) /\ same_rest S S' /\ ready (md_signed (sm_root S')) /\ staffed S' (fun n => if String.eqb n role then k else kr n) (role :: others) /\
    forall n, n <> role -> vacant S n -> vacant S' n.
Proof.
  intros Hn Hr [Hv Hs] Ho Hni. destruct (new_key_run role S Hn Hr Hv Hs) as (y & k & Ek & Hk & Hy & Hry & Hh & Ht & Hoth). eexists _, k. split; [exact Ek|]. split; [exact Hy|]. split; [done|]. split; [unfold same_rest; cbn; by split_and!|]. split; [done|]. split.
  - intros n [->|Hin]%elem_of_cons.
    + rewrite String.eqb_refl. split; [done|]. cbn. apply lookup_insert.
    + assert (n <> role) as Hne by (by intros ->). rewrite (proj2 (String.eqb_neq n role) Hne). destruct (Ho n Hin) as [H1 H2]. split; [by apply Hoth|]. cbn. by rewrite lookup_insert_ne.
  - intros n Hne [H1 H2]. split; [by apply Hoth|]. cbn. by rewrite lookup_insert_ne.
Qed.
Lemma staff_all roles : forall S kr others, (sm_keys S + List.length roles <= N)%nat -> ready (md_signed (sm_root S)) -> NoDup roles -> (forall r, r ∈ roles -> vacant S r /\ r ∉ others) -> staffed S kr others ->
  exists S' kr', new_root_keys key roles S = Ok S' /\ sm_keys S' = (sm_keys S + List.length roles)%nat /\ same_rest S S' /\ ready (md_signed (sm_root S')) /\ staffed S' kr' (roles ++ others) /\
    (forall n, n ∉ roles -> kr' n = kr n) /\ match roles with [] => True | r :: _ => kr' r = fmt_dec (Z.of_nat (sm_keys S)) end.
Proof.
  induction roles as [|r roles IH]; intros S kr others Hn Hr Hnd Hv Ho; cbn [new_root_keys List.length] in *.
  - exists S, kr. split; [done|]. split; [lia|]. split; [apply same_rest_refl|]. split; [done|]. split; [done|]. split; [done|done].
  - apply NoDup_cons in Hnd as [Hni Hnd]. destruct (Hv r) as [Hv1 Hv2]; [left|]. destruct (staff_one r S kr others ltac:(lia) Hr Hv1 Ho Hv2) as (S1 & k & Ek & H1 & H2 & H3 & H4 & H5 & H6). rewrite H1. cbn [obind].
    assert (forall r', r' ∈ roles -> vacant S1 r' /\ r' ∉ r :: others) as Hw.
    { intros r' Hr'. destruct (Hv r') as [Hw1 Hw2]; [by right|]. assert (r' <> r) as Hne by (by intros ->). split; [by apply H6|]. intros [->|?]%elem_of_cons; done. }
    destruct (IH S1 _ (r :: others) ltac:(lia) H4 Hnd Hw H5) as (S' & kr' & Q1 & Q2 & Q3 & Q4 & Q5 & Q6 & _).
    exists S', kr'. split; [done|]. split; [lia|]. split; [by eapply same_rest_trans|]. split; [done|]. split; [|split].
    + intros n Hn'. apply Q5. cbn in Hn'. apply elem_of_cons in Hn' as [->|[?|?]%elem_of_app]; apply elem_of_app; [right; left|by left|right; by right].
    + intros n [Hne Hni']%not_elem_of_cons. rewrite Q6 by done. by rewrite (proj2 (String.eqb_neq n r) Hne).
    + rewrite Q6 by done. rewrite String.eqb_refl. exact Ek.
Qed.

(** ** The first root *)
Lemma publish_run tr S kr : crew S kr -> exists b, publish_root E tr S = Ok (set_roots S (sm_roots S ++ [b])) /\ document b (metadata_kept (one (kr "root") (sm_root S))).
Proof.
  intros Hc. destruct (crew_root S kr Hc) as [Hw Hb]. destruct Hc as (_ & _ & Hk). destruct (Hk "root") as [[Ha _] Hs]; [apply elem_of_list_In; by left|]. assert (kr "root" ∈ names) as Hn by (apply Ha; left).
  destruct (one_bytes (kr "root") (sm_root S) is_root Hw) as (b & Hb1 & Hb2). exists b. split; [|done]. unfold publish_root. rewrite (one_order tr S "root" (kr "root") Hs), sign_one by done. cbn [obind]. fold (one (kr "root") (sm_root S)). by rewrite Hb1.
Qed.
Lemma new_run tr e local : (4 <= N)%nat -> time_ok e -> exists S kr b0 r0, new_repository E key tr e local = Ok S /\ crew S kr /\ chain S kr b0 r0 [] /\ content e local S /\ sm_keys S = 4%nat /\ kr "root" = fmt_dec 0.
Proof.
  intros Hn He. unfold new_repository. set (S0 := mkSim ∅ [] ∅ ∅ false true (Targets e) (Snapshot e) (Timestamp e) (Root e) local 0).
  destruct (staff_all top_level_roles S0 (fun n => n) []) as (S & kr & H1 & H2 & H3 & H4 & H5 & _ & H6).
  - cbn. lia.
  - by apply ready_new.
  - by apply (bool_decide_unpack _).
  - intros r Hr. split; [|by intros ?%elem_of_nil]. split; [|cbn; by rewrite lookup_empty]. apply team_new. unfold top_level_roles in Hr. rewrite !elem_of_cons, elem_of_nil in *. tauto.
  - by intros n ?%elem_of_nil.
  - rewrite H1. cbn [obind]. rewrite app_nil_r in H5. destruct H3 as (A1 & A2 & A3 & A4 & A5 & A6 & A7 & A8 & A9 & A10 & A11). cbn in A1, A2, A6, A7, A8, A9, A10.
    assert (crew S kr) as Hc by (by split_and!). destruct (publish_run tr S kr Hc) as (b & Hp & Hd). exists (set_roots S (sm_roots S ++ [b])), kr, b, (metadata_kept (one (kr "root") (sm_root S))). split; [done|].
    split; [done|]. destruct A11 as (_ & _ & _ & V & X & _). split; [|split; [|split; [done|exact H6]]].
    + split; [cbn; by rewrite A2|]. split; [done|]. split; [|split; [constructor|]]; [|split; [cbn -[one]; rewrite one_signed; cbn; by rewrite V|cbn; by rewrite V]].
      apply root_signs_kept; [constructor|]. destruct (crew_root S kr Hc) as [_ Hb]. apply one_root_signs; [rewrite one_signed|done]. destruct Hc as (_ & _ & Hk). apply Hk, elem_of_list_In. by left.
    + unfold content. cbn [set_roots sm_targets sm_snapshot sm_timestamp sm_root sm_delegates sm_local]. rewrite A1, A6, A7, A8, A9. split_and!; try done.
      * by apply plain_targets_new. * by apply snapshot_new_wf. * split; [done|]. intros n f Hf. cbn in Hf. apply lookup_singleton_Some in Hf as [_ [= <-]]. done.
      * by apply timestamp_new_wf. * split; [done|]. intros n f Hf. cbn in Hf. apply lookup_singleton_Some in Hf as [_ [= <-]]. done.
Qed.

(** ** New roots *)
Lemma rotate_run role S kr : role ∈ top_level_roles -> (sm_keys S < N)%nat -> crew S kr ->
  exists S' kr', rotate_keys key role S = Ok S' /\ sm_keys S' = Datatypes.S (sm_keys S) /\ same_rest S S' /\ crew S' kr' /\ kr' role = fmt_dec (Z.of_nat (sm_keys S)) /\ forall n, n <> role -> kr' n = kr n.
Proof.
  intros Hrole Hn (Hready & Hu & Hk). destruct (Hk role Hrole) as [Ht Hs]. pose proof Ht as (Ha & r & Hr & Hids & Hthr & Hres). pose proof Hr as Hr'. apply root_role_mget in Hr'.
  destruct (mget (rt_roles (md_signed (sm_root S))) role) as [o|] eqn:Eo; [|done]. injection Hr' as ->. unfold rotate_keys. rewrite Eo, Hthr. cbn zeta.
  assert (exists mm, rt_roles (md_signed (sm_root S)) = Some mm) as [mm Hmm] by (destruct (rt_roles (md_signed (sm_root S))) as [mm|]; [by exists mm|done]).
  set (x := md_signed (sm_root S)) in *. set (x1 := with_roles x (rt_keys x) (Some (<[role := Some (with_keyids r (Some []))]> (mmap (rt_roles x))))).
  set (S1 := set_signers (set_sim_root S (set_signed (sm_root S) x1)) (<[role := ∅]> (sm_signers S))).
  change (sm_signers (set_sim_root S (set_signed (sm_root S) x1))) with (sm_signers S). rewrite Hs. change (Z.to_nat 1) with 1%nat. cbn [repeat new_root_keys]. fold S1.
  assert (forall n ks thr, n <> role -> team_of x n ks thr -> team_of x1 n ks thr) as Hoth.
  { intros n ks thr Hne (Q0 & r1 & Q1 & Q2). split; [done|]. exists r1. split; [|done]. rewrite root_role_mget in *. cbn. rewrite lookup_insert_ne by done. rewrite Hmm in *. done. }
  destruct (staff_one role S1 kr (List.filter (fun n => negb (String.eqb n role)) top_level_roles)) as (S' & k & Ek & H1 & H2 & H3 & H4 & H5 & _).
  - done.
  - destruct Hready as [Hp Hm]. split; [|exact Hm]. pose proof Hp as ((_ & _ & _ & _ & _ & H6 & _) & _). destruct (H6 role (Some r) Eo) as [_ Hrw]. destruct (Hrw r eq_refl) as (R1 & R2 & _). apply (plain_root_roles x role r); [done|done| |done|done|done]. constructor.
  - split; [|cbn; by rewrite lookup_insert]. split; [by intros ? ?%elem_of_nil|]. eexists. split; [rewrite root_role_mget; cbn; by rewrite lookup_insert|]. split; [done|]. split; [done|]. by intros ? ?%elem_of_nil.
  - intros n Hin. apply elem_of_list_In, filter_In in Hin as [Hin%elem_of_list_In Hne%negb_true_iff]. apply String.eqb_neq in Hne. destruct (Hk n Hin) as [Q1 Q2]. split; [by apply Hoth|]. cbn. by rewrite lookup_insert_ne.
  - intros Hin. apply elem_of_list_In, filter_In in Hin as [_ Hne]. by rewrite String.eqb_refl in Hne.
  - rewrite H1. cbn [obind]. exists S', (fun n => if String.eqb n role then k else kr n). split; [done|]. split; [done|]. split; [|split; [|split]].
    + eapply same_rest_trans; [|exact H3]. unfold same_rest, same_header. cbn. by split_and!.
    + destruct H3 as (_ & _ & _ & _ & _ & _ & _ & _ & _ & U & _). split; [done|]. split; [rewrite U; exact Hu|]. intros n Hin. apply H5. destruct (decide (n = role)) as [->|Hne]; [left|right]. apply elem_of_list_In, filter_In. split; [by apply elem_of_list_In|]. by apply negb_true_iff, String.eqb_neq.
    + rewrite String.eqb_refl. exact Ek.
    + intros n Hne. by rewrite (proj2 (String.eqb_neq n role) Hne).
Qed.
Lemma rotate_all_run roles : forall S kr, (forall r, r ∈ roles -> r ∈ ["timestamp"; "snapshot"; "targets"]) -> (sm_keys S + List.length roles <= N)%nat -> crew S kr ->
  exists S' kr', rotate_all key roles S = Ok S' /\ sm_keys S' = (sm_keys S + List.length roles)%nat /\ same_rest S S' /\ crew S' kr' /\ kr' "root" = kr "root".
Proof.
  induction roles as [|r roles IH]; intros S kr Hin Hn Hc; cbn [rotate_all List.length] in *.
  - exists S, kr. split; [done|]. split; [lia|]. split; [apply same_rest_refl|done].
  - assert (r ∈ ["timestamp"; "snapshot"; "targets"]) as Hr by (apply Hin; left). rewrite !elem_of_cons, elem_of_nil in Hr. destruct (rotate_run r S kr) as (S1 & kr1 & H1 & H2 & H3 & H4 & _ & H5); [|lia|done|].
    + unfold top_level_roles. rewrite !elem_of_cons. tauto.
    + rewrite H1. cbn [obind]. destruct (IH S1 kr1) as (S' & kr' & Q1 & Q2 & Q3 & Q4 & Q5); [intros ? ?; apply Hin; by right|lia|done|]. exists S', kr'. split; [done|]. split; [lia|]. split; [by eapply same_rest_trans|]. split; [done|]. rewrite Q5. apply H5. naive_solver.
Qed.
Lemma updates_snoc r l r1 data r2 : root_updates r l r1 -> document data r2 -> root_signs r1 "root" r2 -> root_signs r2 "root" r2 -> rt_version (md_signed r2) = rt_version (md_signed r1) + 1 -> root_updates r (l ++ [(data, r2)]) r2.
Proof. induction 1 as [r|r d r3 l r' H1 H2 H3 H4 H5 IH]; intros Hd Hs1 Hs2 Hv; cbn; [econstructor; try done; constructor|]. econstructor; try done. by apply IH. Qed.
Lemma new_root_body tr roles consistent S kr b0 r0 l e local : (forall r, r ∈ roles -> r ∈ ["timestamp"; "snapshot"; "targets"]) -> (sm_keys S + List.length roles <= N)%nat -> Z.of_nat (List.length l) < 2 ^ 62 ->
  crew S kr -> chain S kr b0 r0 l -> body e local S ->
  exists S' kr' x, perform E key tr tr (NewRoot roles consistent) S = Ok S' /\ sm_keys S' = (sm_keys S + List.length roles)%nat /\ crew S' kr' /\ chain S' kr' b0 r0 (l ++ [x]) /\ body e local S' /\ kr' "root" = kr "root" /\ sm_delegates S' = sm_delegates S /\ sm_targets S' = sm_targets S.
Proof.
  intros Hin Hn Hl Hc (C1 & C2 & C3 & C4 & C5 & C6) Hct. destruct (rotate_all_run roles S kr Hin Hn Hc) as (S1 & kr1 & H1 & H2 & H3 & H4 & H5).
  cbn [perform]. rewrite H1. cbn [obind]. destruct H3 as (A1 & A2 & A3 & A4 & A5 & A6 & A7 & A8 & A9 & A10 & A11). destruct A11 as (_ & _ & _ & V & X & _).
  set (m := next_root (with_consistent (sm_root S1) consistent)). assert (wrap64 (rt_version (md_signed (sm_root S1)) + 1) = 2 + Z.of_nat (List.length l)) as Hwr.
  { rewrite V, C6. rewrite wrap64_id; [lia|]. unfold in_int64, two63. apply andb_true_iff. rewrite Z.leb_le, Z.ltb_lt. lia. }
  set (S2 := set_sim_root S1 m). assert (crew S2 kr1) as Hc2.
  { destruct H4 as (Hready & Hu & Hk). split; [|split; [exact Hu|exact Hk]]. unfold S2, m, next_root. cbn [set_sim_root sm_root set_signed md_signed with_consistent rt_version]. rewrite Hwr.
    apply version_ready; [unfold int_ok, in_int64, two63; apply andb_true_iff; rewrite Z.leb_le, Z.ltb_lt; lia|]. exact Hready. }
  destruct (publish_run tr S2 kr1 Hc2) as (b & Hp & Hd). rewrite Hp. exists (set_roots S2 (sm_roots S2 ++ [b])), kr1, (b, metadata_kept (one (kr1 "root") (sm_root S2))). split; [done|]. split; [done|]. split; [done|]. split; [|split; [|split; [exact H5|]]].
  - destruct (crew_root S2 kr1 Hc2) as [_ Hb2]. split; [cbn; rewrite A2, C1, map_app; done|]. split; [done|]. split; [done|]. split; [|split; [done|]].
    + eapply updates_snoc; [exact C4|exact Hd| | |].
      * apply root_signs_kept; [constructor|]. rewrite H5. apply one_root_signs; [rewrite one_signed|done]. destruct Hc as (_ & _ & Hk). apply Hk, elem_of_list_In. by left.
      * apply root_signs_kept; [constructor|]. apply one_root_signs; [rewrite one_signed|done]. destruct Hc2 as (_ & _ & Hk). apply Hk, elem_of_list_In. by left.
      * cbn [metadata_kept md_signed signed_kept root_spec root_kept rt_version]. rewrite !one_signed. cbn. rewrite Hwr, C6. lia.
    + cbn. rewrite Hwr, app_length. cbn. lia.
  - destruct Hct as (T1 & T2 & T3 & T4 & T5). unfold body. change (sm_targets (set_roots S2 (sm_roots S2 ++ [b]))) with (sm_targets S1). change (sm_snapshot (set_roots S2 (sm_roots S2 ++ [b]))) with (sm_snapshot S1).
    change (sm_timestamp (set_roots S2 (sm_roots S2 ++ [b]))) with (sm_timestamp S1). change (rt_expires (md_signed (sm_root (set_roots S2 (sm_roots S2 ++ [b]))))) with (rt_expires (md_signed (sm_root S1))).
    change (sm_local (set_roots S2 (sm_roots S2 ++ [b]))) with (sm_local S1). rewrite A6, A7, A8, A9, X. done.
  - split; [exact A1|exact A6].
Qed.
Lemma new_root_run tr roles consistent S kr b0 r0 l e local : (forall r, r ∈ roles -> r ∈ ["timestamp"; "snapshot"; "targets"]) -> (sm_keys S + List.length roles <= N)%nat -> Z.of_nat (List.length l) < 2 ^ 62 ->
  crew S kr -> chain S kr b0 r0 l -> content e local S ->
  exists S' kr' x, perform E key tr tr (NewRoot roles consistent) S = Ok S' /\ sm_keys S' = (sm_keys S + List.length roles)%nat /\ crew S' kr' /\ chain S' kr' b0 r0 (l ++ [x]) /\ content e local S' /\ kr' "root" = kr "root".
Proof.
  intros Hin Hn Hl Hc Hch Hct. destruct (new_root_body tr roles consistent S kr b0 r0 l e local Hin Hn Hl Hc Hch (content_body _ _ _ Hct)) as (S' & kr' & x & H1 & H2 & H3 & H4 & H5 & H6 & H7 & _). exists S', kr', x. split; [done|]. split; [done|]. split; [done|]. split; [done|]. split; [|done].
  apply body_content; [done|]. rewrite H7. by destruct Hct as (_ & _ & _ & _ & ? & _).
Qed.

(** ** Entries for files *)
Lemma wrap64_int z : int_ok (wrap64 z).
Proof. unfold int_ok, in_int64, wrap64, two63, two64. apply andb_true_iff. rewrite Z.leb_le, Z.ltb_lt. pose proof (Z.mod_pos_bound (z + 9223372036854775808) 18446744073709551616). lia. Qed.
Definition describes (f : metafile) (b : string) : Prop := Z.of_nat (String.length b) < 2 ^ 63 -> matches_file f b.
Definition entry_wf (f : metafile) (v : Z) : Prop := metafile_wf f /\ no_extra (mf_unrec f) /\ mf_version f = v.
Lemma hashed_describes b v : describes (mkMetaFile (wrap64 (str_len b)) (Some {["sha256" := sha256 b]}) v None) b.
Proof.
  intros Hb. split.
  - intros m alg dig [= <-] Hd. apply lookup_singleton_Some in Hd as [<- <-]. cbn. by left.
  - right. cbn [mf_length]. rewrite wrap64_id; [done|]. unfold in_int64, two63, str_len. apply andb_true_iff. rewrite Z.leb_le, Z.ltb_lt. lia.
Qed.
Lemma info_run tr S role v b : int_ok v -> (forall tr, fetch_metadata E tr S role (-1) = Ok b) -> exists f, file_info E tr S role v = Ok f /\ entry_wf f v /\ describes f b.
Proof.
  intros Hv Hb. unfold file_info. rewrite Hb. destruct (sm_compute S).
  - eexists. split; [done|]. split; [|apply hashed_describes]. split; [|done]. split; [apply wrap64_int|]. split; [|split; [done|by intros ? ? ?]]. intros k x Hk. cbn in Hk. apply lookup_singleton_Some in Hk as [<- _]. by apply plain_text.
  - eexists. split; [done|]. split; [|intros _; split; [|by left]].
    + split; [|done]. split; [done|]. split; [intros k x Hk; cbn in Hk; by rewrite lookup_empty in Hk|]. split; [done|by intros ? ? ?].
    + intros m alg dig [= <-]. by rewrite lookup_empty.
Qed.
Lemma crew_key S kr n : crew S kr -> n ∈ top_level_roles -> kr n ∈ names.
Proof. intros (_ & _ & Hk) Hn. destruct (Hk n Hn) as [[Ha _] _]. apply Ha. left. Qed.
Lemma fetch_targets S kr e local : crew S kr -> body e local S -> exists b, to_bytes (one (kr "targets") (sm_targets S)) = Ok b /\ document b (metadata_kept (one (kr "targets") (sm_targets S))) /\ forall tr v, fetch_metadata E tr S "targets" v = Ok b.
Proof.
  intros Hc Hct. assert ("targets" ∈ top_level_roles) as Hin by (apply elem_of_list_In; cbn; tauto). pose proof (crew_key S kr _ Hc Hin) as Hn. destruct (content_targets e local S Hct) as (H1 & H2 & H3 & H4).
  destruct (one_bytes (kr "targets") (sm_targets S) is_targets) as (b & Hb & Hd); [by apply one_writable|]. exists b. split; [done|]. split; [done|]. intros tr v. unfold fetch_metadata. cbn [String.eqb Ascii.eqb Bool.eqb]. rewrite <- Hb. apply serve_one; [done| |done]. by apply Hc.
Qed.
Lemma fetch_snapshot S kr e local : crew S kr -> body e local S -> exists b, to_bytes (one (kr "snapshot") (sm_snapshot S)) = Ok b /\ document b (metadata_kept (one (kr "snapshot") (sm_snapshot S))) /\ forall tr v, fetch_metadata E tr S "snapshot" v = Ok b.
Proof.
  intros Hc Hct. assert ("snapshot" ∈ top_level_roles) as Hin by (apply elem_of_list_In; cbn; tauto). pose proof (crew_key S kr _ Hc Hin) as Hn. destruct (content_snapshot e local S Hct) as (H1 & H2 & H3 & H4).
  destruct (one_bytes (kr "snapshot") (sm_snapshot S) is_snapshot) as (b & Hb & Hd); [by apply one_writable|]. exists b. split; [done|]. split; [done|]. intros tr v. unfold fetch_metadata. cbn [String.eqb Ascii.eqb Bool.eqb]. rewrite <- Hb. apply serve_one; [done| |done]. by apply Hc.
Qed.
Lemma fetch_timestamp S kr e local : crew S kr -> body e local S -> exists b, to_bytes (one (kr "timestamp") (sm_timestamp S)) = Ok b /\ document b (metadata_kept (one (kr "timestamp") (sm_timestamp S))) /\ forall tr v, fetch_metadata E tr S "timestamp" v = Ok b.
Proof.
  intros Hc Hct. assert ("timestamp" ∈ top_level_roles) as Hin by (apply elem_of_list_In; cbn; tauto). pose proof (crew_key S kr _ Hc Hin) as Hn. destruct (content_timestamp e local S Hct) as (H1 & H2 & H3 & H4).
  destruct (one_bytes (kr "timestamp") (sm_timestamp S) is_timestamp) as (b & Hb & Hd); [by apply one_writable|]. exists b. split; [done|]. split; [done|]. intros tr v. unfold fetch_metadata. cbn [String.eqb Ascii.eqb Bool.eqb]. rewrite <- Hb. apply serve_one; [done| |done]. by apply Hc.
Qed.
Lemma meta_insert m n f v : ptrs_ok metafile_wf m -> bare_files m -> m <> None -> utf8_text n -> entry_wf f v -> exists m', mset n (Some f) m = Ok m' /\ ptrs_ok metafile_wf m' /\ bare_files m' /\ m' <> None /\ (exists mm, m' = Some mm /\ mm !! n = Some (Some f)) /\ forall k, k <> n -> mget m' k = mget m k.
Proof.
  intros H1 H2 H3 Hn (W1 & W2 & W3). destruct m as [mm|]; [|done]. eexists. split; [done|]. split; [|split; [|split; [done|split]]].
  - intros k o Hk. cbn in Hk. apply lookup_insert_Some in Hk as [[<- <-]|[_ Hk]]; [|by apply H1]. split; [done|]. by intros ? [= <-].
  - intros k x Hk. cbn in Hk. apply lookup_insert_Some in Hk as [[<- [= <-]]|[_ Hk]]; [done|by apply (H2 k)].
  - eexists. split; [done|apply lookup_insert].
  - intros k Hk. cbn. by rewrite lookup_insert_ne.
Qed.
Lemma timestamp_body tr S kr e local : crew S kr -> body e local S -> exists x f b, sim_update_timestamp E tr S = Ok (set_sim_timestamp S x) /\ body e local (set_sim_timestamp S x) /\
  names_snapshot x f /\ mf_version f = sn_version (md_signed (sm_snapshot S)) /\ to_bytes (one (kr "snapshot") (sm_snapshot S)) = Ok b /\ describes f b.
Proof.
  intros Hc Hct. destruct (fetch_snapshot S kr e local Hc Hct) as (b & Hb & _ & Hf). pose proof Hct as (T1 & T2 & T3 & T4). destruct T2 as ((_ & _ & Hv & _) & _). destruct (info_run tr S "snapshot" (sn_version (md_signed (sm_snapshot S))) b Hv (fun tr => Hf tr (-1))) as (f & Hi & Hw & Hd).
  destruct T3 as ((W1 & W2 & W3 & W4 & W5 & W6) & (B1 & B2) & Ty & Un & Ex & Me). destruct (meta_insert _ "snapshot.json" f _ W5 B2 Me ltac:(by apply plain_text) Hw) as (m' & M1 & M2 & M3 & M4 & (mm & M5 & M6) & _).
  unfold sim_update_timestamp. rewrite Hi. cbn [obind]. rewrite M1. cbn [obind]. eexists _, f, b. split; [done|]. destruct Hct as (Q1 & Q2 & _ & Q4). split.
  - unfold body. cbn [set_sim_timestamp sm_targets sm_snapshot sm_timestamp sm_root sm_local set_signed md_signed md_unrec ts_type ts_expires ts_meta]. split; [exact Q1|]. split; [exact Q2|]. split; [|exact Q4].
    split; [|split; [split; [exact B1|exact M3]|split; [exact Ty|split; [exact Un|split; [exact Ex|exact M4]]]]]. split; [exact W1|]. split; [exact W2|]. split; [apply wrap64_int|]. split; [exact W4|]. split; [exact M2|exact W6].
  - split; [exists mm; split; [exact M5|exact M6]|]. split; [by destruct Hw as (_ & _ & ?)|]. done.
Qed.
Lemma timestamp_run tr S kr e local : crew S kr -> content e local S -> exists x f b, sim_update_timestamp E tr S = Ok (set_sim_timestamp S x) /\ content e local (set_sim_timestamp S x) /\
  names_snapshot x f /\ mf_version f = sn_version (md_signed (sm_snapshot S)) /\ to_bytes (one (kr "snapshot") (sm_snapshot S)) = Ok b /\ describes f b.
Proof.
  intros Hc Hct. destruct (timestamp_body tr S kr e local Hc (content_body _ _ _ Hct)) as (x & f & b & H1 & (Q1 & Q2 & Q3 & Q4 & Q5) & H2). exists x, f, b. split; [exact H1|]. split; [|exact H2]. destruct Hct as (_ & _ & _ & _ & Hd & _). exact (conj Q1 (conj Q2 (conj Q3 (conj Q4 (conj Hd Q5))))).
Qed.
Lemma all_targets_one tr S e local : content e local S -> all_targets E tr S = [("targets", tg_version (md_signed (sm_targets S)))].
Proof.
  intros (((_ & _ & Hty) & _) & _ & _ & _ & Hd & _). unfold all_targets. rewrite Hd, Hty. pose proof (e_order_perm E (metadata targets_t) tr (map_to_list ∅)) as Hp. rewrite map_to_list_empty in Hp. apply Permutation_nil_r in Hp. rewrite map_to_list_empty, Hp. done.
Qed.
(** what holds right after UpdateSnapshot *)
Definition synced (S : sim) (kr : string -> string) : Prop := exists f g bs bg,
  names_snapshot (sm_timestamp S) f /\ mf_version f = sn_version (md_signed (sm_snapshot S)) /\ to_bytes (one (kr "snapshot") (sm_snapshot S)) = Ok bs /\ describes f bs /\
  lists_file (sm_snapshot S) "targets.json" g /\ mf_version g = tg_version (md_signed (sm_targets S)) /\ to_bytes (one (kr "targets") (sm_targets S)) = Ok bg /\ describes g bg.
Lemma snapshot_run tr tr' S kr b0 r0 l e local : crew S kr -> chain S kr b0 r0 l -> content e local S -> exists S', sim_update_snapshot E tr tr' S = Ok S' /\ sm_keys S' = sm_keys S /\ crew S' kr /\ chain S' kr b0 r0 l /\ content e local S' /\ synced S' kr.
Proof.
  intros Hc Hch Hct. destruct (fetch_targets S kr e local Hc (content_body _ _ _ Hct)) as (bg & Hbg & _ & Hf). pose proof Hct as (T1 & T2 & T3 & T4). destruct T1 as (((_ & _ & Hv & _) & _) & _). destruct (info_run tr S "targets" (tg_version (md_signed (sm_targets S))) bg Hv (fun tr => Hf tr (-1))) as (g & Hi & Hw & Hd).
  destruct T2 as ((W1 & W2 & W3 & W4 & W5 & W6) & (B1 & B2) & Ty & Un & Ex & Me). destruct (meta_insert _ "targets.json" g _ W5 B2 Me ltac:(by apply plain_text) Hw) as (m' & M1 & M2 & M3 & M4 & (mm & M5 & M6) & _).
  unfold sim_update_snapshot. rewrite (all_targets_one tr S e local Hct). cbn [list_roles]. rewrite Hi. cbn [obind]. change ("targets" +:+ ".json") with "targets.json". rewrite M1. cbn [obind].
  match goal with |- context [sim_update_timestamp E tr' ?s] => set (S1 := s) end. assert (crew S1 kr) as Hc1 by exact Hc. assert (content e local S1) as Hct1.
  { destruct Hct as (Q1 & _ & Q3 & Q4). split; [exact Q1|]. split; [|split; [exact Q3|exact Q4]]. cbn [S1 set_sim_snapshot sm_snapshot set_signed md_signed md_unrec].
    split; [|split; [split; [exact B1|exact M3]|split; [exact Ty|split; [exact Un|split; [exact Ex|exact M4]]]]]. split; [exact W1|]. split; [exact W2|]. split; [apply wrap64_int|]. split; [exact W4|]. split; [exact M2|exact W6]. }
  destruct (timestamp_run tr' S1 kr e local Hc1 Hct1) as (x & f & bs & H1 & H2 & H3 & H4 & H5 & H6). exists (set_sim_timestamp S1 x). split; [done|]. split; [done|]. split; [exact Hc|]. split; [exact Hch|]. split; [done|].
  exists f, g, bs, bg. split; [exact H3|]. split; [exact H4|]. split; [exact H5|]. split; [exact H6|]. split; [exists mm; split; [exact M5|exact M6]|]. split; [by destruct Hw as (_ & _ & ?)|]. split; [exact Hbg|exact Hd].
Qed.
Lemma add_target_body path data S kr b0 r0 l e local : utf8_text path -> Z.of_nat (String.length data) < 2 ^ 63 -> crew S kr -> chain S kr b0 r0 l -> body e local S ->
  exists S', add_target "targets" data path S = Ok S' /\ sm_keys S' = sm_keys S /\ crew S' kr /\ chain S' kr b0 r0 l /\ body e local S' /\ sm_delegates S' = sm_delegates S /\ sm_signers S' = sm_signers S /\ tg_delegations (md_signed (sm_targets S')) = tg_delegations (md_signed (sm_targets S)).
Proof.
  intros Hp Hl Hc Hch Hct. unfold add_target. change (targetfile_from_bytes path data ["sha256"]) with (Ok (info_of path data)). cbn [obind get_delegator String.eqb Ascii.eqb Bool.eqb].
  pose proof Hct as ((Pt & Un & Ex & Me) & T2 & T3 & T4). destruct (tg_targets (md_signed (sm_targets S))) as [m|] eqn:Em; [|done]. cbn [mset obind].
  eexists. split; [done|]. split; [done|]. split; [exact Hc|]. split; [exact Hch|]. split; [|done]. split; [|exact (conj T2 (conj T3 T4))].
  assert (set_target path (info_of path data) (sm_targets S) = Ok (set_signed (sm_targets S) (mkTargets (tg_type (md_signed (sm_targets S))) (tg_spec (md_signed (sm_targets S))) (tg_version (md_signed (sm_targets S))) (tg_expires (md_signed (sm_targets S)))
      (Some (<[path := Some (info_of path data)]> m)) (tg_delegations (md_signed (sm_targets S))) (tg_unrec (md_signed (sm_targets S)))))) as Hset by (unfold set_target; by rewrite Em).
  split; [|split; [exact Un|split; [exact Ex|done]]]. apply (plain_set_target _ _ _ _ Hset Pt Hp); [by apply info_wf|done|done].
Qed.
Lemma version_body v S e local : int_ok v -> body e local S -> body e local (set_targets S (with_targets_version (sm_targets S) v)).
Proof.
  intros Hv ((Pt & Un & Ex & Me) & T2). split; [|exact T2]. split; [|split; [exact Un|split; [exact Ex|exact Me]]]. destruct Pt as ((H1 & H2 & _ & H4 & H5) & B & Ty). split; [|split; [exact B|exact Ty]]. split; [exact H1|]. split; [exact H2|]. split; [exact Hv|]. split; [exact H4|exact H5].
Qed.
Lemma add_target_run path data S kr b0 r0 l e local : utf8_text path -> Z.of_nat (String.length data) < 2 ^ 63 -> crew S kr -> chain S kr b0 r0 l -> content e local S ->
  exists S', add_target "targets" data path S = Ok S' /\ sm_keys S' = sm_keys S /\ crew S' kr /\ chain S' kr b0 r0 l /\ content e local S'.
Proof.
  intros Hp Hl Hc Hch Hct. destruct (add_target_body path data S kr b0 r0 l e local Hp Hl Hc Hch (content_body _ _ _ Hct)) as (S' & H1 & H2 & H3 & H4 & H5 & H6 & _). exists S'. split; [done|]. split; [done|]. split; [done|]. split; [done|].
  apply body_content; [done|]. rewrite H6. by destruct Hct as (_ & _ & _ & _ & ? & _).
Qed.
Lemma version_run v S e local : int_ok v -> content e local S -> content e local (set_targets S (with_targets_version (sm_targets S) v)).
Proof. intros Hv Hct. apply body_content; [by apply version_body, content_body|]. by destruct Hct as (_ & _ & _ & _ & ? & _). Qed.
(** ** Any history *)
Lemma perform_run tr tr' a S kr b0 r0 l e local : sensible a -> (sm_keys S + keys_made a <= N)%nat -> Z.of_nat (List.length l) < 2 ^ 62 -> crew S kr -> chain S kr b0 r0 l -> content e local S ->
  exists S' kr' l', perform E key tr tr' a S = Ok S' /\ sm_keys S' = (sm_keys S + keys_made a)%nat /\ crew S' kr' /\ chain S' kr' b0 r0 (l ++ l') /\ content e local S' /\ (List.length l' <= 1)%nat /\ kr' "root" = kr "root".
Proof.
  intros Ha Hn Hl Hc Hch Hct. destruct a as [path data|v|b|b| | |roles b]; cbn [keys_made] in *.
  - destruct Ha as [Hp Hd]. destruct (add_target_run path data S kr b0 r0 l e local Hp Hd Hc Hch Hct) as (S' & H1 & H2 & H3 & H4 & H5). exists S', kr, []. rewrite app_nil_r. split; [done|]. split; [lia|]. split; [done|]. split; [done|]. split; [done|split; [cbn; lia|done]].
  - eexists _, kr, []. rewrite app_nil_r. split; [done|]. split; [cbn; lia|]. split; [exact Hc|]. split; [exact Hch|]. split; [by apply version_run|split; [cbn; lia|done]].
  - eexists _, kr, []. rewrite app_nil_r. split; [done|]. split; [cbn; lia|]. split; [exact Hc|]. split; [exact Hch|]. split; [exact Hct|split; [cbn; lia|done]].
  - eexists _, kr, []. rewrite app_nil_r. split; [done|]. split; [cbn; lia|]. split; [exact Hc|]. split; [exact Hch|]. split; [exact Hct|split; [cbn; lia|done]].
  - destruct (timestamp_run tr S kr e local Hc Hct) as (x & f & bs & H1 & H2 & _). eexists _, kr, []. rewrite app_nil_r. split; [exact H1|]. split; [cbn; lia|]. split; [exact Hc|]. split; [exact Hch|]. split; [exact H2|split; [cbn; lia|done]].
  - destruct (snapshot_run tr tr' S kr b0 r0 l e local Hc Hch Hct) as (S' & H1 & H2 & H3 & H4 & H5 & _). exists S', kr, []. rewrite app_nil_r. split; [exact H1|]. split; [lia|]. split; [done|]. split; [done|]. split; [done|split; [cbn; lia|done]].
  - destruct (new_root_run tr roles b S kr b0 r0 l e local Ha Hn Hl Hc Hch Hct) as (S' & kr' & x & H1 & H2 & H3 & H4 & H5 & H6). exists S', kr', [x]. split; [exact H1|]. split; [done|]. split; [done|]. split; [done|]. split; [done|split; [cbn; lia|done]].
Qed.
Lemma perform_all_run h : forall S kr b0 r0 l e local, Forall (fun x => sensible x.2) h -> (sm_keys S + sum_list (map (fun x => keys_made x.2) h) <= N)%nat -> Z.of_nat (List.length l + List.length h) < 2 ^ 62 -> crew S kr -> chain S kr b0 r0 l -> content e local S ->
  exists S' kr' l', perform_all E key h S = Ok S' /\ crew S' kr' /\ chain S' kr' b0 r0 (l ++ l') /\ content e local S' /\ (List.length l' <= List.length h)%nat /\ kr' "root" = kr "root" /\ (sm_keys S' = sm_keys S + sum_list (map (fun x => keys_made x.2) h))%nat.
Proof.
  induction h as [|[[tr tr'] a] h IH]; intros S kr b0 r0 l e local Hs Hn Hl Hc Hch Hct; cbn [perform_all map snd List.length] in *.
  - exists S, kr, []. rewrite app_nil_r. split; [done|]. split; [done|]. split; [done|]. split; [done|]. split; [cbn; lia|]. split; [done|cbn; lia].
  - assert (sm_keys S + (keys_made a + sum_list (map (fun x => keys_made x.2) h)) <= N)%nat as Hn' by exact Hn. clear Hn. apply Forall_cons in Hs as [Ha Hs]. destruct (perform_run tr tr' a S kr b0 r0 l e local Ha) as (S1 & kr1 & l1 & H1 & H2 & H3 & H4 & H5 & H6 & H7); [lia|lia|done|done|done|].
    rewrite H1. cbn [obind]. destruct (IH S1 kr1 b0 r0 (l ++ l1) e local Hs) as (S' & kr' & l' & Q1 & Q2 & Q3 & Q4 & Q5 & Q6 & Q7); [lia|rewrite app_length; lia|done|done|done|].
    exists S', kr', (l1 ++ l'). rewrite app_assoc. split; [done|]. split; [done|]. split; [done|]. split; [done|]. split; [rewrite app_length; lia|]. split; [congruence|]. rewrite Q7, H2. change (sum_list (keys_made a :: map (fun x => keys_made x.2) h)) with (keys_made a + sum_list (map (fun x => keys_made x.2) h))%nat. lia.
Qed.

(** ** Downloads *)
Section Serving.
Context (path_of : string -> option string).
Lemma fetch_json tr S url name : path_of url = Some (sm_local S +:+ "/metadata/" +:+ name +:+ ".json") -> sim_fetch E path_of tr S url = fetch_named E tr S name.
Proof.
  intros Hp. unfold sim_fetch. rewrite Hp. unfold trim_prefix. rewrite strip_own. cbn [from_option id]. unfold id. rewrite strip_own. rewrite suffix_own. change 5%nat with (String.length ".json"). by rewrite take_own.
Qed.
Lemma download_ok tr S url data len : sim_fetch E path_of tr S url = Ok data -> Z.of_nat (String.length data) <= len -> sim_download E path_of tr S url len = Ok data.
Proof. intros H Hl. unfold sim_download. rewrite H. cbn [obind]. unfold str_len. by rewrite (proj2 (Z.ltb_ge len _)) by lia. Qed.
Lemma role_no_dot role : role ∈ ["root"; "timestamp"; "snapshot"; "targets"] -> no_dot role.
Proof. rewrite !elem_of_cons, elem_of_nil. by intros [->|[->|[->|[->|[]]]]]. Qed.
Lemma named_root tr S v : 0 <= v < 2 ^ 63 -> fetch_named E tr S (fmt_dec v +:+ "." +:+ "root") = fetch_metadata E tr S "root" v.
Proof. intros Hv. unfold fetch_named. rewrite partition_two by (apply fmt_dec_no_dot || done). rewrite String.eqb_refl. cbn [orb]. by rewrite atoi_fmt. Qed.
Lemma named_versioned tr S v role data : rt_consistent (md_signed (sm_root S)) = true -> role ∈ ["snapshot"; "targets"] -> (forall w, fetch_metadata E tr S role w = Ok data) -> fetch_named E tr S (fmt_dec v +:+ "." +:+ role) = Ok data.
Proof.
  intros Hc Hr Hf. assert (no_dot role) as Hd by (apply role_no_dot; rewrite !elem_of_cons in *; tauto). unfold fetch_named. rewrite partition_two by (apply fmt_dec_no_dot || done). rewrite Hc. rewrite (proj2 (String.eqb_neq (fmt_dec v +:+ "." +:+ role) "timestamp")); [rewrite orb_true_r; apply Hf|].
  intros Hx%(f_equal partition_dot). rewrite partition_two in Hx by (apply fmt_dec_no_dot || done). rewrite partition_plain in Hx by done. injection Hx as Hx _. by apply (fmt_dec_ne v).
Qed.
Lemma named_plain tr S role data : role ∈ ["timestamp"; "snapshot"; "targets"] -> role = "timestamp" \/ rt_consistent (md_signed (sm_root S)) = false -> (forall w, fetch_metadata E tr S role w = Ok data) -> fetch_named E tr S role = Ok data.
Proof.
  intros Hr Hc Hf. assert (no_dot role) as Hd by (apply role_no_dot; rewrite !elem_of_cons in *; tauto). unfold fetch_named. rewrite partition_plain by done. destruct (_ || _); apply Hf.
Qed.
Lemma root_at tr S v data : 0 < v -> sm_roots S !! Z.to_nat (v - 1) = Some data -> fetch_metadata E tr S "root" v = Ok data.
Proof.
  intros Hv Hd. unfold fetch_metadata. cbn [String.eqb Ascii.eqb Bool.eqb]. pose proof (lookup_lt_Some _ _ _ Hd) as Hl. rewrite (proj2 (Z.ltb_ge (Z.of_nat (List.length (sm_roots S))) v)) by lia. cbn [andb]. rewrite (proj2 (Z.ltb_ge (v - 1) 0)) by lia. by rewrite Hd.
Qed.
Lemma root_missing tr S v : Z.of_nat (List.length (sm_roots S)) < v -> fetch_metadata E tr S "root" v = Err (ErrDownloadHTTP 404 "").
Proof. intros Hv. unfold fetch_metadata. cbn [String.eqb Ascii.eqb Bool.eqb]. rewrite (proj2 (Z.ltb_lt (Z.of_nat (List.length (sm_roots S))) v)) by lia. rewrite (proj2 (Z.ltb_lt 0 v)) by lia. done. Qed.

(** what the simulator publishes, as a publication *)
Theorem sim_published E2 S kr b0 r0 l e local c now : crew S kr -> chain S kr b0 r0 l -> body e local S -> synced S kr -> Z.of_nat (List.length l) < 2 ^ 62 ->
  fetches_from E E2 path_of c S -> fits E c S -> c_unsafe_local c = false -> c_max_root_rotations c < 2 ^ 62 -> Z.of_nat (List.length l) <= c_max_root_rotations c -> now <= instant e ->
  exists P, honest r0 (metadata_kept (one (kr "root") (sm_root S))) now P /\ on_server E2 c r0 (metadata_kept (one (kr "root") (sm_root S))) P /\ can_follow c r0 P /\
    pub_timestamp_md P = metadata_kept (one (kr "timestamp") (sm_timestamp S)) /\ pub_snapshot_md P = metadata_kept (one (kr "snapshot") (sm_snapshot S)) /\ pub_targets_md P = metadata_kept (one (kr "targets") (sm_targets S)) /\
    mf_version (pub_snapshot_info P) = sn_version (md_signed (sm_snapshot S)) /\ mf_version (pub_targets_info P) = tg_version (md_signed (sm_targets S)).
Proof.
  intros Hc Hch Hct (f & g & bs & bg & F1 & F2 & F3 & F4 & G1 & G2 & G3 & G4) Hl [Hnet Hpath] Hfit C2 C8 Hrot Hnow.
  destruct (fetch_targets S kr e local Hc Hct) as (bg' & Bg1 & Bg2 & Bg3). rewrite G3 in Bg1. injection Bg1 as <-.
  destruct (fetch_snapshot S kr e local Hc Hct) as (bs' & Bs1 & Bs2 & Bs3). rewrite F3 in Bs1. injection Bs1 as <-.
  destruct (fetch_timestamp S kr e local Hc Hct) as (bt & Bt1 & Bt2 & Bt3).
  destruct Hch as (R1 & R2 & R3 & R4 & R5 & R6). set (r := metadata_kept (one (kr "root") (sm_root S))).
  assert (rt_version (md_signed r) = 1 + Z.of_nat (List.length l)) as Rv by (unfold r; cbn [metadata_kept md_signed signed_kept root_spec root_kept rt_version]; by rewrite one_signed).
  assert (rt_consistent (md_signed r) = rt_consistent (md_signed (sm_root S))) as Rc by (unfold r; cbn [metadata_kept md_signed signed_kept root_spec root_kept rt_consistent]; by rewrite one_signed).
  set (P := mkPublication l bt (metadata_kept (one (kr "timestamp") (sm_timestamp S))) bs (metadata_kept (one (kr "snapshot") (sm_snapshot S))) bg (metadata_kept (one (kr "targets") (sm_targets S))) (metafile_kept f) (metafile_kept g)).
  assert (forall (role : string) (v : Z), role ∈ ["root"; "timestamp"; "snapshot"; "targets"] -> query_escape role = role) as Hq by (intros role _; rewrite !elem_of_cons, elem_of_nil; by intros [->|[->|[->|[->|[]]]]]).
  (* URLs *)
  assert (forall tr role v, role ∈ ["root"; "timestamp"; "snapshot"; "targets"] -> sim_fetch E path_of tr S (url_of c role (fmt_dec v)) = fetch_named E tr S (fmt_dec v +:+ "." +:+ role)) as Uv.
  { intros tr role v Hr. destruct (Hpath role Hr) as [_ Hp]. rewrite url_name by (by apply (Hq role 0)). unfold versioned_name. apply fetch_json. rewrite Hp. by rewrite !app_assoc_s. }
  assert (forall tr role, role ∈ ["root"; "timestamp"; "snapshot"; "targets"] -> sim_fetch E path_of tr S (url_of c role "") = fetch_named E tr S role) as Up.
  { intros tr role Hr. destruct (Hpath role Hr) as [Hp _]. apply fetch_json. rewrite <- Hp. unfold url_of, with_slash. rewrite (Hq role 0 Hr). done. }
  assert (forall url data, (forall tr, sim_fetch E path_of tr S url = Ok data) -> serves E2 url data) as Hserves by (intros url data Hf tr len Hlen; rewrite Hnet; by apply download_ok).
  destruct (Hfit [] "timestamp" (c_timestamp_max c) 0 bt ltac:(rewrite !elem_of_cons; tauto) (Bt3 [] 0)) as [St4 St2]. destruct (Hfit [] "snapshot" (c_snapshot_max c) 0 bs ltac:(rewrite !elem_of_cons; tauto) (Bs3 [] 0)) as [Ss5 Ss2].
  destruct (Hfit [] "targets" (c_targets_max c) 0 bg ltac:(rewrite !elem_of_cons; tauto) (Bg3 [] 0)) as [Sg6 Sg2].
  assert (forall tr, sim_fetch E path_of tr S (url_of c "timestamp" "") = Ok bt) as Fts.
  { intros tr. rewrite Up by (rewrite !elem_of_cons; tauto). apply named_plain; [rewrite !elem_of_cons; tauto|by left|]. intros w. apply Bt3. }
  assert (forall v tr, sim_fetch E path_of tr S (url_of c "snapshot" (version_in_url r v)) = Ok bs) as Fsn.
  { intros v tr. unfold version_in_url. rewrite Rc. destruct (rt_consistent (md_signed (sm_root S))) eqn:Ec; [rewrite Uv by (rewrite !elem_of_cons; tauto); apply named_versioned|rewrite Up by (rewrite !elem_of_cons; tauto); apply named_plain]; try done; try (rewrite !elem_of_cons; tauto); try (by right). }
  assert (forall v tr, sim_fetch E path_of tr S (url_of c "targets" (version_in_url r v)) = Ok bg) as Ftg.
  { intros v tr. unfold version_in_url. rewrite Rc. destruct (rt_consistent (md_signed (sm_root S))) eqn:Ec; [rewrite Uv by (rewrite !elem_of_cons; tauto); apply named_versioned|rewrite Up by (rewrite !elem_of_cons; tauto); apply named_plain]; try done; try (rewrite !elem_of_cons; tauto); try (by right). }
  pose proof (Hserves _ _ Fts) as St1. pose proof (Hserves _ _ (Fsn (mf_version (metafile_kept f)))) as Ss1. pose proof (Hserves _ _ (Ftg (mf_version (metafile_kept g)))) as Sg1.
  destruct (content_targets e local S Hct) as (_ & _ & Hbg & _). destruct (content_snapshot e local S Hct) as (_ & _ & Hbs & _). destruct (content_timestamp e local S Hct) as (_ & _ & Hbt & _).
  assert (forall n, n ∈ top_level_roles -> team_of (md_signed (one (kr "root") (sm_root S))) n [kr n] 1) as Hteam by (intros n Hn; rewrite one_signed; by apply Hc).
  destruct Hct as ((_ & _ & Eg & _) & (_ & _ & _ & _ & Es & _) & (_ & _ & _ & _ & Et & _) & Er & _).
  assert (honest r0 r now P) as Hhon.
  { split; [exact R4|]. cbn [P pub_timestamp pub_timestamp_md pub_snapshot pub_snapshot_md pub_targets pub_targets_md pub_snapshot_info pub_targets_info].
    split; [unfold r; rewrite expired_kept by constructor; unfold expired_at; rewrite one_signed; cbn; rewrite Er; lia|].
    split; [split; [exact Bt2|]; split; [apply root_signs_kept; [constructor|]; apply one_root_signs; [apply Hteam; unfold top_level_roles; rewrite !elem_of_cons; tauto|done]|rewrite expired_kept by constructor; unfold expired_at; rewrite one_signed; cbn; rewrite Et; lia]|].
    split; [split; [apply names_kept; unfold names_snapshot; rewrite one_signed; exact F1|]; split; [apply matches_kept, F4; done|cbn [metadata_kept md_signed]; rewrite one_signed; cbn; done]|].
    split; [split; [exact Bs2|]; split; [apply root_signs_kept; [constructor|]; apply one_root_signs; [apply Hteam; unfold top_level_roles; rewrite !elem_of_cons; tauto|done]|rewrite expired_kept by constructor; unfold expired_at; rewrite one_signed; cbn; rewrite Es; lia]|].
    split; [split; [apply lists_kept; unfold lists_file; rewrite one_signed; exact G1|]; split; [apply matches_kept, G4; done|cbn [metadata_kept md_signed]; rewrite one_signed; cbn; done]|].
    split; [exact Bg2|]. split; [apply root_signs_kept; [constructor|]; apply one_root_signs; [apply Hteam; unfold top_level_roles; rewrite !elem_of_cons; tauto|done]|rewrite expired_kept by constructor; unfold expired_at; rewrite one_signed; cbn; rewrite Eg; lia]. }
  assert (on_server E2 c r0 r P) as Hon.
  { split; [|split; [|split; [|split]]].
    - intros j data r1 Hj. cbn [P pub_roots] in Hj. pose proof (lookup_lt_Some _ _ _ Hj) as Hlt. rewrite R5.
      assert (forall tr, fetch_metadata E tr S "root" (1 + 1 + Z.of_nat j) = Ok data) as Hf.
      { intros tr. apply root_at; [lia|]. rewrite R1. replace (Z.to_nat (1 + 1 + Z.of_nat j - 1)) with (Datatypes.S j) by lia. exact (eq_trans (list_lookup_fmap fst l j) (f_equal (fmap fst) Hj)). }
      split; [by apply (Hfit [] "root" (c_root_max c) _ data ltac:(rewrite !elem_of_cons; tauto) (Hf []))|]. apply Hserves. intros tr. rewrite Uv by (rewrite !elem_of_cons; tauto). rewrite named_root by lia. apply Hf.
    - intros tr len. exists (ErrDownloadHTTP 404 ""). split; [|left; constructor]. rewrite Hnet. unfold sim_download. rewrite Uv by (rewrite !elem_of_cons; tauto). rewrite Rv, named_root by lia. rewrite root_missing; [done|]. rewrite R1. cbn. rewrite map_length. lia.
    - done.
    - done.
    - done. }
  exists P. split; [exact Hhon|]. split; [exact Hon|]. split; [split; [done|]; split; [done|]; rewrite R5; lia|]. do 3 (split; [done|]). split; [exact F2|exact G2].
Qed.
Lemma up_to_date_follows S kr P t : pub_timestamp_md P = metadata_kept (one (kr "timestamp") (sm_timestamp S)) -> pub_snapshot_md P = metadata_kept (one (kr "snapshot") (sm_snapshot S)) -> pub_targets_md P = metadata_kept (one (kr "targets") (sm_targets S)) ->
  up_to_date (metadata_kept (one (kr "root") (sm_root S))) P t -> follows S t.
Proof.
  intros P1 P2 P3 (U1 & U2 & U3 & U4). split; [rewrite U1; cbn [metadata_kept md_signed]; by rewrite one_signed|].
  split; [eexists; split; [exact U2|]; rewrite P1; cbn [metadata_kept md_signed]; by rewrite one_signed|]. split; [eexists; split; [exact U3|]; rewrite P2; cbn [metadata_kept md_signed]; by rewrite one_signed|].
  eexists. split; [exact U4|]. rewrite P3. cbn [metadata_kept md_signed]. by rewrite one_signed.
Qed.
Theorem sim_refresh E2 S kr b0 r0 l e local c now i : crew S kr -> chain S kr b0 r0 l -> content e local S -> synced S kr -> Z.of_nat (List.length l) < 2 ^ 62 ->
  fetches_from E E2 path_of c S -> fits E c S -> new_client E2 c b0 i -> Z.of_nat (List.length l) <= c_max_root_rotations c -> now <= instant e ->
  exists i' t w', updater_new E2 c now i = (i', Ok t) /\ call_api E2 c Refresh (mkWorld t i') = (w', Ok tt) /\ follows S (w_trusted w').
Proof.
  intros Hc Hch Hct Hsy Hl Hfetch Hfit (C1 & C2 & C3 & C4 & C5 & C6 & C7 & C8) Hrot Hnow.
  destruct (sim_published E2 S kr b0 r0 l e local c now Hc Hch (content_body _ _ _ Hct) Hsy Hl Hfetch Hfit C2 (proj2 C8) Hrot Hnow) as (P & Hhon & Hon & Hcan & P1 & P2 & P3 & _ & _). destruct Hch as (_ & R2 & R3 & _).
  destruct (PropertiesCache.C71_honest E2 c r0 (metadata_kept (one (kr "root") (sm_root S))) P now i) as (i' & t & w' & H1 & H2 & H3); try done.
  - by rewrite C1.
  - rewrite C1. intros ->. destruct R2 as [R2 _]. by vm_compute in R2.
  - intros role. rewrite C5. apply lookup_empty.
  - exists i', t, w'. split; [done|]. split; [done|]. by apply (up_to_date_follows S kr P).
Qed.
End Serving.
End Sim.

(** ** The targets that are listed *)
Section Listed.
Context {CR : Crypto} (E : env) (key : string -> signer).
Definition listed (S : sim) (f : string -> option targetfile) : Prop :=
  tg_delegations (md_signed (sm_targets S)) = None /\ exists m, tg_targets (md_signed (sm_targets S)) = Some m /\ forall path, m !! path = option_map Some (f path).
Lemma new_root_keys_targets roles : forall S S', new_root_keys key roles S = Ok S' -> sm_targets S' = sm_targets S.
Proof.
  induction roles as [|r roles IH]; intros S S'; cbn [new_root_keys]; [by intros [= <-]|]. destruct (new_root_key key r S) as [S1|?|] eqn:E1; [|done..]. cbn [obind]. intros H%IH. rewrite H. clear H.
  unfold new_root_key in E1. destruct (public_part _) as [k|?|]; [|done..]. destruct (match root_add_key _ _ _ with Ok x => Ok x | Err _ => _ | Panic => Panic end) as [x|?|]; [|done..]. cbn [obind] in E1. destruct (key_id k) as [i|?|]; [|done..]. cbn [obind] in E1. by injection E1 as <-.
Qed.
Lemma rotate_all_targets roles : forall S S', rotate_all key roles S = Ok S' -> sm_targets S' = sm_targets S.
Proof.
  induction roles as [|r roles IH]; intros S S'; cbn [rotate_all]; [by intros [= <-]|]. destruct (rotate_keys key r S) as [S1|?|] eqn:E1; [|done..]. cbn [obind]. intros H%IH. rewrite H. clear H.
  unfold rotate_keys in E1. destruct (mget _ r) as [[x|]|]; [|done..]. by apply new_root_keys_targets in E1.
Qed.
Lemma publish_targets tr S S' : publish_root E tr S = Ok S' -> sm_targets S' = sm_targets S.
Proof. unfold publish_root. destruct (sign_each _ _) as [m|?|]; [|done..]. cbn [obind]. destruct (to_bytes m); [| |done]; by intros [= <-]. Qed.
Lemma timestamp_targets tr S S' : sim_update_timestamp E tr S = Ok S' -> sm_targets S' = sm_targets S.
Proof. unfold sim_update_timestamp. destruct (file_info _ _ _ _ _) as [f|?|]; [|done..]. cbn [obind]. destruct (mset _ _ _) as [l|?|]; [|done..]. cbn [obind]. by intros [= <-]. Qed.
Lemma snapshot_targets tr tr' S S' : sim_update_snapshot E tr tr' S = Ok S' -> sm_targets S' = sm_targets S.
Proof. unfold sim_update_snapshot. destruct (list_roles _ _ _ _ _) as [f|?|]; [|done..]. cbn [obind]. by intros H%timestamp_targets. Qed.
Lemma perform_listed tr tr' a S S' f : perform E key tr tr' a S = Ok S' -> listed S f ->
  listed S' (fun path => match a with AddTargetFile p data => if String.eqb p path then Some (info_of p data) else f path | _ => f path end).
Proof.
  intros H Hl. destruct a as [p data|v|b|b| | |roles b]; cbn [perform] in H.
  - unfold add_target in H. change (targetfile_from_bytes p data ["sha256"]) with (Ok (info_of p data)) in H. cbn [obind get_delegator String.eqb Ascii.eqb Bool.eqb] in H. destruct Hl as (Hd & m & Hm & Hf). rewrite Hm in H. cbn [mset obind] in H. injection H as <-.
    split; [exact Hd|]. exists (<[p := Some (info_of p data)]> m). split; [done|]. intros path. destruct (String.eqb_spec p path) as [->|Hn]; [apply lookup_insert|]. rewrite lookup_insert_ne by done. apply Hf.
  - injection H as <-. exact Hl.
  - injection H as <-. exact Hl.
  - injection H as <-. exact Hl.
  - apply timestamp_targets in H. unfold listed. by rewrite H.
  - apply snapshot_targets in H. unfold listed. by rewrite H.
  - destruct (rotate_all key roles S) as [S1|?|] eqn:E1; [|done..]. cbn [obind] in H. apply publish_targets in H. apply rotate_all_targets in E1. unfold listed. rewrite H. cbn [set_sim_root sm_targets]. by rewrite E1.
Qed.
Lemma perform_all_listed h : forall S S' f, perform_all E key h S = Ok S' -> listed S f ->
  listed S' (fun path => match last_added h path with Some data => Some (info_of path data) | None => f path end).
Proof.
  induction h as [|[[tr tr'] a] h IH]; intros S S' f H Hl; cbn [perform_all last_added] in *; [by injection H as <-|].
  destruct (perform E key tr tr' a S) as [S1|?|] eqn:E1; [|done..]. cbn [obind] in H. pose proof (IH S1 S' _ H (perform_listed _ _ _ _ _ _ E1 Hl)) as (Hd & m & Hm & Hf). split; [exact Hd|]. exists m. split; [exact Hm|]. intros path. rewrite Hf.
  destruct (last_added h path); [done|]. destruct a; try done. destruct (String.eqb_spec path0 path); by subst.
Qed.
Lemma new_listed tr e local S : new_repository E key tr e local = Ok S -> listed S (fun _ => None).
Proof.
  unfold new_repository. destruct (new_root_keys key _ _) as [S1|?|] eqn:E1; [|done..]. cbn [obind]. intros H%publish_targets. apply new_root_keys_targets in E1. unfold listed. rewrite H, E1. cbn. split; [done|]. exists ∅. split; [done|]. intros path. apply lookup_empty.
Qed.
Lemma listed_found E2 c S f w path : listed S f -> follows S (w_trusted w) -> 0 <= c_max_delegations c ->
  match f path with
  | Some tf => get_target_info E2 c path w = (w, Ok (Some (targetfile_kept path tf)))
  | None => exists e, get_target_info E2 c path w = (w, Err e)
  end.
Proof.
  intros (Hd & m & Hm & Hf) (_ & _ & _ & tg & Ht & Hs) Hmax. unfold get_target_info, sbind, get_trusted. rewrite Ht. change TARGETS with "targets". rewrite lookup_singleton. cbn [sret].
  unfold pre_order_walk. replace (Z.to_nat (c_max_delegations c + 1)) with (Datatypes.S (Z.to_nat (c_max_delegations c))) by lia. cbn [walk skip_visited]. rewrite decide_False by set_solver.
  unfold load_targets, sbind, get_trusted. rewrite Ht. change TARGETS with "targets". rewrite lookup_singleton. cbn [sret]. rewrite Hs. cbn [signed_kept targets_spec targets_kept tg_targets tg_delegations]. rewrite Hd, Hm. cbn [option_map mget]. rewrite map_lookup_imap, Hf.
  destruct (f path) as [tf|]; cbn [option_map mbind option_bind]; [done|]. destruct (Z.to_nat (c_max_delegations c)); cbn [walk skip_visited]; by eexists.
Qed.
Lemma added_found E2 c h S w : listed S (fun path => match last_added h path with Some data => Some (info_of path data) | None => None end) -> follows S (w_trusted w) -> 0 <= c_max_delegations c -> finds_added E2 c h w.
Proof.
  intros Hl Hf Hc path. pose proof (listed_found E2 c S _ w path Hl Hf Hc) as H. cbn beta in H. destruct (last_added h path) as [data|]; [|exact H]. eexists. split; [exact H|]. split; [done|]. apply info_matches.
Qed.
End Listed.
