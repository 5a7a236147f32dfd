(** * Proofs for C111: what examples/repository writes *)
From stdpp Require Import base gmap strings list.
From Coq Require Import ZArith Lia Ascii String.
From Verif Require Import GoBase GoStr Json GoTime Types Marshal Keys Metadata TrustedMetadata Fetcher Updater Files Cli ExampleClients ExampleRepos
  StrProofs SpecUtf8 SpecText SpecSerial SpecRound RoundBase CanonProofs RoundKept SpecDeleg DelegProofs SpecBasic BasicProofs SpecSig SigProofs SpecKeys KeysProofs SpecTrusted SpecPublish PublishProofs PlainProofs FilesProofs SpecUpdater SpecReach HonestProofs PropertiesReach TrustedProofs PathProofs SpecRepos ReposProofs ServedProofs GenerateProofs RunsProofs TeamsProofs BasicRepoProofs.
Open Scope Z_scope.

Lemma digit_no_slash d : 0 <= d < 10 -> hexdig d <> "/"%char.
Proof. intros Hd H. pose proof (hexval_digit d ltac:(lia)) as Hv. rewrite H in Hv. done. Qed.
Lemma digits_no_slash l : Forall (fun d => 0 <= d < 10) l -> PathProofs.no_slash (string_of_digits l).
Proof. induction 1 as [|d l Hd _ IH]; [done|]. change (string_of_digits (d :: l)) with (String (hexdig d) (string_of_digits l)). apply no_slash_char. split; [by apply digit_no_slash|done]. Qed.
Lemma dec_no_slash n : PathProofs.no_slash (fmt_dec n).
Proof.
  unfold fmt_dec, fmt_base. destruct (Z.ltb_spec n 0) as [Hn|Hn]; [apply no_slash_app; split; [done|]|]; apply digits_no_slash; (eapply Forall_impl; [apply digits_of_val; lia|]; cbn; lia).
Qed.
Lemma tmp_plain n : plain_name ("tmp" +:+ fmt_dec n).
Proof. split; [done|]. split; [done|]. split; [done|]. apply no_slash_app. split; [done|apply dec_no_slash]. Qed.

Lemma ok_inj {A} (a b : A) : Ok a = Ok b -> a = b.
Proof. congruence. Qed.
Ltac unit_step H := let s := fresh "i" in let H1 := fresh "H" in apply sbind_ok in H as (s & [] & H1 & H).
Section Run.
Context {CR : Crypto} (E : env) (key : string -> signer) (expires : string -> gotime) (wd : list string).
Context (Hpem : pem_round_trip) (Hwork : keys_work key basic_keys) (Htext : text_keys key) (Ht : forall n, time_ok (expires n)).
Context (Hne : wd <> []) (Hwd : Forall plain_name wd) (Hcwd : e_cwd E = Some (abs_path wd)).
Notation kid := (kid key).
Definition place : string := abs_path (wd ++ [target_name]).
Lemma place_ok : path_join [abs_path wd; target_name] = place.
Proof. change target_name with (join_str "/" [target_name]) at 1. rewrite join_abs; [done|done|done|done|plain]. Qed.
Lemma mkdir_ok i i' dir : mkdir_temp E (abs_path wd) i = (i', Ok dir) -> exists tmp, plain_name tmp /\ dir = abs_path (wd ++ [tmp]) /\ io_disk i' = io_disk i /\ forall name, io_disk i !! file_in (wd ++ [tmp]) name = None.
Proof.
  unfold mkdir_temp, mkdir. set (p := abs_path wd +:+ "/tmp" +:+ fmt_dec _). intros H. exists ("tmp" +:+ fmt_dec (e_rand E (io_trace i))). split; [apply tmp_plain|].
  assert (p = abs_path (wd ++ ["tmp" +:+ fmt_dec (e_rand E (io_trace i))])) as Hp by (unfold p; rewrite abs_file by done; done).
  destruct (below p (io_disk i)) as [|f l] eqn:Eb.
  - destruct (e_io E (io_trace i)); [|by injection H]. injection H as <- <-. split; [done|]. split; [done|]. intros name. destruct (io_disk i !! file_in (wd ++ ["tmp" +:+ fmt_dec (e_rand E (io_trace i))]) name) as [data|] eqn:Ed; [|done]. exfalso.
    assert (In (file_in (wd ++ ["tmp" +:+ fmt_dec (e_rand E (io_trace i))]) name) (below p (io_disk i))) as Hin; [|by rewrite Eb in Hin].
    unfold below. apply filter_In. split.
    + apply in_map_iff. eexists (_, data). split; [reflexivity|]. apply elem_of_list_In, elem_of_map_to_list. exact Ed.
    + unfold file_in. rewrite Hp. apply DelegProofs.has_prefix_spec. exists name. by rewrite !app_assoc_s.
  - by injection H.
Qed.
Lemma next_snapshot_eq tf d : next_snapshot (delegating expires d (T1 key expires tf)) (S1 key expires) = Ok (set_signed (S1 key expires) (snapshot2 expires)).
Proof.
  unfold next_snapshot, S1. rewrite sign_by_signed. unfold delegating, T1. rewrite sign_by_signed. reflexivity.
Qed.
Lemma next_timestamp_eq : next_timestamp (set_signed (S1 key expires) (snapshot2 expires)) (M1 key expires) = Ok (set_signed (M1 key expires) (timestamp2 expires)).
Proof. unfold next_timestamp, M1. rewrite sign_by_signed. reflexivity. Qed.
Lemma delegating_eq tf d : clear_signatures (delegating expires d (T1 key expires tf)) = fresh (delegating_targets expires d).
Proof.
  unfold delegating, T1, clear_signatures, set_signed. cbn [md_signed md_unrec]. rewrite sign_by_signed, sign_by_unrec. unfold fresh, delegating_targets. cbn. do 3 f_equal. by rewrite delete_insert.
Qed.
Lemma clear_eq {T} {RT : RoleTy T} l (m : metadata T) x : md_unrec m = None -> clear_signatures (set_signed (sign_by l m) x) = fresh x.
Proof. intros H. unfold clear_signatures, set_signed, fresh. cbn. by rewrite sign_by_unrec, H. Qed.
Lemma sign1 {T} {RT : RoleTy T} n (m : metadata T) : bool_decide (n ∈ basic_keys) = true -> bare_signed (md_signed m) -> signed_with (key n) m = Ok (sign_by [key n] m).
Proof. intros Hn%in_keys Hb. by apply (sign_by_run key basic_keys). Qed.
Lemma version_of {T} {RT : RoleTy T} l (m : metadata T) : md_signed (sign_by l m) = md_signed m.
Proof. apply sign_by_signed. Qed.

(** what has been written, in the order of writing *)
Definition files (tmp : string) (d0 : disk) (bg1 bs1 bt1 br0 br1 bg bs bt bo br2 br3 : string) : disk :=
  let f n := file_in (wd ++ [tmp]) n in
  <[f "3.root.json" := br3]> (<[f "2.root.json" := br2]> (<[f "1.go-scripts.json" := bo]> (<[f "timestamp.json" := bt]> (<[f "2.snapshot.json" := bs]> (<[f "2.targets.json" := bg]>
    (<[f "1.root.json" := br1]> (<[f "1.root.json" := br0]> (<[f "timestamp.json" := bt1]> (<[f "1.snapshot.json" := bs1]> (<[f "1.targets.json" := bg1]> d0)))))))))).
Definition wrote (i i' : ios) (tmp data : string) (x : root_t) (k : Types.key) (r2a r3a : metadata root_t) (br1 bg bs bt bo br2 br3 : string) : Prop :=
  plain_name tmp /\ (forall name, io_disk i !! file_in (wd ++ [tmp]) name = None) /\ io_disk i !! place = Some data /\ made key expires place data x k r2a r3a /\
  (to_bytes_fmt true (R1 key x) = Ok br1 /\ to_bytes_fmt true (T2 key expires (scripts (kid "go-scripts") k)) = Ok bg /\ to_bytes_fmt true (S2 key expires) = Ok bs /\ to_bytes_fmt true (M2 key expires) = Ok bt /\ to_bytes_fmt true (GO key expires (info_of place data)) = Ok bo /\
    to_bytes_fmt true (sign_by (map key signers2) r2a) = Ok br2 /\ to_bytes_fmt true (sign_by (map key signers3) r3a) = Ok br3) /\
  exists bg1 bs1 bt1 br0, io_disk i' = files tmp (io_disk i) bg1 bs1 bt1 br0 br1 bg bs bt bo br2 br3.
Lemma basic_ok i i' dir : (forall p data, io_disk i !! p = Some data -> Z.of_nat (String.length data) < 2 ^ 63) -> basic_main E key expires i = (i', Ok dir) ->
  exists tmp data x k r2a r3a br1 bg bs bt bo br2 br3, dir = abs_path (wd ++ [tmp]) /\ wrote i i' tmp data x k r2a r3a br1 bg bs bt bo br2 br3.
Proof.
  intros Hsmall H. unfold basic_main in H. step H. unfold basic_first in H0. step H0. apply getwd_ok with (cwd := abs_path wd) in H1 as [-> ->]; [|done]. rewrite place_ok in H0.
  step H0. apply info_ok in H1 as (D0 & data & Hdata & ->). destruct (made_ok key expires Hpem Hwork Htext Ht place data (Hsmall _ _ Hdata)) as (x & k & r2a & r3a & HM).
  pose proof HM as ((A1 & A2 & A3 & A4) & (B1 & B2 & B3 & B4 & B5 & B6) & (W1 & W2 & W3 & W4 & W5) & _ & _ & _ & _ & _ & (V1 & V2 & V3 & _)).
  step H0. apply sout_ok in H1 as [-> Hs]. change (set_target _ _ _) with (Ok (with_target (expires "targets") (info_of place data))) in Hs. apply ok_inj in Hs as <-.
  step H0. apply sout_ok in H1 as [-> Hs]. rewrite A1 in Hs. apply ok_inj in Hs as <-.
  step H0. apply sout_ok in H1 as [-> Hs]. rewrite sign1 in Hs; [|reflexivity|unfold T1 in B2; by rewrite sign_by_signed in B2]. apply ok_inj in Hs as <-. fold (T1 key expires (info_of place data)) in H0.
  step H0. apply sout_ok in H1 as [-> Hs]. rewrite sign1 in Hs; [|reflexivity|by apply bare_snapshot1]. apply ok_inj in Hs as <-. fold (S1 key expires) in H0.
  step H0. apply sout_ok in H1 as [-> Hs]. rewrite sign1 in Hs; [|reflexivity|by apply bare_timestamp1]. apply ok_inj in Hs as <-. fold (M1 key expires) in H0.
  step H0. apply sout_ok in H1 as [-> Hs]. rewrite sign1 in Hs; [|reflexivity|by apply ready_bare]. apply ok_inj in Hs as <-. change (sign_by [key "root"] (set_signed (Root (expires "root")) x)) with (R0 key x) in H0.
  step H0. apply getwd_ok with (cwd := abs_path wd) in H1 as [-> ->]; [|done].
  step H0. apply mkdir_ok in H1 as (tmp & Htmp & -> & D1 & Hno).
  assert (forall n, plain_name n -> path_join [abs_path (wd ++ [tmp]); n] = file_in (wd ++ [tmp]) n) as Ej.
  { intros n Hn. change n with (join_str "/" [n]) at 1. rewrite join_abs; [by rewrite abs_file by (done || apply snoc_ne)|apply snoc_ne|by apply snoc_plain|done|by constructor]. }
  assert (tg_version (md_signed (T1 key expires (info_of place data))) = 1) as VT1 by (unfold T1; by rewrite sign_by_signed). assert (sn_version (md_signed (S1 key expires)) = 1) as VS1 by (unfold S1; by rewrite sign_by_signed). assert (rt_version (md_signed (R0 key x)) = 1) as VR0. { rewrite R1_signed in V1. unfold R0. rewrite sign_by_signed. exact V1. }
  rewrite VT1, VS1, VR0 in H0. rewrite !Ej in H0 by (by apply plain_name_b). change (versioned_name 1 "targets") with "1.targets.json" in H0. change (versioned_name 1 "snapshot") with "1.snapshot.json" in H0. change (versioned_name 1 "root") with "1.root.json" in H0.
  unit_step H0. apply to_file_ok in H1 as (bg1 & _ & _ & ->). unit_step H0. apply to_file_ok in H1 as (bs1 & _ & _ & ->). unit_step H0. apply to_file_ok in H1 as (bt1 & _ & _ & ->). unit_step H0. apply to_file_ok in H1 as (br0 & Br0 & _ & ->).
  step H0. apply from_file_spec in H1 as [D2 Hr]. cbn [io_disk] in D2, Hr. rewrite lookup_same in Hr. destruct Hr as [[_ Hr]|[_ [e Hr]]]; [|done].
  destruct (fmt_save_load (R0 key x) true is_root W4) as (b' & Hb' & _ & Hl). rewrite Br0 in Hb'. injection Hb' as <-. rewrite Hl in Hr. injection Hr as ->.
  step H0. apply sout_ok in H1 as [-> Hs]. rewrite sign1 in Hs; [|reflexivity|unfold R0; cbn [metadata_kept md_signed]; rewrite sign_by_signed; by apply kept_bare_root]. apply ok_inj in Hs as <-. fold (R1 key x) in H0.
  unit_step H0. apply to_file_ok in H1 as (br1 & Br1 & _ & ->). do 4 (unit_step H0; apply sout_ok in H1 as [-> _]). apply sret_ok in H0 as [-> ->].
  step H. unfold basic_second in H0. step H0. apply sout_ok in H1 as [-> Hs]. change (set_target _ _ _) with (Ok (with_target (expires "go-scripts") (info_of place data))) in Hs. apply ok_inj in Hs as <-.
  step H0. apply sout_ok in H1 as [-> Hs]. rewrite A2 in Hs. apply ok_inj in Hs as <-. step H0. apply sout_ok in H1 as [-> Hs]. rewrite next_snapshot_eq in Hs. apply ok_inj in Hs as <-. step H0. apply sout_ok in H1 as [-> Hs]. rewrite next_timestamp_eq in Hs. apply ok_inj in Hs as <-.
  rewrite delegating_eq in H0. unfold S1 in H0. unfold M1 in H0. rewrite !clear_eq in H0 by done.
  step H0. apply sout_ok in H1 as [-> Hs]. rewrite sign1 in Hs; [|reflexivity|unfold T2 in B3; by rewrite sign_by_signed in B3]. apply ok_inj in Hs as <-. fold (T2 key expires (scripts (kid "go-scripts") k)) in H0.
  assert (tg_version (md_signed (T2 key expires (scripts (kid "go-scripts") k))) = 2) as VT2 by (unfold T2; by rewrite sign_by_signed). rewrite VT2 in H0. change (versioned_name 2 "targets") with "2.targets.json" in H0.
  unit_step H0. apply to_file_ok in H1 as (bg & Bg & _ & ->).
  step H0. apply sout_ok in H1 as [-> Hs]. rewrite sign1 in Hs; [|reflexivity|by apply bare_snapshot2]. apply ok_inj in Hs as <-. fold (S2 key expires) in H0. assert (sn_version (md_signed (S2 key expires)) = 2) as VS2 by (unfold S2; by rewrite sign_by_signed). rewrite VS2 in H0. change (versioned_name 2 "snapshot") with "2.snapshot.json" in H0.
  unit_step H0. apply to_file_ok in H1 as (bs & Bs & _ & ->).
  step H0. apply sout_ok in H1 as [-> Hs]. rewrite sign1 in Hs; [|reflexivity|by apply bare_timestamp2]. apply ok_inj in Hs as <-. fold (M2 key expires) in H0.
  unit_step H0. apply to_file_ok in H1 as (bt & Bt & _ & ->). change (clear_signatures (with_target (expires "go-scripts") (info_of place data))) with (with_target (expires "go-scripts") (info_of place data)) in H0.
  step H0. apply sout_ok in H1 as [-> Hs]. rewrite sign1 in Hs; [|reflexivity|unfold GO in B4; by rewrite sign_by_signed in B4]. apply ok_inj in Hs as <-. fold (GO key expires (info_of place data)) in H0.
  assert (tg_version (md_signed (GO key expires (info_of place data))) = 1) as VGO by (unfold GO; by rewrite sign_by_signed). rewrite VGO in H0. change (versioned_name 1 "go-scripts") with "1.go-scripts.json" in H0.
  unit_step H0. apply to_file_ok in H1 as (bo & Bo & _ & ->). apply sret_ok in H0 as [-> ->].
  step H. unfold basic_rotate in H0. step H0. apply sout_ok in H1 as [-> Hs]. rewrite A3 in Hs. apply ok_inj in Hs as <-. step H0. apply sout_ok in H1 as [-> Hs].
  change [key "root"; key "another"; key "new"] with (map key signers2) in Hs. rewrite (sign_all_run key basic_keys Hwork) in Hs; [|by apply all_keys|by apply ready_bare]. apply ok_inj in Hs as <-. rewrite V2 in H0. change (versioned_name 2 "root") with "2.root.json" in H0.
  unit_step H0. apply to_file_ok in H1 as (br2 & Br2 & _ & ->). do 5 (unit_step H0; apply sout_ok in H1 as [-> _]). apply sret_ok in H0 as [-> ->].
  step H. unfold basic_grow in H0. step H0. apply sout_ok in H1 as [-> Hs]. rewrite A4 in Hs. apply ok_inj in Hs as <-. step H0. apply sout_ok in H1 as [-> Hs].
  change [key "root"; key "another"; key "new"; key "rsa"; key "ecdsa"] with (map key signers3) in Hs. rewrite (sign_all_run key basic_keys Hwork) in Hs; [|by apply all_keys|by apply ready_bare]. apply ok_inj in Hs as <-.
  unit_step H0. apply sout_ok in H1 as [-> _]. rewrite V3 in H0. change (versioned_name 3 "root") with "3.root.json" in H0. destruct a. apply to_file_ok in H0 as (br3 & Br3 & _ & ->). apply sret_ok in H as [-> ->].
  rewrite !Ej by (by apply plain_name_b).
  exists tmp, data, x, k, r2a, r3a, br1, bg, bs, bt, bo, br2, br3. split; [done|]. split; [done|]. split; [intros name; rewrite <- D0; apply Hno|]. split; [done|]. split; [done|]. split; [done|].
  exists bg1, bs1, bt1, br0. cbn [io_disk]. rewrite D2, D1, D0. done.
Qed.

(** ** The program succeeds *)
Context (Hio : forall tr, e_io E tr = true).
Lemma save_run {T} {RT : RoleTy T} {SS : SignedSpec T} (m : metadata T) p i : tuf_role T RT SS -> writable m -> exists i' b, to_file E m p true i = (i', Ok tt) /\ from_bytes b = Ok (metadata_kept m) /\ io_disk i' = <[p := b]> (io_disk i).
Proof. intros Hr Hw. destruct (fmt_save_load m true Hr Hw) as (b & Hb & _ & Hl). destruct (to_file_run E m p i b Hio Hb) as (i' & H1 & H2). by exists i', b. Qed.
Lemma mkdir_run i : (forall n name, io_disk i !! file_in (wd ++ ["tmp" +:+ fmt_dec n]) name = None) -> exists i' tmp, mkdir_temp E (abs_path wd) i = (i', Ok (abs_path (wd ++ [tmp]))) /\ plain_name tmp /\ io_disk i' = io_disk i.
Proof.
  intros Hno. unfold mkdir_temp, mkdir. set (n := e_rand E (io_trace i)). set (p := abs_path wd +:+ "/tmp" +:+ fmt_dec n).
  assert (p = abs_path (wd ++ ["tmp" +:+ fmt_dec n])) as Hp by (unfold p; rewrite abs_file by done; done).
  destruct (below p (io_disk i)) as [|f l] eqn:Eb.
  - rewrite Hio. eexists _, ("tmp" +:+ fmt_dec n). split; [cbn [obind]; by rewrite Hp|]. split; [apply tmp_plain|done].
  - exfalso. assert (In f (below p (io_disk i))) as Hin by (rewrite Eb; by left). unfold below in Hin. apply filter_In in Hin as [Hin Hpre]. apply in_map_iff in Hin as ([f' data] & Hf & Hin). cbn in Hf. subst f'.
    apply elem_of_list_In, elem_of_map_to_list in Hin. apply DelegProofs.has_prefix_spec in Hpre as [name ->]. specialize (Hno n name). unfold file_in in Hno. rewrite Hp, !app_assoc_s in Hin. pose proof (eq_trans (eq_sym Hno) Hin) as [=].
Qed.
Lemma basic_run i data : (forall n name, io_disk i !! file_in (wd ++ ["tmp" +:+ fmt_dec n]) name = None) -> io_disk i !! place = Some data -> Z.of_nat (String.length data) < 2 ^ 63 -> exists i' dir, basic_main E key expires i = (i', Ok dir).
Proof.
  intros Hno Hdata Hsmall. destruct (made_ok key expires Hpem Hwork Htext Ht place data Hsmall) as (x & k & r2a & r3a & HM).
  destruct HM as ((A1 & A2 & A3 & A4) & (B1 & B2 & B3 & B4 & B5 & B6) & (W1 & W2 & W3 & W4 & W5) & (W6 & W7 & W8 & W9 & W10 & W11) & (G1 & G2 & G3 & G4) & (G5 & G6 & G7 & G8 & G9) & G10 & (G11 & G12 & _) & _).
  unfold basic_main.
  assert (exists i1 tmp, basic_first E key expires i = (i1, Ok (abs_path (wd ++ [tmp]), (info_of place data, T1 key expires (info_of place data), S1 key expires, M1 key expires, R1 key x)))) as (i1 & tmp & H1).
  { unfold basic_first. rewrite (sbind_run _ _ i i (abs_path wd)) by (unfold getwd; by rewrite Hcwd). rewrite place_ok. destruct (target_run E place i data Hio Hdata) as (i1 & H1 & D1). erewrite sbind_run by exact H1.
    change (set_target target_name (info_of place data) (Targets (expires "targets"))) with (Ok (with_target (expires "targets") (info_of place data))). erewrite sout_run by reflexivity. erewrite sout_run by exact A1.
    erewrite sout_run by (apply sign1; [reflexivity|unfold T1 in B2; by rewrite sign_by_signed in B2]). fold (T1 key expires (info_of place data)).
    erewrite sout_run by (apply sign1; [reflexivity|by apply bare_snapshot1]). fold (S1 key expires). erewrite sout_run by (apply sign1; [reflexivity|by apply bare_timestamp1]). fold (M1 key expires).
    erewrite sout_run by (apply sign1; [reflexivity|by apply ready_bare]). change (sign_by [key "root"] (set_signed (Root (expires "root")) x)) with (R0 key x).
    rewrite (sbind_run _ _ i1 i1 (abs_path wd)) by (unfold getwd; by rewrite Hcwd). destruct (mkdir_run i1) as (i2 & tmp & H2 & Htmp & D2); [by rewrite D1|]. erewrite sbind_run by exact H2.
    edestruct (save_run (T1 key expires (info_of place data))) as (j1 & c1 & J1 & _); [constructor|done|]. erewrite sbind_run by exact J1. edestruct (save_run (S1 key expires)) as (j2 & c2 & J2 & _); [constructor|done|]. erewrite sbind_run by exact J2.
    edestruct (save_run (M1 key expires)) as (j3 & c3 & J3 & _); [constructor|done|]. erewrite sbind_run by exact J3. edestruct (save_run (R0 key x)) as (j4 & c4 & J4 & L4 & D4); [constructor|done|]. erewrite sbind_run by exact J4.
    assert (rt_version (md_signed (R0 key x)) = 1) as VR0.
    { destruct (first_root_run key expires Hpem Hwork Htext Ht) as (x' & A1' & _ & (_ & _ & _ & V & _) & _). rewrite A1 in A1'. injection A1' as <-. unfold R0. by rewrite sign_by_signed. }
    rewrite VR0 in D4. change (versioned_name 1 "root") with "1.root.json" in D4.
    destruct (read_run E (path_join [abs_path (wd ++ [tmp]); "1.root.json"]) j4 c4 Hio) as (j5 & J5 & _); [rewrite D4; apply lookup_same|].
    assert (from_file (T := root_t) E (path_join [abs_path (wd ++ [tmp]); "1.root.json"]) j4 = (j5, Ok (metadata_kept (R0 key x)))) as J6 by (unfold from_file; erewrite sbind_run by exact J5; unfold sout; by rewrite L4).
    erewrite sbind_run by exact J6. erewrite sout_run by (apply sign1; [reflexivity|unfold R0; cbn [metadata_kept md_signed]; rewrite sign_by_signed; by apply kept_bare_root]). fold (R1 key x).
    edestruct (save_run (R1 key x)) as (j7 & c7 & J7 & _); [constructor|done|]. erewrite sbind_run by exact J7.
    exists j7, tmp. rewrite !sout_run with (a := tt); [done|by apply root_signs_ok..]. }
  erewrite sbind_run by exact H1. cbn iota beta.
  assert (exists i2, basic_second E key expires (abs_path (wd ++ [tmp])) (info_of place data) (T1 key expires (info_of place data)) (S1 key expires) (M1 key expires) i1 =
    (i2, Ok (T2 key expires (scripts (kid "go-scripts") k), S2 key expires, M2 key expires, GO key expires (info_of place data)))) as (i2 & H2).
  { unfold basic_second. change (set_target target_name (info_of place data) (Targets (expires "go-scripts"))) with (Ok (with_target (expires "go-scripts") (info_of place data))). erewrite sout_run by reflexivity. erewrite sout_run by exact A2. cbn zeta.
    erewrite sout_run by apply next_snapshot_eq. erewrite sout_run by apply next_timestamp_eq. rewrite delegating_eq. unfold S1, M1. rewrite !clear_eq by done.
    erewrite sout_run by (apply sign1; [reflexivity|unfold T2 in B3; by rewrite sign_by_signed in B3]). fold (T2 key expires (scripts (kid "go-scripts") k)).
    edestruct (save_run (T2 key expires (scripts (kid "go-scripts") k))) as (j1 & c1 & J1 & _); [constructor|done|]. erewrite sbind_run by exact J1.
    erewrite sout_run by (apply sign1; [reflexivity|by apply bare_snapshot2]). fold (S2 key expires). edestruct (save_run (S2 key expires)) as (j2 & c2 & J2 & _); [constructor|done|]. erewrite sbind_run by exact J2.
    erewrite sout_run by (apply sign1; [reflexivity|by apply bare_timestamp2]). fold (M2 key expires). edestruct (save_run (M2 key expires)) as (j3 & c3 & J3 & _); [constructor|done|]. erewrite sbind_run by exact J3.
    change (clear_signatures (with_target (expires "go-scripts") (info_of place data))) with (with_target (expires "go-scripts") (info_of place data)).
    erewrite sout_run by (apply sign1; [reflexivity|unfold GO in B4; by rewrite sign_by_signed in B4]). fold (GO key expires (info_of place data)).
    edestruct (save_run (GO key expires (info_of place data))) as (j4 & c4 & J4 & _); [constructor|done|]. erewrite sbind_run by exact J4. by exists j4. }
  erewrite sbind_run by exact H2. cbn iota beta.
  assert (exists i3, basic_rotate E key (abs_path (wd ++ [tmp])) (T2 key expires (scripts (kid "go-scripts") k)) (S2 key expires) (M2 key expires) (GO key expires (info_of place data)) (R1 key x) i2 = (i3, Ok (sign_by (map key signers2) r2a))) as (i3 & H3).
  { unfold basic_rotate. erewrite sout_run by exact A3. change [key "root"; key "another"; key "new"] with (map key signers2). erewrite sout_run by (apply (sign_all_run key basic_keys Hwork); [by apply all_keys|by apply ready_bare]).
    edestruct (save_run (sign_by (map key signers2) r2a)) as (j1 & c1 & J1 & _); [constructor|done|]. erewrite sbind_run by exact J1. exists j1. rewrite !sout_run with (a := tt); [done|..]; [by apply targets_signs_ok|by apply root_signs_ok..]. }
  erewrite sbind_run by exact H3.
  assert (exists i4, basic_grow E key (abs_path (wd ++ [tmp])) (sign_by (map key signers2) r2a) i3 = (i4, Ok tt)) as (i4 & H4).
  { unfold basic_grow. erewrite sout_run by exact A4. change [key "root"; key "another"; key "new"; key "rsa"; key "ecdsa"] with (map key signers3). erewrite sout_run by (apply (sign_all_run key basic_keys Hwork); [by apply all_keys|by apply ready_bare]).
    rewrite sout_run with (a := tt) by (by apply root_signs_ok). edestruct (save_run (sign_by (map key signers3) r3a)) as (j1 & c1 & J1 & _); [constructor|done|]. by exists j1. }
  erewrite sbind_run by exact H4. by eexists _, _.
Qed.
End Run.
