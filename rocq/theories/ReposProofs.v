(** * Proofs for C110 and C111: the repositories that the example programs make *)
From stdpp Require Import base gmap strings list.
From Coq Require Import ZArith Lia Ascii String.
From Verif Require Import GoBase GoStr Json GoTime Types Marshal Keys Metadata TrustedMetadata Fetcher Updater Files Cli ExampleClients ExampleRepos
  StrProofs PathProofs SpecUtf8 SpecText JsonText SpecSerial JsonProofs SerialProofs SpecRound RoundBase RoundProofs RoundStructs CanonProofs RoundKept LoadBase LoadProofs
  SpecBasic BasicProofs SpecSig SigProofs SpecKeys KeysProofs SpecTrusted TrustedProofs SpecPublish PublishProofs PlainProofs FilesProofs SpecUpdater SpecReach SpecRepos.
Open Scope Z_scope.

(** ** Paths *)
Lemma no_slash_char c s : no_slash (String c s) <-> c <> "/"%char /\ no_slash s.
Proof. unfold no_slash. cbn [string_any]. rewrite orb_false_iff, Ascii.eqb_neq. split; intros [? ?]; (split; [congruence|done]). Qed.
Lemma entry_plain s : entry_name s <-> plain_name s.
Proof.
  unfold entry_name, plain_name. rewrite !elem_of_cons, elem_of_nil. assert ((~ exists a b, s = a +:+ "/" +:+ b) <-> no_slash s) as ->.
  - split.
    + intros H. induction s as [|c s IH]; [done|]. apply no_slash_char. split; [intros ->; destruct H; by exists "", s|]. apply IH. intros (a & b & ->). destruct H. exists (String c a), b. done.
    + intros H (a & b & ->). apply no_slash_app in H as [_ H]. apply no_slash_app in H as [H _]. done.
  - tauto.
Qed.
Lemma abs_dir_plain l : abs_dir l <-> Forall plain_name l.
Proof. unfold abs_dir. split; intros H; (eapply Forall_impl; [exact H|]); intros; by apply entry_plain. Qed.
Lemma join_cons x l : l <> [] -> join_str "/" (x :: l) = x +:+ "/" +:+ join_str "/" l.
Proof. by destruct l. Qed.
Lemma join_app l l' : l <> [] -> l' <> [] -> join_str "/" (l ++ l') = join_str "/" l +:+ "/" +:+ join_str "/" l'.
Proof.
  intros Hl Hl'. induction l as [|x l IH]; [done|]. destruct l as [|y l]; [cbn [app]; by rewrite join_cons|]. cbn [app]. rewrite !join_cons by done. cbn [app] in IH. rewrite IH by done. rewrite (join_cons x (y :: l)) by done. by rewrite !app_assoc_s.
Qed.
Lemma split_join l : l <> [] -> Forall plain_name l -> split_on "/" (join_str "/" l) = l.
Proof.
  intros Hl H. induction H as [|x l Hx H IH]; [done|]. destruct l as [|y l]; [apply split_on_slash_free, Hx|]. rewrite join_cons, split_on_app, IH by done. rewrite split_on_slash_free by apply Hx. done.
Qed.
Lemma split_abs l : l <> [] -> Forall plain_name l -> split_on "/" (abs_path l) = "" :: l.
Proof. intros Hl H. unfold abs_path. change ("/" +:+ join_str "/" l) with ("" +:+ "/" +:+ join_str "/" l). rewrite split_on_app, split_join by done. done. Qed.
Lemma abs_inj l l' : l <> [] -> l' <> [] -> Forall plain_name l -> Forall plain_name l' -> abs_path l = abs_path l' -> l = l'.
Proof. intros H1 H2 H3 H4 H%(f_equal (split_on "/")). rewrite !split_abs in H by done. by injection H. Qed.
Lemma clean_plain rooted l st : Forall plain_name l -> fold_left (clean_step rooted) l st = rev l ++ st.
Proof.
  intros H. revert st. induction H as [|x l (H1 & H2 & H3 & _) _ IH]; intros st; cbn [fold_left rev]; [done|]. rewrite IH. unfold clean_step.
  rewrite (proj2 (String.eqb_neq x "") H1), (proj2 (String.eqb_neq x ".") H2), (proj2 (String.eqb_neq x "..") H3). cbn [orb]. by rewrite <- app_assoc.
Qed.
(** a path that stays in the directory; "." and ".." are allowed *)
Lemma join_clean l m st : l <> [] -> Forall plain_name l -> m <> "" -> fold_left (clean_step true) (split_on "/" m) (rev l) = st -> path_join [abs_path l; m] = abs_path (rev st).
Proof.
  intros Hl H Hm Hst. unfold path_join. rewrite !filter_cons_True by done. rewrite filter_nil. cbn [join_str]. unfold path_clean.
  rewrite (proj2 (String.eqb_neq _ "")) by (by unfold abs_path). change (has_prefix "/" (abs_path l +:+ "/" +:+ m)) with true. cbn iota. rewrite split_on_app, split_abs by done.
  rewrite fold_left_app. cbn [fold_left]. change (clean_step true [] "") with (@nil string). rewrite (clean_plain true l [] H), app_nil_r, Hst. done.
Qed.
Lemma join_abs l m : l <> [] -> Forall plain_name l -> m <> [] -> Forall plain_name m -> path_join [abs_path l; join_str "/" m] = abs_path (l ++ m).
Proof.
  intros H1 H2 H3 H4. rewrite (join_clean l (join_str "/" m) (rev m ++ rev l)); [by rewrite rev_app_distr, !rev_involutive|done|done| |].
  - destruct H4 as [|x m (Hx & _) _]; [done|]. destruct m; [done|]. rewrite join_cons by done. by intros [? _]%app_eq_nil_s.
  - rewrite split_join by done. apply clean_plain, H4.
Qed.
Lemma abs_file l m : l <> [] -> m <> [] -> abs_path (l ++ m) = file_in l (join_str "/" m).
Proof. intros H1 H2. unfold abs_path, file_in, abs_path. rewrite join_app by done. by rewrite !app_assoc_s. Qed.
Lemma snoc_ne {A} (l : list A) x : l ++ [x] <> [].
Proof. by destruct l. Qed.
Lemma snoc_plain l x : Forall plain_name l -> plain_name x -> Forall plain_name (l ++ [x]).
Proof. intros H1 H2. apply Forall_app. split; [done|by constructor]. Qed.
Lemma split_dir_abs l x : l <> [] -> Forall plain_name l -> plain_name x -> split_dir (abs_path (l ++ [x])) = abs_path l +:+ "/".
Proof.
  intros H1 H2 H3. unfold split_dir. rewrite split_abs by (apply snoc_ne || by apply snoc_plain). cbn [rev]. rewrite rev_app_distr. cbn [rev app].
  assert (forall k : list string, k <> [] -> match k with [] => "" | _ :: _ => join_str "/" (rev k) +:+ "/" end = join_str "/" (rev k) +:+ "/") as Hk by (by intros []).
  rewrite (Hk (rev l ++ [""])) by apply snoc_ne. rewrite rev_app_distr, rev_involutive. cbn [rev app]. by rewrite join_cons.
Qed.
Lemma split_file_abs l x : l <> [] -> Forall plain_name l -> plain_name x -> split_file (abs_path (l ++ [x])) = x.
Proof.
  intros H1 H2 H3. unfold split_file. rewrite split_abs by (apply snoc_ne || by apply snoc_plain). rewrite app_comm_cons. apply List.last_last.
Qed.
(** path.Join drops the slash at the end of a directory name *)
Lemma join_slash l m : l <> [] -> Forall plain_name l -> m <> [] -> Forall plain_name m -> path_join [abs_path l +:+ "/"; join_str "/" m] = abs_path (l ++ m).
Proof.
  intros H1 H2 H3 H4. rewrite <- (join_abs l m) by done. unfold path_join. assert (join_str "/" m <> "") as Hm.
  { destruct H4 as [|x m (Hx & _) _]; [done|]. destruct m; [done|]. rewrite join_cons by done. by intros [? _]%app_eq_nil_s. }
  rewrite !filter_cons_True by (done || (unfold abs_path; done)). rewrite filter_nil. cbn [join_str]. unfold path_clean.
  rewrite !(proj2 (String.eqb_neq _ "")) by (by unfold abs_path). change (has_prefix "/" (abs_path l +:+ "/" +:+ join_str "/" m)) with true. change (has_prefix "/" ((abs_path l +:+ "/") +:+ "/" +:+ join_str "/" m)) with true. cbn iota.
  assert ((abs_path l +:+ "/") +:+ "/" +:+ join_str "/" m = abs_path l +:+ "/" +:+ ("" +:+ "/" +:+ join_str "/" m)) as -> by (by rewrite !app_assoc_s). rewrite !split_on_app, !fold_left_app. cbn [fold_left split_on]. done.
Qed.

(** ** Steps of the programs *)
Lemma sbind_ok {S A B} (m : S -> S * outcome A) (f : A -> S -> S * outcome B) s s' b : sbind m f s = (s', Ok b) -> exists s1 a, m s = (s1, Ok a) /\ f a s1 = (s', Ok b).
Proof. unfold sbind. destruct (m s) as [s1 [a| |]]; [|done..]. eauto. Qed.
Lemma sout_ok {S A} (o : outcome A) (s s' : S) a : sout o s = (s', Ok a) -> s' = s /\ o = Ok a.
Proof. unfold sout. by intros [= <- <-]. Qed.
Lemma sret_ok {S A} (x : A) (s s' : S) a : sret x s = (s', Ok a) -> s' = s /\ a = x.
Proof. unfold sret. by intros [= <- <-]. Qed.
Ltac step H := let s := fresh "i" in let a := fresh "a" in let H1 := fresh "H" in apply sbind_ok in H as (s & a & H1 & H).
Lemma read_ok E p i i' data : read_file E p i = (i', Ok data) -> io_disk i' = io_disk i /\ io_disk i !! p = Some data.
Proof. unfold read_file. destruct (io_disk i !! p) as [d|]; [|by intros [= ? ?]]. destruct (e_io E (io_trace i)); [|by intros [= ? ?]]. intros [= <- <-]. done. Qed.
Lemma write_ok E p data i i' x : write_file E p data i = (i', Ok x) -> io_disk i' = <[p := data]> (io_disk i).
Proof. unfold write_file. destruct (e_io E (io_trace i)); [intros [= <- <-]; done|]. destruct (e_partial E (io_trace i)); by intros [= ? ?]. Qed.
Lemma getwd_ok E cwd i i' x : e_cwd E = Some cwd -> getwd E i = (i', Ok x) -> i' = i /\ x = cwd.
Proof. unfold getwd. intros ->. intros [-> [= ->]]%sout_ok. done. Qed.

Section Steps.
Context {CR : Crypto}.
(** the target info for a file *)
Definition info_of (place data : string) : targetfile := mkTargetFile (str_len data) (Some {["sha256" := sha256 data]}) None place None.
Lemma info_ok E place i i' tf : targetfile_from_file E place ["sha256"] i = (i', Ok tf) -> io_disk i' = io_disk i /\ exists data, io_disk i !! place = Some data /\ tf = info_of place data.
Proof.
  unfold targetfile_from_file. intros H. step H. apply read_ok in H0 as [H1 H2]. apply sout_ok in H as [-> H]. rewrite H1. split; [done|]. exists a. split; [done|]. unfold targetfile_from_bytes in H. cbn in H. injection H as <-. done.
Qed.
Lemma copy_ok E l b hash i i' x : l <> [] -> Forall plain_name l -> plain_name b -> no_slash hash -> (2 < String.length hash)%nat -> copy_hash_prefixed E (abs_path (l ++ [b])) hash i = (i', Ok x) ->
  exists data, io_disk i !! abs_path (l ++ [b]) = Some data /\ io_disk i' = <[abs_path (l ++ [hash +:+ "." +:+ b]) := data]> (io_disk i).
Proof.
  intros H1 H2 H3 Hh Hn H. unfold copy_hash_prefixed in H. step H. apply read_ok in H0 as [H4 H5]. apply write_ok in H. exists a. split; [done|]. rewrite H, H4, split_dir_abs, split_file_abs by done.
  change (hash +:+ "." +:+ b) with (join_str "/" [hash +:+ "." +:+ b]) at 1. rewrite join_slash; [done|done|done|done|]. constructor; [|constructor]. split.
  - intros Hx%(f_equal String.length). rewrite !app_len_s in Hx. cbn in Hx. lia.
  - split; [|split]; [intros Hx%(f_equal String.length); rewrite !app_len_s in Hx; cbn in Hx; lia..|]. apply no_slash_app. split; [done|]. apply no_slash_app. split; [done|apply H3].
Qed.
Lemma hex_no_slash d : no_slash (hex_encode d).
Proof.
  induction d as [|c d IH]; [done|]. cbn [hex_encode]. destruct (nibbles c) as (H1 & H2 & _). apply no_slash_char. split; [intros Hx; pose proof (hexval_digit _ H1) as H; rewrite Hx in H; by vm_compute in H|].
  apply no_slash_char. split; [intros Hx; pose proof (hexval_digit _ H2) as H; rewrite Hx in H; by vm_compute in H|done].
Qed.
Definition hash_name (data b : string) : string := hex_encode (sha256 data) +:+ "." +:+ b.
Lemma list_step E l d b names m i i' m' : l <> [] -> Forall plain_name (l ++ d) -> plain_name b -> e_cwd E = Some (abs_path l) -> list_targets E (join_str "/" (d ++ [b]) :: names) m i = (i', Ok m') ->
  exists data i1 m1, io_disk i !! abs_path (l ++ d ++ [b]) = Some data /\ set_target (trim_prefix "targets/" (join_str "/" (d ++ [b]))) (info_of (abs_path (l ++ d ++ [b])) data) m = Ok m1 /\
    io_disk i1 = <[abs_path (l ++ d ++ [hash_name data b]) := data]> (io_disk i) /\ list_targets E names m1 i1 = (i', Ok m').
Proof.
  intros Hl Hd Hb Hcwd H. cbn [list_targets] in H. step H. apply getwd_ok with (cwd := abs_path l) in H0 as [-> ->]; [|done].
  assert (Forall plain_name (d ++ [b])) as Hdb by (apply snoc_plain; [by apply Forall_app in Hd as [_ ?]|done]). assert (Forall plain_name l) as Hpl by (by apply Forall_app in Hd as [? _]).
  rewrite join_abs in H by (done || apply snoc_ne). step H. apply info_ok in H0 as (Hd1 & data & Hdata & ->). step H. apply sout_ok in H0 as [-> Hset]. step H.
  assert (io_disk i1 = io_disk i0 /\ a0 = [("sha256", sha256 data)]) as [Hd2 ->].
  { unfold iterate in H0. injection H0 as <- <-. split; [done|]. cbn [info_of tf_hashes mlist]. pose proof (e_order_perm E string (io_trace i0) (map_to_list {["sha256" := sha256 data]})) as Hp.
    rewrite map_to_list_singleton in Hp. apply Permutation_singleton_r in Hp. by rewrite map_to_list_singleton. }
  step H. cbn [copy_all] in H1. step H1. apply sret_ok in H1 as [-> _]. rewrite (app_assoc l d [b]) in H2. apply copy_ok in H2 as (data' & Hdata' & Hw); [|by destruct l|done|done|apply hex_no_slash|rewrite hex_encode_length, sha256_length; lia].
  rewrite Hd2, Hd1 in Hdata', Hw. rewrite <- app_assoc in Hdata', Hw. pose proof (eq_trans (eq_sym Hdata) Hdata') as [= <-]. exists data. eexists. exists a. split; [done|]. split; [done|]. split; [|exact H]. done.
Qed.

(** ** Targets metadata *)
Definition plain_targets (x : targets_t) : Prop := targets_wf x /\ bare_targets x /\ tg_type x = "targets".
Lemma plain_targets_new e : time_ok e -> plain_targets (md_signed (Targets e)).
Proof. intros He. split; [by apply targets_new_wf|]. split; [|done]. split; [done|]. split; [|done]. intros n f Hn. cbn in Hn. by rewrite lookup_empty in Hn. Qed.
Lemma set_target_ok name tf m m' : set_target name tf m = Ok m' ->
  md_sigs m' = md_sigs m /\ md_unrec m' = md_unrec m /\ tg_version (md_signed m') = tg_version (md_signed m) /\ tg_expires (md_signed m') = tg_expires (md_signed m) /\ tg_delegations (md_signed m') = tg_delegations (md_signed m) /\
  exists l, tg_targets (md_signed m) = Some l /\ tg_targets (md_signed m') = Some (<[name := Some tf]> l).
Proof. unfold set_target, mset. destruct (tg_targets (md_signed m)) as [l|]; [|done]. cbn [obind]. intros [= <-]. cbn. split_and!; try done. by exists l. Qed.
Lemma plain_set_target name tf m m' : set_target name tf m = Ok m' -> plain_targets (md_signed m) -> utf8_text name -> targetfile_wf tf -> no_extra (tf_unrec tf) -> tf_custom tf = None -> plain_targets (md_signed m').
Proof.
  unfold set_target, mset. destruct (tg_targets (md_signed m)) as [l|] eqn:El; [|done]. cbn [obind]. intros [= <-] ((H1 & H2 & H3 & H4 & H5 & H6 & H7 & H8) & (B1 & B2 & B3) & Ht) Hn Hw Hu Hc. rewrite El in *.
  split; [|split; [|done]].
  - split; [done|]. split; [done|]. split; [done|]. split; [done|]. split; [|split; [|split; [done|done]]].
    + intros n o Ho. cbn in Ho. apply lookup_insert_Some in Ho as [[<- <-]|[_ Ho]]; [split; [done|]; by intros ? [= <-]|by apply H5].
    + intros n Ho. cbn in Ho. apply lookup_insert_Some in Ho as [[_ ?]|[_ Ho]]; [done|by apply (H6 n)].
  - split; [done|]. split; [|done]. intros n f Ho. cbn in Ho. apply lookup_insert_Some in Ho as [[<- [= <-]]|[_ Ho]]; [done|by apply (B2 n)].
Qed.
Lemma info_wf place data : Z.of_nat (String.length data) < 2 ^ 63 -> targetfile_wf (info_of place data).
Proof.
  intros H. split; [|split; [|split; [done|by intros ? ? ?]]].
  - unfold int_ok, in_int64, info_of, two63. cbn [tf_length]. unfold str_len. apply andb_true_iff. split; [apply Z.leb_le|apply Z.ltb_lt || apply Z.leb_le]; lia.
  - intros k v Hk. cbn in Hk. apply lookup_singleton_Some in Hk as [<- _]. by apply plain_text.
Qed.
Lemma plain_targets_signed x : plain_targets x -> bare_signed x.
Proof. intros (Hw & Hb & _). by apply easy_bare_targets. Qed.

(** ** Root metadata *)
Lemma add_public_ok key n s x y : text_keys key -> s = key n -> forall name, add_public s name x = Ok y -> plain_root x -> plain_root y /\ same_header x y.
Proof.
  intros Htext -> name H Hx. unfold add_public, public_part in H. destruct (sg_public (key n)) as [pk| |] eqn:Epk; [|done..]. cbn [obind] in H. destruct (key_from_public_key pk) as [k| |] eqn:Ek; [|done..]. cbn [obind] in H.
  destruct (key_from_fields pk k Ek) as (Hk0 & H2 & H1 & H3). pose proof (Htext n pk k Epk Ek) as Htx. pose proof H as H'. apply root_add_key_spec in H' as (r & r' & i & _ & Hi & Hh & _). split; [|done].
  apply (plain_root_add x k i name y); [done| | |done|done|done].
  - assert (utf8_text (k_type k) /\ utf8_text (k_scheme k)) as (? & ?) by (destruct pk as [der|der|raw|t]; [..|done]; destruct H3 as (-> & -> & _); (split; by apply plain_text)).
    split; [done|]. split; [done|]. split; [split; [done|rewrite H2; by intros ? ? ?]|rewrite H1; by intros ? ? ?].
  - split; [by rewrite H1|by rewrite H2].
Qed.
Lemma same_header_trans x y z : same_header x y -> same_header y z -> same_header x z.
Proof. unfold same_header. intros (? & ? & ? & ? & ? & ?) (? & ? & ? & ? & ? & ?). split_and!; congruence. Qed.
Lemma add_keys_ok key names x y : text_keys key -> add_keys key names x = Ok y -> plain_root x -> plain_root y /\ same_header x y.
Proof.
  intros Htext. revert x. induction names as [|n names IH]; intros x; cbn [add_keys]; [by intros [= <-]|]. destruct (add_public (key n) n x) as [x1| |] eqn:E; [|done..]. cbn [obind]. intros H Hx.
  destruct (add_public_ok key n (key n) x x1 Htext eq_refl n E Hx) as [H1 H2]. destruct (IH x1 H H1) as [H3 H4]. split; [done|]. by eapply same_header_trans.
Qed.
Lemma signed_with_ok {T} {RT : RoleTy T} s (m m' : metadata T) : signed_with s m = Ok m' ->
  md_signed m' = md_signed m /\ md_unrec m' = md_unrec m /\ exists id sg, signer_keyid s id /\ md_sigs m' = Some (slist (md_sigs m) ++ [mkSignature id sg None]).
Proof.
  unfold signed_with, sign. destruct (signing_payload (md_signed m)) as [p| |]; [|done..]. cbn [obind]. destruct (sg_sign s p) as [sg| |]; [|done..]. cbn [obind]. destruct (sg_public s) as [pk| |] eqn:E1; [|done..]. cbn [obind].
  destruct (key_from_public_key pk) as [k| |] eqn:E2; [|done..]. cbn [obind]. destruct (key_id k) as [id| |] eqn:E3; [|done..]. intros [= <-]. cbn. split; [done|]. split; [done|]. exists id, sg. split; [|done]. by exists pk, k.
Qed.
Lemma once_signed_writable {T} {RT : RoleTy T} {SS : SignedSpec T} s (m m' : metadata T) : signed_with s m = Ok m' -> signed_wf (md_signed m) -> signed_type (md_signed m) = role_name -> bare_signed (md_signed m) ->
  slist (md_sigs m) = [] -> no_extra (md_unrec m) -> writable m'.
Proof.
  intros (H1 & H2 & id & sg & H3 & H4)%signed_with_ok Hw Ht Hb Hs Hu. apply bare_writable; rewrite ?H1, ?H2; try done.
  - rewrite H4, Hs. cbn. constructor; [|constructor]. split; [done|]. by eapply signer_id_text.
  - rewrite H4, Hs. cbn. apply NoDup_singleton.
Qed.
(** what has been written can be read *)
Lemma written {T} {RT : RoleTy T} {SS : SignedSpec T} (m : metadata T) b : tuf_role T RT SS -> writable m -> to_bytes_fmt true m = Ok b -> document b (metadata_kept m).
Proof. intros Hr Hw Hb. destruct (fmt_save_load m true Hr Hw) as (b' & Hb' & _ & Hl). rewrite Hb in Hb'. injection Hb' as <-. apply document_kept; [done|apply Hw|done]. Qed.
Lemma made_honest r0 r roots ts sn tg f g bt bs bg now : writable ts -> writable sn -> writable tg -> to_bytes_fmt true ts = Ok bt -> to_bytes_fmt true sn = Ok bs -> to_bytes_fmt true tg = Ok bg ->
  root_updates r0 roots (metadata_kept r) -> root_signs r "timestamp" ts -> root_signs r "snapshot" sn -> root_signs r "targets" tg ->
  ~ expired_at r now -> ~ expired_at ts now -> ~ expired_at sn now -> ~ expired_at tg now ->
  names_snapshot ts f -> matches_file f bs -> sn_version (md_signed sn) = mf_version f -> lists_file sn "targets.json" g -> matches_file g bg -> tg_version (md_signed tg) = mf_version g ->
  honest r0 (metadata_kept r) now (mkPublication roots bt (metadata_kept ts) bs (metadata_kept sn) bg (metadata_kept tg) (metafile_kept f) (metafile_kept g)).
Proof.
  intros W1 W2 W3 B1 B2 B3 Hu S1 S2 S3 E0 E1 E2 E3 N1 N2 N3 L1 L2 L3. split; [exact Hu|]. cbn [pub_timestamp pub_timestamp_md pub_snapshot pub_snapshot_md pub_targets pub_targets_md pub_snapshot_info pub_targets_info].
  split; [by rewrite expired_kept by constructor|].
  split; [split; [apply written; [constructor|done|done]|]; split; [apply root_signs_kept; [constructor|done]|by rewrite expired_kept by constructor]|].
  split; [split; [by apply names_kept|]; split; [by apply matches_kept|done]|].
  split; [split; [apply written; [constructor|done|done]|]; split; [apply root_signs_kept; [constructor|done]|by rewrite expired_kept by constructor]|].
  split; [split; [by apply lists_kept|]; split; [by apply matches_kept|done]|].
  split; [apply written; [constructor|done|done]|]. split; [apply root_signs_kept; [constructor|done]|by rewrite expired_kept by constructor].
Qed.
End Steps.
