(** * Claims about the updater in the form of the properties *)
From stdpp Require Import base gmap strings list.
From Coq Require Import ZArith Lia Ascii String.
From Verif Require Import GoBase GoStr GoTime Types Marshal Keys Metadata TrustedMetadata Fetcher Updater SpecBasic SpecTrusted SpecUpdater.
From Verif Require Import StrProofs SigProofs BasicProofs DelegProofs TrustedProofs PathProofs EventProofs UpdaterProofs WalkProofs BlockProofs ApiProofs RootProofs RefreshProofs SearchProofs HonestProofs IndepProofs ClaimProofs.
Open Scope Z_scope.

(** ** Strings by their last character *)
Definition last_char (s : string) : option ascii := last (list_ascii_of_string s).
Lemma last_char_app a b : b <> "" -> last_char (a +:+ b) = last_char b.
Proof.
  intros H. unfold last_char. rewrite las_app, last_app. destruct (last (list_ascii_of_string b)) eqn:E; [done|]. apply last_None in E. destruct b; [done|]. done.
Qed.
Lemma digits_last n : 0 <= n -> exists d, last_char (string_of_digits (digits_of 10 n)) = Some (hexdig d) /\ 0 <= d < 10.
Proof.
  intros Hn. destruct (digits_of_val 10 n) as [_ Hd]; [lia|done|]. unfold last_char, string_of_digits. rewrite list_ascii_of_string_of_list_ascii.
  destruct (last (digits_of 10 n)) as [d|] eqn:E; [|by apply last_None, digits_of_nonnil in E]. exists d. split; [|]; [change (map hexdig (digits_of 10 n)) with (hexdig <$> digits_of 10 n); by rewrite fmap_last, E|].
  rewrite Forall_forall in Hd. apply Hd. by apply last_Some_elem_of.
Qed.
Lemma fmt_dec_last n : exists d, last_char (fmt_dec n) = Some (hexdig d) /\ 0 <= d < 10.
Proof.
  unfold fmt_dec, fmt_base. destruct (Z.ltb_spec n 0) as [Hn|Hn]; [|by apply digits_last].
  destruct (digits_last (- n)) as (d & Hd & Hr); [lia|]. exists d. split; [|done]. rewrite last_char_app; [done|]. intros E. by rewrite E in Hd.
Qed.
Lemma digit_not_n d : 0 <= d < 10 -> hexdig d <> "n"%char.
Proof. intros H. assert (d = 0 \/ d = 1 \/ d = 2 \/ d = 3 \/ d = 4 \/ d = 5 \/ d = 6 \/ d = 7 \/ d = 8 \/ d = 9) as Hd by lia. repeat destruct Hd as [->|Hd]; [done..|by subst]. Qed.

Lemma str_take_take n k s : str_take n (str_take k s) = str_take (min n k) s.
Proof. revert n k. induction s as [|a s IH]; intros [|n] [|k]; try done. cbn. f_equal. apply IH. Qed.
Section Final.
Context {CR : Crypto} (E : env) (c : config).
(** a cached metadata file is never a temporary file *)
Lemma cache_not_tmp role : ~ tmp_name E (cache_name c role).
Proof.
  intros (dir & n & _ & H). rewrite cache_name_plain, in_dir_prefix in H. apply (f_equal last_char) in H. destruct (fmt_dec_last n) as (d & Hd & Hr).
  assert (fmt_dec n <> "") as Hne by (intros Hx; by rewrite Hx in Hd). rewrite !last_char_app in H; [|done|by destruct (fmt_dec n)|done|by destruct (query_escape role)].
  rewrite Hd in H. injection H as H. by apply (digit_not_n d).
Qed.
Lemma new_no_gets now i i' o evs : updater_new E c now i = (i', o) -> happened i i' evs -> gets evs = [].
Proof.
  intros H Hh. destruct (new_events _ _ _ _ _ _ H) as (evs0 & evs1 & [Hh' _] & H0 & H1 & _). rewrite (happened_eq _ _ _ _ Hh Hh').
  rewrite gets_app, (persist_gets _ _ _ _ _ H1), app_nil_r. clear -H0. induction H0 as [|e l [p [b ->]] _ IH]; done.
Qed.

(** ** DownloadTarget (C58) *)
Lemma get_only_replay tf evs d : Forall (get_only tf) evs -> replay d evs = d.
Proof. revert d. induction evs as [|e evs IH]; intros d H; [done|]. inversion H as [|? ? He Hr]; subst. destruct e; try done; by apply IH. Qed.
Lemma choice_gets pre : Forall (eq EvChoice) pre -> gets pre = [].
Proof. induction 1 as [|e l <- _ IH]; done. Qed.
Lemma download_ok tf fp u w w' p data : download_target E c tf fp u w = (w', Ok (p, data)) ->
  matches_target tf data /\ file_for E c tf fp p /\ w_trusted w' = w_trusted w /\
  (exists url evs, happened (w_io w) (w_io w') evs /\ gets evs = [(url, Ok data)]) /\
  ((c_disable_cache c = true /\ io_disk (w_io w') = io_disk (w_io w)) \/ (c_disable_cache c = false /\ io_disk (w_io w') = <[p := data]> (io_disk (w_io w)))).
Proof.
  intros H. apply download_target_run in H as (Ht & evs & [Hh Hd] & Hr). inversion Hr as [? ? ? Hno|pre url p' data' Hpre Hf Hv Hc|pre url p' data' Hpre Hf Hv Hc|]; subst.
  - by destruct (Hno (p, data)).
  - split; [by apply targetfile_verify_ok|]. split; [done|]. split; [done|]. split; [exists url; eexists; split; [exact Hh|]; by rewrite gets_app, choice_gets|]. left. split; [done|].
    rewrite Hd. unfold replay. rewrite fold_left_app. cbn. by apply (get_only_replay tf), choice_get_only.
  - split; [by apply targetfile_verify_ok|]. split; [done|]. split; [done|]. split; [exists url; eexists; split; [exact Hh|]; by rewrite gets_app, choice_gets|]. right. split; [done|].
    rewrite Hd. unfold replay. rewrite fold_left_app. cbn. f_equal. by apply (get_only_replay tf), choice_get_only.
Qed.
(** at any point of a download, every file is as before or part of verified data at the target's file *)
Lemma no_effect_crash evs d d' : (forall e, e ∈ evs -> (forall x, apply_event x e = x) /\ forall p data, e <> EvWrite p data) -> crash d evs d' -> d' = d.
Proof.
  intros H (e1 & e2 & -> & Hc). assert (replay d e1 = d) as Hd.
  { assert (forall e, e ∈ e1 -> forall x, apply_event x e = x) as H1 by (intros e He; apply H; apply elem_of_app; by left). clear -H1. revert d. induction e1 as [|e e1 IH]; intros d; [done|]. cbn. rewrite H1; [|by left]. apply IH. intros e' He'. apply H1. by right. }
  destruct Hc as [-> |(p & data & rest & n & -> & _)]; [done|]. destruct (H (EvWrite p data)) as [_ Hx]; [apply elem_of_app; right; by left|]. by destruct (Hx p data).
Qed.
Lemma get_only_no_effect tf e : get_only tf e -> (forall x, apply_event x e = x) /\ forall p data, e <> EvWrite p data.
Proof. by destruct e. Qed.
Lemma crash_app_last evs e d d' : (forall e, e ∈ evs -> (forall x, apply_event x e = x) /\ forall p data, e <> EvWrite p data) -> crash d (evs ++ [e]) d' ->
  d' = d \/ d' = apply_event d e \/ exists p data n, e = EvWrite p data /\ d' = <[p := str_take n data]> d.
Proof.
  intros H (e1 & e2 & Heq & Hc). destruct e2 as [|e2 l2 _] using rev_ind.
  - rewrite app_nil_r in Heq. subst e1. destruct Hc as [-> |(p & data & rest & n & [=] & _)]. right; left. unfold replay. rewrite fold_left_app. cbn. f_equal.
    apply (no_effect_crash evs d); [done|]. exists evs, []. split; [by rewrite app_nil_r|by left].
  - rewrite app_assoc in Heq. apply app_inj_tail in Heq as [-> ->].
    assert (replay d e1 = d) as Hd. { apply (no_effect_crash (e1 ++ l2) d); [done|]. exists e1, l2. auto. }
    destruct Hc as [-> |(p & data & rest & n & Hl & ->)]; [by left|]. rewrite Hd. destruct l2 as [|x l2]; [injection Hl as -> _; right; right; eauto|].
    injection Hl as -> _. destruct (H (EvWrite p data)) as [_ Hx]; [apply elem_of_app; right; by left|]. by destruct (Hx p data).
Qed.
Lemma download_crash tf fp u w w' o evs d q : call_api E c (DownloadTarget tf fp u) w = (w', o) -> happened (w_io w) (w_io w') evs -> crash (io_disk (w_io w)) evs d ->
  d !! q = io_disk (w_io w) !! q \/
  (c_disable_cache c = false /\ exists data, matches_target tf data /\ file_for E c tf fp q /\ (exists url, EvGet url (tf_length tf) (Ok data) ∈ evs) /\ (d !! q = Some data \/ exists n, d !! q = Some (str_take n data))).
Proof.
  cbn [call_api]. destruct (download_target E c tf fp u w) as [w1 o1] eqn:H. intros [= <- _] He Hc. apply download_target_run in H as (_ & evs' & [Hh _] & Hr). rewrite (happened_eq _ _ _ _ He Hh) in *. clear He evs.
  inversion Hr as [? ? Hg Hno|pre url p data Hpre Hf Hv Hc'|pre url p data Hpre Hf Hv Hc'|pre url p data ew e Hpre Hf Hv Hc' Hew]; subst.
  - left. f_equal. eapply no_effect_crash; [|exact Hc]. intros e Hin. rewrite Forall_forall in Hg. by eapply get_only_no_effect, Hg.
  - left. f_equal. eapply no_effect_crash; [|exact Hc]. intros e [Hin|Hin%elem_of_list_singleton]%elem_of_app; [|by subst e]. rewrite Forall_forall in Hpre. by rewrite <- (Hpre _ Hin).
  - change ([EvGet url (tf_length tf) (Ok data); EvWrite p data]) with ([EvGet url (tf_length tf) (Ok data)] ++ [EvWrite p data]) in Hc. rewrite app_assoc in Hc. apply crash_app_last in Hc.
    2: { intros e [Hin|Hin%elem_of_list_singleton]%elem_of_app; [|by subst e]. rewrite Forall_forall in Hpre. by rewrite <- (Hpre _ Hin). }
    apply targetfile_verify_ok in Hv. destruct Hc as [-> |[-> |(p' & data' & n & [= <- <-] & ->)]]; [by left| |].
    + cbn [apply_event]. destruct (decide (p = q)) as [-> |Hne]; [right|left; by apply lookup_other]. split; [done|]. exists data. split; [done|]. split; [done|]. split; [exists url; set_solver|]. left. apply lookup_same.
    + destruct (decide (p = q)) as [-> |Hne]; [right|left; by apply lookup_other]. split; [done|]. exists data. split; [done|]. split; [done|]. split; [exists url; set_solver|]. right. exists n. apply lookup_same.
  - change ([EvGet url (tf_length tf) (Ok data); ew]) with ([EvGet url (tf_length tf) (Ok data)] ++ [ew]) in Hc. rewrite app_assoc in Hc. apply crash_app_last in Hc.
    2: { intros e' [Hin|Hin%elem_of_list_singleton]%elem_of_app; [|by subst e']. rewrite Forall_forall in Hpre. by rewrite <- (Hpre _ Hin). }
    apply targetfile_verify_ok in Hv. destruct Hew as [-> |[k ->]].
    + destruct Hc as [-> |[-> |(p' & data' & n & [=] & _)]]; by left.
    + destruct Hc as [-> |[-> |(p' & data' & n & [= <- <-] & ->)]]; [by left| |].
      * cbn [apply_event]. destruct (decide (p = q)) as [-> |Hne]; [right|left; by apply lookup_other]. split; [done|]. exists data. split; [done|]. split; [done|]. split; [exists url; set_solver|]. right. exists k. apply lookup_same.
      * destruct (decide (p = q)) as [-> |Hne]; [right|left; by apply lookup_other]. split; [done|]. exists data. split; [done|]. split; [done|]. split; [exists url; set_solver|]. right. exists (min n k). rewrite <- str_take_take. apply lookup_same.
Qed.

(** ** FindCachedTarget (C59) *)
Lemma find_cached_ok tf fp i i' o : find_cached_target E c tf fp i = (i', o) ->
  io_disk i' = io_disk i /\ (exists evs, happened i i' evs /\ forall e, e ∈ evs -> exists p r, e = EvRead p r) /\
  (o = Ok ("", "") \/ (exists p data, o = Ok (p, data) /\ io_disk i !! p = Some data /\ matches_target tf data /\ file_for E c tf fp p) \/
   (fp = "" /\ (forall p, target_file_path E c tf <> Ok p) /\ forall r, o <> Ok r)).
Proof.
  intros H. apply find_cached_run in H as (Hd & evs & Hh & Hev & Ho). split; [done|]. split.
  { exists evs. split; [done|]. intros e He. destruct Hev as [-> |(p & r & -> & _)]; [by apply elem_of_nil in He|apply elem_of_list_singleton in He; subst e; eauto]. }
  destruct Ho as [?|[(p & data & -> & Hp & Hv & Hf & _)|(-> & _ & Hn & ->)]]; [by left| |].
  - right; left. exists p, data. split; [done|]. split; [done|]. split; [by apply targetfile_verify_ok|done].
  - right; right. split; [done|]. split; [intros p Hp; apply Hn; by exists p|]. destruct (target_file_path E c tf) as [p| |]; [exfalso; apply Hn; by exists p|done|done].
Qed.
Lemma find_cached_complete tf fp i p data : c_disable_cache c = false -> file_for E c tf fp p -> io_disk i !! p = Some data -> matches_target tf data -> e_io E (io_trace i) = true ->
  snd (find_cached_target E c tf fp i) = Ok (p, data).
Proof.
  intros Hc Hf Hp Hm%targetfile_verify_ok Hio. unfold find_cached_target. rewrite Hc. unfold sbind, sout.
  assert ((if String.eqb fp "" then target_file_path E c tf else Ok fp) = Ok p) as -> by (destruct Hf as [[Hne ->]|[-> Hf]]; [by destruct (String.eqb_spec fp "")|done]).
  unfold satt, read_file. rewrite Hp, Hio. by rewrite Hm.
Qed.

(** ** Rollback protection and repeated refreshes (C62, C70) *)
Lemma session_fresh now w : session E c now w -> t_timestamp (w_trusted w) = None -> t_snapshot (w_trusted w) = None /\ t_targets (w_trusted w) = ∅.
Proof.
  intros Hs Ht. destruct (session_dinv _ _ _ _ Hs) as (H1 & _ & _ & H4).
  assert (t_snapshot (w_trusted w) = None) as Hn. { destruct (t_snapshot (w_trusted w)) as [sn|] eqn:Esn; [|done]. destruct (H1 sn eq_refl) as [? ?]. congruence. }
  split; [done|]. apply map_eq. intros n. rewrite lookup_empty. destruct (t_targets (w_trusted w) !! n) as [m|] eqn:Em; [|done]. destruct (H4 _ _ Em) as (sn & ? & _). congruence.
Qed.
Lemma session_rollback now w w' o evs data ts0 : session E c now w -> call_api E c Refresh w = (w', o) -> c_unsafe_local c = false -> t_timestamp (w_trusted w) = None ->
  happened (w_io w) (w_io w') evs -> EvRead (local_name c "timestamp") (Ok data) ∈ evs -> document data ts0 ->
  root_signs (t_root (w_trusted w')) "timestamp" ts0 -> ~ expired_at (t_root (w_trusted w')) now ->
  (exists ts, t_timestamp (w_trusted w') = Some ts /\ ts_version (md_signed ts0) <= ts_version (md_signed ts)) /\
  (io_disk (w_io w') !! cache_name c "timestamp" = io_disk (w_io w) !! cache_name c "timestamp" \/
   exists data ts, io_disk (w_io w') !! cache_name c "timestamp" = Some data /\ document data ts /\ ts_version (md_signed ts0) <= ts_version (md_signed ts)).
Proof.
  intros Hs H Hc Hn Hev Hin Hd Hr He. destruct (session_fresh _ _ Hs Hn) as [Hsn Htg].
  assert (t_ref (w_trusted w') = now) as <- by (apply (session_ref E c); by eapply session_step).
  eapply refresh_rollback; eauto. by eapply session_reachable.
Qed.
Lemma session_again now w w' o : session E c now w -> is_Some (t_snapshot (w_trusted w)) -> call_api E c Refresh w = (w', o) -> w_trusted w' = w_trusted w /\ o <> Ok tt.
Proof.
  intros Hs [sn Hsn] H. destruct (session_dinv _ _ _ _ Hs) as (H1 & _). eapply refresh_again; [by eapply H1|by exists sn|exact H].
Qed.

(** ** Reading back (C68) *)
Lemma load_cached role parent w data m : t_targets (w_trusted w) !! role = None -> string_all url_unreserved role = true -> plain_name role ->
  io_disk (w_io w) !! cache_name c role = Some data -> e_io E (io_trace (w_io w)) = true -> targets_ok (w_trusted w) data role parent m ->
  exists w', load_targets E c role parent w = (w', Ok m) /\ t_targets (w_trusted w') !! role = Some m /\ happened (w_io w) (w_io w') [EvRead (cache_name c role) (Ok data)].
Proof.
  intros Hn Hu Hp Hd Hio Hok. exists (mkWorld (set_targets (w_trusted w) role m) (log (io_disk (w_io w)) (w_io w) (EvRead (cache_name c role) (Ok data)))).
  split; [|split; [apply (lookup_insert (M := gmap string))|done]].
  unfold load_targets, sbind, get_trusted. rewrite Hn. unfold satt, lift, load_local, read_file. rewrite (local_cache c role Hu Hp), Hd, Hio. unfold on_trusted. cbn [w_trusted w_io].
  destruct (update_delegated_cases (w_trusted w) data role parent) as [(m' & Hok' & ->)|(Hno & _)]; [|by destruct (Hno m)].
  assert (m' = m) as ->; [|done]. destruct Hok as (?&?&?&?&?&?&[Hx _]&_), Hok' as (?&?&?&?&?&?&[Hy _]&_). congruence.
Qed.
End Final.

(** ** Which roles a chain of signed delegations can reach, by computation *)
Section Chains.
Context {CR : Crypto}.
Definition signs_b (m1 : metadata targets_t) (n : string) (m2 : metadata targets_t) : bool := match verify_delegate m1 n m2 with Ok _ => true | _ => false end.
Definition closed_b (t : trusted) (path : string) (S : list string) : bool :=
  bool_decide ("targets" ∈ S) &&
  forallb (fun p : string * metadata targets_t => negb (bool_decide (p.1 ∈ S)) ||
    match tg_delegations (md_signed p.2) with
    | None => true
    | Some d => match roles_for_target d path with
                | Ok roles => forallb (fun q : string * bool => bool_decide (q.1 ∈ S) || match t_targets t !! q.1 with None => true | Some m2 => negb (signs_b p.2 q.1 m2) end) (map_to_list roles)
                | _ => false end
    end) (map_to_list (t_targets t)).
Lemma closed_chain t path S r : closed_b t path S = true -> signed_chain t path r -> r ∈ S.
Proof.
  intros [Ht%bool_decide_eq_true Hc]%andb_prop H. induction H as [|r1 m1 r2 m2 term _ IH Hm1 Hd Hm2 Hs]; [done|].
  rewrite forallb_forall in Hc. specialize (Hc (r1, m1)). cbn in Hc. rewrite bool_decide_eq_true_2 in Hc by done. cbn in Hc.
  assert (In (r1, m1) (map_to_list (t_targets t))) as Hin by (apply elem_of_list_In; by apply elem_of_map_to_list). specialize (Hc Hin).
  destruct Hd as (d & Hd & Hd'). rewrite Hd in Hc. assert (exists roles, roles_for_target d path = Ok roles) as [roles Hro] by (destruct (roles_for_target d path); [eauto|done|done]). rewrite Hro in Hc.
  assert (roles !! r2 = Some term) as Hr2 by (apply (delegated_spec m1 path d); [done|done|by exists d]).
  rewrite forallb_forall in Hc. specialize (Hc (r2, term)). cbn in Hc. assert (In (r2, term) (map_to_list roles)) as Hin2 by (apply elem_of_list_In; by apply elem_of_map_to_list). specialize (Hc Hin2).
  apply orb_prop in Hc as [Hc|Hc]; [by apply bool_decide_eq_true in Hc|]. rewrite Hm2 in Hc. apply targets_signs_ok in Hs. unfold signs_b in Hc. by rewrite Hs in Hc.
Qed.
(** no loaded role has two delegations for the path, by computation *)
Definition one_way_b (t : trusted) (path : string) : bool :=
  forallb (fun p : string * metadata targets_t => match tg_delegations (md_signed p.2) with
    | None => true
    | Some d => match roles_for_target d path with Ok roles => match map_to_list roles with [] | [_] => true | _ => false end | _ => false end
    end) (map_to_list (t_targets t)).
Lemma one_way_check t path : one_way_b t path = true -> one_way t path.
Proof.
  unfold one_way_b. rewrite forallb_forall. intros Hc r m n b n' b' Hm Hd Hd'.
  assert (In (r, m) (map_to_list (t_targets t))) as Hin by (apply elem_of_list_In; by apply elem_of_map_to_list). specialize (Hc _ Hin). cbn in Hc.
  destruct Hd as (d & Hdl & Hd). rewrite Hdl in Hc. assert (exists roles, roles_for_target d path = Ok roles) as [roles Hro] by (destruct (roles_for_target d path); [eauto|done|done]). rewrite Hro in Hc.
  assert (roles !! n = Some b) as H1 by (apply (delegated_spec m path d); [done|done|by exists d]).
  assert (roles !! n' = Some b') as H2 by (apply (delegated_spec m path d); done).
  apply elem_of_map_to_list in H1, H2. destruct (map_to_list roles) as [|x [|]]; [by apply elem_of_nil in H1| |done].
  apply elem_of_list_singleton in H1, H2. rewrite <- H1 in H2. by injection H2.
Qed.
Definition no_entries_b (t : trusted) (path : string) (S : list string) : bool :=
  forallb (fun r => match t_targets t !! r with None => true | Some m => match mget (tg_targets (md_signed m)) path with None => true | Some _ => false end end) S.
Lemma no_entries t path S r m o : no_entries_b t path S = true -> r ∈ S -> t_targets t !! r = Some m -> ~ entry m path o.
Proof.
  unfold no_entries_b. rewrite forallb_forall. intros H Hr Hm He%entry_spec. apply elem_of_list_In in Hr. specialize (H r Hr). cbn in H. by rewrite Hm, He in H.
Qed.
End Chains.
Lemma no_file (d : disk) p (P : string -> Prop) data : d !! p = None -> d !! p = Some data -> P data.
Proof. intros H1 H2. rewrite H1 in H2. discriminate H2. Qed.
Lemma api_happened {CR : Crypto} E c a w w' o : call_api E c a w = (w', o) -> exists evs, happened (w_io w) (w_io w') evs.
Proof.
  intros H. destruct (call_api_steps _ _ _ _ _ _ H) as [(tf & p & ->)|[(tf & p & u & ->)|Hk]]; cbn [call_api] in H.
  - destruct (lift (find_cached_target E c tf p) w) as [w1 o1] eqn:Hf. injection H as <- _. apply lift_inv in Hf as [Hf _]. apply find_cached_run in Hf as (_ & evs' & Hex & _). by exists evs'.
  - destruct (download_target E c tf p u w) as [w1 o1] eqn:Hd. injection H as <- _. apply download_target_run in Hd as (_ & evs' & [Hex _] & _). by exists evs'.
  - apply ksteps_blocks in Hk as (bs & [Hex _] & _). by eexists.
Qed.
Lemma unreserved_no_slash s : string_all url_unreserved s = true -> no_slash s.
Proof. intros H%query_escape_id. rewrite <- H. apply query_escape_no_slash. Qed.
(** ** C73 *)
Lemma target_file_distinct E c tf tf' p : plain_base (c_targets_dir c) = true -> tf_path tf ∉ ["" ; "."; ".."] -> tf_path tf' ∉ ["" ; "."; ".."] ->
  target_file_path E c tf = Ok p -> target_file_path E c tf' = Ok p -> tf_path tf = tf_path tf'.
Proof.
  intros Hb Hn Hn' H H'. destruct (target_path_plain E c Hb) as (prefix & Hp & _).
  assert (c_targets_dir c <> "" \/ c_disable_cache c = true) as Hd. { unfold target_file_path in H. destruct (String.eqb_spec (c_targets_dir c) "") as [Hx|Hx]; [|by left]. destruct (c_disable_cache c); [by right|done]. }
  rewrite (Hp tf Hd) in H by (intros Hx; rewrite Hx in Hn; set_solver). rewrite (Hp tf' Hd) in H' by (intros Hx; rewrite Hx in Hn'; set_solver).
  injection H as <-. injection H' as H'. symmetry. apply query_escape_inj. by apply app_inj_s in H'.
Qed.
Lemma target_file_inside E c tf p : plain_base (c_targets_dir c) = true -> has_prefix "/" (c_targets_dir c) = true -> tf_path tf ∉ ["" ; "."; ".."] ->
  target_file_path E c tf = Ok p -> exists name, plain_name name /\ p = in_dir (c_targets_dir c) name.
Proof.
  intros Hb Ha Hn H. destruct (target_path_plain E c Hb) as (prefix & Hp & Hpre). specialize (Hpre Ha) as ->.
  assert (c_targets_dir c <> "") as Hd by (intros Hx; rewrite Hx in Ha; vm_compute in Ha; done).
  rewrite (Hp tf (or_introl Hd)) in H by (intros Hx; rewrite Hx in Hn; set_solver). injection H as <-. exists (query_escape (tf_path tf)). split; [apply escape_plain; intros Hx; rewrite Hx in Hn; set_solver|]. by rewrite in_dir_prefix.
Qed.
