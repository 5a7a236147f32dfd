(** * Loaded metadata is well-formed (C17) *)
From stdpp Require Import base gmap strings list.
From Coq Require Import ZArith Lia Ascii String.
From Verif Require Import GoBase GoStr Json GoTime Types Marshal Metadata StrProofs SpecUtf8 Utf8Proofs SpecText JsonText SpecSerial JsonProofs SigProofs SerialProofs SpecRound RoundBase RoundProofs RoundStructs CanonProofs RoundKept SpecExtra ExtraProofs SpecLoad LoadBase.
Open Scope Z_scope.

(** ** Dates *)
Definition time_read (t : gotime) : Prop :=
  0 <= t_year t <= 9999 /\ 1 <= t_mon t <= 12 /\ 1 <= t_day t <= days_in (t_mon t) (t_year t) /\ 0 <= t_hour t < 24 /\ 0 <= t_min t < 60 /\
  0 <= t_sec t < 60 /\ 0 <= t_ns t < 1000000000 /\ t_off t mod 60 = 0.
Lemma is_digit_range c : is_digit c = true -> 0 <= bz c - 48 <= 9.
Proof. unfold is_digit. rewrite andb_true_iff, !Z.leb_le. lia. Qed.
Lemma scan_dec_range w acc s n r : 0 <= acc -> scan_dec w acc s = Some (n, r) -> 0 <= n < (acc + 1) * 10 ^ Z.of_nat w.
Proof.
  revert acc s; induction w as [|w IH]; intros acc s Ha; cbn [scan_dec].
  - intros [= <- <-]. change (10 ^ Z.of_nat 0) with 1. lia.
  - destruct s as [|c s]; [done|]. destruct (is_digit c) eqn:E; [|done]. apply is_digit_range in E. intros H%IH; [|lia]. rewrite Nat2Z.inj_succ, Z.pow_succ_r by lia. nia.
Qed.
Lemma scan_hour_range s h r : scan_hour s = Some (h, r) -> 0 <= h.
Proof.
  unfold scan_hour. destruct s as [|a [|b s]]; [done| |].
  - destruct (is_digit a) eqn:E; [|done]. apply is_digit_range in E. intros [= <- _]. lia.
  - destruct (is_digit a) eqn:E; [|done]. apply is_digit_range in E. destruct (is_digit b) eqn:E2; [apply is_digit_range in E2|]; intros [= <- _]; lia.
Qed.
Lemma scan_frac_range w acc s n r : 0 <= acc -> scan_frac w acc s = (n, r) -> 0 <= n < (acc + 1) * 10 ^ Z.of_nat w.
Proof.
  revert w acc; induction s as [|c s IH]; intros w acc Ha; cbn [scan_frac].
  - intros [= <- <-]. assert (0 < 10 ^ Z.of_nat w) by (apply Z.pow_pos_nonneg; lia). nia.
  - destruct (is_digit c) eqn:E.
    + apply is_digit_range in E. destruct w as [|w]; [by apply IH|]. intros H%IH; [|lia]. rewrite Nat2Z.inj_succ, Z.pow_succ_r by lia. nia.
    + intros [= <- <-]. assert (0 < 10 ^ Z.of_nat w) by (apply Z.pow_pos_nonneg; lia). nia.
Qed.
Lemma parse_time_read s t : parse_time s = Some t -> time_read t.
Proof.
  unfold parse_time. destruct (scan_dec 4 0 s) as [[y s1]|] eqn:Ey; [|done]. apply scan_dec_range in Ey; [|lia].
  destruct (expect "-" s1) as [s2|]; [|done]. destruct (scan_dec 2 0 s2) as [[mo s3]|] eqn:Emo; [|done]. apply scan_dec_range in Emo; [|lia].
  destruct (expect "-" s3) as [s4|]; [|done]. destruct (scan_dec 2 0 s4) as [[d s5]|] eqn:Ed; [|done]. apply scan_dec_range in Ed; [|lia].
  destruct (expect "T" s5) as [s6|]; [|done]. destruct (scan_hour s6) as [[h s7]|] eqn:Eh; [|done]. apply scan_hour_range in Eh.
  destruct (expect ":" s7) as [s8|]; [|done]. destruct (scan_dec 2 0 s8) as [[mi s9]|] eqn:Emi; [|done]. apply scan_dec_range in Emi; [|lia].
  destruct (expect ":" s9) as [s10|]; [|done]. destruct (scan_dec 2 0 s10) as [[se s11]|] eqn:Ese; [|done]. apply scan_dec_range in Ese; [|lia].
  match goal with |- context [let '(ns, s) := ?e in _] => destruct e as [ns s12] eqn:Ens end.
  assert (0 <= ns < 1000000000) as Hns.
  { destruct s11 as [|c [|c' r]]; try (injection Ens as <- _; lia). destruct (((bz c =? 46) || (bz c =? 44)) && is_digit c'); [|injection Ens as <- _; lia].
    apply scan_frac_range in Ens; [|lia]. change ((0 + 1) * 10 ^ Z.of_nat 9) with 1000000000 in Ens. done. }
  cbv zeta. match goal with |- match ?e with _ => _ end = _ -> _ => destruct e as [off|] eqn:Eoff end; [|done].
  assert (off mod 60 = 0) as Hoff.
  { destruct s12 as [|c r]; [done|]. destruct (bz c =? 90); [destruct r; [by injection Eoff as <-|done]|]. destruct ((bz c =? 43) || (bz c =? 45)); [|done].
    destruct (scan_dec 2 0 r) as [[oh r1]|]; [|done]. destruct (expect ":" r1) as [r2|]; [|done]. destruct (scan_dec 2 0 r2) as [[om r3]|]; [|done]. destruct r3; [|done].
    destruct ((oh <=? 24) && (om <=? 60)); [|done]. destruct (bz c =? 45); injection Eoff as <-; [rewrite <- Z.mul_opp_l|]; by rewrite Z.mod_mul by lia. }
  destruct ((1 <=? mo) && (mo <=? 12) && (1 <=? d) && (d <=? days_in mo y) && (h <? 24) && (mi <? 60) && (se <? 60)) eqn:Ec; [|done]. intros [= <-].
  rewrite !andb_true_iff, !Z.leb_le, !Z.ltb_lt in Ec. change ((0 + 1) * 10 ^ Z.of_nat 4) with 10000 in *. unfold time_read. cbn [t_year t_mon t_day t_hour t_min t_sec t_ns t_off].
  destruct Ec as ((((((? & ?) & ?) & ?) & ?) & ?) & ?). split_and!; try lia; done.
Qed.
Lemma dec_time_read j old t : time_read old -> dec_time j old = Ok t -> time_read t.
Proof. intros Ho. destruct j; cbn; try done; [by intros [= <-]|]. destruct (parse_time s) eqn:E; [|done]. intros [= <-]. by eapply parse_time_read. Qed.
Lemma time_zero_read : time_read time_zero.
Proof. vm_compute. repeat split; try reflexivity; intros [=]. Qed.
Lemma time_read_ok t j : time_read t -> enc_time t = Ok j -> time_ok t /\ jdepth j = 0.
Proof.
  intros (H1 & H2 & H3 & H4 & H5 & H6 & H7 & H8). unfold enc_time, print_time. destruct ((t_year t <? 0) || (9999 <? t_year t) || (24 <=? Z.abs (t_off t ÷ 60) / 60)) eqn:E; [done|].
  intros [= <-]. split; [|done]. rewrite !orb_false_iff, !Z.ltb_ge, Z.leb_gt in E. destruct E as [_ E].
  assert (Z.abs (t_off t) < 86400); [|unfold time_ok; tauto]. apply Z.mod_divide in H8 as [q Hq]; [|lia]. rewrite Hq in E |- *. rewrite Z.quot_mul in E by lia.
  pose proof (Z.div_mod (Z.abs q) 60 ltac:(lia)). pose proof (Z.mod_pos_bound (Z.abs q) 60 ltac:(lia)). lia.
Qed.

(** ** Decoders keep what they are given well-formed *)
Lemma decode_inv {T} (P : T -> Prop) (fs : fields T) D j x y : src D j ->
  Forall (fun nf => forall v a b, src (D - 1) v -> P a -> nf.2 v a = Ok b -> P b) fs -> P x -> decode_struct fs x j = Ok y -> P y.
Proof.
  intros Hs Hf Hx. destruct j as [| | | | | |l]; try done; [by intros [= <-]|]. apply src_obj in Hs as [_ Hs]. cbn [decode_struct].
  assert (forall k f, field_lookup fs k = Some f -> forall v a b, src (D - 1) v -> P a -> f v a = Ok b -> P b) as Hl.
  { intros k f H. assert (exists n, (n, f) ∈ fs) as [n Hn].
    { unfold field_lookup in H. destruct (field_exact fs k) as [g|] eqn:E.
      - injection H as ->. clear -E. induction fs as [|[n g] fs IH]; [done|]. cbn in E. destruct (String.eqb n k); [injection E as ->; exists n; left|]. destruct (IH E) as [n' ?]. exists n'. by right.
      - clear E. induction fs as [|[n g] fs IH]; [done|]. cbn in H. destruct (String.eqb (fold_key n) (fold_key k)); [injection H as ->; exists n; left|]. apply Forall_cons in Hf as [_ Hf]. destruct (IH Hf H) as [n' ?]. exists n'. by right. }
    rewrite Forall_forall in Hf. by apply (Hf (n, f)). }
  revert x Hx; induction Hs as [|[k v] l [Hk Hv] _ IH]; intros x Hx; cbn [decode_members]; [by intros [= <-]|]. destruct (field_lookup fs k) as [f|] eqn:E; [|by apply IH].
  intros (x' & Hx' & H)%obind_ok. apply (IH x'); [|done]. by eapply Hl.
Qed.
Lemma dec_string_read D j old s : src D j -> utf8_text old -> dec_string j old = Ok s -> utf8_text s.
Proof. intros [(_ & Ht & _) _] Ho. destruct j; cbn in *; try done; by intros [= <-]. Qed.
Lemma dec_int_read j old z : int_ok old -> dec_int j old = Ok z -> int_ok z.
Proof.
  intros Ho. destruct j; cbn; try done; [by intros [= <-]|]. destruct (parse_int 10 lit) as [v|] eqn:E; [|done]. intros [= <-]. unfold parse_int in E. revert E. unfold int_ok.
  match goal with |- match ?r with _ => _ end = _ -> _ => destruct r as [w|] end; [|done]. destruct (in_int64 w) eqn:E; [|done]. by intros [= <-].
Qed.
Lemma dec_elems_read {A} (P : A -> Prop) (d : json -> A -> outcome A) zero D l old r : Forall (src D) l -> P zero -> Forall P old ->
  (forall j a b, src D j -> P a -> d j a = Ok b -> P b) -> dec_elems d zero l old = Ok r -> Forall P r.
Proof.
  intros Hl Hz Ho Hd. revert old r Ho. induction Hl as [|j l Hj _ IH]; intros old r Ho; cbn [dec_elems]; [by intros [= <-]|].
  intros (x & Hx & (r' & Hr & H)%obind_ok)%obind_ok. injection H as <-. constructor.
  - eapply Hd; [done| |done]. destruct Ho; done.
  - eapply IH; [|done]. by destruct Ho.
Qed.
Lemma dec_slice_read {A} (P : A -> Prop) (d : json -> A -> outcome A) zero D j old r : src D j -> P zero -> Forall P (slist old) ->
  (forall j a b, src (D - 1) j -> P a -> d j a = Ok b -> P b) -> dec_slice d zero j old = Ok r -> Forall P (slist r).
Proof.
  intros Hj Hz Ho Hd. destruct j as [| | | | |l|]; cbn; try done; [intros [= <-]; constructor|]. intros (r' & Hr & H)%obind_ok. injection H as <-. apply src_arr in Hj as [_ Hj]. by eapply dec_elems_read.
Qed.
Lemma dec_strings_read D j old r : src D j -> strs_ok old -> dec_strings j old = Ok r -> strs_ok r.
Proof. intros Hj Ho. apply (dec_slice_read utf8_text dec_string "" D); [done|constructor|done|]. intros j' a b. apply dec_string_read. Qed.
Lemma dec_map_read {V} (P : V -> Prop) (d : json -> outcome V) D j old m : src D j -> (forall k v, mget old k = Some v -> utf8_text k /\ P v) ->
  (forall j v, src (D - 1) j -> d j = Ok v -> P v) -> dec_map d j old = Ok m -> forall k v, mget m k = Some v -> utf8_text k /\ P v.
Proof.
  intros Hj Ho Hd. destruct j as [| | | | | |l]; cbn [dec_map]; try done; [by intros [= <-]|]. intros (m' & Hm & H)%obind_ok. injection H as <-. apply src_obj in Hj as [_ Hj].
  assert (forall k v, mmap old !! k = Some v -> utf8_text k /\ P v) as Ho' by (intros k v; by destruct old; [apply Ho|]).
  clear Ho. revert Ho' Hm. generalize (mmap old) as acc. induction Hj as [|[k v] l [Hk Hv] _ IH]; intros acc Ho; cbn [dec_map_members]; [by intros [= <-]|].
  intros (x & Hx & H)%obind_ok. apply (IH (<[k := x]> acc)); [|done]. intros k' v'. destruct (decide (k = k')) as [<- |Hne]; [rewrite lookup_insert; intros [= <-]; split; [done|]; by eapply Hd|].
  rewrite lookup_insert_ne by done. apply Ho.
Qed.
Lemma dec_hashes_read D j old h : src D j -> hashes_ok old -> dec_map hexbytes_unmarshal j old = Ok h -> hashes_ok h.
Proof. intros Hj Ho H k v Hv. refine (proj1 (dec_map_read (fun _ => True) hexbytes_unmarshal D j old h Hj _ _ H k v Hv)); [|done]. intros k' v' ?. split; [by eapply Ho|done]. Qed.
Lemma dec_ptrs_read {V} (P : V -> Prop) (d : json -> outcome V) D j old m : src D j -> ptrs_ok P old ->
  (forall j v, src (D - 1) j -> d j = Ok v -> P v) -> dec_map (dec_ptr d) j old = Ok m -> ptrs_ok P m.
Proof.
  intros Hj Ho Hd Hm. refine (dec_map_read (fun o => forall x, o = Some x -> P x) (dec_ptr d) D j old m Hj Ho _ Hm). intros j' v Hj' H x ->.
  unfold dec_ptr in H. destruct j'; try done; apply obind_ok in H as (a & Ha & H); injection H as <-; by eapply Hd.
Qed.
Lemma dec_ptr_read {V} (P : V -> Prop) (d : json -> outcome V) D j o : src D j -> (forall j v, src D j -> d j = Ok v -> P v) -> dec_ptr d j = Ok o -> forall x, o = Some x -> P x.
Proof. intros Hj Hd H x ->. unfold dec_ptr in H. destruct j; try done; apply obind_ok in H as (a & Ha & H); injection H as <-; by eapply Hd. Qed.

(** ** Depth of written values *)
Lemma obj_of_depth D u known : 1 <= D -> extra_read (D - 1) u -> Forall (fun kv => jdepth kv.2 <= D - 1) known -> jdepth (obj_of u known) <= D.
Proof.
  intros HD Hu Hk. unfold obj_of. apply jdepth_obj. split; [done|]. apply Forall_forall. intros [k v] Hin%obj_norm_in. apply elem_of_app in Hin as [Hin|Hin].
  - apply mlist_elem in Hin. by destruct (Hu _ _ Hin) as (_ & _ & ?).
  - rewrite Forall_forall in Hk. by apply Hk in Hin.
Qed.
Lemma enc_map_depth {V} (f : V -> json) D m : 1 <= D -> (forall k v, mget m k = Some v -> jdepth (f v) <= D - 1) -> jdepth (enc_map f m) <= D.
Proof.
  intros HD Hm. destruct m as [m|]; cbn [enc_map]; [|cbn; lia]. apply jdepth_obj. split; [done|]. apply Forall_forall. intros kv Hin%obj_norm_in.
  apply elem_of_list_In, in_map_iff in Hin as ([k v] & <- & Hin). apply elem_of_list_In, elem_of_map_to_list in Hin. cbn. by eapply Hm.
Qed.
Lemma enc_ptrs_depth {V} (f : V -> json) D m : 1 <= D -> (forall k x, mget m k = Some (Some x) -> jdepth (f x) <= D - 1) -> jdepth (enc_map (enc_ptr f) m) <= D.
Proof. intros HD Hm. apply enc_map_depth; [done|]. intros k [x|] H; cbn; [by eapply Hm|lia]. Qed.
Lemma enc_slice_depth {A} (f : A -> json) D l : 1 <= D -> (forall x, x ∈ slist l -> jdepth (f x) <= D - 1) -> jdepth (enc_slice f l) <= D.
Proof.
  intros HD Hl. destruct l as [l|]; cbn [enc_slice]; [|cbn; lia]. apply jdepth_arr. split; [done|]. apply Forall_forall. intros j (x & <- & Hin)%elem_of_list_In%in_map_iff. apply Hl. by apply elem_of_list_In.
Qed.
Lemma enc_strings_depth D l : 1 <= D -> jdepth (enc_strings l) <= D.
Proof. intros HD. apply enc_slice_depth; [done|]. intros x _. cbn. lia. Qed.
Lemma enc_hashes_depth D h : 1 <= D -> jdepth (enc_hashes h) <= D.
Proof. intros HD. apply enc_map_depth; [done|]. intros k v _. cbn. lia. Qed.

(** ** Objects *)
Ltac projs := cbn [kv_public kv_unrec k_type k_scheme k_val k_id k_unrec sig_keyid sig_sig sig_unrec r_keyids r_threshold r_unrec mf_length mf_hashes mf_version mf_unrec tf_length tf_hashes tf_custom tf_path tf_unrec dr_name dr_keyids dr_threshold dr_terminating dr_hash_prefixes dr_paths dr_unrec sr_keyids sr_threshold sr_bit_length sr_name_prefix sr_unrec d_keys d_roles d_succinct d_unrec rt_type rt_spec rt_consistent rt_version rt_expires rt_keys rt_roles rt_unrec sn_type sn_spec sn_version sn_expires sn_meta sn_unrec ts_type ts_spec ts_version ts_expires ts_meta ts_unrec tg_type tg_spec tg_version tg_expires tg_targets tg_delegations tg_unrec].
Ltac projs_in H := cbn [kv_public kv_unrec k_type k_scheme k_val k_id k_unrec sig_keyid sig_sig sig_unrec r_keyids r_threshold r_unrec mf_length mf_hashes mf_version mf_unrec tf_length tf_hashes tf_custom tf_path tf_unrec dr_name dr_keyids dr_threshold dr_terminating dr_hash_prefixes dr_paths dr_unrec sr_keyids sr_threshold sr_bit_length sr_name_prefix sr_unrec d_keys d_roles d_succinct d_unrec rt_type rt_spec rt_consistent rt_version rt_expires rt_keys rt_roles rt_unrec sn_type sn_spec sn_version sn_expires sn_meta sn_unrec ts_type ts_spec ts_version ts_expires ts_meta ts_unrec tg_type tg_spec tg_version tg_expires tg_targets tg_delegations tg_unrec] in H.
Ltac okinv H := repeat match type of H with obind _ _ = Ok _ => let a := fresh "a" in let Ha := fresh "Ha" in apply obind_ok in H as (a & Ha & H) end.
Ltac list_cases := repeat match goal with |- Forall _ (_ :: _) => apply Forall_cons_2 | |- Forall _ [] => apply Forall_nil_2 end; cbn [fst snd].
Ltac members := list_cases; try (cbn; lia).
Ltac step := let v := fresh "v" in let a := fresh "a" in let b := fresh "b" in let Hv := fresh "Hv" in let Ha := fresh "Ha" in let H := fresh "H" in
  intros v a b Hv Ha H; cbn [snd] in H; apply obind_ok in H as (? & ? & H); injection H as <-; repeat match goal with H : _ /\ _ |- _ => destruct H end; projs; try split_and!; projs; try done.
Ltac rd := match goal with
  | H : dec_string _ _ = Ok ?s |- utf8_text ?s => eapply dec_string_read; [| |exact H]; eassumption
  | H : dec_int _ _ = Ok ?s |- int_ok ?s => eapply dec_int_read; [|exact H]; eassumption
  | H : dec_strings _ _ = Ok ?s |- strs_ok ?s => eapply dec_strings_read; [| |exact H]; eassumption
  | H : dec_map hexbytes_unmarshal _ _ = Ok ?s |- hashes_ok ?s => eapply dec_hashes_read; [| |exact H]; eassumption
  | H : dec_time _ _ = Ok ?s |- time_read ?s => eapply dec_time_read; [|exact H]; eassumption
  end.
Ltac zero := cbn; try split_and!; first [apply utf8_nil|reflexivity|apply time_zero_read|apply Forall_nil_2|intros ?; discriminate|idtac].
Ltac unfold_fields := match goal with |- Forall _ ?fs => let fs' := eval red in fs in change fs with fs' end.
Ltac inv_fields P Hj Ha := let P' := eval unfold P in P in refine (decode_inv P' _ _ _ _ _ Hj _ _ Ha); cbv beta; [unfold_fields; list_cases; step; try rd|zero].
Lemma ok_inj {A} (a b : A) : Ok a = Ok b -> a = b. Proof. congruence. Qed.
Lemma keyval_load D j x : src D j -> 1 <= D -> keyval_unmarshal j = Ok x -> keyval_clear x -> keyval_wf x /\ jdepth (keyval_marshal x) <= D.
Proof.
  intros Hj HD H. unfold keyval_unmarshal in H. okinv H. injection H as <-. intros Hc. pose proof (dict_read _ _ _ ["public"] Hj Ha0) as Hx.
  set (P := (fun a => utf8_text (kv_public a))). assert (P a) as Hp by inv_fields P Hj Ha.
  split; [split; [done|]; by eapply extra_ok_of|]. apply obj_of_depth; [done|done|]. members.
Qed.
Lemma key_load D j x : src D j -> 2 <= D -> key_unmarshal j = Ok x -> key_clear x -> key_wf x /\ jdepth (key_marshal x) <= D.
Proof.
  intros Hj HD H. unfold key_unmarshal in H. okinv H. injection H as <-. intros [Hc1 Hc2]. pose proof (dict_read _ _ _ ["keytype"; "scheme"; "keyval"] Hj Ha0) as Hx.
  set (P := fun a => utf8_text (k_type a) /\ utf8_text (k_scheme a) /\ (keyval_clear (k_val a) -> keyval_wf (k_val a) /\ jdepth (keyval_marshal (k_val a)) <= D - 1)).
  assert (P a) as (H1 & H2 & H3).
  { inv_fields P Hj Ha.
    - eapply keyval_load; [done|lia|done].
    - intros _. split; [split; [apply utf8_nil|done]|]. cbn. lia. }
  destruct (H3 Hc1). split; [split_and!; try done; by eapply extra_ok_of|]. apply obj_of_depth; [lia|done|]. members. done.
Qed.
Lemma signature_load D j x : src D j -> 1 <= D -> signature_unmarshal j = Ok x -> signature_clear x -> signature_wf x /\ jdepth (signature_marshal x) <= D.
Proof.
  intros Hj HD H. unfold signature_unmarshal in H. okinv H. injection H as <-. intros Hc. pose proof (dict_read _ _ _ ["keyid"; "sig"] Hj Ha0) as Hx.
  set (P := (fun a => utf8_text (sig_keyid a))). assert (P a) as Hp by inv_fields P Hj Ha.
  split; [split; [done|]; by eapply extra_ok_of|]. apply obj_of_depth; [done|done|]. members.
Qed.
Lemma role_load D j x : src D j -> 2 <= D -> role_unmarshal j = Ok x -> role_clear x -> role_wf x /\ jdepth (role_marshal x) <= D.
Proof.
  intros Hj HD H. unfold role_unmarshal in H. okinv H. injection H as <-. intros Hc. pose proof (dict_read _ _ _ ["keyids"; "threshold"] Hj Ha0) as Hx.
  set (P := fun a => strs_ok (r_keyids a) /\ int_ok (r_threshold a)). assert (P a) as [H1 H2] by inv_fields P Hj Ha.
  split; [split_and!; try done; by eapply extra_ok_of|]. apply obj_of_depth; [lia|done|]. members. apply enc_strings_depth. lia.
Qed.
Lemma metafile_load D j x : src D j -> 2 <= D -> metafile_unmarshal j = Ok x -> metafile_clear x -> metafile_wf x /\ jdepth (metafile_marshal x) <= D.
Proof.
  intros Hj HD H. unfold metafile_unmarshal in H. okinv H. injection H as <-. intros Hc. pose proof (dict_read _ _ _ ["length"; "hashes"; "version"] Hj Ha0) as Hx.
  set (P := fun a => int_ok (mf_length a) /\ hashes_ok (mf_hashes a) /\ int_ok (mf_version a)). assert (P a) as (H1 & H2 & H3) by inv_fields P Hj Ha.
  split; [split_and!; try done; by eapply extra_ok_of|]. apply obj_of_depth; [lia|done|]. rewrite !Forall_app. split_and!.
  - case_match; [constructor|members].
  - case_match; [constructor|members]. apply enc_hashes_depth. lia.
  - members.
Qed.
Lemma targetfile_load D j x : src D j -> 2 <= D -> targetfile_unmarshal j = Ok x -> targetfile_clear x -> targetfile_wf x /\ jdepth (targetfile_marshal x) <= D.
Proof.
  intros Hj HD H. unfold targetfile_unmarshal in H. okinv H. injection H as <-. intros Hc. pose proof (dict_read _ _ _ ["length"; "hashes"; "custom"] Hj Ha0) as Hx.
  set (P := fun a => int_ok (tf_length a) /\ hashes_ok (tf_hashes a) /\ (forall c, tf_custom a = Some c -> custom_ok c /\ jdepth c <= D - 1)).
  assert (P a) as (H1 & H2 & H3). { inv_fields P Hj Ha. intros c ->. by eapply custom_read. }
  split; [split_and!; try done; [intros c ?; by apply H3|by eapply extra_ok_of]|]. apply obj_of_depth; [lia|done|]. rewrite Forall_app. split; [members; apply enc_hashes_depth; lia|].
  cbn [tf_custom]. destruct (tf_custom a) as [c|]; [|constructor]. members. by apply H3.
Qed.
Lemma delegatedrole_load D j x j' : src D j -> 2 <= D -> delegatedrole_unmarshal j = Ok x -> delegatedrole_marshal x = Ok j' -> delegatedrole_clear x -> delegatedrole_wf x /\ jdepth j' <= D.
Proof.
  intros Hj HD H. unfold delegatedrole_unmarshal in H. okinv H. injection H as <-. intros Hm Hc. pose proof (dict_read _ _ _ ["name"; "keyids"; "threshold"; "terminating"; "paths"; "path_hash_prefixes"] Hj Ha0) as Hx.
  set (P := fun a => utf8_text (dr_name a) /\ strs_ok (dr_keyids a) /\ int_ok (dr_threshold a) /\ strs_ok (dr_hash_prefixes a) /\ strs_ok (dr_paths a)).
  assert (P a) as (H1 & H2 & H3 & H4 & H5) by inv_fields P Hj Ha.
  unfold delegatedrole_marshal in Hm. cbn [dr_paths dr_hash_prefixes dr_unrec dr_name dr_keyids dr_threshold dr_terminating app] in Hm. split.
  - split_and!; try done; [|by eapply extra_ok_of]. cbn. destruct (dr_paths a), (dr_hash_prefixes a); [done|by left|by right|by left].
  - destruct (dr_paths a) as [p|], (dr_hash_prefixes a) as [h|]; [done|..]; apply ok_inj in Hm as <-; (apply obj_of_depth; [lia|done|]); members; apply enc_strings_depth; lia.
Qed.
Lemma succinct_load D j x : src D j -> 2 <= D -> succinct_unmarshal j = Ok x -> succinct_clear x -> succinct_wf x /\ jdepth (succinct_marshal x) <= D.
Proof.
  intros Hj HD H. unfold succinct_unmarshal in H. okinv H. injection H as <-. intros Hc. pose proof (dict_read _ _ _ ["keyids"; "threshold"; "bit_length"; "name_prefix"] Hj Ha0) as Hx.
  set (P := fun a => strs_ok (sr_keyids a) /\ int_ok (sr_threshold a) /\ int_ok (sr_bit_length a) /\ utf8_text (sr_name_prefix a)).
  assert (P a) as (H1 & H2 & H3 & H4) by inv_fields P Hj Ha.
  split; [split_and!; try done; by eapply extra_ok_of|]. apply obj_of_depth; [lia|done|]. members. apply enc_strings_depth. lia.
Qed.

(** ** Structures of objects *)
Lemma ptrs_load {V} (clear wf : V -> Prop) (f : V -> json) D (m : gomap (option V)) : ptrs_ok (fun x => clear x -> wf x /\ jdepth (f x) <= D) m -> all_ptrs clear m ->
  ptrs_ok wf m /\ forall k x, mget m k = Some (Some x) -> jdepth (f x) <= D.
Proof.
  intros Hm Hc. split.
  - intros k o Ho. destruct (Hm k o Ho) as [Hk Hx]. split; [done|]. intros x ->. apply Hx; [done|]. by eapply Hc.
  - intros k x Ho. destruct (Hm k _ Ho) as [_ Hx]. apply (Hx x); [done|]. by eapply Hc.
Qed.
Lemma oseq_ok {A} (l : list (outcome A)) r : oseq l = Ok r -> Forall2 (fun o a => o = Ok a) l r.
Proof.
  revert r; induction l as [|o l IH]; intros r; cbn [oseq]; [by intros [= <-]|]. intros (a & Ha & (r' & Hr & H)%obind_ok)%obind_ok. injection H as <-. constructor; auto.
Qed.
Lemma ptrs_none {V} (P : V -> Prop) : ptrs_ok P None. Proof. by intros k o. Qed.
Definition dr_good (D : Z) (x : delegatedrole) : Prop := forall j', delegatedrole_marshal x = Ok j' -> delegatedrole_clear x -> delegatedrole_wf x /\ jdepth j' <= D.
Lemma delegations_load D j x j' : src D j -> 4 <= D -> delegations_unmarshal j = Ok x -> delegations_marshal x = Ok j' -> delegations_clear x -> delegations_wf x /\ jdepth j' <= D.
Proof.
  intros Hj HD H. unfold delegations_unmarshal in H. okinv H. injection H as <-. intros Hm (Hc1 & Hc2 & Hc3 & Hc4). pose proof (dict_read _ _ _ ["keys"; "roles"; "succinct_roles"] Hj Ha0) as Hx.
  set (P := fun a => ptrs_ok (fun x => key_clear x -> key_wf x /\ jdepth (key_marshal x) <= D - 2) (d_keys a) /\ Forall (dr_good (D - 2)) (slist (d_roles a)) /\
     (forall s, d_succinct a = Some s -> succinct_clear s -> succinct_wf s /\ jdepth (succinct_marshal s) <= D - 1)).
  assert (P a) as (H1 & H2 & H3).
  { inv_fields P Hj Ha.
    - eapply dec_ptrs_read; [exact Hv|eassumption| |eassumption]. intros j0 v0 Hj0. apply key_load; [|lia]. by replace (D - 2) with (D - 1 - 1) by lia.
    - eapply dec_slice_read; [exact Hv| |eassumption| |eassumption].
      + intros j0 Hz _. unfold delegatedrole_marshal in Hz. cbn [delegatedrole_zero dr_paths dr_hash_prefixes] in Hz. apply ok_inj in Hz as <-. split; [split_and!; try done; try apply utf8_nil; by left|]. apply obj_of_depth; [lia|by intros ? ?|cbn [app]; members].
      + intros j0 a2 b Hj0 _ Hb j2. apply (delegatedrole_load _ j0); [|lia|done]. by replace (D - 2) with (D - 1 - 1) by lia.
    - eapply (dec_ptr_read (fun s => succinct_clear s -> succinct_wf s /\ jdepth (succinct_marshal s) <= D - 1)); [exact Hv| |eassumption]. intros j0 v0 Hj0. apply succinct_load; [done|lia]. }
  apply ptrs_load in H1 as [H1 H1']; [|done]. unfold delegations_marshal in Hm. cbn [d_keys d_roles d_succinct d_unrec] in *.
  assert (forall tail, Forall (fun kv => jdepth kv.2 <= D - 1) tail -> jdepth (obj_of (del_all ["keys"; "roles"; "succinct_roles"] a0) (("keys", enc_keys (d_keys a)) :: tail)) <= D) as Hd.
  { intros tail Ht. apply obj_of_depth; [lia|done|]. constructor; [|done]. cbn [snd]. apply enc_ptrs_depth; [lia|]. intros k x0 ?. replace (D - 1 - 1) with (D - 2) by lia. by eapply H1'. }
  destruct (d_roles a) as [l|] eqn:El.
  - apply obind_ok in Hm as (tail & (r & Hr & Ht)%obind_ok & Hm). apply ok_inj in Ht as <-. apply ok_inj in Hm as <-. apply oseq_ok, Forall2_fmap_l in Hr. cbn [slist] in *.
    assert (Forall delegatedrole_wf l /\ Forall (fun j => jdepth j <= D - 2) r) as [Hw Hr'].
    { clear -H2 Hc2 Hr. induction Hr as [|x y l r Hxy _ IH]; [done|]. apply Forall_cons in H2 as [Hx H2], Hc2 as [Hcx Hc2]. destruct (Hx y Hxy Hcx). destruct (IH Hc2 H2). split; by constructor. }
    split; [split_and!; try done; by eapply extra_ok_of|]. apply Hd. members. apply jdepth_arr. split; [lia|]. by replace (D - 1 - 1) with (D - 2) by lia.
  - cbn [obind] in Hm. destruct (d_succinct a) as [s|] eqn:Es; apply ok_inj in Hm as <-.
    + destruct (H3 s eq_refl (Hc3 s eq_refl)). split; [split; [done|]; split; [apply Forall_nil_2|]; split; [intros s' _ Hs'; cbn in Hs'; congruence|by eapply extra_ok_of]|]. apply Hd. members. done.
    + split; [split; [done|]; split; [apply Forall_nil_2|]; split; [done|by eapply extra_ok_of]|]. apply Hd. members.
Qed.

Lemma root_load D j x j' : src D j -> 4 <= D -> root_unmarshal j = Ok x -> root_marshal x = Ok j' -> root_clear x -> root_wf x /\ jdepth j' <= D.
Proof.
  intros Hj HD H. unfold root_unmarshal in H. okinv H. apply ok_inj in H as <-. intros Hm (Hc1 & Hc2 & Hc3). pose proof (dict_read _ _ _ root_names Hj Ha0) as Hx.
  set (P := fun a => utf8_text (rt_type a) /\ utf8_text (rt_spec a) /\ int_ok (rt_version a) /\ time_read (rt_expires a) /\
    ptrs_ok (fun x => key_clear x -> key_wf x /\ jdepth (key_marshal x) <= D - 2) (rt_keys a) /\ ptrs_ok (fun x => role_clear x -> role_wf x /\ jdepth (role_marshal x) <= D - 2) (rt_roles a)).
  assert (P a) as (H1 & H2 & H3 & H4 & H5 & H6).
  { inv_fields P Hj Ha.
    - eapply dec_ptrs_read; [exact Hv|eassumption| |eassumption]. intros j0 v0 Hj0. apply key_load; [|lia]. by replace (D - 2) with (D - 1 - 1) by lia.
    - eapply dec_ptrs_read; [exact Hv|eassumption| |eassumption]. intros j0 v0 Hj0. apply role_load; [|lia]. by replace (D - 2) with (D - 1 - 1) by lia.  }
  apply ptrs_load in H5 as [H5 H5']; [|done]. apply ptrs_load in H6 as [H6 H6']; [|done]. unfold root_marshal in Hm. projs_in Hm. apply obind_ok in Hm as (e & He & Hm). apply ok_inj in Hm as <-.
  destruct (time_read_ok _ _ H4 He) as [Ht Hd]. split; [split_and!; try done; by eapply extra_ok_of|]. apply obj_of_depth; [lia|done|]. members; (apply enc_ptrs_depth; [lia|]); intros k x0 ?; replace (D - 1 - 1) with (D - 2) by lia; [by eapply H5'|by eapply H6'].
Qed.
Lemma snapshot_load D j x j' : src D j -> 4 <= D -> snapshot_unmarshal j = Ok x -> snapshot_marshal x = Ok j' -> snapshot_clear x -> snapshot_wf x /\ jdepth j' <= D.
Proof.
  intros Hj HD H. unfold snapshot_unmarshal in H. okinv H. apply ok_inj in H as <-. intros Hm (Hc1 & Hc3). pose proof (dict_read _ _ _ meta_names Hj Ha0) as Hx.
  set (P := fun a => utf8_text (sn_type a) /\ utf8_text (sn_spec a) /\ int_ok (sn_version a) /\ time_read (sn_expires a) /\
    ptrs_ok (fun x => metafile_clear x -> metafile_wf x /\ jdepth (metafile_marshal x) <= D - 2) (sn_meta a)).
  assert (P a) as (H1 & H2 & H3 & H4 & H5).
  { inv_fields P Hj Ha.
    - eapply dec_ptrs_read; [exact Hv|eassumption| |eassumption]. intros j0 v0 Hj0. apply metafile_load; [|lia]. by replace (D - 2) with (D - 1 - 1) by lia. }
  apply ptrs_load in H5 as [H5 H5']; [|done]. unfold snapshot_marshal in Hm. projs_in Hm. apply obind_ok in Hm as (e & He & Hm). apply ok_inj in Hm as <-.
  destruct (time_read_ok _ _ H4 He) as [Ht Hd]. split; [split_and!; try done; by eapply extra_ok_of|]. apply obj_of_depth; [lia|done|]. members; (apply enc_ptrs_depth; [lia|]); intros k x0 ?; replace (D - 1 - 1) with (D - 2) by lia; by eapply H5'.
Qed.
Lemma timestamp_load D j x j' : src D j -> 4 <= D -> timestamp_unmarshal j = Ok x -> timestamp_marshal x = Ok j' -> timestamp_clear x -> timestamp_wf x /\ jdepth j' <= D.
Proof.
  intros Hj HD H. unfold timestamp_unmarshal in H. okinv H. apply ok_inj in H as <-. intros Hm (Hc1 & Hc3). pose proof (dict_read _ _ _ meta_names Hj Ha0) as Hx.
  set (P := fun a => utf8_text (ts_type a) /\ utf8_text (ts_spec a) /\ int_ok (ts_version a) /\ time_read (ts_expires a) /\
    ptrs_ok (fun x => metafile_clear x -> metafile_wf x /\ jdepth (metafile_marshal x) <= D - 2) (ts_meta a)).
  assert (P a) as (H1 & H2 & H3 & H4 & H5).
  { inv_fields P Hj Ha.
    - eapply dec_ptrs_read; [exact Hv|eassumption| |eassumption]. intros j0 v0 Hj0. apply metafile_load; [|lia]. by replace (D - 2) with (D - 1 - 1) by lia. }
  apply ptrs_load in H5 as [H5 H5']; [|done]. unfold timestamp_marshal in Hm. projs_in Hm. apply obind_ok in Hm as (e & He & Hm). apply ok_inj in Hm as <-.
  destruct (time_read_ok _ _ H4 He) as [Ht Hd]. split; [split_and!; try done; by eapply extra_ok_of|]. apply obj_of_depth; [lia|done|]. members; (apply enc_ptrs_depth; [lia|]); intros k x0 ?; replace (D - 1 - 1) with (D - 2) by lia; by eapply H5'.
Qed.

Lemma targets_load D j x j' : src D j -> 5 <= D -> targets_unmarshal j = Ok x -> targets_marshal x = Ok j' -> targets_clear x -> targets_wf x /\ jdepth j' <= D.
Proof.
  intros Hj HD H. unfold targets_unmarshal in H. okinv H. apply ok_inj in H as <-. intros Hm (Hc1 & Hc2 & Hc3). pose proof (dict_read _ _ _ targets_names Hj Ha1) as Hx.
  set (P := fun a => utf8_text (tg_type a) /\ utf8_text (tg_spec a) /\ int_ok (tg_version a) /\ time_read (tg_expires a) /\
    ptrs_ok (fun x => targetfile_clear x -> targetfile_wf x /\ jdepth (targetfile_marshal x) <= D - 2) (tg_targets a) /\
    (forall d, tg_delegations a = Some d -> forall jd, delegations_marshal d = Ok jd -> delegations_clear d -> delegations_wf d /\ jdepth jd <= D - 1)).
  assert (P a) as (H1 & H2 & H3 & H4 & H5 & H6).
  { inv_fields P Hj Ha.
    - eapply dec_ptrs_read; [exact Hv|eassumption| |eassumption]. intros j0 v0 Hj0. apply targetfile_load; [|lia]. by replace (D - 2) with (D - 1 - 1) by lia.
    - eapply (dec_ptr_read (fun d => forall jd, delegations_marshal d = Ok jd -> delegations_clear d -> delegations_wf d /\ jdepth jd <= D - 1)); [exact Hv| |eassumption]. intros j0 v0 Hj0 Hd0 jd. apply (delegations_load _ j0); [done|lia|done]. }
  assert (ptrs_ok (fun x => targetfile_clear x -> targetfile_wf x /\ jdepth (targetfile_marshal x) <= D - 2) a0 /\ forall k, mget a0 k <> Some None) as [H5' Hnil].
  { destruct (tg_targets a) as [t|]; cbn [populate_paths] in Ha0; [|apply ok_inj in Ha0 as <-; by split]. case_decide as Hd; [|done]. apply ok_inj in Ha0 as <-.
    assert (forall k o, mget (Some (map_imap (fun n o => Some (option_map (set_path n) o)) t)) k = Some o -> exists o0, t !! k = Some o0 /\ o = option_map (set_path k) o0) as Hg.
    { intros k o. cbn. rewrite map_lookup_imap. destruct (t !! k) as [o0|]; [|done]. cbn. intros [= <-]. by exists o0. }
    split.
    - intros k o (o0 & Ho & ->)%Hg. destruct (H5 k o0 Ho) as [Hk Hx0]. split; [done|]. destruct o0 as [f|]; [|done]. intros x [= <-]. apply (Hx0 f eq_refl).
    - intros k (o0 & Ho & Hn)%Hg. apply (Hd k o0 Ho). by destruct o0. }
  apply ptrs_load in H5' as [H7 H7']; [|done]. unfold targets_marshal in Hm. projs_in Hm. cbn [tg_delegations] in Hc2. apply obind_ok in Hm as (e & He & Hm). destruct (time_read_ok _ _ H4 He) as [Ht Hd].
  apply obind_ok in Hm as (ds & Hds & Hm). apply ok_inj in Hm as <-.
  assert ((forall d, tg_delegations a = Some d -> delegations_wf d) /\ Forall (fun kv => jdepth kv.2 <= D - 1) ds) as [Hw Hdd].
  { destruct (tg_delegations a) as [d|]; [|apply ok_inj in Hds as <-; by split]. apply obind_ok in Hds as (jd & Hjd & Hds). apply ok_inj in Hds as <-. destruct (H6 d eq_refl jd Hjd (Hc2 d eq_refl)).
    split; [by intros d' [= <-]|by members]. }
  split; [split_and!; try done; by eapply extra_ok_of|]. apply obj_of_depth; [lia|done|]. apply Forall_app. split; [|done]. members. apply enc_ptrs_depth; [lia|]. intros k x0 ?. replace (D - 1 - 1) with (D - 2) by lia. by eapply H7'.
Qed.

(** ** Documents *)
Definition signed_load (T : Type) `{RoleTy T, SignedSpec T, ClearSpec T} : Prop :=
  (forall D j x j', src D j -> 5 <= D -> signed_unmarshal j = Ok x -> signed_marshal x = Ok j' -> signed_clear x -> signed_wf x /\ jdepth j' <= D) /\
  (forall l x, signed_unmarshal (JObj l) = Ok x -> signed_clear x -> no_lookalike "_type" l) /\
  (forall l v s x, last_member l "_type" v -> jstring v = Some s -> no_lookalike "_type" l -> signed_unmarshal (JObj l) = Ok x -> signed_type x = s).
Lemma member_last {V} (l : list (string * V)) k v : (k, v) ∈ l -> exists w, last_member l k w.
Proof.
  revert v; induction l as [|[k' v'] l IH]; intros v; [by intros ?%elem_of_nil|]. intros H. destruct (decide (k ∈ l.*1)) as [Hk|Hk].
  - apply elem_of_list_fmap in Hk as ([k0 v0] & -> & Hin). destruct (IH _ Hin) as (w & l1 & l2 & -> & Hf). exists w, ((k', v') :: l1), l2. done.
  - apply elem_of_cons in H as [[= -> ->]|H]; [|by destruct Hk; apply elem_of_list_fmap; exists (k, v)]. exists v', [], l. split; [done|]. apply Forall_forall. intros [k1 v1] Hin Heq. cbn in Heq. subst k1. destruct Hk. apply elem_of_list_fmap. by exists (k', v1).
Qed.
Lemma keeps_clear {X} (read : json -> outcome X) names extra n l x : keeps_extra read names extra -> n ∈ names -> read (JObj l) = Ok x -> clear_names names (extra x) ->
  (forall a b, a ∈ names -> b ∈ names -> fold_key a = fold_key b -> a = b) -> no_lookalike n l.
Proof.
  intros Hk Hn Hr Hc Hinj k v Hin [Hne Hf]. destruct (Hk l x Hr) as [H1 _]. destruct (decide (k ∈ names)) as [Hkn|Hkn]; [by apply Hne, Hinj|].
  destruct (member_last _ _ _ Hin) as [w Hw]. destruct (H1 k w Hkn Hw) as (u & Hu & _). by apply (Hc k u Hu n Hn).
Qed.
Definition fold_distinct (names : list string) : bool := forallb (fun a => forallb (fun b => negb (String.eqb (fold_key a) (fold_key b)) || String.eqb a b) names) names.
Lemma fold_distinct_spec names : fold_distinct names = true -> forall a b, a ∈ names -> b ∈ names -> fold_key a = fold_key b -> a = b.
Proof.
  unfold fold_distinct. rewrite forallb_forall. intros H a b Ha%elem_of_list_In Hb%elem_of_list_In Hf. specialize (H a Ha). rewrite forallb_forall in H. specialize (H b Hb).
  rewrite Hf in H. rewrite String.eqb_refl in H. cbn in H. by apply String.eqb_eq.
Qed.
Lemma root_signed_load : signed_load root_t.
Proof.
  split_and!.
  - intros D j x j' Hj HD. apply (root_load D j); [done|lia].
  - intros l x Hr (_ & _ & Hc). apply (keeps_clear root_unmarshal in_root rt_unrec "_type" l x); [apply root_keeps|by left|done|done|by apply fold_distinct_spec].
  - apply root_type_field.
Qed.
Lemma snapshot_signed_load : signed_load snapshot_t.
Proof.
  split_and!.
  - intros D j x j' Hj HD. apply (snapshot_load D j); [done|lia].
  - intros l x Hr (_ & Hc). apply (keeps_clear snapshot_unmarshal in_snapshot sn_unrec "_type" l x); [apply snapshot_keeps|by left|done|done|by apply fold_distinct_spec].
  - apply snapshot_type_field.
Qed.
Lemma timestamp_signed_load : signed_load timestamp_t.
Proof.
  split_and!.
  - intros D j x j' Hj HD. apply (timestamp_load D j); [done|lia].
  - intros l x Hr (_ & Hc). apply (keeps_clear timestamp_unmarshal in_snapshot ts_unrec "_type" l x); [apply timestamp_keeps|by left|done|done|by apply fold_distinct_spec].
  - apply timestamp_type_field.
Qed.
Lemma targets_signed_load : signed_load targets_t.
Proof.
  split_and!.
  - intros D j x j' Hj HD. apply (targets_load D j); [done|lia].
  - intros l x Hr (_ & _ & Hc). apply (keeps_clear targets_unmarshal in_targets tg_unrec "_type" l x); [apply targets_keeps|by left|done|done|by apply fold_distinct_spec].
  - apply targets_type_field.
Qed.
Lemma role_c {T} {RT : RoleTy T} {SS : SignedSpec T} {CS : ClearSpec T} : tuf_role_c T RT SS CS -> tuf_role T RT SS /\ signed_rt T /\ signed_load T.
Proof.
  intros []; split_and!.
  all: try constructor.
  all: first [apply root_signed_rt|apply snapshot_signed_rt|apply timestamp_signed_rt|apply targets_signed_rt|apply root_signed_load|apply snapshot_signed_load|apply timestamp_signed_load|apply targets_signed_load|idtac].
Qed.
Lemma metadata_load {T} {RT : RoleTy T} {SS : SignedSpec T} {CS : ClearSpec T} data (m : metadata T) j' : signed_load T -> from_bytes data = Ok m -> metadata_marshal m = Ok j' -> metadata_clear m ->
  metadata_wf m /\ jdepth j' <= max_nesting_depth.
Proof.
  intros (HL1 & HL2 & HL3) Hf Hm (Hc1 & Hc2 & Hc3). apply from_bytes_ok in Hf as (j & Hp & Hn & Hdoc & Hu & Hsig). apply parse_json_read in Hp. set (D := max_nesting_depth) in *. assert (10 <= D) as HD by done.
  assert (src D j) as Hj by done.
  destruct Hdoc as (l & l' & v & -> & Hs & Ht & Hv).
  assert (no_lookalike "signed" l) as Hno. { apply (keeps_clear metadata_unmarshal in_metadata md_unrec "signed" l m); [apply metadata_keeps|by left|done|done|by apply fold_distinct_spec]. }
  pose proof (metadata_signed_last _ _ _ Hs Hno Hu) as Hsu.
  assert (src (D - 1) (JObj l')) as Hj'. { apply src_obj in Hj as [_ Hj]. rewrite Forall_forall in Hj. apply last_member_in in Hs. by apply Hj in Hs as [_ ?]. }
  unfold metadata_marshal in Hm. apply obind_ok in Hm as (js & Hjs & Hm). apply ok_inj in Hm as <-.
  destruct (HL1 (D - 1) (JObj l') (md_signed m) js Hj' ltac:(lia) Hsu Hjs Hc1) as [Hw Hd].
  assert (signed_type (md_signed m) = role_name) as Hty. { eapply HL3; [done|done| |done]. by eapply HL2. }
  unfold metadata_unmarshal in Hu. apply obind_ok in Hu as (u & Hu & Hx). apply obind_ok in Hx as (d & Hd0 & Hx). destruct (mx_saved d); [done|]. apply ok_inj in Hx as <-. cbn [md_signed md_sigs md_unrec] in *.
  pose proof (dict_read _ _ _ ["signed"; "signatures"] Hj Hu) as Hx.
  assert (Forall (fun x => signature_clear x -> signature_wf x /\ jdepth (signature_marshal x) <= D - 2) (slist (mx_sigs d))) as Hss.
  { refine (decode_inv (fun d => Forall (fun x => signature_clear x -> signature_wf x /\ jdepth (signature_marshal x) <= D - 2) (slist (mx_sigs d))) _ _ _ _ _ Hj _ _ Hd0); [|apply Forall_nil_2].
    unfold metadata_fields. list_cases.
    - intros v0 a b Hv0 Ha H. apply obind_ok in H as (? & _ & H). apply ok_inj in H as <-. done.
    - intros v0 a b Hv0 Ha H. assert ((exists sl, dec_slice (fun j _ => signature_unmarshal j) signature_zero v0 (mx_sigs a) = Ok sl /\ mx_sigs b = sl) \/ mx_sigs b = mx_sigs a) as [(sl & Hsl & ->)| ->]; [|
        eapply dec_slice_read; [exact Hv0| |exact Ha| |exact Hsl]|done].
      + destruct v0; try (apply ok_inj in H as <-; by right); apply obind_ok in H as (sl & Hsl & H); apply ok_inj in H as <-; left; by exists sl.
      + intros _. split; [split; [apply utf8_nil|done]|]. apply obj_of_depth; [lia|by intros ? ?|members].
      + intros j0 a0 b0 Hj0 _. apply signature_load; [|lia]. by replace (D - 2) with (D - 1 - 1) by lia. }
  assert (Forall signature_wf (slist (mx_sigs d)) /\ Forall (fun x => jdepth (signature_marshal x) <= D - 2) (slist (mx_sigs d))) as [Hsw Hsd].
  { clear -Hss Hc2. induction Hss as [|x l Hx _ IH]; [done|]. apply Forall_cons in Hc2 as [Hcx Hc2]. destruct (Hx Hcx), (IH Hc2). split; by constructor. }
  split; [split_and!; try done; by eapply extra_ok_of|]. apply obj_of_depth; [lia|done|]. members. apply enc_slice_depth; [lia|]. intros x Hin. rewrite Forall_forall in Hsd. apply Hsd in Hin. lia.
Qed.
Lemma load_save_load {T} {RT : RoleTy T} {SS : SignedSpec T} {CS : ClearSpec T} data b (m : metadata T) : tuf_role_c T RT SS CS -> from_bytes data = Ok m -> to_bytes m = Ok b -> metadata_clear m ->
  from_bytes b = Ok (metadata_kept m) /\ to_bytes (metadata_kept m) = Ok b /\ signing_payload (md_signed (metadata_kept m)) = signing_payload (md_signed m).
Proof.
  intros (Hr & Hrt & Hl)%role_c Hf Hb Hc. pose proof Hb as (j & Hj & _)%obind_ok. destruct (metadata_load data m j Hl Hf Hj Hc) as [Hw Hd].
  destruct (save_load m Hrt Hw) as (b' & Hb' & Hf'). { intros j0 Hj0. assert (j0 = j) as -> by congruence. done. }
  assert (b' = b) as -> by congruence. split; [done|]. split; [by rewrite to_bytes_kept|]. by apply payload_kept.
Qed.
