(** * Saving and loading again: the structures of types.go *)
From stdpp Require Import base gmap strings list sorting.
From Coq Require Import ZArith Lia Ascii String.
From Verif Require Import GoBase GoStr Json GoTime Types Marshal Metadata StrProofs SpecUtf8 Utf8Proofs SpecText JsonText SpecSerial JsonProofs SerialProofs SpecRound RoundBase RoundProofs.
Open Scope Z_scope.

(** members in key order, for any values *)
Lemma sort1 {V} k (a : V) : obj_norm [(k, a)] = [(k, a)]. Proof. done. Qed.
Lemma sort_key {V} (a b c : V) : obj_norm [("keytype", a); ("scheme", b); ("keyval", c)] = [("keytype", a); ("keyval", c); ("scheme", b)]. Proof. done. Qed.
Lemma sort_sig {V} (a b : V) : obj_norm [("keyid", a); ("sig", b)] = [("keyid", a); ("sig", b)]. Proof. done. Qed.
Lemma sort_role {V} (a b : V) : obj_norm [("keyids", a); ("threshold", b)] = [("keyids", a); ("threshold", b)]. Proof. done. Qed.

Ltac projs := cbn [kv_public kv_unrec k_type k_scheme k_val k_id k_unrec sig_keyid sig_sig sig_unrec r_keyids r_threshold r_unrec mf_length mf_hashes mf_version mf_unrec tf_length tf_hashes tf_custom tf_path tf_unrec dr_name dr_keyids dr_threshold dr_terminating dr_hash_prefixes dr_paths dr_unrec sr_keyids sr_threshold sr_bit_length sr_name_prefix sr_unrec d_keys d_roles d_succinct d_unrec rt_type rt_spec rt_consistent rt_version rt_expires rt_keys rt_roles rt_unrec sn_type sn_spec sn_version sn_expires sn_meta sn_unrec ts_type ts_spec ts_version ts_expires ts_meta ts_unrec tg_type tg_spec tg_version tg_expires tg_targets tg_delegations tg_unrec keyval_zero key_zero role_zero signature_zero metafile_zero targetfile_zero delegatedrole_zero succinct_zero delegations_zero root_zero snapshot_zero timestamp_zero targets_zero].

Ltac field t := eapply decode_step; [reflexivity|cbv beta; projs; t; cbn [obind]; projs; reflexivity|].
Ltac field_str := field ltac:(rewrite dec_string_rr by done).
Ltac field_int := field ltac:(rewrite dec_int_rr by done).
Ltac field_strs := field ltac:(rewrite dec_strings_rr by done).
Ltac field_bool := field ltac:(rewrite dec_bool_rr).
Ltac field_hashes := field ltac:(rewrite dec_hashes_rr by done).


(** an UnmarshalJSON method on what the MarshalJSON method wrote *)
Lemma struct_rt {T R} (fs : fields T) (zero y : T) names u known (build : T -> unrec -> R) :
  (forall n, n ∈ names <-> n ∈ map fst fs) -> extra_ok names u -> known_ok names known -> decode_members fs (rr (obj_norm known)) zero = Ok y ->
  (let! a := decode_struct fs zero (reread (obj_of u known)) in let! dict := decode_dict (reread (obj_of u known)) in Ok (build a (del_all names dict))) = Ok (build y (kept_extra u)).
Proof.
  intros Hn Hu Hk Hy. destruct (dict_obj _ _ _ Hu Hk) as (D & HD & Hdel). rewrite HD. rewrite decode_obj, Hy.
  - cbn [obind]. by rewrite Hdel.
  - intros k v Hkv. destruct (Hu k v Hkv) as (? & ? & Hx). split_and!; [done|done|]. intros n Hin. apply Hx. by apply Hn.
  - eapply Forall_impl; [exact Hk|]. intros kv (? & ? & ?). split_and!; [by apply Hn|done|done].
Qed.
Ltac names := intros ?; cbn; set_solver.
Lemma obj_not_null u known : obj_of u known <> JNull. Proof. done. Qed.

(** ** KeyVal *)
Lemma keyval_known x : keyval_wf x -> known_ok ["public"] [("public", JStr (kv_public x))].
Proof. intros [H _]. known. by apply good_str. Qed.
Lemma keyval_good x : keyval_wf x -> good (keyval_marshal x).
Proof. intros H. eapply good_obj_of; [apply H|by apply keyval_known]. Qed.
Lemma keyval_rt x : keyval_wf x -> keyval_unmarshal (reread (keyval_marshal x)) = Ok (keyval_kept x).
Proof.
  intros H. pose proof (keyval_known x H) as Hk. destruct H as (Hp & Hu). unfold keyval_unmarshal, keyval_marshal.
  erewrite (struct_rt _ _ _ _ _ _ (fun a d => mkKeyVal (kv_public a) d)); [|names|done|done|rewrite sort1; field_str; apply decode_end]. done.
Qed.

(** ** Key *)
Lemma key_known x : key_wf x -> known_ok ["keytype"; "scheme"; "keyval"] [("keytype", JStr (k_type x)); ("scheme", JStr (k_scheme x)); ("keyval", keyval_marshal (k_val x))].
Proof. intros (? & ? & ? & ?). known; [by apply good_str..|by apply keyval_good]. Qed.
Lemma key_good x : key_wf x -> good (key_marshal x).
Proof. intros H. eapply good_obj_of; [apply H|by apply key_known]. Qed.
Lemma key_rt x : key_wf x -> key_marshal x <> JNull /\ key_unmarshal (reread (key_marshal x)) = Ok (key_kept x).
Proof.
  intros H. split; [done|]. pose proof (key_known x H) as Hk. destruct H as (H1 & H2 & H3 & Hu). unfold key_unmarshal, key_marshal.
  erewrite (struct_rt _ _ _ _ _ _ (fun a d => mkKey (k_type a) (k_scheme a) (k_val a) (k_id a) d)); [|names|done|done|rewrite sort_key; field_str; field ltac:(rewrite keyval_rt by done); field_str; apply decode_end]. done.
Qed.

(** ** Signature *)
Lemma signature_known x : signature_wf x -> known_ok ["keyid"; "sig"] [("keyid", JStr (sig_keyid x)); ("sig", enc_hex (sig_sig x))].
Proof. intros (? & ?). known; [by apply good_str|apply good_hex]. Qed.
Lemma signature_good x : signature_wf x -> good (signature_marshal x).
Proof. intros H. eapply good_obj_of; [apply H|by apply signature_known]. Qed.
Lemma signature_rt x : signature_wf x -> signature_unmarshal (reread (signature_marshal x)) = Ok (signature_kept x).
Proof.
  intros H. pose proof (signature_known x H) as Hk. destruct H as (H1 & Hu). unfold signature_unmarshal, signature_marshal.
  erewrite (struct_rt _ _ _ _ _ _ (fun a d => mkSignature (sig_keyid a) (sig_sig a) d)); [|names|done|done|rewrite sort_sig; field_str; field ltac:(rewrite hexbytes_rr); apply decode_end]. done.
Qed.

(** ** Role *)
Lemma role_known x : role_wf x -> known_ok ["keyids"; "threshold"] [("keyids", enc_strings (r_keyids x)); ("threshold", enc_int (r_threshold x))].
Proof. intros (? & ? & ?). known; [by apply good_strings|by apply good_int]. Qed.
Lemma role_good x : role_wf x -> good (role_marshal x).
Proof. intros H. eapply good_obj_of; [apply H|by apply role_known]. Qed.
Lemma role_rt x : role_wf x -> role_marshal x <> JNull /\ role_unmarshal (reread (role_marshal x)) = Ok (role_kept x).
Proof.
  intros H. split; [done|]. pose proof (role_known x H) as Hk. destruct H as (H1 & H2 & Hu). unfold role_unmarshal, role_marshal.
  erewrite (struct_rt _ _ _ _ _ _ (fun a d => mkRole (r_keyids a) (r_threshold a) d)); [|names|done|done|rewrite sort_role; field_strs; field_int; apply decode_end]. done.
Qed.

(** ** MetaFiles *)
Lemma sort_meta {V} (a b c : V) : obj_norm [("length", a); ("hashes", b); ("version", c)] = [("hashes", b); ("length", a); ("version", c)]. Proof. done. Qed.
Lemma sort_meta2 {V} (b c : V) : obj_norm [("hashes", b); ("version", c)] = [("hashes", b); ("version", c)]. Proof. done. Qed.
Lemma sort_meta3 {V} (b c : V) : obj_norm [("length", b); ("version", c)] = [("length", b); ("version", c)]. Proof. done. Qed.
Definition metafile_members (x : metafile) : list (string * json) :=
  (if mf_length x =? 0 then [] else [("length", enc_int (mf_length x))]) ++
  (if decide (mmap (mf_hashes x) = ∅) then [] else [("hashes", enc_hashes (mf_hashes x))]) ++ [("version", enc_int (mf_version x))].
Lemma metafile_known x : metafile_wf x -> known_ok ["length"; "hashes"; "version"] (metafile_members x).
Proof. intros (? & ? & ? & ?). unfold metafile_members. destruct (mf_length x =? 0), (decide _); cbn [app]; known; first [by apply good_int|by apply good_hashes]. Qed.
Lemma metafile_good x : metafile_wf x -> good (metafile_marshal x).
Proof. intros H. eapply good_obj_of; [apply H|by apply metafile_known]. Qed.
Lemma metafile_rt x : metafile_wf x -> metafile_marshal x <> JNull /\ metafile_unmarshal (reread (metafile_marshal x)) = Ok (metafile_kept x).
Proof.
  intros H. split; [done|]. pose proof (metafile_known x H) as Hk. destruct H as (H1 & H2 & H3 & Hu). unfold metafile_unmarshal, metafile_marshal. fold (metafile_members x).
  rewrite (struct_rt _ _ (mkMetaFile (mf_length x) (if decide (mmap (mf_hashes x) = ∅) then None else mf_hashes x) (mf_version x) None) _ _ _ (fun a d => mkMetaFile (mf_length a) (mf_hashes a) (mf_version a) d)); [done|names|done|done|].
  unfold metafile_members. destruct (Z.eqb_spec (mf_length x) 0) as [E|E], (decide (mmap (mf_hashes x) = ∅)); cbn [app]; rewrite ?sort1, ?sort_meta, ?sort_meta2, ?sort_meta3.
  - rewrite E. field_int. apply decode_end.
  - rewrite E. field_hashes. field_int. apply decode_end.
  - field_int. field_int. apply decode_end.
  - field_hashes. field_int. field_int. apply decode_end.
Qed.

(** ** TargetFiles *)
Lemma sort_target {V} (a b c : V) : obj_norm [("length", a); ("hashes", b); ("custom", c)] = [("custom", c); ("hashes", b); ("length", a)]. Proof. done. Qed.
Lemma sort_target2 {V} (a b : V) : obj_norm [("length", a); ("hashes", b)] = [("hashes", b); ("length", a)]. Proof. done. Qed.
Definition targetfile_members (x : targetfile) : list (string * json) :=
  [("length", enc_int (tf_length x)); ("hashes", enc_hashes (tf_hashes x))] ++ match tf_custom x with Some c => [("custom", c)] | None => [] end.
Lemma custom_good c : custom_ok c -> good c.
Proof. by intros (? & ? & ? & ? & ?). Qed.
Lemma custom_rr c : custom_ok c -> dec_ptr (fun j => Ok (unesc j)) (reread c) = Ok (Some c).
Proof.
  intros (Hn & Hu & _ & _ & Ht). pose proof (unesc_reread c Ht) as He. rewrite Hu in He. destruct (reread c) as [| | | | | |] eqn:E; cbn [dec_ptr obind]; try by rewrite He.
  by apply reread_null in E.
Qed.
Lemma targetfile_known x : targetfile_wf x -> known_ok ["length"; "hashes"; "custom"] (targetfile_members x).
Proof. intros (? & ? & Hc & ?). unfold targetfile_members. destruct (tf_custom x) eqn:E; cbn [app]; known; first [by apply good_int|by apply good_hashes|apply custom_good; by apply Hc]. Qed.
Lemma targetfile_good x : targetfile_wf x -> good (targetfile_marshal x).
Proof. intros H. eapply good_obj_of; [apply H|by apply targetfile_known]. Qed.
Lemma targetfile_rt x : targetfile_wf x -> targetfile_marshal x <> JNull /\ targetfile_unmarshal (reread (targetfile_marshal x)) = Ok (targetfile_kept "" x).
Proof.
  intros H. split; [done|]. pose proof (targetfile_known x H) as Hk. destruct H as (H1 & H2 & Hc & Hu). unfold targetfile_unmarshal, targetfile_marshal. fold (targetfile_members x).
  rewrite (struct_rt _ _ (mkTargetFile (tf_length x) (tf_hashes x) (tf_custom x) "" None) _ _ _ (fun a d => mkTargetFile (tf_length a) (tf_hashes a) (tf_custom a) (tf_path a) d)); [done|names|done|done|].
  unfold targetfile_members. destruct (tf_custom x) as [c|]; cbn [app]; rewrite ?sort_target, ?sort_target2.
  - field ltac:(rewrite custom_rr by by apply Hc). field_hashes. field_int. apply decode_end.
  - field_hashes. field_int. apply decode_end.
Qed.

(** ** DelegatedRole *)
Lemma sort_dr {V} (a b c d : V) : obj_norm [("name", a); ("keyids", b); ("threshold", c); ("terminating", d)] = [("keyids", b); ("name", a); ("terminating", d); ("threshold", c)]. Proof. done. Qed.
Lemma sort_dr_paths {V} (a b c d e : V) : obj_norm [("name", a); ("keyids", b); ("threshold", c); ("terminating", d); ("paths", e)] = [("keyids", b); ("name", a); ("paths", e); ("terminating", d); ("threshold", c)]. Proof. done. Qed.
Lemma sort_dr_prefixes {V} (a b c d e : V) : obj_norm [("name", a); ("keyids", b); ("threshold", c); ("terminating", d); ("path_hash_prefixes", e)] = [("keyids", b); ("name", a); ("path_hash_prefixes", e); ("terminating", d); ("threshold", c)]. Proof. done. Qed.
Definition dr_names := ["name"; "keyids"; "threshold"; "terminating"; "paths"; "path_hash_prefixes"].
Definition dr_members (x : delegatedrole) : list (string * json) :=
  [("name", JStr (dr_name x)); ("keyids", enc_strings (dr_keyids x)); ("threshold", enc_int (dr_threshold x)); ("terminating", JBool (dr_terminating x))] ++
  match dr_paths x, dr_hash_prefixes x with Some p, _ => [("paths", enc_strings (Some p))] | None, Some h => [("path_hash_prefixes", enc_strings (Some h))] | None, None => [] end.
Lemma good_bool b : good (JBool b). Proof. done. Qed.
Lemma delegatedrole_known x : delegatedrole_wf x -> known_ok dr_names (dr_members x).
Proof.
  intros (? & ? & ? & Hh & Hp & Hx & ?). unfold dr_members, dr_names. destruct (dr_paths x) eqn:E1; [|destruct (dr_hash_prefixes x) eqn:E2]; cbn [app]; known; first [by apply good_str|by apply good_strings|by apply good_int|apply good_bool].
Qed.
Lemma delegatedrole_rt x : delegatedrole_wf x ->
  exists j, delegatedrole_marshal x = Ok j /\ good j /\ j <> JNull /\ delegatedrole_unmarshal (reread j) = Ok (delegatedrole_kept x).
Proof.
  intros H. pose proof (delegatedrole_known x H) as Hk. destruct H as (H1 & H2 & H3 & Hh & Hp & Hx & Hu).
  exists (obj_of (dr_unrec x) (dr_members x)). split.
  { unfold delegatedrole_marshal, dr_members. destruct Hx as [E|E]; rewrite E; [|by destruct (dr_hash_prefixes x)]. by destruct (dr_paths x). }
  split; [by eapply good_obj_of|]. split; [done|]. unfold delegatedrole_unmarshal.
  rewrite (struct_rt _ _ (mkDelegatedRole (dr_name x) (dr_keyids x) (dr_threshold x) (dr_terminating x) (dr_hash_prefixes x) (dr_paths x) None) _ _ _
    (fun a d => mkDelegatedRole (dr_name a) (dr_keyids a) (dr_threshold a) (dr_terminating a) (dr_hash_prefixes a) (dr_paths a) d)); [done|names|done|done|].
  unfold dr_members. destruct (dr_paths x) as [p|] eqn:E1; [|destruct (dr_hash_prefixes x) as [h|] eqn:E2]; cbn [app]; rewrite ?sort_dr, ?sort_dr_paths, ?sort_dr_prefixes.
  - assert (dr_hash_prefixes x = None) as -> by by destruct Hx. field_strs. field_str. field_strs. field_bool. field_int. apply decode_end.
  - field_strs. field_str. field_strs. field_bool. field_int. apply decode_end.
  - field_strs. field_str. field_bool. field_int. apply decode_end.
Qed.

(** ** SuccinctRoles *)
Lemma sort_succ {V} (a b c d : V) : obj_norm [("keyids", a); ("threshold", b); ("bit_length", c); ("name_prefix", d)] = [("bit_length", c); ("keyids", a); ("name_prefix", d); ("threshold", b)]. Proof. done. Qed.
Lemma succinct_known x : succinct_wf x -> known_ok ["keyids"; "threshold"; "bit_length"; "name_prefix"]
  [("keyids", enc_strings (sr_keyids x)); ("threshold", enc_int (sr_threshold x)); ("bit_length", enc_int (sr_bit_length x)); ("name_prefix", JStr (sr_name_prefix x))].
Proof. intros (? & ? & ? & ? & ?). known; first [by apply good_strings|by apply good_int|by apply good_str]. Qed.
Lemma succinct_good x : succinct_wf x -> good (succinct_marshal x).
Proof. intros H. eapply good_obj_of; [apply H|by apply succinct_known]. Qed.
Lemma succinct_rt x : succinct_wf x -> succinct_marshal x <> JNull /\ succinct_unmarshal (reread (succinct_marshal x)) = Ok (succinct_kept x).
Proof.
  intros H. split; [done|]. pose proof (succinct_known x H) as Hk. destruct H as (H1 & H2 & H3 & H4 & Hu). unfold succinct_unmarshal, succinct_marshal.
  erewrite (struct_rt _ _ _ _ _ _ (fun a d => mkSuccinctRoles (sr_keyids a) (sr_threshold a) (sr_bit_length a) (sr_name_prefix a) d));
    [|names|done|done|rewrite sort_succ; field_int; field_strs; field_str; field_int; apply decode_end]. done.
Qed.

(** ** Delegations *)
Lemma good_keys m : ptrs_ok key_wf m -> good (enc_keys m).
Proof. intros H. eapply good_ptrs; [exact H|apply key_good]. Qed.
Lemma dec_keys_rr m : ptrs_ok key_wf m -> dec_keys (reread (enc_keys m)) None = Ok (map_kept key_kept m).
Proof. intros H. eapply dec_ptrs_rr; [exact H|apply key_rt]. Qed.
Lemma oseq_roles l : Forall delegatedrole_wf l ->
  exists js, oseq (map delegatedrole_marshal l) = Ok js /\ good (JArr js) /\
  dec_elems (fun j _ => delegatedrole_unmarshal j) delegatedrole_zero (map reread js) [] = Ok (map delegatedrole_kept l).
Proof.
  induction 1 as [|x l Hx _ IH]; [by exists []|]. destruct IH as (js & E & Hg & Hd). destruct (delegatedrole_rt x Hx) as (j & Ej & Hgj & _ & Hj).
  exists (j :: js). cbn [map oseq]. rewrite Ej. cbn [obind]. rewrite E. split; [done|]. split.
  - destruct Hg as (A & B & C). destruct Hgj as (A' & B' & C'). split_and!; [by split|by split|by split].
  - cbn [map dec_elems]. rewrite Hj. cbn [obind]. cbn [tail]. by rewrite Hd.
Qed.
Lemma sort_deleg_roles {V} (a b : V) : obj_norm [("keys", a); ("roles", b)] = [("keys", a); ("roles", b)]. Proof. done. Qed.
Lemma sort_deleg_succ {V} (a b : V) : obj_norm [("keys", a); ("succinct_roles", b)] = [("keys", a); ("succinct_roles", b)]. Proof. done. Qed.
Lemma delegations_rt x : delegations_wf x ->
  exists j, delegations_marshal x = Ok j /\ good j /\ j <> JNull /\ delegations_unmarshal (reread j) = Ok (delegations_kept x).
Proof.
  intros (Hkeys & Hr & Hs & Hu). unfold delegations_marshal.
  enough (exists tail, (match d_roles x, d_succinct x with Some l, _ => let! r := oseq (map delegatedrole_marshal l) in Ok [("roles", JArr r)] | None, Some s => Ok [("succinct_roles", succinct_marshal s)] | None, None => Ok [] end) = Ok tail /\
    known_ok ["keys"; "roles"; "succinct_roles"] (("keys", enc_keys (d_keys x)) :: tail) /\
    decode_members delegations_fields (rr (obj_norm (("keys", enc_keys (d_keys x)) :: tail))) delegations_zero =
      Ok (mkDelegations (map_kept key_kept (d_keys x)) (option_map (map delegatedrole_kept) (d_roles x)) (match d_roles x with Some _ => None | None => option_map succinct_kept (d_succinct x) end) None)) as (tl & -> & Hk & Hd).
  { eexists. split; [done|]. split; [by eapply good_obj_of|]. split; [done|]. unfold delegations_unmarshal.
    erewrite (struct_rt _ _ _ _ _ _ (fun a d => mkDelegations (d_keys a) (d_roles a) (d_succinct a) d)); [|names|exact Hu|exact Hk|exact Hd]. done. }
  pose proof (good_keys _ Hkeys). destruct (d_roles x) as [l|] eqn:E1; [|destruct (d_succinct x) as [s|] eqn:E2].
  - destruct (oseq_roles l Hr) as (js & -> & Hg & Hd). exists [("roles", JArr js)]. split; [done|]. split; [by known|]. rewrite sort_deleg_roles.
    field ltac:(rewrite dec_keys_rr by done). field ltac:(cbn [reread dec_slice]; change (slist None) with (@nil delegatedrole); rewrite Hd). apply decode_end.
  - exists [("succinct_roles", succinct_marshal s)]. split; [done|]. split; [known; [done|by apply succinct_good; eauto]|]. rewrite sort_deleg_succ.
    field ltac:(rewrite dec_keys_rr by done). field ltac:(rewrite (dec_ptr_rr _ succinct_marshal succinct_kept (Some s)) by (intros ? [= <-]; apply succinct_rt; eauto)). apply decode_end.
  - exists []. split; [done|]. split; [by known|]. rewrite sort1. field ltac:(rewrite dec_keys_rr by done). apply decode_end.
Qed.

(** ** Root *)
Lemma sort_root {V} (a b c d e f g : V) : obj_norm [("_type", a); ("spec_version", b); ("consistent_snapshot", c); ("version", d); ("expires", e); ("keys", f); ("roles", g)] =
  [("_type", a); ("consistent_snapshot", c); ("expires", e); ("keys", f); ("roles", g); ("spec_version", b); ("version", d)]. Proof. done. Qed.
Lemma dec_time_rr s t old : reread (JStr s) = JStr s -> parse_time s = Some t -> dec_time (reread (JStr s)) old = Ok t.
Proof. intros -> H. unfold dec_time. cbn. by rewrite H. Qed.
Lemma root_rt x : root_wf x -> exists j, root_marshal x = Ok j /\ good j /\ j <> JNull /\ root_unmarshal (reread j) = Ok (root_kept x).
Proof.
  intros (H1 & H2 & H3 & H4 & H5 & H6 & Hu). destruct (enc_time_ok _ H4) as (s & Es & Hrs & Hps & Hts). unfold root_marshal. rewrite Es. cbn [obind].
  eexists. split; [reflexivity|].
  assert (known_ok root_names [("_type", JStr (rt_type x)); ("spec_version", JStr (rt_spec x)); ("consistent_snapshot", JBool (rt_consistent x)); ("version", enc_int (rt_version x)); ("expires", JStr s);
     ("keys", enc_keys (rt_keys x)); ("roles", enc_map (enc_ptr role_marshal) (rt_roles x))]) as Hk.
  { known; first [by apply good_str|by apply good_int|apply good_bool|by apply good_keys|eapply good_ptrs; [done|apply role_good]]. }
  split; [by eapply good_obj_of|]. split; [done|]. unfold root_unmarshal.
  erewrite (struct_rt _ _ _ _ _ _ (fun a d => mkRoot (rt_type a) (rt_spec a) (rt_consistent a) (rt_version a) (rt_expires a) (rt_keys a) (rt_roles a) d)); [|names|done|done|].
  2:{ rewrite sort_root. field_str. field_bool. field ltac:(rewrite (dec_time_rr s (rt_expires x)) by done). field ltac:(rewrite dec_keys_rr by done).
      field ltac:(rewrite (dec_ptrs_rr role_wf role_unmarshal role_marshal role_kept) by (first [done|apply role_rt])). field_str. field_int. apply decode_end. }
  done.
Qed.

(** ** Snapshot and Timestamp *)
Lemma sort_snap {V} (a b c d e : V) : obj_norm [("_type", a); ("spec_version", b); ("version", c); ("expires", d); ("meta", e)] =
  [("_type", a); ("expires", d); ("meta", e); ("spec_version", b); ("version", c)]. Proof. done. Qed.
Lemma good_meta m : ptrs_ok metafile_wf m -> good (enc_meta m).
Proof. intros H. eapply good_ptrs; [exact H|apply metafile_good]. Qed.
Lemma dec_meta_rr m : ptrs_ok metafile_wf m -> dec_meta (reread (enc_meta m)) None = Ok (map_kept metafile_kept m).
Proof. intros H. eapply dec_ptrs_rr; [exact H|apply metafile_rt]. Qed.
Lemma snapshot_rt x : snapshot_wf x -> exists j, snapshot_marshal x = Ok j /\ good j /\ j <> JNull /\ snapshot_unmarshal (reread j) = Ok (snapshot_kept x).
Proof.
  intros (H1 & H2 & H3 & H4 & H5 & Hu). destruct (enc_time_ok _ H4) as (s & Es & Hrs & Hps & Hts). unfold snapshot_marshal. rewrite Es. cbn [obind].
  eexists. split; [reflexivity|].
  assert (known_ok meta_names [("_type", JStr (sn_type x)); ("spec_version", JStr (sn_spec x)); ("version", enc_int (sn_version x)); ("expires", JStr s); ("meta", enc_meta (sn_meta x))]) as Hk.
  { known; first [by apply good_str|by apply good_int|by apply good_meta]. }
  split; [by eapply good_obj_of|]. split; [done|]. unfold snapshot_unmarshal.
  erewrite (struct_rt _ _ _ _ _ _ (fun a d => mkSnapshot (sn_type a) (sn_spec a) (sn_version a) (sn_expires a) (sn_meta a) d)); [|names|done|done|].
  2:{ rewrite sort_snap. field_str. field ltac:(rewrite (dec_time_rr s (sn_expires x)) by done). field ltac:(rewrite dec_meta_rr by done). field_str. field_int. apply decode_end. }
  done.
Qed.
Lemma timestamp_rt x : timestamp_wf x -> exists j, timestamp_marshal x = Ok j /\ good j /\ j <> JNull /\ timestamp_unmarshal (reread j) = Ok (timestamp_kept x).
Proof.
  intros (H1 & H2 & H3 & H4 & H5 & Hu). destruct (enc_time_ok _ H4) as (s & Es & Hrs & Hps & Hts). unfold timestamp_marshal. rewrite Es. cbn [obind].
  eexists. split; [reflexivity|].
  assert (known_ok meta_names [("_type", JStr (ts_type x)); ("spec_version", JStr (ts_spec x)); ("version", enc_int (ts_version x)); ("expires", JStr s); ("meta", enc_meta (ts_meta x))]) as Hk.
  { known; first [by apply good_str|by apply good_int|by apply good_meta]. }
  split; [by eapply good_obj_of|]. split; [done|]. unfold timestamp_unmarshal.
  erewrite (struct_rt _ _ _ _ _ _ (fun a d => mkTimestamp (ts_type a) (ts_spec a) (ts_version a) (ts_expires a) (ts_meta a) d)); [|names|done|done|].
  2:{ rewrite sort_snap. field_str. field ltac:(rewrite (dec_time_rr s (ts_expires x)) by done). field ltac:(rewrite dec_meta_rr by done). field_str. field_int. apply decode_end. }
  done.
Qed.

(** ** Targets *)
Lemma sort_targets {V} (a b c d e : V) : obj_norm [("_type", a); ("spec_version", b); ("version", c); ("expires", d); ("targets", e)] =
  [("_type", a); ("expires", d); ("spec_version", b); ("targets", e); ("version", c)]. Proof. done. Qed.
Lemma sort_targets_d {V} (a b c d e f : V) : obj_norm [("_type", a); ("spec_version", b); ("version", c); ("expires", d); ("targets", e); ("delegations", f)] =
  [("_type", a); ("delegations", f); ("expires", d); ("spec_version", b); ("targets", e); ("version", c)]. Proof. done. Qed.
Lemma dec_targets_rr m : ptrs_ok targetfile_wf m ->
  dec_map (dec_ptr targetfile_unmarshal) (reread (enc_map (enc_ptr targetfile_marshal) m)) None = Ok (map_kept (targetfile_kept "") m).
Proof. intros H. eapply dec_ptrs_rr; [exact H|apply targetfile_rt]. Qed.
Lemma populate_kept m : (forall k, mget m k <> Some None) ->
  populate_paths (map_kept (targetfile_kept "") m) = Ok (option_map (map_imap (fun n o => Some (option_map (targetfile_kept n) o))) m).
Proof.
  destruct m as [m|]; [|done]. intros H. cbn. rewrite decide_True.
  - f_equal. f_equal. apply map_eq. intros k. rewrite !map_lookup_imap, lookup_fmap. by destruct (m !! k) as [[]|].
  - intros k o. rewrite lookup_fmap. intros (o' & Ho & Hk)%fmap_Some. destruct o' as [x|]; [by subst|]. by destruct (H k).
Qed.
Lemma targets_rt x : targets_wf x -> exists j, targets_marshal x = Ok j /\ good j /\ j <> JNull /\ targets_unmarshal (reread j) = Ok (targets_kept x).
Proof.
  intros (H1 & H2 & H3 & H4 & H5 & H6 & H7 & Hu). destruct (enc_time_ok _ H4) as (s & Es & Hrs & Hps & Hts). unfold targets_marshal. rewrite Es. cbn [obind].
  set (known0 := [("_type", JStr (tg_type x)); ("spec_version", JStr (tg_spec x)); ("version", enc_int (tg_version x)); ("expires", JStr s); ("targets", enc_map (enc_ptr targetfile_marshal) (tg_targets x))]).
  enough (exists tail, match tg_delegations x with Some d => let! j := delegations_marshal d in Ok [("delegations", j)] | None => Ok [] end = Ok tail /\ known_ok targets_names (known0 ++ tail) /\
    decode_members targets_fields (rr (obj_norm (known0 ++ tail))) targets_zero =
      Ok (mkTargets (tg_type x) (tg_spec x) (tg_version x) (tg_expires x) (map_kept (targetfile_kept "") (tg_targets x)) (option_map delegations_kept (tg_delegations x)) None)) as (tl & -> & Hk & Hd).
  { eexists. split; [reflexivity|]. split; [by eapply good_obj_of|]. split; [done|]. unfold targets_unmarshal.
    destruct (dict_obj _ _ _ Hu Hk) as (D & HD & Hdel). rewrite HD. rewrite decode_obj, Hd.
    - cbn [obind tg_targets]. rewrite populate_kept by done. cbn [obind]. by rewrite Hdel.
    - done.
    - done. }
  assert (good (enc_map (enc_ptr targetfile_marshal) (tg_targets x))) as Hg by (eapply good_ptrs; [exact H5|apply targetfile_good]).
  subst known0. destruct (tg_delegations x) as [d|] eqn:E.
  - destruct (delegations_rt d (H7 d eq_refl)) as (jd & -> & Hgd & Hnd & Hjd). exists [("delegations", jd)]. split; [done|]. cbn [app]. split; [known; first [done|by apply good_str|by apply good_int]|].
    assert (dec_ptr delegations_unmarshal (reread jd) = Ok (Some (delegations_kept d))) as Hjd' by (apply (dec_ptr_rr delegations_unmarshal (fun _ => jd) delegations_kept (Some d)); by intros ? [= <-]).
    rewrite sort_targets_d. field_str. field ltac:(rewrite Hjd').
    field ltac:(rewrite (dec_time_rr s (tg_expires x)) by done). field_str. field ltac:(rewrite dec_targets_rr by done). field_int. apply decode_end.
  - exists []. split; [done|]. cbn [app]. split; [known; first [done|by apply good_str|by apply good_int]|].
    rewrite sort_targets. field_str. field ltac:(rewrite (dec_time_rr s (tg_expires x)) by done). field_str. field ltac:(rewrite dec_targets_rr by done). field_int. apply decode_end.
Qed.

(** ** The type name of what was written *)
Definition type_member (j : json) (s : string) : Prop := exists l v, reread j = JObj l /\ last_member l "_type" v /\ jstring v = Some s.
Lemma obj_member names u known k v : extra_ok names u -> known_ok names known -> NoDup (map fst known) -> (k, v) ∈ known ->
  exists l, reread (obj_of u known) = JObj l /\ last_member l k (reread v).
Proof.
  intros Hu Hk Hnd Hin. eexists. split; [by eapply reread_obj_of|]. apply mem_map_some. unfold rr. rewrite <- obj_norm_map_val, mem_map_obj_norm, map_app, mem_map_app.
  apply lookup_union_Some_l. rewrite mem_map_nodup.
  - apply elem_of_list_to_map_1; [by rewrite <- list_fmap_compose|]. apply elem_of_list_In, in_map_iff. exists (k, v). split; [done|]. by apply elem_of_list_In.
  - rewrite map_map. done.
Qed.
Lemma type_of names u s rest : extra_ok names u -> known_ok names (("_type", JStr s) :: rest) -> NoDup (map fst (("_type", JStr s) :: rest)) ->
  type_member (obj_of u (("_type", JStr s) :: rest)) s.
Proof.
  intros Hu Hk Hnd. destruct (obj_member _ _ _ "_type" (JStr s) Hu Hk Hnd) as (l & Hl & Hm); [by left|]. exists l, (reread (JStr s)). split; [done|]. split; [done|].
  apply Forall_cons in Hk as [(_ & _ & Hg) _]. assert (utf8_text s) as Ht by apply Hg. cbn. unfold reread_str. rewrite sanitize_text by done. by destruct (escaped s).
Qed.
Ltac nodup := cbn [map fst app]; repeat (apply NoDup_cons; split; [set_solver|]); apply NoDup_nil_2.
Lemma root_type x j : root_wf x -> root_marshal x = Ok j -> type_member j (rt_type x).
Proof.
  intros (H1 & H2 & H3 & H4 & H5 & H6 & Hu). destruct (enc_time_ok _ H4) as (s & Es & Hrs & Hps & Hts). unfold root_marshal. rewrite Es. cbn [obind]. intros Hj.
  assert (j = obj_of (rt_unrec x) [("_type", JStr (rt_type x)); ("spec_version", JStr (rt_spec x)); ("consistent_snapshot", JBool (rt_consistent x)); ("version", enc_int (rt_version x)); ("expires", JStr s);
     ("keys", enc_keys (rt_keys x)); ("roles", enc_map (enc_ptr role_marshal) (rt_roles x))]) as -> by congruence.
  eapply type_of; [exact Hu| |nodup]. known; first [by apply good_str|by apply good_int|apply good_bool|by apply good_keys|eapply good_ptrs; [done|apply role_good]].
Qed.
Lemma snapshot_type x j : snapshot_wf x -> snapshot_marshal x = Ok j -> type_member j (sn_type x).
Proof.
  intros (H1 & H2 & H3 & H4 & H5 & Hu). destruct (enc_time_ok _ H4) as (s & Es & Hrs & Hps & Hts). unfold snapshot_marshal. rewrite Es. cbn [obind]. intros Hj.
  assert (j = obj_of (sn_unrec x) [("_type", JStr (sn_type x)); ("spec_version", JStr (sn_spec x)); ("version", enc_int (sn_version x)); ("expires", JStr s); ("meta", enc_meta (sn_meta x))]) as -> by congruence.
  eapply type_of; [exact Hu| |nodup]. known; first [by apply good_str|by apply good_int|by apply good_meta].
Qed.
Lemma timestamp_type x j : timestamp_wf x -> timestamp_marshal x = Ok j -> type_member j (ts_type x).
Proof.
  intros (H1 & H2 & H3 & H4 & H5 & Hu). destruct (enc_time_ok _ H4) as (s & Es & Hrs & Hps & Hts). unfold timestamp_marshal. rewrite Es. cbn [obind]. intros Hj.
  assert (j = obj_of (ts_unrec x) [("_type", JStr (ts_type x)); ("spec_version", JStr (ts_spec x)); ("version", enc_int (ts_version x)); ("expires", JStr s); ("meta", enc_meta (ts_meta x))]) as -> by congruence.
  eapply type_of; [exact Hu| |nodup]. known; first [by apply good_str|by apply good_int|by apply good_meta].
Qed.
Lemma targets_type x j : targets_wf x -> targets_marshal x = Ok j -> type_member j (tg_type x).
Proof.
  intros (H1 & H2 & H3 & H4 & H5 & H6 & H7 & Hu). destruct (enc_time_ok _ H4) as (s & Es & Hrs & Hps & Hts). unfold targets_marshal. rewrite Es. cbn [obind]. intros Hj.
  assert (good (enc_map (enc_ptr targetfile_marshal) (tg_targets x))) as Hg by (eapply good_ptrs; [exact H5|apply targetfile_good]).
  destruct (tg_delegations x) as [d|] eqn:E.
  - destruct (delegations_rt d (H7 d eq_refl)) as (jd & Ed & Hgd & _ & _). rewrite Ed in Hj. cbn [obind app] in Hj.
    assert (j = obj_of (tg_unrec x) [("_type", JStr (tg_type x)); ("spec_version", JStr (tg_spec x)); ("version", enc_int (tg_version x)); ("expires", JStr s); ("targets", enc_map (enc_ptr targetfile_marshal) (tg_targets x)); ("delegations", jd)]) as -> by congruence.
    eapply type_of; [exact Hu| |nodup]. known; first [done|by apply good_str|by apply good_int].
  - cbn [obind app] in Hj.
    assert (j = obj_of (tg_unrec x) [("_type", JStr (tg_type x)); ("spec_version", JStr (tg_spec x)); ("version", enc_int (tg_version x)); ("expires", JStr s); ("targets", enc_map (enc_ptr targetfile_marshal) (tg_targets x))]) as -> by congruence.
    eapply type_of; [exact Hu| |nodup]. known; first [done|by apply good_str|by apply good_int].
Qed.

(** ** Metadata *)
Definition signed_rt (T : Type) `{RoleTy T, SignedSpec T} : Prop :=
  forall x : T, signed_wf x -> exists j, signed_marshal x = Ok j /\ good j /\ j <> JNull /\ signed_unmarshal (reread j) = Ok (signed_kept x) /\ type_member j (signed_type x).
Lemma root_signed_rt : signed_rt root_t.
Proof. intros x H. destruct (root_rt x H) as (j & E & ? & ? & ?). exists j. split_and!; try done. by eapply root_type. Qed.
Lemma snapshot_signed_rt : signed_rt snapshot_t.
Proof. intros x H. destruct (snapshot_rt x H) as (j & E & ? & ? & ?). exists j. split_and!; try done. by eapply snapshot_type. Qed.
Lemma timestamp_signed_rt : signed_rt timestamp_t.
Proof. intros x H. destruct (timestamp_rt x H) as (j & E & ? & ? & ?). exists j. split_and!; try done. by eapply timestamp_type. Qed.
Lemma targets_signed_rt : signed_rt targets_t.
Proof. intros x H. destruct (targets_rt x H) as (j & E & ? & ? & ?). exists j. split_and!; try done. by eapply targets_type. Qed.

Lemma sort_md {V} (a b : V) : obj_norm [("signed", a); ("signatures", b)] = [("signatures", b); ("signed", a)]. Proof. done. Qed.
Lemma sigs_kept {T} {SS : SignedSpec T} (m : metadata T) : unique_key_ids m -> unique_key_ids (metadata_kept m).
Proof.
  unfold unique_key_ids, metadata_kept. cbn [md_sigs]. destruct (md_sigs m) as [l|]; [|done]. cbn. by rewrite map_map.
Qed.
Lemma metadata_rt_sigs {T} {RT : RoleTy T} {SS : SignedSpec T} (m : metadata T) : signed_rt T ->
  signed_wf (md_signed m) -> signed_type (md_signed m) = role_name -> Forall signature_wf (slist (md_sigs m)) -> extra_ok ["signed"; "signatures"] (md_unrec m) ->
  exists j, metadata_marshal m = Ok j /\ good j /\ doc_type (reread j) role_name /\ metadata_unmarshal (reread j) = Ok (metadata_kept m).
Proof.
  intros Hrt Hs Hty Hsig Hu. destruct (Hrt _ Hs) as (js & Ejs & Hgs & Hns & Hus & Htm). unfold metadata_marshal. rewrite Ejs. cbn [obind]. eexists. split; [reflexivity|].
  assert (good (enc_slice signature_marshal (md_sigs m))) as Hgl. { apply good_slice. intros x Hx. apply signature_good. rewrite Forall_forall in Hsig. by apply Hsig. }
  assert (known_ok ["signed"; "signatures"] [("signed", js); ("signatures", enc_slice signature_marshal (md_sigs m))]) as Hk by (known; done).
  split; [by eapply good_obj_of|]. split.
  - destruct (obj_member _ _ _ "signed" js Hu Hk ltac:(nodup)) as (l & Hl & Hm); [by left|]. destruct Htm as (l1 & v & Hl1 & Hv & Hjv). rewrite Hl1 in Hm. exists l, l1, v. rewrite Hl. split_and!; [done|done|done|]. by rewrite Hjv, Hty.
  - unfold metadata_unmarshal. destruct (dict_obj _ _ _ Hu Hk) as (D & HD & Hdel). rewrite HD. cbn [obind]. rewrite decode_obj by done. rewrite sort_md.
    assert (decode_members metadata_fields (rr [("signatures", enc_slice signature_marshal (md_sigs m)); ("signed", js)]) (mkMdec signed_zero None false) =
      Ok (mkMdec (signed_kept (md_signed m)) (option_map (map signature_kept) (md_sigs m)) false)) as ->; [|cbn [obind mx_saved mx_signed mx_sigs]; by rewrite Hdel].
    assert (dec_slice (fun j (_ : signature) => signature_unmarshal j) signature_zero (reread (enc_slice signature_marshal (md_sigs m))) None = Ok (option_map (map signature_kept) (md_sigs m))) as Hd.
    { apply dec_slice_rr. intros x Hx. apply signature_rt. rewrite Forall_forall in Hsig. by apply Hsig. }
    eapply (decode_step _ _ _ _ _ _ (mkMdec signed_zero (option_map (map signature_kept) (md_sigs m)) false)); [reflexivity| |].
    { cbv beta. cbn [mx_sigs mx_signed mx_saved]. rewrite Hd. destruct (md_sigs m) as [l|]; reflexivity. }
    eapply decode_step; [reflexivity|cbv beta; rewrite Hus; reflexivity|]. done.
Qed.
Lemma metadata_rt {T} {RT : RoleTy T} {SS : SignedSpec T} (m : metadata T) : signed_rt T -> metadata_wf m ->
  exists j, metadata_marshal m = Ok j /\ good j /\ doc_type (reread j) role_name /\ metadata_unmarshal (reread j) = Ok (metadata_kept m).
Proof. intros Hrt (Hs & Hty & Hsig & _ & Hu). by apply metadata_rt_sigs. Qed.
Lemma good_wf j : good j -> nums_wf j /\ texts_ok j /\ numbers_ok j. Proof. done. Qed.
Lemma save_load {T} {RT : RoleTy T} {SS : SignedSpec T} (m : metadata T) : signed_rt T -> metadata_wf m -> shallow m ->
  exists b, to_bytes m = Ok b /\ from_bytes b = Ok (metadata_kept m).
Proof.
  intros Hrt Hm Hsh. destruct (metadata_rt m Hrt Hm) as (j & Ej & (Hw & Ht & Hn) & Hdoc & Hd). exists (print_json j). unfold to_bytes. rewrite Ej. split; [done|].
  apply from_bytes_ok. exists (reread j). split; [apply parse_json_print; [done|by apply Hsh]|]. split; [by apply numbers_ok_reread|]. split; [done|]. split; [done|]. apply sigs_kept. apply Hm.
Qed.
