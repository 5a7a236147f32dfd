(** * Unrecognised members *)
From stdpp Require Import base gmap strings list sorting.
From Coq Require Import ZArith Lia Ascii String.
From Verif Require Import GoBase GoStr Json GoTime Types Marshal Metadata StrProofs SpecUtf8 Utf8Proofs SpecText JsonText SpecSerial JsonProofs SigProofs SerialProofs SpecRound RoundBase RoundProofs RoundStructs CanonProofs SpecExtra.
Open Scope Z_scope.

Lemma seq_opt_f2 {A B} (f : A -> option B) l r : seq_opt (map f l) = Some r -> Forall2 (fun a b => f a = Some b) l r.
Proof.
  revert r; induction l as [|x l IH]; intros r; cbn; [by intros [= <-]|]. destruct (f x) eqn:E; [|done]. case_match; [|done]. intros [= <-]. constructor; auto.
Qed.
Lemma f64_shortest_same fuel n ng v p c : f64_shortest fuel n ng v p = Some c -> f64_same c ng v = true.
Proof.
  revert n; induction fuel as [|f IH]; intros n; [done|]. cbn [f64_shortest].
  destruct (f64_same (if ng then "-" +:+ f64_candidate v p n (f64_nearest_up v p n) else f64_candidate v p n (f64_nearest_up v p n)) ng v) eqn:E1; [intros [= <-]; done|].
  destruct (f64_same (if ng then "-" +:+ f64_candidate v p n (1 - f64_nearest_up v p n) else f64_candidate v p n (1 - f64_nearest_up v p n)) ng v) eqn:E2; [intros [= <-]; done|]. apply IH.
Qed.
Lemma f64_same_spec c ng v : f64_same c ng v = true -> f64_of c = Some (ng, v) /\ num_ok c.
Proof.
  unfold f64_same, num_ok. destruct (f64_of c) as [[g w]|]; [|done]. destruct (parse_num c) as [[s' [|]]|]; [|done..].
  intros [[->%eqb_prop ->%bool_decide_eq_true]%andb_prop ->%String.eqb_eq]%andb_prop. done.
Qed.
Lemma f64_print_spec ng v c : f64_print ng v = Some c -> num_ok c /\ exists w, f64_of c = Some (ng, w) /\ (w = v \/ w.1 = 0 /\ v.1 = 0).
Proof.
  unfold f64_print. destruct (Z.eqb_spec v.1 0) as [E|E].
  - intros [= <-]. destruct ng; (split; [done|]); exists (0, 0); (split; [done|]); by right.
  - intros H%f64_shortest_same%f64_same_spec. destruct H as [H1 H2]. split; [done|]. exists v. split; [done|by left].
Qed.
Lemma f64_norm_same l l' : f64_norm l = Some l' -> same_double l l'.
Proof.
  assert (f64_text l = Some l' -> same_double l l') as Ht.
  { unfold f64_text. destruct (f64_of l) as [[ng v]|] eqn:E; [|done]. destruct (f64_print ng v) as [c|] eqn:Ec; cbn; intros [= <-]; [|by left].
    apply f64_print_spec in Ec as [_ (w & Hw & Hv)]. right. exists ng, v, w. split; [done|]. split; [done|]. destruct Hv as [->|[? ?]]; [by left|by right]. }
  unfold f64_norm. destruct (parse_int 10 l) as [z|]; [|done]. destruct (_ <=? _); [|done]. intros [= <-]. by left.
Qed.
Lemma norm_same v w : norm v = Some w -> same_value v w.
Proof.
  revert w; induction v as [|b|l|t|t|l IH|l IH] using json_ind; intros w; cbn [norm].
  - intros [= <-]. constructor.
  - intros [= <-]. constructor.
  - destruct (f64_norm l) as [l'|] eqn:E; [|done]. intros [= <-]. constructor. by apply f64_norm_same.
  - intros [= <-]. by apply (sv_str _ _ t).
  - intros [= <-]. by apply (sv_str _ _ t).
  - destruct (seq_opt (map norm l)) as [l2|] eqn:E; [|done]. intros [= <-]. constructor. apply seq_opt_f2 in E. clear -IH E. induction E as [|x y l l2 Hxy _ IHl]; [constructor|].
    apply Forall_cons in IH as [Hx IH]. constructor; auto.
  - destruct (seq_kv (map (fun kv => (kv.1, norm kv.2)) l)) as [l2|] eqn:E; [|done]. intros [= <-]. apply norm_members in E.
    assert (Forall2 (fun a b => a.1 = b.1 /\ same_value a.2 b.2) l l2) as E2.
    { clear -IH E. induction E as [|x y l l2 [H1 H2] _ IHl]; [constructor|]. apply Forall_cons in IH as [Hx IH]. constructor; auto. }
    constructor; intros k; [intros v Hv|intros w Hw]; destruct (last_member_f2 same_value l l2 k E2) as [H1 H2].
    + destruct (H1 v Hv) as (w & Hw & Hs). exists w. split; [|done]. apply mem_map_some. rewrite mem_map_obj_norm. by apply mem_map_some.
    + apply mem_map_some in Hw. rewrite mem_map_obj_norm in Hw. apply mem_map_some in Hw. destruct (H2 w Hw) as (v & ? & ?). eauto.
Qed.
Lemma norm_small v w : norm v = Some w -> small_ints v -> w = canon v.
Proof.
  revert w; induction v as [|b|l|t|t|l IH|l IH] using json_ind; intros w; cbn [norm canon small_ints]; try by intros [= <-].
  - unfold f64_norm. intros H (z & Hz & Hb). rewrite Hz in H. change two53 with (2 ^ 53) in H. destruct (Z.leb_spec (Z.abs z) (2 ^ 53)); [|lia]. by injection H as <-.
  - destruct (seq_opt (map norm l)) as [l2|] eqn:E; [|done]. intros [= <-] Hs. f_equal. apply seq_opt_f2 in E. clear -IH E Hs. induction E as [|x y l l2 Hxy _ IHl]; [done|].
    apply Forall_cons in IH as [Hx IH]. destruct Hs as [Hs1 Hs2]. cbn. f_equal; auto.
  - destruct (seq_kv (map (fun kv => (kv.1, norm kv.2)) l)) as [l2|] eqn:E; [|done]. intros [= <-] Hs. f_equal. f_equal. apply norm_members in E.
    clear -IH E Hs. induction E as [|[kx x] [ky y] l l2 [H1 H2] _ IHl]; [done|]. apply Forall_cons in IH as [Hx IH]. destruct Hs as [Hs1 Hs2]. cbn in *. subst ky. f_equal; [f_equal|]; auto.
Qed.

(** ** Reading *)
Lemma dict_extra names l d : decode_dict (JObj l) = Ok d ->
  (forall k v, k ∉ names -> last_member l k v -> exists w, mget (del_all names d) k = Some w /\ same_value v w /\ (small_ints v -> w = canon v)) /\
  (forall k w, mget (del_all names d) k = Some w -> k ∉ names /\ exists v, last_member l k v).
Proof.
  intros Hd. split; intros k v.
  - intros Hk Hv. rewrite mget_del_all, decide_False by done. destruct (decode_dict_lookup l d k Hd) as [_ H]. destruct (H v Hv) as (w & Hw & Hn). exists w. split; [done|]. split; [by apply norm_same|by apply norm_small].
  - rewrite mget_del_all. destruct (decide (k ∈ names)) as [?|Hk]; [done|]. intros Hv. split; [done|]. destruct (decode_dict_lookup l d k Hd) as [H _]. destruct (H v Hv) as (w & Hw & Hn). eauto.
Qed.
Tactic Notation "reads" reference(f) := intros l x H; unfold f in H; repeat match type of H with
  | obind _ _ = Ok _ => let a := fresh "a" in let Ha := fresh "Ha" in apply obind_ok in H as (a & Ha & H) end;
  match goal with Hd : decode_dict _ = Ok _ |- _ => injection H as <-; exact (dict_extra _ _ _ Hd) end.
Lemma keyval_keeps : keeps_extra keyval_unmarshal in_keyval kv_unrec.
Proof. reads keyval_unmarshal. Qed.
Lemma key_keeps : keeps_extra key_unmarshal in_key k_unrec.
Proof. reads key_unmarshal. Qed.
Lemma signature_keeps : keeps_extra signature_unmarshal in_signature sig_unrec.
Proof. reads signature_unmarshal. Qed.
Lemma role_keeps : keeps_extra role_unmarshal in_role r_unrec.
Proof. reads role_unmarshal. Qed.
Lemma metafile_keeps : keeps_extra metafile_unmarshal in_metafile mf_unrec.
Proof. reads metafile_unmarshal. Qed.
Lemma targetfile_keeps : keeps_extra targetfile_unmarshal in_targetfile tf_unrec.
Proof. reads targetfile_unmarshal. Qed.
Lemma delegatedrole_keeps : keeps_extra delegatedrole_unmarshal in_delegatedrole dr_unrec.
Proof. reads delegatedrole_unmarshal. Qed.
Lemma succinct_keeps : keeps_extra succinct_unmarshal in_succinct sr_unrec.
Proof. reads succinct_unmarshal. Qed.
Lemma delegations_keeps : keeps_extra delegations_unmarshal in_delegations d_unrec.
Proof. reads delegations_unmarshal. Qed.
Lemma root_keeps : keeps_extra root_unmarshal in_root rt_unrec.
Proof. reads root_unmarshal. Qed.
Lemma snapshot_keeps : keeps_extra snapshot_unmarshal in_snapshot sn_unrec.
Proof. reads snapshot_unmarshal. Qed.
Lemma timestamp_keeps : keeps_extra timestamp_unmarshal in_snapshot ts_unrec.
Proof. reads timestamp_unmarshal. Qed.
Lemma targets_keeps : keeps_extra targets_unmarshal in_targets tg_unrec.
Proof. reads targets_unmarshal. Qed.
Lemma metadata_keeps {T} {RT : RoleTy T} : keeps_extra (metadata_unmarshal (T := T)) in_metadata md_unrec.
Proof.
  intros l x H. unfold metadata_unmarshal in H. apply obind_ok in H as (m & Hm & H). apply obind_ok in H as (d & Hd & H). destruct (mx_saved d); [done|]. injection H as <-. exact (dict_extra _ _ _ Hm).
Qed.

(** ** Writing *)
Lemma obj_norm_nodup {V} (l : list (string * V)) : NoDup (map fst (obj_norm l)).
Proof. apply sortedk_nodup, obj_norm_sorted. Qed.
Lemma writes_obj (names : list string) u known : Forall (fun kv => kv.1 ∈ names) known ->
  exists l, obj_of u known = JObj l /\ NoDup (map fst l) /\ forall k w, k ∉ names -> (k, w) ∈ l <-> mget u k = Some w.
Proof.
  intros Hk. eexists. split; [done|]. split; [apply obj_norm_nodup|]. intros k w Hn.
  rewrite (elem_of_list_to_map (M := gmap string) (obj_norm (mlist u ++ known))) by apply obj_norm_nodup. rewrite obj_norm_map, mem_map_app, lookup_union_r.
  - rewrite mem_map_nodup; [|destruct u as [u|]; [apply NoDup_fst_map_to_list|constructor]]. destruct u as [u|]; [|done]. cbn. by rewrite list_to_map_to_list.
  - apply mem_map_none. eapply Forall_impl; [exact Hk|]. intros [k' v'] Hin <-. by apply Hn.
Qed.
Ltac memb := repeat (first [apply Forall_nil; exact I | apply Forall_cons; split; [cbn [fst]; set_solver|]]).
Lemma keyval_writes : writes_extra (fun x => Ok (keyval_marshal x)) in_keyval kv_unrec.
Proof. intros x j [= <-]. apply writes_obj. memb. Qed.
Lemma key_writes : writes_extra (fun x => Ok (key_marshal x)) in_key k_unrec.
Proof. intros x j [= <-]. apply writes_obj. memb. Qed.
Lemma signature_writes : writes_extra (fun x => Ok (signature_marshal x)) in_signature sig_unrec.
Proof. intros x j [= <-]. apply writes_obj. memb. Qed.
Lemma role_writes : writes_extra (fun x => Ok (role_marshal x)) in_role r_unrec.
Proof. intros x j [= <-]. apply writes_obj. memb. Qed.
Lemma metafile_writes : writes_extra (fun x => Ok (metafile_marshal x)) in_metafile mf_unrec.
Proof. intros x j [= <-]. apply writes_obj. destruct (_ =? _); destruct (decide _); cbn [app]; memb. Qed.
Lemma targetfile_writes : writes_extra (fun x => Ok (targetfile_marshal x)) in_targetfile tf_unrec.
Proof. intros x j [= <-]. apply writes_obj. destruct (tf_custom x); cbn [app]; memb. Qed.
Lemma delegatedrole_writes : writes_extra delegatedrole_marshal in_delegatedrole dr_unrec.
Proof. intros x j. unfold delegatedrole_marshal. destruct (dr_paths x), (dr_hash_prefixes x); [done|..]; intros [= <-]; apply writes_obj; cbn [app]; memb. Qed.
Lemma succinct_writes : writes_extra (fun x => Ok (succinct_marshal x)) in_succinct sr_unrec.
Proof. intros x j [= <-]. apply writes_obj. memb. Qed.
Lemma delegations_writes : writes_extra delegations_marshal in_delegations d_unrec.
Proof.
  intros x j H. unfold delegations_marshal in H. apply obind_ok in H as (t & Ht & H). injection H as <-. apply writes_obj.
  destruct (d_roles x) as [l|]; [apply obind_ok in Ht as (r & _ & Ht)|destruct (d_succinct x)]; injection Ht as <-; memb.
Qed.
Lemma root_writes : writes_extra root_marshal in_root rt_unrec.
Proof. intros x j H. unfold root_marshal in H. apply obind_ok in H as (t & Ht & H). injection H as <-. apply writes_obj. memb. Qed.
Lemma snapshot_writes : writes_extra snapshot_marshal in_snapshot sn_unrec.
Proof. intros x j H. unfold snapshot_marshal in H. apply obind_ok in H as (t & Ht & H). injection H as <-. apply writes_obj. memb. Qed.
Lemma timestamp_writes : writes_extra timestamp_marshal in_snapshot ts_unrec.
Proof. intros x j H. unfold timestamp_marshal in H. apply obind_ok in H as (t & Ht & H). injection H as <-. apply writes_obj. memb. Qed.
Lemma targets_writes : writes_extra targets_marshal in_targets tg_unrec.
Proof.
  intros x j H. unfold targets_marshal in H. apply obind_ok in H as (t & Ht & H). apply obind_ok in H as (d & Hd & H). injection H as <-. apply writes_obj.
  destruct (tg_delegations x); [apply obind_ok in Hd as (r & _ & Hd)|]; injection Hd as <-; cbn [app]; memb.
Qed.
Lemma metadata_writes {T} {RT : RoleTy T} : writes_extra (metadata_marshal (T := T)) in_metadata md_unrec.
Proof. intros x j H. unfold metadata_marshal in H. apply obind_ok in H as (t & Ht & H). injection H as <-. apply writes_obj. memb. Qed.

(** ** Signing *)
Lemma join_member sep l x : x ∈ l -> exists a c, join_str sep l = a +:+ x +:+ c.
Proof.
  induction l as [|y l IH]; intros Hx; [by apply elem_of_nil in Hx|]. apply elem_of_cons in Hx as [->|Hx].
  - exists "". destruct l as [|z l]; [exists ""; by rewrite app_nil_s|]. by exists (sep +:+ join_str sep (z :: l)).
  - destruct (IH Hx) as (a & c & E). destruct l as [|z l]; [by apply elem_of_nil in Hx|]. exists (y +:+ sep +:+ a), c.
    change (join_str sep (y :: z :: l)) with (y +:+ sep +:+ join_str sep (z :: l)). rewrite E. by rewrite !app_assoc_s.
Qed.
Lemma encode_member l p k w : texts_ok (JObj l) -> NoDup (map fst l) -> (k, w) ∈ l -> encode_canonical (JObj l) = Ok p ->
  exists a c w', encode_canonical w = Ok w' /\ p = a +:+ cj_str k +:+ ":" +:+ w' +:+ c.
Proof.
  intros Ht Hn Hin. unfold encode_canonical. cbn [json_sanitize cjson]. apply texts_ok_obj in Ht. rewrite map_map. cbn [fst snd].
  assert (map (fun x => (utf8_sanitize x.1, cjson (json_sanitize x.2))) l = map (fun x => (x.1, cjson (json_sanitize x.2))) l) as ->.
  { apply map_ext_in. intros [k' v'] Hx%elem_of_list_In. rewrite Forall_forall in Ht. destruct (Ht _ Hx) as [H1 _]. cbn in *. by rewrite sanitize_text. }
  destruct (seq_kv _) as [r|] eqn:E; [|done]. intros H. apply (inj Ok) in H. apply seq_kv_some in E.
  assert ((k, cjson (json_sanitize w)) ∈ obj_norm (map (fun x => (x.1, cjson (json_sanitize x.2))) l)) as Hm.
  { apply obj_norm_elem; [|apply elem_of_list_In, in_map_iff; exists (k, w); split; [done|by apply elem_of_list_In]].
    change (NoDup (map fst (map (fun x : string * json => (x.1, cjson (json_sanitize x.2))) l))). rewrite map_map. exact Hn. }
  rewrite E in Hm. apply elem_of_list_In, in_map_iff in Hm as ([k' w'] & Heq & Hr). cbn in Heq. injection Heq as -> Hw.
  destruct (join_member "," (map (fun kv : string * string => cj_str kv.1 +:+ ":" +:+ kv.2) r) (cj_str k +:+ ":" +:+ w')) as (a & c & Ej).
  { apply elem_of_list_In, in_map_iff. exists (k, w'). done. }
  exists ("{" +:+ a), (c +:+ "}"), w'. rewrite <- Hw. split; [done|]. rewrite <- H, Ej. rewrite !app_assoc_s. done.
Qed.
Lemma payload_extra {T} {RT : RoleTy T} {SS : SignedSpec T} names extra (x : T) p k w :
  tuf_role T RT SS -> writes_extra signed_marshal names extra -> signed_wf x -> signing_payload x = Ok p -> k ∉ names -> mget (extra x) k = Some w ->
  exists a c w', encode_canonical w = Ok w' /\ p = a +:+ cj_str k +:+ ":" +:+ w' +:+ c.
Proof.
  intros HT%tuf_role_rt Hw Hx Hp Hk Hm. destruct (HT x Hx) as (j & Ej & (_ & Hg & _) & _). unfold signing_payload in Hp. rewrite Ej in Hp. cbn in Hp.
  destruct (Hw x j Ej) as (l & -> & Hn & Hl). apply (encode_member l p k w); [done|done|by apply Hl|done].
Qed.
Lemma kept_extra_mget u u' k : kept_extra u = kept_extra u' -> mget u k = mget u' k.
Proof.
  assert (forall v : unrec, mget v k = mmap v !! k) as E by (intros [v|]; [done|cbn; by rewrite lookup_empty]). unfold kept_extra. intros H%(inj Some). by rewrite !E, H.
Qed.
