(** * Proofs about loading documents (C11-C14, C18) *)
From stdpp Require Import base gmap strings list.
From Coq Require Import ZArith Lia Ascii String.
From Verif Require Import GoBase GoStr Json GoTime Types Marshal Keys Metadata SpecSig SpecSerial SigProofs KeysProofs JsonProofs.
Open Scope Z_scope.

Lemma obind_panic {A B} (o : outcome A) (f : A -> outcome B) : obind o f = Panic <-> o = Panic \/ exists a, o = Ok a /\ f a = Panic.
Proof. destruct o as [a| |]; cbn; naive_solver. Qed.

(** ** checkType *)
Lemma doc_type_fun j s s' : doc_type j s -> doc_type j s' -> s = s'.
Proof.
  intros (l & l' & v & -> & H1 & H2 & H3) (l0 & l0' & v' & [= <-] & H1' & H2' & H3').
  pose proof (last_member_fun _ _ _ _ H1 H1') as [= <-]. pose proof (last_member_fun _ _ _ _ H2 H2') as <-. congruence.
Qed.
Lemma check_type_doc {T} {RT : RoleTy T} j s : numbers_ok j -> doc_type j s ->
  check_type (T := T) j = if String.eqb role_name s then Ok tt else Err (ErrValue "expected metadata type").
Proof.
  intros Hn (l & l' & v & -> & H1 & H2 & H3). unfold check_type. destruct (proj2 (decode_dict_ok (JObj l))) as [m Hm]; [eauto|]. rewrite Hm. cbn [obind].
  destruct (decode_dict_lookup l m "signed" Hm) as [_ Hl]. destruct (Hl _ H1) as (w & -> & Hw). cbn in Hw. destruct (seq_kv _) as [r|] eqn:Er; [|done]. injection Hw as <-.
  rewrite obj_norm_map. apply norm_members in Er. destruct (last_member_f2 (fun a b => norm a = Some b) l' r "_type" Er) as [Hl' _].
  destruct (Hl' v H2) as (w & Hw & Hn'). apply mem_map_some in Hw. rewrite Hw. apply norm_jstr in H3. assert (w = JStr s) as -> by congruence. done.
Qed.
Lemma check_type_no_doc {T} {RT : RoleTy T} j : (forall s, ~ doc_type j s) -> numbers_ok j -> j = JNull \/ (exists l, j = JObj l) -> check_type (T := T) j = Panic.
Proof.
  intros Hno Hn Hj. unfold check_type. destruct (proj2 (decode_dict_ok j)) as [m Hm]; [done|]. rewrite Hm. cbn [obind].
  destruct Hj as [->|[l ->]]; [by injection Hm as <-|]. destruct (mget m "signed") as [x|] eqn:Es; [|done]. destruct (decode_dict_lookup l m "signed" Hm) as [Hl _]. destruct (Hl _ Es) as (w & Hw & Hnw).
  destruct x as [| | | | | |l1]; try done. apply norm_obj in Hnw as (l0 & r & -> & -> & Er). rewrite obj_norm_map. destruct (mem_map r !! "_type") as [y|] eqn:Ey; [|done].
  destruct y as [| | |s| | |]; try done. apply mem_map_some in Ey. apply norm_members in Er. destruct (last_member_f2 (fun a b => norm a = Some b) l0 r "_type" Er) as [_ Hl'].
  destruct (Hl' _ Ey) as (v & Hv & Hs). apply norm_jstr in Hs. exfalso. apply (Hno s). exists l, l0, v. done.
Qed.
Lemma doc_type_dec j : (exists s, doc_type j s) \/ (forall s, ~ doc_type j s).
Proof.
  destruct j as [| | | | | |l]; try (right; intros s0 (? & ? & ? & Hx & _); discriminate Hx).
  destruct (mem_map l !! "signed") as [x|] eqn:Es.
  2: { right. intros s (? & l' & v & [= <-] & H1 & _). apply mem_map_some in H1. congruence. }
  destruct x as [| | | | | |l1]; try by (right; intros s0 (? & l' & v & [= <-] & H1 & _); apply mem_map_some in H1; congruence).
  destruct (mem_map l1 !! "_type") as [v|] eqn:Ev.
  2: { right. intros s (? & l' & v & [= <-] & H1 & H2 & _). apply mem_map_some in H1, H2. rewrite Es in H1. injection H1 as ->. congruence. }
  destruct (jstring v) as [s|] eqn:E.
  - left. exists s, l, l1, v. apply mem_map_some in Es, Ev. done.
  - right. intros s (? & l' & v' & [= <-] & H1 & H2 & H3). apply mem_map_some in H1, H2. rewrite Es in H1. injection H1 as ->. congruence.
Qed.
Lemma check_type_ok {T} {RT : RoleTy T} j : check_type (T := T) j = Ok tt <-> numbers_ok j /\ doc_type j role_name.
Proof.
  split.
  - intros H. assert (exists m, decode_dict j = Ok m) as Hd. { unfold check_type in H. destruct (decode_dict j) eqn:E; try done. eauto. }
    apply decode_dict_ok in Hd as [Hj Hn]. split; [done|]. destruct (doc_type_dec j) as [[s Hs]|Hno]; [|by rewrite check_type_no_doc in H].
    rewrite (check_type_doc j s Hn Hs) in H. destruct (String.eqb_spec role_name s) as [->|]; [done|done].
  - intros [Hn Hd]. rewrite (check_type_doc j _ Hn Hd). by rewrite String.eqb_refl.
Qed.
Lemma check_type_panic {T} {RT : RoleTy T} j : check_type (T := T) j = Panic <-> numbers_ok j /\ (j = JNull \/ exists l, j = JObj l) /\ forall s, ~ doc_type j s.
Proof.
  split.
  - intros H. assert (exists m, decode_dict j = Ok m) as Hd. { unfold check_type in H. pose proof (decode_dict_no_panic j). destruct (decode_dict j) eqn:E; try done. eauto. }
    apply decode_dict_ok in Hd as [Hj Hn]. split; [done|]. split; [done|]. destruct (doc_type_dec j) as [[s Hs]|Hno]; [|done].
    rewrite (check_type_doc j s Hn Hs) in H. by destruct (String.eqb role_name s).
  - intros (Hn & Hj & Hno). by apply check_type_no_doc.
Qed.

(** ** Unique signatures *)
Lemma unique_sigs_ok seen l : unique_sigs seen l = Ok tt <-> NoDup (map sig_keyid l) /\ forall s, s ∈ l -> sig_keyid s ∉ seen.
Proof.
  revert seen; induction l as [|s l IH]; intros seen; cbn.
  - split; [|done]. intros _. split; [constructor|]. by intros s ?%elem_of_nil.
  - destruct (decide (sig_keyid s ∈ seen)) as [Hin|Hin].
    + split; [done|]. intros [_ H]. by destruct (H s ltac:(left)).
    + rewrite IH, NoDup_cons. setoid_rewrite elem_of_app. setoid_rewrite elem_of_list_singleton. setoid_rewrite elem_of_cons. split.
      * intros [H1 H2]. split; [split; [|done]|].
        -- intros (s' & Heq & Hs')%elem_of_list_fmap. apply (H2 s' Hs'). by right.
        -- intros s' [->|Hs']; [done|]. intros Hx. apply (H2 s' Hs'). by left.
      * intros [[H1 H2] H3]. split; [done|]. intros s' Hs' [Hx|Hx]; [by apply (H3 s'); auto|]. apply H1. rewrite <- Hx. by apply (elem_of_list_fmap_1 sig_keyid).
Qed.
Lemma unique_sigs_cases seen l : unique_sigs seen l = Ok tt \/ exists msg, unique_sigs seen l = Err (ErrValue msg).
Proof. revert seen; induction l as [|s l IH]; intros seen; cbn; [by left|]. destruct (decide _); [right; by eexists|apply IH]. Qed.

(** ** FromBytes *)
Lemma from_bytes_ok {T} {RT : RoleTy T} data (m : metadata T) :
  from_bytes data = Ok m <-> exists j, parse_json data = Some j /\ numbers_ok j /\ doc_type j role_name /\ metadata_unmarshal j = Ok m /\ unique_key_ids m.
Proof.
  unfold from_bytes, from_json, unique_key_ids. destruct (parse_json data) as [j|]; [|naive_solver]. split.
  - intros H. apply obind_ok in H as ([] & Hc & H). apply obind_ok in H as (m' & Hm & H). apply obind_ok in H as ([] & Hu & H). injection H as ->.
    apply check_type_ok in Hc as [H1 H2]. apply unique_sigs_ok in Hu as [Hu _]. exists j. done.
  - intros (j' & [= <-] & H1 & H2 & H3 & H4). rewrite (proj2 (check_type_ok j)) by done. cbn [obind]. rewrite H3. cbn [obind].
    rewrite (proj2 (unique_sigs_ok [] _)); [done|]. split; [done|]. intros s _. by intros ?%elem_of_nil.
Qed.
Lemma from_bytes_wrong_type {T} {RT : RoleTy T} data j s : parse_json data = Some j -> numbers_ok j -> doc_type j s -> s <> role_name ->
  exists msg, from_bytes (T := T) data = Err (ErrValue msg).
Proof.
  intros Hp Hn Hd Hne. unfold from_bytes, from_json. rewrite Hp, (check_type_doc j s Hn Hd). destruct (String.eqb_spec role_name s); [congruence|]. by eexists.
Qed.
Lemma from_bytes_never {T} {RT : RoleTy T} data j s (m : metadata T) : parse_json data = Some j -> doc_type j s -> s <> role_name -> from_bytes data <> Ok m.
Proof.
  intros Hp Hd Hne H. apply from_bytes_ok in H as (j' & Hp' & _ & Hd' & _). assert (j' = j) as -> by congruence. by rewrite (doc_type_fun j s role_name) in Hne.
Qed.
Lemma from_bytes_duplicate {T} {RT : RoleTy T} data j (m : metadata T) : parse_json data = Some j -> numbers_ok j -> doc_type j role_name -> metadata_unmarshal j = Ok m ->
  ~ unique_key_ids m -> exists msg, from_bytes (T := T) data = Err (ErrValue msg).
Proof.
  intros Hp Hn Hd Hm Hu. unfold from_bytes, from_json. rewrite Hp, (check_type_doc j _ Hn Hd), String.eqb_refl. cbn [obind]. rewrite Hm. cbn [obind].
  destruct (unique_sigs_cases [] (slist (md_sigs m))) as [E|[msg ->]]; [|by eexists]. apply unique_sigs_ok in E as [E _]. done.
Qed.

(** ** The last member decides a field *)
Lemma field_exact_in {A} (fs : fields A) k g : field_exact fs k = Some g -> (k, g) ∈ fs.
Proof. induction fs as [|[n f] fs IH]; cbn; [done|]. destruct (String.eqb_spec n k) as [->|]; [intros [= ->]; left|]. intros H. right. by apply IH. Qed.
Lemma field_fold_in {A} (fs : fields A) k g : field_fold fs k = Some g -> exists n, (n, g) ∈ fs /\ fold_key n = k.
Proof. induction fs as [|[n f] fs IH]; cbn; [done|]. destruct (String.eqb_spec (fold_key n) k) as [Hk|]; [intros [= ->]; exists n; split; [left|done]|]. intros H. destruct (IH H) as (n' & ? & ?). exists n'. split; [by right|done]. Qed.
Lemma field_lookup_in {A} (fs : fields A) k g : field_lookup fs k = Some g -> exists n, (n, g) ∈ fs /\ fold_key n = fold_key k.
Proof.
  unfold field_lookup. destruct (field_exact fs k) as [f|] eqn:E.
  - intros [= ->]. exists k. split; [by apply field_exact_in|done].
  - apply field_fold_in.
Qed.
Lemma field_lookup_none {A} (fs : fields A) k : field_lookup fs k = None <-> forall n g, (n, g) ∈ fs -> fold_key n <> fold_key k.
Proof.
  split.
  - unfold field_lookup. destruct (field_exact fs k); [done|]. generalize (fold_key k) as fk. intros fk. induction fs as [|[n f] fs IH]; cbn; [by intros _ ? ? ?%elem_of_nil|].
    destruct (String.eqb_spec (fold_key n) fk); [done|]. intros H n' g [[= -> ->]|Hin]%elem_of_cons; [done|]. by eapply IH.
  - intros H. destruct (field_lookup fs k) as [g|] eqn:E; [|done]. apply field_lookup_in in E as (n & Hin & Hf). by destruct (H n g Hin).
Qed.
Lemma decode_members_app {A} (fs : fields A) l1 l2 x : decode_members fs (l1 ++ l2) x = (let! y := decode_members fs l1 x in decode_members fs l2 y).
Proof. revert x; induction l1 as [|[k v] l1 IH]; intros x; cbn; [done|]. destruct (field_lookup fs k) as [f|]; [|apply IH]. destruct (f v x); cbn; [apply IH|done|done]. Qed.
Lemma decode_members_keep {A B} (fs : fields A) (π : A -> B) n l x y :
  (forall n' g w a b, (n', g) ∈ fs -> fold_key n' <> fold_key n -> g w a = Ok b -> π b = π a) ->
  Forall (fun kv => fold_key kv.1 <> fold_key n) l -> decode_members fs l x = Ok y -> π y = π x.
Proof.
  intros Hg. revert x; induction l as [|[k v] l IH]; intros x Hf; cbn; [by intros [= <-]|]. apply Forall_cons in Hf as [Hk Hf]. cbn in Hk.
  destruct (field_lookup fs k) as [f|] eqn:E; [|by apply IH]. intros H. apply obind_ok in H as (z & Hz & H). apply IH in H; [|done]. rewrite H.
  apply field_lookup_in in E as (n' & Hin & Hn'). eapply Hg; [done| |done]. congruence.
Qed.
Lemma decode_members_last {A B} (fs : fields A) (π : A -> B) (R : B -> Prop) n l v x y :
  (forall n' g w a b, (n', g) ∈ fs -> fold_key n' <> fold_key n -> g w a = Ok b -> π b = π a) ->
  (forall n' g a b, (n', g) ∈ fs -> fold_key n' = fold_key n -> g v a = Ok b -> R (π b)) ->
  field_lookup fs n <> None -> last_member l n v -> no_lookalike n l -> decode_members fs l x = Ok y -> R (π y).
Proof.
  intros H1 H2 Hl (l1 & l2 & -> & Hf) Hno. rewrite decode_members_app. intros H. apply obind_ok in H as (z & _ & H). cbn in H.
  destruct (field_lookup fs n) as [g|] eqn:E; [|done]. apply obind_ok in H as (w & Hw & H).
  apply field_lookup_in in E as (n' & Hin & Hn'). rewrite (decode_members_keep fs π n l2 w y H1); [by eapply H2| |done].
  apply Forall_forall. intros [k u] Hku Hk. cbn in Hk. apply (Hno k u); [apply elem_of_app; right; by right|]. split; [|done]. rewrite Forall_forall in Hf. by apply (Hf (k, u)).
Qed.
(** the _type member of a signed object *)
Class TypeField (T : Type) `{RoleTy T} := type_field : forall l v s (x : T),
  last_member l "_type" v -> jstring v = Some s -> no_lookalike "_type" l -> signed_unmarshal (JObj l) = Ok x -> signed_type x = s.
Ltac field_cases Hin := repeat (apply elem_of_cons in Hin as [[= -> ->]|Hin]); [..|by apply elem_of_nil in Hin].
Lemma dec_string_jstring v s old : jstring v = Some s -> dec_string v old = Ok s.
Proof. by destruct v; cbn; intros [= ->]. Qed.
Global Instance root_type_field : TypeField root_t.
Proof.
  intros l v s x Hl Hs Hno. cbn [signed_unmarshal signed_type root_role]. unfold root_unmarshal. intros H. apply obind_ok in H as (a & Ha & H). apply obind_ok in H as (d & _ & H). injection H as <-. cbn.
  apply (decode_members_last root_fields rt_type (fun z => z = s) "_type" l v root_zero a); try done.
  - intros n' g w b c Hin Hne Hg. unfold root_fields in Hin. field_cases Hin; try (by exfalso; apply Hne); apply obind_ok in Hg as (? & _ & Hg); injection Hg as <-; done.
  - intros n' g b c Hin Heq Hg. unfold root_fields in Hin. field_cases Hin; try (by vm_compute in Heq). rewrite (dec_string_jstring v s _ Hs) in Hg. by injection Hg as <-.
Qed.
Global Instance snapshot_type_field : TypeField snapshot_t.
Proof.
  intros l v s x Hl Hs Hno. cbn [signed_unmarshal signed_type snapshot_role]. unfold snapshot_unmarshal. intros H. apply obind_ok in H as (a & Ha & H). apply obind_ok in H as (d & _ & H). injection H as <-. cbn.
  apply (decode_members_last snapshot_fields sn_type (fun z => z = s) "_type" l v snapshot_zero a); try done.
  - intros n' g w b c Hin Hne Hg. unfold snapshot_fields in Hin. field_cases Hin; try (by exfalso; apply Hne); apply obind_ok in Hg as (? & _ & Hg); injection Hg as <-; done.
  - intros n' g b c Hin Heq Hg. unfold snapshot_fields in Hin. field_cases Hin; try (by vm_compute in Heq). rewrite (dec_string_jstring v s _ Hs) in Hg. by injection Hg as <-.
Qed.
Global Instance timestamp_type_field : TypeField timestamp_t.
Proof.
  intros l v s x Hl Hs Hno. cbn [signed_unmarshal signed_type timestamp_role]. unfold timestamp_unmarshal. intros H. apply obind_ok in H as (a & Ha & H). apply obind_ok in H as (d & _ & H). injection H as <-. cbn.
  apply (decode_members_last timestamp_fields ts_type (fun z => z = s) "_type" l v timestamp_zero a); try done.
  - intros n' g w b c Hin Hne Hg. unfold timestamp_fields in Hin. field_cases Hin; try (by exfalso; apply Hne); apply obind_ok in Hg as (? & _ & Hg); injection Hg as <-; done.
  - intros n' g b c Hin Heq Hg. unfold timestamp_fields in Hin. field_cases Hin; try (by vm_compute in Heq). rewrite (dec_string_jstring v s _ Hs) in Hg. by injection Hg as <-.
Qed.
Global Instance targets_type_field : TypeField targets_t.
Proof.
  intros l v s x Hl Hs Hno. cbn [signed_unmarshal signed_type targets_role]. unfold targets_unmarshal. intros H. apply obind_ok in H as (a & Ha & H). apply obind_ok in H as (p & _ & H). apply obind_ok in H as (d & _ & H). injection H as <-. cbn.
  apply (decode_members_last targets_fields tg_type (fun z => z = s) "_type" l v targets_zero a); try done.
  - intros n' g w b c Hin Hne Hg. unfold targets_fields in Hin. field_cases Hin; try (by exfalso; apply Hne); apply obind_ok in Hg as (? & _ & Hg); injection Hg as <-; done.
  - intros n' g b c Hin Heq Hg. unfold targets_fields in Hin. field_cases Hin; try (by vm_compute in Heq). rewrite (dec_string_jstring v s _ Hs) in Hg. by injection Hg as <-.
Qed.
Lemma metadata_signed_last {T} {RT : RoleTy T} l v (m : metadata T) : last_member l "signed" v -> no_lookalike "signed" l -> metadata_unmarshal (JObj l) = Ok m ->
  signed_unmarshal v = Ok (md_signed m).
Proof.
  intros Hl Hno H. unfold metadata_unmarshal in H. apply obind_ok in H as (u & _ & H). apply obind_ok in H as (d & Hd & H). destruct (mx_saved d); [done|]. injection H as <-. cbn.
  apply (decode_members_last metadata_fields mx_signed (fun z => signed_unmarshal v = Ok z) "signed" l v (mkMdec signed_zero None false) d); try done.
  - intros n' g w b c Hin Hne Hg. unfold metadata_fields in Hin. field_cases Hin; [by exfalso; apply Hne|]. destruct w; try (injection Hg as <-; done); apply obind_ok in Hg as (? & _ & Hg); injection Hg as <-; done.
  - intros n' g b c Hin Heq Hg. unfold metadata_fields in Hin. field_cases Hin; [|by vm_compute in Heq]. apply obind_ok in Hg as (? & Hx & Hg). injection Hg as <-. done.
Qed.
Lemma loaded_type {T} {RT : RoleTy T} {TF : TypeField T} data (m : metadata T) l l' : from_bytes data = Ok m -> parse_json data = Some (JObj l) ->
  no_lookalike "signed" l -> last_member l "signed" (JObj l') -> no_lookalike "_type" l' -> signed_type (md_signed m) = role_name.
Proof.
  intros H Hp Hno Hl Hno'. apply from_bytes_ok in H as (j & Hp' & _ & Hd & Hm & _). assert (j = JObj l) as -> by congruence.
  destruct Hd as (? & l1 & v & [= <-] & H1 & H2 & H3). pose proof (last_member_fun _ _ _ _ Hl H1) as [= <-].
  eapply metadata_signed_last in Hm; [|done|done]. by eapply type_field.
Qed.

(** ** Panics *)
Lemma decode_members_np {A} (fs : fields A) l x : (forall k v g y, (k, v) ∈ l -> field_lookup fs k = Some g -> g v y <> Panic) -> decode_members fs l x <> Panic.
Proof.
  revert x; induction l as [|[k v] l IH]; intros x H; cbn; [done|]. assert (forall x, decode_members fs l x <> Panic) as IH'.
  { intros x'. apply IH. intros k' v' g y Hin. apply H. by right. }
  destruct (field_lookup fs k) as [f|] eqn:E; [|apply IH']. apply obind_no_panic; [|intros a _; apply IH']. eapply H; [left|done].
Qed.
Lemma decode_struct_np {A} (fs : fields A) j x : (forall n g v y, (n, g) ∈ fs -> g v y <> Panic) -> decode_struct fs x j <> Panic.
Proof.
  intros H. destruct j; cbn; try done. apply decode_members_np. intros k v g y _ (n & Hin & _)%field_lookup_in. by eapply H.
Qed.
Lemma dec_string_np j o : dec_string j o <> Panic. Proof. by destruct j. Qed.
Lemma dec_int_np j o : dec_int j o <> Panic. Proof. destruct j; cbn; try done. by destruct (parse_int 10 lit). Qed.
Lemma dec_bool_np j o : dec_bool j o <> Panic. Proof. by destruct j. Qed.
Lemma dec_time_np j o : dec_time j o <> Panic. Proof. destruct j; cbn; try done. by destruct (parse_time s). Qed.
Lemma hexbytes_np j : hexbytes_unmarshal j <> Panic. Proof. destruct j; cbn; try done. by destruct (hex_decode s). Qed.
Lemma dec_map_np {V} (d : json -> outcome V) j old : (forall v, d v <> Panic) -> dec_map d j old <> Panic.
Proof.
  intros H. destruct j; cbn; try done. apply obind_no_panic; [|done]. generalize (mmap old). induction l as [|[k v] l IH]; intros m; cbn; [done|]. apply obind_no_panic; [apply H|]. intros a _. apply IH.
Qed.
Lemma dec_slice_np {A} (d : json -> A -> outcome A) z j old : (forall v o, d v o <> Panic) -> dec_slice d z j old <> Panic.
Proof.
  intros H. destruct j; cbn; try done. apply obind_no_panic; [|done]. generalize (slist old). induction l as [|v l IH]; intros m; cbn; [done|]. apply obind_no_panic; [apply H|]. intros a _. apply obind_no_panic; [apply IH|done].
Qed.
Lemma dec_ptr_np {A} (d : json -> outcome A) j : (forall v, d v <> Panic) -> dec_ptr d j <> Panic.
Proof. intros H. destruct j; cbn; try done; apply obind_no_panic; done. Qed.
Create HintDb np.
#[local] Hint Resolve dec_string_np dec_int_np dec_bool_np dec_time_np hexbytes_np dec_map_np dec_slice_np dec_ptr_np decode_dict_no_panic : np.
Ltac np_fields Hin := field_cases Hin; apply obind_no_panic; auto 8 with np.
Ltac np_unmarshal fs := apply obind_no_panic; [apply decode_struct_np; intros n g v y Hin; unfold fs in Hin; np_fields Hin|intros ? _; apply obind_no_panic; auto with np; done].
Lemma keyval_np j : keyval_unmarshal j <> Panic. Proof. unfold keyval_unmarshal. np_unmarshal keyval_fields. Qed.
#[local] Hint Resolve keyval_np : np.
Lemma key_np j : key_unmarshal j <> Panic. Proof. unfold key_unmarshal. np_unmarshal key_fields. Qed.
Lemma signature_np j : signature_unmarshal j <> Panic. Proof. unfold signature_unmarshal. np_unmarshal signature_fields. Qed.
Lemma dec_strings_np j o : dec_strings j o <> Panic. Proof. unfold dec_strings. auto with np. Qed.
#[local] Hint Resolve key_np signature_np dec_strings_np : np.
Lemma role_np j : role_unmarshal j <> Panic. Proof. unfold role_unmarshal. np_unmarshal role_fields. Qed.
Lemma metafile_np j : metafile_unmarshal j <> Panic. Proof. unfold metafile_unmarshal. np_unmarshal metafile_fields. Qed.
Lemma ok_np {A} (a : A) : Ok a <> Panic. Proof. done. Qed.
#[local] Hint Resolve ok_np : np.
Lemma targetfile_np j : targetfile_unmarshal j <> Panic. Proof. unfold targetfile_unmarshal. np_unmarshal targetfile_fields. Qed.
Lemma delegatedrole_np j : delegatedrole_unmarshal j <> Panic. Proof. unfold delegatedrole_unmarshal. np_unmarshal delegatedrole_fields. Qed.
Lemma succinct_np j : succinct_unmarshal j <> Panic. Proof. unfold succinct_unmarshal. np_unmarshal succinct_fields. Qed.
#[local] Hint Resolve role_np metafile_np targetfile_np delegatedrole_np succinct_np : np.
Lemma dec_keys_np j o : dec_keys j o <> Panic. Proof. unfold dec_keys. auto with np. Qed.
Lemma dec_meta_np j o : dec_meta j o <> Panic. Proof. unfold dec_meta. auto with np. Qed.
#[local] Hint Resolve dec_keys_np dec_meta_np : np.
Lemma delegations_np j : delegations_unmarshal j <> Panic. Proof. unfold delegations_unmarshal. np_unmarshal delegations_fields. Qed.
#[local] Hint Resolve delegations_np : np.
Class LoadNoPanic (T : Type) `{RoleTy T} := load_no_panic : forall j : json, signed_unmarshal j <> Panic.
Global Instance root_lnp : LoadNoPanic root_t. Proof. intros j. cbn. unfold root_unmarshal. np_unmarshal root_fields. Qed.
Global Instance snapshot_lnp : LoadNoPanic snapshot_t. Proof. intros j. cbn. unfold snapshot_unmarshal. np_unmarshal snapshot_fields. Qed.
Global Instance timestamp_lnp : LoadNoPanic timestamp_t. Proof. intros j. cbn. unfold timestamp_unmarshal. np_unmarshal timestamp_fields. Qed.
Lemma metadata_unmarshal_np {T} {RT : RoleTy T} j : (forall l k v, j = JObj l -> (k, v) ∈ l -> fold_key k = fold_key "signed" -> signed_unmarshal v <> Panic) -> metadata_unmarshal (T := T) j <> Panic.
Proof.
  intros H. unfold metadata_unmarshal. apply obind_no_panic; [auto with np|]. intros u _. apply obind_no_panic; [|intros d _; by destruct (mx_saved d)].
  destruct j as [| | | | | |l]; cbn; try done. apply decode_members_np. intros k v g y Hin (n & Hn & Hf)%field_lookup_in. unfold metadata_fields in Hn. field_cases Hn.
  - apply obind_no_panic; [|done]. by eapply H.
  - destruct v; try done. apply obind_no_panic; [|done]. auto with np.
Qed.
Lemma from_bytes_panic {T} {RT : RoleTy T} {NP : LoadNoPanic T} data : from_bytes (T := T) data = Panic <->
  exists j, parse_json data = Some j /\ numbers_ok j /\ (j = JNull \/ exists l, j = JObj l) /\ forall s, ~ doc_type j s.
Proof.
  unfold from_bytes, from_json. destruct (parse_json data) as [j|]; [|naive_solver]. rewrite obind_panic, check_type_panic. split.
  - intros [H|(u & _ & [Hm|(m & _ & Hu)]%obind_panic)]; [naive_solver| |].
    + exfalso. eapply metadata_unmarshal_np; [|exact Hm]. intros. apply load_no_panic.
    + exfalso. apply obind_panic in Hu as [Hu|(? & _ & ?)]; [|done]. destruct (unique_sigs_cases [] (slist (md_sigs m))) as [E|[msg E]]; by rewrite E in Hu.
  - intros (j' & [= <-] & H). by left.
Qed.
(** targets documents additionally panic on a null target *)
Lemma dec_ptr_none {A} (d : json -> outcome A) v : dec_ptr d v = Ok None -> v = JNull.
Proof. destruct v; cbn; try done; intros (? & _ & ?)%obind_ok; done. Qed.
Lemma populate_np m : (forall n, mget m n <> Some None) -> populate_paths m <> Panic.
Proof. destruct m as [m|]; cbn; [|done]. intros H. rewrite decide_True; [done|]. intros n o Hn ->. by apply (H n). Qed.
Lemma targets_unmarshal_np j : (forall s ks ts n, j = JObj s -> (ks, JObj ts) ∈ s -> fold_key ks = fold_key "targets" -> (n, JNull) ∉ ts) -> targets_unmarshal j <> Panic.
Proof.
  intros H. unfold targets_unmarshal. apply obind_no_panic.
  { apply decode_struct_np. intros n g v y Hin. unfold targets_fields in Hin. np_fields Hin. }
  intros a Ha. apply obind_no_panic; [|intros ? _; apply obind_no_panic; [auto with np|done]]. apply populate_np.
  destruct j as [| | | | | |s]; cbn in Ha; try done; [by injection Ha as <-|].
  assert (forall l x y, (forall k v, (k, v) ∈ l -> (k, v) ∈ s) -> decode_members targets_fields l x = Ok y -> (forall n, mget (tg_targets x) n <> Some None) -> forall n, mget (tg_targets y) n <> Some None) as Hind; [|by eapply Hind].
  clear a Ha. induction l as [|[k v] l IH]; intros x y Hsub; cbn; [by intros [= <-]|].
  destruct (field_lookup targets_fields k) as [f|] eqn:E; [|apply IH; intros; apply Hsub; by right].
  intros (z & Hz & Hy)%obind_ok Hx. eapply IH; [intros; apply Hsub; by right|done|]. clear Hy IH.
  apply field_lookup_in in E as (n' & Hin & Hn'). unfold targets_fields in Hin. field_cases Hin; apply obind_ok in Hz as (w & Hw & Hz); injection Hz as <-; cbn; try done.
  assert ((k, v) ∈ s) as Hks by (apply Hsub; left). clear Hsub.
  destruct v as [| | | | | |ts]; cbn in Hw; try done; [by injection Hw as <-|]. apply obind_ok in Hw as (mm & Hmm & Hw). injection Hw as <-.
  assert (forall n, (n, JNull) ∉ ts) as Hnn by (intros n; eapply H; [done|exact Hks|done]). clear Hks H.
  assert (forall n, mmap (tg_targets x) !! n <> Some None) as Hmx. { intros n. specialize (Hx n). unfold mmap, mget in *. destruct (tg_targets x); cbn; [done|]. by rewrite lookup_empty. }
  cbn. clear Hx. revert Hmm Hmx. generalize (mmap (tg_targets x)) as m0. induction ts as [|[n0 v0] ts IH]; intros m0; cbn; [by intros [= <-]|].
  intros (o & Ho & Hm)%obind_ok Hm0. eapply IH; [intros n Hin; apply (Hnn n); by right|done|]. intros n. rewrite lookup_insert_Some. intros [[-> ->]|[_ Hx]]; [|by apply (Hm0 n)].
  apply dec_ptr_none in Ho as ->. apply (Hnn n). left.
Qed.
Lemma from_bytes_targets_np data j s : parse_json data = Some j -> doc_type j s -> ~ null_target j -> from_bytes (T := targets_t) data <> Panic.
Proof.
  intros Hp Hd Hno. unfold from_bytes, from_json. rewrite Hp. destruct (check_type j) as [[]| |] eqn:Hc; cbn [obind]; [|done|].
  - apply obind_no_panic.
    + apply metadata_unmarshal_np. intros l k v -> Hin Hk. apply targets_unmarshal_np. intros s' ks ts n -> Hs Hks Hnn. apply Hno. exists l, k, s', ks, ts, n. done.
    + intros m _. apply obind_no_panic; [|done]. by destruct (unique_sigs_cases [] (slist (md_sigs m))) as [E|[msg E]]; rewrite E.
  - apply check_type_panic in Hc as (_ & _ & Hx). by apply Hx in Hd.
Qed.
Lemma from_bytes_untyped_panic {T} {RT : RoleTy T} data j : parse_json data = Some j -> numbers_ok j -> j = JNull \/ (exists l, j = JObj l) -> (forall s, ~ doc_type j s) ->
  from_bytes (T := T) data = Panic.
Proof. intros Hp Hn Hj Hno. unfold from_bytes, from_json. rewrite Hp. rewrite (proj2 (check_type_panic j)); done. Qed.

(** ** Both path restrictions *)
Lemma oseq_err {A} (l : list (outcome A)) : Forall (fun o => o <> Panic) l -> (exists o e, o ∈ l /\ o = Err e) -> exists e, oseq l = Err e.
Proof.
  induction 1 as [|o l Hnp Hf IH]; [by intros (? & ? & ?%elem_of_nil & _)|]. intros (o' & e & Hin & ->). cbn. destruct o as [a|e'|]; cbn; [|eauto|done].
  apply elem_of_cons in Hin as [?|Hin]; [done|]. destruct IH as [e' ->]; eauto.
Qed.
Lemma targets_marshal_both x : both_restrictions x -> exists e, targets_marshal x = Err e.
Proof.
  intros (d & l & r & p & h & Hd & Hl & Hr & Hp & Hh). unfold targets_marshal. pose proof (enc_time_no_panic (tg_expires x)). destruct (enc_time (tg_expires x)) as [e|e|]; cbn [obind]; [|eauto|done].
  rewrite Hd. unfold delegations_marshal. rewrite Hl. destruct (oseq_err (map delegatedrole_marshal l)) as [e' ->]; [| |cbn; eauto].
  - apply Forall_forall. intros o (y & -> & _)%elem_of_list_fmap. unfold delegatedrole_marshal. by repeat case_match.
  - exists (delegatedrole_marshal r). eexists. split; [by apply (elem_of_list_fmap_1 delegatedrole_marshal)|]. unfold delegatedrole_marshal. by rewrite Hp, Hh.
Qed.
Lemma both_payload x : both_restrictions x -> exists e, signing_payload x = Err e.
Proof. intros [e H]%targets_marshal_both. exists e. unfold signing_payload. cbn [signed_marshal targets_role]. by rewrite H. Qed.
Lemma both_to_bytes (m : metadata targets_t) : both_restrictions (md_signed m) -> exists e, to_bytes m = Err e.
Proof. intros [e H]%targets_marshal_both. exists e. unfold to_bytes, metadata_marshal. cbn [signed_marshal targets_role]. by rewrite H. Qed.
Lemma both_sign `{Crypto} s (m : metadata targets_t) : both_restrictions (md_signed m) -> exists e, sign s m = (m, Err e).
Proof. intros [e Hp]%both_payload. exists e. unfold sign. by rewrite Hp. Qed.
Lemma both_verify `{Crypto} (dg : delegation) (dm : metadata targets_t) : both_restrictions (md_signed dm) -> verify_delegation dg dm <> Ok tt.
Proof.
  intros [e Hp]%both_payload. unfold verify_delegation. destruct (dg_keyids dg) as [|i ids]; [done|]. cbn [verify_loop]. destruct (mget (dg_keys dg) i) as [[k|]|]; try done.
  destruct (to_public_key k); cbn [obind]; try done. by rewrite Hp.
Qed.
Lemma both_verify_err `{Crypto} (dg : delegation) (dm : metadata targets_t) : both_restrictions (md_signed dm) -> (forall id, id ∈ dg_keyids dg -> mget (dg_keys dg) id <> Some None) ->
  exists e, verify_delegation dg dm = Err e.
Proof.
  intros [e Hp]%both_payload Hn. unfold verify_delegation. destruct (dg_keyids dg) as [|i ids]; [by eexists|]. cbn [verify_loop]. pose proof (Hn i ltac:(left)) as Hni. destruct (mget (dg_keys dg) i) as [[k|]|] eqn:E; [|done|by eexists].
  destruct (to_public_key k) as [pk|e'|] eqn:Ek; cbn [obind]; [rewrite Hp; by eexists|by eexists|]. exfalso. clear -Ek. unfold to_public_key in Ek. repeat case_match; done.
Qed.
Lemma both_verify_delegate `{Crypto} {T} {D : Delegator T} (m : metadata T) name (dm : metadata targets_t) : both_restrictions (md_signed dm) -> verify_delegate m name dm <> Ok tt.
Proof. intros Hb. unfold verify_delegate. destruct (delegation_of _ _); cbn [obind]; [by apply both_verify|done|done]. Qed.
Lemma both_verify_root `{Crypto} (m : metadata root_t) name keys ids thr (dm : metadata targets_t) : both_restrictions (md_signed dm) ->
  root_delegates (md_signed m) name keys ids thr -> (forall id, id ∈ ids -> mget keys id <> Some None) -> exists e, verify_delegate m name dm = Err e.
Proof.
  intros Hb Hd Hn. unfold verify_delegate. change (delegation_of (md_signed m) name) with (root_delegation (md_signed m) name). rewrite (proj2 (root_delegation_spec (md_signed m) name (mkDelegation keys ids thr)) Hd). cbn [obind]. by apply both_verify_err.
Qed.
Lemma both_verify_targets `{Crypto} (m : metadata targets_t) name keys ids thr (dm : metadata targets_t) : both_restrictions (md_signed dm) ->
  targets_delegates (md_signed m) name keys ids thr -> ids <> [] -> (forall id, id ∈ ids -> mget keys id <> Some None) -> exists e, verify_delegate m name dm = Err e.
Proof.
  intros Hb Hd Hne Hn. unfold verify_delegate. change (delegation_of (md_signed m) name) with (targets_delegation (md_signed m) name).
  destruct (proj2 (targets_delegation_spec (md_signed m) name (mkDelegation keys ids thr)) (conj Hd Hne)) as [-> _]. cbn [obind]. by apply both_verify_err.
Qed.
