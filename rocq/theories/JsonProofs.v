(** * Facts about JSON trees: sorted members, decoding into maps *)
From stdpp Require Import base gmap strings list sorting.
From Coq Require Import ZArith Lia Ascii String.
From Verif Require Import GoBase GoStr Json Types Marshal SpecSerial.
Open Scope Z_scope.

(** ** Byte order of strings *)
Lemma bz_inj a b : bz a = bz b -> a = b.
Proof. unfold bz. intros H. apply N2Z.inj in H. by rewrite <- (ascii_N_embedding a), <- (ascii_N_embedding b), H. Qed.
Lemma str_ltb_irrefl s : str_ltb s s = false.
Proof. induction s as [|c s IH]; cbn; [done|]. by rewrite Z.ltb_irrefl. Qed.
Lemma str_ltb_total a b : str_ltb a b = false -> str_ltb b a = false -> a = b.
Proof.
  revert b; induction a as [|c a IH]; intros [|d b]; cbn; try done. intros H1 H2.
  destruct (Z.ltb_spec (bz c) (bz d)), (Z.ltb_spec (bz d) (bz c)); try done. f_equal; [apply bz_inj; lia|by apply IH].
Qed.
Lemma str_ltb_trans a b c : str_ltb a b = true -> str_ltb b c = true -> str_ltb a c = true.
Proof.
  revert b c; induction a as [|x a IH]; intros [|y b] [|z c]; cbn; try done. intros H1 H2.
  destruct (Z.ltb_spec (bz x) (bz y)), (Z.ltb_spec (bz y) (bz x)), (Z.ltb_spec (bz y) (bz z)), (Z.ltb_spec (bz z) (bz y)),
    (Z.ltb_spec (bz x) (bz z)), (Z.ltb_spec (bz z) (bz x)); try done; try lia. by eapply IH.
Qed.
Lemma str_ltb_ne a b : str_ltb a b = true -> a <> b.
Proof. intros H ->. by rewrite str_ltb_irrefl in H. Qed.
Lemma str_ltb_asym a b : str_ltb a b = true -> str_ltb b a = false.
Proof. intros H. destruct (str_ltb b a) eqn:E; [|done]. pose proof (str_ltb_trans _ _ _ H E) as Hx. by rewrite str_ltb_irrefl in Hx. Qed.

(** ** Members as maps *)
Definition mem_map {V} (l : list (string * V)) : gmap string V := fold_left (fun m kv => <[kv.1 := kv.2]> m) l ∅.
Lemma ins_map {V} k (v : V) l : list_to_map (M := gmap string V) (ins k v l) = <[k := v]> (list_to_map l).
Proof.
  induction l as [|[k' v'] l IH]; cbn; [done|]. destruct (str_ltb k k') eqn:E1; [done|]. destruct (str_ltb k' k) eqn:E2; cbn.
  - rewrite IH. rewrite insert_commute; [done|]. by apply str_ltb_ne.
  - assert (k = k') as -> by (by apply str_ltb_total). by rewrite insert_insert.
Qed.
Lemma obj_norm_map_acc {V} (l acc : list (string * V)) :
  list_to_map (M := gmap string V) (fold_left (fun acc kv => ins kv.1 kv.2 acc) l acc) = fold_left (fun m kv => <[kv.1 := kv.2]> m) l (list_to_map acc).
Proof. revert acc; induction l as [|[k v] l IH]; intros acc; cbn; [done|]. by rewrite IH, ins_map. Qed.
Lemma obj_norm_map {V} (l : list (string * V)) : list_to_map (M := gmap string V) (obj_norm l) = mem_map l.
Proof. unfold obj_norm. by rewrite obj_norm_map_acc. Qed.
Lemma mem_map_snoc {V} (l : list (string * V)) k v : mem_map (l ++ [(k, v)]) = <[k := v]> (mem_map l).
Proof. unfold mem_map. by rewrite fold_left_app. Qed.
Lemma mem_map_app {V} (l1 l2 : list (string * V)) : mem_map (l1 ++ l2) = mem_map l2 ∪ mem_map l1.
Proof.
  revert l1; induction l2 as [|[k v] l2 IH] using rev_ind; intros l1.
  - rewrite app_nil_r. change (mem_map []) with (∅ : gmap string V). by rewrite (left_id_L ∅ (∪)).
  - rewrite app_assoc, !mem_map_snoc, IH. by rewrite insert_union_l.
Qed.
Lemma mem_map_none {V} (l : list (string * V)) k : mem_map l !! k = None <-> Forall (fun kv => kv.1 <> k) l.
Proof.
  induction l as [|[k' v] l IH] using rev_ind; [done|]. rewrite mem_map_snoc.
  rewrite lookup_insert_None, IH, Forall_app, Forall_singleton. cbn. done.
Qed.
Lemma mem_map_some {V} (l : list (string * V)) k v : mem_map l !! k = Some v <-> last_member l k v.
Proof.
  induction l as [|[k' v'] l IH] using rev_ind.
  - split; [done|]. by intros ([|] & ? & ? & _).
  - rewrite mem_map_snoc, lookup_insert_Some, IH. unfold last_member. split.
    + intros [[-> ->]|(Hne & l1 & l2 & -> & Hf)].
      * exists l, []. done.
      * exists l1, (l2 ++ [(k', v')]). split; [by rewrite <- app_assoc|]. apply Forall_app. split; [done|]. by apply Forall_singleton.
    + intros (l1 & l2 & Heq & Hf). destruct l2 as [|x l2 _] using rev_ind.
      * apply app_inj_tail in Heq as [-> [= -> ->]]. by left.
      * rewrite app_comm_cons, app_assoc in Heq. apply app_inj_tail in Heq as [-> <-]. apply Forall_app in Hf as [Hf1 Hf2]. apply (proj1 (Forall_singleton _ _)) in Hf2. right. split; [exact Hf2|]. by exists l1, l2.
Qed.
Lemma last_member_fun {V} (l : list (string * V)) k v v' : last_member l k v -> last_member l k v' -> v = v'.
Proof. rewrite <- !mem_map_some. congruence. Qed.
Lemma last_member_in {V} (l : list (string * V)) k v : last_member l k v -> (k, v) ∈ l.
Proof. intros (l1 & l2 & -> & _). apply elem_of_app. right. left. Qed.

(** ** Decoding into [any] *)
Lemma seq_opt_some {A} (l : list (option A)) r : seq_opt l = Some r <-> l = map Some r.
Proof.
  revert r; induction l as [|[x|] l IH]; intros r; cbn.
  - split; [by intros [= <-]|by destruct r].
  - destruct (seq_opt l) as [r'|] eqn:E.
    + split; [intros [= <-]; cbn; f_equal; by apply IH|]. destruct r as [|y r]; [done|]. cbn. intros [= -> H]. apply IH in H. congruence.
    + split; [done|]. destruct r as [|y r]; [done|]. cbn. intros [= -> H]. apply IH in H. congruence.
  - split; [done|]. by destruct r.
Qed.
Lemma seq_kv_some {A} (l : list (string * option A)) r : seq_kv l = Some r <-> l = map (fun kv => (kv.1, Some kv.2)) r.
Proof.
  unfold seq_kv. rewrite seq_opt_some. revert r; induction l as [|[k [v|]] l IH]; intros [|[k' v'] r]; cbn; try done.
  split; [intros [= -> -> H]; f_equal; by apply IH|]. intros [= -> -> H]. f_equal. by apply IH.
Qed.
Lemma seq_opt_none {A} (l : list (option A)) : seq_opt l = None <-> None ∈ l.
Proof.
  induction l as [|[x|] l IH]; cbn.
  - split; [done|]. by intros ?%elem_of_nil.
  - destruct (seq_opt l); rewrite elem_of_cons; naive_solver.
  - split; [intros _; left|done].
Qed.
Lemma norm_members l r : seq_kv (map (fun kv => (kv.1, norm kv.2)) l) = Some r -> Forall2 (fun a b => a.1 = b.1 /\ norm a.2 = Some b.2) l r.
Proof.
  rewrite seq_kv_some. revert r; induction l as [|[k v] l IH]; intros [|[k' v'] r]; cbn; intros H; try done; try by constructor.
  all: injection H as -> Hv H. all: constructor; [done|by apply IH].
Qed.
Lemma last_member_f2 {V W} (R : V -> W -> Prop) (l : list (string * V)) (r : list (string * W)) k :
  Forall2 (fun a b => a.1 = b.1 /\ R a.2 b.2) l r ->
  (forall v, last_member l k v -> exists w, last_member r k w /\ R v w) /\ (forall w, last_member r k w -> exists v, last_member l k v /\ R v w).
Proof.
  intros HF. split.
  - intros v (l1 & l2 & -> & Hf). apply Forall2_app_inv_l in HF as (r1 & r2 & _ & H2 & ->). apply Forall2_cons_inv_l in H2 as ([k' w] & r3 & [Hk Hr] & H3 & ->). cbn in *. subst k'.
    exists w. split; [|done]. exists r1, r3. split; [done|]. clear -Hf H3. induction H3 as [|a b la lb [Hab _] _ IH]; [constructor|]. inversion Hf; subst. constructor; [by rewrite <- Hab|by apply IH].
  - intros w (r1 & r2 & -> & Hf). apply Forall2_app_inv_r in HF as (l1 & l2 & _ & H2 & ->). apply Forall2_cons_inv_r in H2 as ([k' v] & l3 & [Hk Hr] & H3 & ->). cbn in *. subst k'.
    exists v. split; [|done]. exists l1, l3. split; [done|]. clear -Hf H3. induction H3 as [|a b la lb [Hab _] _ IH]; [constructor|]. inversion Hf; subst. constructor; [by rewrite Hab|by apply IH].
Qed.
Lemma norm_total j : (exists j', norm j = Some j') <-> numbers_ok j.
Proof.
  induction j as [| | n | | |l IH|l IH] using json_ind; cbn; try by (split; [done|eauto]).
  - destruct (f64_norm n); naive_solver.
  - assert (forall r, seq_opt (map norm l) = Some r \/ True) as _ by (by right).
    transitivity (Forall (fun x => exists j', norm x = Some j') l).
    + destruct (seq_opt (map norm l)) as [r|] eqn:E.
      * split; [|by eauto]. intros _. apply seq_opt_some in E. apply Forall_forall. intros x Hx. apply (elem_of_list_fmap_1 norm) in Hx. change (norm <$> l) with (map norm l) in Hx. rewrite E in Hx. apply elem_of_list_fmap in Hx as (y & -> & _). eauto.
      * split; [by intros [? ?]|]. intros H. apply seq_opt_none in E. change (map norm l) with (norm <$> l) in E. apply elem_of_list_fmap in E as (x & Hx & Hin). rewrite Forall_forall in H. destruct (H x Hin) as [? ?]. congruence.
    + clear -IH. induction IH as [|x l Hx _ IH']; cbn; [by split|]. rewrite Forall_cons, Hx, IH'. done.
  - transitivity (Forall (fun x => exists j', norm x.2 = Some j') l).
    + destruct (seq_kv (map (fun kv => (kv.1, norm kv.2)) l)) as [r|] eqn:E.
      * split; [|by eauto]. intros _. apply norm_members in E. clear -E. induction E as [|a b la lb [_ H] _ IH]; constructor; eauto.
      * split; [by intros [? ?]|]. intros H. exfalso. unfold seq_kv in E. rewrite map_map in E. cbn in E. apply seq_opt_none in E. apply elem_of_list_In, in_map_iff in E as ([k v] & Hx & Hin). cbn in Hx.
        rewrite Forall_forall in H. destruct (H (k, v)) as [? Hy]; [by apply elem_of_list_In|]. cbn in Hy. by rewrite Hy in Hx.
    + clear -IH. induction IH as [|x l Hx _ IH']; cbn; [by split|]. rewrite Forall_cons, Hx, IH'. done.
Qed.
(** decoding a document into a map *)
Lemma decode_dict_some l m : decode_dict (JObj l) = Ok m <-> exists r, m = Some (mem_map r) /\ seq_kv (map (fun kv => (kv.1, norm kv.2)) l) = Some r.
Proof.
  cbn. destruct (seq_kv _) as [r|]; [|naive_solver]. rewrite obj_norm_map. naive_solver.
Qed.
Lemma decode_dict_lookup l m k : decode_dict (JObj l) = Ok m ->
  (forall v, mget m k = Some v -> exists w, last_member l k w /\ norm w = Some v) /\ (forall w, last_member l k w -> exists v, mget m k = Some v /\ norm w = Some v).
Proof.
  intros (r & -> & Hr)%decode_dict_some. apply norm_members in Hr. cbn. setoid_rewrite mem_map_some. destruct (last_member_f2 (fun a b => norm a = Some b) l r k Hr) as [H1 H2]. split; naive_solver.
Qed.
Lemma decode_dict_ok j : (exists m, decode_dict j = Ok m) <-> (j = JNull \/ exists l, j = JObj l) /\ numbers_ok j.
Proof.
  destruct j as [| | | | | |l]; try by (cbn; naive_solver).
  rewrite <- norm_total. cbn. destruct (seq_kv _); naive_solver.
Qed.
Lemma decode_dict_no_panic j : decode_dict j <> Panic.
Proof. destruct j; cbn; try done. by destruct (seq_kv _). Qed.
Lemma norm_obj j l : norm j = Some (JObj l) -> exists l0 r, j = JObj l0 /\ l = obj_norm r /\ seq_kv (map (fun kv => (kv.1, norm kv.2)) l0) = Some r.
Proof.
  destruct j as [| | n | | |a|l0]; cbn; try done.
  - by destruct (f64_norm n).
  - by destruct (seq_opt _).
  - destruct (seq_kv _) as [r|] eqn:E; [|done]. intros [= <-]. exists l0, r. done.
Qed.
Lemma norm_jstr j s : norm j = Some (JStr s) <-> jstring j = Some s.
Proof.
  destruct j; cbn; repeat case_match; naive_solver.
Qed.
