(** * Proofs: what may depend on the iteration order of Go's maps *)
From stdpp Require Import base gmap strings list.
From Coq Require Import ZArith Lia String.
From Verif Require Import GoBase GoStr GoTime Types Marshal Keys Metadata TrustedMetadata Fetcher Updater SpecBasic SpecTrusted SpecUpdater SpecOrder.
From Verif Require Import StrProofs BasicProofs DelegProofs EventProofs UpdaterProofs WalkProofs ApiProofs SearchProofs PanicProofs TrustedProofs.
Open Scope Z_scope.

(** ** Computations that agree unless one panics *)
Definition agree_out {A} (p1 p2 : world * outcome A) : Prop := snd p1 = Panic \/ snd p2 = Panic \/ (fst p1 = fst p2 /\ alike_outcome (snd p1) (snd p2)).
Definition agree {A} (m1 m2 : M A) : Prop := forall w, agree_out (m1 w) (m2 w).
Lemma alike_refl {A} (o : outcome A) : alike_outcome o o.
Proof. by destruct o. Qed.
Lemma agree_out_refl {A} (p : world * outcome A) : agree_out p p.
Proof. right. right. split; [done|apply alike_refl]. Qed.
Lemma agree_refl {A} (m : M A) : agree m m.
Proof. intros w. apply agree_out_refl. Qed.
Lemma agree_bind {A B} (m1 m2 : M A) (f1 f2 : A -> M B) : agree m1 m2 -> (forall a, agree (f1 a) (f2 a)) -> agree (sbind m1 f1) (sbind m2 f2).
Proof.
  intros Hm Hf w. unfold sbind. destruct (Hm w) as [H|[H|[H1 H2]]]; destruct (m1 w) as [w1 o1], (m2 w) as [w2 o2]; cbn [fst snd] in *.
  - subst o1. by left.
  - subst o2. right. by left.
  - subst w2. destruct o1 as [a|e|], o2 as [b|e'|]; cbn in H2; try done; [subst b; apply Hf|by right; right|by left].
Qed.

(** ** The snapshot's rollback check *)
Lemma check_rollback_perm new l1 l2 : l1 ≡ₚ l2 -> check_rollback new l1 = Ok tt -> check_rollback new l2 = Ok tt.
Proof. intros Hp. rewrite !check_rollback_ok. intros H name o Hin. apply H. by rewrite Hp. Qed.
Lemma rollback_alike new l1 l2 : l1 ≡ₚ l2 -> check_rollback new l1 <> Panic -> check_rollback new l2 <> Panic -> alike_outcome (check_rollback new l1) (check_rollback new l2).
Proof.
  intros Hp H1 H2. destruct (check_rollback new l1) as [[]|e1|] eqn:E1; [|destruct (check_rollback new l2) as [[]|e2|] eqn:E2|done].
  - by rewrite (check_rollback_perm new l1 l2 Hp E1).
  - apply (check_rollback_perm new l2 l1) in E2; [|done]. by rewrite E2 in E1.
  - done.
  - done.
Qed.
Section Snapshot.
Context {CR : Crypto}.
Lemma update_snapshot_alike o1 o2 t data flag : (forall l, o1 l ≡ₚ o2 l) -> snd (update_snapshot o1 t data flag) <> Panic -> snd (update_snapshot o2 t data flag) <> Panic ->
  fst (update_snapshot o1 t data flag) = fst (update_snapshot o2 t data flag) /\ alike_outcome (snd (update_snapshot o1 t data flag)) (snd (update_snapshot o2 t data flag)).
Proof.
  intros Hp. unfold update_snapshot. destruct (t_timestamp t) as [ts|]; [|by split]. destruct (t_targets t !! TARGETS); [by split|].
  destruct (check_final_timestamp t) as [[]|e|]; cbn [obind]; [|by split..].
  destruct (if flag then Ok tt else metafile_verify (snapshot_meta ts) data) as [[]|e|]; cbn [obind]; [|by split..].
  destruct (from_bytes data) as [sn|e|]; cbn [obind]; [|by split..].
  destruct (check_signed_type sn) as [[]|e|]; cbn [obind]; [|by split..].
  destruct (verify_delegate (t_root t) SNAPSHOT sn) as [[]|e|]; cbn [obind]; [|by split..].
  destruct (t_snapshot t) as [old|]; cbn [obind]; [|intros _ _; split; [done|apply alike_refl]].
  intros H1 H2.
  pose proof (rollback_alike (sn_meta (md_signed sn)) (o1 (mlist (sn_meta (md_signed old)))) (o2 (mlist (sn_meta (md_signed old)))) (Hp _)) as Hr.
  destruct (check_rollback _ (o1 _)) as [[]|e1|], (check_rollback _ (o2 _)) as [[]|e2|]; cbn [obind fst snd] in *; try done.
  all: try (split; [done|apply alike_refl]).
  all: by specialize (Hr ltac:(done) ltac:(done)).
Qed.
End Snapshot.

Section Order.
Context {CR : Crypto} (E : env) (order : forall A, trace -> list (string * A) -> list (string * A)) (perm : forall A tr l, order A tr l ≡ₚ l) (c : config).
Notation E' := (reordered E order perm).
Lemma upd_snapshot_agree data flag : agree (upd_snapshot E data flag) (upd_snapshot E' data flag).
Proof.
  intros w. unfold upd_snapshot, on_trusted. cbn [w_trusted w_io e_order reordered].
  pose proof (update_snapshot_alike (e_order E (option metafile) (io_trace (w_io w))) (order (option metafile) (io_trace (w_io w))) (w_trusted w) data flag) as H.
  destruct (update_snapshot (e_order E _ _) _ _ _) as [t1 o1]. destruct (update_snapshot (order _ _) _ _ _) as [t2 o2]. unfold agree_out. cbn [fst snd] in *.
  destruct o1 as [a1|e1|]; [| |by left].
  - destruct o2 as [a2|e2|]; [| |by right; left]; right; right; (destruct H as [-> H]; [intros l; by rewrite e_order_perm, perm|done|done|]; by split).
  - destruct o2 as [a2|e2|]; [| |by right; left]; right; right; (destruct H as [-> H]; [intros l; by rewrite e_order_perm, perm|done|done|]; by split).
Qed.
Lemma upd_snapshot_first data flag w : t_snapshot (w_trusted w) = None -> upd_snapshot E' data flag w = upd_snapshot E data flag w.
Proof.
  intros Hn. unfold upd_snapshot, on_trusted. cbn [w_trusted w_io e_order reordered]. unfold update_snapshot. by rewrite Hn.
Qed.
Lemma agree_bind_at {A B} (m1 m2 : M A) (f1 f2 : A -> M B) w : agree_out (m1 w) (m2 w) -> (forall a w1, m1 w = (w1, Ok a) -> agree_out (f1 a w1) (f2 a w1)) -> agree_out (sbind m1 f1 w) (sbind m2 f2 w).
Proof.
  intros Hm Hf. unfold sbind. destruct Hm as [H|[H|[H1 H2]]]; destruct (m1 w) as [w1 o1], (m2 w) as [w2 o2]; cbn [fst snd] in *.
  - subst o1. by left.
  - subst o2. right. by left.
  - subst w2. destruct o1 as [a|e|], o2 as [b|e'|]; cbn in H2; try done; [subst b; by apply Hf|by right; right|by left].
Qed.
Lemma load_snapshot_agree w : t_snapshot (w_trusted w) = None -> agree_out (load_snapshot E c w) (load_snapshot E' c w).
Proof.
  intros Hn. unfold load_snapshot. unfold satt at 1. unfold satt at 2. change (load_local E' c SNAPSHOT) with (load_local E c SNAPSHOT).
  destruct (lift (load_local E c SNAPSHOT) w) as [w1 o1] eqn:El.
  assert (t_snapshot (w_trusted w1) = None) as Hn1. { unfold lift, load_local, read_file in El. injection El as <- _. exact Hn. }
  assert (agree (fun w0 => (do t := get_trusted in
    match t_timestamp t with
    | None => sout (Err (EOther "trusted timestamp not set"))
    | Some ts =>
        match snapshot_meta ts with
        | None => sout Panic
        | Some f =>
            let length := if mf_length f =? 0 then c_snapshot_max c else mf_length f in
            let version := if consistent t then fmt_dec (mf_version f) else "" in
            do data := lift (download_metadata E c SNAPSHOT length version) in
            do _ := upd_snapshot E data false in
            lift (persist_metadata E c SNAPSHOT data)
        end
    end) w0) (fun w0 => (do t := get_trusted in
    match t_timestamp t with
    | None => sout (Err (EOther "trusted timestamp not set"))
    | Some ts =>
        match snapshot_meta ts with
        | None => sout Panic
        | Some f =>
            let length := if mf_length f =? 0 then c_snapshot_max c else mf_length f in
            let version := if consistent t then fmt_dec (mf_version f) else "" in
            do data := lift (download_metadata E' c SNAPSHOT length version) in
            do _ := upd_snapshot E' data false in
            lift (persist_metadata E' c SNAPSHOT data)
        end
    end) w0)) as Htail.
  { apply agree_bind; [apply agree_refl|]. intros t. destruct (t_timestamp t) as [ts|]; [|apply agree_refl]. destruct (snapshot_meta ts) as [f|]; [|apply agree_refl].
    apply agree_bind; [apply agree_refl|]. intros d. apply agree_bind; [apply upd_snapshot_agree|intros; apply agree_refl]. }
  destruct o1 as [data|e|]; [| |by left].
  - apply agree_bind_at.
    + unfold satt. rewrite upd_snapshot_first by done. apply agree_out_refl.
    + intros [] w2 _; [apply agree_out_refl|apply Htail].
  - apply agree_bind_at; [apply agree_out_refl|]. intros [] w2 _; [apply agree_out_refl|apply Htail].
Qed.
Lemma update_timestamp_none t data t' o : update_timestamp t data = (t', o) -> (forall e, o = Err e -> errors_is e (ErrEqualVersionNumber "") = true) -> o <> Panic -> t_snapshot t' = None.
Proof.
  unfold update_timestamp. destruct (t_snapshot t) as [sn|] eqn:Es.
  { intros [= <- <-] H _. specialize (H _ eq_refl). vm_compute in H. discriminate H. }
  destruct (is_expired _ _); [intros [= <- <-] _ _; exact Es|].
  match goal with |- context [match ?x with Ok r => _ | Err _ => _ | Panic => _ end] => destruct x as [ts|e|] end; intros [= <- <-] _ _; exact Es.
Qed.
Lemma load_timestamp_none w w' : load_timestamp E c w = (w', Ok tt) -> t_snapshot (w_trusted w') = None.
Proof.
  unfold load_timestamp. intros H. apply satt_inv in H as [(w1 & d & _ & H)|[(w1 & e & _ & H)|[_ ?]]]; [| |done].
  all: apply sbind_inv in H as [(w2 & [] & _ & H)|[(? & _ & ?)|[_ ?]]]; [|done..].
  all: apply sbind_inv in H as [(w3 & data & _ & H)|[(? & _ & ?)|[_ ?]]]; [|done..].
  all: unfold satt, on_trusted in H; destruct (update_timestamp (w_trusted w3) data) as [t' o] eqn:Eu; destruct o as [ts|e'|]; [| |done].
  all: try (destruct (errors_is e' (ErrEqualVersionNumber "")) eqn:Ee; [|done]; injection H as <-; cbn [w_trusted]; eapply (update_timestamp_none _ _ _ _ Eu); [intros x [= <-]; exact Ee|done]).
  all: unfold lift in H; destruct (persist_metadata E c TIMESTAMP data _) as [i o]; injection H as <- _; cbn [w_trusted]; eapply (update_timestamp_none _ _ _ _ Eu); done.
Qed.
Lemma load_root_same : load_root E' c = load_root E c.
Proof. reflexivity. Qed.
Lemma load_targets_same role parent : load_targets E' c role parent = load_targets E c role parent.
Proof. reflexivity. Qed.
Lemma refresh_agree : agree (refresh E c) (refresh E' c).
Proof.
  intros w. unfold refresh. destruct (c_unsafe_local c).
  - unfold unsafe_refresh. apply agree_bind; [apply agree_refl|]. intros d1. apply agree_bind; [apply agree_refl|]. intros _. apply agree_bind; [apply agree_refl|]. intros d2.
    apply agree_bind; [apply upd_snapshot_agree|]. intros _. apply agree_refl.
  - unfold online_refresh. change (load_root E' c) with (load_root E c). change (load_timestamp E' c) with (load_timestamp E c). apply agree_bind_at; [apply agree_out_refl|]. intros [] w1 _. apply agree_bind_at; [apply agree_out_refl|]. intros [] w2 H.
    apply load_timestamp_none in H. apply agree_bind_at; [by apply load_snapshot_agree|]. intros [] w3 _. apply agree_out_refl.
Qed.

(** ** The search *)
Lemma short_perm {A} (l1 l2 : list (string * A)) : l1 ≡ₚ l2 -> NoDup (map fst l1) -> (forall p q, p ∈ l1 -> q ∈ l1 -> p.1 = q.1) -> l1 = l2.
Proof.
  intros Hp Hd H. destruct l1 as [|x [|y l]].
  - by apply Permutation_nil in Hp as ->.
  - by apply Permutation_length_1_inv in Hp as ->.
  - exfalso. cbn in Hd. apply NoDup_cons in Hd as [Hn _]. apply Hn. rewrite (H x y); [left|left|right; left].
Qed.
Lemma mlist_nodup {A} (m : gmap string A) : NoDup (map fst (map_to_list m)).
Proof. apply NoDup_fst_map_to_list. Qed.
Lemma no_choice_extends t t' path : extends t t' -> no_choice t' path -> no_choice t path.
Proof. intros He Hn role m n1 b1 n2 b2 Hm. eapply Hn. by apply He. Qed.
Lemma walk_extends fuel path visited todo w w' o : walk E c fuel path visited todo w = (w', o) -> (is_Some (t_targets (w_trusted w) !! "targets") \/ todo = [("targets", "root")]) -> extends (w_trusted w) (w_trusted w').
Proof. intros H Ht. destruct (walk_search E c fuel path visited todo (elements visited) w w' o) as [Hk _]; [exact H|intros; by rewrite elem_of_elements|done|]. by eapply ksteps_extends. Qed.
Lemma walk_same fuel path : forall visited todo w w' o, walk E c fuel path visited todo w = (w', o) -> (is_Some (t_targets (w_trusted w) !! "targets") \/ todo = [("targets", "root")]) ->
  no_choice (w_trusted w') path -> walk E' c fuel path visited todo w = (w', o).
Proof.
  induction fuel as [|fuel IH]; intros visited todo w w' o H Htop Hn; [exact H|]. cbn [walk] in *.
  destruct (skip_visited visited todo) as [|[role parent] rest] eqn:Esk; [exact H|].
  assert ((role, parent) ∈ todo) as Hin by (apply (skip_visited_in visited); rewrite Esk; left).
  rewrite load_targets_same. unfold sbind at 1. unfold sbind at 1 in H. destruct (load_targets E c role parent w) as [w1 [m|e|]] eqn:El; [|exact H..].
  assert (is_Some (t_targets (w_trusted w) !! "targets") \/ (role = "targets" /\ parent = "root")) as Hp.
  { destruct Htop as [?| ->]; [by left|]. right. apply elem_of_list_singleton in Hin. by injection Hin. }
  pose proof (load_keep E c role parent w w1 (Ok m) Hp El) as (_ & Htk & Hm). specialize (Hm m eq_refl).
  assert (is_Some (t_targets (w_trusted w1) !! "targets")) as Htop1. { destruct Hp as [Hp|[-> _]]; [by apply Htk|by exists m]. }
  destruct (mget (tg_targets (md_signed m)) path) as [tf|]; [exact H|]. destruct (tg_delegations (md_signed m)) as [d|] eqn:Ed; [|apply IH; [exact H|by left|done]].
  unfold sbind at 1, sout. unfold sbind at 1, sout in H. destruct (roles_for_target d path) as [roles|e|] eqn:Er; [|exact H..].
  unfold sbind at 1, lift, iterate. unfold sbind at 1, lift, iterate in H. cbn [w_trusted w_io e_order reordered mlist] in *.
  set (w2 := mkWorld (w_trusted w1) (log (io_disk (w_io w1)) (w_io w1) EvChoice)) in *.
  assert (extends (w_trusted w1) (w_trusted w')) as Hext.
  { destruct (take_children _) as [children term] eqn:Etc in H. change (w_trusted w1) with (w_trusted w2). eapply walk_extends; [exact H|by left]. }
  assert (e_order E bool (io_trace (w_io w1)) (map_to_list roles) = order bool (io_trace (w_io w1)) (map_to_list roles)) as Heq.
  { apply short_perm.
    - by rewrite e_order_perm, perm.
    - rewrite e_order_perm. apply mlist_nodup.
    - intros [n1 b1] [n2 b2]. rewrite e_order_perm. rewrite !elem_of_map_to_list. intros H1 H2. apply (delegated_spec m path d roles Ed Er) in H1. apply (delegated_spec m path d roles Ed Er) in H2.
      cbn. eapply Hn; [apply Hext; exact Hm|exact H1|exact H2]. }
  rewrite <- Heq. destruct (take_children _) as [children term]. apply IH; [exact H|by left|done].
Qed.
Lemma info_agree path w : no_choice (w_trusted (fst (get_target_info E c path w))) path -> agree_out (get_target_info E c path w) (get_target_info E' c path w).
Proof.
  unfold get_target_info. unfold sbind, get_trusted. change TARGETS with "targets". destruct (t_targets (w_trusted w) !! "targets") as [m|] eqn:Em.
  - cbn [sret]. unfold sret. destruct (pre_order_walk E c path w) as [w' o] eqn:Ew. cbn [fst]. intros Hn. unfold pre_order_walk in *. rewrite (walk_same _ _ _ _ _ _ _ Ew); [apply agree_out_refl|by right|done].
  - destruct (refresh_agree w) as [H|[H|[H1 H2]]]; destruct (refresh E c w) as [w1 o1], (refresh E' c w) as [w2 o2]; cbn [fst snd] in *.
    + subst o1. by left.
    + subst o2. right. by left.
    + subst w2. destruct o1 as [[]|e1|], o2 as [[]|e2|]; cbn in H2; try done; [|by right; right|by left].
      destruct (pre_order_walk E c path w1) as [w' o] eqn:Ew. cbn [fst]. intros Hn. unfold pre_order_walk in *. rewrite (walk_same _ _ _ _ _ _ _ Ew); [apply agree_out_refl|by right|done].
Qed.

(** ** Downloads *)
Lemma sbind_same {A B} (m : M A) (f g : A -> M B) w : (forall a w1, f a w1 = g a w1) -> sbind m f w = sbind m g w.
Proof. intros H. unfold sbind. destruct (m w) as [w1 [a|e|]]; [apply H|done..]. Qed.
Lemma iterate_hashes tf w : one_hash tf -> lift (iterate E' (tf_hashes tf)) w = lift (iterate E (tf_hashes tf)) w.
Proof.
  intros Hh. unfold lift, iterate. cbn [w_trusted w_io e_order reordered].
  assert (e_order E string (io_trace (w_io w)) (mlist (tf_hashes tf)) = order string (io_trace (w_io w)) (mlist (tf_hashes tf))) as <-; [|reflexivity].
  apply short_perm.
  - by rewrite e_order_perm, perm.
  - rewrite e_order_perm. destruct (tf_hashes tf) as [hs|]; [apply mlist_nodup|constructor].
  - intros [a1 h1] [a2 h2]. rewrite e_order_perm. intros H1 H2. apply mlist_elem in H1, H2. cbn [fst snd] in *. unfold mget in H1, H2.
    destruct (tf_hashes tf) as [hs|] eqn:Et; [|discriminate H1]. apply (Hh a1 h1 a2 h2); exists hs; by split.
Qed.
Lemma download_same tf fp bu w : (c_prefix_hash c = true -> one_hash tf) -> download_target E' c tf fp bu w = download_target E c tf fp bu w.
Proof.
  intros Hh. unfold download_target. apply sbind_same. intros p w1. apply sbind_same. intros u w2. apply sbind_same. intros t w3.
  destruct (c_prefix_hash c); [|rewrite andb_false_r; reflexivity]. rewrite andb_true_r. destruct (consistent t); [|reflexivity].
  unfold sbind at 1 2. unfold sbind at 4 5. rewrite iterate_hashes by (by apply Hh). reflexivity.
Qed.

(** ** Sessions *)
Lemma ask_extends a w w' r : ask E c a w = (w', r) -> extends (w_trusted w) (w_trusted w').
Proof.
  destruct a as [|p|tf p u|tf p]; cbn [ask]; intros H.
  - destruct (refresh E c w) as [w1 o] eqn:Er. injection H as <- _. apply refresh_steps in Er as [Hk _]. by eapply ksteps_extends.
  - destruct (get_target_info E c p w) as [w1 o] eqn:Er. injection H as <- _. apply get_target_info_steps in Er. by eapply ksteps_extends.
  - destruct (download_target E c tf p u w) as [w1 o] eqn:Er. injection H as <- _. apply download_target_run in Er as [-> _]. by intros ???.
  - unfold lift in H. destruct (find_cached_target E c tf p (w_io w)) as [i o]. injection H as <- _. by intros ???.
Qed.
Lemma ask_agree a w w1 r1 w2 r2 : ask E c a w = (w1, r1) -> ask E' c a w = (w2, r2) -> choiceless c (w_trusted w1) a -> panics r1 \/ panics r2 \/ (w1 = w2 /\ alike r1 r2).
Proof.
  unfold panics. destruct a as [|p|tf p u|tf p]; cbn [ask choiceless]; intros H1 H2 Hc.
  - pose proof (refresh_agree w) as Ha. destruct (refresh E c w) as [w1' o1], (refresh E' c w) as [w2' o2]. injection H1 as <- <-. injection H2 as <- <-. unfold agree_out in Ha. cbn [fst snd] in Ha.
    destruct Ha as [->|[->|[-> Ha]]]; [by left; left|by right; left; left|by right; right].
  - pose proof (info_agree p w) as Ha. destruct (get_target_info E c p w) as [w1' o1], (get_target_info E' c p w) as [w2' o2]. injection H1 as <- <-. injection H2 as <- <-. unfold agree_out in Ha. cbn [fst snd] in Ha.
    destruct (Ha Hc) as [->|[->|[-> Ha']]]; [left; right; by left|right; left; right; by left|by right; right].
  - rewrite download_same in H2 by done. destruct (download_target E c tf p u w) as [w1' o1]. injection H1 as <- <-. injection H2 as <- <-. right. right. split; [done|apply alike_refl].
  - change (find_cached_target E' c tf p) with (find_cached_target E c tf p) in H2. destruct (lift (find_cached_target E c tf p) w) as [w1' o1]. injection H1 as <- <-. injection H2 as <- <-. right. right. split; [done|apply alike_refl].
Qed.
Lemma ask_all_step F a l w w1 r w2 rs : ask F c a w = (w1, r) -> ask_all F c (a :: l) w = (w2, rs) -> (panics r /\ w2 = w1 /\ rs = [r]) \/ (exists rs', ask_all F c l w1 = (w2, rs') /\ rs = r :: rs').
Proof.
  intros Ha H. cbn [ask_all] in H. rewrite Ha in H. unfold panics.
  destruct r as [[]|[]|[]]; try (right; destruct (ask_all F c l w1) as [w3 rs']; injection H as <- <-; by eexists); left; injection H as <- <-; auto.
Qed.
Lemma ask_all_extends l : forall w w' rs, ask_all E c l w = (w', rs) -> extends (w_trusted w) (w_trusted w').
Proof.
  induction l as [|a l IH]; intros w w' rs H; [injection H as <- _; by intros ???|]. destruct (ask E c a w) as [w1 r] eqn:Ea. pose proof (ask_extends _ _ _ _ Ea) as He.
  destruct (ask_all_step _ _ _ _ _ _ _ _ Ea H) as [(_ & -> & _)|(rs' & H' & _)]; [done|]. eapply extends_trans; [exact He|]. by eapply IH.
Qed.
Lemma sessions_agree l : forall w w1 rs1 w2 rs2, ask_all E c l w = (w1, rs1) -> ask_all E' c l w = (w2, rs2) -> Forall (choiceless c (w_trusted w1)) l -> Forall (fun r => ~ panics r) rs1 -> Forall (fun r => ~ panics r) rs2 ->
  w1 = w2 /\ Forall2 alike rs1 rs2.
Proof.
  induction l as [|a l IH]; intros w w1 rs1 w2 rs2 H1 H2 Hc Hp1 Hp2; [injection H1 as <- <-; injection H2 as <- <-; by split|].
  destruct (ask E c a w) as [v1 r1] eqn:A1. destruct (ask E' c a w) as [v2 r2] eqn:A2.
  destruct (ask_all_step _ _ _ _ _ _ _ _ A1 H1) as [(Hx & _ & ->)|(rs1' & H1' & ->)]; [by apply Forall_inv in Hp1|].
  destruct (ask_all_step _ _ _ _ _ _ _ _ A2 H2) as [(Hx & _ & ->)|(rs2' & H2' & ->)]; [by apply Forall_inv in Hp2|].
  pose proof (Forall_inv Hp1) as N1. pose proof (Forall_inv Hp2) as N2. pose proof (Forall_inv Hc) as Hca.
  destruct (ask_agree a w v1 r1 v2 r2 A1 A2) as [?|[?|[<- Hr]]]; [|done|done|].
  - pose proof (ask_all_extends _ _ _ _ H1') as He. destruct a; try done. cbn [choiceless] in *. by eapply no_choice_extends.
  - destruct (IH _ _ _ _ _ H1' H2') as [-> Hrs]; [by apply Forall_inv_tail in Hc|by apply Forall_inv_tail in Hp1|by apply Forall_inv_tail in Hp2|]. split; [done|]. by constructor.
Qed.
End Order.
