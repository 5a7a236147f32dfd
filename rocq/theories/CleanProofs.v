(** * filepath.Clean and filepath.Join: cleaning twice, joining with ".." *)
From stdpp Require Import base gmap strings list.
From Coq Require Import ZArith Lia Ascii String.
From Verif Require Import GoBase GoStr StrProofs PathProofs.
Open Scope Z_scope.

(** ** The stack of segments kept by Clean *)
(** proper names on top of some ".." (of none if the path is rooted) *)
Definition stack_ok (rooted : bool) (st : list string) : Prop :=
  exists ps k, st = ps ++ replicate k ".." /\ Forall plain_name ps /\ (rooted = true -> k = 0%nat).
Lemma dotdot_not_plain : ~ plain_name "..".
Proof. intros (_ & _ & H & _). by apply H. Qed.
Lemma step_ok rooted st x : stack_ok rooted st -> no_slash x -> stack_ok rooted (clean_step rooted st x).
Proof.
  intros (ps & k & -> & Hp & Hk) Hx. unfold clean_step. destruct (String.eqb_spec x ""); [by exists ps, k|]. destruct (String.eqb_spec x "."); [by exists ps, k|]. cbn [orb].
  destruct (String.eqb_spec x "..") as [-> |Hn].
  - destruct ps as [|p ps]; cbn [app].
    + destruct k as [|k]; cbn [replicate].
      * destruct rooted; [by exists [], 0%nat|]. exists [], 1%nat. done.
      * destruct rooted; [by discriminate Hk|]. rewrite String.eqb_refl. exists [], (S (S k)). done.
    + apply Forall_cons in Hp as [Hp1 Hp]. destruct (String.eqb_spec p "..") as [-> |_]; [by apply dotdot_not_plain in Hp1|]. by exists ps, k.
  - exists (x :: ps), k. split; [done|]. split; [|done]. apply Forall_cons. split; [|done]. done.
Qed.
Lemma fold_ok rooted l : forall st, stack_ok rooted st -> Forall no_slash l -> stack_ok rooted (fold_left (clean_step rooted) l st).
Proof. induction l as [|x l IH]; intros st Hs Hl; [done|]. apply Forall_cons in Hl as [Hx Hl]. cbn. apply IH; [by apply step_ok|done]. Qed.
Lemma push_plain rooted ps : forall st, Forall plain_name ps -> fold_left (clean_step rooted) ps st = rev ps ++ st.
Proof.
  induction ps as [|p ps IH]; intros st H; [done|]. apply Forall_cons in H as [(H1 & H2 & H3 & H4) H]. cbn [fold_left rev]. rewrite IH by done. rewrite <- app_assoc. f_equal. cbn [app]. unfold clean_step.
  by rewrite (proj2 (String.eqb_neq p "") H1), (proj2 (String.eqb_neq p ".") H2), (proj2 (String.eqb_neq p "..") H3).
Qed.
Lemma push_dots k : forall j, fold_left (clean_step false) (replicate k "..") (replicate j "..") = replicate (k + j) "..".
Proof.
  induction k as [|k IH]; intros j; [done|]. cbn [replicate fold_left]. replace (clean_step false (replicate j "..") "..") with (replicate (S j) "..") by (by destruct j). rewrite IH. f_equal. lia.
Qed.
Lemma rev_dots k : rev (replicate k "..") = replicate k "..".
Proof.
  assert (forall j, replicate j ".." ++ [".."] = replicate (S j) "..") as H by (intros j; induction j as [|j IH]; cbn; [done|]; f_equal; exact IH).
  induction k as [|k IH]; [done|]. cbn [replicate rev]. rewrite IH. apply H.
Qed.
Lemma refold rooted st : stack_ok rooted st -> fold_left (clean_step rooted) (rev st) [] = st.
Proof.
  intros (ps & k & -> & Hp & Hk). rewrite rev_app_distr, fold_left_app.
  assert (fold_left (clean_step rooted) (rev (replicate k "..")) [] = replicate k "..") as ->.
  { rewrite rev_dots. destruct rooted; [by rewrite (Hk eq_refl)|]. pose proof (push_dots k 0) as Hd. rewrite Nat.add_0_r in Hd. exact Hd. }
  rewrite push_plain by (by apply Forall_rev). by rewrite rev_involutive.
Qed.
Lemma split_no_slash s : Forall no_slash (split_on "/" s).
Proof.
  induction s as [|c s IH]; cbn; [repeat constructor|]. destruct (Ascii.eqb_spec c "/") as [-> |Hc].
  - apply Forall_cons. done.
  - destruct (split_on "/" s) as [|z zs].
    + apply Forall_cons. split; [|constructor]. unfold no_slash, s1. cbn [string_any]. destruct (Ascii.eqb_spec "/" c); [congruence|done].
    + apply Forall_cons in IH as [Hz Hzs]. apply Forall_cons. split; [|done]. unfold no_slash in *. cbn [string_any]. destruct (Ascii.eqb_spec "/" c); [congruence|done].
Qed.
Lemma split_join l : l <> [] -> Forall no_slash l -> split_on "/" (join_str "/" l) = l.
Proof.
  induction l as [|x l IH]; [done|]. intros _ [Hx Hl]%Forall_cons. destruct l as [|y l]; cbn [join_str]; [by apply split_on_slash_free|].
  rewrite split_on_app, split_on_slash_free by done. cbn [join_str] in IH. rewrite IH by done. done.
Qed.
Lemma stack_no_slash rooted st : stack_ok rooted st -> Forall no_slash st.
Proof.
  intros (ps & k & -> & Hp & _). apply Forall_app. split; [eapply Forall_impl; [exact Hp|]; by intros x (_ & _ & _ & ?)|]. clear. induction k; cbn; [constructor|]. apply Forall_cons. done.
Qed.
Lemma stack_nonempty rooted st : stack_ok rooted st -> Forall (fun x => x <> "") st.
Proof.
  intros (ps & k & -> & Hp & _). apply Forall_app. split; [eapply Forall_impl; [exact Hp|]; by intros x (? & _)|]. clear. induction k; cbn; [constructor|]. apply Forall_cons. done.
Qed.
(** the segments of the cleaned path *)
Definition segs (p : string) : list string := rev (fold_left (clean_step (has_prefix "/" p)) (split_on "/" p) []).
Lemma segs_stack p : stack_ok (has_prefix "/" p) (fold_left (clean_step (has_prefix "/" p)) (split_on "/" p) []).
Proof. apply fold_ok; [by exists [], 0%nat|apply split_no_slash]. Qed.
Lemma clean_def p : p <> "" -> path_clean p = if has_prefix "/" p then "/" +:+ join_str "/" (segs p) else if String.eqb (join_str "/" (segs p)) "" then "." else join_str "/" (segs p).
Proof. intros H. unfold path_clean. by rewrite (proj2 (String.eqb_neq p "") H). Qed.
Lemma join_nonempty x l : x <> "" -> join_str "/" (x :: l) <> "".
Proof. destruct l as [|y l]; cbn [join_str]; [done|]. intros Hx H. by apply app_eq_nil_s in H as [? _]. Qed.
Lemma no_slash_prefix x s : x <> "" -> no_slash x -> has_prefix "/" (x +:+ s) = false.
Proof. destruct x as [|c x]; [done|]. intros _. unfold no_slash. cbn [string_any]. intros [H _]%orb_false_iff. rewrite app_cons_s. unfold has_prefix. cbn [strip_prefix]. by rewrite H. Qed.
Lemma app_nil_r_s s : s +:+ "" = s.
Proof. induction s as [|c s IH]; [done|]. rewrite app_cons_s. by rewrite IH. Qed.
Lemma path_clean_idem p : path_clean (path_clean p) = path_clean p.
Proof.
  destruct (decide (p = "")) as [-> |Hp]; [done|]. rewrite (clean_def p Hp).
  pose proof (segs_stack p) as Hst. unfold segs. set (st := fold_left _ (split_on "/" p) []) in *. destruct (has_prefix "/" p) eqn:Hr.
  - unfold path_clean. change (String.eqb ("/" +:+ join_str "/" (rev st)) "") with false. change (has_prefix "/" ("/" +:+ join_str "/" (rev st))) with true. cbv iota zeta.
    change (split_on "/" ("/" +:+ join_str "/" (rev st))) with ("" :: split_on "/" (join_str "/" (rev st))). cbn [fold_left]. change (clean_step true [] "") with (@nil string).
    destruct (decide (rev st = [])) as [He|He].
    + rewrite He. done.
    + rewrite split_join; [|done|apply Forall_rev; by eapply stack_no_slash]. by rewrite refold.
  - pose proof (stack_nonempty _ _ Hst) as Hne. pose proof (stack_no_slash _ _ Hst) as Hns. apply Forall_rev in Hne, Hns. destruct (rev st) as [|x l] eqn:He; [done|].
    apply Forall_cons in Hne as [Hx Hne]. rewrite (proj2 (String.eqb_neq _ "") (join_nonempty x l Hx)).
    assert (has_prefix "/" (join_str "/" (x :: l)) = false) as Hf.
    { apply Forall_cons in Hns as [Hnx _]. destruct l as [|y l]; cbn [join_str]; [rewrite <- (app_nil_r_s x)|]; by apply no_slash_prefix. }
    unfold path_clean at 1. rewrite (proj2 (String.eqb_neq _ "") (join_nonempty x l Hx)), Hf, split_join by done. rewrite <- He, refold by done. rewrite He. by rewrite (proj2 (String.eqb_neq _ "") (join_nonempty x l Hx)).
Qed.
Lemma path_join_clean l : path_clean (path_join l) = path_join l \/ path_join l = "".
Proof. unfold path_join. destruct (filter _ l); [by right|left; apply path_clean_idem]. Qed.

(** ** Joining a name to a directory *)
Lemma in_dir_clean d n : plain_name n -> path_clean (in_dir d n) = in_dir d n.
Proof. intros Hn. rewrite <- path_join_plain by done. destruct (path_join_clean [d; n]) as [?|H]; [done|]. rewrite path_join_plain in H by done. rewrite in_dir_prefix in H. apply app_eq_nil_s in H as [_ H]. by destruct Hn. Qed.
Lemma last_slash d : exists s, dir_prefix d = s /\ (s = "" \/ exists t, s = t +:+ "/").
Proof. eexists. split; [done|]. unfold dir_prefix. repeat case_match; subst; try (by left); right; try (by exists ""); by eexists. Qed.
Lemma snoc_inj_string a b x y : a +:+ s1 x = b +:+ s1 y -> a = b /\ x = y.
Proof.
  revert b. induction a as [|c a IH]; intros [|c' b]; rewrite ?app_nil_l_s, ?app_cons_s.
  - by intros [= ->].
  - intros [= -> H]. by destruct b.
  - intros [= -> H]. by destruct a.
  - intros [= -> H]. apply IH in H as [-> ->]. done.
Qed.
Lemma plain_not_end n t : plain_name n -> n <> t +:+ "/".
Proof. intros (_ & _ & _ & H) ->. apply no_slash_app in H as [_ H]. done. Qed.
Lemma in_dir_not_special d n : plain_name n -> in_dir d n <> "." /\ in_dir d n <> "/".
Proof.
  intros Hn. rewrite in_dir_prefix. destruct (last_slash d) as (s & -> & [-> |(t & ->)]).
  - rewrite app_nil_l_s. destruct Hn as (H1 & H2 & H3 & H4). split; [done|]. by intros ->.
  - rewrite app_assoc_s. split; intros H.
    + destruct t as [|c t]; [done|]. rewrite app_cons_s in H. injection H as -> H. by apply app_eq_nil_s in H as [_ H].
    + destruct t as [|c t].
      * rewrite app_nil_l_s in H. change ("/" +:+ n) with (String "/" n) in H. injection H as H. by destruct Hn.
      * rewrite app_cons_s in H. injection H as -> H. by apply app_eq_nil_s in H as [_ H].
Qed.
(** directories made by Join are prefixes of the files in them *)
Lemma dir_prefix_join d n : plain_name n -> dir_prefix (path_join [d; n]) = dir_prefix d +:+ n +:+ "/".
Proof.
  intros Hn. rewrite path_join_plain by done. destruct (in_dir_not_special d n Hn) as [H1 H2]. unfold dir_prefix at 1. rewrite in_dir_clean by done.
  rewrite <- (app_assoc_s (dir_prefix d) n), <- in_dir_prefix. repeat case_match; done.
Qed.
(** two levels *)
Lemma join_join d n f : plain_name n -> plain_name f -> path_join [path_join [d; n]; f] = dir_prefix d +:+ n +:+ "/" +:+ f.
Proof. intros Hn Hf. rewrite (path_join_plain (path_join [d; n])) by done. rewrite in_dir_prefix, dir_prefix_join by done. by rewrite !app_assoc_s. Qed.
Lemma join_slash d n f : plain_name n -> plain_name f -> path_join [d; n] +:+ "/" +:+ f = path_join [path_join [d; n]; f].
Proof. intros Hn Hf. rewrite join_join by done. rewrite path_join_plain by done. rewrite in_dir_prefix. by rewrite !app_assoc_s. Qed.

(** ** Joining "." and ".." *)
Lemma has_prefix_join d s : d <> "" -> has_prefix "/" (d +:+ s) = has_prefix "/" d.
Proof. apply (has_prefix_app_ne "/"%char). Qed.
Lemma clean_rooted q : has_prefix "/" q = true -> path_clean q = "/" +:+ join_str "/" (segs q).
Proof. intros H. rewrite clean_def by (by intros ->). by rewrite H. Qed.
Lemma segs_rooted q : has_prefix "/" q = true -> segs q = rev (fold_left (clean_step true) (split_on "/" q) []).
Proof. unfold segs. by intros ->. Qed.
Lemma segs_clean q : has_prefix "/" q = true -> segs (path_clean q) = segs q.
Proof.
  intros Hr. pose proof (segs_stack q) as Hst. rewrite (clean_rooted q Hr), (segs_rooted q Hr). rewrite Hr in Hst. set (st := fold_left _ (split_on "/" q) []) in *.
  rewrite segs_rooted by done. f_equal. change (split_on "/" ("/" +:+ join_str "/" (rev st))) with ("" :: split_on "/" (join_str "/" (rev st))). cbn [fold_left]. change (clean_step true [] "") with (@nil string).
  destruct (decide (rev st = [])) as [He|He].
  - rewrite He. apply (f_equal (@rev _)) in He. rewrite rev_involutive in He. by rewrite He.
  - rewrite split_join; [|done|apply Forall_rev; by eapply stack_no_slash]. by apply refold.
Qed.
Lemma clean_slash_dot d : d <> "" -> path_clean (d +:+ "/" +:+ ".") = path_clean d.
Proof.
  intros Hd. assert (d +:+ "/" +:+ "." <> "") as Hne by (intros H; by apply app_eq_nil_s in H as [_ H]). rewrite !clean_def by done.
  assert (segs (d +:+ "/" +:+ ".") = segs d) as -> by (unfold segs; rewrite has_prefix_join, split_on_app, fold_left_app by done; done). by rewrite has_prefix_join.
Qed.
Lemma path_join_dot d : d <> "" -> path_join [d; "."] = path_clean d.
Proof. intros Hd. unfold path_join. rewrite !filter_cons_True by done. rewrite filter_nil. cbn [join_str]. by apply clean_slash_dot. Qed.
Lemma path_join_empty d : d <> "" -> path_join [d; ""] = path_clean d.
Proof. intros Hd. unfold path_join. rewrite filter_cons_True by done. rewrite filter_cons_False by (intros Hx; by apply Hx). rewrite filter_nil. done. Qed.
Lemma path_join_dotdot d n : has_prefix "/" d = true -> plain_name n -> path_join [path_join [d; n]; ".."] = path_clean d.
Proof.
  intros Hr Hn. assert (d <> "") as Hd by (by intros ->). assert (has_prefix "/" (d +:+ "/" +:+ n) = true) as Hr' by (by rewrite has_prefix_join).
  assert (path_join [d; n] = path_clean (d +:+ "/" +:+ n)) as Hj by (unfold path_join; rewrite !filter_cons_True by (done || apply Hn); rewrite filter_nil; done).
  assert (path_join [d; n] <> "") as Hjn by (rewrite Hj, clean_rooted by done; done).
  unfold path_join at 1. rewrite !filter_cons_True by done. rewrite filter_nil. cbn [join_str].
  assert (has_prefix "/" (path_join [d; n]) = true) as Hjr by (rewrite Hj, clean_rooted by done; done).
  assert (has_prefix "/" (path_join [d; n] +:+ "/" +:+ "..") = true) as Hjr' by (by rewrite has_prefix_join).
  rewrite !clean_rooted by done. do 2 f_equal. pose proof (segs_clean _ Hr') as Hs. rewrite <- Hj in Hs. rewrite !segs_rooted in * by done.
  apply (f_equal (@rev _)) in Hs. rewrite !rev_involutive in Hs. f_equal. rewrite split_on_app, fold_left_app, Hs. rewrite clean_segs by done. cbn [fold_left split_on]. unfold clean_step at 1. cbn.
  destruct (String.eqb_spec n "..") as [-> |_]; [|done]. by apply dotdot_not_plain in Hn.
Qed.
Lemma clean_not_below d s : (2 <= String.length s)%nat -> path_clean d <> dir_prefix d +:+ s.
Proof.
  intros Hl H. apply (f_equal String.length) in H. rewrite app_len_s in H. unfold dir_prefix in H. revert H. repeat case_match; cbn [String.length]; rewrite ?app_len_s; cbn [String.length]; lia.
Qed.
