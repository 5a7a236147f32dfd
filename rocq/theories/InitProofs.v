(** * The example client: init and reset (proofs for C100, C102) *)
From stdpp Require Import base gmap strings list.
From Coq Require Import ZArith Ascii String Lia.
From Verif Require Import GoBase GoStr Json GoTime Types Marshal Keys Metadata TrustedMetadata Fetcher Updater Cli SpecSig SpecBasic SpecTrusted SpecUpdater SpecHistory SpecCli
  StrProofs PathProofs CleanProofs DelegProofs SigProofs BasicProofs SerialProofs IndentProofs FilesProofs TrustedProofs UpdaterProofs EventProofs RefreshProofs ApiProofs BlockProofs ClaimProofs FinalProofs HonestProofs HistoryProofs CliProofs.
Open Scope Z_scope.

(** ** Documents cut short *)
Lemma str_take_all s : str_take (String.length s) s = s.
Proof. induction s as [|c s IH]; [done|]. cbn. by rewrite IH. Qed.
Lemma cut_document (data : string) (r r' : metadata root_t) n : has_prefix "{" data = true -> document data r -> document (str_take n data) r' -> r' = r.
Proof.
  intros Hp Hr Hr'. destruct data as [|c data]; [done|]. assert (c = "{"%char) as -> by (apply has_prefix_spec in Hp as (t & [= -> _]); done).
  destruct (str_take_cases n (String "{" data)) as [E|(x & Hx & E)]; [rewrite E in Hr'; by eapply document_root|].
  revert Hr Hr'. unfold document, from_bytes. destruct (str_take n (String "{" data)) as [|c' q] eqn:Eq.
  { intros _ [Hx' _]. done. }
  rewrite E in *. cbn in E. injection E as <- E. destruct (parse_json (String "{" q +:+ x)) as [j|] eqn:Ej; [|by intros [[=] _]]. destruct (parse_json (String "{" q)) as [j'|] eqn:Ej'; [|by intros _ [[=] _]].
  destruct (prefix_read _ _ _ _ Ej Ej') as [_ ->]. intros [-> _] [[= ->] _]. done.
Qed.

(** ** Files in a directory *)
Lemma below_in dir (d : disk) q : q ∈ below dir d <-> is_Some (d !! q) /\ exists s, q = dir +:+ "/" +:+ s.
Proof.
  unfold below. rewrite elem_of_list_In, filter_In, <- elem_of_list_In, has_prefix_spec. assert (q ∈ map fst (map_to_list d) <-> is_Some (d !! q)) as ->.
  { rewrite elem_of_list_fmap. split; [intros ([k x] & -> & Hx%elem_of_map_to_list); by exists x|intros [x Hx]; exists (q, x); split; [done|by apply elem_of_map_to_list]]. }
  split; intros [? (s & ->)]; (split; [done|]); exists s; by rewrite app_assoc_s.
Qed.
Lemma below_none dir (d : disk) : below dir d = [] <-> forall s, d !! (dir +:+ "/" +:+ s) = None.
Proof.
  split.
  - intros Hb s. destruct (d !! (dir +:+ "/" +:+ s)) as [x|] eqn:E; [|done]. assert (dir +:+ "/" +:+ s ∈ below dir d) as Hin by (apply below_in; split; [by exists x|by exists s]). rewrite Hb in Hin. by apply elem_of_nil in Hin.
  - intros H. destruct (below dir d) as [|q l] eqn:E; [done|]. assert (q ∈ below dir d) as Hin by (rewrite E; by left). apply below_in in Hin as [[x Hx] (s & ->)]. by rewrite H in Hx.
Qed.

(** ** Answers *)
Definition lower_char (c : ascii) : ascii := if is_upper c then zb (bz c + 32) else c.
Lemma lower_is c t : t ∈ ["y"; "e"; "s"; "n"; "o"]%char -> lower_char c = t <-> c = t \/ c = zb (bz t - 32).
Proof. intros Ht. rewrite !elem_of_cons, elem_of_nil in Ht. destruct c as [[] [] [] [] [] [] [] []], Ht as [-> |[-> |[-> |[-> |[-> |[]]]]]]; vm_compute; (split; [intros; (discriminate || (left; reflexivity) || (right; reflexivity))|intros [?|?]; (discriminate || reflexivity)]). Qed.
Lemma lower_cons c s t : lower (String c s) = t <-> exists t1 t2, t = String t1 t2 /\ lower_char c = t1 /\ lower s = t2.
Proof. cbn. split; [intros <-; eauto|intros (t1 & t2 & -> & <- & <-); done]. Qed.
Lemma lower_nil s : lower s = "" <-> s = "".
Proof. destruct s; done. Qed.
Lemma lower_one a c : c ∈ ["y"; "n"]%char -> lower a = String c "" <-> a = String c "" \/ a = String (zb (bz c - 32)) "".
Proof.
  intros Hc. destruct a as [|x a]; [split; [done|intros [?|?]; done]|]. rewrite lower_cons. assert (c ∈ ["y"; "e"; "s"; "n"; "o"]%char) as Hc' by (rewrite !elem_of_cons, elem_of_nil in *; tauto). split.
  - intros (t1 & t2 & [= <- <-] & Hx & Ha). apply lower_nil in Ha as ->. apply lower_is in Hx as [-> | ->]; [by left|by right|done].
  - intros [[= -> ->]|[= -> ->]]; eexists _, _; (split; [done|]); (split; [|done]); apply lower_is; auto.
Qed.
Lemma yes_lower a : a ∈ says_yes <-> lower a = "y" \/ lower a = "yes".
Proof.
  split.
  - intros H. unfold says_yes in H. repeat (apply elem_of_cons in H as [-> |H]; [first [left; reflexivity|right; reflexivity]|]). by apply elem_of_nil in H.
  - intros [H|H].
    + apply lower_one in H as [-> | ->]; [unfold says_yes; rewrite !elem_of_cons; auto|unfold says_yes; rewrite !elem_of_cons; vm_compute; auto|set_solver].
    + destruct a as [|c1 a]; [done|]. apply lower_cons in H as (t1 & t2 & [= <- <-] & H1 & H). destruct a as [|c2 a]; [done|]. apply lower_cons in H as (t1 & t2 & [= <- <-] & H2 & H). destruct a as [|c3 a]; [done|]. apply lower_cons in H as (t1 & t2 & [= <- <-] & H3 & H). apply lower_nil in H as ->.
      apply lower_is in H1 as [-> | ->]; [..|set_solver]; (apply lower_is in H2 as [-> | ->]; [..|set_solver]); (apply lower_is in H3 as [-> | ->]; [..|set_solver]); unfold says_yes; rewrite !elem_of_cons; vm_compute; tauto.
Qed.
Lemma no_lower a : a ∈ says_no <-> lower a = "n" \/ lower a = "no".
Proof.
  split.
  - intros H. unfold says_no in H. repeat (apply elem_of_cons in H as [-> |H]; [first [left; reflexivity|right; reflexivity]|]). by apply elem_of_nil in H.
  - intros [H|H].
    + apply lower_one in H as [-> | ->]; [unfold says_no; rewrite !elem_of_cons; auto|unfold says_no; rewrite !elem_of_cons; vm_compute; auto|set_solver].
    + destruct a as [|c1 a]; [done|]. apply lower_cons in H as (t1 & t2 & [= <- <-] & H1 & H). destruct a as [|c2 a]; [done|]. apply lower_cons in H as (t1 & t2 & [= <- <-] & H2 & H). apply lower_nil in H as ->.
      apply lower_is in H1 as [-> | ->]; [..|set_solver]; (apply lower_is in H2 as [-> | ->]; [..|set_solver]); unfold says_no; rewrite !elem_of_cons; vm_compute; tauto.
Qed.
Lemma ask_reply l b l' : ask l = Ok (b, l') <-> reply l b l'.
Proof.
  split.
  - induction l as [|[a|] l IH]; cbn; [done| |done]. destruct (String.eqb_spec (lower a) "y") as [Hy|Hy]; cbn [orb]; [intros [= <- <-]; constructor; apply yes_lower; by left|]. destruct (String.eqb_spec (lower a) "yes") as [Hy2|Hy2]; [intros [= <- <-]; constructor; apply yes_lower; by right|].
    destruct (String.eqb_spec (lower a) "n") as [Hn|Hn]; cbn [orb]; [intros [= <- <-]; constructor; apply no_lower; by left|]. destruct (String.eqb_spec (lower a) "no") as [Hn2|Hn2]; [intros [= <- <-]; constructor; apply no_lower; by right|].
    intros H. constructor; [rewrite yes_lower; tauto|rewrite no_lower; tauto|by apply IH].
  - induction 1 as [a l H|a l H|a l b l' H1 H2 _ IH]; cbn.
    + apply yes_lower in H as [-> | ->]; done.
    + apply no_lower in H as [-> | ->]; done.
    + rewrite yes_lower in H1. rewrite no_lower in H2. rewrite !(proj2 (String.eqb_neq _ _)) by tauto. exact IH.
Qed.

Section Init.
Context {CR : Crypto} (E : env).
(** ** init *)
Lemma init_download_ok url now i i' cwd : e_cwd E = Some cwd -> has_prefix "/" cwd = true -> init_cmd E url "" now i = (i', Ok tt) ->
  exists data r u n evs, happened i i' evs /\ url_join E url "1.root.json" = Ok u /\ EvGet u n (Ok data) ∈ evs /\ io_disk i' = <[trusted_root_file cwd := data]> (io_disk i) /\ document data r /\ root_signs r "root" r.
Proof.
  intros Hcwd Hr H. apply init_cmd_run in H. inversion H as [o evs He Hs Ho|o cwd' data evs0 e evs1 _ Hcwd' Hb He Hs0 Hs1 (u & n & Hu & Hin) Hcase Hx Hsome|]; subst; [done| |done].
  assert (cwd' = cwd) as -> by congruence. specialize (Hx eq_refl). rewrite absolute_rooted in * by by apply rooted_root_file.
  destruct Hcase as [-> |[[_ Hc]|[_ Hc]]]; [|done..]. assert (replay (io_disk i) (evs0 ++ [EvWrite (trusted_root_file cwd) data]) = <[trusted_root_file cwd := data]> (io_disk i)) as Hd.
  { unfold replay. rewrite fold_left_app. fold (replay (io_disk i) evs0). by rewrite silent_replay. }
  rewrite Hd in Hx. destruct (Hx data) as (r & Hdoc & Hrs); [apply (lookup_insert (M := gmap string))|]. exists data, r, u, n, (evs0 ++ [EvWrite (trusted_root_file cwd) data] ++ evs1).
  split; [apply He|]. split; [done|]. split; [apply elem_of_app; by left|]. split; [|done]. destruct He as [_ ->]. rewrite app_assoc. unfold replay at 1. rewrite fold_left_app. fold (replay (io_disk i) (evs0 ++ [EvWrite (trusted_root_file cwd) data])). rewrite Hd. by apply silent_replay.
Qed.
Lemma init_file_ok url path now i i' cwd : e_cwd E = Some cwd -> path <> "" -> init_cmd E url path now i = (i', Ok tt) ->
  exists data r, io_disk i !! absolute cwd path = Some data /\ document data r /\ root_signs r "root" r /\ io_disk i' = <[path_join [metadata_dir cwd; path] := data]> (io_disk i).
Proof.
  intros Hcwd Hp H. apply init_cmd_run in H. inversion H as [o evs He Hs Ho|o cwd' data evs0 e evs1 Hp' |o cwd' data evs0 e r _ Hcwd' Hb He Hs0 Hd Hdoc Hrs Hcase]; subst; [done..|].
  assert (cwd' = cwd) as -> by congruence. exists data, r. repeat (split; [done|]). destruct Hcase as [[-> _]|[[_ Hc]|[_ Hc]]]; [|done..].
  destruct He as [_ ->]. unfold replay. rewrite fold_left_app. fold (replay (io_disk i) evs0). by rewrite silent_replay.
Qed.
(** whatever happens to init: the files afterwards *)
Lemma init_effect url path now i i' o evs d cwd : e_cwd E = Some cwd -> init_cmd E url path now i = (i', o) -> happened i i' evs -> crash (io_disk i) evs d ->
  d = io_disk i \/ (forall s, io_disk i !! (metadata_dir cwd +:+ "/" +:+ s) = None) /\
    ((path = "" /\ exists u n data k, url_join E url "1.root.json" = Ok u /\ EvGet u n (Ok data) ∈ evs /\ d = <[trusted_root_file cwd := str_take k data]> (io_disk i)) \/
     (path <> "" /\ exists data r k, io_disk i !! absolute cwd path = Some data /\ document data r /\ root_signs r "root" r /\ d = <[path_join [metadata_dir cwd; path] := str_take k data]> (io_disk i))).
Proof.
  intros Hcwd H Hh Hc. apply init_cmd_run in H.
  assert (forall l, explains i i' l -> evs = l) as Hl. { intros l [He _]. unfold happened in *. rewrite He in Hh. by apply app_inv_head in Hh. }
  inversion H as [o' evs' He Hs Ho|o' cwd' data evs0 e evs1 Hp Hcwd' Hb He Hs0 Hs1 (u & n & Hu & Hin) Hcase Hx Hsome|o' cwd' data evs0 e r Hp Hcwd' Hb He Hs0 Hd Hdoc Hrs Hcase]; subst.
  - left. rewrite (Hl _ He) in Hc. by apply silent_crash in Hc.
  - assert (cwd' = cwd) as -> by congruence. rewrite (Hl _ He) in Hc |- *. apply crash_app in Hc as [Hc|Hc]; [left; by apply silent_crash in Hc|]. rewrite silent_replay in Hc by done.
    apply crash_app in Hc as [Hc|Hc].
    2: { apply silent_crash in Hc; [|done]. rewrite Hc. clear Hc Hx Hsome. destruct Hcase as [-> |[[[k ->] _]|[-> _]]]; [right|right|by left]; (split; [by apply below_none|]); left; (split; [done|]); exists u, n, data.
         - exists (String.length data). rewrite str_take_all. split; [done|]. split; [apply elem_of_app; by left|done].
         - exists k. split; [done|]. split; [apply elem_of_app; by left|done]. }
    apply crash_one in Hc as [-> |Hc]; [by left|]. destruct Hcase as [-> |[[[k ->] _]|[-> _]]].
    + right. split; [by apply below_none|]. left. split; [done|]. exists u, n, data. destruct Hc as [-> |(p & x & k & [= <- <-] & ->)].
      * exists (String.length data). rewrite str_take_all. split; [done|]. split; [apply elem_of_app; by left|done].
      * exists k. split; [done|]. split; [apply elem_of_app; by left|done].
    + right. split; [by apply below_none|]. left. split; [done|]. exists u, n, data. destruct Hc as [-> |(p & x & k' & [= <- <-] & ->)].
      * exists k. split; [done|]. split; [apply elem_of_app; by left|done].
      * exists (Nat.min k' k). rewrite str_take_take. split; [done|]. split; [apply elem_of_app; by left|done].
    + left. destruct Hc as [-> |(p & x & k & [=] & _)]. done.
  - assert (cwd' = cwd) as -> by congruence. rewrite (Hl _ He) in Hc |- *. apply crash_app in Hc as [Hc|Hc]; [left; by apply silent_crash in Hc|]. rewrite silent_replay in Hc by done.
    apply crash_one in Hc as [-> |Hc]; [by left|]. destruct Hcase as [[-> _]|[[[k ->] _]|[-> _]]].
    + right. split; [by apply below_none|]. right. split; [done|]. exists data, r. destruct Hc as [-> |(p & x & k & [= <- <-] & ->)].
      * exists (String.length data). rewrite str_take_all. done.
      * by exists k.
    + right. split; [by apply below_none|]. right. split; [done|]. exists data, r. destruct Hc as [-> |(p & x & k' & [= <- <-] & ->)].
      * by exists k.
      * exists (Nat.min k' k). rewrite str_take_take. done.
    + left. destruct Hc as [-> |(p & x & k & [=] & _)]. done.
Qed.
(** a directory with files in it cannot be initialised again *)
Lemma init_blocked url path now i i' o cwd s : e_cwd E = Some cwd -> io_disk i !! (metadata_dir cwd +:+ "/" +:+ s) <> None -> init_cmd E url path now i = (i', o) -> o <> Ok tt /\ io_disk i' = io_disk i.
Proof.
  intros Hcwd Hd H. pose proof H as H2. apply init_cmd_run in H. inversion H as [o' evs' He Hs Ho|o' cwd' data evs0 e evs1 Hp Hcwd' Hb|o' cwd' data evs0 e r Hp Hcwd' Hb]; subst.
  - split; [done|]. destruct He as [_ ->]. by apply silent_replay.
  - assert (cwd' = cwd) as -> by congruence. destruct Hd. by apply below_none.
  - assert (cwd' = cwd) as -> by congruence. destruct Hd. by apply below_none.
Qed.

(** ** reset *)
Definition removal (l : list string) (e : event) : Prop := (exists p, p ∈ l /\ e = EvRemove p) \/ silent e.
Lemma removal_replay l evs : Forall (removal l) evs -> forall d q, replay d evs !! q = d !! q \/ (replay d evs !! q = None /\ q ∈ l).
Proof.
  induction 1 as [|e evs He Hf IH]; intros d q; [by left|]. change (replay d (e :: evs)) with (replay (apply_event d e) evs). destruct (IH (apply_event d e) q) as [Hq|[Hq Hin]]; [|by right].
  assert (forall x, apply_event d e !! q = x -> replay (apply_event d e) evs !! q = x) as Hx by (intros x <-; exact Hq). destruct He as [(p & Hp & ->)|Hs]; [|left; apply Hx; by destruct e].
  destruct (decide (p = q)) as [-> |]; [right; split; [apply Hx, (lookup_delete (M := gmap string))|done]|left; apply Hx; by apply (lookup_delete_ne (M := gmap string))].
Qed.
Lemma removal_crash l evs d d' q : Forall (removal l) evs -> crash d evs d' -> d' !! q = d !! q \/ (d' !! q = None /\ q ∈ l).
Proof.
  intros Hf (e1 & e2 & -> & Hc). apply Forall_app in Hf as [H1 H2]. destruct Hc as [-> |(p & x & rest & k & -> & _)]; [by apply removal_replay|]. inversion H2 as [|? ? He]; subst. destruct He as [(? & _ & [=])|[]].
Qed.
Lemma remove_each_run l : forall i i' o, remove_each E l i = (i', o) -> o = Ok tt /\ exists evs, explains i i' evs /\ Forall (removal l) evs.
Proof.
  induction l as [|p l IH]; intros i i' o H; [injection H as <- <-; split; [done|]; exists []; split; [apply explains_nil|constructor]|].
  cbn in H. unfold satt, remove in H. destruct (e_io E (io_trace i)); apply IH in H as [-> (evs & He & Hf)]; (split; [done|]);
    (eexists (_ :: evs); split; [eapply (explains_app _ _ _ [_]); [by apply explains_log|exact He]|]).
  - constructor; [left; exists p; split; [by left|done]|]. eapply Forall_impl; [exact Hf|]. intros e [(q & Hq & ->)|Hs]; [left; exists q; split; [by right|done]|by right].
  - constructor; [by right|]. eapply Forall_impl; [exact Hf|]. intros e [(q & Hq & ->)|Hs]; [left; exists q; split; [by right|done]|by right].
Qed.
Lemma remove_each_works l : (forall tr, e_io E tr = true) -> forall i i' o q, remove_each E l i = (i', o) -> q ∈ l \/ io_disk i !! q = None -> io_disk i' !! q = None.
Proof.
  intros Hio. induction l as [|p l IH]; intros i i' o q H Hq; [injection H as <- <-; destruct Hq as [Hq|]; [by apply elem_of_nil in Hq|done]|].
  cbn in H. unfold satt, remove in H. rewrite Hio in H. apply (IH _ _ _ q) in H; [done|]. cbn. destruct (decide (p = q)) as [-> |Hn]; [right; apply (lookup_delete (M := gmap string))|].
  destruct Hq as [Hq|Hq]; [apply elem_of_cons in Hq as [-> |]; [done|by left]|right]. rewrite <- Hq. by apply (lookup_delete_ne (M := gmap string)).
Qed.
Lemma remove_all_run dir i i' o : remove_all E dir i = (i', o) -> o = Ok tt /\ exists l evs, (forall q, q ∈ l -> within dir q) /\ explains i i' evs /\ Forall (removal l) evs.
Proof.
  unfold remove_all. intros H. apply remove_each_run in H as [-> (evs & He & Hf)]. split; [done|]. eexists _, evs. split; [|done].
  intros q [Hq|Hq]%elem_of_app; [left; destruct (io_disk i !! dir); [by apply elem_of_list_singleton in Hq|by apply elem_of_nil in Hq]|right; by apply below_in in Hq as [_ ?]].
Qed.
Lemma remove_all_works dir i i' o q : (forall tr, e_io E tr = true) -> remove_all E dir i = (i', o) -> within dir q \/ io_disk i !! q = None -> io_disk i' !! q = None.
Proof.
  intros Hio H Hq. unfold remove_all in H. eapply remove_each_works; [done|exact H|]. destruct (io_disk i !! q) as [x|] eqn:Eq; [left|by right]. destruct Hq as [[-> |(s & ->)]|[=]].
  - apply elem_of_app. left. rewrite Eq. by left.
  - apply elem_of_app. right. apply below_in. split; [by exists x|by exists s].
Qed.
Lemma removal_mono l l' e : (forall q, q ∈ l -> q ∈ l') -> removal l e -> removal l' e.
Proof. intros Hl [(p & Hp & ->)|Hs]; [left; exists p; eauto|by right]. Qed.
Lemma reset_run force answers i i' o : reset_cmd E force answers i = (i', o) -> exists evs l, explains i i' evs /\ Forall (removal l) evs /\
  forall q, q ∈ l -> exists cwd, e_cwd E = Some cwd /\ ((within (metadata_dir cwd) q /\ (force = true \/ exists r, ask answers = Ok (true, r))) \/ (within (download_dir cwd) q /\ (force = true \/ exists a r b, ask answers = Ok (a, r) /\ ask r = Ok (true, b)))).
Proof.
  unfold reset_cmd. intros H. assert (forall x, x = i -> exists evs l, explains i x evs /\ Forall (removal l) evs /\ forall q, q ∈ l -> exists cwd, e_cwd E = Some cwd /\ ((within (metadata_dir cwd) q /\ (force = true \/ exists r, ask answers = Ok (true, r))) \/ (within (download_dir cwd) q /\ (force = true \/ exists a r b, ask answers = Ok (a, r) /\ ask r = Ok (true, b))))) as Hid.
  { intros x ->. exists [], []. split; [apply explains_nil|]. split; [constructor|]. intros q Hq. by apply elem_of_nil in Hq. }
  apply sbind_inv in H as [(i1 & cwd & H1 & H)|[(e & H1 & _)|[H1 _]]]; unfold getwd in H1; injection H1 as H1 Hcwd; [|by apply Hid..]. subst i1. destruct (e_cwd E) as [cwd'|] eqn:Ecwd; [|done]. injection Hcwd as ->.
  apply sbind_inv in H as [(i1 & a & H1 & H)|[(e & H1 & _)|[H1 _]]]; injection H1 as H1 Ha; [|by apply Hid..]. subst i1.
  assert (forall i1 o1, (if fst a then remove_all E (path_join [cwd; METADATA_DIR]) else sret tt) i = (i1, o1) -> o1 = Ok tt /\ exists evs l, explains i i1 evs /\ Forall (removal l) evs /\
    forall q, q ∈ l -> within (metadata_dir cwd) q /\ fst a = true) as Hm.
  { intros i1 o1 H1. destruct (fst a) eqn:Efa; [|injection H1 as <- <-; split; [done|]; exists [], []; split; [apply explains_nil|]; split; [constructor|]; intros q Hq; by apply elem_of_nil in Hq].
    apply remove_all_run in H1 as [-> (l & evs & Hl & He & Hf)]. split; [done|]. exists evs, l. split; [done|]. split; [done|]. intros q Hq. split; [by apply Hl|done]. }
  assert (fst a = true -> force = true \/ exists r, ask answers = Ok (true, r)) as Hconf.
  { intros Hfa. destruct force; [by left|right]. rewrite Ha. destruct a as [a r]. cbn in Hfa. subst a. by exists r. }
  apply sbind_inv in H as [(i2 & [] & H2 & H)|[(e & H2 & _)|[H2 _]]]; apply Hm in H2 as [Ho (evs & l & He & Hf & Hl)]; [|done..].
  assert (forall q, q ∈ l -> exists cwd', Some cwd = Some cwd' /\ ((within (metadata_dir cwd') q /\ (force = true \/ exists r, ask answers = Ok (true, r))) \/ (within (download_dir cwd') q /\ (force = true \/ exists a r b, ask answers = Ok (a, r) /\ ask r = Ok (true, b))))) as Hl'.
  { intros q [Hq Hfa]%Hl. exists cwd. split; [done|]. left. split; [done|by apply Hconf]. }
  apply sbind_inv in H as [(i3 & b & H3 & H)|[(e & H3 & _)|[H3 _]]]; injection H3 as H3 Hb; [|subst i'; exists evs, l; done..]. subst i3.
  destruct (fst b) eqn:Efb; [|injection H as <- <-; exists evs, l; done].
  apply remove_all_run in H as [-> (l2 & evs2 & Hl2 & He2 & Hf2)]. exists (evs ++ evs2), (l ++ l2). split; [by eapply explains_app|]. split.
  - apply Forall_app. split; (eapply Forall_impl; [eassumption|]; intros ? ?; (eapply removal_mono; [|eassumption]); intros; apply elem_of_app; tauto).
  - intros q [Hq|Hq]%elem_of_app; [by apply Hl'|]. exists cwd. split; [done|]. right. split; [by apply Hl2|]. destruct force; [by left|right]. exists (fst a), (snd a), (snd b). destruct a as [? ?], b as [b1 b2]. cbn in *. subst b1. done.
Qed.
Lemma reset_works answers i i' o cwd q : e_cwd E = Some cwd -> (forall tr, e_io E tr = true) -> reset_cmd E true answers i = (i', o) -> within (metadata_dir cwd) q \/ within (download_dir cwd) q -> o = Ok tt /\ io_disk i' !! q = None.
Proof.
  intros Hcwd Hio H Hq. unfold reset_cmd in H. unfold sbind at 1, getwd, sout at 1 in H. rewrite Hcwd in H. unfold sbind at 1, sout at 1 in H. cbn [fst snd] in H.
  apply sbind_inv in H as [(i2 & [] & H2 & H)|[(e & H2 & _)|[H2 _]]]; pose proof (remove_all_run _ _ _ _ H2) as [Ho _]; [|done..].
  unfold sbind, sout in H. cbn [fst snd] in H. pose proof (remove_all_run _ _ _ _ H) as [-> _]. split; [done|]. eapply remove_all_works; [done|exact H|]. destruct Hq as [Hq|Hq]; [right|by left]. eapply remove_all_works; [done|exact H2|by left].
Qed.
End Init.
