(** * Proofs for expiry, hashes, target descriptions, errors, downloads and the repository store *)
From stdpp Require Import base gmap strings list.
From Coq Require Import ZArith Lia Ascii String.
From Verif Require Import GoBase GoStr Json GoTime Types Marshal Keys Metadata Fetcher Repository SpecBasic StrProofs.
Open Scope Z_scope.

(** ** Time *)
Lemma epoch_zero : days_from_civil 1970 1 1 = 0.
Proof. done. Qed.
Lemma leap_dec y : leap_year y \/ ~ leap_year y.
Proof. unfold leap_year. lia. Qed.
(** days before the first of March of year [y] *)
Definition ydays (y : Z) : Z := y * 365 + y / 4 - y / 100 + y / 400.
Lemma era_days y d : (y / 400) * 146097 + ((y - y / 400 * 400) * 365 + (y - y / 400 * 400) / 4 - (y - y / 400 * 400) / 100 + d) = ydays y + d.
Proof. unfold ydays. Z.to_euclidean_division_equations. lia. Qed.
Lemma days_formula y m d : days_from_civil y m d =
  ydays (if m <=? 2 then y - 1 else y) + (153 * ((m + 9) mod 12) + 2) / 5 + d - 1 - 719468.
Proof.
  unfold days_from_civil. set (y' := if m <=? 2 then y - 1 else y).
  pose proof (era_days y' ((153 * ((m + 9) mod 12) + 2) / 5 + d - 1)). lia.
Qed.
Lemma days_1 y d : days_from_civil y 1 d = ydays (y - 1) + 306 + d - 719469.
Proof. rewrite days_formula. change (1 <=? 2) with true. change ((153 * ((1 + 9) mod 12) + 2) / 5) with 306. cbv beta iota. lia. Qed.
Lemma days_2 y d : days_from_civil y 2 d = ydays (y - 1) + 337 + d - 719469.
Proof. rewrite days_formula. change (2 <=? 2) with true. change ((153 * ((2 + 9) mod 12) + 2) / 5) with 337. cbv beta iota. lia. Qed.
Lemma days_3 y d : days_from_civil y 3 d = ydays y + 0 + d - 719469.
Proof. rewrite days_formula. change (3 <=? 2) with false. change ((153 * ((3 + 9) mod 12) + 2) / 5) with 0. cbv beta iota. lia. Qed.
Lemma days_4 y d : days_from_civil y 4 d = ydays y + 31 + d - 719469.
Proof. rewrite days_formula. change (4 <=? 2) with false. change ((153 * ((4 + 9) mod 12) + 2) / 5) with 31. cbv beta iota. lia. Qed.
Lemma days_5 y d : days_from_civil y 5 d = ydays y + 61 + d - 719469.
Proof. rewrite days_formula. change (5 <=? 2) with false. change ((153 * ((5 + 9) mod 12) + 2) / 5) with 61. cbv beta iota. lia. Qed.
Lemma days_6 y d : days_from_civil y 6 d = ydays y + 92 + d - 719469.
Proof. rewrite days_formula. change (6 <=? 2) with false. change ((153 * ((6 + 9) mod 12) + 2) / 5) with 92. cbv beta iota. lia. Qed.
Lemma days_7 y d : days_from_civil y 7 d = ydays y + 122 + d - 719469.
Proof. rewrite days_formula. change (7 <=? 2) with false. change ((153 * ((7 + 9) mod 12) + 2) / 5) with 122. cbv beta iota. lia. Qed.
Lemma days_8 y d : days_from_civil y 8 d = ydays y + 153 + d - 719469.
Proof. rewrite days_formula. change (8 <=? 2) with false. change ((153 * ((8 + 9) mod 12) + 2) / 5) with 153. cbv beta iota. lia. Qed.
Lemma days_9 y d : days_from_civil y 9 d = ydays y + 184 + d - 719469.
Proof. rewrite days_formula. change (9 <=? 2) with false. change ((153 * ((9 + 9) mod 12) + 2) / 5) with 184. cbv beta iota. lia. Qed.
Lemma days_10 y d : days_from_civil y 10 d = ydays y + 214 + d - 719469.
Proof. rewrite days_formula. change (10 <=? 2) with false. change ((153 * ((10 + 9) mod 12) + 2) / 5) with 214. cbv beta iota. lia. Qed.
Lemma days_11 y d : days_from_civil y 11 d = ydays y + 245 + d - 719469.
Proof. rewrite days_formula. change (11 <=? 2) with false. change ((153 * ((11 + 9) mod 12) + 2) / 5) with 245. cbv beta iota. lia. Qed.
Lemma days_12 y d : days_from_civil y 12 d = ydays y + 275 + d - 719469.
Proof. rewrite days_formula. change (12 <=? 2) with false. change ((153 * ((12 + 9) mod 12) + 2) / 5) with 275. cbv beta iota. lia. Qed.
Local Ltac dform := rewrite ?days_1, ?days_2, ?days_3, ?days_4, ?days_5, ?days_6, ?days_7, ?days_8, ?days_9, ?days_10, ?days_11, ?days_12.
Lemma ydays_step y : ydays (y + 1) = ydays y + 365 + (if bool_decide ((y + 1) mod 4 = 0 /\ (y + 1) mod 100 <> 0 \/ (y + 1) mod 400 = 0) then 1 else 0).
Proof. unfold ydays. case_bool_decide; Z.to_euclidean_division_equations; lia. Qed.
Lemma next_day_succ y m d y' m' d' : next_day (y, m, d) (y', m', d') -> days_from_civil y' m' d' = days_from_civil y m d + 1.
Proof.
  intros H. inversion H as [? ? ? days Hm Hd|? ? days Hm Hd|?]; subst.
  - rewrite !days_formula. lia.
  - destruct Hm as [[Hm ->]|[[Hm ->]|[(-> & Hl & ->)|(-> & Hl & ->)]]].
    + cbn in Hm. destruct Hm as [<-|[<-|[<-|[<-|[<-|[<-|[<-|[]]]]]]]]; cbn -[days_from_civil]; dform; lia.
    + cbn in Hm. destruct Hm as [<-|[<-|[<-|[<-|[]]]]]; cbn -[days_from_civil]; dform; lia.
    + cbn -[days_from_civil]. dform. pose proof (ydays_step (y' - 1)) as Hy. rewrite bool_decide_true in Hy.
      * replace (y' - 1 + 1) with y' in Hy by lia. lia.
      * replace (y' - 1 + 1) with y' by lia. exact Hl.
    + cbn -[days_from_civil]. dform. pose proof (ydays_step (y' - 1)) as Hy. rewrite bool_decide_false in Hy.
      * replace (y' - 1 + 1) with y' in Hy by lia. lia.
      * replace (y' - 1 + 1) with y' by lia. exact Hl.
  - dform. replace (y + 1 - 1) with y by lia. lia.
Qed.
Lemma ydays_mono y y' : y <= y' -> ydays y' - ydays y >= 365 * (y' - y).
Proof. unfold ydays. intros H. Z.to_euclidean_division_equations. lia. Qed.
Lemma month_cases y m days : month_days y m days -> 1 <= m <= 12 /\ 28 <= days <= 31.
Proof. unfold month_days. cbn. lia. Qed.
(** day of the year counted from January *)
Lemma days_bounds y m d days : month_days y m days -> 1 <= d <= days ->
  days_from_civil y 1 1 <= days_from_civil y m d /\ days_from_civil y m d < days_from_civil (y + 1) 1 1.
Proof.
  intros Hm Hd. pose proof (ydays_mono (y - 1) y). pose proof (ydays_step (y - 1)) as Hs.
  replace (y - 1 + 1) with y in Hs by lia.
  assert (m = 1 \/ m = 2 \/ m = 3 \/ m = 4 \/ m = 5 \/ m = 6 \/ m = 7 \/ m = 8 \/ m = 9 \/ m = 10 \/ m = 11 \/ m = 12) as Hc.
  { apply month_cases in Hm. lia. }
  case_bool_decide as Hb; unfold month_days, leap_year in Hm; cbn in Hm;
  destruct Hc as [->|[->|[->|[->|[->|[->|[->|[->|[->|[->|[->| ->]]]]]]]]]]]; dform;
    replace (y + 1 - 1) with y by lia; lia.
Qed.
Lemma days_month_mono y m d m' d' days : month_days y m days -> 1 <= d <= days -> m < m' <= 12 -> 1 <= d' ->
  days_from_civil y m d < days_from_civil y m' d'.
Proof.
  intros Hm Hd Hm' Hd'. pose proof (ydays_step (y - 1)) as Hs.
  replace (y - 1 + 1) with y in Hs by lia.
  assert (m = 1 \/ m = 2 \/ m = 3 \/ m = 4 \/ m = 5 \/ m = 6 \/ m = 7 \/ m = 8 \/ m = 9 \/ m = 10 \/ m = 11) as Hc.
  { apply month_cases in Hm. lia. }
  assert (m' = 2 \/ m' = 3 \/ m' = 4 \/ m' = 5 \/ m' = 6 \/ m' = 7 \/ m' = 8 \/ m' = 9 \/ m' = 10 \/ m' = 11 \/ m' = 12) as Hc' .
  { apply month_cases in Hm. lia. }
  unfold month_days, leap_year in Hm; cbn in Hm.
  case_bool_decide as Hb;
  destruct Hc as [->|[->|[->|[->|[->|[->|[->|[->|[->|[->| ->]]]]]]]]]];
  destruct Hc' as [->|[->|[->|[->|[->|[->|[->|[->|[->|[->| ->]]]]]]]]]]; dform; lia.
Qed.
Lemma days_year_mono y m d y' m' d' : valid_date y m d -> valid_date y' m' d' -> y < y' ->
  days_from_civil y m d < days_from_civil y' m' d'.
Proof.
  intros (days & Hm & Hd) (days' & Hm' & Hd') Hy.
  pose proof (days_bounds _ _ _ _ Hm Hd) as [_ H1]. pose proof (days_bounds _ _ _ _ Hm' Hd') as [H2 _].
  assert (days_from_civil (y + 1) 1 1 <= days_from_civil y' 1 1); [|lia].
  dform. pose proof (ydays_mono (y + 1 - 1) (y' - 1)). lia.
Qed.
Lemma instant_lex t t' : valid_time t -> valid_time t' -> t_off t = t_off t' -> lex_lt (clock t) (clock t') -> instant t < instant t'.
Proof.
  intros (Hd & Hh & Hmi & Hs & Hn) (Hd' & Hh' & Hmi' & Hs' & Hn') Ho (p & x & y & a & b & Ha & Hb & Hlt).
  unfold instant. rewrite <- Ho.
  unfold clock in *.
  destruct p as [|p0 p]; cbn in Ha, Hb.
  { injection Ha as Hx _. injection Hb as Hy _. pose proof (days_year_mono _ _ _ _ _ _ Hd Hd'). nia. }
  injection Ha as Hy Ha. injection Hb as Hy' Hb. rewrite <- Hy in Hy'.
  destruct p as [|p1 p]; cbn in Ha, Hb.
  { injection Ha as Hx _. injection Hb as Hx' _. destruct Hd as (days & Hm & Hd), Hd' as (days' & Hm' & Hd').
    pose proof (month_cases _ _ _ Hm'). assert (t_year t' = t_year t) as Hyy by lia. rewrite Hyy.
    assert (days_from_civil (t_year t) (t_mon t) (t_day t) < days_from_civil (t_year t) (t_mon t') (t_day t')); [|nia].
    eapply days_month_mono; [exact Hm|lia..]. }
  injection Ha as Hm Ha. injection Hb as Hm' Hb. rewrite <- Hm in Hm'.
  assert (days_from_civil (t_year t) (t_mon t) (t_day t) + (t_day t' - t_day t) = days_from_civil (t_year t') (t_mon t') (t_day t')) as Hdd.
  { assert (t_year t' = t_year t) as -> by lia. assert (t_mon t' = t_mon t) as -> by lia. rewrite !days_formula. lia. }
  destruct p as [|p2 p]; cbn in Ha, Hb; [injection Ha as ? _; injection Hb as ? _; nia|].
  injection Ha as ? Ha; injection Hb as ? Hb. destruct p as [|p3 p]; cbn in Ha, Hb; [injection Ha as ? _; injection Hb as ? _; nia|].
  injection Ha as ? Ha; injection Hb as ? Hb. destruct p as [|p4 p]; cbn in Ha, Hb; [injection Ha as ? _; injection Hb as ? _; nia|].
  injection Ha as ? Ha; injection Hb as ? Hb. destruct p as [|p5 p]; cbn in Ha, Hb; [injection Ha as ? _; injection Hb as ? _; nia|].
  injection Ha as ? Ha; injection Hb as ? Hb. destruct p as [|p6 p]; cbn in Ha, Hb; [injection Ha as ? _; injection Hb as ? _; nia|].
  injection Ha as ? Ha. destruct p; discriminate Ha.
Qed.
Lemma after_spec u t : after u t = true <-> instant t < u.
Proof. unfold after. apply Z.ltb_lt. Qed.

(** ** Length and hashes *)
Section Hashes.
Context {CR : Crypto}.
Lemma hash_of_spec alg h : hash_of alg = Some h <-> (alg = "sha256" /\ h = sha256) \/ (alg = "sha512" /\ h = sha512).
Proof.
  unfold hash_of. destruct (String.eqb_spec alg "sha256") as [->|]; [naive_solver|].
  destruct (String.eqb_spec alg "sha512") as [->|]; naive_solver.
Qed.
Lemma is_digest_hash data alg dig : is_digest data alg dig <-> exists h, hash_of alg = Some h /\ dig = h data.
Proof.
  unfold is_digest. split.
  - intros [[-> ->]|[-> ->]]; eexists; split; done.
  - intros (h & Hh & ->). apply hash_of_spec in Hh. naive_solver.
Qed.
Lemma verify_hash_list_ok data l :
  verify_hash_list data l = Ok tt <-> Forall (fun p => is_digest data p.1 p.2) l.
Proof.
  induction l as [|[k v] l IH]; cbn [verify_hash_list]; [split; [constructor|done]|].
  rewrite Forall_cons, is_digest_hash. cbn. destruct (hash_of k) as [h|]; [|naive_solver].
  rewrite hex_eqb. destruct (String.eqb_spec v (h data)); naive_solver.
Qed.
Lemma verify_hash_list_cases data l :
  verify_hash_list data l = Ok tt \/ exists msg, verify_hash_list data l = Err (ErrLengthOrHashMismatch msg).
Proof.
  induction l as [|[k v] l IH]; cbn; [auto|]. destruct (hash_of k) as [h|]; [|eauto]. case_match; eauto.
Qed.
Lemma verify_hashes_ok data h : verify_hashes data h = Ok tt <-> hashes_ok h data.
Proof.
  unfold verify_hashes, hashes_ok, mlist. rewrite verify_hash_list_ok, Forall_forall.
  destruct h as [m|].
  - split.
    + intros H m' alg dig [= <-] Hl. apply (H (alg, dig)). by apply elem_of_map_to_list.
    + intros H [alg dig] Hl%elem_of_map_to_list. by eapply H.
  - split; [naive_solver|]. intros _ x Hx. by apply elem_of_nil in Hx.
Qed.
Lemma verify_length_ok data n : verify_length data n = Ok tt <-> n = Z.of_nat (String.length data).
Proof. unfold verify_length, str_len. destruct (Z.eqb_spec n (Z.of_nat (String.length data))); naive_solver. Qed.
Lemma metafile_verify_ok f data :
  metafile_verify (Some f) data = Ok tt <->
  hashes_ok (mf_hashes f) data /\ (mf_length f = 0 \/ mf_length f = Z.of_nat (String.length data)).
Proof.
  unfold metafile_verify. assert (forall k : outcome unit,
    obind (if decide (mmap (mf_hashes f) = ∅) then Ok tt else verify_hashes data (mf_hashes f)) (fun _ => k) = Ok tt <->
    hashes_ok (mf_hashes f) data /\ k = Ok tt) as ->.
  { intros k. rewrite <- verify_hashes_ok. destruct (decide _) as [He|He].
    - cbn. split; [|naive_solver]. intros ->. split; [|done]. unfold verify_hashes, mlist, mmap in *.
      destruct (mf_hashes f) as [m|]; [|done]. cbn in He. subst m. by rewrite map_to_list_empty.
    - destruct (verify_hashes data (mf_hashes f)) as [[]| |]; cbn; naive_solver. }
  destruct (Z.eqb_spec (mf_length f) 0) as [E|E]; [naive_solver|]. rewrite verify_length_ok. naive_solver.
Qed.
Lemma metafile_verify_cases f data :
  metafile_verify (Some f) data = Ok tt \/ exists msg, metafile_verify (Some f) data = Err (ErrLengthOrHashMismatch msg).
Proof.
  unfold metafile_verify, verify_length. destruct (decide _); [cbn; repeat case_match; eauto|].
  unfold verify_hashes. destruct (verify_hash_list_cases data (mlist (mf_hashes f))) as [->|[msg ->]]; cbn; repeat case_match; eauto.
Qed.
Lemma targetfile_verify_ok f data :
  targetfile_verify f data = Ok tt <->
  hashes_ok (tf_hashes f) data /\ tf_length f = Z.of_nat (String.length data).
Proof.
  unfold targetfile_verify. rewrite <- verify_hashes_ok, <- verify_length_ok.
  destruct (verify_hashes data (tf_hashes f)) as [[]| |]; cbn; naive_solver.
Qed.
Lemma targetfile_verify_cases f data :
  targetfile_verify f data = Ok tt \/ exists msg, targetfile_verify f data = Err (ErrLengthOrHashMismatch msg).
Proof.
  unfold targetfile_verify, verify_length.
  unfold verify_hashes. destruct (verify_hash_list_cases data (mlist (tf_hashes f))) as [->|[msg ->]]; cbn; repeat case_match; eauto.
Qed.
Lemma add_hashes_spec data algs m :
  (exists m', add_hashes data algs m = Ok m' /\
     forall alg, m' !! alg = if decide (alg ∈ algs) then (h ← hash_of alg; Some (h data)) else m !! alg)
  /\ Forall (fun a => is_Some (hash_of a)) algs
  \/ (exists msg, add_hashes data algs m = Err (ErrValue msg)) /\ ~ Forall (fun a => is_Some (hash_of a)) algs.
Proof.
  revert m. induction algs as [|a algs IH]; intros m; cbn [add_hashes].
  - left. split; [|constructor]. exists m. split; [done|]. intros alg. rewrite decide_False; [done|apply not_elem_of_nil].
  - destruct (hash_of a) as [h|] eqn:Ha.
    + destruct (IH (<[a := h data]> m)) as [[(m' & E & Hm') Hf]|[[msg E] Hf]].
      * left. split; [|constructor; eauto]. exists m'. split; [done|]. intros alg. rewrite Hm'.
        destruct (decide (alg ∈ algs)) as [Hin|Hin].
        -- rewrite decide_True; [done|by right].
        -- destruct (decide (a = alg)) as [<-|Hne].
           ++ rewrite decide_True by left. rewrite lookup_insert, Ha. done.
           ++ rewrite decide_False by (intros [?|?]%elem_of_cons; congruence). by rewrite lookup_insert_ne.
      * right. split; [eauto|]. rewrite Forall_cons. tauto.
    + right. split; [eauto|]. rewrite Forall_cons, Ha. intros [[? [=]] _].
Qed.
Definition requested (algs : list string) : list string := match algs with [] => ["sha256"] | _ => algs end.
Lemma targetfile_from_bytes_ok path data algs f :
  targetfile_from_bytes path data algs = Ok f <->
  (forall a, a ∈ requested algs -> a = "sha256" \/ a = "sha512") /\
  tf_path f = path /\ tf_length f = Z.of_nat (String.length data) /\ tf_custom f = None /\ tf_unrec f = None /\
  exists m, tf_hashes f = Some m /\ forall alg dig, m !! alg = Some dig <-> alg ∈ requested algs /\ is_digest data alg dig.
Proof.
  unfold targetfile_from_bytes. fold (requested algs).
  assert (Hsup : forall l, Forall (fun a => is_Some (hash_of a)) l <-> (forall a, a ∈ l -> a = "sha256" \/ a = "sha512")).
  { intros l. rewrite Forall_forall. split; intros H a Ha; specialize (H a Ha).
    - destruct H as [h Hh%hash_of_spec]. naive_solver.
    - destruct H as [-> | ->]; eexists; done. }
  destruct (add_hashes_spec data (requested algs) ∅) as [[(m' & E & Hm') Hf]|[[msg E] Hf]]; rewrite E; cbn [obind].
  - assert (forall alg dig, m' !! alg = Some dig <-> alg ∈ requested algs /\ is_digest data alg dig) as Hm.
    { intros alg dig. rewrite Hm', is_digest_hash. destruct (decide _) as [Hd|Hd].
      - destruct (hash_of alg); cbn; naive_solver.
      - rewrite lookup_empty. naive_solver. }
    split.
    + intros [= <-]. split; [by apply Hsup|]. cbn. split_and!; [done..|]. exists m'. split; [done|exact Hm].
    + intros (_ & Hp & Hl & Hc & Hu & m & Hh & Hmm). destruct f as [len hs cust p u]; cbn in *. subst.
      f_equal. f_equal. f_equal. apply map_eq. intros i. apply option_eq. intros d. rewrite Hm, Hmm. done.
  - split; [done|]. intros (Hs & _). exfalso. by apply Hf, Hsup.
Qed.
Lemma targetfile_from_bytes_err path data algs a :
  a ∈ algs -> a <> "sha256" -> a <> "sha512" -> exists msg, targetfile_from_bytes path data algs = Err (ErrValue msg).
Proof.
  intros Ha H1 H2. unfold targetfile_from_bytes. destruct algs as [|b algs]; [by apply elem_of_nil in Ha|].
  destruct (add_hashes_spec data (b :: algs) ∅) as [[_ Hf]|[[msg ->] _]]; [|eauto].
  rewrite Forall_forall in Hf. destruct (Hf a Ha) as [h Hh%hash_of_spec]. naive_solver.
Qed.
End Hashes.

Lemma hashes_equal_loop_spec source l acc :
  hashes_equal_loop source l acc = true <->
  (acc = true \/ exists p d, p ∈ l /\ mget source p.1 = Some d) /\ (forall p d, p ∈ l -> mget source p.1 = Some d -> d = p.2).
Proof.
  revert acc. induction l as [|[t h] l IH]; intros acc; cbn [hashes_equal_loop].
  - split; [intros ->; split; [by left|]; intros p d Hp; by apply elem_of_nil in Hp|].
    intros [[?|(p & d & Hp & _)] _]; [done|by apply elem_of_nil in Hp].
  - destruct (mget source t) as [h'|] eqn:E.
    + destruct (String.eqb_spec h' h) as [->|Hne].
      * rewrite IH. split.
        -- intros [_ H]. split; [right; exists (t, h), h; split; [left|done]|].
           intros p d [->|Hp]%elem_of_cons Hd; [cbn in *; congruence|eauto].
        -- intros [_ H]. split; [by left|]. intros p d Hp Hd. eapply H; [by right|done].
      * split; [done|]. intros [_ H]. exfalso. apply Hne. apply (H (t, h) h'); [left|done].
    + rewrite IH. split.
      * intros [[->|(p & d & Hp & Hd)] H].
        -- split; [by left|]. intros p d [->|Hp]%elem_of_cons Hd; [cbn in Hd; congruence|eauto].
        -- split; [right; exists p, d; split; [by right|done]|]. intros q e [->|Hq]%elem_of_cons He; [cbn in He; congruence|eauto].
      * intros [[->|(p & d & [->|Hp]%elem_of_cons & Hd)] H].
        -- split; [by left|]. intros p d Hp Hd. eapply H; [by right|done].
        -- cbn in Hd. congruence.
        -- split; [right; eauto|]. intros q e Hq He. eapply H; [by right|done].
Qed.
Lemma lists_mget h alg d : lists h alg d <-> mget h alg = Some d.
Proof. unfold lists, mget. destruct h; naive_solver. Qed.
Lemma mlist_elem {V} (h : gomap V) p : p ∈ mlist h <-> mget h p.1 = Some p.2.
Proof. destruct h as [m|], p as [k v]; cbn; [apply elem_of_map_to_list|]. split; [intros H; by apply elem_of_nil in H|done]. Qed.
Lemma targetfile_equal_spec a b :
  targetfile_equal a b = true <->
  tf_length a = tf_length b /\
  (exists alg d, lists (tf_hashes a) alg d /\ lists (tf_hashes b) alg d) /\
  (forall alg d d', lists (tf_hashes a) alg d -> lists (tf_hashes b) alg d' -> d = d').
Proof.
  unfold targetfile_equal, hashes_equal. rewrite andb_true_iff, Z.eqb_eq, hashes_equal_loop_spec.
  setoid_rewrite mlist_elem. setoid_rewrite lists_mget. split.
  - intros [Hl [[Hx|([alg d] & d' & H1 & H2)] H]]; [done|]. split; [done|]. cbn in *. split.
    + exists alg, d. split; [|done]. rewrite H2. f_equal. by apply (H (alg, d) d').
    + intros alg' e e' H3 H4. by apply (H (alg', e') e).
  - intros (Hl & (alg & d & H1 & H2) & H). split; [done|]. split.
    + right. exists (alg, d), d. done.
    + intros [alg' e] e' H3 H4. cbn in *. by apply (H alg' e' e).
Qed.

(** ** Errors *)
Lemma errors_is_innermost e target : ~ is_wrap target -> errors_is e target = errors_is (innermost e) target.
Proof.
  intros Hw. induction e; try done. cbn [innermost]. rewrite <- IHe. cbn [errors_is].
  rewrite bool_decide_false; [done|]. intros <-. apply Hw. unfold is_wrap. eauto.
Qed.
Local Ltac err_case := cbn; repeat case_bool_decide; simplify_eq; cbn; naive_solver.
Lemma errors_is_repository e : ~ is_wrap e ->
  errors_is e (ErrRepository "") = true <->
  (exists m, e = ErrUnsignedMetadata m \/ e = ErrBadVersionNumber m \/ e = ErrEqualVersionNumber m \/ e = ErrExpiredMetadata m \/ e = ErrLengthOrHashMismatch m)
  \/ e = ErrRepository "".
Proof. intros Hw. destruct e; try (by exfalso; apply Hw; unfold is_wrap; eauto); err_case. Qed.
Lemma errors_is_bad_version e : ~ is_wrap e ->
  errors_is e (ErrBadVersionNumber "") = true <-> exists m, e = ErrBadVersionNumber m \/ e = ErrEqualVersionNumber m.
Proof. intros Hw. destruct e; try (by exfalso; apply Hw; unfold is_wrap; eauto); err_case. Qed.
Lemma errors_is_download e : ~ is_wrap e ->
  errors_is e (ErrDownload "") = true <-> (exists m, e = ErrDownloadLengthMismatch m) \/ (exists s u, e = ErrDownloadHTTP s u) \/ e = ErrDownload "".
Proof. intros Hw. destruct e; try (by exfalso; apply Hw; unfold is_wrap; eauto); err_case. Qed.
Lemma errors_is_leaf e : ~ is_wrap e ->
  (errors_is e (ErrUnsignedMetadata "") = true <-> exists m, e = ErrUnsignedMetadata m) /\
  (errors_is e (ErrEqualVersionNumber "") = true <-> exists m, e = ErrEqualVersionNumber m) /\
  (errors_is e (ErrExpiredMetadata "") = true <-> exists m, e = ErrExpiredMetadata m) /\
  (errors_is e (ErrLengthOrHashMismatch "") = true <-> exists m, e = ErrLengthOrHashMismatch m) /\
  (errors_is e (ErrDownloadLengthMismatch "") = true <-> exists m, e = ErrDownloadLengthMismatch m) /\
  (errors_is e (ErrDownloadHTTP 0 "") = true <-> exists s u, e = ErrDownloadHTTP s u) /\
  (errors_is e (ErrValue "") = true <-> e = ErrValue "") /\
  (errors_is e (ErrType "") = true <-> e = ErrType "") /\
  (errors_is e (ErrRuntime "") = true <-> e = ErrRuntime "").
Proof. intros Hw. destruct e; try (by exfalso; apply Hw; unfold is_wrap; eauto); split_and!; err_case. Qed.
Lemma errors_families e :
  ~ (errors_is e (ErrRepository "") = true /\ errors_is e (ErrDownload "") = true).
Proof.
  rewrite !(errors_is_innermost e) by (intros (? & ? & [=])).
  assert (~ is_wrap (innermost e)) as Hw. { induction e; cbn; try done; intros (? & ? & [=]). }
  rewrite errors_is_repository, errors_is_download by done. intros [H1 H2].
  destruct (innermost e); destruct H1 as [[m H1]|H1]; repeat destruct H1 as [H1|H1]; try discriminate H1;
    destruct H2 as [[m' H2]|[(s & u & H2)|H2]]; discriminate H2.
Qed.

(** ** Downloads *)
Lemma dec_digit_hexval c : dec_digit c <-> (exists d, hexval c = Some d /\ d < 10).
Proof.
  unfold dec_digit, hexval, is_digit, bz. pose proof (N_ascii_bounded c). split.
  - intros Hd. exists (Z.of_N (N_of_ascii c) - 48).
    rewrite (proj2 (Z.leb_le 48 _)), (proj2 (Z.leb_le _ 57)) by lia. cbn. split; [done|lia].
  - intros (d & Hd & Hlt). repeat case_match; simplify_eq;
    repeat match goal with H : (_ && _)%bool = true |- _ => apply andb_prop in H as [?%Z.leb_le ?%Z.leb_le] end; lia.
Qed.
Lemma parse_digits_dec s acc v :
  parse_digits_acc 10 s acc = Some v <-> dec_digits s /\ v = dec_value acc s.
Proof.
  revert acc. induction s as [|c s IH]; intros acc; cbn [parse_digits_acc dec_digits dec_value]; [naive_solver|].
  rewrite dec_digit_hexval. destruct (hexval c) as [d|] eqn:E; [|naive_solver].
  destruct (Z.ltb_spec d 10).
  - rewrite IH. assert (d = Z.of_N (N_of_ascii c) - 48) as Hd.
    { assert (dec_digit c) as Hc by (apply dec_digit_hexval; eauto). unfold dec_digit in Hc.
      unfold hexval, is_digit, bz in E. rewrite (proj2 (Z.leb_le 48 _)), (proj2 (Z.leb_le _ 57)) in E by lia. cbn in E. congruence. }
    rewrite <- Hd. replace (10 * acc + d) with (acc * 10 + d) by lia. naive_solver.
  - split; [done|]. intros [[(d' & [= <-] & ?) _] _]. lia.
Qed.
Lemma parse_nat_dec s v : parse_nat_base 10 s = Some v <-> s <> "" /\ dec_digits s /\ v = dec_value 0 s.
Proof.
  unfold parse_nat_base. destruct s as [|c s]; [naive_solver|]. rewrite parse_digits_dec. split; [|tauto]. intros. split; [done|tauto].
Qed.
Lemma sign_no_digit c : dec_digit c -> c <> "+"%char /\ c <> "-"%char.
Proof. intros H. split; intros ->; unfold dec_digit in H; destruct H as [H _]; by vm_compute in H. Qed.
Lemma parse_int_dec s n : parse_int 10 s = Some n <-> dec_number s n.
Proof.
  unfold parse_int, dec_number.
  assert (forall z, (if in_int64 z then Some z else None) = Some n <-> z = n /\ - 2 ^ 63 <= n < 2 ^ 63) as Hi.
  { intros z. assert (in_int64 z = true <-> - 2 ^ 63 <= z < 2 ^ 63) as Hz.
    { unfold in_int64, two63. rewrite andb_true_iff, Z.leb_le, Z.ltb_lt. done. }
    destruct (in_int64 z); split.
    - intros [= <-]. split; [done|]. by apply Hz.
    - by intros [-> _].
    - done.
    - intros [-> Hr]. by apply Hz in Hr. }
  destruct s as [|c t].
  - cbn. split; [done|]. intros (sg & ds & He & Hne & Hd & Hs & _).
    destruct Hs as [[-> _]|[[-> _]|[-> _]]]; rewrite ?app_cons_s, ?app_nil_l_s in He; [congruence|discriminate..].
  - destruct (decide (c = "+"%char)) as [->|Hp]; [|destruct (decide (c = "-"%char)) as [->|Hm]].
    + destruct (parse_nat_base 10 t) as [v|] eqn:E.
      * rewrite Hi. apply parse_nat_dec in E as (Hne & Hd & ->). split.
        -- intros [<- Hr]. exists "+", t. split; [done|]. eauto 10.
        -- intros (sg & ds & He & Hne' & Hd' & Hs & Hr). destruct Hs as [[-> ->]|[[-> ->]|[-> ->]]].
           ++ rewrite ?app_cons_s, ?app_nil_l_s in He. subst ds. cbn in Hd'. destruct Hd' as [Hd' _]. destruct (sign_no_digit _ Hd') as [Hx1 Hx2]; done.
           ++ rewrite ?app_cons_s, ?app_nil_l_s in He; injection He as ->. done.
           ++ discriminate He.
      * split; [done|]. intros (sg & ds & He & Hne' & Hd' & Hs & Hr). destruct Hs as [[-> ->]|[[-> ->]|[-> ->]]].
        -- rewrite ?app_cons_s, ?app_nil_l_s in He. subst ds. cbn in Hd'. destruct Hd' as [Hd' _]. destruct (sign_no_digit _ Hd') as [Hx1 Hx2]; done.
        -- rewrite ?app_cons_s, ?app_nil_l_s in He; injection He as ->. assert (parse_nat_base 10 ds = Some (dec_value 0 ds)) by (apply parse_nat_dec; auto). congruence.
        -- discriminate He.
    + destruct (parse_nat_base 10 t) as [v|] eqn:E; cbn [option_map].
      * rewrite Hi. apply parse_nat_dec in E as (Hne & Hd & ->). split.
        -- intros [<- Hr]. exists "-", t. split; [done|]. eauto 10.
        -- intros (sg & ds & He & Hne' & Hd' & Hs & Hr). destruct Hs as [[-> ->]|[[-> ->]|[-> ->]]].
           ++ rewrite ?app_cons_s, ?app_nil_l_s in He. subst ds. cbn in Hd'. destruct Hd' as [Hd' _]. destruct (sign_no_digit _ Hd') as [Hx1 Hx2]; done.
           ++ discriminate He.
           ++ rewrite ?app_cons_s, ?app_nil_l_s in He; injection He as ->. done.
      * split; [done|]. intros (sg & ds & He & Hne' & Hd' & Hs & Hr). destruct Hs as [[-> ->]|[[-> ->]|[-> ->]]].
        -- rewrite ?app_cons_s, ?app_nil_l_s in He. subst ds. cbn in Hd'. destruct Hd' as [Hd' _]. destruct (sign_no_digit _ Hd') as [Hx1 Hx2]; done.
        -- discriminate He.
        -- rewrite ?app_cons_s, ?app_nil_l_s in He; injection He as ->. assert (parse_nat_base 10 ds = Some (dec_value 0 ds)) by (apply parse_nat_dec; auto). congruence.
    + assert (match String c t with
           | String "+" t => parse_nat_base 10 t
           | String "-" t => option_map Z.opp (parse_nat_base 10 t)
           | _ => parse_nat_base 10 (String c t)
           end = parse_nat_base 10 (String c t)) as ->.
      { destruct c as [[] [] [] [] [] [] [] []]; try done. }
      destruct (parse_nat_base 10 (String c t)) as [v|] eqn:E.
      * rewrite Hi. apply parse_nat_dec in E as (Hne & Hd & ->). split.
        -- intros [<- Hr]. exists "", (String c t). split; [done|]. eauto 10.
        -- intros (sg & ds & He & Hne' & Hd' & Hs & Hr). destruct Hs as [[-> ->]|[[-> ->]|[-> ->]]].
           ++ rewrite ?app_cons_s, ?app_nil_l_s in He. subst ds. done.
           ++ rewrite ?app_cons_s, ?app_nil_l_s in He; injection He as -> _. done.
           ++ rewrite ?app_cons_s, ?app_nil_l_s in He; injection He as -> _. done.
      * split; [done|]. intros (sg & ds & He & Hne' & Hd' & Hs & Hr). destruct Hs as [[-> ->]|[[-> ->]|[-> ->]]].
        -- rewrite ?app_cons_s, ?app_nil_l_s in He. subst ds. assert (parse_nat_base 10 (String c t) = Some (dec_value 0 (String c t))) by (apply parse_nat_dec; auto). congruence.
        -- rewrite ?app_cons_s, ?app_nil_l_s in He; injection He as -> _. done.
        -- rewrite ?app_cons_s, ?app_nil_l_s in He; injection He as -> _. done.
Qed.
Lemma download_file_ok r url maxlen data : 0 <= maxlen < max_int64 ->
  download_file (Ok r) url maxlen = Ok data <->
  rs_status r = 200 /\ (rs_length r = "" \/ exists n, dec_number (rs_length r) n /\ n <= maxlen) /\
  rs_broken r = false /\ Z.of_nat (String.length (rs_body r)) <= maxlen /\ data = rs_body r.
Proof.
  intros Hm. unfold download_file. cbn [obind]. destruct (Z.eqb_spec (rs_status r) 200) as [Hs|Hs]; [|naive_solver].
  rewrite wrap64_id by (unfold in_int64, two63, max_int64 in *; apply andb_true_intro; split; [apply Z.leb_le|apply Z.ltb_lt]; lia).
  assert (forall k : outcome string, obind (if String.eqb (rs_length r) "" then Ok tt
              else match parse_int 10 (rs_length r) with
                   | None => Err (EOther "strconv.ParseInt")
                   | Some n => if maxlen <? n then Err (ErrDownloadLengthMismatch "length is larger than expected") else Ok tt
                   end) (fun _ => k) = Ok data <-> (rs_length r = "" \/ exists n, dec_number (rs_length r) n /\ n <= maxlen) /\ k = Ok data) as ->.
  { intros k. setoid_rewrite <- parse_int_dec. destruct (String.eqb_spec (rs_length r) "") as [->|Hne]; [cbn; naive_solver|].
    destruct (parse_int 10 (rs_length r)) as [n|]; [|naive_solver]. destruct (Z.ltb_spec maxlen n); cbn.
    - split; [done|]. intros [[?|(n' & [= <-] & ?)] _]; [done|lia].
    - split; [|naive_solver]. intros ->. split; [right; eauto|done]. }
  unfold read_limited. rewrite (proj2 (Z.leb_gt _ _)) by lia. unfold str_len.
  destruct (Z.leb_spec (maxlen + 1) (Z.of_nat (String.length (rs_body r)))) as [Hl|Hl].
  - cbn [obind]. rewrite str_take_length. rewrite (proj2 (Z.ltb_lt _ _)) by lia. split; [naive_solver|]. intros (_ & _ & _ & H & _). lia.
  - destruct (rs_broken r); cbn [obind]; [naive_solver|]. rewrite (proj2 (Z.ltb_ge _ _)) by lia. naive_solver lia.
Qed.
Lemma download_file_status res url maxlen r : res = Ok r -> rs_status r <> 200 ->
  download_file res url maxlen = Err (ErrDownloadHTTP (rs_status r) url).
Proof. intros -> Hs. unfold download_file. cbn. by rewrite (proj2 (Z.eqb_neq _ _)). Qed.
Lemma download_file_bounded res url maxlen data :
  - two63 <= maxlen < two63 -> download_file res url maxlen = Ok data -> Z.of_nat (String.length data) <= maxlen.
Proof.
  intros Hm. unfold download_file. destruct res as [r| |]; cbn; [|done..]. case_match; [|done].
  destruct (if String.eqb (rs_length r) "" then _ else _) as [[]| |]; cbn; [|done..].
  destruct (read_limited _ _ _) as [d| |]; cbn; [|done..]. unfold str_len. destruct (Z.ltb_spec maxlen (Z.of_nat (String.length d))); [done|].
  intros [= <-]. lia.
Qed.
(** the overflow: with the largest limit every complete answer with status 200 is read as empty *)
Lemma download_file_overflow body url :
  download_file (Ok (mkResponse 200 "" body false)) url max_int64 = Ok "".
Proof. reflexivity. Qed.

(** ** Further lemmas used by PropertiesBasic.v *)
Lemma hex_round_trip b : hexbytes_unmarshal (enc_hex b) = Ok b.
Proof. unfold enc_hex, hexbytes_unmarshal. by rewrite hex_decode_encode. Qed.
Definition hex_digits : list ascii := list_ascii_of_string "0123456789abcdefABCDEF".
Lemma is_hex_spec c : is_hex c = true <-> c ∈ hex_digits.
Proof.
  destruct c as [[] [] [] [] [] [] [] []]; vm_compute is_hex; (split; intros H; [first [discriminate H|by apply (bool_decide_unpack _); vm_compute]|]);
  try done; exfalso; apply (bool_decide_pack _) in H; by vm_compute in H.
Qed.
Lemma string_all_Forall f s : string_all f s = true <-> Forall (fun c => f c = true) (list_ascii_of_string s).
Proof. induction s; cbn; [split; [constructor|done]|]. rewrite andb_true_iff, Forall_cons. tauto. Qed.
Lemma hex_accepts j :
  (exists b, hexbytes_unmarshal j = Ok b) <->
  exists s, j = JStr s /\ Nat.Even (String.length s) /\ Forall (fun c => c ∈ hex_digits) (list_ascii_of_string s).
Proof.
  assert (forall s, (exists b, hexbytes_unmarshal (JStr s) = Ok b) <-> exists b, hex_decode s = Some b) as Hs.
  { intros s. cbn. destruct (hex_decode s); cbn; split; intros [b Hb]; simplify_eq; eauto. }
  assert (forall s, (exists b, hex_decode s = Some b) <-> Nat.Even (String.length s) /\ Forall (fun c => c ∈ hex_digits) (list_ascii_of_string s)) as Hd.
  { intros s. rewrite hex_decode_some, Nat.even_spec, string_all_Forall. setoid_rewrite is_hex_spec. done. }
  split.
  - intros [b Hb]. destruct j; try done. exists s. split; [done|]. apply Hd, Hs. eauto.
  - intros (s & -> & H). apply Hs, Hd. done.
Qed.
(** letters in lower case *)
Lemma hexval_lower c d : lower_ascii c = lower_ascii d -> hexval c = hexval d.
Proof.
  intros H. assert (forall c, hexval c = hexval (lower_ascii c)) as Hl.
  { clear. intros c. destruct c as [[] [] [] [] [] [] [] []]; vm_compute; reflexivity. }
  rewrite (Hl c), (Hl d). by rewrite H.
Qed.
Lemma hex_case s t : String.length s = String.length t ->
  (forall n c d, String.get n s = Some c -> String.get n t = Some d -> lower_ascii c = lower_ascii d) ->
  hex_decode s = hex_decode t.
Proof.
  revert t. induction s as [|a|a b s IH] using str_ind2; intros t Hl Hg.
  - by destruct t.
  - destruct t as [|a' [|b' t]]; done.
  - destruct t as [|a' [|b' t]]; [done..|]. cbn [hex_decode].
    rewrite (hexval_lower a a'), (hexval_lower b b'), (IH t); [done| | |apply (Hg 1%nat); done|apply (Hg 0%nat); done].
    + cbn in Hl. lia.
    + intros n c d Hc Hd. apply (Hg (S (S n))); done.
Qed.
Lemma expired_mono {T} {RT : RoleTy T} (x : T) ref ref' : is_expired x ref = true -> ref <= ref' -> is_expired x ref' = true.
Proof. unfold is_expired. rewrite !after_spec. lia. Qed.
Lemma instant_calendar :
  (forall h mi s ns off, instant (mkTime 1970 1 1 h mi s ns off) = (h * 3600 + mi * 60 + s - off) * 1000000000 + ns) /\
  (forall y m d y' m' d' h mi s ns off, next_day (y, m, d) (y', m', d') ->
     instant (mkTime y' m' d' h mi s ns off) = instant (mkTime y m d h mi s ns off) + 24 * 3600 * 1000000000) /\
  (forall t t', valid_time t -> valid_time t' -> t_off t = t_off t' -> lex_lt (clock t) (clock t') -> instant t < instant t').
Proof.
  split; [|split].
  - intros. unfold instant. cbn [t_year t_mon t_day t_hour t_min t_sec t_ns t_off]. rewrite epoch_zero. lia.
  - intros * H%next_day_succ. unfold instant. cbn [t_year t_mon t_day t_hour t_min t_sec t_ns t_off]. rewrite H. lia.
  - apply instant_lex.
Qed.
Lemma no_hash_target {CR : Crypto} : exists (f : targetfile) (j : json),
  targetfile_unmarshal j = Ok f /\ (forall alg dig, ~ lists (tf_hashes f) alg dig) /\
  forall data, String.length data = 3%nat -> targetfile_verify f data = Ok tt.
Proof.
  pose (j := JObj [("length", JNum "3"); ("hashes", JObj [])]).
  pose (f := match targetfile_unmarshal j with Ok f => f | _ => mkTargetFile 0 None None "" None end).
  assert (tf_hashes f = Some ∅) as Hh by (vm_compute; reflexivity).
  assert (tf_length f = 3) as Hf by (vm_compute; reflexivity).
  exists f, j. split; [reflexivity|]. clearbody f. split.
  - intros alg dig (m & Hm & H). rewrite Hh in Hm. injection Hm as <-. by rewrite lookup_empty in H.
  - intros data Hd. apply targetfile_verify_ok. rewrite Hh, Hf, Hd. split; [|done]. intros m alg dig [= <-] H. by rewrite lookup_empty in H.
Qed.
Lemma some_hash {CR : Crypto} f data :
  (exists alg dig, lists (tf_hashes f) alg dig) -> targetfile_verify f data = Ok tt ->
  lists (tf_hashes f) "sha256" (sha256 data) \/ lists (tf_hashes f) "sha512" (sha512 data).
Proof.
  intros (alg & dig & m & Hm & Hl) [Hh _]%targetfile_verify_ok.
  destruct (Hh m alg dig Hm Hl) as [[-> ->]|[-> ->]]; [left|right]; exists m; done.
Qed.
Lemma generated_accepts {CR : Crypto} path data algs f data' :
  targetfile_from_bytes path data algs = Ok f ->
  (targetfile_verify f data' = Ok tt <->
   String.length data' = String.length data /\
   forall alg, alg ∈ requested algs ->
     (alg = "sha256" -> sha256 data' = sha256 data) /\ (alg = "sha512" -> sha512 data' = sha512 data)).
Proof.
  intros (Hs & _ & Hl & _ & _ & m & Hm & Hh)%targetfile_from_bytes_ok. rewrite targetfile_verify_ok. split.
  - intros [Ho Hl']. split; [lia|]. intros alg Ha.
    assert (forall dig, is_digest data alg dig -> is_digest data' alg dig) as Hd.
    { intros dig Hd. apply (Ho m alg dig Hm). apply Hh. done. }
    split; intros ->.
    + destruct (Hd (sha256 data)) as [[_ ?]|[? _]]; [left; done|done|discriminate].
    + destruct (Hd (sha512 data)) as [[? _]|[_ ?]]; [right; done|discriminate|done].
  - intros [Hl' Hd]. split; [|lia]. intros m' alg dig Hm' Hlk. assert (m' = m) as -> by congruence.
    apply Hh in Hlk as [Ha Hdig]. destruct (Hd alg Ha) as [H1 H2].
    destruct Hdig as [[-> ->]|[-> ->]]; [left|right]; split; auto; symmetry; auto.
Qed.
Lemma targetfile_equal_sym a b : targetfile_equal a b = targetfile_equal b a.
Proof.
  apply eq_true_iff_eq. rewrite !targetfile_equal_spec. split.
  - intros (Hl & (alg & d & H1 & H2) & H). split; [done|]. split; [eauto|]. intros alg' e e' He He'. symmetry. eauto.
  - intros (Hl & (alg & d & H1 & H2) & H). split; [done|]. split; [eauto|]. intros alg' e e' He He'. symmetry. eauto.
Qed.
Lemma targetfile_equal_same a b : targetfile_equal a b = true ->
  (forall alg, (exists d, lists (tf_hashes a) alg d) <-> (exists d, lists (tf_hashes b) alg d)) ->
  tf_length a = tf_length b /\ forall alg d, lists (tf_hashes a) alg d <-> lists (tf_hashes b) alg d.
Proof.
  intros (Hl & _ & H)%targetfile_equal_spec Hs. split; [done|]. intros alg d. split; intros Hd.
  - destruct (proj1 (Hs alg)) as [d' Hd']; [eauto|]. by rewrite (H _ _ _ Hd Hd').
  - destruct (proj2 (Hs alg)) as [d' Hd']; [eauto|]. by rewrite <- (H _ _ _ Hd' Hd).
Qed.
Lemma equal_not_equivalence :
  (exists a, targetfile_equal a a = false) /\
  (exists a b c, targetfile_equal a b = true /\ targetfile_equal b c = true /\ targetfile_equal a c = false).
Proof.
  split.
  - exists (mkTargetFile 0 None None "" None). reflexivity.
  - exists (mkTargetFile 0 (Some {["sha256" := "x"]}) None "" None),
      (mkTargetFile 0 (Some (<["sha256" := "x"]> {["sha512" := "y"]})) None "" None),
      (mkTargetFile 0 (Some {["sha512" := "y"]}) None "" None). vm_compute. auto.
Qed.
Lemma targetfile_equal_refl a : targetfile_equal a a = true <-> exists alg d, lists (tf_hashes a) alg d.
Proof.
  rewrite targetfile_equal_spec. split; [naive_solver|]. intros (alg & d & H). split; [done|]. split; [eauto|].
  intros alg' e e' H1 H2. rewrite lists_mget in *. congruence.
Qed.
Lemma targetfile_equal_trans a b c :
  (forall alg, (exists d, lists (tf_hashes a) alg d) <-> (exists d, lists (tf_hashes b) alg d)) ->
  targetfile_equal a b = true -> targetfile_equal b c = true -> targetfile_equal a c = true.
Proof.
  intros Hs Hab Hbc. destruct (targetfile_equal_same a b Hab Hs) as [Hl Hh].
  apply targetfile_equal_spec in Hbc as (Hl' & (alg & d & H1 & H2) & H). apply targetfile_equal_spec. split; [congruence|].
  split; [exists alg, d; split; [by apply Hh|done]|]. intros alg' e e' He He'. eapply H; [by apply Hh|done].
Qed.
Lemma innermost_nowrap e : ~ is_wrap (innermost e).
Proof. induction e; cbn; try done; intros (? & ? & [=]). Qed.
Local Ltac lift_is e L := rewrite !(errors_is_innermost e) by (intros (? & ? & [=])); exact (L (innermost e) (innermost_nowrap e)).
Lemma errors_is_repository_all e :
  errors_is e (ErrRepository "") = true <->
  (exists m, let i := innermost e in i = ErrUnsignedMetadata m \/ i = ErrBadVersionNumber m \/ i = ErrEqualVersionNumber m \/
     i = ErrExpiredMetadata m \/ i = ErrLengthOrHashMismatch m)
  \/ innermost e = ErrRepository "".
Proof. lift_is e errors_is_repository. Qed.
Lemma errors_is_bad_version_all e :
  errors_is e (ErrBadVersionNumber "") = true <->
  exists m, innermost e = ErrBadVersionNumber m \/ innermost e = ErrEqualVersionNumber m.
Proof. lift_is e errors_is_bad_version. Qed.
Lemma errors_is_download_all e :
  errors_is e (ErrDownload "") = true <->
  (exists m, innermost e = ErrDownloadLengthMismatch m) \/ (exists s u, innermost e = ErrDownloadHTTP s u) \/ innermost e = ErrDownload "".
Proof. lift_is e errors_is_download. Qed.
Lemma errors_is_leaf_all e :
  (errors_is e (ErrUnsignedMetadata "") = true <-> exists m, innermost e = ErrUnsignedMetadata m) /\
  (errors_is e (ErrEqualVersionNumber "") = true <-> exists m, innermost e = ErrEqualVersionNumber m) /\
  (errors_is e (ErrExpiredMetadata "") = true <-> exists m, innermost e = ErrExpiredMetadata m) /\
  (errors_is e (ErrLengthOrHashMismatch "") = true <-> exists m, innermost e = ErrLengthOrHashMismatch m) /\
  (errors_is e (ErrDownloadLengthMismatch "") = true <-> exists m, innermost e = ErrDownloadLengthMismatch m) /\
  (errors_is e (ErrDownloadHTTP 0 "") = true <-> exists s u, innermost e = ErrDownloadHTTP s u) /\
  (errors_is e (ErrValue "") = true <-> innermost e = ErrValue "") /\
  (errors_is e (ErrType "") = true <-> innermost e = ErrType "") /\
  (errors_is e (ErrRuntime "") = true <-> innermost e = ErrRuntime "").
Proof. lift_is e errors_is_leaf. Qed.
Lemma errors_is_repo_msg m : errors_is (ErrRepository m) (ErrRepository "") = true <-> m = "".
Proof. cbn. case_bool_decide; cbn; naive_solver. Qed.
Lemma download_file_overflow_ex : exists body url,
  body <> "" /\ download_file (Ok (mkResponse 200 "" body false)) url (2 ^ 63 - 1) = Ok "".
Proof. exists "data", "u". split; [discriminate|apply download_file_overflow]. Qed.
