(** * [filepath.Match] implements the glob specification *)
From stdpp Require Import base gmap strings list.
From Coq Require Import ZArith Lia Ascii String.
From Verif Require Import GoBase GoStr Types Keys Glob StrProofs SpecUtf8 Utf8Proofs SpecDeleg.
Open Scope Z_scope.

Local Ltac sapp := rewrite ?app_cons_s, ?app_nil_l_s.
Lemma bz_eqb c z d : bz d = z -> (bz c =? z) = Ascii.eqb c d.
Proof.
  intros <-. destruct (Ascii.eqb_spec c d) as [->|H]; [apply Z.eqb_refl|]. apply Z.eqb_neq. intros He. apply H. by apply bz_inj.
Qed.
Lemma bz_star c : (bz c =? 42) = Ascii.eqb c "*". Proof. by apply bz_eqb. Qed.
Lemma bz_bsl c : (bz c =? 92) = Ascii.eqb c "\". Proof. by apply bz_eqb. Qed.
Lemma bz_lbr c : (bz c =? 91) = Ascii.eqb c "[". Proof. by apply bz_eqb. Qed.
Lemma bz_rbr c : (bz c =? 93) = Ascii.eqb c "]". Proof. by apply bz_eqb. Qed.
Lemma bz_min c : (bz c =? 45) = Ascii.eqb c "-". Proof. by apply bz_eqb. Qed.
Lemma bz_qm c : (bz c =? 63) = Ascii.eqb c "?". Proof. by apply bz_eqb. Qed.
Lemma bz_crt c : (bz c =? 94) = Ascii.eqb c "^". Proof. by apply bz_eqb. Qed.
Ltac bzs := rewrite ?bz_star, ?bz_bsl, ?bz_lbr, ?bz_rbr, ?bz_min, ?bz_qm, ?bz_crt in *.

(** ** Class characters *)
Lemma is_char_not r u a t d : is_char r u -> u = String a t -> bz d < 128 -> r <> bz d -> a <> d.
Proof. intros H -> Hd Hr ->. destruct (is_char_high _ _ _ H) as [(_ & _ & ->)|[? _]]; [done|lia]. Qed.
Lemma is_char_nonempty r u : is_char r u -> exists a t, u = String a t.
Proof. intros H. pose proof (is_char_len _ _ H). destruct u; [cbn in *; lia|eauto]. Qed.
Lemma get_esc_complete s r rest : class_char s r rest -> rest <> "" -> get_esc s = Some (r, rest).
Proof.
  intros H Hr. assert (String.eqb rest "" = false) as He by (by apply String.eqb_neq).
  destruct H as [r u s Hc H1 H2 H3|r u s Hc].
  - destruct (is_char_nonempty _ _ Hc) as (a & t & ->). sapp. cbn [get_esc]. bzs.
    destruct (Ascii.eqb_spec a "-"); [exfalso; by apply (is_char_not _ _ _ _ "-"%char Hc eq_refl)|].
    destruct (Ascii.eqb_spec a "]"); [exfalso; by apply (is_char_not _ _ _ _ "]"%char Hc eq_refl)|].
    destruct (Ascii.eqb_spec a "\"); [exfalso; by apply (is_char_not _ _ _ _ "\"%char Hc eq_refl)|]. cbn [orb].
    rewrite <- (app_cons_s a t s), (decode_rune_char _ _ s Hc). rewrite str_drop_app, He, orb_false_r.
    destruct (Z.eqb_spec r 65533) as [->|]; [|done]. destruct (Nat.eqb_spec (String.length (String a t)) 1) as [Hl|]; [|done].
    exfalso. destruct (is_char_high _ _ _ Hc) as [(? & _ & Hx)|[? _]]; [lia|]. cbn in Hl. destruct t; [|cbn in Hl; lia].
    inversion Hc; unfold str_of in *; cbn in *; try discriminate; try lia.
  - cbn [get_esc]. bzs. cbn [Ascii.eqb Bool.eqb orb].
    destruct (is_char_nonempty _ _ Hc) as (a & t & ->). sapp.
    rewrite <- (app_cons_s a t s), (decode_rune_char _ _ s Hc). rewrite str_drop_app, He, orb_false_r.
    destruct (Z.eqb_spec r 65533) as [->|]; [|done]. destruct (Nat.eqb_spec (String.length (String a t)) 1) as [Hl|]; [|done].
    exfalso. destruct (is_char_high _ _ _ Hc) as [(? & _ & Hx)|[? _]]; [lia|]. cbn in Hl. destruct t; [|cbn in Hl; lia].
    inversion Hc; unfold str_of in *; cbn in *; try discriminate; try lia.
Qed.
Lemma get_esc_sound s r rest : get_esc s = Some (r, rest) -> class_char s r rest /\ rest <> "".
Proof.
  assert (forall t, t <> "" -> forall r0 n, decode_rune t = (r0, n) ->
    ((r0 =? 65533) && Nat.eqb n 1) = false -> is_char r0 (str_take n t)) as Hd.
  { intros t Ht r0 n Hdec Hn. destruct (decode_rune_inv _ _ _ Ht Hdec) as [[Hc _]|(_ & -> & ->)]; [done|discriminate Hn]. }
  destruct s as [|c s]; [done|]. cbn [get_esc]. bzs.
  destruct (Ascii.eqb_spec c "-") as [->|H1]; [done|]. destruct (Ascii.eqb_spec c "]") as [->|H2]; [done|]. cbn [orb].
  destruct (Ascii.eqb_spec c "\") as [->|H3].
  - destruct s as [|a t]; [done|]. destruct (decode_rune (String a t)) as [ru n] eqn:Edec.
    destruct (((ru =? 65533) && Nat.eqb n 1) || String.eqb (str_drop n (String a t)) "") eqn:Eb; [done|].
    apply orb_false_iff in Eb as [E1 E2]. intros [= <- <-]. split; [|by apply String.eqb_neq].
    rewrite <- (str_take_drop n (String a t)) at 1. constructor. apply (Hd (String a t) ltac:(discriminate) _ _ Edec). done.
  - destruct (decode_rune (String c s)) as [ru n] eqn:Edec.
    destruct (((ru =? 65533) && Nat.eqb n 1) || String.eqb (str_drop n (String c s)) "") eqn:Eb; [done|].
    apply orb_false_iff in Eb as [E1 E2]. intros [= <- <-]. split; [|by apply String.eqb_neq].
    pose proof (Hd (String c s) ltac:(discriminate) _ _ Edec E1) as Hc.
    assert (forall d, bz d < 128 -> c <> d -> ru <> bz d) as Hne.
    { intros d Hsm Hcd ->. destruct (decode_rune_inv (String c s) _ _ ltac:(discriminate) Edec) as [[_ Hl]|(_ & Hx & _)]; [|lia].
      destruct n as [|n]; [pose proof (is_char_len _ _ Hc); cbn in *; lia|]. cbn in Hc.
      destruct (is_char_high _ _ _ Hc) as [(_ & _ & Hb)|[_ ?]]; [|lia]. apply Hcd. by apply bz_inj. }
    rewrite <- (str_take_drop n (String c s)) at 1. constructor; [done|..].
    + by apply (Hne "-"%char). + by apply (Hne "]"%char). + by apply (Hne "\"%char).
Qed.
Lemma class_char_first c s r rest : class_char (String c s) r rest -> c <> "]"%char /\ c <> "-"%char.
Proof.
  intros H. remember (String c s) as t eqn:Et. destruct H as [r u s' Hc H1 H2 H3|r u s' Hc].
  - destruct (is_char_nonempty _ _ Hc) as (a & t & ->). rewrite app_cons_s in Et. injection Et as -> _.
    split; [by apply (is_char_not _ _ _ _ "]"%char Hc eq_refl)|by apply (is_char_not _ _ _ _ "-"%char Hc eq_refl)].
  - injection Et as <- _. done.
Qed.
Lemma class_char_len s r rest : class_char s r rest -> (String.length rest < String.length s)%nat.
Proof. intros [? ? ? H|? ? ? H]; cbn; rewrite app_len_s; pose proof (is_char_len _ _ H); lia. Qed.
Lemma class_items_nonempty s rs e : class_items s rs e -> exists c t, s = String c t /\ c <> "-"%char.
Proof.
  assert (forall s r s', class_char s r s' -> exists c t, s = String c t /\ c <> "-"%char) as Hx.
  { intros s0 r s' H. destruct s0 as [|c t].
    - exfalso. pose proof (class_char_len _ _ _ H). cbn in *. lia.
    - exists c, t. split; [done|]. apply (class_char_first _ _ _ _ H). }
  intros []; [eexists _, _; split; [done|discriminate]|eauto..].
Qed.

(** ** Classes *)
Definition in_rangesb (r : Z) (rs : list (Z * Z)) : bool := existsb (fun p => (fst p <=? r) && (r <=? snd p)) rs.
Lemma in_rangesb_spec r rs : in_rangesb r rs = true <-> in_ranges r rs.
Proof.
  unfold in_rangesb, in_ranges. rewrite existsb_exists. split.
  - intros ([lo hi] & Hi & Hb). cbn in Hb. apply andb_prop in Hb as [?%Z.leb_le ?%Z.leb_le]. exists lo, hi. split; [by apply elem_of_list_In|done].
  - intros (lo & hi & Hi & ?). exists (lo, hi). split; [by apply elem_of_list_In|]. cbn. apply andb_true_iff. rewrite !Z.leb_le. done.
Qed.
Lemma match_ranges_complete chunk rs rest : class_items chunk rs rest ->
  forall fuel r first matched, (String.length chunk < fuel)%nat -> (first = true -> rs <> []) ->
  match_ranges fuel r first matched chunk = Some (matched || in_rangesb r rs, rest).
Proof.
  induction 1 as [s|s r0 s' rs e Hc Hi IH|s lo s' hi s'' rs e Hc1 Hc2 Hi IH]; intros fuel r first matched Hf Hn.
  - destruct fuel; [lia|]. cbn. destruct first; [exfalso; by apply Hn|]. cbn. by rewrite orb_false_r.
  - destruct fuel; [lia|]. cbn [match_ranges].
    destruct (class_items_nonempty _ _ _ Hi) as (d & t & -> & Hd). destruct s as [|c s]; [pose proof (class_char_len _ _ _ Hc); cbn in *; lia|].
    destruct (class_char_first _ _ _ _ Hc) as [Hc1 Hc2]. bzs. destruct (Ascii.eqb_spec c "]"); [done|]. cbn [andb].
    rewrite (get_esc_complete _ _ _ Hc) by done. bzs. destruct (Ascii.eqb_spec d "-"); [done|].
    rewrite IH; [|pose proof (class_char_len _ _ _ Hc); lia|done]. f_equal. f_equal. cbn [in_rangesb existsb fst snd].
    rewrite orb_assoc. f_equal. f_equal. apply eq_true_iff_eq. rewrite andb_true_iff, Z.eqb_eq, !Z.leb_le. lia.
  - destruct fuel; [lia|]. cbn [match_ranges]. destruct s as [|c s]; [pose proof (class_char_len _ _ _ Hc1); cbn in *; lia|].
    destruct (class_char_first _ _ _ _ Hc1) as [Hd1 Hd2]. bzs. destruct (Ascii.eqb_spec c "]"); [done|]. cbn [andb].
    rewrite (get_esc_complete _ _ _ Hc1) by done. bzs. cbn [Ascii.eqb Bool.eqb].
    destruct (class_items_nonempty _ _ _ Hi) as (d & t & -> & Hd).
    rewrite (get_esc_complete _ _ _ Hc2) by done.
    rewrite IH; [|pose proof (class_char_len _ _ _ Hc1); pose proof (class_char_len _ _ _ Hc2); cbn in *; lia|done].
    f_equal. f_equal. cbn [in_rangesb existsb fst snd]. by rewrite orb_assoc.
Qed.
Lemma match_ranges_sound fuel : forall r first matched chunk m rest,
  match_ranges fuel r first matched chunk = Some (m, rest) -> exists rs, class_items chunk rs rest /\ (first = true -> rs <> []).
Proof.
  induction fuel as [|fuel IH]; intros r first matched chunk m rest H; [done|]. cbn [match_ranges] in H.
  destruct chunk as [|c s]; [done|]. bzs. destruct (Ascii.eqb c "]" && negb first) eqn:E.
  - injection H as <- <-. apply andb_prop in E as [E1 E2]. apply Ascii.eqb_eq in E1 as ->. exists []. split; [constructor|]. by destruct first.
  - destruct (get_esc (String c s)) as [[lo chunk1]|] eqn:E1; [|done]. apply get_esc_sound in E1 as [Hc1 _].
    destruct chunk1 as [|d rest1]; [done|]. bzs. destruct (Ascii.eqb_spec d "-") as [->|Hd].
    + destruct (get_esc rest1) as [[hi chunk2]|] eqn:E2; [|done]. apply get_esc_sound in E2 as [Hc2 _].
      apply IH in H as (rs & Hi & _). exists ((lo, hi) :: rs). split; [by eapply ci_range|done].
    + apply IH in H as (rs & Hi & _). exists ((lo, lo) :: rs). split; [by eapply ci_one|done].
Qed.

(** ** Context-freeness: what follows a character or a class does not matter *)
Lemma class_char_app s r e : class_char s r e ->
  exists pre, s = pre +:+ e /\ (forall q, class_char (pre +:+ q) r q) /\
    (forall q, scan_body true (pre +:+ q) = let '(a, b) := scan_body true q in (pre +:+ a, b)).
Proof.
  assert (forall u q, Forall (fun c => 128 <= bz c) (list_ascii_of_string u) ->
    scan_body true (u +:+ q) = let '(a, b) := scan_body true q in (u +:+ a, b)) as Hhi.
  { intros u q. induction u as [|c u IH]; intros H; [sapp; by destruct (scan_body true q)|].
    cbn in H. apply Forall_cons in H as [Hb H]. sapp. cbn [scan_body].
    destruct (Z.eqb_spec (bz c) 92); [lia|]. destruct (Z.eqb_spec (bz c) 91); [lia|]. destruct (Z.eqb_spec (bz c) 93); [lia|].
    rewrite andb_false_r, IH by done. by destruct (scan_body true q). }
  assert (forall a u r, is_char r (String a u) -> Forall (fun c => 128 <= bz c) (list_ascii_of_string u)) as Htail.
  { intros a u r0 Hc. remember (String a u) as t eqn:Et. destruct Hc; unfold str_of in Et; cbn in Et; injection Et as <- <-; cbn;
    repeat constructor; rewrite bz_zb; lia. }
  intros [r0 u s' Hc H1 H2 H3|r0 u s' Hc].
  - exists u. split; [done|]. split; [intros; by constructor|]. intros q.
    destruct (is_char_nonempty _ _ Hc) as (a & t & ->). sapp. cbn [scan_body]. bzs.
    destruct (Ascii.eqb_spec a "]"); [exfalso; by apply (is_char_not _ _ _ _ "]"%char Hc eq_refl)|].
    destruct (Ascii.eqb_spec a "\"); [exfalso; by apply (is_char_not _ _ _ _ "\"%char Hc eq_refl)|].
    rewrite (Hhi t q) by (by eapply Htail). destruct (scan_body true q).
    destruct (Ascii.eqb_spec a "["); [done|]. rewrite andb_false_r. done.
  - exists (String "\" u). sapp. split; [done|]. split; [intros; sapp; by constructor|]. intros q. sapp. cbn [scan_body]. bzs.
    destruct (is_char_nonempty _ _ Hc) as (a & t & ->). sapp. cbn [Ascii.eqb Bool.eqb].
    rewrite (Hhi t q) by (by eapply Htail). destruct (scan_body true q). by sapp.
Qed.
Lemma class_items_app s rs e : class_items s rs e ->
  exists pre, s = pre +:+ e /\ pre <> "" /\ (forall q, class_items (pre +:+ q) rs q) /\
    (forall q, scan_body true (pre +:+ q) = let '(a, b) := scan_body false q in (pre +:+ a, b)).
Proof.
  induction 1 as [s|s r0 s' rs e Hc Hi IH|s lo s' hi s'' rs e Hc1 Hc2 Hi IH].
  - exists "]". split; [done|]. split; [done|]. split; [intros; constructor|]. intros q. sapp. cbn [scan_body]. bzs. cbn [Ascii.eqb Bool.eqb].
    destruct (scan_body false q). by sapp.
  - destruct IH as (p2 & -> & Hne & Hp2 & Hs2). destruct (class_char_app _ _ _ Hc) as (p1 & -> & Hp1 & Hs1).
    exists (p1 +:+ p2). rewrite app_assoc_s. split; [done|]. split; [destruct p1; [by sapp|done]|]. split; intros q; rewrite app_assoc_s.
    + eapply ci_one; [apply Hp1|apply Hp2].
    + rewrite Hs1, Hs2. destruct (scan_body false q). by rewrite app_assoc_s.
  - destruct IH as (p3 & -> & Hne & Hp3 & Hs3). destruct (class_char_app _ _ _ Hc2) as (p2 & -> & Hp2 & Hs2).
    destruct (class_char_app _ _ _ Hc1) as (p1 & -> & Hp1 & Hs1).
    exists (p1 +:+ String "-" (p2 +:+ p3)). split; [rewrite app_assoc_s; sapp; by rewrite app_assoc_s|].
    split; [by destruct p1|]. split; intros q; rewrite app_assoc_s; sapp; rewrite app_assoc_s.
    + eapply ci_range; [apply Hp1|apply Hp2|apply Hp3].
    + rewrite Hs1. cbn [scan_body]. bzs. cbn [Ascii.eqb Bool.eqb andb negb]. rewrite Hs2, Hs3.
      destruct (scan_body false q). rewrite app_assoc_s. sapp. by rewrite app_assoc_s.
Qed.
Lemma glob_parse_app p ts q us : glob_parse p ts -> glob_parse q us -> glob_parse (p +:+ q) (ts ++ us).
Proof.
  intros H Hq. induction H as [|p ts H IH|p ts H IH|c p ts H IH|c p ts H1 H2 H3 H4 H IH|c p rs p' ts Hc Hr Hi H IH|p rs p' ts Hr Hi H IH]; sapp; cbn [app].
  - done.
  - by constructor.
  - by constructor.
  - by constructor.
  - by constructor.
  - destruct (class_items_app _ _ _ Hi) as (pre & He & Hne & Hp & _). destruct pre as [|d pre]; [done|].
    rewrite app_cons_s in He. injection He as <- ->. rewrite app_assoc_s.
    eapply gp_class; [done|done| |exact IH]. rewrite <- app_cons_s. apply Hp.
  - destruct (class_items_app _ _ _ Hi) as (pre & -> & Hne & Hp & _). rewrite app_assoc_s.
    eapply gp_nclass; [done| |exact IH]. apply Hp.
Qed.

(** ** Chunks *)
Definition starless (ts : list gtok) : Prop := Forall (fun t => t <> GStar) ts.
Definition starts_star (p : string) : Prop := exists q, p = String "*" q.
Lemma scan_body_app b p c r : scan_body b p = (c, r) -> p = c +:+ r /\ (r = "" \/ starts_star r) /\ scan_body b c = (c, "").
Proof.
  remember (String.length p) as n eqn:Hn. assert (String.length p <= n)%nat as Hl by lia. clear Hn. revert b p Hl c r.
  induction n as [|n IH]; intros b p Hl c r H; destruct p as [|a p]; try (cbn in Hl; lia); cbn [scan_body] in H.
  - injection H as <- <-. auto.
  - injection H as <- <-. auto.
  - cbn in Hl. destruct (bz a =? 92) eqn:E1.
    { destruct p as [|d p]; [injection H as <- <-; split; [done|]; split; [auto|]; cbn; by rewrite E1|].
      destruct (scan_body b p) as [x y] eqn:Es. injection H as <- <-. cbn in Hl. destruct (IH b p ltac:(lia) _ _ Es) as (-> & Hr & Hx).
      sapp. split; [done|]. split; [done|]. cbn [scan_body]. by rewrite E1, Hx. }
    destruct (bz a =? 91) eqn:E2.
    { destruct (scan_body true p) as [x y] eqn:Es. injection H as <- <-. destruct (IH _ p ltac:(lia) _ _ Es) as (-> & Hr & Hx).
      sapp. split; [done|]. split; [done|]. cbn [scan_body]. by rewrite E1, E2, Hx. }
    destruct (bz a =? 93) eqn:E3.
    { destruct (scan_body false p) as [x y] eqn:Es. injection H as <- <-. destruct (IH _ p ltac:(lia) _ _ Es) as (-> & Hr & Hx).
      sapp. split; [done|]. split; [done|]. cbn [scan_body]. by rewrite E1, E2, E3, Hx. }
    destruct ((bz a =? 42) && negb b) eqn:E4.
    { injection H as <- <-. split; [done|]. split; [|done]. right. apply andb_prop in E4 as [E4 _]. rewrite bz_star in E4. apply Ascii.eqb_eq in E4 as ->. by eexists. }
    destruct (scan_body b p) as [x y] eqn:Es. injection H as <- <-. destruct (IH _ p ltac:(lia) _ _ Es) as (-> & Hr & Hx).
    sapp. split; [done|]. split; [done|]. cbn [scan_body]. by rewrite E1, E2, E3, E4, Hx.
Qed.
Lemma scan_body_parse p ts : glob_parse p ts -> exists t1 t2, ts = t1 ++ t2 /\ starless t1 /\
  glob_parse (fst (scan_body false p)) t1 /\ glob_parse (snd (scan_body false p)) t2.
Proof.
  induction 1 as [|p ts H IH|p ts H IH|c p ts H IH|c p ts H1 H2 H3 H4 H IH|c p rs p' ts Hc Hr Hi H IH|p rs p' ts Hr Hi H IH].
  - exists [], []. split; [done|]. split; [constructor|]. split; constructor.
  - exists [], (GStar :: ts). cbn. split; [done|]. split; [constructor|]. split; by constructor.
  - destruct IH as (t1 & t2 & -> & Hs & Hp1 & Hp2). exists (GAny :: t1), t2. cbn [scan_body]. bzs. cbn [Ascii.eqb Bool.eqb andb].
    destruct (scan_body false p). cbn in *. split; [done|]. split; [by constructor|]. split; by try constructor.
  - destruct IH as (t1 & t2 & -> & Hs & Hp1 & Hp2). exists (GLit c :: t1), t2. cbn [scan_body]. bzs. cbn [Ascii.eqb Bool.eqb andb].
    destruct (scan_body false p). cbn in *. split; [done|]. split; [by constructor|]. split; by try constructor.
  - destruct IH as (t1 & t2 & -> & Hs & Hp1 & Hp2). exists (GLit c :: t1), t2. cbn [scan_body]. bzs.
    destruct (Ascii.eqb_spec c "\"); [done|]. destruct (Ascii.eqb_spec c "["); [done|]. destruct (Ascii.eqb_spec c "*"); [done|]. cbn [andb].
    destruct (scan_body false p). cbn in *. destruct (Ascii.eqb c "]"); cbn; (split; [done|]); (split; [by constructor|]); split; by try constructor.
  - destruct IH as (t1 & t2 & -> & Hs & Hp1 & Hp2). exists (GClass false rs :: t1), t2.
    destruct (class_items_app _ _ _ Hi) as (pre & He & Hne & Hp & Hsc). rewrite He.
    destruct pre as [|d pre]; [done|]. rewrite app_cons_s in He. injection He as <- ->.
    replace (scan_body false (String "[" (String c pre +:+ p'))) with (let '(a, b) := scan_body true (String c pre +:+ p') in (String "[" a, b)) by done.
    rewrite Hsc. destruct (scan_body false p') as [a b]. cbn [fst snd] in *. split; [done|]. split; [by constructor|]. split; [|done].
    sapp. eapply gp_class; [done|done| |done]. rewrite <- app_cons_s. apply Hp.
  - destruct IH as (t1 & t2 & -> & Hs & Hp1 & Hp2). exists (GClass true rs :: t1), t2.
    destruct (class_items_app _ _ _ Hi) as (pre & -> & Hne & Hp & Hsc).
    replace (scan_body false (String "[" (String "^" (pre +:+ p')))) with (let '(a, b) := scan_body true (pre +:+ p') in (String "[" (String "^" a), b)).
    2:{ cbn [scan_body]. bzs. cbn [Ascii.eqb Bool.eqb andb negb]. by destruct (scan_body true _). }
    rewrite Hsc. destruct (scan_body false p') as [a b]. cbn [fst snd] in *. split; [done|]. split; [by constructor|]. split; [|done].
    eapply gp_nclass; [done| |done]. apply Hp.
Qed.

(** a star-free token list as a function: what is left of the string *)
Fixpoint run_toks (ts : list gtok) (s : string) : option string :=
  match ts with
  | [] => Some s
  | t :: ts =>
      match s with
      | EmptyString => None
      | String x s' =>
          match t with
          | GLit c => if Ascii.eqb c x then run_toks ts s' else None
          | GAny => if Ascii.eqb x slash then None else run_toks ts (str_drop (snd (decode_rune s)) s)
          | GStar => None
          | GClass neg rs =>
              if Bool.eqb (in_rangesb (fst (decode_rune s)) rs) neg then None
              else run_toks ts (str_drop (snd (decode_rune s)) s)
          end
      end
  end.
Lemma class_items_len s rs e : class_items s rs e -> (String.length e < String.length s)%nat.
Proof. intros H. destruct (class_items_app _ _ _ H) as (pre & -> & Hne & _). rewrite app_len_s. destruct pre; [done|]. cbn. lia. Qed.
Lemma run_toks_nil ts : starless ts -> run_toks ts "" = match ts with [] => Some "" | _ => None end.
Proof. by destruct ts. Qed.
Lemma match_chunk_parsed chunk ts : glob_parse chunk ts -> starless ts -> forall fuel failed s,
  (String.length chunk <= fuel)%nat ->
  match_chunk_loop fuel failed chunk s = Some (if failed then None else run_toks ts s).
Proof.
  induction 1 as [|p ts H IH|p ts H IH|c p ts H IH|c p ts H1 H2 H3 H4 H IH|c p rs p' ts Hc Hr Hi H IH|p rs p' ts Hr Hi H IH];
    intros Hst fuel failed s Hf; (apply Forall_cons in Hst as [Hst0 Hst] || idtac).
  - by destruct fuel.
  - done.
  - destruct fuel as [|fuel]; [cbn in Hf; lia|]. cbn [match_chunk_loop]. bzs. cbn [Ascii.eqb Bool.eqb].
    destruct s as [|x s].
    + rewrite orb_true_r. rewrite IH; [|done|cbn in Hf; lia]. by destruct failed.
    + cbn [String.eqb]. rewrite orb_false_r. destruct failed; cbn [run_toks]; rewrite IH by (done || (cbn in Hf; lia)); done.
  - destruct fuel as [|fuel]; [cbn in Hf; lia|]. cbn [match_chunk_loop]. bzs. cbn [Ascii.eqb Bool.eqb].
    destruct s as [|x s].
    + rewrite orb_true_r. rewrite IH; [|done|cbn in Hf; lia]. by destruct failed.
    + cbn [String.eqb]. rewrite orb_false_r. destruct failed; cbn [run_toks str_drop]; rewrite IH by (done || (cbn in Hf; lia)); [done|].
      by destruct (Ascii.eqb c x), s.
  - destruct fuel as [|fuel]; [cbn in Hf; lia|]. cbn [match_chunk_loop]. bzs.
    destruct (Ascii.eqb_spec c "\"); [done|]. destruct (Ascii.eqb_spec c "["); [done|]. destruct (Ascii.eqb_spec c "?"); [done|].
    destruct s as [|x s].
    + rewrite orb_true_r. rewrite IH; [|done|cbn in Hf; lia]. by destruct failed.
    + cbn [String.eqb]. rewrite orb_false_r. destruct failed; cbn [run_toks str_drop]; rewrite IH by (done || (cbn in Hf; lia)); [done|].
      by destruct (Ascii.eqb c x), s.
  - destruct fuel as [|fuel]; [cbn in Hf; lia|]. cbn [match_chunk_loop]. bzs. cbn [Ascii.eqb Bool.eqb].
    destruct (Ascii.eqb_spec c "^"); [done|]. pose proof (class_items_len _ _ _ Hi). cbn [String.length] in Hf, H0.
    destruct s as [|x s].
    + rewrite orb_true_r. rewrite (match_ranges_complete _ _ _ Hi) by (done || lia). rewrite IH; [|done|lia]. by destruct failed.
    + cbn [String.eqb]. rewrite orb_false_r. destruct failed.
      * rewrite (match_ranges_complete _ _ _ Hi) by (done || lia). rewrite IH; [|done|lia]. done.
      * destruct (decode_rune (String x s)) as [r wd] eqn:Ed. rewrite (match_ranges_complete _ _ _ Hi) by (done || lia).
        rewrite IH; [|done|lia]. cbn [run_toks orb]. rewrite Ed. done.
  - destruct fuel as [|fuel]; [cbn in Hf; lia|]. cbn [match_chunk_loop]. bzs. cbn [Ascii.eqb Bool.eqb].
    pose proof (class_items_len _ _ _ Hi). cbn [String.length] in Hf, H0.
    destruct s as [|x s].
    + rewrite orb_true_r. rewrite (match_ranges_complete _ _ _ Hi) by (done || lia). rewrite IH; [|done|lia]. by destruct failed.
    + cbn [String.eqb]. rewrite orb_false_r. destruct failed.
      * rewrite (match_ranges_complete _ _ _ Hi) by (done || lia). rewrite IH; [|done|lia]. done.
      * destruct (decode_rune (String x s)) as [r wd] eqn:Ed. rewrite (match_ranges_complete _ _ _ Hi) by (done || lia).
        rewrite IH; [|done|lia]. cbn [run_toks orb]. rewrite Ed. done.
Qed.
Lemma match_chunk_sound fuel : forall failed chunk s o,
  match_chunk_loop fuel failed chunk s = Some o -> scan_body false chunk = (chunk, "") ->
  exists ts, glob_parse chunk ts /\ starless ts.
Proof.
  induction fuel as [|fuel IH]; intros failed chunk s o H Hs; (destruct chunk as [|c rest]; [exists []; repeat constructor|]); [done|].
  cbn [match_chunk_loop] in H. cbn [scan_body] in Hs. bzs.
  destruct (Ascii.eqb_spec c "[") as [->|Hb].
  { destruct (if failed || String.eqb s "" then (0, s) else let '(r, n) := decode_rune s in (r, str_drop n s)) as [r s'] eqn:E0.
    cbn [Ascii.eqb Bool.eqb] in Hs. destruct (scan_body true rest) as [a b] eqn:Es. injection Hs as -> ->.
    assert (exists neg pre, (neg = true /\ rest = String "^" pre \/ neg = false /\ rest = pre /\ forall q, pre <> String "^" q) /\
      exists m chunk2, match_ranges (S (String.length pre)) r true false pre = Some (m, chunk2) /\
        match_chunk_loop fuel ((failed || String.eqb s "") || Bool.eqb m neg) chunk2 s' = Some o) as (neg & pre & Hpre & m & chunk2 & Hm & Hl).
    { destruct rest as [|d rest1].
      - exists false, "". split; [right; split; [done|]; split; [done|]; done|]. cbn in H. done.
      - bzs. destruct (Ascii.eqb_spec d "^") as [->|Hd].
        + exists true, rest1. split; [left; done|]. destruct (match_ranges _ r true false rest1) as [[m c2]|]; [|done]. eauto.
        + exists false, (String d rest1). split; [right; split; [done|]; split; [done|]; congruence|].
          destruct (match_ranges _ r true false (String d rest1)) as [[m c2]|]; [|done]. eauto. }
    apply match_ranges_sound in Hm as (rs & Hi & Hr). specialize (Hr eq_refl).
    destruct (class_items_app _ _ _ Hi) as (q & -> & Hq & Hp & Hsc).
    assert (scan_body true (q +:+ chunk2) = (q +:+ chunk2, "")) as Hs2.
    { destruct Hpre as [(-> & ->)|(-> & -> & _)]; [|done]. cbn [scan_body] in Es. bzs. cbn [Ascii.eqb Bool.eqb andb negb] in Es.
      destruct (scan_body true (q +:+ chunk2)). injection Es as -> ->. done. }
    rewrite Hsc in Hs2. destruct (scan_body false chunk2) as [a b] eqn:Ec. injection Hs2 as Ha ->. apply app_inj_s in Ha as ->.
    destruct (IH _ _ _ _ Hl Ec) as (ts & Hts & Hst).
    destruct Hpre as [(-> & ->)|(-> & -> & Hnc)].
    - exists (GClass true rs :: ts). split; [by eapply gp_nclass|by constructor].
    - exists (GClass false rs :: ts). split; [|by constructor]. destruct q as [|d q]; [done|]. rewrite app_cons_s in *. eapply gp_class; try done. intros ->. by eapply Hnc. }
  destruct (Ascii.eqb_spec c "?") as [->|Hq].
  { cbn [Ascii.eqb Bool.eqb andb] in Hs. destruct (scan_body false rest) as [a b] eqn:Es. injection Hs as -> ->.
    match type of H with (let '(_, _) := ?X in _) = _ => destruct X as [f' s'] end.
    destruct (IH _ _ _ _ H Es) as (ts & Hts & Hst). exists (GAny :: ts). split; by constructor. }
  destruct (Ascii.eqb_spec c "\") as [->|Hbs].
  { destruct rest as [|d r']; [done|]. destruct (scan_body false r') as [a b] eqn:Es. injection Hs as -> ->.
    match type of H with (let '(_, _) := ?X in _) = _ => destruct X as [f' s'] end.
    destruct (IH _ _ _ _ H Es) as (ts & Hts & Hst). exists (GLit d :: ts). split; by constructor. }
  match type of H with (let '(_, _) := ?X in _) = _ => destruct X as [f' s'] end.
  destruct (Ascii.eqb_spec c "*") as [->|Hst0].
  { cbn [Ascii.eqb Bool.eqb andb negb] in Hs. discriminate Hs. }
  assert (scan_body false rest = (rest, "")) as Es.
  { cbn [andb] in Hs. destruct (scan_body false rest) as [a b]. destruct (Ascii.eqb c "]"); by injection Hs as -> ->. }
  destruct (IH _ _ _ _ H Es) as (ts & Hts & Hst). exists (GLit c :: ts). split; by constructor.
Qed.

(** ** The match loop *)
Lemma list_ascii_app a b : list_ascii_of_string (a +:+ b) = list_ascii_of_string a ++ list_ascii_of_string b.
Proof. induction a as [|c a IH]; [done|]. sapp. cbn. by rewrite IH. Qed.
Lemma no_slash_app a b : no_slash (a +:+ b) <-> no_slash a /\ no_slash b.
Proof. unfold no_slash. rewrite list_ascii_app. apply Forall_app. Qed.
Lemma ascii_only_app a b : ascii_only (a +:+ b) <-> ascii_only a /\ ascii_only b.
Proof. unfold ascii_only. rewrite list_ascii_app. apply Forall_app. Qed.
Lemma run_toks_denotes ts : starless ts -> forall us s,
  glob_denotes (ts ++ us) s <-> exists t, run_toks ts s = Some t /\ glob_denotes us t.
Proof.
  induction ts as [|t ts IH]; intros Hst us s; [cbn; naive_solver|]. apply Forall_cons in Hst as [Ht Hst]. specialize (IH Hst us).
  cbn [app]. split.
  - intros H. inversion H as [|c ts' s' H'|ts' r s0 s' Hne Hf Hr H'|ts' s0 s' Hn H'|rs ts' r s0 s' Hne Hf Hr H'|rs ts' r s0 s' Hne Hf Hr H']; subst; try done;
      apply IH in H' as (t & Hrun & Hd); exists t; (split; [|done]).
    + cbn. by rewrite Ascii.eqb_refl.
    + destruct s as [|x s]; [done|]. apply first_char_decode in Hf as [<- <-]; [|done]. cbn [run_toks].
      destruct (Ascii.eqb_spec x slash) as [->|]; [exfalso; by apply Hr|done].
    + destruct s as [|x s]; [done|]. apply first_char_decode in Hf as [<- <-]; [|done]. cbn [run_toks].
      apply in_rangesb_spec in Hr. rewrite Hr. done.
    + destruct s as [|x s]; [done|]. apply first_char_decode in Hf as [<- <-]; [|done]. cbn [run_toks].
      rewrite <- in_rangesb_spec in Hr. apply not_true_is_false in Hr. rewrite Hr. done.
  - intros (r & Hrun & Hd). cbn [run_toks] in Hrun. destruct s as [|x s]; [done|].
    assert (forall a b, first_char (String x s) a b <-> fst (decode_rune (String x s)) = a /\ str_drop (snd (decode_rune (String x s))) (String x s) = b) as Hfc
      by (intros; by apply first_char_decode).
    destruct t as [c| | |neg rs]; [| |done|].
    + destruct (Ascii.eqb_spec c x) as [->|]; [|done]. constructor. apply IH. eauto.
    + destruct (Ascii.eqb_spec x slash) as [->|Hx]; [done|]. eapply gd_any; [done|by apply Hfc| |apply IH; eauto].
      intros Hr. apply Hx. apply bz_inj. change (bz slash) with 47.
      destruct (Z.ltb_spec (bz x) 128) as [Hs|Hs]; [rewrite decode_rune_small in Hr by done; done|].
      exfalso. destruct (decode_rune (String x s)) as [q n] eqn:E. cbn in Hr. subst q.
      destruct (decode_rune_inv (String x s) _ _ ltac:(discriminate) E) as [[Hc Hl]|(_ & ? & _)]; [|done].
      destruct n as [|n]; [pose proof (is_char_len _ _ Hc); cbn in *; lia|]. cbn in Hc. apply is_char_high in Hc. lia.
    + destruct neg.
      * destruct (in_rangesb _ rs) eqn:E; [done|]. eapply gd_nclass; [done|by apply Hfc| |apply IH; eauto].
        rewrite <- in_rangesb_spec. by rewrite E.
      * destruct (in_rangesb _ rs) eqn:E; [|done]. eapply gd_class; [done|by apply Hfc| |apply IH; eauto].
        by rewrite <- in_rangesb_spec.
Qed.
Lemma denotes_star ts s : glob_denotes (GStar :: ts) s <-> exists a b, s = a +:+ b /\ no_slash a /\ glob_denotes ts b.
Proof.
  split.
  - intros H. inversion H; subst. eauto.
  - intros (a & b & -> & Ha & Hb). by constructor.
Qed.
Lemma denotes_stars k ts s : glob_denotes (replicate (S k) GStar ++ ts) s <-> exists a b, s = a +:+ b /\ no_slash a /\ glob_denotes ts b.
Proof.
  revert s. induction k as [|k IH]; intros s; [apply denotes_star|].
  change (replicate (S (S k)) GStar ++ ts) with (GStar :: (replicate (S k) GStar ++ ts)). rewrite denotes_star. split.
  - intros (a & b & -> & Ha & (c & d & -> & Hc & Hd)%IH). exists (a +:+ c), d. rewrite app_assoc_s, no_slash_app. done.
  - intros (a & b & -> & Ha & Hb). exists a, b. split; [done|]. split; [done|]. apply IH. exists "", b. split; [done|]. split; [constructor|done].
Qed.
Lemma denotes_nil s : glob_denotes [] s <-> s = "".
Proof. split; [by inversion 1|intros ->; constructor]. Qed.

Lemma scan_stars_spec p b q : scan_stars p = (b, q) ->
  (~ starts_star q) /\ (String.length q <= String.length p)%nat /\ exists k, (b = true <-> k <> O) /\
    (forall ts, glob_parse p ts <-> exists us, ts = replicate k GStar ++ us /\ glob_parse q us).
Proof.
  revert b q. induction p as [|c p IH]; intros b q H; cbn in H.
  - injection H as <- <-. split; [by intros []|]. split; [done|]. exists O. split; [done|]. cbn. naive_solver.
  - rewrite bz_star in H. destruct (Ascii.eqb_spec c "*") as [->|Hc].
    + injection H as <- <-. destruct (scan_stars p) as [b' q'] eqn:E. cbn. destruct (IH _ _ eq_refl) as (Hs & Hl & k & Hk & Hp).
      split; [done|]. split; [lia|]. exists (S k). split; [done|]. intros ts. split.
      * intros Ht. inversion Ht as [|p0 ts0 H0| | |? ? ? Hx| |]; subst; [|done]. apply Hp in H0 as (us & -> & Hus). by exists us.
      * intros (us & -> & Hus). cbn. constructor. apply Hp. eauto.
    + injection H as <- <-. split; [intros [q ?]; congruence|]. split; [done|]. exists O. split; [done|]. cbn. naive_solver.
Qed.
Lemma scan_chunk_spec p star chunk rest : scan_chunk p = (star, chunk, rest) -> p <> "" ->
  (rest = "" \/ starts_star rest) /\ (String.length rest < String.length p)%nat /\ scan_body false chunk = (chunk, "") /\
  (chunk = "" -> rest = "" /\ star = true) /\
  exists k, (star = true <-> k <> O) /\
    (forall ts, glob_parse p ts -> exists t1 t2, ts = replicate k GStar ++ t1 ++ t2 /\ starless t1 /\ glob_parse chunk t1 /\ glob_parse rest t2) /\
    (forall t1 t2, glob_parse chunk t1 -> glob_parse rest t2 -> glob_parse p (replicate k GStar ++ t1 ++ t2)).
Proof.
  unfold scan_chunk. destruct (scan_stars p) as [b q] eqn:Es. destruct (scan_body false q) as [ch re] eqn:Eb. intros [= <- <- <-] Hne.
  destruct (scan_stars_spec _ _ _ Es) as (Hns & Hl & k & Hk & Hp). destruct (scan_body_app _ _ _ _ Eb) as (-> & Hr & Hc).
  assert (ch = "" -> re = "") as Hcr.
  { intros ->. destruct Hr as [Hr|Hr]; [done|]. rewrite app_nil_l_s in Hns. done. }
  assert (ch = "" -> b = true) as Hcb.
  { intros Hx. pose proof (Hcr Hx) as ->. subst ch. rewrite app_nil_l_s in Es. destruct p as [|c p]; [done|]. cbn in Es. destruct (bz c =? 42); congruence. }
  split; [done|]. split.
  { destruct ch as [|c ch]; [|rewrite app_len_s in Hl; cbn in Hl; lia]. rewrite (Hcr eq_refl). destruct p; [done|]. cbn. lia. }
  split; [done|]. split; [auto|]. exists k. split; [done|]. split.
  - intros ts Ht. apply Hp in Ht as (us & -> & Hus). destruct (scan_body_parse _ _ Hus) as (t1 & t2 & -> & Hst & H1 & H2).
    rewrite Eb in H1, H2. exists t1, t2. done.
  - intros t1 t2 H1 H2. apply Hp. exists (t1 ++ t2). split; [done|]. by apply glob_parse_app.
Qed.

Lemma chunk_parse_dec chunk : scan_body false chunk = (chunk, "") ->
  (exists t1, glob_parse chunk t1 /\ starless t1 /\ forall s, match_chunk chunk s = Some (run_toks t1 s)) \/
  ((forall s, match_chunk chunk s = None) /\ forall t1, ~ (glob_parse chunk t1 /\ starless t1)).
Proof.
  intros Hs. destruct (match_chunk chunk "") as [o|] eqn:E.
  - left. destruct (match_chunk_sound _ _ _ _ _ E Hs) as (ts & Hp & Hst). exists ts. split; [done|]. split; [done|].
    intros s. unfold match_chunk. by rewrite (match_chunk_parsed _ _ Hp Hst).
  - right. assert (forall t1, ~ (glob_parse chunk t1 /\ starless t1)) as Hn.
    { intros t1 [Hp Hst]. unfold match_chunk in E. rewrite (match_chunk_parsed _ _ Hp Hst) in E; done. }
    split; [|done]. intros s. destruct (match_chunk chunk s) as [o|] eqn:E2; [|done].
    exfalso. destruct (match_chunk_sound _ _ _ _ _ E2 Hs) as (ts & Hp & Hst). by apply (Hn ts).
Qed.
Lemma check_rest_spec fuel : forall p, (String.length p <= fuel)%nat ->
  (exists ts, glob_parse p ts) /\ check_rest fuel p = Ok false \/ (forall ts, ~ glob_parse p ts) /\ check_rest fuel p = Err ErrBadPattern.
Proof.
  induction fuel as [|fuel IH]; intros p Hl; destruct p as [|c p]; try (cbn in Hl; lia).
  - left. split; [exists []; constructor|done].
  - left. split; [exists []; constructor|done].
  - cbn [check_rest]. destruct (scan_chunk (String c p)) as [[star chunk] rest] eqn:E.
    destruct (scan_chunk_spec _ _ _ _ E ltac:(discriminate)) as (Hr & Hlr & Hs & Hce & k & Hk & Hp1 & Hp2).
    destruct (chunk_parse_dec chunk Hs) as [(t1 & Hc1 & Hst & Hm)|[Hm Hn]]; rewrite Hm.
    + destruct (IH rest) as [[[ts Ht] ->]|[Ht ->]]; [lia|left|right].
      * split; [|done]. eexists. by apply Hp2.
      * split; [|done]. intros ts Hts. apply Hp1 in Hts as (? & t2 & _ & _ & _ & H2). by apply (Ht t2).
    + right. split; [|done]. intros ts Hts. apply Hp1 in Hts as (t & t2 & _ & ? & ? & H2). by apply (Hn t).
Qed.

(** the start positions tried after a star: the first good one *)
Definition good (t1 : list gtok) (last : bool) (s t : string) : Prop := run_toks t1 s = Some t /\ (last = true -> t = "").
Definition nogood (t1 : list gtok) (last : bool) (s : string) : Prop := forall t, ~ good t1 last s t.
Definition star_result (t1 : list gtok) (last : bool) (name : string) (o : option string) : Prop :=
  match o with
  | Some t => exists a b, name = a +:+ b /\ no_slash a /\ good t1 last b t /\
                forall a1 a2, a = a1 +:+ a2 -> a2 <> "" -> nogood t1 last (a2 +:+ b)
  | None => forall a b, name = a +:+ b -> no_slash a -> nogood t1 last b
  end.
Lemma star_step t1 last name o : star_result t1 last name o -> forall x, nogood t1 last (String x name) -> x <> slash ->
  star_result t1 last (String x name) o.
Proof.
  intros H x Hn Hx. destruct o as [t|]; cbn in *.
  - destruct H as (a & b & -> & Ha & Hg & Hf). exists (String x a), b. split; [done|]. split; [by constructor|]. split; [done|].
    intros a1 a2 He H2. destruct a1 as [|y a1]; [rewrite app_nil_l_s in He; subst a2; done|]. rewrite app_cons_s in He. injection He as -> ->. by eapply Hf.
  - intros a b He Ha. destruct a as [|y a]; [rewrite app_nil_l_s in He; by subst b|].
    rewrite app_cons_s in He. injection He as -> ->. eapply H; [done|]. by inversion Ha.
Qed.
Lemma star_loop_spec chunk t1 last name : (forall s, match_chunk chunk s = Some (run_toks t1 s)) ->
  exists o, star_loop chunk last name = Some o /\ (nogood t1 last name -> star_result t1 last name o).
Proof.
  intros Hm. induction name as [|x name IH].
  - exists None. split; [done|]. cbn. intros Hn a b He _. destruct a; [|done]. rewrite app_nil_l_s in He. by subst.
  - cbn [star_loop]. destruct (Ascii.eqb_spec x slash) as [->|Hx].
    + exists None. split; [done|]. cbn. intros Hn a b He Ha. destruct a as [|y a]; [rewrite app_nil_l_s in He; by subst|].
      rewrite app_cons_s in He. injection He as <- ->. by inversion Ha.
    + rewrite Hm. destruct IH as (o & Ho & Hr). destruct (run_toks t1 name) as [t|] eqn:Er.
      * destruct (last && negb (String.eqb t "")) eqn:El.
        -- exists o. split; [done|]. intros Hn. apply star_step; [|done|done]. apply Hr. intros t' [He Hl].
           apply andb_prop in El as [-> El]. rewrite Er in He. injection He as <-. rewrite Hl in El by done. done.
        -- exists (Some t). split; [done|]. intros Hn. exists (s1 x), name. split; [done|]. split; [by repeat constructor|].
           split; [split; [done|]; intros ->; cbn in El; apply negb_false_iff in El; by apply String.eqb_eq|].
           intros a1 a2 He H2. destruct a1 as [|y a1]; [|destruct a1; [|done]; rewrite app_cons_s, app_nil_l_s in He; injection He as _ <-; done].
           rewrite app_nil_l_s in He. by subst a2.
      * exists o. split; [done|]. intros Hn. apply star_step; [|done|done]. apply Hr. intros t' [He _]. congruence.
Qed.
(** on ASCII strings a star-free pattern consumes one byte per token *)
Lemma run_toks_ascii ts s t : ascii_only s -> run_toks ts s = Some t -> exists u, s = u +:+ t /\ String.length u = List.length ts.
Proof.
  revert s. induction ts as [|tk ts IH]; intros s Ha H; cbn in H; [injection H as ->; by exists ""|].
  destruct s as [|x s]; [done|]. inversion Ha as [|? ? Hx Hs]; subst.
  assert (str_drop (snd (decode_rune (String x s))) (String x s) = s) as Hd by (rewrite decode_rune_small by done; by destruct s).
  assert (run_toks ts s = Some t) as Hr by (repeat case_match; subst; rewrite ?Hd in *; try done).
  destruct (IH s Hs Hr) as (u & -> & Hl). exists (String x u). split; [done|]. cbn. by rewrite Hl.
Qed.
Lemma app_cut (a b c d : string) : a +:+ b = c +:+ d -> (String.length a <= String.length c)%nat -> exists e, c = a +:+ e /\ b = e +:+ d.
Proof.
  revert c. induction a as [|x a IH]; intros c He Hl; [rewrite app_nil_l_s in He; by exists c|].
  destruct c as [|y c]; [cbn in Hl; lia|]. rewrite !app_cons_s in He. injection He as -> He. cbn in Hl.
  destruct (IH c He ltac:(lia)) as (e & -> & ->). by exists e.
Qed.
Lemma match_loop_spec fuel : forall p name, (String.length p <= fuel)%nat ->
  ((forall ts, ~ glob_parse p ts) /\ match_loop fuel p name = Err ErrBadPattern) \/
  ((exists ts, glob_parse p ts) /\ exists b, match_loop fuel p name = Ok b /\ forall ts, glob_parse p ts ->
     (b = true -> glob_denotes ts name) /\ (ascii_only name -> no_slash name -> glob_denotes ts name -> b = true)).
Proof.
  assert (forall name, exists b, Ok (A:=bool) (String.eqb name "") = Ok b /\ forall ts, glob_parse "" ts ->
     (b = true -> glob_denotes ts name) /\ (ascii_only name -> no_slash name -> glob_denotes ts name -> b = true)) as Hnil.
  { intros name. exists (String.eqb name ""). split; [done|]. intros ts Ht. inversion Ht; subst. rewrite denotes_nil, String.eqb_eq. done. }
  assert (exists ts, glob_parse "" ts) as Hnp by (exists []; constructor).
  induction fuel as [|fuel IH]; intros p name Hl; destruct p as [|c p]; try (cbn in Hl; lia); [right; split; [done|apply Hnil]..|].
  cbn [match_loop]. destruct (scan_chunk (String c p)) as [[star chunk] rest] eqn:E.
  destruct (scan_chunk_spec _ _ _ _ E ltac:(discriminate)) as (Hr & Hlr & Hs & Hce & k & Hk & Hp1 & Hp2).
  set (P := String c p) in *. clearbody P.
  destruct (star && String.eqb chunk "") eqn:E0.
  { apply andb_prop in E0 as [-> E0]. apply String.eqb_eq in E0 as ->. destruct (Hce eq_refl) as [-> _]. right.
    split; [exists (replicate k GStar ++ [] ++ []); apply Hp2; constructor|].
    eexists. split; [done|]. intros ts Ht. apply Hp1 in Ht as (t1 & t2 & -> & _ & H1 & H2). inversion H1; inversion H2; subst.
    destruct k as [|k]; [by destruct Hk as [Hk _]; specialize (Hk eq_refl)|]. change ([] ++ []) with (@nil gtok). rewrite denotes_stars.
    assert (negb (string_any (Ascii.eqb slash) name) = true <-> no_slash name) as Hslash.
    { clear. unfold no_slash. induction name as [|x s IHs]; cbn [string_any list_ascii_of_string]; [split; [constructor|done]|]. rewrite Forall_cons, <- IHs.
      destruct (Ascii.eqb_spec slash x) as [<-|Hn]; cbn [orb negb]; [split; [done|]; intros [H _]; done|]. split; [|intros [_ H]; exact H]. intros H. split; [|exact H]. intros ->. by apply Hn. }
    rewrite Hslash. split; [|done]. intros Hn. exists name, "". split; [by rewrite app_nil_s|]. split; [done|constructor]. }
  destruct (chunk_parse_dec chunk Hs) as [(t1 & Hc1 & Hst & Hm)|[Hm Hn]]; rewrite Hm.
  2:{ left. split; [|done]. intros ts Ht. apply Hp1 in Ht as (t & t2 & _ & ? & ? & _). by apply (Hn t). }
  assert (forall fuel', (String.length rest <= fuel')%nat -> (forall a b t2, glob_parse rest t2 -> name = a +:+ b -> (star = true \/ a = "") -> no_slash a -> glob_denotes (t1 ++ t2) b -> ascii_only name -> no_slash name -> False) ->
    ((forall ts, ~ glob_parse P ts) /\ check_rest fuel' rest = Err ErrBadPattern) \/
    ((exists ts, glob_parse P ts) /\ exists b, check_rest fuel' rest = Ok b /\ forall ts, glob_parse P ts ->
     (b = true -> glob_denotes ts name) /\ (ascii_only name -> no_slash name -> glob_denotes ts name -> b = true))) as Hcheck.
  { intros fuel' Hlf Hno. destruct (check_rest_spec fuel' rest Hlf) as [[[ts0 Ht0] ->]|[Ht ->]].
    - right. split; [eexists; by apply Hp2|]. eexists. split; [done|]. intros ts Ht. split; [done|]. intros Ha Hns Hd. exfalso.
      apply Hp1 in Ht as (t1' & t2 & -> & Hst' & Hc1' & H2).
      assert (forall s, run_toks t1' s = run_toks t1 s) as Hrun.
      { intros s. assert (Some (run_toks t1' s) = Some (run_toks t1 s)) as Hx; [|congruence].
        rewrite <- Hm. unfold match_chunk. by rewrite (match_chunk_parsed _ _ Hc1' Hst'). }
      assert (exists a b, name = a +:+ b /\ (star = true \/ a = "") /\ no_slash a /\ glob_denotes (t1' ++ t2) b) as (a & b & He & Hsa & Hna & Hd').
      { destruct k as [|k]; [exists "", name; split; [done|]; split; [auto|]; split; [constructor|done]|].
        rewrite denotes_stars in Hd. destruct Hd as (a & b & ? & ? & ?). exists a, b. split; [done|]. split; [|done]. left. by apply Hk. }
      apply (Hno a b t2 H2 He Hsa Hna); [|done|done]. apply run_toks_denotes; [done|]. apply run_toks_denotes in Hd'; [|done]. by setoid_rewrite <- Hrun.
    - left. split; [|done]. intros ts Hts. apply Hp1 in Hts as (? & t2 & _ & _ & _ & H2). by apply (Ht t2). }
  (* continuing with the rest after a match of the chunk at [b] *)
  assert (forall a b t, name = a +:+ b -> no_slash a -> (star = true \/ a = "") -> good t1 (String.eqb rest "") b t ->
    (star = true -> forall a1 a2, a = a1 +:+ a2 -> a2 <> "" -> nogood t1 (String.eqb rest "") (a2 +:+ b)) ->
    ((forall ts, ~ glob_parse P ts) /\ match_loop fuel rest t = Err ErrBadPattern) \/
    ((exists ts, glob_parse P ts) /\ exists o, match_loop fuel rest t = Ok o /\ forall ts, glob_parse P ts ->
     (o = true -> glob_denotes ts name) /\ (ascii_only name -> no_slash name -> glob_denotes ts name -> o = true))) as Hgo.
  { intros a b t -> Hna Hsa [Hrun Hlast] Hfirst.
    destruct (IH rest t ltac:(cbn in Hl; lia)) as [[Hno ->]|[[t2w Ht2w] (o & -> & Ho)]].
    - left. split; [|done]. intros ts Hts. apply Hp1 in Hts as (? & t2 & _ & _ & _ & H2). by apply (Hno t2).
    - right. split; [eexists; by apply Hp2|]. exists o. split; [done|]. intros ts Hts. apply Hp1 in Hts as (t1' & t2 & -> & Hst' & Hc1' & H2).
      assert (forall s, run_toks t1' s = run_toks t1 s) as Hrune.
      { intros s. assert (Some (run_toks t1' s) = Some (run_toks t1 s)) as Hx; [|congruence].
        rewrite <- Hm. unfold match_chunk. by rewrite (match_chunk_parsed _ _ Hc1' Hst'). }
      destruct (Ho t2 H2) as [Hs1 Hs2]. split.
      + intros Hot. assert (glob_denotes (t1' ++ t2) b) as Hb by (apply run_toks_denotes; [done|]; exists t; rewrite Hrune; auto).
        destruct k as [|k].
        * destruct Hsa as [Hsa| ->]; [by destruct Hk as [Hk _]; specialize (Hk Hsa)|]. done.
        * apply denotes_stars. eauto.
      + intros Has Hns Hd.
        assert (exists a' b' t', a +:+ b = a' +:+ b' /\ (star = true \/ a' = "") /\ no_slash a' /\ run_toks t1 b' = Some t' /\ glob_denotes t2 t') as (a' & b' & t' & He & Hsa' & Hna' & Hrun' & Ht').
        { destruct k as [|k].
          - change (replicate 0 GStar ++ t1' ++ t2) with (t1' ++ t2) in Hd.
            apply run_toks_denotes in Hd as (t' & Hx & ?); [|done]. rewrite Hrune in Hx. exists "", (a +:+ b), t'. split; [done|]. split; [auto|]. split; [constructor|]. done.
          - apply denotes_stars in Hd as (a' & b' & ? & ? & Hd). apply run_toks_denotes in Hd as (t' & Hx & ?); [|done]. rewrite Hrune in Hx.
            exists a', b', t'. split; [done|]. split; [|done]. left. by apply Hk. }
        destruct (String.eqb_spec rest "") as [->|Hrn].
        * inversion H2; subst. apply denotes_nil in Ht' as ->. apply Hs2; [|by rewrite (Hlast eq_refl); constructor..|rewrite (Hlast eq_refl); constructor].
          rewrite (Hlast eq_refl). constructor.
        * destruct Hr as [?|[rq ->]]; [done|]. inversion H2 as [|? t2' Ht2'| | |? ? ? Hx| |]; subst; [|done].
          apply denotes_star in Ht' as (y & z & -> & Hy & Hz).
          apply ascii_only_app in Has as Hab. destruct Hab as [Haa Hab]. rewrite He in Has, Hns. apply ascii_only_app in Has as [_ Hab']. apply no_slash_app in Hns as [_ Hnb'].
          destruct (run_toks_ascii _ _ _ Hab Hrun) as (u & -> & Hu). destruct (run_toks_ascii _ _ _ Hab' Hrun') as (u' & -> & Hu').
          (* the first position is not later *)
          assert (String.length a <= String.length a')%nat as Hle.
          { destruct (Nat.le_gt_cases (String.length a) (String.length a')); [done|]. exfalso.
            destruct Hsa as [Hstar| ->]; [|cbn in *; lia].
            destruct (app_cut a' (u' +:+ y +:+ z) a (u +:+ t) ltac:(done) ltac:(lia)) as (e & -> & Heb).
            apply (Hfirst Hstar a' e eq_refl ltac:(intros ->; rewrite app_nil_s in *; lia) (y +:+ z)). rewrite <- Heb. split; [done|]. done. }
          assert (exists e, t = e +:+ y +:+ z /\ no_slash e) as (e & -> & Hne).
          { assert ((a +:+ u) +:+ t = (a' +:+ u') +:+ (y +:+ z)) as Heq by (by rewrite !app_assoc_s).
            destruct (app_cut _ _ _ _ Heq ltac:(rewrite !app_len_s; lia)) as (e & He1 & ->). exists e. split; [done|].
            assert (no_slash (a' +:+ u')) as Hx by (apply no_slash_app; split; [done|]; by apply no_slash_app in Hnb' as [? _]).
            rewrite He1 in Hx. by apply no_slash_app in Hx as [_ ?]. }
          apply Hs2.
          -- by apply ascii_only_app in Hab as [_ ?].
          -- apply no_slash_app in Hnb' as [_ Hyz]. rewrite no_slash_app. done.
          -- rewrite <- app_assoc_s. constructor; [|done]. by apply no_slash_app. }
  destruct (run_toks t1 name) as [t|] eqn:Erun.
  - destruct (String.eqb t "" || negb (String.eqb rest "")) eqn:Et.
    + apply (Hgo "" name t); [done|constructor|auto| |].
      * split; [done|]. intros El. rewrite El in Et. rewrite orb_false_r in Et. by apply String.eqb_eq.
      * intros _ a1 a2 He H2. destruct a1; [|done]. rewrite app_nil_l_s in He. by subst a2.
    + apply orb_false_iff in Et as [Et1 Et2]. apply negb_false_iff in Et2. rewrite Et2 in *.
      assert (nogood t1 true name) as Hng by (intros t' [Hx Hy]; rewrite Erun in Hx; injection Hx as <-; rewrite Hy in Et1 by done; done).
      destruct star.
      * destruct (star_loop_spec chunk t1 true name Hm) as (o & -> & Ho). specialize (Ho Hng). destruct o as [t'|].
        -- destruct Ho as (a & b & Hab & Hna & Hg & Hf). apply (Hgo a b t'); auto.
        -- apply Hcheck; [cbn in Hl; lia|]. intros a b t2 H2 He _ Hna Hd _ _. apply run_toks_denotes in Hd as (t' & Hx & Ht'); [|done].
           apply String.eqb_eq in Et2 as ->. inversion H2; subst. apply denotes_nil in Ht' as ->. apply (Ho a b eq_refl Hna ""). done.
      * apply Hcheck; [cbn in Hl; lia|]. intros a b t2 H2 He Ha0 Hna Hd _ _. destruct Ha0 as [?| ->]; [done|]. rewrite app_nil_l_s in He. subst b.
        apply run_toks_denotes in Hd as (t' & Hx & Ht'); [|done]. apply String.eqb_eq in Et2 as ->. inversion H2; subst. apply denotes_nil in Ht' as ->.
        apply (Hng ""). done.
  - assert (nogood t1 (String.eqb rest "") name) as Hng by (intros t' [Hx Hy]; congruence).
    destruct star.
    + destruct (star_loop_spec chunk t1 (String.eqb rest "") name Hm) as (o & -> & Ho). specialize (Ho Hng). destruct o as [t'|].
      * destruct Ho as (a & b & Hab & Hna & Hg & Hf). apply (Hgo a b t'); auto.
      * apply Hcheck; [cbn in Hl; lia|]. intros a b t2 H2 He _ Hna Hd _ _. apply run_toks_denotes in Hd as (t' & Hx & Ht'); [|done].
        apply (Ho a b He Hna t'). split; [done|]. intros Er%String.eqb_eq. subst rest. inversion H2; subst. by apply denotes_nil in Ht'.
    + apply Hcheck; [cbn in Hl; lia|]. intros a b t2 H2 He Ha0 Hna Hd _ _. destruct Ha0 as [?| ->]; [done|]. rewrite app_nil_l_s in He. subst b.
      apply run_toks_denotes in Hd as (t' & Hx & Ht'); [|done]. congruence.
Qed.
Lemma glob_match_ok p name : glob_match p name = Ok true -> segment_matches p name.
Proof.
  unfold glob_match. intros H. destruct (match_loop_spec (String.length p) p name ltac:(lia)) as [[_ Hx]|[[ts Ht] (b & Hb & Hs)]]; [congruence|].
  exists ts. split; [done|]. apply (Hs ts Ht). congruence.
Qed.
Lemma glob_match_complete p name : ascii_only name -> no_slash name -> segment_matches p name -> glob_match p name = Ok true.
Proof.
  intros Ha Hn (ts & Ht & Hd). unfold glob_match. destruct (match_loop_spec (String.length p) p name ltac:(lia)) as [[Hx _]|[_ (b & Hb & Hs)]]; [by apply Hx in Ht|].
  rewrite Hb. f_equal. by apply (Hs ts Ht).
Qed.
Lemma glob_match_bad p name : (exists e, glob_match p name = Err e) <-> ~ exists ts, glob_parse p ts.
Proof.
  unfold glob_match. destruct (match_loop_spec (String.length p) p name ltac:(lia)) as [[Hx ->]|[[ts Ht] (b & -> & Hs)]].
  - split; [|eauto]. intros _ [ts Ht]. by apply (Hx ts).
  - split; [by intros []|]. intros Hn. exfalso. eauto.
Qed.
Lemma glob_match_no_panic p name : glob_match p name <> Panic.
Proof.
  unfold glob_match. destruct (match_loop_spec (String.length p) p name ltac:(lia)) as [[Hx ->]|[[ts Ht] (b & -> & Hs)]]; done.
Qed.
