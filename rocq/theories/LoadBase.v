(** * What the JSON parser returns: well-formed numbers and texts; decoded values do not change when decoded again *)
From stdpp Require Import base gmap strings list.
From Coq Require Import ZArith Lia Ascii String.
From Verif Require Import GoBase GoStr Json GoTime Types Marshal Metadata StrProofs SpecUtf8 Utf8Proofs SpecText JsonText SpecSerial JsonProofs SigProofs SerialProofs SpecRound RoundBase RoundProofs RoundStructs CanonProofs SpecExtra ExtraProofs SpecLoad.
Open Scope Z_scope.

(** ** Numbers *)
Definition starts_digit (s : string) : bool := match s with String c _ => is_digit c | EmptyString => false end.
Lemma take_digits_spec s d t : take_digits s = (d, t) -> string_all is_digit d = true.
Proof.
  revert d t; induction s as [|c s IH]; intros d t; cbn [take_digits]; [by intros [= <- <-]|].
  destruct (is_digit c) eqn:E; [|by intros [= <- <-]]. destruct (take_digits s) as [d' t'] eqn:E2. intros [= <- <-]. cbn. rewrite E. by eapply IH.
Qed.
Lemma take_digits_build d r : string_all is_digit d = true -> starts_digit r = false -> take_digits (d +:+ r) = (d, r).
Proof.
  intros Hd Hr. induction d as [|c d IH].
  - rewrite app_nil_l_s. destruct r as [|c r]; [done|]. cbn in *. by rewrite Hr.
  - cbn in Hd. apply andb_prop in Hd as [H1 H2]. rewrite app_cons_s. cbn [take_digits]. by rewrite H1, IH.
Qed.
Definition int_part (d : string) : Prop := string_all is_digit d = true /\ forall r, d = String "0" r -> r = "".
Definition frac_part (d : string) : Prop := d = "" \/ exists u, d = "." +:+ u /\ u <> "" /\ string_all is_digit u = true.
Definition exp_part (d : string) : Prop := d = "" \/ exists e sg u, d = String e (sg +:+ u) /\ (e = "e"%char \/ e = "E"%char) /\ (sg = "" \/ sg = "+" \/ sg = "-") /\ u <> "" /\ string_all is_digit u = true.
Lemma num_int_part s d t : num_int s = (d, t) -> int_part d.
Proof.
  unfold num_int. destruct (take_digits s) as [ip u] eqn:E. apply take_digits_spec in E. destruct ip as [|c [|c' ip]].
  - intros [= <- <-]. done.
  - assert (match String c "" with String "0" (String _ _ as t) => ("0", t +:+ u) | _ => (String c "", u) end = (String c "", u)) as -> by (by destruct c as [[] [] [] [] [] [] [] []]).
    intros [= <- <-]. split; [done|]. by intros r [= _ <-].
  - destruct (ascii_dec c "0") as [-> |Hc]; [intros [= <- <-]; split; [done|by intros r [= <-]]|].
    assert (match String c (String c' ip) with String "0" (String _ _ as t) => ("0", t +:+ u) | _ => (String c (String c' ip), u) end = (String c (String c' ip), u)) as ->.
    { destruct c as [[] [] [] [] [] [] [] []]; done. }
    intros [= <- <-]. split; [done|]. intros r [= -> _]. done.
Qed.
Lemma num_frac_part s d t : num_frac s = Some (d, t) -> frac_part d.
Proof.
  unfold num_frac. destruct s as [|c s]; [intros [= <- <-]; by left|]. destruct (ascii_dec c ".") as [-> |Hne].
  - destruct (take_digits s) as [[|u0 u] v] eqn:E; [done|]. apply take_digits_spec in E. intros [= <- <-]. right. by exists (String u0 u).
  - intros H. assert (Some ("", String c s) = Some (d, t)) as [= <- <-]; [|by left]. rewrite <- H. destruct c as [[] [] [] [] [] [] [] []]; done.
Qed.
Lemma num_expo_part e s d t : num_expo e s = Some (d, t) -> exists sg u, d = String e (sg +:+ u) /\ (sg = "" \/ sg = "+" \/ sg = "-") /\ u <> "" /\ string_all is_digit u = true.
Proof.
  unfold num_expo. destruct (match s with String "+" t => ("+", t) | String "-" t => ("-", t) | _ => ("", s) end) as [sg r'] eqn:Es.
  assert (sg = "" \/ sg = "+" \/ sg = "-") as Hsg. { destruct s as [|c s]; [injection Es as <- _; by left|]. destruct c as [[] [] [] [] [] [] [] []]; injection Es as <- _; auto. }
  destruct (take_digits r') as [[|u0 u] v] eqn:E; [done|]. apply take_digits_spec in E. intros [= <- <-]. by exists sg, (String u0 u).
Qed.
Lemma num_exp_part s d t : num_exp s = Some (d, t) -> exp_part d.
Proof.
  unfold num_exp. destruct s as [|c s]; [intros [= <- <-]; by left|].
  destruct (ascii_dec c "e") as [-> |H1]; [intros (sg & u & H)%num_expo_part; right; exists "e"%char, sg, u; naive_solver|].
  destruct (ascii_dec c "E") as [-> |H2]; [intros (sg & u & H)%num_expo_part; right; exists "E"%char, sg, u; naive_solver|].
  intros H. assert (Some ("", String c s) = Some (d, t)) as [= <- <-]; [|by left]. rewrite <- H. destruct c as [[] [] [] [] [] [] [] []]; done.
Qed.
Lemma exp_starts ep : exp_part ep -> starts_digit ep = false /\ num_frac ep = Some ("", ep) /\ num_exp ep = Some (ep, "").
Proof.
  intros [-> |(e & sg & u & -> & He & Hs & Hu & Hd)]; [done|].
  assert (num_expo e (sg +:+ u) = Some (String e (sg +:+ u), "")) as Hx.
  { unfold num_expo. pose proof (take_digits_build u "" Hd eq_refl) as Ht. rewrite app_nil_s in Ht. destruct Hs as [-> |[-> | ->]].
    - rewrite app_nil_l_s. destruct u as [|u0 u]; [done|]. cbn in Hd. apply andb_prop in Hd as [Hd0 _].
      assert (match String u0 u with String "+" t => ("+", t) | String "-" t => ("-", t) | _ => ("", String u0 u) end = ("", String u0 u)) as -> by (destruct u0 as [[] [] [] [] [] [] [] []]; done).
      rewrite Ht. done.
    - change ("+" +:+ u) with (String "+" u). cbv beta iota. rewrite Ht. by destruct u.
    - change ("-" +:+ u) with (String "-" u). cbv beta iota. rewrite Ht. by destruct u. }
  destruct He as [-> | ->]; split_and!; try done; exact Hx.
Qed.
Lemma frac_starts fp ep : frac_part fp -> exp_part ep -> starts_digit (fp +:+ ep) = false /\ num_frac (fp +:+ ep) = Some (fp, ep).
Proof.
  intros [-> |(u & -> & Hu & Hd)] He; destruct (exp_starts ep He) as (H1 & H2 & _); [by rewrite app_nil_l_s|].
  rewrite app_assoc_s. split; [done|]. change ("." +:+ u +:+ ep) with (String "." (u +:+ ep)). unfold num_frac. rewrite take_digits_build by done. by destruct u.
Qed.
Lemma num_build sign ip fp ep : sign = "" \/ sign = "-" -> int_part ip -> ip <> "" -> frac_part fp -> exp_part ep -> num_ok (sign +:+ ip +:+ fp +:+ ep).
Proof.
  intros Hs [Hd Hz] Hne Hf He. unfold num_ok. rewrite parse_num_unfold. destruct (frac_starts fp ep Hf He) as [H1 H2]. destruct (exp_starts ep He) as (_ & _ & H3).
  assert (num_int (ip +:+ fp +:+ ep) = (ip, fp +:+ ep)) as Hi.
  { unfold num_int. rewrite take_digits_build by done. destruct ip as [|c [|c' ip]]; [done|by destruct c as [[] [] [] [] [] [] [] []]|].
    destruct (ascii_dec c "0") as [-> |Hc]; [by specialize (Hz _ eq_refl)|]. destruct c as [[] [] [] [] [] [] [] []]; done. }
  assert (match sign +:+ ip +:+ fp +:+ ep with String "-" r => ("-", r) | _ => ("", sign +:+ ip +:+ fp +:+ ep) end = (sign, ip +:+ fp +:+ ep)) as ->.
  { destruct Hs as [-> | ->]; [|done]. rewrite app_nil_l_s. destruct ip as [|c ip]; [done|]. rewrite app_cons_s. cbn in Hd. apply andb_prop in Hd as [Hd _]. destruct c as [[] [] [] [] [] [] [] []]; done. }
  cbv beta iota. rewrite Hi. destruct ip as [|c ip]; [done|]. cbv beta iota. rewrite H2. cbv beta iota. rewrite H3. done.
Qed.
Lemma parse_num_ok s l t : parse_num s = Some (l, t) -> num_ok l.
Proof.
  rewrite parse_num_unfold. destruct (match s with String "-" r => ("-", r) | _ => ("", s) end) as [sign s0] eqn:Es.
  assert (sign = "" \/ sign = "-") as Hs. { destruct s as [|c s]; [injection Es as <- _; by left|]. destruct c as [[] [] [] [] [] [] [] []]; injection Es as <- _; auto. }
  destruct (num_int s0) as [ip u] eqn:E1. apply num_int_part in E1. destruct ip as [|ci ip]; [done|]. destruct (num_frac u) as [[fp v]|] eqn:E2; [|done]. apply num_frac_part in E2.
  destruct (num_exp v) as [[ep w]|] eqn:E3; [|done]. apply num_exp_part in E3. intros H. apply (inj Some) in H. assert (sign +:+ String ci ip +:+ fp +:+ ep = l) as <- by congruence. by apply num_build.
Qed.

(** ** Texts *)
Lemma hexval_range c v : hexval c = Some v -> 0 <= v < 16.
Proof.
  unfold hexval, is_digit. pose proof (bz_range c).
  repeat match goal with |- context [if ?b then _ else _] => let E := fresh in destruct b eqn:E end; intros [= <-]; rewrite ?andb_true_iff, ?Z.leb_le in *; lia.
Qed.
Lemma hex4_range a b c d u : hex4 a b c d = Some u -> 0 <= u < 65536.
Proof. unfold hex4. destruct (hexval a) eqn:Ea, (hexval b) eqn:Eb, (hexval c) eqn:Ec, (hexval d) eqn:Ed; try done. intros [= <-]. apply hexval_range in Ea, Eb, Ec, Ed. lia. Qed.
Lemma encode_char u : 0 <= u -> exists r, is_char r (utf8_encode u).
Proof.
  intros Hu. unfold utf8_encode. destruct (Z.ltb_spec u 128); [exists u; by apply char1|]. destruct (Z.ltb_spec u 2048).
  - exists (u / 64 * 64 + u mod 64). change (String (zb (192 + u / 64)) (s1 (zb (128 + u mod 64)))) with (str_of [192 + u / 64; 128 + u mod 64]).
    apply char2; [|apply Z.mod_pos_bound; lia]. split; [apply Z.div_le_lower_bound; lia|apply Z.div_lt_upper_bound; lia].
  - destruct (((55296 <=? u) && (u <=? 57343)) || (1114111 <? u)) eqn:E; [exists 65533; apply fffd_text|]. rewrite orb_false_iff, andb_false_iff, !Z.leb_gt, Z.ltb_ge in E.
    pose proof (Z.div_mod u 64 ltac:(lia)). pose proof (Z.mod_pos_bound u 64 ltac:(lia)). pose proof (Z.div_mod (u / 64) 64 ltac:(lia)). pose proof (Z.mod_pos_bound (u / 64) 64 ltac:(lia)).
    assert (u / 64 / 64 = u / 4096) as E1 by (rewrite Z.div_div by lia; done).
    pose proof (Z.div_mod (u / 4096) 64 ltac:(lia)). pose proof (Z.mod_pos_bound (u / 4096) 64 ltac:(lia)).
    assert (u / 4096 / 64 = u / 262144) as E2 by (rewrite Z.div_div by lia; done).
    destruct (Z.ltb_spec u 65536).
    + exists (u / 4096 * 4096 + u / 64 mod 64 * 64 + u mod 64).
      change (String (zb (224 + u / 4096)) (String (zb (128 + u / 64 mod 64)) (s1 (zb (128 + u mod 64))))) with (str_of [224 + u / 4096; 128 + u / 64 mod 64; 128 + u mod 64]).
      apply char3; lia.
    + exists (u / 262144 * 262144 + u / 4096 mod 64 * 4096 + u / 64 mod 64 * 64 + u mod 64).
      change (String (zb (240 + u / 262144)) (String (zb (128 + u / 4096 mod 64)) (String (zb (128 + u / 64 mod 64)) (s1 (zb (128 + u mod 64))))))
        with (str_of [240 + u / 262144; 128 + u / 4096 mod 64; 128 + u / 64 mod 64; 128 + u mod 64]).
      apply char4; lia.
Qed.
Lemma push_text p e r t f s : (exists c, is_char c p) -> (forall t f s, r = Some (t, f, s) -> utf8_text t) -> push p e r = Some (t, f, s) -> utf8_text t.
Proof. intros [c Hc] Hr. destruct r as [[[t' f'] s']|]; [|done]. cbn. intros [= <- <- <-]. eapply utf8_cons; [done|]. by eapply Hr. Qed.
Lemma char_s1 c : bz c < 128 -> exists r, is_char r (s1 c).
Proof. intros H. exists (bz c). by apply is_char_ascii. Qed.
Lemma parse_str_text s t e r : parse_str s = Some (t, e, r) -> utf8_text t.
Proof.
  remember (String.length s) as n eqn:Hn. assert (String.length s <= n)%nat as Hl by lia. clear Hn. revert s t e r Hl. induction n as [|n IH]; intros s t e r Hl.
  { destruct s; [done|cbn in Hl; lia]. }
  destruct s as [|c s]; [done|]. cbn in Hl. assert (forall s', (String.length s' <= String.length s)%nat -> forall t f r', parse_str s' = Some (t, f, r') -> utf8_text t) as IH'.
  { intros s' Hs t' f r'. apply IH. lia. }
  cbn [parse_str]. destruct (Z.eqb_spec (bz c) 34); [intros [= <- <- <-]; constructor|]. destruct (Z.ltb_spec (bz c) 32); [done|].
  destruct (Z.eqb_spec (bz c) 92).
  - destruct s as [|ce r1]; [done|]. cbn in IH'. destruct (Z.eqb_spec (bz ce) 117).
    + destruct r1 as [|a [|b [|c1 [|d r2]]]]; try done. destruct (hex4 a b c1 d) as [u|] eqn:Eu; [|done]. apply hex4_range in Eu. cbn in IH'.
      assert (forall t f r', push utf8_fffd true (parse_str r2) = Some (t, f, r') -> utf8_text t) as Hfffd.
      { intros t' f r'. apply push_text; [exists 65533; apply fffd_text|]. apply IH'. lia. }
      destruct ((55296 <=? u) && (u <=? 57343)) eqn:Es; [|apply push_text; [apply encode_char; lia|apply IH'; lia]].
      destruct r2 as [|q0 [|q1 [|a' [|b' [|c' [|d' r3]]]]]]; try apply Hfffd.
      destruct (if (bz q0 =? 92) && (bz q1 =? 117) then hex4 a' b' c' d' else None) as [u2|] eqn:E2; [|apply Hfffd].
      destruct ((u <=? 56319) && (56320 <=? u2) && (u2 <=? 57343)) eqn:E3; [|apply Hfffd]. rewrite !andb_true_iff, !Z.leb_le in *.
      apply push_text; [apply encode_char; lia|]. apply IH'. cbn. lia.
    + destruct ((bz ce =? 34) || (bz ce =? 92) || (bz ce =? 47)) eqn:E4.
      { rewrite !orb_true_iff, !Z.eqb_eq in E4. apply push_text; [apply char_s1; lia|apply IH'; lia]. }
      repeat (match goal with |- (if ?b then _ else _) = _ -> _ => destruct b; [apply push_text; [apply char_s1; rewrite bz_zb by lia; lia|apply IH'; lia]|] end). done.
  - destruct (Z.ltb_spec (bz c) 128); [apply push_text; [by apply char_s1|by apply IH']|].
    destruct (utf8_len (String c s)) as [k|] eqn:Ek; [|apply push_text; [exists 65533; apply fffd_text|by apply IH']].
    pose proof (utf8_len_char _ _ Ek) as (rr & Hc & _). destruct (utf8_len_cases _ _ Ek) as [-> |[-> | ->]].
    + destruct s as [|x1 s]; [done|]. apply push_text; [by exists rr|apply IH'; cbn; lia].
    + destruct s as [|x1 [|x2 s]]; try done. apply push_text; [by exists rr|apply IH'; cbn; lia].
    + destruct s as [|x1 [|x2 [|x3 s]]]; try done. apply push_text; [by exists rr|apply IH'; cbn; lia].
Qed.

(** ** The parser's trees *)
Lemma jdepth_nonneg j : 0 <= jdepth j.
Proof. assert (forall l, 0 <= fold_right Z.max 0 l) as H by (induction l; cbn; lia). destruct j; cbn; try lia; match goal with |- context [fold_right Z.max 0 ?l] => specialize (H l) end; lia. Qed.
Lemma jdepth_arr D l : jdepth (JArr l) <= D <-> 1 <= D /\ Forall (fun j => jdepth j <= D - 1) l.
Proof.
  cbn [jdepth]. induction l as [|x l IH]; cbn [map fold_right]; [split; [intros; split; [lia|constructor]|intros [? _]; lia]|]. rewrite Forall_cons. pose proof (jdepth_nonneg x). split.
  - intros H0. destruct IH as [IH _]. destruct IH; [lia|]. split; [done|]. split; [lia|done].
  - intros (H0 & H1 & H2). destruct IH as [_ IH]. specialize (IH (conj H0 H2)). lia.
Qed.
Lemma jdepth_obj D l : jdepth (JObj l) <= D <-> 1 <= D /\ Forall (fun kv => jdepth kv.2 <= D - 1) l.
Proof.
  cbn [jdepth]. induction l as [|x l IH]; cbn [map fold_right]; [split; [intros; split; [lia|constructor]|intros [? _]; lia]|]. rewrite Forall_cons. pose proof (jdepth_nonneg x.2). split.
  - intros H0. destruct IH as [IH _]. destruct IH; [lia|]. split; [done|]. split; [lia|done].
  - intros (H0 & H1 & H2). destruct IH as [_ IH]. specialize (IH (conj H0 H2)). lia.
Qed.
Definition read_ok (D : Z) (j : json) : Prop := nums_wf j /\ texts_ok j /\ jdepth j <= D.
Lemma read_ok_arr D l : read_ok D (JArr l) <-> 1 <= D /\ Forall (read_ok (D - 1)) l.
Proof. unfold read_ok. rewrite nums_wf_arr, texts_ok_arr, jdepth_arr, !Forall_and. tauto. Qed.
Lemma read_ok_obj D l : read_ok D (JObj l) <-> 1 <= D /\ Forall (fun kv => utf8_text kv.1 /\ read_ok (D - 1) kv.2) l.
Proof. unfold read_ok. rewrite nums_wf_obj, texts_ok_obj, jdepth_obj, !Forall_and. tauto. Qed.
Lemma parse_read_ok fuel : forall d s, d <= max_nesting_depth ->
  (forall j t, parse_val fuel d s = Some (j, t) -> read_ok (max_nesting_depth - d) j) /\
  (forall l t, parse_members fuel d s = Some (l, t) -> Forall (fun kv => utf8_text kv.1 /\ read_ok (max_nesting_depth - d) kv.2) l) /\
  (forall l t, parse_elems fuel d s = Some (l, t) -> Forall (read_ok (max_nesting_depth - d)) l).
Proof.
  induction fuel as [|f IH]; intros d s Hd; [done|].
  assert (forall j t s', parse_val f d s' = Some (j, t) -> read_ok (max_nesting_depth - d) j) as IHv by (intros j t s'; by apply IH).
  assert (forall l t s', parse_members f d s' = Some (l, t) -> Forall (fun kv => utf8_text kv.1 /\ read_ok (max_nesting_depth - d) kv.2) l) as IHm by (intros j t s'; by apply IH).
  assert (forall l t s', parse_elems f d s' = Some (l, t) -> Forall (read_ok (max_nesting_depth - d)) l) as IHe by (intros j t s'; by apply IH).
  assert (read_ok (max_nesting_depth - d) JNull) as Hn by (split_and!; cbn; try done; lia).
  assert (forall b, read_ok (max_nesting_depth - d) (JBool b)) as Hb by (intros b; split_and!; cbn; try done; lia).
  split_and!.
  - intros j t. cbn [parse_val]. destruct (skip_ws s) as [|c r]; [done|]. destruct (bz c =? 123).
    { destruct (Z.leb_spec max_nesting_depth d); [done|]. destruct (skip_ws r) as [|c' r']; [done|]. destruct (bz c' =? 125); [intros [= <- _]; apply read_ok_obj; split; [lia|constructor]|].
      destruct (parse_members f (d + 1) (String c' r')) as [[l u]|] eqn:E; [|done]. intros [= <- _]. apply IH in E; [|lia]. apply read_ok_obj. split; [lia|].
      replace (max_nesting_depth - d - 1) with (max_nesting_depth - (d + 1)) by lia. done. }
    destruct (bz c =? 91).
    { destruct (Z.leb_spec max_nesting_depth d); [done|]. destruct (skip_ws r) as [|c' r']; [done|]. destruct (bz c' =? 93); [intros [= <- _]; apply read_ok_arr; split; [lia|constructor]|].
      destruct (parse_elems f (d + 1) (String c' r')) as [[l u]|] eqn:E; [|done]. intros [= <- _]. apply IH in E; [|lia]. apply read_ok_arr. split; [lia|].
      replace (max_nesting_depth - d - 1) with (max_nesting_depth - (d + 1)) by lia. done. }
    destruct (bz c =? 34).
    { destruct (parse_str r) as [[[u e] v]|] eqn:E; [|done]. apply parse_str_text in E. destruct e; intros [= <- _]; (split_and!; cbn; [done|done|lia]). }
    destruct ((bz c =? 45) || is_digit c).
    { destruct (parse_num (String c r)) as [[l u]|] eqn:E; [|done]. apply parse_num_ok in E. intros [= <- _]. split_and!; cbn; [done|done|lia]. }
    repeat case_match; intros [= <- _]; done.
  - intros l t. cbn [parse_members]. destruct (skip_ws s) as [|q r]; [done|]. destruct (bz q =? 34); [|done]. destruct (parse_str r) as [[[k e] r1]|] eqn:Ek; [|done]. apply parse_str_text in Ek.
    destruct (skip_ws r1) as [|c r2]; [done|]. destruct (bz c =? 58); [|done]. destruct (parse_val f d r2) as [[v r3]|] eqn:Ev; [|done]. apply IHv in Ev. destruct (skip_ws r3) as [|c4 r4]; [done|].
    destruct (bz c4 =? 44).
    + destruct (parse_members f d r4) as [[l' t']|] eqn:El; [|done]. apply IHm in El. intros [= <- _]. by constructor.
    + destruct (bz c4 =? 125); [|done]. intros [= <- _]. by constructor.
  - intros l t. cbn [parse_elems]. destruct (parse_val f d s) as [[v r3]|] eqn:Ev; [|done]. apply IHv in Ev. destruct (skip_ws r3) as [|c4 r4]; [done|]. destruct (bz c4 =? 44).
    + destruct (parse_elems f d r4) as [[l' t']|] eqn:El; [|done]. apply IHe in El. intros [= <- _]. by constructor.
    + destruct (bz c4 =? 93); [|done]. intros [= <- _]. by constructor.
Qed.
Lemma parse_json_read s j : parse_json s = Some j -> read_ok max_nesting_depth j.
Proof.
  unfold parse_json. destruct (parse_val (S (2 * String.length s)) 0 s) as [[j' t]|] eqn:E; [|done]. destruct (skip_ws t); [|done]. intros [= <-].
  replace max_nesting_depth with (max_nesting_depth - 0) by lia. destruct (parse_read_ok (S (2 * String.length s)) 0 s) as [H _]; [done|]. by eapply H.
Qed.

(** ** Decoding a decoded value changes nothing *)
Lemma f64_print_zero ng v : v.1 = 0 -> f64_print ng v = Some (if ng then "-0" else "0").
Proof. intros H. unfold f64_print. destruct (Z.eqb_spec v.1 0); [reflexivity|lia]. Qed.
Lemma f64_text_idem l l' : f64_text l = Some l' -> f64_text l' = Some l'.
Proof.
  unfold f64_text. destruct (f64_of l) as [[ng v]|] eqn:E; [|done]. destruct (f64_print ng v) as [c|] eqn:Ec; cbn; intros H; apply (inj Some) in H as <-; [|by rewrite E, Ec].
  pose proof Ec as (_ & w & Hw & Hv)%f64_print_spec. rewrite Hw. destruct Hv as [-> |[Hw0 Hv0]]; [by rewrite Ec|].
  rewrite f64_print_zero in Ec |- * by done. apply (inj Some) in Ec as ->. reflexivity.
Qed.
Lemma f64_norm_idem l l' : f64_norm l = Some l' -> f64_norm l' = Some l'.
Proof.
  intros H. assert (l' = l \/ f64_text l' = Some l') as [-> |Ht]; [|done|].
  - unfold f64_norm in H. destruct (parse_int 10 l) as [z|]; [|right; by eapply f64_text_idem]. destruct (_ <=? _); [|right; by eapply f64_text_idem]. apply (inj Some) in H. by left.
  - unfold f64_norm. destruct (parse_int 10 l') as [z|]; [|done]. by destruct (_ <=? _).
Qed.
Lemma f64_norm_num_ok l l' : num_ok l -> f64_norm l = Some l' -> num_ok l'.
Proof.
  intros Hl H. assert (f64_text l = Some l' -> num_ok l') as Ht.
  { unfold f64_text. destruct (f64_of l) as [[ng v]|] eqn:E; [|done]. destruct (f64_print ng v) as [c|] eqn:Ec; cbn; intros H0; apply (inj Some) in H0 as <-; [|done]. by apply f64_print_spec in Ec as [? _]. }
  unfold f64_norm in H. destruct (parse_int 10 l) as [z|]; [|auto]. destruct (_ <=? _); [|auto]. apply (inj Some) in H. by subst l'.
Qed.
Lemma seq_kv_id (l : list (string * json)) : Forall (fun kv => norm kv.2 = Some kv.2) l -> seq_kv (map (fun kv => (kv.1, norm kv.2)) l) = Some l.
Proof. unfold seq_kv. induction 1 as [|[k v] l Hv _ IH]; cbn in *; [done|]. rewrite Hv. by rewrite IH. Qed.
Lemma seq_opt_id (l : list json) : Forall (fun j => norm j = Some j) l -> seq_opt (map norm l) = Some l.
Proof. induction 1 as [|v l Hv _ IH]; cbn in *; [done|]. by rewrite Hv, IH. Qed.
Lemma norm_held D j w : read_ok D j -> norm j = Some w -> held_value w /\ jdepth w <= D.
Proof.
  revert D w; induction j as [|b|l|t|t|l IH|l IH] using json_ind; intros D w Hr; cbn [norm].
  - intros [= <-]. destruct Hr as (_ & _ & Hd). done.
  - intros [= <-]. destruct Hr as (_ & _ & Hd). done.
  - destruct (f64_norm l) as [l'|] eqn:E; [|done]. intros H; apply (inj Some) in H as <-. destruct Hr as (Hn & _ & Hd). split; [|done]. split_and!; [|by eapply f64_norm_num_ok|done].
    cbn [norm]. by rewrite (f64_norm_idem _ _ E).
  - intros [= <-]. destruct Hr as (_ & Ht & Hd). done.
  - intros [= <-]. destruct Hr as (_ & Ht & Hd). done.
  - destruct (seq_opt (map norm l)) as [l2|] eqn:E; [|done]. intros H; apply (inj Some) in H as <-. apply seq_opt_f2 in E. apply read_ok_arr in Hr as [HD Hr].
    assert (Forall (fun w => held_value w /\ jdepth w <= D - 1) l2) as Hl.
    { clear -IH E Hr. induction E as [|x y l l2 Hxy _ IHl]; [constructor|]. apply Forall_cons in IH as [Hx IH]. apply Forall_cons in Hr as [Hrx Hr]. constructor; eauto. }
    apply Forall_and in Hl as [Hl Hd]. unfold held_value in Hl. rewrite !Forall_and in Hl. destruct Hl as (H1 & H2 & H3).
    split; [|by apply jdepth_arr]. split_and!; [|by apply nums_wf_arr|by apply texts_ok_arr]. cbn [norm]. by rewrite (seq_opt_id _ H1).
  - destruct (seq_kv (map (fun kv => (kv.1, norm kv.2)) l)) as [l2|] eqn:E; [|done]. intros H; apply (inj Some) in H as <-. apply norm_members in E. apply read_ok_obj in Hr as [HD Hr].
    assert (Forall (fun kv => utf8_text kv.1 /\ held_value kv.2 /\ jdepth kv.2 <= D - 1) l2) as Hl0.
    { clear -IH E Hr. induction E as [|x y l l2 [Hxy1 Hxy2] _ IHl]; [constructor|]. apply Forall_cons in IH as [Hx IH]. apply Forall_cons in Hr as [[Hrk Hrx] Hr]. constructor; [|auto]. rewrite <- Hxy1. split; [done|]. by eapply Hx. }
    assert (Forall (fun kv => utf8_text kv.1 /\ held_value kv.2 /\ jdepth kv.2 <= D - 1) (obj_norm l2)) as Hl.
    { apply Forall_forall. intros kv Hkv%obj_norm_in. by eapply Forall_forall in Hl0. }
    clear Hl0. unfold held_value in Hl. rewrite !Forall_and in Hl. destruct Hl as (Hk & (H1 & H2 & H3) & Hd).
    split; [|by apply jdepth_obj]. split_and!; [|by apply nums_wf_obj|by apply texts_ok_obj, Forall_and]. cbn [norm]. rewrite (seq_kv_id _ H1). by rewrite obj_norm_idem.
Qed.

(** ** Custom data *)
Lemma unesc_idem j : unesc (unesc j) = unesc j.
Proof.
  induction j as [|b|l|t|t|l IH|l IH] using json_ind; cbn [unesc]; try done; f_equal; rewrite map_map; (induction IH as [|x l Hx _ IHl]; cbn; [done|]; f_equal; [by rewrite Hx|exact IHl]).
Qed.
Lemma unesc_read D j : read_ok D j -> read_ok D (unesc j).
Proof.
  revert D; induction j as [|b|l|t|t|l IH|l IH] using json_ind; intros D Hr; cbn [unesc]; try done.
  - apply read_ok_arr in Hr as [HD Hr]. apply read_ok_arr. split; [done|]. apply Forall_map. rewrite Forall_forall in *. auto.
  - apply read_ok_obj in Hr as [HD Hr]. apply read_ok_obj. split; [done|]. apply Forall_map. rewrite Forall_forall in *. intros x Hx. destruct (Hr x Hx). split; [done|]. cbn. by apply IH.
Qed.
Lemma unesc_numbers j : numbers_ok j -> numbers_ok (unesc j).
Proof.
  induction j as [|b|l|t|t|l IH|l IH] using json_ind; intros Hr; cbn [unesc]; try done.
  - apply numbers_ok_arr in Hr. apply numbers_ok_arr. apply Forall_map. rewrite Forall_forall in *. auto.
  - apply numbers_ok_obj in Hr. apply numbers_ok_obj. apply Forall_map. rewrite Forall_forall in *. intros x Hx. by apply IH, Hr.
Qed.
Lemma unesc_null j : unesc j = JNull -> j = JNull.
Proof. by destruct j. Qed.
(** what is read from a text: well-formed, all numbers in range, at most [D] levels deep *)
Definition src (D : Z) (j : json) : Prop := read_ok D j /\ numbers_ok j.
Lemma src_arr D l : src D (JArr l) -> 1 <= D /\ Forall (src (D - 1)) l.
Proof. unfold src. rewrite read_ok_arr, numbers_ok_arr, Forall_and. tauto. Qed.
Lemma src_obj D l : src D (JObj l) -> 1 <= D /\ Forall (fun kv => utf8_text kv.1 /\ src (D - 1) kv.2) l.
Proof. unfold src. rewrite read_ok_obj, numbers_ok_obj, !Forall_and. tauto. Qed.
Lemma custom_read D j c : src D j -> dec_ptr (fun j => Ok (unesc j)) j = Ok (Some c) -> custom_ok c /\ jdepth c <= D.
Proof.
  intros [Hr Hn]. unfold dec_ptr. destruct (decide (j = JNull)) as [-> |Hj]; [done|]. intros H. assert (c = unesc j) as -> by (destruct j; [done|injection H as <-; reflexivity..]).
  apply unesc_read in Hr. apply unesc_numbers in Hn. destruct Hr as (? & ? & ?). split; [|done]. split_and!; try done. { by intros ?%unesc_null. } apply unesc_idem.
Qed.

(** ** Members that were not recognised *)
Definition extra_read (D : Z) (u : unrec) : Prop := forall k v, mget u k = Some v -> utf8_text k /\ held_value v /\ jdepth v <= D.
Lemma dict_read D j d names : src D j -> decode_dict j = Ok d -> extra_read (D - 1) (del_all names d).
Proof.
  intros Hs Hd k v. rewrite mget_del_all. destruct (decide (k ∈ names)) as [?|Hk]; [done|]. intros Hv. destruct j as [| | | | | |l]; try done; [by injection Hd as <-|].
  apply src_obj in Hs as [HD Hs]. destruct (decode_dict_lookup l d k Hd) as [H _]. destruct (H v Hv) as (w & Hw & Hn). assert ((k, w) ∈ l) as Hin.
  { destruct Hw as (l1 & l2 & -> & _). apply elem_of_app. right. left. }
  rewrite Forall_forall in Hs. apply Hs in Hin as [Hk0 [Hr _]]. split; [done|]. by eapply norm_held.
Qed.
Lemma extra_ok_of D names u : extra_read D u -> clear_names names u -> extra_ok names u.
Proof. intros H1 H2 k v Hv. destruct (H1 k v Hv) as (? & ? & ?). split_and!; try done. intros n. by eapply H2. Qed.
