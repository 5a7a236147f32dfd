(** * The parser does not care about white space: proofs *)
From stdpp Require Import base gmap strings list.
From Coq Require Import ZArith Lia Ascii String.
From Verif Require Import GoBase GoStr Json StrProofs SpecUtf8 Utf8Proofs SpecText JsonText LoadBase Files.
Open Scope Z_scope.

(** ** What may follow a number *)
Definition ends (s : string) : bool := match s with EmptyString => true | String c _ => is_ws c || (bz c =? 44) || (bz c =? 93) || (bz c =? 125) end.
Lemma ends_cases s : ends s = true -> s = "" \/ exists c r, s = String c r /\ (c = ","%char \/ c = "]"%char \/ c = "}"%char \/ c = " "%char \/ c = "009"%char \/ c = "010"%char \/ c = "013"%char).
Proof.
  destruct s as [|c r]; [by left|]. cbn. intros H. right. exists c, r. split; [done|]. unfold is_ws in H. rewrite !orb_true_iff, !Z.eqb_eq in H.
  destruct H as [[[[[[H|H]|H]|H]|H]|H]|H]; [do 3 right; left|do 4 right; left|do 5 right; left|do 6 right|left|right; left|do 2 right; left]; by apply bz_inj.
Qed.
Lemma take_digits_ends s rest d t : ends rest = true -> take_digits s = (d, t) -> take_digits (s +:+ rest) = (d, t +:+ rest).
Proof.
  intros Hd. revert d t. induction s as [|c s IH]; intros d t; cbn [take_digits].
  - intros [= <- <-]. rewrite !app_nil_l_s. destruct (ends_cases _ Hd) as [-> |(c & r & -> & [-> |[-> |[-> |[-> |[-> |[-> | ->]]]]]])]; done.
  - rewrite app_cons_s. cbn [take_digits]. destruct (is_digit c).
    + destruct (take_digits s) as [d' t'] eqn:E. intros [= <- <-]. by rewrite (IH _ _ eq_refl).
    + intros [= <- <-]. done.
Qed.
Lemma num_int_ends s rest d t : ends rest = true -> num_int s = (d, t) -> num_int (s +:+ rest) = (d, t +:+ rest).
Proof.
  intros Hd. unfold num_int. destruct (take_digits s) as [ip u] eqn:E. rewrite (take_digits_ends _ _ _ _ Hd E).
  destruct ip as [|c [|c' ip]].
  - by intros [= <- <-].
  - destruct c as [[] [] [] [] [] [] [] []]; by intros [= <- <-].
  - destruct c as [[] [] [] [] [] [] [] []]; intros [= <- <-]; rewrite ?app_cons_s, ?app_assoc_s; done.
Qed.
Lemma num_frac_ends s rest d t : ends rest = true -> num_frac s = Some (d, t) -> num_frac (s +:+ rest) = Some (d, t +:+ rest).
Proof.
  intros Hd. unfold num_frac. destruct s as [|c s].
  - intros [= <- <-]. rewrite !app_nil_l_s. destruct (ends_cases _ Hd) as [-> |(c & r & -> & [-> |[-> |[-> |[-> |[-> |[-> | ->]]]]]])]; done.
  - rewrite app_cons_s. destruct (ascii_dec c ".") as [-> |Hne].
    + destruct (take_digits s) as [u v] eqn:E. rewrite (take_digits_ends _ _ _ _ Hd E). destruct u; [done|]. by intros [= <- <-].
    + destruct c as [[] [] [] [] [] [] [] []]; try done; by intros [= <- <-].
Qed.
Lemma num_expo_ends e s rest d t : ends rest = true -> num_expo e s = Some (d, t) -> num_expo e (s +:+ rest) = Some (d, t +:+ rest).
Proof.
  intros Hd. unfold num_expo.
  assert (forall sg r, (let '(d0, t0) := take_digits r in match d0 with EmptyString => None | _ => Some (String e (sg +:+ d0), t0) end) = Some (d, t) ->
     (let '(d0, t0) := take_digits (r +:+ rest) in match d0 with EmptyString => None | _ => Some (String e (sg +:+ d0), t0) end) = Some (d, t +:+ rest)) as Hx.
  { intros sg r. destruct (take_digits r) as [u v] eqn:E. rewrite (take_digits_ends _ _ _ _ Hd E). destruct u; [done|]. by intros [= <- <-]. }
  assert (forall sg r, match take_digits r with (EmptyString, _) => None | (d, t) => Some (String e (sg +:+ d), t) end = Some (d, t) ->
    match take_digits (r +:+ rest) with (EmptyString, _) => None | (d, t) => Some (String e (sg +:+ d), t) end = Some (d, t +:+ rest)) as Hy.
  { intros sg r Hr. specialize (Hx sg r). destruct (take_digits r) as [[|] ?], (take_digits (r +:+ rest)) as [[|] ?]; by apply Hx. }
  destruct s as [|c s].
  - intros H. cbn in H. done.
  - rewrite app_cons_s. destruct (ascii_dec c "+") as [-> |H1]; [apply Hy|]. destruct (ascii_dec c "-") as [-> |H2]; [apply Hy|].
    specialize (Hy "" (String c s)). rewrite app_cons_s in Hy.
    destruct c as [[] [] [] [] [] [] [] []]; try done; exact Hy.
Qed.
Lemma num_exp_ends s rest d t : ends rest = true -> num_exp s = Some (d, t) -> num_exp (s +:+ rest) = Some (d, t +:+ rest).
Proof.
  intros Hd. unfold num_exp. destruct s as [|c s].
  - intros [= <- <-]. rewrite !app_nil_l_s. destruct (ends_cases _ Hd) as [-> |(c & r & -> & [-> |[-> |[-> |[-> |[-> |[-> | ->]]]]]])]; done.
  - rewrite app_cons_s. destruct (ascii_dec c "e") as [-> |H1]; [by apply num_expo_ends|]. destruct (ascii_dec c "E") as [-> |H2]; [by apply num_expo_ends|].
    destruct c as [[] [] [] [] [] [] [] []]; try done; by intros [= <- <-].
Qed.
Lemma parse_num_ends s rest d t : ends rest = true -> parse_num s = Some (d, t) -> parse_num (s +:+ rest) = Some (d, t +:+ rest).
Proof.
  intros Hd. rewrite !parse_num_unfold.
  assert (match s +:+ rest with String "-" r => ("-", r) | _ => ("", s +:+ rest) end =
          let '(a, b) := match s with String "-" r => ("-", r) | _ => ("", s) end in (a, b +:+ rest)) as ->.
  { destruct s as [|c s].
    - rewrite app_nil_l_s. destruct (ends_cases _ Hd) as [-> |(c & r & -> & [-> |[-> |[-> |[-> |[-> |[-> | ->]]]]]])]; done.
    - rewrite app_cons_s. destruct c as [[] [] [] [] [] [] [] []]; done. }
  destruct (match s with String "-" r => ("-", r) | _ => ("", s) end) as [sign s0].
  destruct (num_int s0) as [ip u] eqn:E. rewrite (num_int_ends _ _ _ _ Hd E). destruct ip as [|ci ip]; [done|].
  destruct (num_frac u) as [[fp v]|] eqn:E2; [|done]. rewrite (num_frac_ends _ _ _ _ Hd E2).
  destruct (num_exp v) as [[ep w]|] eqn:E3; [|done]. rewrite (num_exp_ends _ _ _ _ Hd E3). by intros [= <- <-].
Qed.

(** the text of a number, and its bytes *)
Definition numch (c : ascii) : bool := is_digit c || (bz c =? 45) || (bz c =? 43) || (bz c =? 46) || (bz c =? 101) || (bz c =? 69).
Lemma take_digits_split s d t : take_digits s = (d, t) -> s = d +:+ t /\ string_all is_digit d = true.
Proof.
  revert d t. induction s as [|c s IH]; intros d t; cbn [take_digits]; [by intros [= <- <-]|]. destruct (is_digit c) eqn:E; [|by intros [= <- <-]].
  destruct (take_digits s) as [d' t'] eqn:E'. intros [= <- <-]. destruct (IH _ _ eq_refl) as [-> H]. split; [done|]. cbn. by rewrite E.
Qed.
Lemma string_all_app f a b : string_all f (a +:+ b) = string_all f a && string_all f b.
Proof. induction a as [|c a IH]; [done|]. rewrite app_cons_s. cbn. by rewrite IH, andb_assoc. Qed.
Lemma digits_numch d : string_all is_digit d = true -> string_all numch d = true.
Proof. induction d as [|c d IH]; [done|]. cbn. intros [H1 H2]%andb_prop. unfold numch at 1. by rewrite H1, IH. Qed.
Lemma num_int_split s d t : num_int s = (d, t) -> s = d +:+ t /\ string_all numch d = true.
Proof.
  unfold num_int. destruct (take_digits s) as [ip u] eqn:E. destruct (take_digits_split _ _ _ E) as [-> Hd]. apply digits_numch in Hd.
  destruct ip as [|c [|c' ip]].
  - by intros [= <- <-].
  - destruct c as [[] [] [] [] [] [] [] []]; by intros [= <- <-].
  - destruct (ascii_dec c "0") as [-> |Hne]; [by intros [= <- <-]|]. destruct c as [[] [] [] [] [] [] [] []]; try done; by intros [= <- <-].
Qed.
Lemma num_frac_split s d t : num_frac s = Some (d, t) -> s = d +:+ t /\ string_all numch d = true.
Proof.
  unfold num_frac. destruct s as [|c s]; [by intros [= <- <-]|]. destruct (ascii_dec c ".") as [-> |Hne].
  - destruct (take_digits s) as [u v] eqn:E. destruct (take_digits_split _ _ _ E) as [-> Hd]. apply digits_numch in Hd. destruct u as [|a u]; [done|]. by intros [= <- <-].
  - destruct c as [[] [] [] [] [] [] [] []]; try done; by intros [= <- <-].
Qed.
Lemma num_expo_split e s d t : numch e = true -> num_expo e s = Some (d, t) -> String e s = d +:+ t /\ string_all numch d = true.
Proof.
  intros He. unfold num_expo.
  assert (forall (sg r : string), string_all numch sg = true -> match take_digits r with (EmptyString, _) => None | (d, t) => Some (String e (sg +:+ d), t) end = Some (d, t) ->
    String e (sg +:+ r) = d +:+ t /\ string_all numch d = true) as Hy.
  { intros sg r Hsg. destruct (take_digits r) as [u v] eqn:E. destruct (take_digits_split _ _ _ E) as [-> Hd]. apply digits_numch in Hd. destruct u as [|a u]; [done|]. intros [= <- <-].
    split; [by rewrite (app_cons_s e), app_assoc_s|]. cbn [string_all]. rewrite He, string_all_app, Hsg. exact Hd. }
  destruct s as [|c s]; [by apply (Hy "" "")|]. destruct (ascii_dec c "+") as [-> |H1]; [by apply (Hy "+" s)|]. destruct (ascii_dec c "-") as [-> |H2]; [by apply (Hy "-" s)|].
  specialize (Hy "" (String c s) eq_refl). destruct c as [[] [] [] [] [] [] [] []]; try done; exact Hy.
Qed.
Lemma num_exp_split s d t : num_exp s = Some (d, t) -> s = d +:+ t /\ string_all numch d = true.
Proof.
  unfold num_exp. destruct s as [|c s]; [by intros [= <- <-]|]. destruct (ascii_dec c "e") as [-> |H1]; [by apply num_expo_split|]. destruct (ascii_dec c "E") as [-> |H2]; [by apply num_expo_split|].
  destruct c as [[] [] [] [] [] [] [] []]; try done; by intros [= <- <-].
Qed.
Lemma parse_num_split s l t : parse_num s = Some (l, t) -> s = l +:+ t /\ string_all numch l = true.
Proof.
  rewrite parse_num_unfold. destruct (match s with String "-" r => ("-", r) | _ => ("", s) end) as [sign s0] eqn:Es.
  assert (s = sign +:+ s0 /\ string_all numch sign = true) as [-> Hs].
  { destruct s as [|c s]; [by injection Es as <- <-|]. destruct (ascii_dec c "-") as [-> |Hne]; [by injection Es as <- <-|]. destruct c as [[] [] [] [] [] [] [] []]; try done; by injection Es as <- <-. }
  destruct (num_int s0) as [ip u] eqn:E. destruct (num_int_split _ _ _ E) as [-> H1]. destruct ip as [|ci ip]; [done|].
  destruct (num_frac u) as [[fp v]|] eqn:E2; [|done]. destruct (num_frac_split _ _ _ E2) as [-> H2].
  destruct (num_exp v) as [[ep w]|] eqn:E3; [|done]. destruct (num_exp_split _ _ _ E3) as [-> H3]. intros [= <- <-]. rewrite !app_assoc_s. split; [done|].
  by rewrite !string_all_app, Hs, H1, H2, H3.
Qed.

(** ** String literals *)
Definition next_u (s : string) : option Z :=
  match s with
  | String q0 (String q1 (String a' (String b' (String c' (String d' _))))) => if (bz q0 =? 92) && (bz q1 =? 117) then hex4 a' b' c' d' else None
  | _ => None
  end.
Definition drop6 (s : string) : string := match s with String _ (String _ (String _ (String _ (String _ (String _ r))))) => r | _ => s end.
Lemma parse_str_u a b c d r u : hex4 a b c d = Some u -> parse_str (String "\" (String "u" (String a (String b (String c (String d r)))))) =
  if (55296 <=? u) && (u <=? 57343) then
    match next_u r with
    | Some u2 => if (u <=? 56319) && (56320 <=? u2) && (u2 <=? 57343) then push (utf8_encode ((u - 55296) * 1024 + (u2 - 56320) + 65536)) true (parse_str (drop6 r)) else push utf8_fffd true (parse_str r)
    | None => push utf8_fffd true (parse_str r)
    end
  else push (utf8_encode u) true (parse_str r).
Proof.
  intros H. cbn [parse_str]. change (bz "\" =? 34) with false. change (bz "\" <? 32) with false. change (bz "\" =? 92) with true. change (bz "u" =? 117) with true. cbv iota. rewrite H.
  destruct ((55296 <=? u) && (u <=? 57343)); [|done]. destruct r as [|q0 [|q1 [|a' [|b' [|c' [|d' r]]]]]]; done.
Qed.
Lemma hexval_quote : hexval (zb 34) = None. Proof. reflexivity. Qed.
Lemma next_u_local v X Y : next_u (v +:+ dquote +:+ X) = next_u (v +:+ dquote +:+ Y).
Proof.
  assert (forall r, next_u (String (zb 34) r) = None) as H0.
  { intros r. do 5 (destruct r as [|? r]; [done|]). done. }
  assert (forall a r, next_u (String a (String (zb 34) r)) = None) as H1.
  { intros a r. do 4 (destruct r as [|? r]; [done|]). cbn. by rewrite andb_false_r. }
  assert (forall a b r, next_u (String a (String b (String (zb 34) r))) = None) as H2.
  { intros a b r. do 3 (destruct r as [|? r]; [done|]). cbn [next_u]. unfold hex4. rewrite hexval_quote. by destruct (_ && _). }
  assert (forall a b c r, next_u (String a (String b (String c (String (zb 34) r)))) = None) as H3.
  { intros a b c r. do 2 (destruct r as [|? r]; [done|]). cbn [next_u]. unfold hex4. rewrite hexval_quote. destruct (_ && _), (hexval c); done. }
  assert (forall a b c d r, next_u (String a (String b (String c (String d (String (zb 34) r))))) = None) as H4.
  { intros a b c d r. do 1 (destruct r as [|? r]; [done|]). cbn [next_u]. unfold hex4. rewrite hexval_quote. destruct (_ && _), (hexval c), (hexval d); done. }
  destruct v as [|c0 [|c1 [|c2 [|c3 [|c4 [|c5 v]]]]]]; rewrite ?app_nil_l_s, ?app_cons_s; unfold dquote, s1; rewrite ?app_cons_s, ?app_nil_l_s.
  - by rewrite !H0.
  - by rewrite !H1.
  - by rewrite !H2.
  - by rewrite !H3.
  - by rewrite !H4.
  - cbn [next_u]. unfold hex4. rewrite hexval_quote. destruct (_ && _), (hexval c2), (hexval c3), (hexval c4); done.
  - done.
Qed.
Lemma utf8_len_local c v X Y : 128 <= bz c -> utf8_len (String c (v +:+ dquote +:+ X)) = utf8_len (String c (v +:+ dquote +:+ Y)).
Proof.
  intros Hc. assert (utf8_cont (zb 34) = false) as Hq by reflexivity. change (bz (zb 34)) with 34 in *.
  assert (forall r, utf8_len (String c (String (zb 34) r)) = None) as H0.
  { intros r. cbn [utf8_len]. rewrite Hq. change (bz (zb 34)) with 34. destruct (_ && _); [done|]. destruct r as [|? r]; [done|].
    assert (((if bz c =? 224 then 160 <=? 34 else 128 <=? 34) && (if bz c =? 237 then 34 <=? 159 else 34 <=? 191)) = false) as -> by (by destruct (bz c =? 224)).
    assert (((if bz c =? 240 then 144 <=? 34 else 128 <=? 34) && (if bz c =? 244 then 34 <=? 143 else 34 <=? 191)) = false) as -> by (by destruct (bz c =? 240)).
    cbn. destruct (_ && _); [done|]. destruct r; [done|]. by destruct (_ && _). }
  destruct v as [|c0 [|c1 [|c2 v]]]; rewrite ?app_nil_l_s, ?app_cons_s; unfold dquote, s1; rewrite ?app_cons_s, ?app_nil_l_s.
  - by rewrite !H0.
  - cbn [utf8_len]. rewrite Hq, !andb_false_r. cbn [andb]. repeat (match goal with |- context [match ?x with EmptyString => _ | _ => _ end] => destruct x end); repeat (match goal with |- context [if ?x then _ else _] => destruct x end); done.
  - cbn [utf8_len]. rewrite Hq, !andb_false_r. done.
  - done.
Qed.

Lemma indent_plain n d c r : bz c <> 34 -> bz c <> 92 -> json_indent true false n d (String c r) = String c (json_indent true false n d r).
Proof. intros H1 H2. cbn [json_indent]. destruct (Z.eqb_spec (bz c) 92); [done|]. destruct (Z.eqb_spec (bz c) 34); [done|]. done. Qed.
Lemma indent_esc n d c r : json_indent true false n d (String "\" (String c r)) = String "\" (String c (json_indent true false n d r)).
Proof. done. Qed.
Lemma hexval_plain c x : hexval c = Some x -> bz c <> 34 /\ bz c <> 92.
Proof. intros H. split; intros E; [assert (c = zb 34) as -> by (by apply bz_inj)|assert (c = zb 92) as -> by (by apply bz_inj)]; done. Qed.
Lemma hex4_plain a b c d x : hex4 a b c d = Some x -> (bz a <> 34 /\ bz a <> 92) /\ (bz b <> 34 /\ bz b <> 92) /\ (bz c <> 34 /\ bz c <> 92) /\ (bz d <> 34 /\ bz d <> 92).
Proof.
  unfold hex4. destruct (hexval a) eqn:Ea; [|done]. destruct (hexval b) eqn:Eb; [|done]. destruct (hexval c) eqn:Ec; [|done]. destruct (hexval d) eqn:Ed; [|done].
  intros _. pose proof (hexval_plain _ _ Ea). pose proof (hexval_plain _ _ Eb). pose proof (hexval_plain _ _ Ec). pose proof (hexval_plain _ _ Ed). tauto.
Qed.
Lemma push_some p esc o x e t : push p esc o = Some (x, e, t) -> exists x' e', o = Some (x', e', t) /\ x = p +:+ x' /\ e = esc || e'.
Proof. destruct o as [[[x' e'] t']|]; [|done]. intros [= <- <- <-]. eauto. Qed.

Definition str_local (s : string) (x : string) (e : bool) (t : string) : Prop :=
  exists v, s = (v +:+ dquote) +:+ t /\ (forall X, parse_str ((v +:+ dquote) +:+ X) = Some (x, e, X)) /\
    (forall n d, json_indent true false n d s = (v +:+ dquote) +:+ json_indent false false n d t).
(** one more token in front *)
Lemma str_local_step w s p esc x e t : str_local s x e t ->
  (forall v, s = (v +:+ dquote) +:+ t -> forall X, parse_str (w +:+ v +:+ dquote +:+ X) = push p esc (parse_str (v +:+ dquote +:+ X))) ->
  (forall n d r, json_indent true false n d (w +:+ r) = w +:+ json_indent true false n d r) ->
  str_local (w +:+ s) (p +:+ x) (esc || e) t.
Proof.
  intros (v & Hs & Hp & Hi) Hw Hwi. exists (w +:+ v). split; [by rewrite Hs, !app_assoc_s|]. split.
  - intros X. rewrite !app_assoc_s. rewrite (Hw v Hs X). specialize (Hp X). rewrite app_assoc_s in Hp. by rewrite Hp.
  - intros n d. rewrite Hwi, Hi. by rewrite !app_assoc_s.
Qed.
Lemma cont_plain c : utf8_cont c = true -> bz c <> 34 /\ bz c <> 92.
Proof. unfold utf8_cont. rewrite andb_true_iff, !Z.leb_le. lia. Qed.
Lemma utf8_len_some c y k : utf8_len (String c y) = Some k ->
  (k = 2%nat /\ exists x1 r, y = String x1 r /\ utf8_cont x1 = true /\ forall r', utf8_len (String c (String x1 r')) = Some 2%nat) \/
  (k = 3%nat /\ exists x1 x2 r, y = String x1 (String x2 r) /\ 128 <= bz x1 /\ utf8_cont x2 = true /\ forall r', utf8_len (String c (String x1 (String x2 r'))) = Some 3%nat) \/
  (k = 4%nat /\ exists x1 x2 x3 r, y = String x1 (String x2 (String x3 r)) /\ 128 <= bz x1 /\ utf8_cont x2 = true /\ utf8_cont x3 = true /\ forall r', utf8_len (String c (String x1 (String x2 (String x3 r')))) = Some 4%nat).
Proof.
  destruct y as [|x1 y]; [done|]. cbn [utf8_len]. destruct ((194 <=? bz c) && (bz c <=? 223)) eqn:E2.
  { destruct (utf8_cont x1) eqn:Ec; [|done]. intros [= <-]. left. split; [done|]. exists x1, y. split; [done|]. split; [done|]. intros r'. cbn [utf8_len]. by rewrite ?E2, ?Ec. }
  destruct y as [|x2 y]; [done|]. destruct ((224 <=? bz c) && (bz c <=? 239)) eqn:E3.
  { destruct (_ && utf8_cont x2) eqn:Ec; [|done]. intros [= <-]. right; left. split; [done|]. exists x1, x2, y. split; [done|]. pose proof Ec as Ec'. apply andb_prop in Ec' as [Ec1 Ec2]. apply andb_prop in Ec1 as [Ec1 _].
    split; [destruct (bz c =? 224); apply Z.leb_le in Ec1; lia|]. split; [done|]. intros r'. cbn [utf8_len]. by rewrite ?E2, ?E3, ?Ec. }
  destruct y as [|x3 y]; [done|]. destruct ((240 <=? bz c) && (bz c <=? 244)) eqn:E4; [|done].
  destruct (_ && utf8_cont x3) eqn:Ec; [|done]. intros [= <-]. right; right. split; [done|]. exists x1, x2, x3, y. split; [done|]. pose proof Ec as Ec'. apply andb_prop in Ec' as [Ec1 Ec3]. apply andb_prop in Ec1 as [Ec1 Ec2]. apply andb_prop in Ec1 as [Ec1 _].
  split; [destruct (bz c =? 240); apply Z.leb_le in Ec1; lia|]. split; [done|]. split; [done|]. intros r'. cbn [utf8_len]. by rewrite ?E2, ?E3, ?E4, ?Ec.
Qed.
Lemma bs_inv c : bz c = 92 -> c = "\"%char. Proof. intros H. by apply bz_inj. Qed.
Lemma parse_str_local s x e t : parse_str s = Some (x, e, t) -> str_local s x e t.
Proof.
  remember (String.length s) as k eqn:Hk. revert s x e t Hk. induction (lt_wf k) as [k _ IH]. intros s x e t ->.
  assert (forall s', (String.length s' < String.length s)%nat -> forall p esc, push p esc (parse_str s') = Some (x, e, t) -> exists x' e', str_local s' x' e' t /\ x = p +:+ x' /\ e = esc || e') as IH'.
  { intros s' Hl p esc (x' & e' & H & -> & ->)%push_some. exists x', e'. split; [|done]. by eapply IH. }
  clear IH. destruct s as [|c r]; [done|].
  destruct (Z.eqb_spec (bz c) 34) as [H34|H34].
  { cbn [parse_str]. rewrite (proj2 (Z.eqb_eq _ _) H34). intros [= <- <- <-]. assert (c = zb 34) as -> by (by apply bz_inj). exists "". split; [done|]. split; [done|]. intros n d. done. }
  destruct (Z.ltb_spec (bz c) 32) as [H32|H32].
  { cbn [parse_str]. rewrite (proj2 (Z.eqb_neq _ _) H34), (proj2 (Z.ltb_lt _ _) H32). done. }
  destruct (Z.eqb_spec (bz c) 92) as [H92|H92].
  { apply bs_inv in H92 as ->. destruct r as [|f r1]; [done|]. destruct (Z.eqb_spec (bz f) 117) as [Hu|Hu].
    - assert (f = "u"%char) as -> by (by apply bz_inj). destruct r1 as [|a [|b [|c [|d r2]]]]; [done..|]. destruct (hex4 a b c d) as [u|] eqn:Eh.
      2: { cbn [parse_str]. change (bz "\" =? 34) with false. change (bz "\" <? 32) with false. change (bz "\" =? 92) with true. change (bz "u" =? 117) with true. cbv iota. by rewrite Eh. }
      rewrite (parse_str_u _ _ _ _ _ _ Eh). destruct (hex4_plain _ _ _ _ _ Eh) as ((A1 & A2) & (B1 & B2) & (C1 & C2) & D1 & D2).
      set (w := String "\" (String "u" (String a (String b (String c (s1 d)))))).
      assert (forall y, String "\" (String "u" (String a (String b (String c (String d y))))) = w +:+ y) as Hw by done.
      assert (forall n d' y, json_indent true false n d' (w +:+ y) = w +:+ json_indent true false n d' y) as Hwi.
      { intros n d' y. rewrite <- !Hw. rewrite indent_esc, !indent_plain by done. done. }
      destruct ((55296 <=? u) && (u <=? 57343)) eqn:Es.
      + destruct (next_u r2) as [u2|] eqn:En.
        * destruct ((u <=? 56319) && (56320 <=? u2) && (u2 <=? 57343)) eqn:E2.
          -- destruct r2 as [|q0 [|q1 [|a' [|b' [|c' [|d' r3]]]]]]; try done. cbn [drop6]. cbn [next_u] in En. destruct ((bz q0 =? 92) && (bz q1 =? 117)) eqn:Eq; [|done].
             apply andb_prop in Eq as [Q0%Z.eqb_eq Q1%Z.eqb_eq]. apply bs_inv in Q0 as ->. assert (q1 = "u"%char) as -> by (by apply bz_inj).
             intros H. destruct (IH' r3 ltac:(cbn; lia) _ _ H) as (x' & e' & Hl & -> & ->).
             set (w2 := w +:+ String "\" (String "u" (String a' (String b' (String c' (s1 d')))))).
             rewrite Hw. replace (w +:+ String "\" (String "u" (String a' (String b' (String c' (String d' r3)))))) with (w2 +:+ r3) by (unfold w2; by rewrite app_assoc_s).
             apply str_local_step; [done| |].
             ++ intros v _ X. unfold w2. rewrite app_assoc_s, <- Hw. rewrite (parse_str_u _ _ _ _ _ _ Eh), Es.
                replace (next_u _) with (Some u2). rewrite E2. done.
             ++ intros n d0 y. unfold w2. rewrite !app_assoc_s, Hwi. f_equal. destruct (hex4_plain _ _ _ _ _ En) as ((A1' & A2') & (B1' & B2') & (C1' & C2') & D1' & D2').
                unfold s1. rewrite !app_cons_s, !app_nil_l_s. rewrite indent_esc, !indent_plain by done. done.
          -- intros H. destruct (IH' r2 ltac:(cbn; lia) _ _ H) as (x' & e' & Hl & -> & ->). rewrite Hw. apply str_local_step; [done| |done]. intros v Hv X. rewrite <- Hw, (parse_str_u _ _ _ _ _ _ Eh), Es.
             rewrite Hv, app_assoc_s in En. rewrite (next_u_local v X t), En, E2. done.
        * intros H. destruct (IH' r2 ltac:(cbn; lia) _ _ H) as (x' & e' & Hl & -> & ->). rewrite Hw. apply str_local_step; [done| |done]. intros v Hv X. rewrite <- Hw, (parse_str_u _ _ _ _ _ _ Eh), Es.
          rewrite Hv, app_assoc_s in En. rewrite (next_u_local v X t), En. done.
      + intros H. destruct (IH' r2 ltac:(cbn; lia) _ _ H) as (x' & e' & Hl & -> & ->). rewrite Hw. apply str_local_step; [done| |done]. intros v Hv X. rewrite <- Hw, (parse_str_u _ _ _ _ _ _ Eh), Es. done.
    - assert (exists p, forall y, parse_str (String "\" (String f y)) = match p with Some p => push p true (parse_str y) | None => None end) as (p & Hp).
      { eexists (if (bz f =? 34) || (bz f =? 92) || (bz f =? 47) then Some (s1 f) else if bz f =? 98 then Some (s1 (zb 8)) else if bz f =? 102 then Some (s1 (zb 12)) else if bz f =? 110 then Some (s1 (zb 10))
          else if bz f =? 114 then Some (s1 (zb 13)) else if bz f =? 116 then Some (s1 (zb 9)) else None).
        intros y. cbn [parse_str]. change (bz "\" =? 34) with false. change (bz "\" <? 32) with false. change (bz "\" =? 92) with true. cbv iota. rewrite (proj2 (Z.eqb_neq _ _) Hu).
        repeat (match goal with |- context [if ?x then _ else _] => destruct x; [done|] end). done. }
      rewrite Hp. destruct p as [p|]; [|done]. intros H. destruct (IH' r1 ltac:(cbn; lia) _ _ H) as (x' & e' & Hl & -> & ->).
      change (String "\" (String f r1)) with (String "\" (s1 f) +:+ r1). apply str_local_step; [done| |done]. intros v _ X. apply Hp. }
  destruct (Z.ltb_spec (bz c) 128) as [H128|H128].
  { assert (forall y, parse_str (String c y) = push (s1 c) false (parse_str y)) as Hp.
    { intros y. cbn [parse_str]. rewrite (proj2 (Z.eqb_neq _ _) H34), (proj2 (Z.ltb_ge _ _) H32), (proj2 (Z.eqb_neq _ _) H92), (proj2 (Z.ltb_lt _ _) H128). done. }
    rewrite Hp. intros H. destruct (IH' r ltac:(cbn; lia) _ _ H) as (x' & e' & Hl & -> & ->). change (String c r) with (s1 c +:+ r). apply str_local_step; [done| |].
    - intros v _ X. apply Hp. - intros n d y. by apply indent_plain. }
  assert (forall y, parse_str (String c y) = match utf8_len (String c y) with
        | Some 2%nat => match y with String x1 r1 => push (String c (s1 x1)) false (parse_str r1) | _ => None end
        | Some 3%nat => match y with String x1 (String x2 r2) => push (String c (String x1 (s1 x2))) false (parse_str r2) | _ => None end
        | Some 4%nat => match y with String x1 (String x2 (String x3 r3)) => push (String c (String x1 (String x2 (s1 x3)))) false (parse_str r3) | _ => None end
        | _ => push utf8_fffd false (parse_str y) end) as Hp.
  { intros y. cbn [parse_str]. rewrite (proj2 (Z.eqb_neq _ _) H34), (proj2 (Z.ltb_ge _ _) H32), (proj2 (Z.eqb_neq _ _) H92), (proj2 (Z.ltb_ge _ _) H128). done. }
  rewrite Hp. destruct (utf8_len (String c r)) as [k|] eqn:El.
  - destruct (utf8_len_some _ _ _ El) as [(-> & x1 & r1 & -> & C1 & Hl)|[(-> & x1 & x2 & r1 & -> & C1 & C2 & Hl)|(-> & x1 & x2 & x3 & r1 & -> & C1 & C2 & C3 & Hl)]].
    + intros H. destruct (IH' r1 ltac:(cbn; lia) _ _ H) as (x' & e' & Hs & -> & ->). apply cont_plain in C1 as [? ?].
      change (String c (String x1 r1)) with (String c (s1 x1) +:+ r1). apply str_local_step; [done| |].
      * intros v _ X. change (String c (s1 x1) +:+ ?y) with (String c (String x1 y)). rewrite Hp, Hl. done.
      * intros n d y. change (String c (s1 x1) +:+ ?y) with (String c (String x1 y)). by rewrite !indent_plain.
    + intros H. destruct (IH' r1 ltac:(cbn; lia) _ _ H) as (x' & e' & Hs & -> & ->). apply cont_plain in C2 as [? ?].
      change (String c (String x1 (String x2 r1))) with (String c (String x1 (s1 x2)) +:+ r1). apply str_local_step; [done| |].
      * intros v _ X. change (String c (String x1 (s1 x2)) +:+ ?y) with (String c (String x1 (String x2 y))). rewrite Hp, Hl. done.
      * intros n d y. change (String c (String x1 (s1 x2)) +:+ ?y) with (String c (String x1 (String x2 y))). rewrite !indent_plain by lia. done.
    + intros H. destruct (IH' r1 ltac:(cbn; lia) _ _ H) as (x' & e' & Hs & -> & ->). apply cont_plain in C2 as [? ?]. apply cont_plain in C3 as [? ?].
      change (String c (String x1 (String x2 (String x3 r1)))) with (String c (String x1 (String x2 (s1 x3))) +:+ r1). apply str_local_step; [done| |].
      * intros v _ X. change (String c (String x1 (String x2 (s1 x3))) +:+ ?y) with (String c (String x1 (String x2 (String x3 y)))). rewrite Hp, Hl. done.
      * intros n d y. change (String c (String x1 (String x2 (s1 x3))) +:+ ?y) with (String c (String x1 (String x2 (String x3 y)))). rewrite !indent_plain by lia. done.
  - intros H. destruct (IH' r ltac:(cbn; lia) _ _ H) as (x' & e' & Hs & -> & ->). change (String c r) with (s1 c +:+ r). apply str_local_step; [done| |].
    + intros v Hv X. change (s1 c +:+ ?y) with (String c y). rewrite Hp, (utf8_len_local c v X t) by done. rewrite Hv, app_assoc_s in El. rewrite El. done.
    + intros n d y. by apply indent_plain.
Qed.

(** ** White space *)
Notation I := (json_indent false false).
Definition lvl (n : bool) (d : nat) : nat := if n then S d else d.
Definition lead (n : bool) (d : nat) : string := if n then newline (S d) else "".
Lemma skip_ws_app w y : string_all is_ws w = true -> skip_ws (w +:+ y) = skip_ws y.
Proof. induction w as [|c w IH]; [done|]. cbn [string_all]. intros [H1 H2]%andb_prop. rewrite app_cons_s. cbn [skip_ws]. rewrite H1. by apply IH. Qed.
Lemma skip_ws_split s : exists w, string_all is_ws w = true /\ s = w +:+ skip_ws s.
Proof. induction s as [|c s (w & Hw & IH)]; [by exists ""|]. cbn [skip_ws]. destruct (is_ws c) eqn:E; [|by exists ""]. exists (String c w). cbn [string_all]. rewrite E, Hw. split; [done|]. rewrite app_cons_s. by f_equal. Qed.
Lemma skip_ws_nonws s c r : skip_ws s = String c r -> is_ws c = false.
Proof. induction s as [|a s IH]; [done|]. cbn [skip_ws]. destruct (is_ws a) eqn:E; [done|]. by intros [= <- _]. Qed.
Lemma tabs_ws d : string_all is_ws (tabs d) = true. Proof. induction d; [done|]. cbn. by rewrite IHd. Qed.
Lemma newline_ws d : string_all is_ws (newline d) = true. Proof. cbn. apply tabs_ws. Qed.
Lemma lead_ws n d : string_all is_ws (lead n d) = true. Proof. destruct n; [apply newline_ws|done]. Qed.
Lemma I_skip n d s : I n d (skip_ws s) = I n d s.
Proof. induction s as [|c s IH]; [done|]. cbn [skip_ws json_indent]. destruct (is_ws c) eqn:E; [done|]. cbn [json_indent]. by rewrite E. Qed.
Lemma I_open n d c r : is_ws c = false -> opens c = true -> I n d (String c r) = lead n d +:+ String c (I true (lvl n d) r).
Proof.
  intros Hw Ho. cbn [json_indent]. rewrite Hw, Ho. assert (closes c = false) as ->. { revert Ho. unfold opens, closes. destruct (Z.eqb_spec (bz c) 123) as [-> |]; [done|]. destruct (Z.eqb_spec (bz c) 91) as [-> |]; done. }
  by destruct n.
Qed.
Lemma I_lit n d c r : is_ws c = false -> opens c = false -> closes c = false -> bz c <> 44 -> bz c <> 58 -> I n d (String c r) = lead n d +:+ String c (json_indent (bz c =? 34) false false (lvl n d) r).
Proof. intros Hw Ho Hc H1 H2. cbn [json_indent]. rewrite Hw, Ho, Hc, (proj2 (Z.eqb_neq _ _) H1), (proj2 (Z.eqb_neq _ _) H2). by destruct n. Qed.
Lemma ends_ws w y : string_all is_ws w = true -> ends y = true -> ends (w +:+ y) = true.
Proof. destruct w as [|c w]; [done|]. rewrite app_cons_s. cbn [string_all ends]. by intros [-> _]%andb_prop _. Qed.
Definition after (t : string) : bool := match skip_ws t with EmptyString => true | String c _ => (bz c =? 44) || (bz c =? 93) || (bz c =? 125) end.
Lemma after_ends t : after t = true -> ends t = true.
Proof.
  unfold after. destruct t as [|c t]; [done|]. cbn [skip_ws ends]. destruct (is_ws c); [done|]. done.
Qed.
Lemma after_ends_I t d : after t = true -> ends (I false d t) = true.
Proof.
  unfold after. rewrite <- (I_skip false d t). destruct (skip_ws t) as [|c r] eqn:E; [done|]. pose proof (skip_ws_nonws _ _ _ E) as Hw. intros H.
  rewrite !orb_true_iff, !Z.eqb_eq in H. destruct H as [[H|H]|H]; [assert (c = ","%char) as -> by (by apply bz_inj)|assert (c = "]"%char) as -> by (by apply bz_inj)|assert (c = "}"%char) as -> by (by apply bz_inj)]; done.
Qed.
Lemma parse_val_ws f dep y : parse_val f dep (skip_ws y) = parse_val f dep y.
Proof. destruct f as [|f]; [done|]. cbn [parse_val]. destruct (skip_ws_split y) as (w & Hw & Hy). assert (skip_ws (skip_ws y) = skip_ws y) as ->; [|done]. rewrite Hy at 2. by rewrite skip_ws_app. Qed.
Lemma parse_members_ws f dep y : parse_members f dep (skip_ws y) = parse_members f dep y.
Proof. destruct f as [|f]; [done|]. cbn [parse_members]. destruct (skip_ws_split y) as (w & Hw & Hy). assert (skip_ws (skip_ws y) = skip_ws y) as ->; [|done]. rewrite Hy at 2. by rewrite skip_ws_app. Qed.
Lemma parse_elems_ws f dep y : parse_elems f dep (skip_ws y) = parse_elems f dep y.
Proof. destruct f as [|f]; [done|]. cbn [parse_elems]. by rewrite parse_val_ws. Qed.
Lemma parse_val_lead f dep w y : string_all is_ws w = true -> parse_val f dep (w +:+ y) = parse_val f dep y.
Proof. intros H. by rewrite <- parse_val_ws, skip_ws_app, parse_val_ws. Qed.
Lemma parse_members_lead f dep w y : string_all is_ws w = true -> parse_members f dep (w +:+ y) = parse_members f dep y.
Proof. intros H. by rewrite <- parse_members_ws, skip_ws_app, parse_members_ws. Qed.
Lemma parse_elems_lead f dep w y : string_all is_ws w = true -> parse_elems f dep (w +:+ y) = parse_elems f dep y.
Proof. intros H. by rewrite <- parse_elems_ws, skip_ws_app, parse_elems_ws. Qed.

(** ** Building up *)
Lemma val_members f dep y l X : parse_members f (dep + 1) y = Some (l, X) -> dep < max_nesting_depth -> parse_val (S f) dep (String "{" y) = Some (JObj l, X).
Proof.
  intros H Hd. cbn [parse_val]. rewrite skip_ws_first by done. change (bz "{" =? 123) with true. cbv iota. destruct (Z.leb_spec max_nesting_depth dep); [lia|].
  pose proof H as H'. rewrite <- parse_members_ws in H. destruct f as [|f]; [done|]. cbn [parse_members] in H'. destruct (skip_ws y) as [|c r]; [done|]. destruct (Z.eqb_spec (bz c) 34) as [Ec|]; [|done]. rewrite Ec. change (34 =? 125) with false. cbv iota.
  by rewrite H.
Qed.
Lemma val_first f dep y v X : parse_val f dep y = Some (v, X) -> exists c r, skip_ws y = String c r /\ bz c <> 93.
Proof.
  destruct f as [|f]; [done|]. cbn [parse_val]. destruct (skip_ws y) as [|c r]; [done|]. intros H. exists c, r. split; [done|]. intros E. assert (c = "]"%char) as -> by (by apply bz_inj). done.
Qed.
Lemma val_elems f dep y l X : parse_elems f (dep + 1) y = Some (l, X) -> dep < max_nesting_depth -> parse_val (S f) dep (String "[" y) = Some (JArr l, X).
Proof.
  intros H Hd. cbn [parse_val]. rewrite skip_ws_first by done. change (bz "[" =? 123) with false. change (bz "[" =? 91) with true. cbv iota. destruct (Z.leb_spec max_nesting_depth dep); [lia|].
  pose proof H as H'. rewrite <- parse_elems_ws in H. destruct f as [|f]; [done|]. cbn [parse_elems] in H'. destruct (parse_val f (dep + 1) y) as [[v z]|] eqn:Ev; [|done]. destruct (val_first _ _ _ _ _ Ev) as (c & r & E & Hc). rewrite E in *.
  rewrite (proj2 (Z.eqb_neq _ _) Hc). by rewrite H.
Qed.
Lemma members_cons f dep u k e w2 y v Y Y2 l X : (forall Z, parse_str (u +:+ Z) = Some (k, e, Z)) -> string_all is_ws w2 = true -> parse_val f dep y = Some (v, Y) -> skip_ws Y = String "," Y2 -> parse_members f dep Y2 = Some (l, X) ->
  parse_members (S f) dep (String (zb 34) (u +:+ w2 +:+ String ":" y)) = Some ((k, v) :: l, X).
Proof.
  intros Hu Hw Hv HY Hm. cbn [parse_members]. rewrite skip_ws_first by done. change (bz (zb 34) =? 34) with true. cbv iota. rewrite Hu, skip_ws_app, skip_ws_first by done. change (bz ":" =? 58) with true. cbv iota. rewrite Hv, HY.
  change (bz "," =? 44) with true. cbv iota. by rewrite Hm.
Qed.
Lemma members_one f dep u k e w2 y v Y X : (forall Z, parse_str (u +:+ Z) = Some (k, e, Z)) -> string_all is_ws w2 = true -> parse_val f dep y = Some (v, Y) -> skip_ws Y = String "}" X ->
  parse_members (S f) dep (String (zb 34) (u +:+ w2 +:+ String ":" y)) = Some ([(k, v)], X).
Proof.
  intros Hu Hw Hv HY. cbn [parse_members]. rewrite skip_ws_first by done. change (bz (zb 34) =? 34) with true. cbv iota. rewrite Hu, skip_ws_app, skip_ws_first by done. change (bz ":" =? 58) with true. cbv iota. rewrite Hv, HY. done.
Qed.
Lemma elems_cons f dep y v Y Y2 l X : parse_val f dep y = Some (v, Y) -> skip_ws Y = String "," Y2 -> parse_elems f dep Y2 = Some (l, X) -> parse_elems (S f) dep y = Some (v :: l, X).
Proof. intros Hv HY Hm. cbn [parse_elems]. rewrite Hv, HY. change (bz "," =? 44) with true. cbv iota. by rewrite Hm. Qed.
Lemma elems_one f dep y v Y X : parse_val f dep y = Some (v, Y) -> skip_ws Y = String "]" X -> parse_elems (S f) dep y = Some ([v], X).
Proof. intros Hv HY. cbn [parse_elems]. by rewrite Hv, HY. Qed.

(** ** Locality: what was read is a prefix, reads the same in front of anything, and so does its indented form *)
Definition numeric (j : json) : bool := match j with JNum _ => true | _ => false end.
Definition vals (dep : Z) (j : json) (p : string) : Prop := forall f X, (numeric j = true -> ends X = true) -> (String.length p < f)%nat -> parse_val f dep (p +:+ X) = Some (j, X).
Definition mems (dep : Z) (l : list (string * json)) (p : string) : Prop := forall f X, (String.length p < f)%nat -> parse_members f dep (p +:+ X) = Some (l, X).
Definition elts (dep : Z) (l : list json) (p : string) : Prop := forall f X, (String.length p < f)%nat -> parse_elems f dep (p +:+ X) = Some (l, X).
Definition val_local dep s j t : Prop := (exists p, s = p +:+ t /\ vals dep j p) /\ forall n d, exists q, I n d s = q +:+ I false (lvl n d) t /\ vals dep j q.
Definition mem_local dep s l t : Prop := (exists p, s = p +:+ t /\ mems dep l p) /\ forall n d, exists q, I n d s = q +:+ I false (pred (lvl n d)) t /\ mems dep l q.
Definition elt_local dep s l t : Prop := (exists p, s = p +:+ t /\ elts dep l p) /\ forall n d, exists q, I n d s = q +:+ I false (pred (lvl n d)) t /\ elts dep l q.

Lemma vals_lead dep j w p : string_all is_ws w = true -> vals dep j p -> vals dep j (w +:+ p).
Proof. intros Hw Hp f X HX Hf. rewrite app_assoc_s, parse_val_lead by done. apply Hp; [done|]. rewrite app_len_s in Hf. lia. Qed.
Lemma vals_obj dep l p : dep < max_nesting_depth -> mems (dep + 1) l p -> vals dep (JObj l) (String "{" p).
Proof. intros Hd Hp f X _ Hf. destruct f as [|f]; [lia|]. rewrite app_cons_s. apply val_members; [|done]. apply Hp. cbn in Hf. lia. Qed.
Lemma vals_arr dep l p : dep < max_nesting_depth -> elts (dep + 1) l p -> vals dep (JArr l) (String "[" p).
Proof. intros Hd Hp f X _ Hf. destruct f as [|f]; [lia|]. rewrite app_cons_s. apply val_elems; [|done]. apply Hp. cbn in Hf. lia. Qed.
Lemma vals_obj0 dep w : dep < max_nesting_depth -> string_all is_ws w = true -> vals dep (JObj []) (String "{" (w +:+ "}")).
Proof.
  intros Hd Hw f X _ Hf. destruct f as [|f]; [lia|]. rewrite app_cons_s, app_assoc_s. cbn [parse_val]. rewrite skip_ws_first by done. change (bz "{" =? 123) with true. cbv iota. destruct (Z.leb_spec max_nesting_depth dep); [lia|].
  rewrite skip_ws_app by done. done.
Qed.
Lemma vals_arr0 dep w : dep < max_nesting_depth -> string_all is_ws w = true -> vals dep (JArr []) (String "[" (w +:+ "]")).
Proof.
  intros Hd Hw f X _ Hf. destruct f as [|f]; [lia|]. rewrite app_cons_s, app_assoc_s. cbn [parse_val]. rewrite skip_ws_first by done. change (bz "[" =? 123) with false. change (bz "[" =? 91) with true. cbv iota. destruct (Z.leb_spec max_nesting_depth dep); [lia|].
  rewrite skip_ws_app by done. done.
Qed.
Lemma vals_str dep u x e : (forall X, parse_str (u +:+ X) = Some (x, e, X)) -> vals dep (if e : bool then JEsc x else JStr x) (String (zb 34) u).
Proof.
  intros Hu f X _ Hf. destruct f as [|f]; [lia|]. rewrite app_cons_s. cbn [parse_val]. rewrite skip_ws_first by done.
  change (bz (zb 34) =? 123) with false. change (bz (zb 34) =? 91) with false. change (bz (zb 34) =? 34) with true. cbv iota. rewrite Hu. by destruct e.
Qed.
Lemma numch_plain c : numch c = true -> is_ws c = false /\ opens c = false /\ closes c = false /\ bz c <> 44 /\ bz c <> 58 /\ bz c <> 34.
Proof.
  unfold numch. rewrite !orb_true_iff, !Z.eqb_eq, is_digit_spec. intros H. unfold is_ws, opens, closes.
  destruct (Z.eqb_spec (bz c) 32), (Z.eqb_spec (bz c) 9), (Z.eqb_spec (bz c) 10), (Z.eqb_spec (bz c) 13), (Z.eqb_spec (bz c) 123), (Z.eqb_spec (bz c) 91), (Z.eqb_spec (bz c) 125), (Z.eqb_spec (bz c) 93); lia.
Qed.
Lemma I_num l d t : string_all numch l = true -> I false d (l +:+ t) = l +:+ I false d t.
Proof.
  induction l as [|c l IH]; [done|]. cbn [string_all]. intros [Hc Hl]%andb_prop. destruct (numch_plain _ Hc) as (H1 & H2 & H3 & H4 & H5 & H6). rewrite !app_cons_s, I_lit by done. cbn [lead lvl]. rewrite app_nil_l_s, (proj2 (Z.eqb_neq _ _) H6).
  by rewrite IH.
Qed.
Lemma I_num_first n l d t : l <> "" -> string_all numch l = true -> I n d (l +:+ t) = lead n d +:+ l +:+ I false (lvl n d) t.
Proof.
  destruct l as [|c l]; [done|]. intros _. cbn [string_all]. intros [Hc Hl]%andb_prop. destruct (numch_plain _ Hc) as (H1 & H2 & H3 & H4 & H5 & H6). rewrite !app_cons_s, I_lit by done. rewrite (proj2 (Z.eqb_neq _ _) H6).
  by rewrite I_num.
Qed.
Lemma vals_num dep l : num_ok l -> vals dep (JNum l) l.
Proof.
  intros Hn f rest Hr Hf. destruct f as [|f]; [lia|]. specialize (Hr eq_refl). pose proof (num_first _ Hn) as (c & r & He & Hc).
  assert (exists r', l +:+ rest = String c r') as [r' Hr'] by (rewrite He; eauto).
  assert (parse_num (String c r') = Some (l, rest)) as Hp by (rewrite <- Hr'; rewrite (parse_num_ends _ _ _ _ Hr Hn); done).
  rewrite Hr'. cbn [parse_val]. assert (is_ws c = false /\ bz c <> 123 /\ bz c <> 91 /\ bz c <> 34) as (Hw & H1 & H2 & H3).
  { unfold is_ws. apply orb_prop in Hc as [Hc%Z.eqb_eq|Hc%is_digit_spec]; [by rewrite Hc|]. split; [|lia]. destruct (Z.eqb_spec (bz c) 32), (Z.eqb_spec (bz c) 9), (Z.eqb_spec (bz c) 10), (Z.eqb_spec (bz c) 13); lia || done. }
  rewrite skip_ws_first by done. destruct (Z.eqb_spec (bz c) 123); [done|]. destruct (Z.eqb_spec (bz c) 91); [done|]. destruct (Z.eqb_spec (bz c) 34); [done|].
  rewrite Hc, Hp. done.
Qed.
Lemma mems_lead dep l w p : string_all is_ws w = true -> mems dep l p -> mems dep l (w +:+ p).
Proof. intros Hw Hp f X Hf. rewrite app_assoc_s, parse_members_lead by done. apply Hp. rewrite app_len_s in Hf. lia. Qed.
Lemma mems_cons dep u k e w2 v pv w3 w4 l pm : (forall Z, parse_str (u +:+ Z) = Some (k, e, Z)) -> string_all is_ws w2 = true -> string_all is_ws w3 = true -> string_all is_ws w4 = true -> vals dep v pv -> mems dep l pm ->
  mems dep ((k, v) :: l) (String (zb 34) (u +:+ w2 +:+ String ":" (pv +:+ w3 +:+ String "," (w4 +:+ pm)))).
Proof.
  intros Hu H2 H3 H4 Hv Hm f X Hf. destruct f as [|f]; [lia|]. cbn [String.length] in Hf. rewrite !app_len_s in Hf. cbn [String.length] in Hf. rewrite !app_len_s in Hf. cbn [String.length] in Hf. rewrite !app_len_s in Hf.
  replace (String (zb 34) (u +:+ w2 +:+ String ":" (pv +:+ w3 +:+ String "," (w4 +:+ pm))) +:+ X) with (String (zb 34) (u +:+ w2 +:+ String ":" (pv +:+ w3 +:+ String "," (w4 +:+ pm +:+ X)))).
  2: { repeat (rewrite ?app_assoc_s, ?app_cons_s). done. }
  eapply members_cons; [done|done|apply Hv; [|lia]| |].
  - intros _. by apply ends_ws.
  - by rewrite skip_ws_app, skip_ws_first.
  - rewrite parse_members_lead by done. apply Hm. lia.
Qed.
Lemma mems_one dep u k e w2 v pv w3 : (forall Z, parse_str (u +:+ Z) = Some (k, e, Z)) -> string_all is_ws w2 = true -> string_all is_ws w3 = true -> vals dep v pv ->
  mems dep [(k, v)] (String (zb 34) (u +:+ w2 +:+ String ":" (pv +:+ w3 +:+ "}"))).
Proof.
  intros Hu H2 H3 Hv f X Hf. destruct f as [|f]; [lia|]. cbn [String.length] in Hf. rewrite !app_len_s in Hf. cbn [String.length] in Hf. rewrite !app_len_s in Hf.
  replace (String (zb 34) (u +:+ w2 +:+ String ":" (pv +:+ w3 +:+ "}")) +:+ X) with (String (zb 34) (u +:+ w2 +:+ String ":" (pv +:+ w3 +:+ String "}" X))).
  2: { repeat (rewrite ?app_assoc_s, ?app_cons_s). done. }
  eapply members_one; [done|done|apply Hv; [|lia]|].
  - intros _. by apply ends_ws.
  - by rewrite skip_ws_app, skip_ws_first.
Qed.
Lemma elts_cons dep v pv w3 w4 l pm : string_all is_ws w3 = true -> string_all is_ws w4 = true -> vals dep v pv -> elts dep l pm -> elts dep (v :: l) (pv +:+ w3 +:+ String "," (w4 +:+ pm)).
Proof.
  intros H3 H4 Hv Hm f X Hf. destruct f as [|f]; [lia|]. rewrite !app_len_s in Hf. cbn [String.length] in Hf. rewrite !app_len_s in Hf.
  replace ((pv +:+ w3 +:+ String "," (w4 +:+ pm)) +:+ X) with (pv +:+ w3 +:+ String "," (w4 +:+ pm +:+ X)).
  2: { repeat (rewrite ?app_assoc_s, ?app_cons_s). done. }
  eapply elems_cons; [apply Hv; [|lia]| |].
  - intros _. by apply ends_ws.
  - by rewrite skip_ws_app, skip_ws_first.
  - rewrite parse_elems_lead by done. apply Hm. lia.
Qed.
Lemma elts_one dep v pv w3 : string_all is_ws w3 = true -> vals dep v pv -> elts dep [v] (pv +:+ w3 +:+ "]").
Proof.
  intros H3 Hv f X Hf. destruct f as [|f]; [lia|]. rewrite !app_len_s in Hf. cbn [String.length] in Hf.
  replace ((pv +:+ w3 +:+ "]") +:+ X) with (pv +:+ w3 +:+ String "]" X).
  2: { repeat (rewrite ?app_assoc_s, ?app_cons_s). done. }
  eapply elems_one; [apply Hv; [|lia]|].
  - intros _. by apply ends_ws.
  - by rewrite skip_ws_app, skip_ws_first.
Qed.
Lemma strip_prefix_split p s t : strip_prefix p s = Some t -> s = p +:+ t.
Proof. revert s. induction p as [|a p IH]; intros s; [by intros [= <-]|]. destruct s as [|b s]; [done|]. cbn [strip_prefix]. destruct (Ascii.eqb_spec a b) as [-> |]; [|done]. intros ->%IH. done. Qed.
Lemma bz_is c (b : ascii) : bz c = bz b -> c = b. Proof. apply bz_inj. Qed.

Lemma local f : forall dep s,
  (forall j t, parse_val f dep s = Some (j, t) -> (numeric j = true -> after t = true) -> val_local dep s j t) /\
  (forall l t, parse_members f dep s = Some (l, t) -> mem_local dep s l t) /\
  (forall l t, parse_elems f dep s = Some (l, t) -> elt_local dep s l t).
Proof.
  induction f as [|f IH]; intros dep s; [done|]. destruct (skip_ws_split s) as (w & Hw & Hs). split_and!.
  - intros j t. cbn [parse_val]. destruct (skip_ws s) as [|c r] eqn:Es; [done|]. pose proof (skip_ws_nonws _ _ _ Es) as Hc.
    assert (forall n d, I n d s = I n d (String c r)) as HI by (intros n d; by rewrite <- I_skip, Es).
    destruct (Z.eqb_spec (bz c) 123) as [E|E123].
    { apply (bz_is c "{") in E as ->. destruct (Z.leb_spec max_nesting_depth dep) as [|Hd]; [done|]. destruct (skip_ws_split r) as (w2 & Hw2 & Hr). destruct (skip_ws r) as [|c' r'] eqn:Er; [done|].
      destruct (Z.eqb_spec (bz c') 125) as [E|E125].
      - apply (bz_is c' "}") in E as ->. intros [= <- <-] _. split.
        + exists (w +:+ String "{" (w2 +:+ "}")). split; [|apply vals_lead; [done|]; by apply vals_obj0]. rewrite Hs, Hr. repeat (rewrite ?app_assoc_s, ?app_cons_s). done.
        + intros n d. exists (lead n d +:+ String "{" ("" +:+ "}")). split; [|apply vals_lead; [apply lead_ws|]; by apply vals_obj0].
          rewrite HI, I_open by done. rewrite <- (I_skip true), Er. rewrite app_assoc_s. done.
      - destruct (parse_members f (dep + 1) (String c' r')) as [[l t']|] eqn:Em; [|done]. intros [= <- <-] _. destruct (IH (dep + 1) (String c' r')) as (_ & IHm & _). destruct (IHm _ _ Em) as ((p & Hp & Hpm) & Hq). split.
        + exists (w +:+ String "{" (w2 +:+ p)). split; [|apply vals_lead; [done|]; apply vals_obj; [done|]; by apply mems_lead]. rewrite Hs, Hr, Hp. repeat (rewrite ?app_assoc_s, ?app_cons_s). done.
        + intros n d. destruct (Hq true (lvl n d)) as (q & Hq1 & Hq2). exists (lead n d +:+ String "{" q). split; [|apply vals_lead; [apply lead_ws|]; by apply vals_obj].
          rewrite HI, I_open by done. rewrite <- (I_skip true), Er, Hq1. rewrite app_assoc_s. done. }
    destruct (Z.eqb_spec (bz c) 91) as [E|E91].
    { apply (bz_is c "[") in E as ->. destruct (Z.leb_spec max_nesting_depth dep) as [|Hd]; [done|]. destruct (skip_ws_split r) as (w2 & Hw2 & Hr). destruct (skip_ws r) as [|c' r'] eqn:Er; [done|].
      destruct (Z.eqb_spec (bz c') 93) as [E|E125].
      - apply (bz_is c' "]") in E as ->. intros [= <- <-] _. split.
        + exists (w +:+ String "[" (w2 +:+ "]")). split; [|apply vals_lead; [done|]; by apply vals_arr0]. rewrite Hs, Hr. repeat (rewrite ?app_assoc_s, ?app_cons_s). done.
        + intros n d. exists (lead n d +:+ String "[" ("" +:+ "]")). split; [|apply vals_lead; [apply lead_ws|]; by apply vals_arr0].
          rewrite HI, I_open by done. rewrite <- (I_skip true), Er. rewrite app_assoc_s. done.
      - destruct (parse_elems f (dep + 1) (String c' r')) as [[l t']|] eqn:Em; [|done]. intros [= <- <-] _. destruct (IH (dep + 1) (String c' r')) as (_ & _ & IHm). destruct (IHm _ _ Em) as ((p & Hp & Hpm) & Hq). split.
        + exists (w +:+ String "[" (w2 +:+ p)). split; [|apply vals_lead; [done|]; apply vals_arr; [done|]]. { rewrite Hs, Hr, Hp. repeat (rewrite ?app_assoc_s, ?app_cons_s). done. }
          intros g X Hg. rewrite app_assoc_s, parse_elems_lead by done. apply Hpm. rewrite app_len_s in Hg. lia.
        + intros n d. destruct (Hq true (lvl n d)) as (q & Hq1 & Hq2). exists (lead n d +:+ String "[" q). split; [|apply vals_lead; [apply lead_ws|]; by apply vals_arr].
          rewrite HI, I_open by done. rewrite <- (I_skip true), Er, Hq1. rewrite app_assoc_s. done. }
    destruct (Z.eqb_spec (bz c) 34) as [E|E34].
    { apply (bz_is c (zb 34)) in E as ->. destruct (parse_str r) as [[[x e] t']|] eqn:Ep; [|done]. intros Hj _. assert (j = (if e : bool then JEsc x else JStr x) /\ t = t') as [-> ->] by (destruct e; by injection Hj as <- <-).
      destruct (parse_str_local _ _ _ _ Ep) as (v & Hv & Hv1 & Hv2). split.
      - exists (w +:+ String (zb 34) (v +:+ dquote)). split; [|apply vals_lead; [done|]; by apply vals_str]. rewrite Hs, Hv. repeat (rewrite ?app_assoc_s, ?app_cons_s). done.
      - intros n d. exists (lead n d +:+ String (zb 34) (v +:+ dquote)). split; [|apply vals_lead; [apply lead_ws|]; by apply vals_str].
        rewrite HI, I_lit by done. change (bz (zb 34) =? 34) with true. rewrite Hv2. repeat (rewrite ?app_assoc_s, ?app_cons_s). done. }
    destruct ((bz c =? 45) || is_digit c).
    { destruct (parse_num (String c r)) as [[l t']|] eqn:Ep; [|done]. intros [= <- <-] Ha. pose proof (parse_num_ok _ _ _ Ep) as Hn. destruct (parse_num_split _ _ _ Ep) as [Hl Hl2].
      split.
      - exists (w +:+ l). split; [|apply vals_lead; [done|]; by apply vals_num]. by rewrite Hs, Hl, app_assoc_s.
      - intros n d. exists (lead n d +:+ l). split; [|apply vals_lead; [apply lead_ws|]; by apply vals_num]. rewrite HI, Hl, I_num_first; [by rewrite app_assoc_s| |done]. intros ->. by destruct (num_first _ Hn) as (? & ? & ? & _). }
    assert (forall (lit : string) (v : json), numeric v = false -> (forall g d X, parse_val (S g) d (lit +:+ X) = Some (v, X)) -> (forall n d y, I n d (lit +:+ y) = lead n d +:+ lit +:+ I false (lvl n d) y) -> String c r = lit +:+ t -> val_local dep s v t) as Hlit.
    { intros lit v Hv Hp Hi Hl. split.
      - exists (w +:+ lit). split; [by rewrite Hs, Hl, app_assoc_s|]. apply vals_lead; [done|]. intros g X _ Hg. destruct g as [|g]; [lia|]. apply Hp.
      - intros n d. exists (lead n d +:+ lit). split; [by rewrite HI, Hl, Hi, app_assoc_s|]. apply vals_lead; [apply lead_ws|]. intros g X _ Hg. destruct g as [|g]; [lia|]. apply Hp. }
    destruct (strip_prefix "null" (String c r)) as [t1|] eqn:E1.
    { intros [= <- <-] _. apply (Hlit "null"); [done|done| |by apply strip_prefix_split]. intros [] d y; done. }
    destruct (strip_prefix "true" (String c r)) as [t2|] eqn:E2.
    { intros [= <- <-] _. apply (Hlit "true"); [done|done| |by apply strip_prefix_split]. intros [] d y; done. }
    destruct (strip_prefix "false" (String c r)) as [t3|] eqn:E3; [|done].
    intros [= <- <-] _. apply (Hlit "false"); [done|done| |by apply strip_prefix_split]. intros [] d y; done.
  - intros l t. cbn [parse_members]. destruct (skip_ws s) as [|c r] eqn:Es; [done|]. destruct (Z.eqb_spec (bz c) 34) as [E|]; [|done]. apply (bz_is c (zb 34)) in E as ->.
    assert (forall n d, I n d s = lead n d +:+ String (zb 34) (json_indent true false false (lvl n d) r)) as HI by (intros n d; by rewrite <- I_skip, Es, I_lit).
    destruct (parse_str r) as [[[k e] r1]|] eqn:Ep; [|done]. destruct (parse_str_local _ _ _ _ Ep) as (v & Hv & Hv1 & Hv2). destruct (skip_ws_split r1) as (w2 & Hw2 & Hr1). destruct (skip_ws r1) as [|c1 r2] eqn:E1; [done|].
    destruct (Z.eqb_spec (bz c1) 58) as [E|]; [|done]. apply (bz_is c1 ":") in E as ->. destruct (parse_val f dep r2) as [[x r3]|] eqn:Ex; [|done].
    destruct (skip_ws_split r3) as (w3 & Hw3 & Hr3). destruct (skip_ws r3) as [|c3 r4] eqn:E3; [done|].
    assert (forall d, I false d r1 = String ":" (String " " (I false d r2))) as HI1 by (intros d; by rewrite <- I_skip, E1).
    destruct (IH dep r2) as (IHv & _). destruct (Z.eqb_spec (bz c3) 44) as [E|E44].
    { apply (bz_is c3 ",") in E as ->. destruct (parse_members f dep r4) as [[l' t']|] eqn:Em; [|done]. intros [= <- <-].
      destruct (IHv _ _ Ex) as ((pv & Hpv & Hpv1) & Hqv). { intros _. unfold after. by rewrite E3. }
      destruct (IH dep r4) as (_ & IHm & _). destruct (IHm _ _ Em) as ((pm & Hpm & Hpm1) & Hqm). split.
      - exists (w +:+ String (zb 34) ((v +:+ dquote) +:+ w2 +:+ String ":" (pv +:+ w3 +:+ String "," ("" +:+ pm)))). split; [|apply mems_lead; [done|]; by eapply mems_cons].
        rewrite Hs, Hv, Hr1, Hpv, Hr3, Hpm. repeat (rewrite ?app_assoc_s, ?app_cons_s, ?app_nil_l_s). done.
      - intros n d. destruct (Hqv false (lvl n d)) as (qv & Hqv1 & Hqv2). cbn [lvl] in Hqv1. destruct (Hqm false (lvl n d)) as (qm & Hqm1 & Hqm2). cbn [lvl] in Hqm1.
        exists (lead n d +:+ String (zb 34) ((v +:+ dquote) +:+ "" +:+ String ":" ((" " +:+ qv) +:+ "" +:+ String "," (newline (lvl n d) +:+ qm)))).
        split; [|apply mems_lead; [apply lead_ws|]; eapply mems_cons; [done|done|done|apply newline_ws|by apply vals_lead|done]].
        rewrite HI, Hv2, HI1, Hqv1. rewrite <- (I_skip false _ r3), E3. change (I false (lvl n d) (String "," r4)) with (String "," (newline (lvl n d) +:+ I false (lvl n d) r4)). rewrite Hqm1.
        repeat (rewrite ?app_assoc_s, ?app_cons_s, ?app_nil_l_s). done. }
    destruct (Z.eqb_spec (bz c3) 125) as [E|]; [|done]. apply (bz_is c3 "}") in E as ->. intros [= <- <-].
    destruct (IHv _ _ Ex) as ((pv & Hpv & Hpv1) & Hqv). { intros _. unfold after. by rewrite E3. } split.
    + exists (w +:+ String (zb 34) ((v +:+ dquote) +:+ w2 +:+ String ":" (pv +:+ w3 +:+ "}"))). split; [|apply mems_lead; [done|]; by eapply mems_one].
      rewrite Hs, Hv, Hr1, Hpv, Hr3. repeat (rewrite ?app_assoc_s, ?app_cons_s, ?app_nil_l_s). done.
    + intros n d. destruct (Hqv false (lvl n d)) as (qv & Hqv1 & Hqv2). cbn [lvl] in Hqv1.
      exists (lead n d +:+ String (zb 34) ((v +:+ dquote) +:+ "" +:+ String ":" ((" " +:+ qv) +:+ newline (pred (lvl n d)) +:+ "}"))).
      split; [|apply mems_lead; [apply lead_ws|]; eapply mems_one; [done|done|apply newline_ws|by apply vals_lead]].
      rewrite HI, Hv2, HI1, Hqv1. rewrite <- (I_skip false _ r3), E3. change (I false (lvl n d) (String "}" r4)) with (newline (pred (lvl n d)) +:+ String "}" (I false (pred (lvl n d)) r4)).
      repeat (rewrite ?app_assoc_s, ?app_cons_s, ?app_nil_l_s). done.
  - intros l t. cbn [parse_elems]. destruct (parse_val f dep s) as [[x r3]|] eqn:Ex; [|done]. destruct (skip_ws_split r3) as (w3 & Hw3 & Hr3). destruct (skip_ws r3) as [|c3 r4] eqn:E3; [done|].
    destruct (IH dep s) as (IHv & _). destruct (Z.eqb_spec (bz c3) 44) as [E|E44].
    { apply (bz_is c3 ",") in E as ->. destruct (parse_elems f dep r4) as [[l' t']|] eqn:Em; [|done]. intros [= <- <-].
      destruct (IHv _ _ Ex) as ((pv & Hpv & Hpv1) & Hqv). { intros _. unfold after. by rewrite E3. }
      destruct (IH dep r4) as (_ & _ & IHm). destruct (IHm _ _ Em) as ((pm & Hpm & Hpm1) & Hqm). split.
      - exists (pv +:+ w3 +:+ String "," ("" +:+ pm)). split; [|by eapply elts_cons].
        rewrite Hpv, Hr3, Hpm. repeat (rewrite ?app_assoc_s, ?app_cons_s, ?app_nil_l_s). done.
      - intros n d. destruct (Hqv n d) as (qv & Hqv1 & Hqv2). destruct (Hqm false (lvl n d)) as (qm & Hqm1 & Hqm2). cbn [lvl] in Hqm1.
        exists (qv +:+ "" +:+ String "," (newline (lvl n d) +:+ qm)).
        split; [|eapply elts_cons; [done|apply newline_ws|done|done]].
        rewrite Hqv1. rewrite <- (I_skip false _ r3), E3. change (I false (lvl n d) (String "," r4)) with (String "," (newline (lvl n d) +:+ I false (lvl n d) r4)). rewrite Hqm1.
        repeat (rewrite ?app_assoc_s, ?app_cons_s, ?app_nil_l_s). done. }
    destruct (Z.eqb_spec (bz c3) 93) as [E|]; [|done]. apply (bz_is c3 "]") in E as ->. intros [= <- <-].
    destruct (IHv _ _ Ex) as ((pv & Hpv & Hpv1) & Hqv). { intros _. unfold after. by rewrite E3. } split.
    + exists (pv +:+ w3 +:+ "]"). split; [|by eapply elts_one].
      rewrite Hpv, Hr3. repeat (rewrite ?app_assoc_s, ?app_cons_s, ?app_nil_l_s). done.
    + intros n d. destruct (Hqv n d) as (qv & Hqv1 & Hqv2).
      exists (qv +:+ newline (pred (lvl n d)) +:+ "]").
      split; [|eapply elts_one; [apply newline_ws|done]].
      rewrite Hqv1. rewrite <- (I_skip false _ r3), E3. change (I false (lvl n d) (String "]" r4)) with (newline (pred (lvl n d)) +:+ String "]" (I false (pred (lvl n d)) r4)).
      repeat (rewrite ?app_assoc_s, ?app_cons_s, ?app_nil_l_s). done.
Qed.

(** json.Indent does not change how a document is read *)
Lemma indent_reads s j : parse_json s = Some j -> parse_json (I false 0 s) = Some j.
Proof.
  unfold parse_json. destruct (parse_val (S (2 * String.length s)) 0 s) as [[j' t]|] eqn:E; [|done]. destruct (skip_ws t) as [|] eqn:Et; [|done]. intros [= <-].
  destruct (local (S (2 * String.length s)) 0 s) as (H & _). destruct (H _ _ E) as (_ & Hq). { intros _. unfold after. by rewrite Et. }
  destruct (Hq false 0%nat) as (q & Hq1 & Hq2). cbn [lvl] in Hq1. rewrite <- (I_skip _ _ t), Et in Hq1. cbn [json_indent] in Hq1. rewrite Hq1, app_nil_s. specialize (Hq2 (S (2 * String.length q)) "" ltac:(done) ltac:(lia)).
  rewrite app_nil_s in Hq2. rewrite Hq2. done.
Qed.
(** no proper beginning of an object is a document, except that white space at the end may be missing *)
Lemma prefix_read p x j j' : parse_json (String "{" p +:+ x) = Some j -> parse_json (String "{" p) = Some j' -> skip_ws x = "" /\ j' = j.
Proof.
  remember (String "{" p) as P eqn:HP. unfold parse_json. destruct (parse_val (S (2 * String.length (P +:+ x))) 0 (P +:+ x)) as [[j1 t1]|] eqn:E1; [|done]. destruct (skip_ws t1) eqn:Et1; [|done]. intros [= <-].
  destruct (parse_val (S (2 * String.length P)) 0 P) as [[j2 t2]|] eqn:E2; [|done]. destruct (skip_ws t2) eqn:Et2; [|done]. intros [= <-].
  destruct (local (S (2 * String.length P)) 0 P) as (H & _). destruct (H _ _ E2) as ((u & Hu & Hu1) & _). { intros _. unfold after. by rewrite Et2. }
  assert (numeric j2 = false) as En.
  { rewrite HP in E2. cbn [parse_val] in E2. rewrite skip_ws_first in E2 by done. change (bz "{" =? 123) with true in E2. change (max_nesting_depth <=? 0) with false in E2. cbv iota in E2.
    destruct (skip_ws p) as [|c r]; [done|]. destruct (bz c =? 125); [by injection E2 as <- _|]. destruct (parse_members _ _ _) as [[l z]|]; [|done]. by injection E2 as <- _. }
  specialize (Hu1 (S (2 * String.length (P +:+ x))) (t2 +:+ x)). rewrite En in Hu1. specialize (Hu1 ltac:(done) ltac:(rewrite Hu, !app_len_s; lia)). rewrite <- app_assoc_s, <- Hu, E1 in Hu1. injection Hu1 as -> ->.
  destruct (skip_ws_split t2) as (w & Hw & Ht). rewrite Et2, app_nil_s in Ht. rewrite Ht, skip_ws_app in Et1 by done. done.
Qed.
Lemma prefix_unread p x j j' : parse_json (String "{" p +:+ x) = Some j -> parse_json (String "{" p) = Some j' -> skip_ws x = "".
Proof. apply prefix_read. Qed.
