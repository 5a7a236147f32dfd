(** * Facts about the string functions *)
From stdpp Require Import base gmap strings list.
From Coq Require Import ZArith Lia Ascii String.
From Verif Require Import GoBase GoStr.
Open Scope Z_scope.

(** ** bytes *)
Lemma bz_range c : 0 <= bz c < 256.
Proof. unfold bz. pose proof (N_ascii_bounded c). lia. Qed.
Lemma zb_bz c : zb (bz c) = c.
Proof. unfold zb, bz. rewrite N2Z.id. apply ascii_N_embedding. Qed.
Lemma bz_zb z : 0 <= z < 256 -> bz (zb z) = z.
Proof. intros H. unfold bz, zb. rewrite N_ascii_embedding; lia. Qed.
Lemma bz_inj a b : bz a = bz b -> a = b.
Proof. intros H. rewrite <- (zb_bz a), <- (zb_bz b). by rewrite H. Qed.
Lemma zb_inj a b : 0 <= a < 256 -> 0 <= b < 256 -> zb a = zb b -> a = b.
Proof. intros Ha Hb H. rewrite <- (bz_zb a), <- (bz_zb b) by done. by rewrite H. Qed.

(** ** strings as lists *)
Lemma app_cons_s c (a b : string) : String c a +:+ b = String c (a +:+ b).
Proof. done. Qed.
Lemma app_nil_l_s (b : string) : "" +:+ b = b.
Proof. done. Qed.
Local Ltac sapp := rewrite ?app_cons_s, ?app_nil_l_s.
Lemma app_assoc_s (a b c : string) : (a +:+ b) +:+ c = a +:+ (b +:+ c).
Proof. induction a as [|x a IH]; [done|]. sapp. cbn. by rewrite IH. Qed.
Lemma app_nil_s (a : string) : a +:+ "" = a.
Proof. induction a as [|x a IH]; [done|]. sapp. cbn. by rewrite IH. Qed.
Lemma app_len_s (a b : string) : String.length (a +:+ b) = (String.length a + String.length b)%nat.
Proof. induction a as [|x a IH]; [done|]. sapp. cbn. by rewrite IH. Qed.
Lemma app_inj_s (a b c : string) : a +:+ b = a +:+ c -> b = c.
Proof. induction a as [|x a IH]; [done|]. sapp. intros [= H]. auto. Qed.
Lemma str_len_app a b : str_len (a +:+ b) = str_len a + str_len b.
Proof. unfold str_len. rewrite app_len_s. lia. Qed.
Lemma str_len_nonneg s : 0 <= str_len s.
Proof. unfold str_len. lia. Qed.
Lemma string_app_inj_len (a b c d : string) : String.length a = String.length c -> a +:+ b = c +:+ d -> a = c /\ b = d.
Proof.
  revert c; induction a as [|x a IH]; intros [|y c]; try done. sapp. intros [= Hl] [= -> He].
  destruct (IH c Hl He) as [-> ->]. done.
Qed.
Lemma str_take_length n s : String.length (str_take n s) = Nat.min n (String.length s).
Proof. revert s; induction n as [|n IH]; intros [|c s]; cbn; auto. Qed.
Lemma str_take_drop n s : str_take n s +:+ str_drop n s = s.
Proof. revert s; induction n as [|n IH]; intros [|c s]; cbn; auto. sapp. by rewrite IH. Qed.
Lemma string_all_app f a b : string_all f (a +:+ b) = string_all f a && string_all f b.
Proof. induction a as [|x a IH]; [done|]. sapp. cbn. by rewrite IH, andb_assoc. Qed.

(** ** hexadecimal *)
Lemma hexval_range c v : hexval c = Some v -> 0 <= v < 16.
Proof.
  unfold hexval, is_digit. pose proof (bz_range c).
  repeat case_match; intros [= <-]; try discriminate;
  repeat match goal with H : (_ && _)%bool = true |- _ => apply andb_prop in H as [?%Z.leb_le ?%Z.leb_le] end; lia.
Qed.
Lemma is_digit_spec c : is_digit c = true <-> 48 <= bz c <= 57.
Proof. unfold is_digit. rewrite andb_true_iff, !Z.leb_le. done. Qed.
Lemma hexval_digit n : 0 <= n < 16 -> hexval (hexdig n) = Some n.
Proof.
  intros H. unfold hexdig. destruct (n <? 10) eqn:E.
  - apply Z.ltb_lt in E. unfold hexval. replace (is_digit (zb (48 + n))) with true.
    + rewrite bz_zb by lia. f_equal. lia.
    + symmetry. apply is_digit_spec. rewrite bz_zb; lia.
  - apply Z.ltb_ge in E. unfold hexval, is_digit. rewrite bz_zb by lia.
    repeat match goal with |- context [?a <=? ?b] => destruct (Z.leb_spec a b); try lia end; cbn. f_equal. lia.
Qed.
Lemma hexval_digit_up n : 0 <= n < 16 -> hexval (hexdig_up n) = Some n.
Proof.
  intros H. unfold hexdig_up. destruct (n <? 10) eqn:E.
  - apply Z.ltb_lt in E. unfold hexval. replace (is_digit (zb (48 + n))) with true.
    + rewrite bz_zb by lia. f_equal. lia.
    + symmetry. apply is_digit_spec. rewrite bz_zb; lia.
  - apply Z.ltb_ge in E. unfold hexval, is_digit. rewrite bz_zb by lia.
    repeat match goal with |- context [?a <=? ?b] => destruct (Z.leb_spec a b); try lia end; cbn. f_equal. lia.
Qed.
Lemma hexdig_inj a b : 0 <= a < 16 -> 0 <= b < 16 -> hexdig a = hexdig b -> a = b.
Proof. intros Ha Hb H. apply (f_equal hexval) in H. rewrite !hexval_digit in H by done. congruence. Qed.
Lemma hexdig_up_inj a b : 0 <= a < 16 -> 0 <= b < 16 -> hexdig_up a = hexdig_up b -> a = b.
Proof. intros Ha Hb H. apply (f_equal hexval) in H. rewrite !hexval_digit_up in H by done. congruence. Qed.
Lemma nibbles c : 0 <= bz c / 16 < 16 /\ 0 <= bz c mod 16 < 16 /\ 16 * (bz c / 16) + bz c mod 16 = bz c.
Proof.
  pose proof (bz_range c). pose proof (Z_div_mod_eq_full (bz c) 16). pose proof (Z.mod_pos_bound (bz c) 16).
  assert (0 <= bz c / 16) by (apply Z.div_pos; lia). assert (bz c / 16 < 16) by (apply Z.div_lt_upper_bound; lia). lia.
Qed.
Lemma hex_decode_encode s : hex_decode (hex_encode s) = Some s.
Proof.
  induction s as [|c s IH]; [done|]. cbn [hex_encode hex_decode]. destruct (nibbles c) as (H1 & H2 & H3).
  rewrite !hexval_digit, IH by done. by rewrite H3, zb_bz.
Qed.
Lemma hex_encode_inj a b : hex_encode a = hex_encode b -> a = b.
Proof. intros H. apply (f_equal hex_decode) in H. rewrite !hex_decode_encode in H. congruence. Qed.
Lemma hex_eqb a b : String.eqb (hex_encode a) (hex_encode b) = String.eqb a b.
Proof.
  destruct (String.eqb_spec a b) as [->|Hn]; [apply String.eqb_refl|]. apply String.eqb_neq. intros H. by apply Hn, hex_encode_inj.
Qed.
Lemma hex_encode_length s : String.length (hex_encode s) = (2 * String.length s)%nat.
Proof. induction s; cbn; [done|]. rewrite IHs. lia. Qed.

Lemma str_ind2 (P : string -> Prop) :
  P "" -> (forall a, P (String a "")) -> (forall a b s, P s -> P (String a (String b s))) -> forall s, P s.
Proof.
  intros H0 H1 H2 s. assert (P s /\ forall a, P (String a s)) as [H _]; [|exact H].
  induction s as [|c s [IH1 IH2]]; [auto|]. split; auto.
Qed.
Definition is_hex (c : ascii) : bool := match hexval c with Some _ => true | None => false end.
Lemma hex_decode_some s :
  (exists b, hex_decode s = Some b) <-> Nat.even (String.length s) = true /\ string_all is_hex s = true.
Proof.
  induction s as [|a|a b s IH] using str_ind2; cbn [hex_decode].
  - split; [done|eauto].
  - split; [intros [? [=]]|]. cbn. by intros [? _].
  - cbn [String.length Nat.even string_all]. unfold is_hex at 1 2. destruct (hexval a), (hexval b); cbn.
    + rewrite <- IH. destruct (hex_decode s); split; try (intros [? [=]]); eauto; naive_solver.
    + split; [intros [? [=]]|]. by intros [_ ?].
    + split; [intros [? [=]]|]. by intros [_ ?].
    + split; [intros [? [=]]|]. by intros [_ ?].
Qed.

(** ** decimal and hexadecimal numbers *)
Lemma digits_rev_S f b n : digits_rev (S f) b n = if n <? b then [n] else n mod b :: digits_rev f b (n / b).
Proof. done. Qed.
(** value of a list of digits, least significant first *)
Fixpoint val_rev (b : Z) (l : list Z) : Z := match l with [] => 0 | d :: l => d + b * val_rev b l end.
Lemma digits_rev_val f b n : 1 < b -> 0 <= n -> n < 2 ^ Z.of_nat f ->
  val_rev b (digits_rev f b n) = n /\ Forall (fun d => 0 <= d < b) (digits_rev f b n).
Proof.
  intros Hb. revert n. induction f as [|f IH]; intros n Hn Hf; [cbn in *; split; [lia|constructor]|].
  rewrite digits_rev_S. destruct (Z.ltb_spec n b); [cbn; split; [lia|constructor; [lia|constructor]]|].
  destruct (IH (n / b)) as [Hv Hd].
  - apply Z.div_pos; lia.
  - rewrite Nat2Z.inj_succ, Z.pow_succ_r in Hf by lia. apply Z.div_lt_upper_bound; [lia|].
    assert (0 < 2 ^ Z.of_nat f) by (apply Z.pow_pos_nonneg; lia). nia.
  - cbn. rewrite Hv. split; [pose proof (Z_div_mod_eq_full n b); lia|]. constructor; [apply Z.mod_pos_bound; lia|done].
Qed.
Lemma digits_rev_nonnil f b n : digits_rev (S f) b n <> [].
Proof. rewrite digits_rev_S. by case_match. Qed.
Lemma log2_fuel n : 0 <= n -> n < 2 ^ Z.of_nat (S (Z.to_nat (Z.log2 n))).
Proof.
  intros Hn. rewrite Nat2Z.inj_succ, Z2Nat.id by apply Z.log2_nonneg.
  destruct (Z.eq_dec n 0) as [->|]; [cbn; lia|]. apply Z.log2_spec. lia.
Qed.
Definition val_acc (b : Z) (acc : Z) (l : list Z) : Z := fold_left (fun a d => a * b + d) l acc.
Lemma val_acc_rev b l acc : val_acc b acc (rev l) = acc * b ^ Z.of_nat (List.length l) + val_rev b l.
Proof.
  revert acc. induction l as [|d l IH]; intros acc; [cbn; lia|]. cbn [rev val_rev]. unfold val_acc in *. rewrite fold_left_app. cbn [fold_left List.length].
  rewrite IH, Nat2Z.inj_succ, Z.pow_succ_r by lia. lia.
Qed.
Lemma digits_of_val b n : 1 < b -> 0 <= n -> val_acc b 0 (digits_of b n) = n /\ Forall (fun d => 0 <= d < b) (digits_of b n).
Proof.
  intros Hb Hn. unfold digits_of. destruct (digits_rev_val (S (Z.to_nat (Z.log2 n))) b n Hb Hn (log2_fuel n Hn)) as [Hv Hd].
  rewrite val_acc_rev, Hv. split; [lia|]. by apply Forall_rev.
Qed.
Lemma digits_of_nonnil b n : digits_of b n <> [].
Proof.
  unfold digits_of. intros H. apply (f_equal (@rev Z)) in H. rewrite rev_involutive in H. by apply digits_rev_nonnil in H.
Qed.
Lemma parse_digits_string b l acc : 1 < b <= 16 -> Forall (fun d => 0 <= d < b) l ->
  parse_digits_acc b (string_of_digits l) acc = Some (val_acc b acc l).
Proof.
  intros Hb. unfold string_of_digits. induction 1 as [|d l Hd Hl IH] in acc |- *; cbn; [done|].
  rewrite hexval_digit by lia. assert (d <? b = true) as -> by (apply Z.ltb_lt; lia). apply IH.
Qed.
Lemma parse_nat_fmt b n : 1 < b <= 16 -> 0 <= n -> parse_nat_base b (string_of_digits (digits_of b n)) = Some n.
Proof.
  intros Hb Hn. destruct (digits_of_val b n) as [Hv Hd]; [lia|done|].
  unfold parse_nat_base. destruct (string_of_digits (digits_of b n)) eqn:E.
  - unfold string_of_digits in E. destruct (digits_of b n) eqn:E'; [by apply digits_of_nonnil in E'|done].
  - rewrite <- E. rewrite parse_digits_string by done. by rewrite Hv.
Qed.
(** the first character of a number is a digit, hence no sign *)
Lemma parse_nat_first b c s v : 1 < b <= 16 -> parse_nat_base b (String c s) = Some v -> c <> "+"%char /\ c <> "-"%char.
Proof. cbn. intros _ H. split; intros ->; cbn in H; done. Qed.
Lemma parse_int_nat b s v : 1 < b <= 16 -> parse_nat_base b s = Some v -> in_int64 v = true -> parse_int b s = Some v.
Proof.
  intros Hb H Hi. unfold parse_int.
  enough (match s with
           | String "+" t => parse_nat_base b t
           | String "-" t => option_map Z.opp (parse_nat_base b t)
           | _ => parse_nat_base b s
           end = Some v) as -> by by rewrite Hi.
  destruct s as [|c s]; [done|].
  destruct (parse_nat_first _ _ _ _ Hb H) as [H1 H2].
  destruct c as [[] [] [] [] [] [] [] []]; try done.
Qed.
Lemma parse_int_fmt b n : 1 < b <= 16 -> in_int64 n = true -> parse_int b (fmt_base b n) = Some n.
Proof.
  intros Hb Hi. unfold fmt_base. destruct (Z.ltb_spec n 0) as [Hn|Hn].
  - unfold parse_int. rewrite app_cons_s, app_nil_l_s. rewrite parse_nat_fmt by lia. cbn [option_map]. by rewrite Z.opp_involutive, Hi.
  - apply parse_int_nat; [done| |done]. by apply parse_nat_fmt.
Qed.
Lemma fmt_base_inj b n m : 1 < b <= 16 -> fmt_base b n = fmt_base b m -> n = m.
Proof.
  intros Hb. unfold fmt_base. sapp. intros H.
  assert (forall n c s, 0 <= n -> string_of_digits (digits_of b n) = String c s -> c <> "-"%char) as Hc.
  { intros k c s Hk E. pose proof (parse_nat_fmt b k Hb Hk) as Hp. rewrite E in Hp. by apply (parse_nat_first b c s k). }
  destruct (Z.ltb_spec n 0), (Z.ltb_spec m 0).
  - injection H as H. apply (f_equal (parse_nat_base b)) in H. rewrite !parse_nat_fmt in H by lia. injection H. lia.
  - cbn in H. symmetry in H. by apply Hc in H.
  - cbn in H. by apply Hc in H.
  - apply (f_equal (parse_nat_base b)) in H. rewrite !parse_nat_fmt in H by lia. by injection H.
Qed.

(** ** [strings.Split] *)
Lemma split_on_join sep s : join_str (s1 sep) (split_on sep s) = s.
Proof.
  induction s as [|c s IH]; [done|]. cbn [split_on]. destruct (Ascii.eqb_spec c sep) as [->|Hn].
  - destruct (split_on sep s) as [|x l] eqn:E.
    + destruct s; cbn in E; repeat case_match; done.
    + change (s1 sep +:+ join_str (s1 sep) (x :: l) = String sep s). rewrite IH. done.
  - destruct (split_on sep s) as [|x l] eqn:E.
    + destruct s; cbn in E; repeat case_match; done.
    + rewrite <- IH. destruct l; [done|]. cbn [join_str]. by sapp.
Qed.
