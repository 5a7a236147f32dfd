(** * Tools for the serialisation round trip: objects, maps, strings, times *)
From stdpp Require Import base gmap strings list sorting.
From Coq Require Import ZArith Lia Ascii String.
From Verif Require Import GoBase GoStr Json GoTime Types Marshal StrProofs SpecUtf8 Utf8Proofs SpecText JsonText SpecSerial JsonProofs SerialProofs SpecRound.
Open Scope Z_scope.

(** ** Sorted members *)
Definition ltk {V} (a b : string * V) : Prop := str_ltb a.1 b.1 = true.
Lemma ins_hd {V} k (v : V) l (p : string * V) : ltk p (k, v) -> Forall (ltk p) l -> Forall (ltk p) (ins k v l).
Proof.
  intros Hp. induction l as [|[k' v'] l IH]; cbn; intros Hl; [by constructor|]. apply Forall_cons in Hl as [H1 H2].
  destruct (str_ltb k k'); [by repeat constructor|]. destruct (str_ltb k' k); constructor; auto.
Qed.
Inductive sortedk {V} : list (string * V) -> Prop :=
  | sk_nil : sortedk []
  | sk_cons p l : Forall (ltk p) l -> sortedk l -> sortedk (p :: l).
Lemma ins_sorted {V} k (v : V) l : sortedk l -> sortedk (ins k v l).
Proof.
  induction 1 as [|[k' v'] l Hp Hs IH]; cbn; [repeat constructor|].
  destruct (str_ltb k k') eqn:E1; [constructor; [|by constructor]|].
  - constructor; [done|]. eapply Forall_impl; [exact Hp|]. intros q Hq. unfold ltk in *. by eapply str_ltb_trans.
  - destruct (str_ltb k' k) eqn:E2; constructor; auto.
    + apply ins_hd; [done|done].
    + assert (k = k') as -> by (by apply str_ltb_total). done.
Qed.
Lemma obj_norm_snoc {V} (l : list (string * V)) kv : obj_norm (l ++ [kv]) = ins kv.1 kv.2 (obj_norm l).
Proof. unfold obj_norm. by rewrite fold_left_app. Qed.
Lemma obj_norm_sorted {V} (l : list (string * V)) : sortedk (obj_norm l).
Proof. induction l as [|[k v] l IH] using rev_ind; [constructor|]. rewrite obj_norm_snoc. by apply ins_sorted. Qed.
Lemma sortedk_nodup {V} (l : list (string * V)) : sortedk l -> NoDup l.*1.
Proof.
  induction 1 as [|[k v] l Hp _ IH]; cbn; constructor; [|done]. intros (q & Hq & Hin)%elem_of_list_fmap. rewrite Forall_forall in Hp. specialize (Hp q Hin).
  unfold ltk in Hp. cbn in *. rewrite <- Hq, str_ltb_irrefl in Hp. done.
Qed.
Lemma ins_map_val {V W} (f : V -> W) k v l : ins k (f v) (map (fun kv => (kv.1, f kv.2)) l) = map (fun kv => (kv.1, f kv.2)) (ins k v l).
Proof. induction l as [|[k' v'] l IH]; cbn; [done|]. destruct (str_ltb k k'); [done|]. destruct (str_ltb k' k); cbn; [by rewrite IH|done]. Qed.
Lemma obj_norm_map_val {V W} (f : V -> W) l : obj_norm (map (fun kv => (kv.1, f kv.2)) l) = map (fun kv => (kv.1, f kv.2)) (obj_norm l).
Proof. induction l as [|[k v] l IH] using rev_ind; [done|]. rewrite map_app. cbn [map]. rewrite !obj_norm_snoc, IH. cbn. apply ins_map_val. Qed.
Fixpoint kfilter {V} (P : string -> bool) (l : list (string * V)) : list (string * V) :=
  match l with [] => [] | kv :: l => if P kv.1 then kv :: kfilter P l else kfilter P l end.
Lemma kfilter_app {V} P (l1 l2 : list (string * V)) : kfilter P (l1 ++ l2) = kfilter P l1 ++ kfilter P l2.
Proof. induction l1 as [|[k v] l IH]; cbn; [done|]. destruct (P k); cbn; by rewrite IH. Qed.
Lemma kfilter_lt {V} P (p : string * V) l : Forall (ltk p) l -> Forall (ltk p) (kfilter P l).
Proof. induction 1 as [|[k v] l Hx _ IH]; cbn; [constructor|]. destruct (P k); [by constructor|done]. Qed.
Lemma ins_front {V} k (v : V) l : Forall (ltk (k, v)) l -> ins k v l = (k, v) :: l.
Proof. destruct l as [|[k' v'] l]; [done|]. intros [H _]%Forall_cons. unfold ltk in H. cbn in *. by rewrite H. Qed.
Lemma ins_kfilter {V} P k (v : V) l : sortedk l -> kfilter P (ins k v l) = if P k then ins k v (kfilter P l) else kfilter P l.
Proof.
  induction 1 as [|[k' v'] l Hp Hs IH]; cbn; [by destruct (P k)|].
  destruct (str_ltb k k') eqn:E1; cbn.
  - destruct (P k) eqn:Ek; [|done]. destruct (P k') eqn:Ek'; cbn; [by rewrite E1|]. rewrite ins_front; [done|]. apply kfilter_lt.
    eapply Forall_impl; [exact Hp|]. intros q Hq. unfold ltk in *. by eapply str_ltb_trans.
  - destruct (str_ltb k' k) eqn:E2; cbn.
    + rewrite IH. destruct (P k'); [|done]. destruct (P k); [|done]. cbn. by rewrite E1, E2.
    + assert (k = k') as -> by (by apply str_ltb_total). destruct (P k'); [|done]. cbn. by rewrite str_ltb_irrefl.
Qed.
Lemma obj_norm_kfilter {V} P (l : list (string * V)) : kfilter P (obj_norm l) = obj_norm (kfilter P l).
Proof.
  induction l as [|[k v] l IH] using rev_ind; [done|]. rewrite obj_norm_snoc, kfilter_app, ins_kfilter by apply obj_norm_sorted. cbn.
  destruct (P k); [|by rewrite app_nil_r]. by rewrite obj_norm_snoc, IH.
Qed.
Lemma mem_map_nodup {V} (l : list (string * V)) : NoDup l.*1 -> mem_map l = list_to_map l.
Proof.
  intros H. apply map_eq. intros k. apply option_eq. intros v. rewrite mem_map_some. rewrite <- elem_of_list_to_map by done. split.
  - apply last_member_in.
  - intros Hin. apply elem_of_list_split in Hin as (l1 & l2 & ->). exists l1, l2. split; [done|]. rewrite fmap_app in H. apply NoDup_app in H as (_ & _ & H2). cbn in H2. apply NoDup_cons in H2 as [H2 _].
    apply Forall_forall. intros [k' v'] Hin' Heq. cbn in Heq. subst k'. apply H2. apply elem_of_list_fmap. by exists (k, v').
Qed.
Lemma mem_map_obj_norm {V} (l : list (string * V)) : mem_map (obj_norm l) = mem_map l.
Proof. rewrite mem_map_nodup; [by rewrite obj_norm_map|]. apply sortedk_nodup, obj_norm_sorted. Qed.
Lemma mem_map_mlist {V} (m : gomap V) : mem_map (mlist m) = mmap m.
Proof. destruct m as [m|]; [|done]. change (mem_map (map_to_list m) = m). rewrite mem_map_nodup; [apply list_to_map_to_list|apply NoDup_fst_map_to_list]. Qed.
Lemma mem_map_in {V} (l : list (string * V)) k : is_Some (mem_map l !! k) <-> k ∈ l.*1.
Proof.
  rewrite <- not_eq_None_Some, mem_map_none, Forall_forall. split.
  - intros H. destruct (decide (k ∈ l.*1)) as [|Hn]; [done|]. exfalso. apply H. intros kv Hin <-. apply Hn. apply elem_of_list_fmap. eauto.
  - intros (kv & -> & Hin)%elem_of_list_fmap H. by apply (H kv Hin).
Qed.
Lemma obj_norm_in {V} (l : list (string * V)) kv : kv ∈ obj_norm l -> kv ∈ l.
Proof.
  induction l as [|[k v] l IH] using rev_ind; [done|]. rewrite obj_norm_snoc. cbn. rewrite elem_of_app.
  assert (forall l', kv ∈ ins k v l' -> kv ∈ l' \/ kv = (k, v)) as Hi.
  { induction l' as [|[k' v'] l' IH']; cbn; [rewrite elem_of_list_singleton; auto|].
    destruct (str_ltb k k'); [rewrite !elem_of_cons; tauto|]. destruct (str_ltb k' k); rewrite !elem_of_cons; naive_solver. }
  intros [H| ->]%Hi; [left; auto|right; by left].
Qed.

(** ** Strings that are written as they are *)
Definition plain_char (c : ascii) : bool :=
  (32 <=? bz c) && (bz c <? 128) && negb ((bz c =? 34) || (bz c =? 92) || (bz c =? 60) || (bz c =? 62) || (bz c =? 38)).
Lemma plain_esc s : string_all plain_char s = true -> esc_str s = s.
Proof.
  induction s as [|c s IH]; [done|]. cbn [string_all]. intros [H1 H2]%andb_prop. cbn [esc_str]. rewrite IH by done. clear -H1.
  unfold plain_char in H1. rewrite !andb_true_iff, negb_true_iff, !orb_false_iff in H1. destruct H1 as [[Ha Hb] [[[[? ?] ?] ?] ?]]. rewrite Hb. unfold esc_ascii.
  apply Z.leb_le in Ha. rewrite H, H0, H1, H2, H3. destruct (Z.eqb_spec (bz c) 10); [lia|]. destruct (Z.eqb_spec (bz c) 13); [lia|]. destruct (Z.eqb_spec (bz c) 9); [lia|]. destruct (Z.ltb_spec (bz c) 32); [lia|]. done.
Qed.
Lemma plain_no_bs s : string_all plain_char s = true -> string_any (fun c => bz c =? 92) s = false.
Proof.
  induction s as [|c s IH]; [done|]. cbn [string_all string_any]. intros [H1 H2]%andb_prop. rewrite IH by done. clear -H1.
  unfold plain_char in H1. rewrite !andb_true_iff, negb_true_iff, !orb_false_iff in H1. destruct H1 as [_ [[[[? ->] ?] ?] ?]]. done.
Qed.
Lemma plain_text s : string_all plain_char s = true -> utf8_text s.
Proof.
  induction s as [|c s IH]; [constructor|]. cbn [string_all]. intros [H1 H2]%andb_prop. change (String c s) with (s1 c +:+ s). eapply utf8_cons; [|by apply IH].
  apply is_char_ascii. unfold plain_char in H1. rewrite !andb_true_iff in H1. destruct H1 as [[_ H1] _]. by apply Z.ltb_lt in H1.
Qed.
Lemma plain_reread s : string_all plain_char s = true -> reread (JStr s) = JStr s.
Proof. intros H. cbn. unfold reread_str, escaped. rewrite plain_esc, plain_no_bs by done. rewrite sanitize_text; [done|]. by apply plain_text. Qed.
Lemma hexdig_plain n : 0 <= n < 16 -> plain_char (hexdig n) = true.
Proof.
  intros H. assert (n = 0 \/ n = 1 \/ n = 2 \/ n = 3 \/ n = 4 \/ n = 5 \/ n = 6 \/ n = 7 \/ n = 8 \/ n = 9 \/ n = 10 \/ n = 11 \/ n = 12 \/ n = 13 \/ n = 14 \/ n = 15) as Hc by lia.
  repeat (destruct Hc as [-> |Hc]; [done|]). by subst n.
Qed.
Lemma hex_plain s : string_all plain_char (hex_encode s) = true.
Proof. induction s as [|c s IH]; [done|]. cbn [hex_encode string_all]. pose proof (nibbles c) as (? & ? & _). by rewrite !hexdig_plain, IH by done. Qed.

(** ** Times *)
Lemma pad_dec_plain w n : string_all plain_char (pad_dec w n) = true.
Proof. revert n; induction w as [|w IH]; intros n; [done|]. cbn [pad_dec]. rewrite string_all_app, IH. cbn. rewrite hexdig_plain; [done|]. pose proof (Z.mod_pos_bound n 10). lia. Qed.
Lemma hexdig_digit n : 0 <= n < 10 -> is_digit (hexdig n) = true /\ bz (hexdig n) - 48 = n.
Proof.
  intros H. assert (n = 0 \/ n = 1 \/ n = 2 \/ n = 3 \/ n = 4 \/ n = 5 \/ n = 6 \/ n = 7 \/ n = 8 \/ n = 9) as Hc by lia.
  repeat (destruct Hc as [-> |Hc]; [done|]). by subst n.
Qed.
Lemma scan_pad w n acc r : 0 <= n < 10 ^ Z.of_nat w -> scan_dec w acc (pad_dec w n +:+ r) = Some (acc * 10 ^ Z.of_nat w + n, r).
Proof.
  assert (forall w n acc k r, 0 <= n < 10 ^ Z.of_nat w -> scan_dec (w + k) acc (pad_dec w n +:+ r) = scan_dec k (acc * 10 ^ Z.of_nat w + n) r) as H.
  { clear. induction w as [|w IH]; intros n acc k r Hn.
    - cbn. rewrite app_nil_l_s. f_equal. cbn in Hn. lia.
    - cbn [pad_dec]. rewrite app_assoc_s. replace (S w + k)%nat with (w + S k)%nat by lia.
      assert (10 ^ Z.of_nat (S w) = 10 * 10 ^ Z.of_nat w) as Hp by (rewrite Nat2Z.inj_succ, Z.pow_succ_r; lia).
      rewrite IH.
      2:{ split; [apply Z.div_pos; lia|]. apply Z.div_lt_upper_bound; lia. }
      change (s1 (hexdig (n mod 10)) +:+ r) with (String (hexdig (n mod 10)) r). cbn [scan_dec].
      destruct (hexdig_digit (n mod 10)) as [-> ->]; [apply Z.mod_pos_bound; lia|]. f_equal. rewrite Hp. pose proof (Z.div_mod n 10). lia. }
  intros Hn. specialize (H w n acc 0%nat r Hn). rewrite Nat.add_0_r in H. exact H.
Qed.
Fixpoint dval (acc : Z) (s : string) : Z := match s with EmptyString => acc | String c s => dval (acc * 10 + (bz c - 48)) s end.
Lemma dval_app acc a b : dval acc (a +:+ b) = dval (dval acc a) b.
Proof. revert acc; induction a as [|c a IH]; intros acc; [done|]. rewrite app_cons_s. cbn. apply IH. Qed.
Lemma pad_dec_len w n : String.length (pad_dec w n) = w.
Proof. revert n; induction w as [|w IH]; intros n; [done|]. cbn [pad_dec]. rewrite app_len_s, IH. cbn. lia. Qed.
Lemma pad_dec_digits w n : string_all is_digit (pad_dec w n) = true.
Proof. revert n; induction w as [|w IH]; intros n; [done|]. cbn [pad_dec]. rewrite string_all_app, IH. cbn [s1 string_all]. destruct (hexdig_digit (n mod 10)) as [-> _]; [apply Z.mod_pos_bound; lia|done]. Qed.
Lemma dval_pad w n acc : 0 <= n < 10 ^ Z.of_nat w -> dval acc (pad_dec w n) = acc * 10 ^ Z.of_nat w + n.
Proof.
  revert n acc; induction w as [|w IH]; intros n acc Hn; [cbn in *; lia|]. cbn [pad_dec]. rewrite dval_app.
  assert (10 ^ Z.of_nat (S w) = 10 * 10 ^ Z.of_nat w) as Hp by (rewrite Nat2Z.inj_succ, Z.pow_succ_r; lia).
  rewrite IH. 2:{ split; [apply Z.div_pos; lia|]. apply Z.div_lt_upper_bound; lia. }
  cbn [s1 dval]. destruct (hexdig_digit (n mod 10)) as [_ ->]; [apply Z.mod_pos_bound; lia|]. rewrite Hp. pose proof (Z.div_mod n 10). lia.
Qed.
Definition no_digit (s : string) : bool := match s with EmptyString => true | String c _ => negb (is_digit c) end.
Lemma scan_frac_app d w acc rest : string_all is_digit d = true -> (String.length d <= w)%nat -> no_digit rest = true ->
  scan_frac w acc (d +:+ rest) = (dval acc d * 10 ^ Z.of_nat (w - String.length d), rest).
Proof.
  revert w acc; induction d as [|c d IH]; intros w acc Hd Hw Hr.
  - rewrite app_nil_l_s. cbn [dval String.length]. rewrite Nat.sub_0_r. destruct rest as [|c r]; [by destruct w|]. cbn in Hr. apply negb_true_iff in Hr. destruct w; cbn [scan_frac]; by rewrite Hr.
  - cbn in Hd, Hw. apply andb_prop in Hd as [Hc Hd]. rewrite app_cons_s. destruct w as [|w]; [lia|]. cbn [scan_frac]. rewrite Hc. rewrite IH; [done|done|lia|done].
Qed.
Lemma strip_zeros_spec s : exists k, s = strip_zeros s +:+ zeros k.
Proof.
  induction s as [|c s [k IH]]; [by exists 0%nat|]. cbn [strip_zeros]. destruct (strip_zeros s) as [|d t] eqn:E.
  - rewrite app_nil_l_s in IH. destruct (Ascii.eqb_spec c "0") as [-> |]; [exists (S k); by rewrite IH|exists k; by rewrite IH].
  - exists k. rewrite IH at 1. done.
Qed.
Lemma dval_zeros k acc : dval acc (zeros k) = acc * 10 ^ Z.of_nat k.
Proof.
  revert acc; induction k as [|k IH]; intros acc; [cbn; lia|]. cbn [zeros dval]. rewrite IH. change (bz "0" - 48) with 0. rewrite Nat2Z.inj_succ, Z.pow_succ_r by lia. lia.
Qed.
Lemma zeros_len k : String.length (zeros k) = k.
Proof. induction k; cbn; congruence. Qed.
Lemma scan_frac_strip ns rest : 0 <= ns < 1000000000 -> no_digit rest = true -> scan_frac 9 0 (strip_zeros (pad_dec 9 ns) +:+ rest) = (ns, rest).
Proof.
  intros Hn Hr. destruct (strip_zeros_spec (pad_dec 9 ns)) as [k Hk]. pose proof (pad_dec_len 9 ns) as Hl. pose proof (pad_dec_digits 9 ns) as Hd. pose proof (dval_pad 9 ns 0) as Hv.
  rewrite Hk in Hl, Hd. rewrite Hk, dval_app, dval_zeros in Hv. rewrite app_len_s, zeros_len in Hl. rewrite string_all_app in Hd. apply andb_prop in Hd as [Hd _].
  rewrite scan_frac_app; [|done|lia|done]. f_equal. replace (9 - String.length (strip_zeros (pad_dec 9 ns)))%nat with k by lia. rewrite Hv; [lia|done].
Qed.
Lemma strip_zeros_first ns : 0 < ns < 1000000000 -> exists c t, strip_zeros (pad_dec 9 ns) = String c t /\ is_digit c = true.
Proof.
  intros Hn. destruct (strip_zeros_spec (pad_dec 9 ns)) as [k Hk]. pose proof (pad_dec_digits 9 ns) as Hd. pose proof (dval_pad 9 ns 0) as Hv. rewrite Hk in Hd. rewrite Hk, dval_app, dval_zeros in Hv.
  destruct (strip_zeros (pad_dec 9 ns)) as [|c t]; [cbn in Hv; lia|]. exists c, t. split; [done|]. rewrite app_cons_s in Hd. cbn in Hd. by apply andb_prop in Hd as [? _].
Qed.
Lemma strip_zeros_plain s : string_all plain_char s = true -> string_all plain_char (strip_zeros s) = true.
Proof. intros H. destruct (strip_zeros_spec s) as [k Hk]. rewrite Hk, string_all_app in H. by apply andb_prop in H as [? _]. Qed.
Lemma scan_hour_pad n r : 0 <= n < 100 -> scan_hour (pad_dec 2 n +:+ r) = Some (n, r).
Proof.
  intros Hn. cbn [pad_dec]. rewrite app_nil_l_s. change ((s1 (hexdig (n / 10 mod 10)) +:+ s1 (hexdig (n mod 10))) +:+ r) with (String (hexdig (n / 10 mod 10)) (String (hexdig (n mod 10)) r)). cbn [scan_hour].
  destruct (hexdig_digit (n / 10 mod 10)) as [-> ->]; [apply Z.mod_pos_bound; lia|]. destruct (hexdig_digit (n mod 10)) as [-> ->]; [apply Z.mod_pos_bound; lia|].
  f_equal. f_equal. rewrite (Z.mod_small (n / 10)). 2:{ split; [apply Z.div_pos; lia|]. apply Z.div_lt_upper_bound; lia. } pose proof (Z.div_mod n 10). lia.
Qed.
Lemma expect_app c (x : string) : expect c (s1 c +:+ x) = Some x.
Proof. unfold s1. rewrite app_cons_s, app_nil_l_s. cbn. by rewrite Ascii.eqb_refl. Qed.
Lemma print_time_plain t s : print_time t = Some s -> string_all plain_char s = true.
Proof.
  unfold print_time. cbv zeta. case_match; [done|]. intros Hs. apply (inj Some) in Hs. rewrite <- Hs. clear Hs. rewrite !string_all_app, !pad_dec_plain. cbn [andb].
  assert (string_all plain_char (if t_ns t =? 0 then "" else "." +:+ strip_zeros (pad_dec 9 (t_ns t))) = true) as ->.
  { destruct (t_ns t =? 0); [done|]. rewrite string_all_app. rewrite strip_zeros_plain; [done|]. apply pad_dec_plain. }
  assert (string_all plain_char (if t_off t =? 0 then "Z" else (if Z.quot (t_off t) 60 <? 0 then "-" else "+") +:+ pad_dec 2 (Z.abs (Z.quot (t_off t) 60) / 60) +:+ ":" +:+ pad_dec 2 (Z.abs (Z.quot (t_off t) 60) mod 60)) = true) as ->.
  { destruct (t_off t =? 0); [done|]. rewrite !string_all_app, !pad_dec_plain. by destruct (Z.quot (t_off t) 60 <? 0). }
  done.
Qed.
Lemma parse_print_time t : time_ok t -> exists s, print_time t = Some s /\ parse_time s = Some t.
Proof.
  destruct t as [y mo d h mi se ns off]. unfold time_ok. cbn [t_year t_mon t_day t_hour t_min t_sec t_ns t_off]. intros (Hy & Hmo & Hd & Hh & Hmi & Hse & Hns & Hoff & Hab).
  assert (d <= 31) as Hd31 by (destruct Hd as [_ Hd]; revert Hd; unfold days_in; repeat case_match; lia).
  assert (exists z, off = z * 60) as [z ->] by (exists (off / 60); pose proof (Z.div_mod off 60); lia).
  assert (Z.quot (z * 60) 60 = z) as Hq by (rewrite Z.quot_mul; lia).
  assert (Z.abs z / 60 < 24) as Hz by (apply Z.div_lt_upper_bound; lia). assert (0 <= Z.abs z / 60) as Hz0 by (apply Z.div_pos; lia).
  pose proof (Z.mod_pos_bound (Z.abs z) 60 ltac:(lia)) as Hm. pose proof (Z.div_mod (Z.abs z) 60 ltac:(lia)) as Hdm.
  unfold print_time. cbn [t_year t_mon t_day t_hour t_min t_sec t_ns t_off]. cbv zeta. rewrite Hq.
  destruct (Z.ltb_spec y 0); [lia|]. destruct (Z.ltb_spec 9999 y); [lia|]. destruct (Z.leb_spec 24 (Z.abs z / 60)); [lia|]. cbn [orb].
  eexists. split; [reflexivity|]. unfold parse_time.
  change "-" with (s1 "-"). change "T" with (s1 "T"). change ":" with (s1 ":").
  rewrite scan_pad by (cbn; lia). rewrite expect_app, scan_pad by (cbn; lia). rewrite expect_app, scan_pad by (cbn; lia). rewrite expect_app, scan_hour_pad by lia. rewrite expect_app, scan_pad by (cbn; lia). rewrite expect_app, scan_pad by (cbn; lia).
  set (zone := if z * 60 =? 0 then "Z" else _). rewrite !Z.mul_0_l, !Z.add_0_l.
  assert (no_digit zone = true /\ (exists c r, zone = String c r /\ bz c <> 46 /\ bz c <> 44)) as [Hnd (zc & zr & Hzone & Hz46 & Hz44)].
  { unfold zone. destruct (z * 60 =? 0); [split; [done|]; eexists _, _; split; [reflexivity|done]|]. destruct (z <? 0); (split; [done|]; eexists _, _; split; [reflexivity|done]). }
  assert ((match (if ns =? 0 then "" else "." +:+ strip_zeros (pad_dec 9 ns)) +:+ zone with
     | String c (String d _ as r) => if ((bz c =? 46) || (bz c =? 44)) && is_digit d then scan_frac 9 0 r else (0, (if ns =? 0 then "" else "." +:+ strip_zeros (pad_dec 9 ns)) +:+ zone)
     | _ => (0, (if ns =? 0 then "" else "." +:+ strip_zeros (pad_dec 9 ns)) +:+ zone) end) = (ns, zone)) as ->.
  { destruct (Z.eqb_spec ns 0) as [-> |Hn0].
    - rewrite app_nil_l_s. rewrite Hzone. destruct zr; [done|]. destruct (Z.eqb_spec (bz zc) 46); [done|]. destruct (Z.eqb_spec (bz zc) 44); [done|]. done.
    - destruct (strip_zeros_first ns) as (c & t & He & Hdg); [lia|]. pose proof (scan_frac_strip ns zone Hns Hnd) as Hf. rewrite He in *. rewrite app_assoc_s. rewrite app_cons_s in *.
      change ("." +:+ String c (t +:+ zone)) with (String "." (String c (t +:+ zone))). cbv beta iota. rewrite ?app_nil_l_s, ?app_cons_s. cbv beta iota. rewrite Hdg. exact Hf. }
  cbv beta iota zeta. match goal with |- match ?o with Some _ => _ | None => None end = _ => assert (o = Some (z * 60)) as -> end.
  { unfold zone. destruct (Z.eqb_spec (z * 60) 0) as [E|E]; [by rewrite E|].
    pose proof (scan_pad 2 (Z.abs z mod 60) 0 "") as Hs. rewrite app_nil_s, Z.mul_0_l, Z.add_0_l in Hs.
    destruct (Z.ltb_spec z 0).
    - change (s1 "-" +:+ pad_dec 2 (Z.abs z / 60) +:+ s1 ":" +:+ pad_dec 2 (Z.abs z mod 60)) with (String "-" (pad_dec 2 (Z.abs z / 60) +:+ s1 ":" +:+ pad_dec 2 (Z.abs z mod 60))). cbv beta iota.
      change (bz "-" =? 90) with false. change ((bz "-" =? 43) || (bz "-" =? 45)) with true. cbv beta iota. rewrite scan_pad by (cbn; lia). rewrite expect_app, Hs by (cbn; lia).
      destruct (Z.leb_spec (0 * 10 ^ Z.of_nat 2 + Z.abs z / 60) 24); [|lia]. destruct (Z.leb_spec (Z.abs z mod 60) 60); [|lia]. cbn [andb]. cbv zeta. change (bz "-" =? 45) with true. cbv beta iota. f_equal. lia.
    - change ("+" +:+ pad_dec 2 (Z.abs z / 60) +:+ s1 ":" +:+ pad_dec 2 (Z.abs z mod 60)) with (String "+" (pad_dec 2 (Z.abs z / 60) +:+ s1 ":" +:+ pad_dec 2 (Z.abs z mod 60))). cbv beta iota.
      change (bz "+" =? 90) with false. change ((bz "+" =? 43) || (bz "+" =? 45)) with true. cbv beta iota. rewrite scan_pad by (cbn; lia). rewrite expect_app, Hs by (cbn; lia).
      destruct (Z.leb_spec (0 * 10 ^ Z.of_nat 2 + Z.abs z / 60) 24); [|lia]. destruct (Z.leb_spec (Z.abs z mod 60) 60); [|lia]. cbn [andb]. cbv zeta. change (bz "+" =? 45) with false. cbv beta iota. f_equal. lia. }
  destruct (Z.leb_spec 1 mo); [|lia]. destruct (Z.leb_spec mo 12); [|lia]. destruct (Z.leb_spec 1 d); [|lia]. destruct (Z.leb_spec d (days_in mo y)); [|lia].
  destruct (Z.ltb_spec h 24); [|lia]. destruct (Z.ltb_spec mi 60); [|lia]. destruct (Z.ltb_spec se 60); [|lia]. done.
Qed.
