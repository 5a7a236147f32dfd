(** * UTF-8 facts *)
From stdpp Require Import base strings list.
From Coq Require Import ZArith Lia Ascii String.
From Verif Require Import GoBase GoStr Glob StrProofs SpecUtf8.
Open Scope Z_scope.

Lemma bz_zb_id c : exists z, c = zb z /\ bz c = z /\ 0 <= z < 256.
Proof. exists (bz c). split; [by rewrite zb_bz|]. split; [done|]. apply bz_range. Qed.
Ltac zsplit :=
  repeat match goal with
  | |- context [?a <=? ?b] => destruct (Z.leb_spec a b); try (exfalso; lia)
  | |- context [?a <? ?b] => destruct (Z.ltb_spec a b); try (exfalso; lia)
  | |- context [?a =? ?b] => destruct (Z.eqb_spec a b); try (exfalso; lia)
  end; cbn [andb orb negb].

Lemma decode_rune_char r u s : is_char r u -> decode_rune (u +:+ s) = (r, String.length u).
Proof.
  intros H. destruct H as [r Hr|a b Ha Hb|a b c Ha Hb Hc Hm Hs|a b c d Ha Hb Hc Hd Hm]; unfold str_of; cbn [map string_of_list_ascii]; rewrite ?app_cons_s, ?app_nil_l_s; cbn [String.length].
  - cbn. rewrite bz_zb by lia. destruct (Z.ltb_spec r 128); [done|lia].
  - unfold decode_rune, utf8_len, utf8_cont. rewrite !bz_zb by lia. zsplit; cbn [andb]; try (f_equal; lia); exfalso; lia.
  - unfold decode_rune, utf8_len, utf8_cont. rewrite !bz_zb by lia. zsplit; cbn [andb]; try (f_equal; lia); exfalso; lia.
  - unfold decode_rune, utf8_len, utf8_cont. rewrite !bz_zb by lia. zsplit; cbn [andb]; try (f_equal; lia); exfalso; lia.
Qed.
Lemma utf8_len_char s n : utf8_len s = Some n -> exists r, is_char r (str_take n s) /\ s = str_take n s +:+ str_drop n s /\ String.length (str_take n s) = n /\ 128 <= r.
Proof.
  destruct s as [|a [|b r]]; [done..|]. cbn [utf8_len].
  destruct (bz_zb_id a) as (x & Hx & Ex & Rx). destruct (bz_zb_id b) as (y & Hy & Ey & Ry). rewrite Ex, Ey. subst a b.
  destruct ((194 <=? x) && (x <=? 223)) eqn:E2.
  { apply andb_prop in E2 as [?%Z.leb_le ?%Z.leb_le]. unfold utf8_cont. rewrite Ey. destruct ((128 <=? y) && (y <=? 191)) eqn:E; [|done].
    apply andb_prop in E as [?%Z.leb_le ?%Z.leb_le]. intros [= <-]. exists ((x - 192) * 64 + (y - 128)). split; [|split; [done|split; [done|lia]]].
    replace (str_take 2 (String (zb x) (String (zb y) r))) with (str_of [192 + (x - 192); 128 + (y - 128)]); [constructor; lia|].
    unfold str_of. cbn [map string_of_list_ascii str_take]. repeat f_equal; lia. }
  destruct r as [|c r']; [done|]. destruct (bz_zb_id c) as (z & Hz & Ez & Rz). subst c.
  destruct ((224 <=? x) && (x <=? 239)) eqn:E3.
  { apply andb_prop in E3 as [?%Z.leb_le ?%Z.leb_le]. unfold utf8_cont. rewrite Ez.
    destruct ((if x =? 224 then 160 <=? y else 128 <=? y) && (if x =? 237 then y <=? 159 else y <=? 191) && ((128 <=? z) && (z <=? 191))) eqn:E; [|done].
    intros [= <-]. rewrite !andb_true_iff in E. destruct E as [[E1 E4] [?%Z.leb_le ?%Z.leb_le]].
    assert (128 <= y <= 191 /\ (x = 224 -> 160 <= y) /\ (x = 237 -> y <= 159)) as (? & ? & ?).
    { destruct (Z.eqb_spec x 224), (Z.eqb_spec x 237); apply Z.leb_le in E1, E4; lia. }
    exists ((x - 224) * 4096 + (y - 128) * 64 + (z - 128)). split; [|split; [done|split; [done|lia]]].
    replace (str_take 3 _) with (str_of [224 + (x - 224); 128 + (y - 128); 128 + (z - 128)]); [constructor; try lia|].
    unfold str_of. cbn [map string_of_list_ascii str_take]. repeat f_equal; lia. }
  destruct r' as [|d r']; [done|]. destruct (bz_zb_id d) as (w & Hw & Ew & Rw). subst d.
  destruct ((240 <=? x) && (x <=? 244)) eqn:E4; [|done].
  apply andb_prop in E4 as [?%Z.leb_le ?%Z.leb_le]. unfold utf8_cont. rewrite Ez, Ew.
  destruct ((if x =? 240 then 144 <=? y else 128 <=? y) && (if x =? 244 then y <=? 143 else y <=? 191) && ((128 <=? z) && (z <=? 191)) && ((128 <=? w) && (w <=? 191))) eqn:E; [|done].
  intros [= <-]. rewrite !andb_true_iff in E. destruct E as [[[E1 E4] [?%Z.leb_le ?%Z.leb_le]] [?%Z.leb_le ?%Z.leb_le]].
  assert (128 <= y <= 191 /\ (x = 240 -> 144 <= y) /\ (x = 244 -> y <= 143)) as (? & ? & ?).
  { destruct (Z.eqb_spec x 240), (Z.eqb_spec x 244); apply Z.leb_le in E1, E4; lia. }
  exists ((x - 240) * 262144 + (y - 128) * 4096 + (z - 128) * 64 + (w - 128)). split; [|split; [done|split; [done|lia]]].
  replace (str_take 4 _) with (str_of [240 + (x - 240); 128 + (y - 128); 128 + (z - 128); 128 + (w - 128)]); [constructor; try lia|].
  unfold str_of. cbn [map string_of_list_ascii str_take]. repeat f_equal; lia.
Qed.
Lemma is_char_len r u : is_char r u -> (1 <= String.length u <= 4)%nat.
Proof. intros []; cbn; lia. Qed.
Lemma is_char_nonneg r u : is_char r u -> 0 <= r <= 1114111.
Proof. intros []; lia. Qed.
Lemma str_drop_app u s : str_drop (String.length u) (u +:+ s) = s.
Proof. induction u; [done|]. rewrite app_cons_s. done. Qed.
Lemma str_take_app u s : str_take (String.length u) (u +:+ s) = u.
Proof. induction u as [|c u IH]; [by destruct s|]. rewrite app_cons_s. cbn. by rewrite IH. Qed.
(** multi-byte characters are recognised by [utf8_len] *)
Lemma char_utf8_len r u s : is_char r u -> 128 <= r -> utf8_len (u +:+ s) = Some (String.length u).
Proof.
  intros H. destruct H as [r Hr|a b Ha Hb|a b c Ha Hb Hc Hm Hs|a b c d Ha Hb Hc Hd Hm]; intros; [lia|..]; unfold str_of; cbn [map string_of_list_ascii]; rewrite ?app_cons_s, ?app_nil_l_s; cbn [String.length];
  unfold utf8_len, utf8_cont; rewrite !bz_zb by lia; zsplit; try done; exfalso; lia.
Qed.
Lemma decode_rune_small a r : bz a < 128 -> decode_rune (String a r) = (bz a, 1%nat).
Proof. intros H. cbn. destruct (Z.ltb_spec (bz a) 128); [done|lia]. Qed.
Lemma is_char_ascii a : bz a < 128 -> is_char (bz a) (s1 a).
Proof. intros H. pose proof (bz_range a). replace (s1 a) with (str_of [bz a]); [constructor; lia|]. unfold str_of. cbn. by rewrite zb_bz. Qed.
Lemma is_char_high a u r : is_char r (String a u) -> (bz a < 128 /\ u = "" /\ r = bz a) \/ (128 <= bz a /\ 128 <= r).
Proof.
  intros H. remember (String a u) as t eqn:Et. destruct H; unfold str_of in Et; cbn in Et; injection Et as <- <-; rewrite bz_zb by lia; [left|right..]; try lia. split; [lia|]. split; [done|lia].
Qed.
Lemma decode_rune_inv s r n : s <> "" -> decode_rune s = (r, n) ->
  (is_char r (str_take n s) /\ String.length (str_take n s) = n) \/
  ((~ exists r' u s'', is_char r' u /\ s = u +:+ s'') /\ r = 65533 /\ n = 1%nat).
Proof.
  intros Hs H. destruct s as [|a t]; [done|].
  destruct (Z.ltb_spec (bz a) 128) as [Ha|Ha].
  - rewrite decode_rune_small in H by done. injection H as <- <-. left. cbn. split; [by apply is_char_ascii|done].
  - destruct (utf8_len (String a t)) as [k|] eqn:E.
    + destruct (utf8_len_char _ _ E) as (r' & Hc & He & Hl & Hr). left.
      pose proof (decode_rune_char _ _ (str_drop k (String a t)) Hc) as Hd. rewrite <- He, H, Hl in Hd. injection Hd as -> ->. done.
    + right. assert (decode_rune (String a t) = (65533, 1%nat)) as Hd.
      { unfold decode_rune. destruct (Z.ltb_spec (bz a) 128); [lia|]. rewrite E. done. }
      rewrite Hd in H. injection H as <- <-. split; [|done]. intros (r' & u & s'' & Hc & He).
      destruct u as [|b u]; [pose proof (is_char_len _ _ Hc); cbn in *; lia|]. rewrite app_cons_s in He. injection He as <- ->.
      destruct (is_char_high _ _ _ Hc) as [[? _]|[_ Hr]]; [lia|].
      pose proof (char_utf8_len _ _ s'' Hc Hr) as Hx. rewrite app_cons_s in Hx. congruence.
Qed.
Lemma first_char_decode s r s' : s <> "" -> first_char s r s' <-> (fst (decode_rune s) = r /\ str_drop (snd (decode_rune s)) s = s').
Proof.
  intros Hs. destruct (decode_rune s) as [q n] eqn:E. cbn. split.
  - intros [(u & Hc & ->)|(Hn & -> & c & ->)].
    + rewrite decode_rune_char with (1:=Hc) in E. injection E as <- <-. split; [done|]. apply str_drop_app.
    + destruct (decode_rune_inv _ _ _ Hs E) as [[Hc Hl]|(_ & -> & ->)]; [|done].
      exfalso. apply Hn. exists q, (str_take n (String c s')), (str_drop n (String c s')). split; [done|]. by rewrite str_take_drop.
  - intros [<- <-]. destruct (decode_rune_inv _ _ _ Hs E) as [[Hc Hl]|(Hn & -> & ->)].
    + left. eexists. split; [exact Hc|]. by rewrite str_take_drop.
    + right. split; [done|]. split; [done|]. destruct s as [|c s]; [done|]. by exists c.
Qed.
Lemma char_prefix_unique r u s r' u' s' : is_char r u -> is_char r' u' -> u +:+ s = u' +:+ s' -> r = r' /\ u = u' /\ s = s'.
Proof.
  intros H1 H2 He. pose proof (decode_rune_char _ _ s H1) as D1. pose proof (decode_rune_char _ _ s' H2) as D2.
  rewrite He, D2 in D1. injection D1 as -> Hl. destruct (string_app_inj_len u s u' s'); [congruence|done|]. done.
Qed.
