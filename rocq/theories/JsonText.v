(** * Printing and parsing JSON text *)
From stdpp Require Import base gmap strings list.
From Coq Require Import ZArith Lia Ascii String.
From Verif Require Import GoBase GoStr Json StrProofs SpecUtf8 Utf8Proofs SpecText.
Open Scope Z_scope.

Lemma string_any_app f a b : string_any f (a +:+ b) = string_any f a || string_any f b.
Proof. induction a as [|c a IH]; [done|]. rewrite app_cons_s. cbn. by rewrite IH, orb_assoc. Qed.

(** ** Strings *)
Lemma esc_ascii_parse c x : bz c < 128 ->
  parse_str (esc_ascii c +:+ x) = push (s1 c) (string_any (fun c => bz c =? 92) (esc_ascii c)) (parse_str x).
Proof.
  destruct c as [[] [] [] [] [] [] [] []]; intros H; try (vm_compute in H; done); reflexivity.
Qed.
Lemma esc_fffd_parse x : parse_str (esc_u 65533 +:+ x) = push utf8_fffd true (parse_str x).
Proof. reflexivity. Qed.
Lemma utf8_len_prefix s n y : utf8_len s = Some n -> utf8_len (str_take n s +:+ y) = Some n.
Proof. intros H. destruct (utf8_len_char _ _ H) as (r & Hc & _ & Hl & Hr). rewrite (char_utf8_len _ _ y Hc Hr). by rewrite Hl. Qed.
Lemma utf8_len_cases s n : utf8_len s = Some n -> n = 2%nat \/ n = 3%nat \/ n = 4%nat.
Proof. intros H. unfold utf8_len in H. repeat case_match; naive_solver. Qed.
Lemma push_push a e b f r : push a e (push b f r) = push (a +:+ b) (e || f) r.
Proof. destruct r as [[[s g] t]|]; cbn; [|done]. by rewrite app_assoc_s, orb_assoc. Qed.

Lemma char_high r u : is_char r u -> 128 <= r -> string_all (fun c => 128 <=? bz c) u = true.
Proof.
  intros H. destruct H; intros; [lia|..]; unfold str_of; cbn [map string_of_list_ascii string_all]; rewrite !bz_zb by lia; zsplit; try done; lia.
Qed.
Lemma high_no_bs u : string_all (fun c => 128 <=? bz c) u = true -> string_any (fun c => bz c =? 92) u = false.
Proof.
  induction u as [|c u IH]; [done|]. cbn. intros [H1 H2]%andb_prop. rewrite IH by done. apply Z.leb_le in H1. destruct (Z.eqb_spec (bz c) 92); [lia|done].
Qed.
Lemma esc_ls_parse x z : z = 168 \/ z = 169 ->
  parse_str (esc_u (8232 + (z - 168)) +:+ x) = push (String (zb 226) (String (zb 128) (s1 (zb z)))) true (parse_str x).
Proof. intros [-> | ->]; reflexivity. Qed.
Lemma parse_esc_str s rest : parse_str (esc_str s +:+ dquote +:+ rest) = Some (utf8_sanitize s, escaped s, rest).
Proof.
  unfold escaped. remember (String.length s) as n eqn:Hn. revert s Hn. induction (lt_wf n) as [n _ IH]. intros s ->.
  destruct s as [|c r]; [done|]. cbn [esc_str utf8_sanitize].
  destruct (Z.ltb_spec (bz c) 128) as [Hc|Hc].
  { rewrite app_assoc_s, esc_ascii_parse by done. rewrite (IH (String.length r)); [|cbn; lia|done]. cbn [push]. by rewrite string_any_app. }
  assert (forall t u, (String.length t < String.length (String c r))%nat ->
    push u false (parse_str (esc_str t +:+ dquote +:+ rest)) = Some (u +:+ utf8_sanitize t, string_any (fun c => bz c =? 92) (esc_str t), rest)) as IH'.
  { intros t u Ht. by rewrite (IH (String.length t)). }
  destruct (utf8_len (String c r)) as [n|] eqn:E.
  2:{ rewrite app_assoc_s, esc_fffd_parse. rewrite (IH (String.length r)); [|cbn; lia|done]. cbn [push]. by rewrite string_any_app. }
  pose proof (utf8_len_prefix _ _ (esc_str (str_drop n (String c r)) +:+ dquote +:+ rest) E) as E'.
  destruct (utf8_len_char _ _ E) as (q & Hq & Hs & Hl & Hqr). pose proof (char_high _ _ Hq Hqr) as Hh. apply high_no_bs in Hh.
  assert (forall t, parse_str (String c t) = match utf8_len (String c t) with
        | Some 2%nat => match t with String x1 r1 => push (String c (s1 x1)) false (parse_str r1) | _ => None end
        | Some 3%nat => match t with String x1 (String x2 r2) => push (String c (String x1 (s1 x2))) false (parse_str r2) | _ => None end
        | Some 4%nat => match t with String x1 (String x2 (String x3 r3)) => push (String c (String x1 (String x2 (s1 x3)))) false (parse_str r3) | _ => None end
        | _ => push utf8_fffd false (parse_str t)
        end) as Hstep.
  { intros t. cbn [parse_str]. destruct (Z.eqb_spec (bz c) 34); [lia|]. destruct (Z.ltb_spec (bz c) 32); [lia|]. destruct (Z.eqb_spec (bz c) 92); [lia|].
    destruct (Z.ltb_spec (bz c) 128); [lia|]. done. }
  destruct (utf8_len_cases _ _ E) as [-> |[-> | ->]].
  - destruct r as [|x1 r1]; [done|]. cbn [str_take str_drop] in *. rewrite !app_cons_s in *. rewrite !app_nil_l_s in *.
    rewrite Hstep, E', IH' by (cbn; lia). cbn [string_any] in *. apply orb_false_iff in Hh as [-> [-> _]%orb_false_iff]. done.
  - destruct r as [|x1 [|x2 r2]]; [done..|]. cbn [str_take str_drop] in *.
    destruct ((bz c =? 226) && (bz x1 =? 128) && ((bz x2 =? 168) || (bz x2 =? 169))) eqn:E3.
    + apply andb_prop in E3 as [[H1%Z.eqb_eq H2%Z.eqb_eq]%andb_prop H3]. assert (bz x2 = 168 \/ bz x2 = 169) as H4 by (apply orb_prop in H3 as [?%Z.eqb_eq|?%Z.eqb_eq]; auto).
      rewrite app_assoc_s, esc_ls_parse by done. rewrite (IH (String.length r2)); [|cbn; lia|done]. cbn [push].
      rewrite string_any_app. rewrite zb_bz. rewrite <- H1, <- H2, !zb_bz. done.
    + rewrite !app_cons_s in *. rewrite !app_nil_l_s in *.
      rewrite Hstep, E', IH' by (cbn; lia). cbn [string_any] in *. apply orb_false_iff in Hh as [-> [-> [-> _]%orb_false_iff]%orb_false_iff]. done.
  - destruct r as [|x1 [|x2 [|x3 r3]]]; [done..|]. cbn [str_take str_drop] in *. rewrite !app_cons_s in *. rewrite !app_nil_l_s in *.
    rewrite Hstep, E', IH' by (cbn; lia). cbn [string_any] in *. apply orb_false_iff in Hh as [-> [-> [-> [-> _]%orb_false_iff]%orb_false_iff]%orb_false_iff]. done.
Qed.

(** valid text is not changed *)
Lemma sanitize_text s : utf8_text s -> utf8_sanitize s = s.
Proof.
  induction 1 as [|r u s Hc _ IH]; [done|]. destruct (Z.ltb_spec r 128) as [Hr|Hr].
  - destruct u as [|c u]; [by pose proof (is_char_len _ _ Hc) as [? _]; cbn in *; lia|]. destruct (is_char_high _ _ _ Hc) as [(H1 & -> & _)|[_ ?]]; [|lia].
    rewrite app_cons_s, app_nil_l_s. cbn [utf8_sanitize]. destruct (Z.ltb_spec (bz c) 128); [|lia]. by rewrite IH.
  - pose proof (char_utf8_len _ _ s Hc Hr) as Hl. destruct u as [|c u]; [by pose proof (is_char_len _ _ Hc) as [? _]; cbn in *; lia|].
    destruct (is_char_high _ _ _ Hc) as [(H1 & -> & ?)|[H1 _]]; [lia|]. rewrite app_cons_s in *. cbn [utf8_sanitize].
    destruct (Z.ltb_spec (bz c) 128); [lia|]. rewrite Hl. destruct (utf8_len_cases _ _ Hl) as [Hn|[Hn|Hn]]; rewrite Hn.
    + destruct u as [|x1 [|]]; try done. rewrite app_cons_s, app_nil_l_s. by rewrite IH.
    + destruct u as [|x1 [|x2 [|]]]; try done. rewrite !app_cons_s, app_nil_l_s. by rewrite IH.
    + destruct u as [|x1 [|x2 [|x3 [|]]]]; try done. rewrite !app_cons_s, app_nil_l_s. by rewrite IH.
Qed.
Lemma fffd_text : is_char 65533 utf8_fffd.
Proof. replace utf8_fffd with (str_of [224 + 15; 128 + 63; 128 + 61]) by done. change 65533 with (15 * 4096 + 63 * 64 + 61). constructor; lia. Qed.
Lemma sanitize_is_text s : utf8_text (utf8_sanitize s).
Proof.
  remember (String.length s) as n eqn:Hn. revert s Hn. induction (lt_wf n) as [n _ IH]. intros s ->.
  assert (forall t, (String.length t < String.length s)%nat -> utf8_text (utf8_sanitize t)) as IH' by (intros t Ht; by apply (IH (String.length t))).
  destruct s as [|c r]; [constructor|]. cbn [utf8_sanitize].
  destruct (Z.ltb_spec (bz c) 128) as [Hc|Hc].
  { change (String c (utf8_sanitize r)) with (s1 c +:+ utf8_sanitize r). eapply utf8_cons; [by apply is_char_ascii|]. apply IH'. cbn; lia. }
  destruct (utf8_len (String c r)) as [n|] eqn:E.
  2:{ eapply utf8_cons; [apply fffd_text|]. apply IH'. cbn; lia. }
  destruct (utf8_len_char _ _ E) as (q & Hq & Hs & Hl & Hqr).
  destruct (utf8_len_cases _ _ E) as [-> |[-> | ->]].
  - destruct r as [|x1 r1]; [done|]. change (utf8_text (str_take 2 (String c (String x1 r1)) +:+ utf8_sanitize r1)). eapply utf8_cons; [exact Hq|]. apply IH'. cbn; lia.
  - destruct r as [|x1 [|x2 r2]]; [done..|]. change (utf8_text (str_take 3 (String c (String x1 (String x2 r2))) +:+ utf8_sanitize r2)). eapply utf8_cons; [exact Hq|]. apply IH'. cbn; lia.
  - destruct r as [|x1 [|x2 [|x3 r3]]]; [done..|]. change (utf8_text (str_take 4 (String c (String x1 (String x2 (String x3 r3)))) +:+ utf8_sanitize r3)). eapply utf8_cons; [exact Hq|]. apply IH'. cbn; lia.
Qed.

(** ** Numbers *)
Definition delim (s : string) : bool := match s with EmptyString => true | String c _ => (bz c =? 44) || (bz c =? 93) || (bz c =? 125) end.
Lemma delim_cases s : delim s = true -> s = "" \/ exists c r, s = String c r /\ (c = ","%char \/ c = "]"%char \/ c = "}"%char).
Proof.
  destruct s as [|c r]; [by left|]. cbn. intros H. right. exists c, r. split; [done|]. rewrite !orb_true_iff, !Z.eqb_eq in H.
  destruct H as [[H|H]|H]; [left|right; left|right; right]; by apply bz_inj.
Qed.
Lemma take_digits_app s rest d t : delim rest = true -> take_digits s = (d, t) -> take_digits (s +:+ rest) = (d, t +:+ rest).
Proof.
  intros Hd. revert d t. induction s as [|c s IH]; intros d t; cbn [take_digits].
  - intros [= <- <-]. rewrite !app_nil_l_s. destruct (delim_cases _ Hd) as [-> |(c & r & -> & [-> |[-> | ->]])]; done.
  - rewrite app_cons_s. cbn [take_digits]. destruct (is_digit c).
    + destruct (take_digits s) as [d' t'] eqn:E. intros [= <- <-]. by rewrite (IH _ _ eq_refl).
    + intros [= <- <-]. done.
Qed.
Definition num_int (s : string) : string * string :=
  let '(ip, s1') := take_digits s in
  match ip with String "0" (String _ _ as t) => ("0", t +:+ s1') | _ => (ip, s1') end.
Definition num_frac (s : string) : option (string * string) :=
  match s with
  | String "." r => match take_digits r with (EmptyString, _) => None | (d, t) => Some ("." +:+ d, t) end
  | _ => Some ("", s)
  end.
Definition num_expo (e : ascii) (r : string) : option (string * string) :=
  let '(sg, r') := match r with String "+" t => ("+", t) | String "-" t => ("-", t) | _ => ("", r) end in
  match take_digits r' with (EmptyString, _) => None | (d, t) => Some (String e (sg +:+ d), t) end.
Definition num_exp (s : string) : option (string * string) :=
  match s with String "e" r => num_expo "e"%char r | String "E" r => num_expo "E"%char r | _ => Some ("", s) end.
Lemma parse_num_unfold s : parse_num s =
  let '(sign, s0) := match s with String "-" r => ("-", r) | _ => ("", s) end in
  let '(ip, s1') := num_int s0 in
  match ip with
  | EmptyString => None
  | _ => match num_frac s1' with
         | None => None
         | Some (fp, s2) => match num_exp s2 with None => None | Some (ep, s3) => Some (sign +:+ ip +:+ fp +:+ ep, s3) end
         end
  end.
Proof.
  unfold parse_num. destruct (match s with String "-" r => ("-", r) | _ => ("", s) end) as [sign s0]. unfold num_int.
  destruct (take_digits s0) as [ip s1']. destruct (match ip with String "0" (String _ _ as t) => ("0", t +:+ s1') | _ => (ip, s1') end) as [ip' s1'']. done.
Qed.
Lemma num_int_app s rest d t : delim rest = true -> num_int s = (d, t) -> num_int (s +:+ rest) = (d, t +:+ rest).
Proof.
  intros Hd. unfold num_int. destruct (take_digits s) as [ip u] eqn:E. rewrite (take_digits_app _ _ _ _ Hd E).
  destruct ip as [|c [|c' ip]].
  - by intros [= <- <-].
  - destruct c as [[] [] [] [] [] [] [] []]; by intros [= <- <-].
  - destruct c as [[] [] [] [] [] [] [] []]; intros [= <- <-]; rewrite ?app_cons_s, ?app_assoc_s; done.
Qed.
Lemma num_frac_app s rest d t : delim rest = true -> num_frac s = Some (d, t) -> num_frac (s +:+ rest) = Some (d, t +:+ rest).
Proof.
  intros Hd. unfold num_frac. destruct s as [|c s].
  - intros [= <- <-]. rewrite !app_nil_l_s. destruct (delim_cases _ Hd) as [-> |(c & r & -> & [-> |[-> | ->]])]; done.
  - rewrite app_cons_s. destruct (ascii_dec c ".") as [-> |Hne].
    + destruct (take_digits s) as [u v] eqn:E. rewrite (take_digits_app _ _ _ _ Hd E). destruct u; [done|]. by intros [= <- <-].
    + destruct c as [[] [] [] [] [] [] [] []]; try done; by intros [= <- <-].
Qed.
Lemma num_expo_app e s rest d t : delim rest = true -> num_expo e s = Some (d, t) -> num_expo e (s +:+ rest) = Some (d, t +:+ rest).
Proof.
  intros Hd. unfold num_expo.
  assert (forall sg r, (let '(d0, t0) := take_digits r in match d0 with EmptyString => None | _ => Some (String e (sg +:+ d0), t0) end) = Some (d, t) ->
     (let '(d0, t0) := take_digits (r +:+ rest) in match d0 with EmptyString => None | _ => Some (String e (sg +:+ d0), t0) end) = Some (d, t +:+ rest)) as Hx.
  { intros sg r. destruct (take_digits r) as [u v] eqn:E. rewrite (take_digits_app _ _ _ _ Hd E). destruct u; [done|]. by intros [= <- <-]. }
  assert (forall sg r, match take_digits r with (EmptyString, _) => None | (d, t) => Some (String e (sg +:+ d), t) end = Some (d, t) ->
    match take_digits (r +:+ rest) with (EmptyString, _) => None | (d, t) => Some (String e (sg +:+ d), t) end = Some (d, t +:+ rest)) as Hy.
  { intros sg r Hr. specialize (Hx sg r). destruct (take_digits r) as [[|] ?], (take_digits (r +:+ rest)) as [[|] ?]; by apply Hx. }
  destruct s as [|c s].
  - intros H. cbn in H. done.
  - rewrite app_cons_s. destruct (ascii_dec c "+") as [-> |H1]; [apply Hy|]. destruct (ascii_dec c "-") as [-> |H2]; [apply Hy|].
    specialize (Hy "" (String c s)). rewrite app_cons_s in Hy.
    destruct c as [[] [] [] [] [] [] [] []]; try done; exact Hy.
Qed.
Lemma num_exp_app s rest d t : delim rest = true -> num_exp s = Some (d, t) -> num_exp (s +:+ rest) = Some (d, t +:+ rest).
Proof.
  intros Hd. unfold num_exp. destruct s as [|c s].
  - intros [= <- <-]. rewrite !app_nil_l_s. destruct (delim_cases _ Hd) as [-> |(c & r & -> & [-> |[-> | ->]])]; done.
  - rewrite app_cons_s. destruct (ascii_dec c "e") as [-> |H1]; [by apply num_expo_app|]. destruct (ascii_dec c "E") as [-> |H2]; [by apply num_expo_app|].
    destruct c as [[] [] [] [] [] [] [] []]; try done; by intros [= <- <-].
Qed.
Lemma parse_num_app s rest d t : delim rest = true -> parse_num s = Some (d, t) -> parse_num (s +:+ rest) = Some (d, t +:+ rest).
Proof.
  intros Hd. rewrite !parse_num_unfold.
  assert (match s +:+ rest with String "-" r => ("-", r) | _ => ("", s +:+ rest) end =
          let '(a, b) := match s with String "-" r => ("-", r) | _ => ("", s) end in (a, b +:+ rest)) as ->.
  { destruct s as [|c s].
    - rewrite app_nil_l_s. destruct (delim_cases _ Hd) as [-> |(c & r & -> & [-> |[-> | ->]])]; done.
    - rewrite app_cons_s. destruct c as [[] [] [] [] [] [] [] []]; done. }
  destruct (match s with String "-" r => ("-", r) | _ => ("", s) end) as [sign s0].
  destruct (num_int s0) as [ip u] eqn:E. rewrite (num_int_app _ _ _ _ Hd E). destruct ip as [|ci ip]; [done|].
  destruct (num_frac u) as [[fp v]|] eqn:E2; [|done]. rewrite (num_frac_app _ _ _ _ Hd E2).
  destruct (num_exp v) as [[ep w]|] eqn:E3; [|done]. rewrite (num_exp_app _ _ _ _ Hd E3). by intros [= <- <-].
Qed.
Lemma take_digits_first c s d t : take_digits (String c s) = (d, t) -> d <> "" -> is_digit c = true.
Proof. cbn. destruct (is_digit c); [done|]. by intros [= <- <-]. Qed.
Lemma num_first l : num_ok l -> exists c r, l = String c r /\ ((bz c =? 45) || is_digit c) = true.
Proof.
  unfold num_ok. rewrite parse_num_unfold. destruct l as [|c r]; [done|]. exists c, r. split; [done|].
  destruct (ascii_dec c "-") as [-> |Hne]; [done|].
  assert (match String c r with String "-" r => ("-", r) | _ => ("", String c r) end = ("", String c r)) as Hm.
  { destruct c as [[] [] [] [] [] [] [] []]; done. }
  rewrite Hm in H. unfold num_int in H. cbn [take_digits] in H. destruct (is_digit c) eqn:Ed; [by rewrite orb_true_r|]. done.
Qed.

(** ** Values *)
Lemma print_first j : nums_wf j -> exists c r, print_json j = String c r /\ is_ws c = false /\ bz c <> 125 /\ bz c <> 93.
Proof.
  destruct j as [|[]|l|s|s|l|l]; cbn [print_json nums_wf]; intros Hn; try by (eexists _, _; split; [reflexivity|vm_compute; done]).
  destruct (num_first _ Hn) as (c & r & -> & Hc). exists c, r. split; [done|]. apply orb_prop in Hc as [Hc%Z.eqb_eq|Hc%is_digit_spec]; unfold is_ws; rewrite ?Hc; try done.
  split; [|lia]. destruct (Z.eqb_spec (bz c) 32), (Z.eqb_spec (bz c) 9), (Z.eqb_spec (bz c) 10), (Z.eqb_spec (bz c) 13); lia || done.
Qed.
Lemma skip_ws_first c r : is_ws c = false -> skip_ws (String c r) = String c r.
Proof. intros H. cbn. by rewrite H. Qed.
Lemma nums_wf_arr l : nums_wf (JArr l) <-> Forall nums_wf l.
Proof. cbn. induction l as [|x l IH]; [by split|]. rewrite Forall_cons, <- IH. done. Qed.
Lemma nums_wf_obj l : nums_wf (JObj l) <-> Forall (fun kv => nums_wf kv.2) l.
Proof. cbn. induction l as [|x l IH]; [by split|]. rewrite Forall_cons, <- IH. done. Qed.
Lemma texts_ok_arr l : texts_ok (JArr l) <-> Forall texts_ok l.
Proof. cbn. induction l as [|x l IH]; [by split|]. rewrite Forall_cons, <- IH. done. Qed.
Lemma texts_ok_obj l : texts_ok (JObj l) <-> Forall (fun kv => utf8_text kv.1 /\ texts_ok kv.2) l.
Proof. cbn. induction l as [|x l IH]; [by split|]. rewrite Forall_cons, <- IH. done. Qed.
Lemma jdepth_nonneg j : 0 <= jdepth j.
Proof.
  assert (forall l, 0 <= fold_right Z.max 0 l) as H by (induction l; cbn; lia).
  destruct j; cbn; try lia; match goal with |- context [fold_right Z.max 0 ?l] => pose proof (H l) end; lia.
Qed.
Lemma quote_str_app s x : quote_str s +:+ x = String (zb 34) (esc_str s +:+ dquote +:+ x).
Proof. unfold quote_str. rewrite app_assoc_s. change dquote with (s1 (zb 34)) at 1. unfold s1. rewrite app_cons_s, app_nil_l_s, app_assoc_s. done. Qed.

Section Vals.
Let reads (j : json) := forall fuel depth rest, nums_wf j -> depth + jdepth j <= max_nesting_depth -> delim rest = true ->
  (String.length (print_json j) < fuel)%nat -> parse_val fuel depth (print_json j +:+ rest) = Some (reread j, rest).

Lemma parse_elems_ok l fuel depth rest : l <> [] -> Forall reads l -> Forall nums_wf l -> depth + fold_right Z.max 0 (map jdepth l) <= max_nesting_depth ->
  (S (String.length (join_str "," (map print_json l))) < fuel)%nat ->
  parse_elems fuel depth (join_str "," (map print_json l) +:+ "]" +:+ rest) = Some (map reread l, rest).
Proof.
  revert fuel. induction l as [|x l IH]; [done|]. intros fuel _ Hr Hn Hd Hf. apply Forall_cons in Hr as [Hx Hr]. apply Forall_cons in Hn as [Hnx Hn].
  destruct fuel as [|fuel]; [lia|]. cbn [parse_elems]. cbn [map fold_right] in Hd. destruct l as [|y l].
  - cbn [map join_str] in *. rewrite Hx; [|done|cbn in Hd; lia|done|lia]. done.
  - change (join_str "," (map print_json (x :: y :: l))) with (print_json x +:+ "," +:+ join_str "," (map print_json (y :: l))) in *.
    rewrite !app_len_s in Hf. cbn in Hf. rewrite !app_assoc_s.
    rewrite Hx; [|done|lia|done|lia].
    change (skip_ws ("," +:+ join_str "," (map print_json (y :: l)) +:+ "]" +:+ rest)) with ("," +:+ join_str "," (map print_json (y :: l)) +:+ "]" +:+ rest).
    change ("," +:+ join_str "," (map print_json (y :: l)) +:+ "]" +:+ rest) with (String "," (join_str "," (map print_json (y :: l)) +:+ "]" +:+ rest)).
    change (bz "," =? 44) with true. cbv iota. rewrite IH; [done|done|done|done|lia|]. cbn in *. lia.
Qed.
Definition print_member (kv : string * json) : string := quote_str kv.1 +:+ ":" +:+ print_json kv.2.
Lemma print_member_len kv : (String.length (print_member kv) = String.length (quote_str kv.1) + 1 + String.length (print_json kv.2))%nat.
Proof. unfold print_member. rewrite !app_len_s. cbn. lia. Qed.
Lemma parse_members_ok l fuel depth rest : l <> [] -> Forall (fun kv => reads kv.2) l -> Forall (fun kv => nums_wf kv.2) l ->
  depth + fold_right Z.max 0 (map (fun kv => jdepth kv.2) l) <= max_nesting_depth ->
  (S (String.length (join_str "," (map print_member l))) < fuel)%nat ->
  parse_members fuel depth (join_str "," (map print_member l) +:+ "}" +:+ rest) = Some (map (fun kv => (utf8_sanitize kv.1, reread kv.2)) l, rest).
Proof.
  revert fuel. induction l as [|[k x] l IH]; [done|]. intros fuel _ Hr Hn Hd Hf. apply Forall_cons in Hr as [Hx Hr]. apply Forall_cons in Hn as [Hnx Hn]. cbn in Hx, Hnx.
  destruct fuel as [|fuel]; [lia|]. cbn [map fold_right] in Hd.
  assert (forall y, parse_members (S fuel) depth (print_member (k, x) +:+ y) =
    match parse_val fuel depth (print_json x +:+ y) with
    | Some (v, r3) =>
        match skip_ws r3 with
        | String c r4 =>
            if bz c =? 44 then match parse_members fuel depth r4 with Some (l, t) => Some ((utf8_sanitize k, v) :: l, t) | None => None end
            else if bz c =? 125 then Some ([(utf8_sanitize k, v)], r4) else None
        | EmptyString => None
        end
    | None => None
    end) as Hstep.
  { intros y. cbn [parse_members]. unfold print_member. cbn [fst snd]. rewrite app_assoc_s, quote_str_app.
    rewrite skip_ws_first by done. change (bz (zb 34) =? 34) with true. cbv iota. rewrite parse_esc_str.
    rewrite app_assoc_s. change (":" +:+ print_json x +:+ y) with (String ":" (print_json x +:+ y)). rewrite skip_ws_first by done. change (bz ":" =? 58) with true. done. }
  pose proof (print_member_len (k, x)) as Hlen. cbn [snd] in Hlen. destruct l as [|y l].
  - cbn [map join_str] in *. rewrite Hstep. rewrite Hx; [|done|cbn in Hd; lia|done|lia]. done.
  - change (join_str "," (map print_member ((k, x) :: y :: l))) with (print_member (k, x) +:+ "," +:+ join_str "," (map print_member (y :: l))) in *.
    rewrite !app_len_s in Hf. cbn [String.length] in Hf. rewrite !app_assoc_s. rewrite Hstep.
    rewrite Hx; [|done|cbn [snd] in Hd; lia|done|lia].
    change ("," +:+ join_str "," (map print_member (y :: l)) +:+ "}" +:+ rest) with (String "," (join_str "," (map print_member (y :: l)) +:+ "}" +:+ rest)).
    rewrite skip_ws_first by done. change (bz "," =? 44) with true. cbv iota. rewrite IH; [done|done|done|done|cbn [snd] in Hd; lia|]. lia.
Qed.
Lemma parse_print j : reads j.
Proof.
  induction j as [|b|n|s|s|l IH|l IH] using json_ind; intros fuel depth rest Hn Hd Hr Hf; (destruct fuel as [|fuel]; [lia|]).
  - done.
  - by destruct b.
  - cbn in Hn. pose proof (num_first _ Hn) as (c & r & He & Hc). cbn [print_json reread].
    assert (exists r', n +:+ rest = String c r') as [r' Hr'] by (rewrite He; eauto).
    assert (parse_num (String c r') = Some (n, rest)) as Hp by (rewrite <- Hr'; rewrite (parse_num_app _ _ _ _ Hr Hn); done).
    rewrite Hr'. cbn [parse_val]. assert (is_ws c = false /\ bz c <> 123 /\ bz c <> 91 /\ bz c <> 34) as (Hw & H1 & H2 & H3).
    { unfold is_ws. apply orb_prop in Hc as [Hc%Z.eqb_eq|Hc%is_digit_spec]; [by rewrite Hc|]. split; [|lia]. destruct (Z.eqb_spec (bz c) 32), (Z.eqb_spec (bz c) 9), (Z.eqb_spec (bz c) 10), (Z.eqb_spec (bz c) 13); lia || done. }
    rewrite skip_ws_first by done. destruct (Z.eqb_spec (bz c) 123); [done|]. destruct (Z.eqb_spec (bz c) 91); [done|]. destruct (Z.eqb_spec (bz c) 34); [done|].
    rewrite Hc, Hp. done.
  - cbn [print_json reread]. rewrite quote_str_app. cbn [parse_val]. rewrite skip_ws_first by done. cbn [bz zb]. change (bz (zb 34) =? 123) with false. change (bz (zb 34) =? 91) with false. change (bz (zb 34) =? 34) with true. cbv iota.
    rewrite parse_esc_str. unfold reread_str. by destruct (escaped s).
  - cbn [print_json reread]. rewrite quote_str_app. cbn [parse_val]. rewrite skip_ws_first by done. cbn [bz zb]. change (bz (zb 34) =? 123) with false. change (bz (zb 34) =? 91) with false. change (bz (zb 34) =? 34) with true. cbv iota.
    rewrite parse_esc_str. unfold reread_str. by destruct (escaped s).
  - apply nums_wf_arr in Hn. cbn [print_json reread jdepth] in *. rewrite !app_len_s in Hf. cbn [String.length] in Hf. rewrite !app_assoc_s.
    change ("[" +:+ join_str "," (map print_json l) +:+ "]" +:+ rest) with (String "[" (join_str "," (map print_json l) +:+ "]" +:+ rest)).
    cbn [parse_val]. rewrite skip_ws_first by done. change (bz "[" =? 123) with false. change (bz "[" =? 91) with true. cbv iota.
    assert (0 <= fold_right Z.max 0 (map jdepth l)) by (clear; induction l; cbn; lia).
    destruct (Z.leb_spec max_nesting_depth depth); [lia|]. destruct l as [|x l]; [done|].
    assert (exists c r, join_str "," (map print_json (x :: l)) +:+ "]" +:+ rest = String c r /\ is_ws c = false /\ bz c <> 93) as (c & r & He & Hw & Hc).
    { apply Forall_cons in Hn as [Hx _]. destruct (print_first x Hx) as (c & r & E & Hw & _ & Hc). destruct l; cbn [map join_str]; rewrite E, !app_cons_s; eauto. }
    rewrite He, skip_ws_first by done. destruct (Z.eqb_spec (bz c) 93); [done|]. rewrite <- He.
    rewrite parse_elems_ok; [done|done|done|done|lia|lia].
  - apply nums_wf_obj in Hn. cbn [print_json reread jdepth] in *. fold print_member in Hf. rewrite !app_len_s in Hf. cbn [String.length] in Hf. rewrite !app_assoc_s.
    change (map (fun kv : string * json => quote_str kv.1 +:+ ":" +:+ print_json kv.2) l) with (map print_member l) in *.
    change ("{" +:+ join_str "," (map print_member l) +:+ "}" +:+ rest) with (String "{" (join_str "," (map print_member l) +:+ "}" +:+ rest)).
    cbn [parse_val]. rewrite skip_ws_first by done. change (bz "{" =? 123) with true. cbv iota.
    assert (0 <= fold_right Z.max 0 (map (fun kv : string * json => jdepth kv.2) l)) by (clear; induction l; cbn; lia).
    destruct (Z.leb_spec max_nesting_depth depth); [lia|]. destruct l as [|x l]; [done|].
    assert (exists r, join_str "," (map print_member (x :: l)) +:+ "}" +:+ rest = String (zb 34) r) as (r & He).
    { destruct l; cbn [map join_str]; unfold print_member at 1; rewrite ?app_assoc_s, quote_str_app; eauto. }
    rewrite He, skip_ws_first by done. change (bz (zb 34) =? 125) with false. cbv iota. rewrite <- He.
    rewrite parse_members_ok; [done|done|done|done|lia|lia].
Qed.
End Vals.

(** the printed text of a tree is parsed as the tree with the marks of [reread] *)
Lemma parse_json_print j : nums_wf j -> jdepth j <= max_nesting_depth -> parse_json (print_json j) = Some (reread j).
Proof.
  intros Hn Hd. unfold parse_json. pose proof (parse_print j (S (2 * String.length (print_json j))) 0 "" Hn) as H. rewrite app_nil_s in H. rewrite H; [done|lia|done|lia].
Qed.
