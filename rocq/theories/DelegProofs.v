(** * Delegated paths, hash prefixes and succinct roles *)
From stdpp Require Import base gmap strings list.
From Coq Require Import ZArith Lia Ascii String.
From Verif Require Import GoBase GoStr Json Types Marshal Keys Glob Metadata StrProofs SpecUtf8 Utf8Proofs SpecDeleg GlobProofs.
Open Scope Z_scope.
Local Ltac sapp := rewrite ?app_cons_s, ?app_nil_l_s.

(** ** Segments *)
Lemma split_on_noslash s : Forall no_slash (split_on "/" s).
Proof.
  induction s as [|c s IH]; cbn [split_on]; [by repeat constructor|].
  destruct (Ascii.eqb_spec c "/"); [constructor; [constructor|done]|].
  destruct (split_on "/" s) as [|x l]; [by repeat constructor|]. inversion IH; subst. constructor; [by constructor|done].
Qed.
Lemma split_on_nonnil sep s : split_on sep s <> [].
Proof. destruct s; cbn; [done|]. repeat case_match; done. Qed.
Lemma split_on_one x : no_slash x -> split_on "/" x = [x].
Proof.
  induction x as [|c x IH]; intros H; [done|]. inversion H; subst. cbn [split_on].
  destruct (Ascii.eqb_spec c "/"); [done|]. by rewrite IH.
Qed.
Lemma split_on_app x r : no_slash x -> split_on "/" (x +:+ String "/" r) = x :: split_on "/" r.
Proof.
  induction x as [|c x IH]; intros H; [done|]. inversion H; subst. sapp. cbn [split_on].
  destruct (Ascii.eqb_spec c "/"); [done|]. by rewrite IH.
Qed.
Lemma split_on_join_inv l : l <> [] -> Forall no_slash l -> split_on "/" (join_str "/" l) = l.
Proof.
  induction l as [|x l IH]; [done|]. intros _ H. inversion H; subst. destruct l as [|y l]; [by apply split_on_one|].
  change (join_str "/" (x :: y :: l)) with (x +:+ "/" +:+ join_str "/" (y :: l)). sapp. rewrite split_on_app by done. by rewrite IH.
Qed.
Lemma segments_split path segs : segments path segs <-> segs = split_on "/" path.
Proof.
  split.
  - intros (Hn & Hs & ->). by rewrite split_on_join_inv.
  - intros ->. split; [apply split_on_nonnil|]. split; [apply split_on_noslash|]. symmetry. apply (split_on_join "/"%char).
Qed.
Lemma segs_match_spec ps ss : segs_match ps ss = true <-> Forall2 (fun p s => seg_match p s = true) ps ss.
Proof.
  revert ss. induction ps as [|p ps IH]; intros [|s ss]; cbn; split; try done; try (intros H; inversion H; done).
  - intros [H1 H2]%andb_prop. constructor; [done|]. by apply IH.
  - intros H. inversion H; subst. apply andb_true_iff. split; [done|]. by apply IH.
Qed.
Lemma seg_match_spec p s : seg_match p s = true <-> glob_match p s = Ok true.
Proof. unfold seg_match. destruct (glob_match p s) as [[]| |]; split; congruence. Qed.
Lemma path_in_pattern_sound target pattern : path_in_pattern target pattern = true -> path_matches pattern target.
Proof.
  unfold path_in_pattern. rewrite segs_match_spec. intros H. exists (split_on "/" pattern), (split_on "/" target).
  split; [by apply segments_split|]. split; [by apply segments_split|]. eapply Forall2_impl; [exact H|].
  intros p s Hps%seg_match_spec. by apply glob_match_ok.
Qed.
Lemma ascii_only_split path : ascii_only path -> Forall ascii_only (split_on "/" path).
Proof.
  induction path as [|c s IH]; intros H; cbn [split_on]; [by repeat constructor|]. inversion H; subst. specialize (IH ltac:(done)).
  destruct (Ascii.eqb_spec c "/"); [constructor; [constructor|done]|].
  destruct (split_on "/" s) as [|x l]; [by repeat constructor|]. inversion IH; subst. constructor; [by constructor|done].
Qed.
Lemma path_in_pattern_spec target pattern : ascii_only target -> path_in_pattern target pattern = true <-> path_matches pattern target.
Proof.
  intros Ha. split; [apply path_in_pattern_sound|]. intros (ps & ss & ->%segments_split & Hss & H).
  unfold path_in_pattern. rewrite segs_match_spec.
  assert (Forall ascii_only ss /\ Forall no_slash ss) as [H1 H2].
  { split; [|apply Hss]. apply segments_split in Hss as ->. by apply ascii_only_split. }
  apply segments_split in Hss as <-.
  induction H as [|p s ps ss Hps H IH]; [constructor|]. inversion H1; inversion H2; subst. constructor; [|auto].
  apply seg_match_spec. by apply glob_match_complete.
Qed.

Section Deleg.
Context {CR : Crypto}.
Lemma is_delegated_path_sound r target : slist (dr_paths r) <> [] -> is_delegated_path r target = true ->
  exists pat, pat ∈ slist (dr_paths r) /\ path_matches pat target.
Proof.
  unfold is_delegated_path. destruct (slist (dr_paths r)) as [|p ps] eqn:E; [done|]. intros _ H.
  apply existsb_exists in H as (pat & Hi & Hm). exists pat. split; [by apply elem_of_list_In|by apply path_in_pattern_sound].
Qed.
Lemma is_delegated_path_ascii r target : slist (dr_paths r) <> [] -> ascii_only target ->
  is_delegated_path r target = true <-> exists pat, pat ∈ slist (dr_paths r) /\ path_matches pat target.
Proof.
  intros Hn Ha. split; [by apply is_delegated_path_sound|]. intros (pat & Hi & Hm).
  unfold is_delegated_path. destruct (slist (dr_paths r)) as [|p ps] eqn:E; [done|].
  apply existsb_exists. exists pat. split; [by apply elem_of_list_In|]. by apply path_in_pattern_spec.
Qed.
Lemma strip_prefix_spec p s t : strip_prefix p s = Some t <-> s = p +:+ t.
Proof.
  revert s. induction p as [|c p IH]; intros s; cbn; sapp; [split; congruence|]. destruct s as [|d s]; [split; [done|intros [=]]|].
  destruct (Ascii.eqb_spec c d) as [->|Hn]; sapp; [rewrite IH; split; [by intros ->|by intros [= ->]]|]. split; [done|]. intros [= ->]. done.
Qed.
Lemma has_prefix_spec p s : has_prefix p s = true <-> exists t, s = p +:+ t.
Proof.
  unfold has_prefix. destruct (strip_prefix p s) as [t|] eqn:E.
  - apply strip_prefix_spec in E. split; eauto.
  - split; [done|]. intros [t Ht%strip_prefix_spec]. congruence.
Qed.
Lemma hash_prefix_spec r target : slist (dr_paths r) = [] ->
  is_delegated_path r target = true <-> exists h t, h ∈ slist (dr_hash_prefixes r) /\ b64url_encode (sha256 target) = h +:+ t.
Proof.
  intros E. unfold is_delegated_path. rewrite E, existsb_exists. setoid_rewrite has_prefix_spec. setoid_rewrite elem_of_list_In. naive_solver.
Qed.
Lemma b64url_length s : (3 * String.length (b64url_encode s) <= 4 * String.length s + 8)%nat.
Proof.
  assert (forall n s, String.length s <= n -> 3 * String.length (b64url_encode s) <= 4 * String.length s + 8)%nat as H.
  { clear. induction n as [|n IH]; intros s Hl; destruct s as [|a [|b [|c s]]]; cbn [b64url_encode String.length] in *; try lia.
    specialize (IH s ltac:(lia)). lia. }
  exact (H _ s (le_n _)).
Qed.
Lemma hex_prefix_never r target : slist (dr_paths r) = [] -> slist (dr_hash_prefixes r) = [hex_encode (sha256 target)] ->
  is_delegated_path r target = false.
Proof.
  intros E H. apply not_true_is_false. rewrite hash_prefix_spec by done. rewrite H. intros (h & t & Hi & He).
  apply elem_of_list_singleton in Hi as ->. apply (f_equal String.length) in He. rewrite app_len_s, hex_encode_length, sha256_length in He.
  pose proof (b64url_length (sha256 target)) as Hb. rewrite sha256_length in Hb. lia.
Qed.

(** ** GetRolesForTarget *)
Lemma roles_fold_spec target l (m : gmap string bool) n t :
  fold_left (fun m r => if is_delegated_path r target then <[dr_name r := dr_terminating r]> m else m) l m !! n = Some t <->
  (exists l1 r l2, l = l1 ++ r :: l2 /\ dr_name r = n /\ dr_terminating r = t /\ is_delegated_path r target = true /\
     forall r', r' ∈ l2 -> dr_name r' = n -> is_delegated_path r' target = false)
  \/ ((forall r', r' ∈ l -> dr_name r' = n -> is_delegated_path r' target = false) /\ m !! n = Some t).
Proof.
  revert m. induction l as [|x l IH] using rev_ind; intros m.
  - cbn. split; [intros H; right; split; [|done]; intros r' Hr; by apply elem_of_nil in Hr|]. intros [(l1 & r & l2 & He & _)|[_ H]]; [by destruct l1|done].
  - rewrite fold_left_app. cbn [fold_left]. destruct (is_delegated_path x target) eqn:E.
    + destruct (decide (dr_name x = n)) as [<-|Hn].
      * rewrite lookup_insert. split.
        -- intros [= <-]. left. exists l, x, []. split; [done|]. split; [done|]. split; [done|]. split; [done|]. intros r' Hr. by apply elem_of_nil in Hr.
        -- intros [(l1 & r & l2 & He & Hnm & Ht & Hd & Hl)|[Hf _]].
           ++ destruct l2 as [|y l2 _] using rev_ind.
              ** apply app_inj_tail in He as [_ ->]. by rewrite Ht.
              ** rewrite app_comm_cons, app_assoc in He. apply app_inj_tail in He as [_ ->]. rewrite Hl in E; [done|set_solver|done].
           ++ rewrite Hf in E; [done|set_solver|done].
      * rewrite lookup_insert_ne by done. rewrite IH. split.
        -- intros [(l1 & r & l2 & -> & Hnm & Ht & Hd & Hl)|[Hf Hm]].
           ++ left. exists l1, r, (l2 ++ [x]). split; [by rewrite <- app_assoc|]. split; [done|]. split; [done|]. split; [done|].
              intros r' [Hr|Hr%elem_of_list_singleton]%elem_of_app; [by apply Hl|]. subst. done.
           ++ right. split; [|done]. intros r' [Hr|Hr%elem_of_list_singleton]%elem_of_app; [by apply Hf|]. subst. done.
        -- intros [(l1 & r & l2 & He & Hnm & Ht & Hd & Hl)|[Hf Hm]].
           ++ left. destruct l2 as [|y l2 _] using rev_ind.
              ** apply app_inj_tail in He as [_ ->]. done.
              ** rewrite app_comm_cons, app_assoc in He. apply app_inj_tail in He as [-> ->]. exists l1, r, l2. split; [done|]. split; [done|]. split; [done|]. split; [done|].
                 intros r' Hr. apply Hl. set_solver.
           ++ right. split; [|done]. intros r' Hr. apply Hf. set_solver.
    + rewrite IH. split.
      * intros [(l1 & r & l2 & -> & Hnm & Ht & Hd & Hl)|[Hf Hm]].
        -- left. exists l1, r, (l2 ++ [x]). split; [by rewrite <- app_assoc|]. split; [done|]. split; [done|]. split; [done|].
           intros r' [Hr|Hr%elem_of_list_singleton]%elem_of_app; [by apply Hl|]. by subst.
        -- right. split; [|done]. intros r' [Hr|Hr%elem_of_list_singleton]%elem_of_app; [by apply Hf|]. by subst.
      * intros [(l1 & r & l2 & He & Hnm & Ht & Hd & Hl)|[Hf Hm]].
        -- left. destruct l2 as [|y l2 _] using rev_ind.
           ++ apply app_inj_tail in He as [_ ->]. congruence.
           ++ rewrite app_comm_cons, app_assoc in He. apply app_inj_tail in He as [-> ->]. exists l1, r, l2. split; [done|]. split; [done|]. split; [done|]. split; [done|].
              intros r' Hr. apply Hl. set_solver.
        -- right. split; [|done]. intros r' Hr. apply Hf. set_solver.
Qed.
Lemma roles_for_target_spec d l target : d_roles d = Some l ->
  exists m, roles_for_target d target = Ok m /\ forall n t,
    m !! n = Some t <-> exists l1 r l2, l = l1 ++ r :: l2 /\ dr_name r = n /\ dr_terminating r = t /\ is_delegated_path r target = true /\
      forall r', r' ∈ l2 -> dr_name r' = n -> is_delegated_path r' target = false.
Proof.
  intros E. unfold roles_for_target. rewrite E. eexists. split; [reflexivity|]. intros n t. rewrite roles_fold_spec. split; [|eauto].
  intros [H|[_ H]]; [done|]. by rewrite lookup_empty in H.
Qed.
Lemma last_match {A} (P : A -> bool) (l : list A) x : x ∈ l -> P x = true -> exists l1 r l2, l = l1 ++ r :: l2 /\ P r = true /\ forall r', r' ∈ l2 -> P r' = false.
Proof.
  intros Hi Hp. induction l as [|y l IH] using rev_ind; [by apply elem_of_nil in Hi|].
  destruct (P y) eqn:E.
  - exists l, y, []. split; [done|]. split; [done|]. intros r' H. by apply elem_of_nil in H.
  - apply elem_of_app in Hi as [Hi|Hi%elem_of_list_singleton]; [|congruence].
    destruct (IH Hi) as (l1 & r & l2 & -> & Hr & Hf). exists l1, r, (l2 ++ [y]). split; [by rewrite <- app_assoc|]. split; [done|].
    intros r' [H|H%elem_of_list_singleton]%elem_of_app; [auto|by subst].
Qed.
Lemma roles_for_target_names d l target : d_roles d = Some l ->
  exists m, roles_for_target d target = Ok m /\
    (forall n, (exists t, m !! n = Some t) <-> exists r, r ∈ l /\ dr_name r = n /\ is_delegated_path r target = true) /\
    (forall n t, m !! n = Some t -> exists r, r ∈ l /\ dr_name r = n /\ is_delegated_path r target = true /\ dr_terminating r = t).
Proof.
  intros E. destruct (roles_for_target_spec d l target E) as (m & Hm & Hs). exists m. split; [done|].
  assert (forall n t, m !! n = Some t -> exists r, r ∈ l /\ dr_name r = n /\ is_delegated_path r target = true /\ dr_terminating r = t) as Hx.
  { intros n t (l1 & r & l2 & -> & Hn & Ht & Hd & _)%Hs. exists r. split; [set_solver|done]. }
  split; [|done]. intros n. split; [naive_solver|]. intros (r & Hr & Hn & Hd).
  destruct (last_match (fun r => String.eqb (dr_name r) n && is_delegated_path r target) l r Hr) as (l1 & q & l2 & -> & Hq & Hf).
  { rewrite Hd, andb_true_r. by apply String.eqb_eq. }
  apply andb_prop in Hq as [Hq%String.eqb_eq Hqd]. exists (dr_terminating q). apply Hs. exists l1, q, l2. split; [done|]. split; [done|]. split; [done|]. split; [done|].
  intros r' Hr' Hn'. specialize (Hf r' Hr'). rewrite Hn', String.eqb_refl in Hf. done.
Qed.

(** ** Numbers *)
Lemma get_length n s c : String.get n s = Some c -> (n < String.length s)%nat.
Proof. revert n. induction s as [|d s IH]; intros [|n] H; cbn in *; try done; [lia|]. apply IH in H. lia. Qed.
Lemma hexval_any c d : hexval c = Some d <-> any_hex c d.
Proof.
  split.
  - intros H. destruct c as [[] [] [] [] [] [] [] []]; vm_compute in H; try discriminate H; injection H as <-;
      ((left; split; [lia|reflexivity]) || (right; split; [lia|reflexivity])).
  - intros [[H0 H]|[H0 H]]; pose proof (get_length _ _ _ H) as Hl; cbn in Hl;
      (assert (exists n, d = Z.of_nat n /\ (n < 16)%nat) as (n & -> & Hn) by (exists (Z.to_nat d); lia)); rewrite Nat2Z.id in H; clear H0 Hl;
      do 16 (destruct n as [|n]; [injection H as <-; reflexivity|]); lia.
Qed.
Lemma lower_hexdig d : 0 <= d < 16 -> lower_hex (hexdig d) d.
Proof.
  intros H. split; [lia|]. assert (exists n, d = Z.of_nat n /\ (n < 16)%nat) as (n & -> & Hn) by (exists (Z.to_nat d); lia). rewrite Nat2Z.id. clear H.
  do 16 (destruct n as [|n]; [reflexivity|]). lia.
Qed.
Lemma lower_hex_inv c d : lower_hex c d -> c = hexdig d /\ 0 <= d < 16.
Proof.
  intros [H0 H]. pose proof (get_length _ _ _ H) as Hl. cbn in Hl. split; [|lia].
  destruct (lower_hexdig d) as [_ Hx]; [lia|]. congruence.
Qed.
Lemma parse_acc_app b s t acc : parse_digits_acc b (s +:+ t) acc = match parse_digits_acc b s acc with Some v => parse_digits_acc b t v | None => None end.
Proof. revert acc. induction s as [|c s IH]; intros acc; [done|]. sapp. cbn [parse_digits_acc]. destruct (hexval c) as [d|]; [|done]. destruct (d <? b); [apply IH|done]. Qed.
Lemma string_snoc s : s = "" \/ exists t c, s = t +:+ s1 c.
Proof.
  induction s as [|c s IH]; [auto|]. right. destruct IH as [->|(t & d & ->)]; [by exists "", c|]. by exists (String c t), d.
Qed.
Lemma parse_nat_positional s v : parse_nat_base 16 s = Some v <-> positional 16 any_hex s v.
Proof.
  assert (forall s, parse_nat_base 16 s = Some v -> s <> "" /\ parse_digits_acc 16 s 0 = Some v) as Hp by (intros []; done).
  assert (forall s, s <> "" -> parse_nat_base 16 s = parse_digits_acc 16 s 0) as Hq by (intros []; done).
  split.
  - intros H. destruct (Hp _ H) as [Hn Hv]. clear Hp H. remember (String.length s) as n eqn:Hl. revert s v Hl Hn Hv.
    induction n as [|n IH]; intros s v Hl Hn Hv; [by destruct s|].
    destruct (string_snoc s) as [->|(t & c & ->)]; [done|]. rewrite parse_acc_app in Hv.
    destruct (parse_digits_acc 16 t 0) as [q|] eqn:E; [|done]. cbn in Hv. destruct (hexval c) as [d|] eqn:Ec; [|done].
    destruct (d <? 16); [|done]. injection Hv as <-. apply hexval_any in Ec.
    destruct (decide (t = "")) as [->|Ht].
    + cbn in E. injection E as <-. sapp. apply pos_one. done.
    + rewrite Z.mul_comm. apply pos_snoc; [|done]. apply (IH t q); [|done|done]. rewrite app_len_s in Hl. cbn in Hl. lia.
  - intros H. assert (s <> "" /\ parse_digits_acc 16 s 0 = Some v) as [Hn Hv]; [|by rewrite Hq]. clear Hp Hq.
    induction H as [c d Hd|s n c d Hs IH Hd].
    + split; [done|]. cbn. apply hexval_any in Hd as Hx. rewrite Hx. pose proof (hexval_range _ _ Hx). destruct (Z.ltb_spec d 16); [done|lia].
    + destruct IH as [Hn Hv]. split; [by destruct s|]. rewrite parse_acc_app, Hv. cbn. apply hexval_any in Hd as Hx. rewrite Hx.
      pose proof (hexval_range _ _ Hx). destruct (Z.ltb_spec d 16); [|lia]. f_equal. lia.
Qed.
Lemma positional_any s v : positional 16 lower_hex s v -> positional 16 any_hex s v.
Proof. induction 1; constructor; try done; by left. Qed.
Lemma positional_nonempty b D s v : positional b D s v -> s <> "".
Proof. intros H. destruct H as [|s]; [done|]. by destruct s. Qed.
Lemma positional_bound s v : positional 16 lower_hex s v -> 0 <= v < 16 ^ str_len s.
Proof.
  induction 1 as [c d Hd|s n c d Hs IH Hd].
  - apply lower_hex_inv in Hd as [_ ?]. change (str_len (s1 c)) with 1. lia.
  - apply lower_hex_inv in Hd as [_ ?]. rewrite str_len_app. change (str_len (s1 c)) with 1. rewrite Z.pow_add_r by (try apply str_len_nonneg; lia). lia.
Qed.
Lemma positional_unique s t v : positional 16 lower_hex s v -> positional 16 lower_hex t v -> String.length s = String.length t -> s = t.
Proof.
  intros H. revert t. induction H as [c d Hd|s n c d Hs IH Hd]; intros t Ht Hl.
  - remember d as v eqn:Ev. destruct Ht as [c' d' Hd'|t n' c' d' Ht Hd'].
    + subst. apply lower_hex_inv in Hd as [-> _], Hd' as [-> _]. done.
    + apply positional_nonempty in Ht. rewrite app_len_s in Hl. destruct t; [done|]. cbn in Hl. lia.
  - remember (16 * n + d) as v eqn:Ev. destruct Ht as [c' d' Hd'|t n' c' d' Ht Hd'].
    + apply positional_nonempty in Hs. rewrite app_len_s in Hl. destruct s; [done|]. cbn in Hl. lia.
    + apply lower_hex_inv in Hd as [-> Hr], Hd' as [-> Hr']. assert (n' = n /\ d' = d) as [-> ->] by lia.
      rewrite !app_len_s in Hl. cbn in Hl. rewrite (IH t Ht) by lia. done.
Qed.
Lemma positional_fun s v v' : positional 16 lower_hex s v -> positional 16 lower_hex s v' -> v = v'.
Proof. intros H%positional_any%parse_nat_positional H'%positional_any%parse_nat_positional. congruence. Qed.
Lemma positional_zero k s v : positional 16 lower_hex s v -> positional 16 lower_hex (zeros k +:+ s) v.
Proof.
  intros H. induction k as [|k IH]; [done|]. cbn [zeros]. sapp. revert IH. generalize (zeros k +:+ s). clear. intros s. induction 1 as [c d Hd|s n c d Hs IH Hd].
  - replace d with (16 * 0 + d) by lia. apply (pos_snoc 16 lower_hex "0"); [|done]. apply pos_one. by split.
  - rewrite <- app_cons_s. by constructor.
Qed.
Lemma string_of_digits_app a b : string_of_digits (a ++ b) = string_of_digits a +:+ string_of_digits b.
Proof. unfold string_of_digits. rewrite map_app. induction (map hexdig a) as [|c l IH]; [done|]. cbn. by rewrite IH. Qed.
Lemma digits_positional l : l <> [] -> Forall (fun d => 0 <= d < 16) l -> positional 16 lower_hex (string_of_digits l) (val_acc 16 0 l).
Proof.
  induction l as [|d l IH] using rev_ind; [done|]. intros _ [Hl Hd]%Forall_app. inversion Hd; subst.
  rewrite string_of_digits_app. unfold val_acc. rewrite fold_left_app. cbn [fold_left]. destruct (decide (l = [])) as [->|Hn].
  - cbn. apply pos_one. by apply lower_hexdig.
  - rewrite Z.mul_comm. apply pos_snoc; [by apply IH|]. by apply lower_hexdig.
Qed.
Lemma fmt_hex_positional n : 0 <= n -> positional 16 lower_hex (fmt_hex n) n.
Proof.
  intros Hn. unfold fmt_hex, fmt_base. destruct (Z.ltb_spec n 0); [lia|]. destruct (digits_of_val 16 n) as [Hv Hd]; [lia|done|].
  rewrite <- Hv at 2. apply digits_positional; [apply digits_of_nonnil|done].
Qed.
Lemma digits_rev_len f b n : 1 < b -> 0 < n -> b ^ (Z.of_nat (List.length (digits_rev f b n)) - 1) <= n.
Proof.
  intros Hb. revert n. induction f as [|f IH]; intros n Hn; [cbn; lia|]. rewrite digits_rev_S. destruct (Z.ltb_spec n b); [cbn; lia|].
  assert (0 < n / b) as Hq by (apply Z.div_str_pos; lia). specialize (IH _ Hq). cbn [List.length].
  destruct (digits_rev f b (n / b)) as [|d l] eqn:E; [cbn; lia|]. cbn [List.length] in *.
  replace (Z.of_nat (S (S (List.length l))) - 1) with (Z.succ (Z.of_nat (S (List.length l)) - 1)) by lia. rewrite Z.pow_succ_r by lia.
  pose proof (Z.mul_div_le n b). nia.
Qed.
Lemma string_of_digits_len l : str_len (string_of_digits l) = Z.of_nat (List.length l).
Proof. unfold string_of_digits, str_len. f_equal. induction l; cbn; auto. Qed.
Lemma fmt_hex_len n : 0 < n -> 16 ^ (str_len (fmt_hex n) - 1) <= n < 16 ^ str_len (fmt_hex n).
Proof.
  intros Hn. split; [|apply (positional_bound (fmt_hex n) n), fmt_hex_positional; lia].
  unfold fmt_hex, fmt_base. destruct (Z.ltb_spec n 0); [lia|]. rewrite string_of_digits_len. unfold digits_of. rewrite rev_length. by apply digits_rev_len.
Qed.
Lemma fmt_hex_len0 : str_len (fmt_hex 0) = 1. Proof. done. Qed.
Lemma zeros_len k : String.length (zeros k) = k.
Proof. induction k; cbn; auto. Qed.
Lemma fmt_hex_pad_spec w n : 0 <= n < 16 ^ w -> 1 <= w ->
  positional 16 lower_hex (fmt_hex_pad w n) n /\ str_len (fmt_hex_pad w n) = w.
Proof.
  intros Hn Hw. split; [apply positional_zero, fmt_hex_positional; lia|].
  unfold fmt_hex_pad. rewrite str_len_app. unfold str_len at 1. rewrite zeros_len.
  enough (str_len (fmt_hex n) <= w) by lia. destruct (Z.eq_dec n 0) as [->|]; [rewrite fmt_hex_len0; lia|].
  destruct (fmt_hex_len n) as [H1 _]; [lia|]. destruct (Z.le_gt_cases (str_len (fmt_hex n)) w); [done|]. exfalso.
  assert (16 ^ w <= 16 ^ (str_len (fmt_hex n) - 1)) by (apply Z.pow_le_mono_r; lia). lia.
Qed.

(** ** Bins *)
Lemma width_spec b : 1 <= b <= 62 -> let w := str_len (fmt_hex (2 ^ b - 1)) in 1 <= w /\ bin_digits b (Z.to_nat w).
Proof.
  intros Hb w. assert (2 ^ 1 <= 2 ^ b) by (apply Z.pow_le_mono_r; lia). destruct (fmt_hex_len (2 ^ b - 1)) as [H1 H2]; [lia|]. fold w in H1, H2.
  assert (1 <= w).
  { destruct (Z.le_gt_cases 1 w); [done|]. pose proof (str_len_nonneg (fmt_hex (2 ^ b - 1))). assert (w = 0) as Hw by (subst w; lia). rewrite Hw in H2. cbn in H2. lia. }
  split; [done|]. unfold bin_digits. rewrite Z2Nat.id by lia. lia.
Qed.
Lemma bin_digits_fun b w w' : bin_digits b w -> bin_digits b w' -> w = w'.
Proof.
  unfold bin_digits. intros [H1 H2] [H3 H4].
  destruct (Nat.lt_trichotomy w w') as [Hl|[Hl|Hl]]; [|done|]; exfalso.
  - assert (16 ^ Z.of_nat w <= 16 ^ (Z.of_nat w' - 1)) by (apply Z.pow_le_mono_r; lia). lia.
  - assert (16 ^ Z.of_nat w' <= 16 ^ (Z.of_nat w - 1)) by (apply Z.pow_le_mono_r; lia). lia.
Qed.
Lemma suffix_len_spec r : 1 <= sr_bit_length r <= 62 -> suffix_len r = (str_len (fmt_hex (2 ^ sr_bit_length r - 1)), 2 ^ sr_bit_length r).
Proof.
  intros Hb. unfold suffix_len, pow2_int. destruct (Z.ltb_spec (sr_bit_length r) 0); [lia|]. destruct (Z.leb_spec (sr_bit_length r) 62); [|lia].
  assert (1 <= 2 ^ sr_bit_length r <= 2 ^ 62) by (split; [change 1 with (2 ^ 0); apply Z.pow_le_mono_r; lia|apply Z.pow_le_mono_r; lia]).
  change (2 ^ 62) with 4611686018427387904 in *.
  assert (wrap64 (2 ^ sr_bit_length r - 1) = 2 ^ sr_bit_length r - 1) as -> by (unfold wrap64, two63, two64; rewrite Z.mod_small by lia; lia). done.
Qed.
Lemma bin_name_spec r i name : 1 <= sr_bit_length r <= 62 -> 0 <= i < 2 ^ sr_bit_length r ->
  is_bin r i name <-> name = bin_name r (str_len (fmt_hex (2 ^ sr_bit_length r - 1))) i.
Proof.
  intros Hb Hi. destruct (width_spec _ Hb) as [Hw Hd]. set (w := str_len (fmt_hex (2 ^ sr_bit_length r - 1))) in *.
  assert (0 <= i < 16 ^ w) as Hiw by (destruct Hd as [_ Hd]; rewrite Z2Nat.id in Hd by lia; lia).
  destruct (fmt_hex_pad_spec w i Hiw Hw) as [Hp Hl]. split.
  - intros (w' & suffix & Hd' & Hl' & Hp' & ->). unfold bin_name. f_equal. f_equal. apply (positional_unique _ _ i); [done|done|].
    rewrite Hl'. rewrite (bin_digits_fun _ _ _ Hd' Hd). unfold str_len in Hl. lia.
  - intros ->. exists (Z.to_nat w), (fmt_hex_pad w i). split; [done|]. split; [unfold str_len in Hl; lia|]. done.
Qed.
Lemma is_bin_fun r i i' name : is_bin r i name -> is_bin r i' name -> i = i'.
Proof.
  intros (w & s & _ & _ & Hp & ->) (w' & s' & _ & _ & Hp' & He). apply app_inj_s, app_inj_s in He as ->. by eapply positional_fun.
Qed.
Lemma is_bin_range r i name : is_bin r i name -> 0 <= i.
Proof. intros (w & s & _ & _ & Hp & _). by apply positional_bound in Hp as [? _]. Qed.
Lemma get_roles_lookup r k name : 1 <= sr_bit_length r <= 62 ->
  get_roles r !! k = Some name <-> Z.of_nat k < 2 ^ sr_bit_length r /\ is_bin r (Z.of_nat k) name.
Proof.
  intros Hb. unfold get_roles. rewrite suffix_len_spec by done. change (map ?f ?l) with (f <$> l). rewrite list_lookup_fmap.
  destruct (Z.lt_ge_cases (Z.of_nat k) (2 ^ sr_bit_length r)) as [Hk|Hk].
  - rewrite lookup_seqZ_lt by lia. cbn. rewrite bin_name_spec by lia. rewrite Z.add_0_l. split; [intros [= <-]; done|intros [_ ->]; done].
  - rewrite lookup_seqZ_ge by lia. cbn. split; [done|lia].
Qed.
Lemma get_roles_member r name : 1 <= sr_bit_length r <= 62 ->
  name ∈ get_roles r <-> exists i, 0 <= i < 2 ^ sr_bit_length r /\ is_bin r i name.
Proof.
  intros Hb. rewrite elem_of_list_lookup. setoid_rewrite get_roles_lookup; [|done]. split.
  - intros (k & Hk & H). exists (Z.of_nat k). split; [lia|done].
  - intros (i & Hi & H). exists (Z.to_nat i). rewrite Z2Nat.id by lia. split; [lia|done].
Qed.
Lemma get_roles_nodup r : 1 <= sr_bit_length r <= 62 -> NoDup (get_roles r).
Proof.
  intros Hb. apply NoDup_alt. intros i j x Hi Hj. apply get_roles_lookup in Hi as [_ Hi], Hj as [_ Hj]; [|done..].
  apply Nat2Z.inj. by eapply (is_bin_fun r).
Qed.
Lemma get_roles_length r : 1 <= sr_bit_length r <= 62 -> Z.of_nat (List.length (get_roles r)) = 2 ^ sr_bit_length r.
Proof.
  intros Hb. unfold get_roles. rewrite suffix_len_spec by done. rewrite map_length, seqZ_length. rewrite Z2Nat.id; [done|]. apply Z.pow_nonneg. lia.
Qed.
Lemma is_delegated_role_spec r name : 1 <= sr_bit_length r <= 62 ->
  is_delegated_role r name = true <->
  exists w suffix sign digits v, bin_digits (sr_bit_length r) w /\ name = sr_name_prefix r +:+ "-" +:+ suffix /\ String.length suffix = w /\
    suffix = sign +:+ digits /\ positional 16 any_hex digits v /\
    ((sign = "" \/ sign = "+") /\ v < 2 ^ sr_bit_length r \/ sign = "-" /\ v = 0).
Proof.
  intros Hb. destruct (width_spec _ Hb) as [Hw Hd]. unfold is_delegated_role. rewrite suffix_len_spec by done.
  set (w := str_len (fmt_hex (2 ^ sr_bit_length r - 1))) in *.
  assert (2 ^ sr_bit_length r <= 2 ^ 62) as H62 by (apply Z.pow_le_mono_r; lia). change (2 ^ 62) with 4611686018427387904 in H62.
  assert (forall s v, positional 16 any_hex s v -> 0 <= v) as Hpos.
  { induction 1 as [c d Hx|s n c d Hs IH Hx]; apply hexval_any, hexval_range in Hx; lia. }
  assert (forall s v, parse_int 16 s = Some v /\ 0 <= v < 2 ^ sr_bit_length r <-> exists sign digits n, s = sign +:+ digits /\ positional 16 any_hex digits n /\
    ((sign = "" \/ sign = "+") /\ n < 2 ^ sr_bit_length r /\ v = n \/ sign = "-" /\ n = 0 /\ v = 0)) as Hint.
  { intros s v. split.
    - intros [H Hv]. unfold parse_int in H.
      destruct s as [|c s]; [done|]. destruct (Ascii.eqb_spec c "+") as [->|H1].
      { destruct (parse_nat_base 16 s) as [n|] eqn:E; [|done]. destruct (in_int64 n); [|done]. injection H as ->.
        apply parse_nat_positional in E. exists "+", s, v. split; [done|]. split; [done|]. left. auto with lia. }
      destruct (Ascii.eqb_spec c "-") as [->|H2].
      { destruct (parse_nat_base 16 s) as [n|] eqn:E; [|done]. cbn [option_map] in H. destruct (in_int64 (- n)); [|done]. injection H as <-.
        apply parse_nat_positional in E. pose proof (Hpos _ _ E). exists "-", s, n. split; [done|]. split; [done|]. right. split; [done|]. lia. }
      assert (parse_nat_base 16 (String c s) = Some v) as E.
      { destruct (parse_nat_base 16 (String c s)) as [n|] eqn:E.
        - rewrite (parse_int_nat 16 (String c s) n) in H || idtac.
          destruct c as [[] [] [] [] [] [] [] []]; cbn beta iota in H; try (destruct (in_int64 n); congruence); by exfalso.
        - exfalso. destruct c as [[] [] [] [] [] [] [] []]; cbn beta iota in H; try done; by apply H1 || by apply H2. }
      apply parse_nat_positional in E. exists "", (String c s), v. split; [done|]. split; [done|]. left. auto with lia.
    - intros (sign & digits & n & -> & Hp & Hs). pose proof (Hpos _ _ Hp) as Hn. apply parse_nat_positional in Hp.
      destruct Hs as [[[->| ->] [Hv ->]]|(-> & -> & ->)]; sapp.
      + split; [|lia]. apply parse_int_nat; [lia|done|]. unfold in_int64, two63. apply andb_true_iff. rewrite Z.leb_le, Z.ltb_lt. lia.
      + split; [|lia]. unfold parse_int. rewrite Hp. unfold in_int64, two63. replace (_ && _) with true; [done|]. symmetry. apply andb_true_iff. rewrite Z.leb_le, Z.ltb_lt. lia.
      + split; [|lia]. unfold parse_int. by rewrite Hp. }
  split.
  - destruct (strip_prefix _ name) as [suffix|] eqn:E; [|done]. apply strip_prefix_spec in E. rewrite app_assoc_s in E.
    destruct (Z.eqb_spec (str_len suffix) w) as [Hl|]; [|done]. destruct (parse_int 16 suffix) as [v|] eqn:Ep; [|done].
    intros [Hv1%Z.leb_le Hv2%Z.ltb_lt]%andb_prop. destruct (proj1 (Hint suffix v)) as (sign & digits & n & Hsx & Hp & Hs); [split; [done|lia]|].
    exists (Z.to_nat w), suffix, sign, digits, n. split; [done|]. split; [done|]. split; [unfold str_len in Hl; lia|]. split; [done|]. split; [done|]. naive_solver.
  - intros (w' & suffix & sign & digits & v & Hd' & -> & Hl & Hsx & Hp & Hs).
    replace (strip_prefix (sr_name_prefix r +:+ "-") (sr_name_prefix r +:+ "-" +:+ suffix)) with (Some suffix).
    2:{ symmetry. apply strip_prefix_spec. by rewrite app_assoc_s. }
    pose proof (bin_digits_fun _ _ _ Hd' Hd) as ->. assert (str_len suffix = w) as -> by (unfold str_len; lia). rewrite Z.eqb_refl.
    destruct (proj2 (Hint suffix (if String.eqb sign "-" then 0 else v))) as [-> Hv].
    { exists sign, digits, v. split; [done|]. split; [done|]. destruct Hs as [[[->| ->] ?]|[-> ?]]; cbn; naive_solver. }
    apply andb_true_iff. rewrite Z.leb_le, Z.ltb_lt. done.
Qed.
Lemma is_bin_accepted r i name : 1 <= sr_bit_length r <= 62 -> i < 2 ^ sr_bit_length r -> is_bin r i name -> is_delegated_role r name = true.
Proof.
  intros Hb Hi (w & s & Hd & Hl & Hp & ->). apply is_delegated_role_spec; [done|]. exists w, s, "", s, i.
  split; [done|]. split; [done|]. split; [done|]. split; [done|]. split; [by apply positional_any|]. auto.
Qed.
Lemma be32_spec s n : first_32_bits s n -> be32 s = n /\ 0 <= n < 2 ^ 32.
Proof.
  intros (a & b & c & d & rest & -> & ->). cbn [be32]. pose proof (bz_range a). pose proof (bz_range b). pose proof (bz_range c). pose proof (bz_range d).
  change (2 ^ 24) with 16777216. change (2 ^ 16) with 65536. change (2 ^ 8) with 256. change (2 ^ 32) with 4294967296. lia.
Qed.
Lemma sha_32_bits data : exists n, first_32_bits (sha256 data) n.
Proof.
  pose proof (sha256_length data) as H. destruct (sha256 data) as [|a [|b [|c [|d rest]]]]; try (cbn in H; lia). unfold first_32_bits. eexists. by eexists a, b, c, d, rest.
Qed.
Lemma succinct_roles_for_spec r target : 1 <= sr_bit_length r <= 32 ->
  exists n i name, first_32_bits (sha256 target) n /\ leftmost_bits (sr_bit_length r) n i /\ 0 <= i < 2 ^ sr_bit_length r /\
    is_bin r i name /\ succinct_roles_for r target = Ok {[name := true]}.
Proof.
  intros Hb. destruct (sha_32_bits target) as [n Hn]. destruct (be32_spec _ _ Hn) as [He Hr]. set (b := sr_bit_length r) in *.
  assert (wrap64 (32 - b) = 32 - b) as Hsh by (unfold wrap64, two63, two64; rewrite Z.mod_small by lia; lia).
  exists n, (n / 2 ^ (32 - b)). assert (0 < 2 ^ (32 - b)) by (apply Z.pow_pos_nonneg; lia).
  assert (2 ^ 32 = 2 ^ (32 - b) * 2 ^ b) as H32 by (rewrite <- Z.pow_add_r by lia; f_equal; lia).
  assert (0 <= n / 2 ^ (32 - b) < 2 ^ b) as Hi.
  { split; [apply Z.div_pos; lia|]. apply Z.div_lt_upper_bound; lia. }
  eexists. split; [done|]. split.
  { unfold leftmost_bits. pose proof (Z.mul_div_le n (2 ^ (32 - b))). pose proof (Z.mul_succ_div_gt n (2 ^ (32 - b))). lia. }
  split; [done|]. split; [apply (bin_name_spec r); [lia|done|reflexivity]|].
  unfold succinct_roles_for. fold b. rewrite Hsh. destruct (Z.ltb_spec (32 - b) 0); [lia|]. destruct (Z.ltb_spec b 0); [lia|]. destruct (Z.leb_spec 32 (32 - b)); [lia|]. by rewrite He.
Qed.
Lemma succinct_panics r target : - 2 ^ 63 <= sr_bit_length r < 2 ^ 63 ->
  succinct_roles_for r target = Panic <-> 32 < sr_bit_length r \/ sr_bit_length r <= 32 - 2 ^ 63.
Proof.
  intros Hb. unfold succinct_roles_for. set (b := sr_bit_length r) in *. change (2 ^ 63) with 9223372036854775808 in *.
  assert (wrap64 (32 - b) < 0 <-> 32 < b \/ b <= 32 - 9223372036854775808) as Hw.
  { unfold wrap64, two63, two64. pose proof (Z.div_mod (32 - b + 9223372036854775808) 18446744073709551616 ltac:(lia)).
    pose proof (Z.mod_pos_bound (32 - b + 9223372036854775808) 18446744073709551616 ltac:(lia)). lia. }
  rewrite <- Hw. destruct (Z.ltb_spec (wrap64 (32 - b)) 0); split; try done; lia.
Qed.
End Deleg.

(** ** Lemmas used by PropertiesDeleg.v *)
Section Deleg2.
Context {CR : Crypto}.
Lemma multibyte_refuted : exists r : delegatedrole, slist (dr_paths r) = ["*??"] /\ is_char 8364 "€" /\ is_delegated_path r "€" = true.
Proof.
  exists (mkDelegatedRole "d" None 1 false None (Some ["*??"]) None). split; [done|]. split; [|by vm_compute].
  apply (char3 2 2 44); lia.
Qed.
Lemma path_matches_depth pattern path ps ss : path_matches pattern path -> segments pattern ps -> segments path ss -> List.length ps = List.length ss.
Proof.
  intros (ps' & ss' & H1 & H2 & H) H3 H4. apply segments_split in H1, H2, H3, H4. subst. by apply Forall2_length in H.
Qed.
Lemma hex_prefix_refuted target : exists r : delegatedrole,
  slist (dr_paths r) = [] /\ slist (dr_hash_prefixes r) = [hex_encode (sha256 target)] /\ is_delegated_path r target = false.
Proof.
  exists (mkDelegatedRole "d" None 1 false (Some [hex_encode (sha256 target)]) None None). split; [done|]. split; [done|]. by apply hex_prefix_never.
Qed.
Lemma prefixes_ignored r r' target : slist (dr_paths r) <> [] -> dr_paths r = dr_paths r' -> is_delegated_path r target = is_delegated_path r' target.
Proof. intros Hn He. unfold is_delegated_path. rewrite <- He. destruct (slist (dr_paths r)); done. Qed.
Lemma roles_for_target_none d target : d_roles d = None -> (d_succinct d = None -> roles_for_target d target = Ok ∅) /\
  (forall s, d_succinct d = Some s -> roles_for_target d target = succinct_roles_for s target).
Proof. intros E. unfold roles_for_target. rewrite E. split; [by intros ->|by intros s ->]. Qed.
Lemma one_bin r target : 1 <= sr_bit_length r <= 32 ->
  exists n i name, first_32_bits (sha256 target) n /\ leftmost_bits (sr_bit_length r) n i /\ is_bin r i name /\
    succinct_roles_for r target = Ok {[name := true]} /\ name ∈ get_roles r /\ is_delegated_role r name = true.
Proof.
  intros Hb. destruct (succinct_roles_for_spec r target Hb) as (n & i & name & H1 & H2 & H3 & H4 & H5). exists n, i, name.
  split; [done|]. split; [done|]. split; [done|]. split; [done|]. split.
  - apply get_roles_member; [lia|]. eauto.
  - apply (is_bin_accepted r i); [lia|lia|done].
Qed.
Lemma succinct_panic_refuted : exists (j : json) (r : succinctroles),
  succinct_unmarshal j = Ok r /\ forall target, succinct_roles_for r target = Panic.
Proof.
  pose (j := JObj [("keyids", JArr []); ("threshold", JNum "1"); ("bit_length", JNum "33"); ("name_prefix", JStr "bin")]).
  pose (r := match succinct_unmarshal j with Ok r => r | _ => mkSuccinctRoles None 0 0 "" None end).
  assert (sr_bit_length r = 33) as Hr by (vm_compute; reflexivity).
  exists j, r. split; [reflexivity|]. clearbody r. intros target. apply succinct_panics; rewrite Hr; [|left]; lia.
Qed.
End Deleg2.
Lemma all_bins r : 1 <= sr_bit_length r <= 32 ->
  NoDup (get_roles r) /\ Z.of_nat (List.length (get_roles r)) = 2 ^ sr_bit_length r /\
  forall k name, get_roles r !! k = Some name <-> Z.of_nat k < 2 ^ sr_bit_length r /\ is_bin r (Z.of_nat k) name.
Proof.
  intros Hb. split; [apply get_roles_nodup; lia|]. split; [apply get_roles_length; lia|]. intros. apply get_roles_lookup. lia.
Qed.
Lemma member_accepted r name : 1 <= sr_bit_length r <= 62 -> name ∈ get_roles r -> is_delegated_role r name = true.
Proof. intros Hb (i & Hi & H)%get_roles_member; [|done]. apply (is_bin_accepted r i); [done|lia|done]. Qed.
Lemma any_lower c d : any_hex c d -> c ∈ list_ascii_of_string "0123456789abcdef" -> lower_hex c d.
Proof.
  intros H%hexval_any Hc. cbn in Hc. rewrite !elem_of_cons in Hc.
  repeat (destruct Hc as [->|Hc]; [vm_compute in H; injection H as <-; split; [lia|reflexivity]|]). by apply elem_of_nil in Hc.
Qed.
Lemma positional_lower s v : positional 16 any_hex s v -> Forall (fun c => c ∈ list_ascii_of_string "0123456789abcdef") (list_ascii_of_string s) ->
  positional 16 lower_hex s v.
Proof.
  induction 1 as [c d Hd|s n c d Hs IH Hd]; intros H.
  - constructor. apply any_lower; [done|]. by inversion H.
  - rewrite list_ascii_app in H. apply Forall_app in H as [H1 H2]. constructor; [auto|]. apply any_lower; [done|]. by inversion H2.
Qed.
Lemma lower_case_member r suffix : 1 <= sr_bit_length r <= 62 ->
  Forall (fun c => c ∈ list_ascii_of_string "0123456789abcdef") (list_ascii_of_string suffix) ->
  is_delegated_role r (sr_name_prefix r +:+ "-" +:+ suffix) = true -> sr_name_prefix r +:+ "-" +:+ suffix ∈ get_roles r.
Proof.
  intros Hb Hl (w & sx & sign & digits & v & Hw & He & Hlen & Hsx & Hp & Hs)%is_delegated_role_spec; [|done].
  apply app_inj_s, app_inj_s in He. subst sx.
  assert (sign = "" /\ v < 2 ^ sr_bit_length r) as [-> Hv].
  { destruct Hs as [[[->| ->] ?]|[-> ?]]; [done|..]; exfalso; subst suffix; rewrite app_cons_s in Hl; cbn [list_ascii_of_string] in Hl; apply Forall_cons in Hl as [Hx _]; apply elem_of_list_In in Hx; cbn in Hx; repeat (destruct Hx as [Hx|Hx]; [discriminate Hx|]); done. }
  rewrite app_nil_l_s in Hsx. subst digits. apply get_roles_member; [done|]. exists v. apply positional_lower in Hp as Hp'; [|done]. split.
  - split; [|done]. by apply positional_bound in Hp' as [? _].
  - by exists w, suffix.
Qed.
Lemma delegated_role_refuted : exists (r : succinctroles) (name : string),
  1 <= sr_bit_length r <= 32 /\ is_delegated_role r name = true /\ ~ name ∈ get_roles r.
Proof.
  exists (mkSuccinctRoles None 1 8 "bin" None), "bin-+f". split; [cbn; lia|]. split; [by vm_compute|].
  intros H. apply (bool_decide_pack _) in H. by vm_compute in H.
Qed.
