(** * File names: filepath.Join, url.QueryEscape *)
From stdpp Require Import base gmap strings list.
From Coq Require Import ZArith Lia Ascii String.
From Verif Require Import GoBase GoStr StrProofs.
Open Scope Z_scope.

(** ** Names of files in a directory *)
Definition no_slash (s : string) : Prop := string_any (Ascii.eqb "/") s = false.
(** a name that denotes an entry of a directory *)
Definition plain_name (s : string) : Prop := s <> "" /\ s <> "." /\ s <> ".." /\ no_slash s.

Lemma string_any_app f a b : string_any f (a +:+ b) = string_any f a || string_any f b.
Proof. induction a as [|c a IH]; cbn; [done|]. rewrite app_cons_s. cbn. by rewrite IH, orb_assoc. Qed.
Lemma no_slash_app a b : no_slash (a +:+ b) <-> no_slash a /\ no_slash b.
Proof. unfold no_slash. rewrite string_any_app, orb_false_iff. done. Qed.
Lemma split_on_slash_free s : no_slash s -> split_on "/" s = [s].
Proof.
  unfold no_slash. induction s as [|c s IH]; cbn [split_on string_any]; [done|]. intros [H1 H2]%orb_false_iff. rewrite Ascii.eqb_sym, H1. by rewrite IH.
Qed.
Lemma split_on_nonnil sep s : split_on sep s <> [].
Proof. destruct s as [|c s]; cbn; [done|]. destruct (Ascii.eqb c sep); [done|]. by destruct (split_on sep s). Qed.
Lemma split_on_app d s : split_on "/" (d +:+ "/" +:+ s) = split_on "/" d ++ split_on "/" s.
Proof.
  induction d as [|c d IH]; [done|]. rewrite app_cons_s. cbn [split_on]. rewrite IH. destruct (Ascii.eqb c "/"); [done|].
  destruct (split_on "/" d) eqn:E; [by apply split_on_nonnil in E|done].
Qed.
Lemma join_str_snoc sep l s : l <> [] -> join_str sep (l ++ [s]) = join_str sep l +:+ sep +:+ s.
Proof.
  induction l as [|x l IH]; [done|]. intros _. destruct l as [|y l]; [done|]. cbn [app join_str] in *. rewrite IH by done. by rewrite !app_assoc_s.
Qed.
Lemma app_eq_nil_s a b : a +:+ b = "" -> a = "" /\ b = "".
Proof. destruct a; [done|by rewrite app_cons_s]. Qed.
(** the segments left by path.Clean are proper names or ".." *)
Lemma clean_stack rooted l st : Forall (fun x => x <> "" /\ x <> ".") st -> Forall (fun x => x <> "" /\ x <> ".") (fold_left (clean_step rooted) l st).
Proof.
  revert st; induction l as [|x l IH]; intros st Hst; cbn; [done|]. apply IH. unfold clean_step.
  destruct (String.eqb_spec x ""); [done|]. destruct (String.eqb_spec x "."); [done|]. cbn. destruct (String.eqb_spec x "..").
  - destruct st as [|top rest]; [destruct rooted; [done|by repeat constructor]|]. destruct (String.eqb top ".."); [by constructor|]. by apply Forall_cons in Hst as [_ ?].
  - by constructor.
Qed.
Lemma join_str_cases (l : list string) : Forall (fun x => x <> "" /\ x <> ".") l -> (l = [] /\ join_str "/" l = "") \/ (l <> [] /\ join_str "/" l <> "" /\ join_str "/" l <> ".").
Proof.
  destruct l as [|x l]; [by left|]. intros [[H1 H2] Hl]%Forall_cons. right. split; [done|]. destruct l as [|y l]; [done|]. cbn [join_str]. destruct x as [|c x]; [done|].
  rewrite app_cons_s. split; [done|]. intros [= -> Hx]. destruct x as [|c' x]; [done|]. by rewrite app_cons_s in Hx.
Qed.
Lemma has_prefix_app_ne p d s : d <> "" -> has_prefix (s1 p) (d +:+ s) = has_prefix (s1 p) d.
Proof. destruct d as [|c d]; [done|]. intros _. rewrite app_cons_s. unfold has_prefix, s1. cbn [strip_prefix]. by destruct (Ascii.eqb p c). Qed.

(** a plain name inside a cleaned directory *)
Definition in_dir (d n : string) : string :=
  match path_clean d with
  | "." => n
  | "/" => "/" +:+ n
  | p => p +:+ "/" +:+ n
  end.
Lemma in_dir_dot d n : path_clean d = "." -> in_dir d n = n.
Proof. unfold in_dir. by intros ->. Qed.
Lemma in_dir_slash d n : path_clean d = "/" -> in_dir d n = "/" +:+ n.
Proof. unfold in_dir. by intros ->. Qed.
Lemma in_dir_other d n : path_clean d <> "." -> path_clean d <> "/" -> in_dir d n = path_clean d +:+ "/" +:+ n.
Proof. unfold in_dir. intros H1 H2. repeat case_match; subst; done. Qed.
Lemma clean_segs rooted d n : plain_name n -> fold_left (clean_step rooted) (split_on "/" (d +:+ "/" +:+ n)) [] = n :: fold_left (clean_step rooted) (split_on "/" d) [].
Proof.
  intros (H1 & H2 & H3 & H4). rewrite split_on_app, fold_left_app, (split_on_slash_free n) by done. cbn [fold_left]. unfold clean_step at 1.
  by rewrite (proj2 (String.eqb_neq n "") H1), (proj2 (String.eqb_neq n ".") H2), (proj2 (String.eqb_neq n "..") H3).
Qed.
Lemma plain_not_rooted n : plain_name n -> has_prefix "/" n = false.
Proof. intros (_ & _ & _ & H). unfold no_slash in H. destruct n as [|c n]; [done|]. cbn [string_any] in H. apply orb_false_iff in H as [H _]. unfold has_prefix. cbn [strip_prefix]. by rewrite H. Qed.
Lemma path_clean_plain n : plain_name n -> path_clean n = n.
Proof.
  intros Hn. pose proof (plain_not_rooted n Hn) as Hr. destruct Hn as (H1 & H2 & H3 & H4). unfold path_clean. rewrite (proj2 (String.eqb_neq n "") H1), Hr, split_on_slash_free by done.
  cbn [fold_left]. unfold clean_step. rewrite (proj2 (String.eqb_neq n "") H1), (proj2 (String.eqb_neq n ".") H2), (proj2 (String.eqb_neq n "..") H3). cbn. by rewrite (proj2 (String.eqb_neq n "") H1).
Qed.
Lemma path_join_plain d n : plain_name n -> path_join [d; n] = in_dir d n.
Proof.
  intros Hn. destruct (decide (d = "")) as [->|Hd].
  - unfold path_join. rewrite filter_cons_False by (intros Hx; by apply Hx). rewrite filter_cons_True by apply Hn. rewrite filter_nil. cbn [join_str]. rewrite path_clean_plain by done. by rewrite in_dir_dot.
  - unfold path_join. rewrite !filter_cons_True by (done || apply Hn). rewrite filter_nil. cbn [join_str].
    assert (String.eqb (d +:+ "/" +:+ n) "" = false) as Hne. { apply String.eqb_neq. intros Hx. by apply app_eq_nil_s in Hx as [? _]. }
    assert (has_prefix "/" (d +:+ "/" +:+ n) = has_prefix "/" d) as Hr by (by apply (has_prefix_app_ne "/"%char)).
    unfold path_clean at 1. rewrite Hne, Hr, clean_segs by done. cbn [rev].
    pose proof (clean_stack (has_prefix "/" d) (split_on "/" d) [] ltac:(constructor)) as Hst. set (st := fold_left _ (split_on "/" d) []) in *.
    assert (Forall (fun x => x <> "" /\ x <> ".") (rev st)) as Hst' by (by apply Forall_rev).
    assert (path_clean d = if has_prefix "/" d then "/" +:+ join_str "/" (rev st) else if String.eqb (join_str "/" (rev st)) "" then "." else join_str "/" (rev st)) as Hc.
    { unfold path_clean. by rewrite (proj2 (String.eqb_neq d "") Hd). }
    destruct (join_str_cases _ Hst') as [[Hnil Hj]|(Hnn & Hj1 & Hj2)].
    + rewrite Hnil in *. cbn [app join_str] in *. destruct (has_prefix "/" d); cbn in Hc.
      * by rewrite in_dir_slash.
      * rewrite in_dir_dot by done. by rewrite (proj2 (String.eqb_neq n "") (proj1 Hn)).
    + rewrite join_str_snoc by done. set (j := join_str "/" (rev st)) in *. destruct (has_prefix "/" d).
      * rewrite in_dir_other, Hc; [by rewrite !app_cons_s, app_nil_l_s| |].
        -- rewrite Hc, app_cons_s. done.
        -- rewrite Hc, app_cons_s, app_nil_l_s. intros [= Hx]. done.
      * rewrite (proj2 (String.eqb_neq j "") Hj1) in Hc. assert (String.eqb (j +:+ "/" +:+ n) "" = false) as ->.
        { apply String.eqb_neq. intros Hx. by apply app_eq_nil_s in Hx as [? _]. }
        rewrite in_dir_other, Hc; [done|by rewrite Hc|]. rewrite Hc. intros Hx.
        (* a segment is never a slash *)
        assert (forall l, (forall x, x ∈ l -> no_slash x) -> join_str "/" l = "/" -> l = [""; ""]) as Hsl.
        { intros [|x l] Hall; [done|]. destruct l as [|y l]; cbn [join_str].
          - intros ->. by specialize (Hall "/" ltac:(left)).
          - destruct x as [|c x]; [|]. 
            + rewrite app_nil_l_s, app_cons_s, app_nil_l_s. intros [= H]. destruct l as [|z l]; cbn [join_str] in H; [by rewrite H|]. apply app_eq_nil_s in H as [_ H]. done.
            + rewrite app_cons_s. intros [= -> H]. by specialize (Hall (String "/" x) ltac:(left)). }
        apply Hsl in Hx; [|]. { rewrite Hx in Hst'. apply Forall_cons in Hst' as [[? _] _]. done. }
        intros x Hin%elem_of_list_In%in_rev%elem_of_list_In.
        clear -Hin. subst st. revert Hin.
        assert (forall l, (forall y, y ∈ split_on "/" l -> no_slash y)) as Hsp.
        { intros l. induction l as [|c l IH]; cbn; [by intros y ->%elem_of_list_singleton|]. destruct (Ascii.eqb_spec c "/") as [->|Hc].
          - intros y [->|Hy]%elem_of_cons; [done|by apply IH].
          - destruct (split_on "/" l) as [|z zs]; intros y; [intros ->%elem_of_list_singleton|intros [->|Hy]%elem_of_cons].
            + unfold no_slash, s1. cbn [string_any]. destruct (Ascii.eqb_spec "/" c); [congruence|done].
            + unfold no_slash. cbn [string_any]. destruct (Ascii.eqb_spec "/" c); [congruence|]. cbn [orb]. apply (IH z). left.
            + apply IH. by right. }
        specialize (Hsp d). revert Hsp. generalize (split_on "/" d) as l. intros l. 
        assert (forall st, (forall y, y ∈ st -> no_slash y) -> (forall y, y ∈ l -> no_slash y) -> x ∈ fold_left (clean_step false) l st -> no_slash x) as Hg; [|intros Hl; apply Hg; [by intros y ?%elem_of_nil|done]].
        induction l as [|y l IH]; intros st Hst Hl; cbn; [apply Hst|]. apply IH; [|intros z Hz; apply Hl; by right].
        unfold clean_step. destruct (String.eqb y "" || String.eqb y "."); [done|]. destruct (String.eqb_spec y "..") as [->|].
        -- destruct st as [|t st']; [by intros z ->%elem_of_list_singleton|]. destruct (String.eqb t "..").
           ++ intros z [->|Hz]%elem_of_cons; [done|by apply Hst].
           ++ intros z Hz. apply Hst. by right.
        -- intros z [->|Hz]%elem_of_cons; [apply Hl; left|by apply Hst].
Qed.

(** a common prefix can be dropped *)
Definition dir_prefix (d : string) : string := match path_clean d with "." => "" | "/" => "/" | p => p +:+ "/" end.
Lemma in_dir_prefix d n : in_dir d n = dir_prefix d +:+ n.
Proof. unfold in_dir, dir_prefix. repeat case_match; rewrite ?app_assoc_s; done. Qed.
Lemma in_dir_inj d a b : in_dir d a = in_dir d b -> a = b.
Proof. rewrite !in_dir_prefix. apply app_inj_s. Qed.

(** ** url.QueryEscape *)
Lemma unreserved_not c : url_unreserved c = true -> c <> "%"%char /\ c <> "+"%char /\ c <> "/"%char /\ c <> " "%char.
Proof. intros H. split_and!; intros ->; vm_compute in H; done. Qed.
Lemma query_escape_inj a b : query_escape a = query_escape b -> a = b.
Proof.
  revert b; induction a as [|c a IH]; intros [|c' b]; cbn; try done.
  - destruct (url_unreserved c'); [done|]. by destruct (Ascii.eqb c' " ").
  - destruct (url_unreserved c); [done|]. by destruct (Ascii.eqb c " ").
  - destruct (url_unreserved c) eqn:E1, (url_unreserved c') eqn:E2.
    + intros [= -> H]. f_equal. by apply IH.
    + apply unreserved_not in E1 as (? & ? & _). destruct (Ascii.eqb c' " "); intros [= -> Hx]; done.
    + apply unreserved_not in E2 as (? & ? & _). destruct (Ascii.eqb c " "); intros [= <- Hx]; done.
    + destruct (Ascii.eqb_spec c " ") as [->|], (Ascii.eqb_spec c' " ") as [->|]; try done.
      * intros [= Hx]. f_equal. by apply IH.
      * intros [= Ha Hb Hx]. pose proof (nibbles c) as (? & ? & E). pose proof (nibbles c') as (? & ? & E').
        f_equal; [|by apply IH]. apply bz_inj. apply hexdig_up_inj in Ha, Hb; try done. lia.
Qed.
Lemma hexdig_up_no_slash n : 0 <= n < 16 -> hexdig_up n <> "/"%char.
Proof.
  intros Hn Hx. pose proof (hexval_digit_up n Hn) as H. rewrite Hx in H. by vm_compute in H.
Qed.
Lemma query_escape_no_slash s : no_slash (query_escape s).
Proof.
  unfold no_slash. induction s as [|c s IH]; cbn [query_escape string_any]; [done|]. destruct (url_unreserved c) eqn:E; cbn [string_any].
  - apply unreserved_not in E as (_ & _ & E & _). destruct (Ascii.eqb_spec "/" c); [congruence|done].
  - destruct (Ascii.eqb c " "); [done|]. cbn [string_any]. pose proof (nibbles c) as (H1 & H2 & _).
    destruct (Ascii.eqb_spec "/" (hexdig_up (bz c / 16))) as [Hx|]; [by apply eq_sym, hexdig_up_no_slash in Hx|].
    destruct (Ascii.eqb_spec "/" (hexdig_up (bz c mod 16))) as [Hx|]; [by apply eq_sym, hexdig_up_no_slash in Hx|]. done.
Qed.
(** names that are not changed *)
Lemma query_escape_id s : query_escape s = s <-> string_all url_unreserved s = true.
Proof.
  induction s as [|c s IH]; cbn; [done|]. destruct (url_unreserved c) eqn:E; cbn.
  - rewrite <- IH. split; [by intros [= ?]|by intros ->].
  - split; [|done]. destruct (Ascii.eqb_spec c " ") as [->|]; [by intros [=]|]. intros Hx. exfalso. pose proof (f_equal String.length Hx) as HL. clear -HL.
    assert (forall s, (String.length s <= String.length (query_escape s))%nat) as Hle.
    { clear. induction s as [|c s IH]; cbn; [lia|]. destruct (url_unreserved c); cbn; [lia|]. destruct (Ascii.eqb c " "); cbn; lia. }
    specialize (Hle s). cbn in HL. lia.
Qed.
Lemma json_plain s : no_slash s -> plain_name (s +:+ ".json").
Proof.
  intros Hs. split_and!.
  - intros [_ ?]%app_eq_nil_s. done.
  - intros H%(f_equal String.length). rewrite app_len_s in H. cbn in H. lia.
  - intros H%(f_equal String.length). rewrite app_len_s in H. cbn in H. lia.
  - apply no_slash_app. done.
Qed.
