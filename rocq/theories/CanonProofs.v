(** * Canonical JSON determines the content *)
From stdpp Require Import base gmap strings list sorting.
From Coq Require Import ZArith Lia Ascii String.
From Verif Require Import GoBase GoStr Json GoTime Types Marshal Metadata StrProofs SpecUtf8 Utf8Proofs SpecText JsonText SpecSerial JsonProofs SigProofs SerialProofs SpecBasic BasicProofs SpecRound RoundBase RoundProofs RoundStructs.
Open Scope Z_scope.

(** ** A total printer for canonical trees *)
Fixpoint cprint (j : json) : string :=
  match j with
  | JNull => "null"
  | JBool true => "true"
  | JBool false => "false"
  | JNum l => l
  | JStr s | JEsc s => cj_str s
  | JArr l => "[" +:+ join_str "," (map cprint l) +:+ "]"
  | JObj l => "{" +:+ join_str "," (map (fun kv => cj_str kv.1 +:+ ":" +:+ cprint kv.2) l) +:+ "}"
  end.
Definition int_char (c : ascii) : bool := is_digit c || (bz c =? 45).
Definition int_lit (l : string) : Prop := l <> "" /\ string_all int_char l = true.
(** no escape marks; integers only *)
Fixpoint ct (j : json) : Prop :=
  match j with
  | JNum l => int_lit l
  | JEsc _ => False
  | JArr l => (fix go l := match l with [] => True | x :: l => ct x /\ go l end) l
  | JObj l => (fix go l := match l with [] => True | x :: l => ct x.2 /\ go l end) l
  | _ => True
  end.
Lemma ct_arr l : ct (JArr l) <-> Forall ct l.
Proof. cbn. induction l as [|x l IH]; [by split|]. rewrite Forall_cons, <- IH. done. Qed.
Lemma ct_obj l : ct (JObj l) <-> Forall (fun kv => ct kv.2) l.
Proof. cbn. induction l as [|x l IH]; [by split|]. rewrite Forall_cons, <- IH. done. Qed.

Definition stop (r : string) : Prop := r = "" \/ exists c r', r = String c r' /\ (c = "," \/ c = "]" \/ c = "}")%char.
Lemma cj_esc_prefix a b r1 r2 : cj_esc a +:+ String """"%char r1 = cj_esc b +:+ String """"%char r2 -> a = b /\ r1 = r2.
Proof.
  revert b; induction a as [|c a IH]; intros [|d b]; cbn [cj_esc]; rewrite ?app_nil_l_s.
  - intros [= ->]. done.
  - destruct ((bz d =? 34) || (bz d =? 92)) eqn:E; rewrite ?app_cons_s; intros [= H]; subst; cbn in E; discriminate.
  - destruct ((bz c =? 34) || (bz c =? 92)) eqn:E; rewrite ?app_cons_s; intros [= H]; subst; cbn in E; discriminate.
  - destruct ((bz c =? 34) || (bz c =? 92)) eqn:Ec, ((bz d =? 34) || (bz d =? 92)) eqn:Ed; rewrite ?app_cons_s.
    + intros [= -> H]. apply IH in H as [-> ->]. done.
    + intros [= <- H]. cbn in Ed. discriminate.
    + intros [= -> H]. cbn in Ec. discriminate.
    + intros [= -> H]. apply IH in H as [-> ->]. done.
Qed.
Lemma cj_str_prefix a b r1 r2 : cj_str a +:+ r1 = cj_str b +:+ r2 -> a = b /\ r1 = r2.
Proof.
  unfold cj_str, dquote. rewrite !app_assoc_s. change (String """"%char (cj_esc a +:+ String """"%char r1) = String """"%char (cj_esc b +:+ String """"%char r2) -> a = b /\ r1 = r2).
  intros [= H]. by apply cj_esc_prefix.
Qed.
Lemma int_lit_prefix a b r1 r2 : string_all int_char a = true -> string_all int_char b = true -> stop r1 -> stop r2 -> a +:+ r1 = b +:+ r2 -> a = b /\ r1 = r2.
Proof.
  revert b; induction a as [|c a IH]; intros [|d b] Ha Hb H1 H2; rewrite ?app_nil_l_s, ?app_cons_s.
  - done.
  - intros ->. cbn in Hb. apply andb_prop in Hb as [Hb _]. destruct H1 as [H|(e & r & [= -> ->] & H)]; [done|]. destruct H as [->|[->| ->]]; discriminate.
  - intros <-. cbn in Ha. apply andb_prop in Ha as [Ha _]. destruct H2 as [H|(e & r & [= -> ->] & H)]; [done|]. destruct H as [->|[->| ->]]; discriminate.
  - intros [= -> H]. cbn in Ha, Hb. apply andb_prop in Ha as [_ Ha], Hb as [_ Hb]. apply IH in H as [-> ->]; done.
Qed.
Lemma stop_comma r : stop ("," +:+ r). Proof. right. exists ","%char, r. split; [done|]. by left. Qed.
Lemma stop_brack r : stop ("]" +:+ r). Proof. right. exists "]"%char, r. split; [done|]. right. by left. Qed.
Lemma stop_brace r : stop ("}" +:+ r). Proof. right. exists "}"%char, r. split; [done|]. right. by right. Qed.

(** lists of self-delimiting items *)
Lemma join_cons {A} (f : A -> string) x y l : join_str "," (map f (x :: y :: l)) = f x +:+ "," +:+ join_str "," (map f (y :: l)).
Proof. done. Qed.
Lemma comma_inj a b : "," +:+ a = "," +:+ b -> a = b. Proof. intros [= H]. done. Qed.
Lemma join_prefix {A} (f : A -> string) (e : string) (l1 l2 : list A) r1 r2 :
  (e = "]" \/ e = "}") -> Forall (fun a => forall b r1 r2, b ∈ l2 -> stop r1 -> stop r2 -> f a +:+ r1 = f b +:+ r2 -> a = b /\ r1 = r2) l1 ->
  (forall a r1 r2, a ∈ l1 ++ l2 -> f a +:+ r1 <> e +:+ r2) ->
  join_str "," (map f l1) +:+ e +:+ r1 = join_str "," (map f l2) +:+ e +:+ r2 -> l1 = l2 /\ r1 = r2.
Proof.
  intros He Hf Hne. assert (forall r, stop (e +:+ r)) as Hse. { intros r. destruct He as [-> | ->]; [apply stop_brack|apply stop_brace]. }
  assert (forall r r', ("," +:+ r) <> (e +:+ r')) as Hce. { intros r r'. by destruct He as [-> | ->]. }
  revert l2 Hf Hne; induction l1 as [|x l1 IH]; intros [|y l2] Hf Hne.
  - cbn. intros H. by destruct He as [-> | ->]; injection H.
  - intros H. exfalso. destruct l2 as [|z l2].
    + cbn in H. symmetry in H. apply Hne in H; [done|set_solver].
    + rewrite join_cons in H. rewrite app_assoc_s in H. symmetry in H. apply Hne in H; [done|set_solver].
  - intros H. exfalso. destruct l1 as [|z l1].
    + cbn in H. apply Hne in H; [done|set_solver].
    + rewrite join_cons in H. rewrite app_assoc_s in H. apply Hne in H; [done|set_solver].
  - apply Forall_cons in Hf as [Hx Hl]. intros H.
    assert (forall l z, join_str "," (map f (z :: l)) = f z +:+ match l with [] => "" | _ => "," +:+ join_str "," (map f l) end) as Hj.
    { intros l z. destruct l as [|w l]; [|done]. cbn. by rewrite app_nil_s. }
    rewrite !Hj, !app_assoc_s in H. apply Hx in H as [-> H]; [|by left| |].
    + destruct l1 as [|z1 l1], l2 as [|z2 l2]; rewrite ?app_nil_l_s, ?app_assoc_s in H.
      * split; [done|]. by destruct He as [-> | ->]; injection H.
      * symmetry in H. by apply Hce in H.
      * by apply Hce in H.
      * apply comma_inj in H. apply IH in H as [-> ->]; [done| |].
        -- eapply Forall_impl; [exact Hl|]. intros a Ha b s1 s2 Hb. apply Ha. by right.
        -- intros a s1 s2 Ha. apply Hne. set_solver.
    + destruct l1; [apply Hse|]. rewrite app_assoc_s. apply stop_comma.
    + destruct l2; [apply Hse|]. rewrite app_assoc_s. apply stop_comma.
Qed.

Lemma int_lit_first l : int_lit l -> exists c r, l = String c r /\ int_char c = true.
Proof. intros [Hn H]. destruct l as [|c r]; [done|]. cbn in H. apply andb_prop in H as [H _]. by exists c, r. Qed.
(** first characters *)
Lemma cprint_first a : ct a -> exists c r, cprint a = String c r /\ c <> "]"%char /\ c <> "}"%char /\
  match a with
  | JNull => c = "n"%char | JBool true => c = "t"%char | JBool false => c = "f"%char | JNum _ => int_char c = true
  | JStr _ | JEsc _ => c = """"%char | JArr _ => c = "["%char | JObj _ => c = "{"%char end.
Proof.
  destruct a as [|[]|l|s|s|l|l]; intros H; try (by eexists _, _; split_and!).
  destruct (int_lit_first l H) as (c & r & -> & Hc). exists c, r. split_and!; [done|by intros ->|by intros ->|done].
Qed.
Lemma cprint_prefix a : forall b r1 r2, ct a -> ct b -> stop r1 -> stop r2 -> cprint a +:+ r1 = cprint b +:+ r2 -> a = b /\ r1 = r2.
Proof.
  induction a as [|ba|la|sa|sa|la IH|la IH] using json_ind; intros b r1 r2 Ha Hb H1 H2 H.
  all: destruct (cprint_first _ Ha) as (c & r & Ec & Hc1 & Hc2 & Hc); destruct (cprint_first _ Hb) as (d & r' & Ed & Hd1 & Hd2 & Hd).
  all: assert (c = d) as -> by (rewrite Ec, Ed in H; by injection H).
  all: destruct b as [|bb|lb|sb|sb|lb|lb]; try (exfalso; repeat match goal with b : bool |- _ => destruct b end; subst; discriminate); try done.
  - cbn in H. injection H as ->. done.
  - destruct ba, bb; try (subst; discriminate); cbn in H; injection H as ->; done.
  - cbn in H. destruct (int_lit_prefix la lb r1 r2) as [-> ->]; [apply Ha|apply Hb|done|done|done|done].
  - cbn [cprint] in H. apply cj_str_prefix in H as [-> ->]. done.
  - cbn [cprint] in H. rewrite !app_assoc_s in H. injection H as H. apply ct_arr in Ha, Hb.
    apply (join_prefix cprint "]" la lb) in H as [-> ->]; [done|by left| |].
    + apply Forall_forall. intros x Hx y s1 s2 Hy Hs1 Hs2 Hxy. rewrite Forall_forall in IH, Ha, Hb. apply IH; auto.
    + intros x s1 s2 Hx Hxy. rewrite Forall_forall in Ha, Hb. destruct (cprint_first x) as (c & w & Ew & Hw1 & Hw2 & _); [apply elem_of_app in Hx as [?|?]; auto|].
      rewrite Ew in Hxy. injection Hxy as ?. done.
  - cbn [cprint] in H. rewrite !app_assoc_s in H. injection H as H. apply ct_obj in Ha, Hb.
    apply (join_prefix (fun kv => cj_str kv.1 +:+ ":" +:+ cprint kv.2) "}" la lb) in H as [-> ->]; [done|by right| |].
    + apply Forall_forall. intros [k v] Hx [k' v'] s1 s2 Hy Hs1 Hs2 Hxy. cbn [fst snd] in Hxy. rewrite !app_assoc_s in Hxy. apply cj_str_prefix in Hxy as [-> Hxy]. injection Hxy as Hxy.
      rewrite Forall_forall in IH, Ha, Hb. apply (IH _ Hx) in Hxy as [E ->]; [cbn in E; by rewrite E|by apply (Ha _ Hx)|by apply (Hb _ Hy)|done|done].
    + intros x s1 s2 _ Hxy. by injection Hxy.
Qed.
Lemma cprint_inj a b : ct a -> ct b -> cprint a = cprint b -> a = b.
Proof. intros Ha Hb H. apply (cprint_prefix a b "" ""); [done|done|by left|by left|by rewrite H]. Qed.

(** ** [cjson] prints the content *)
Lemma dec_digits_int ds : dec_digits ds -> string_all int_char ds = true.
Proof.
  induction ds as [|c ds IH]; [done|]. intros [Hc H]. cbn. rewrite IH by done. rewrite andb_true_r. unfold int_char, is_digit, dec_digit, bz in *.
  rewrite (proj2 (Z.leb_le 48 _)), (proj2 (Z.leb_le _ 57)) by lia. done.
Qed.
Lemma parse_int_lit l z : num_ok l -> parse_int 10 l = Some z -> int_lit l.
Proof.
  intros Hn (sg & ds & -> & Hne & Hd & Hs & _)%parse_int_dec. apply dec_digits_int in Hd. destruct Hs as [[-> _]|[[-> _]|[-> _]]].
  - by split.
  - exfalso. destruct (num_first _ Hn) as (c & r & He & Hc). cbn in He. injection He as <- <-. done.
  - split; [done|]. cbn. done.
Qed.
Lemma seq_kv_map_eq {A B} (f : A -> option B) (g : A -> B) (l : list (string * A)) l2 : Forall (fun kv => forall y, f kv.2 = Some y -> y = g kv.2) l ->
  seq_kv (map (fun kv => (kv.1, f kv.2)) l) = Some l2 -> l2 = map (fun kv => (kv.1, g kv.2)) l /\ Forall (fun kv => f kv.2 <> None) l.
Proof.
  unfold seq_kv. revert l2; induction l as [|[k v] l IH]; intros l2 Hf; cbn.
  - intros [= <-]. split; [done|constructor].
  - apply Forall_cons in Hf as [Hv Hf]. destruct (f v) as [y|] eqn:E; [|done]. cbn in *. case_match eqn:E2; [|done]. intros [= <-]. destruct (IH _ Hf eq_refl) as [-> Hn].
    split; [by rewrite (Hv _ E)|]. constructor; [cbn; congruence|done].
Qed.
Lemma seq_opt_map_eq {A B} (f : A -> option B) (g : A -> B) (l : list A) l2 : Forall (fun x => forall y, f x = Some y -> y = g x) l ->
  seq_opt (map f l) = Some l2 -> l2 = map g l /\ Forall (fun x => f x <> None) l.
Proof.
  revert l2; induction l as [|v l IH]; intros l2 Hf; cbn.
  - intros [= <-]. split; [done|constructor].
  - apply Forall_cons in Hf as [Hv Hf]. destruct (f v) as [y|] eqn:E; [|done]. cbn in *. case_match eqn:E2; [|done]. intros [= <-]. destruct (IH _ Hf eq_refl) as [-> Hn].
    split; [by rewrite (Hv _ eq_refl)|]. constructor; [congruence|done].
Qed.
Lemma cjson_canon j : nums_wf j -> forall s, cjson j = Some s -> s = cprint (canon j) /\ ct (canon j).
Proof.
  induction j as [|b|l|t|t|l IH|l IH] using json_ind; intros Hw s; cbn [cjson canon cprint].
  - by intros [= <-].
  - by destruct b; intros [= <-].
  - destruct (parse_int 10 l) eqn:E; [|done]. intros [= <-]. split; [done|]. by eapply parse_int_lit.
  - by intros [= <-].
  - by intros [= <-].
  - destruct (seq_opt (map cjson l)) as [l2|] eqn:E; [|done]. intros [= <-]. apply nums_wf_arr in Hw.
    assert (Forall (fun x => forall y, cjson x = Some y -> y = cprint (canon x)) l) as Hf. { apply Forall_forall. intros x Hx y Hy. rewrite Forall_forall in IH, Hw. by destruct (IH x Hx (Hw x Hx) y Hy). }
    destruct (seq_opt_map_eq _ (fun x => cprint (canon x)) _ _ Hf E) as [-> Hn]. split; [by rewrite map_map|]. apply ct_arr. apply Forall_forall. intros x (y & <- & Hy)%elem_of_list_In%in_map_iff. apply elem_of_list_In in Hy.
    rewrite Forall_forall in IH, Hn, Hw. destruct (cjson y) as [sy|] eqn:Ey; [|by destruct (Hn y Hy)]. by destruct (IH y Hy (Hw y Hy) sy Ey).
  - rewrite !obj_norm_map_val. destruct (seq_kv (map (fun kv => (kv.1, cjson kv.2)) (obj_norm l))) as [l2|] eqn:E; [|done]. intros [= <-]. apply nums_wf_obj in Hw.
    assert (Forall (fun kv => forall y, cjson kv.2 = Some y -> y = cprint (canon kv.2)) (obj_norm l)) as Hf. { apply Forall_forall. intros x Hx%obj_norm_in y Hy. rewrite Forall_forall in IH, Hw. by destruct (IH x Hx (Hw x Hx) y Hy). }
    destruct (seq_kv_map_eq _ (fun x => cprint (canon x)) _ _ Hf E) as [-> Hn]. split; [by rewrite !map_map|]. apply ct_obj. apply Forall_forall. intros [k x] ([k' y] & Heq & Hy)%elem_of_list_In%in_map_iff.
    injection Heq as <- <-. apply elem_of_list_In in Hy. rewrite Forall_forall in IH, Hn, Hw. pose proof (Hn _ Hy) as Hny. cbn in *. apply obj_norm_in in Hy. destruct (cjson y) as [sy|] eqn:Ey; [|done]. by destruct (IH _ Hy (Hw _ Hy) sy Ey).
Qed.

(** ** Sorted members *)
Lemma ins_last {V} k (v : V) l : Forall (fun kv => str_ltb kv.1 k = true) l -> ins k v l = l ++ [(k, v)].
Proof.
  induction l as [|[k' v'] l IH]; [done|]. intros [H1 H2]%Forall_cons. cbn in *. destruct (str_ltb k k') eqn:E; [by rewrite (str_ltb_asym _ _ E) in H1|]. by rewrite H1, IH.
Qed.
Lemma sortedk_mid {V} (acc : list (string * V)) p l : sortedk (acc ++ p :: l) -> Forall (fun q => str_ltb q.1 p.1 = true) acc.
Proof.
  induction acc as [|q acc IH]; cbn; [constructor|]. inversion 1 as [|? ? Hf Hs]; subst. constructor; [|by apply IH]. rewrite Forall_forall in Hf. apply (Hf p). set_solver.
Qed.
Lemma obj_norm_acc {V} (l acc : list (string * V)) : sortedk (acc ++ l) -> fold_left (fun acc kv => ins kv.1 kv.2 acc) l acc = acc ++ l.
Proof.
  revert acc; induction l as [|[k v] l IH]; intros acc H; cbn; [by rewrite app_nil_r|]. rewrite ins_last by (by apply (sortedk_mid acc (k, v) l)). rewrite IH; by rewrite <- app_assoc.
Qed.
Lemma obj_norm_of_sorted {V} (l : list (string * V)) : sortedk l -> obj_norm l = l.
Proof. intros H. unfold obj_norm. by rewrite obj_norm_acc. Qed.
Lemma obj_norm_idem {V} (l : list (string * V)) : obj_norm (obj_norm l) = obj_norm l.
Proof. apply obj_norm_of_sorted, obj_norm_sorted. Qed.

Lemma sortedk_ext {V} (l1 l2 : list (string * V)) : sortedk l1 -> sortedk l2 -> (forall kv, kv ∈ l1 <-> kv ∈ l2) -> l1 = l2.
Proof.
  intros H1. revert l2; induction H1 as [|p l1 Hp H1 IH]; intros l2 H2 He.
  - destruct l2 as [|q l2]; [done|]. assert (q ∈ (@nil (string * V))) as Hq by (apply He; left). by apply elem_of_nil in Hq.
  - inversion H2 as [|q l2' Hq H2']; subst.
    + assert (p ∈ (@nil (string * V))) as Hp' by (apply He; left). by apply elem_of_nil in Hp'.
    + rewrite Forall_forall in Hp, Hq. assert (p = q) as ->.
      { assert (p ∈ q :: l2') as [?|Hx]%elem_of_cons by (apply He; left); [done|]. assert (q ∈ p :: l1) as [?|Hy]%elem_of_cons by (apply He; left); [done|].
        apply Hq in Hx. apply Hp in Hy. unfold ltk in *. by rewrite (str_ltb_asym _ _ Hx) in Hy. }
      f_equal. apply IH; [done|]. intros kv. split; intros Hkv.
      * assert (kv ∈ q :: l2') as [-> |Hx]%elem_of_cons by (apply He; by right); [|done]. apply Hp in Hkv. unfold ltk in Hkv. by rewrite str_ltb_irrefl in Hkv.
      * assert (kv ∈ q :: l1) as [-> |Hx]%elem_of_cons by (apply He; by right); [|done]. apply Hq in Hkv. unfold ltk in Hkv. by rewrite str_ltb_irrefl in Hkv.
Qed.
Lemma obj_norm_elem {V} (l : list (string * V)) kv : NoDup l.*1 -> kv ∈ obj_norm l <-> kv ∈ l.
Proof.
  intros Hn. destruct kv as [k v]. rewrite (elem_of_list_to_map (M := gmap string) (obj_norm l)) by apply sortedk_nodup, obj_norm_sorted. rewrite (elem_of_list_to_map (M := gmap string) l) by done.
  rewrite obj_norm_map. by rewrite mem_map_nodup.
Qed.
Lemma obj_norm_perm {V} (l1 l2 : list (string * V)) : NoDup l1.*1 -> l1 ≡ₚ l2 -> obj_norm l1 = obj_norm l2.
Proof.
  intros Hn Hp. apply sortedk_ext; [apply obj_norm_sorted..|]. intros kv. rewrite !obj_norm_elem; [by rewrite Hp| |done]. by rewrite <- Hp.
Qed.
Lemma enc_map_fmap {V W} (f : W -> json) (h : V -> W) (m : gmap string V) : enc_map f (Some (h <$> m)) = enc_map (fun x => f (h x)) (Some m).
Proof.
  cbn [enc_map]. f_equal. rewrite !(obj_norm_map_val f), (obj_norm_map_val (fun x => f (h x))). rewrite (obj_norm_perm _ (prod_map id h <$> map_to_list m)); [|apply NoDup_fst_map_to_list|apply map_to_list_fmap].
  change (prod_map id h <$> map_to_list m) with (map (fun kv : string * V => (kv.1, h kv.2)) (map_to_list m)). rewrite obj_norm_map_val, map_map. done.
Qed.

(** ** Content of what is written *)
Lemma canon_norm j w : norm j = Some w -> canon w = w.
Proof.
  revert w; induction j as [|b|l|t|t|l IH|l IH] using json_ind; intros w; cbn [norm]; try by intros [= <-].
  - case_match; [|done]. by intros [= <-].
  - destruct (seq_opt (map norm l)) as [l2|] eqn:E; [|done]. intros [= <-]. cbn. f_equal. revert l2 E; induction l as [|x l IHl]; intros l2; cbn; [by intros [= <-]|].
    apply Forall_cons in IH as [Hx IH]. destruct (norm x) as [y|] eqn:Ey; [|done]. case_match eqn:E2; [|done]. intros [= <-]. cbn. rewrite (Hx y) by done. f_equal. by apply IHl.
  - destruct (seq_kv (map (fun kv => (kv.1, norm kv.2)) l)) as [l2|] eqn:E; [|done]. intros [= <-]. cbn [canon]. rewrite obj_norm_map_val, obj_norm_idem. f_equal.
    assert (Forall (fun kv => canon kv.2 = kv.2) l2) as Hl2.
    { clear -IH E. unfold seq_kv in E. revert l2 E; induction l as [|[k x] l IHl]; intros l2; cbn; [by intros [= <-]|].
      apply Forall_cons in IH as [Hx IH]. cbn in Hx. destruct (norm x) as [y|] eqn:Ey; [|done]. case_match eqn:E2; [|done]. intros [= <-]. constructor; [cbn; by apply Hx|by apply IHl]. }
    transitivity (map id (obj_norm l2)); [|by rewrite map_id]. apply map_ext_in. intros [k v] Hin%elem_of_list_In%obj_norm_in. rewrite Forall_forall in Hl2. specialize (Hl2 _ Hin). cbn in *. by rewrite Hl2.
Qed.
Lemma canon_held v : held_value v -> canon v = v.
Proof. intros [H _]. by eapply canon_norm. Qed.
Lemma canon_obj_of names u known : extra_ok names u -> canon (obj_of u known) = obj_of u (map (fun kv => (kv.1, canon kv.2)) known).
Proof.
  intros Hu. unfold obj_of. cbn [canon]. rewrite obj_norm_map_val, obj_norm_idem, <- obj_norm_map_val, map_app. do 3 f_equal.
  transitivity (map id (mlist u)); [|by rewrite map_id]. apply map_ext_in. intros [k v] Hin%elem_of_list_In%mlist_elem. destruct (Hu _ _ Hin) as (_ & Hh & _). cbn. by rewrite canon_held.
Qed.
Lemma canon_map {V} (f : V -> json) (m : gomap V) : canon (enc_map f m) = enc_map (fun x => canon (f x)) m.
Proof. destruct m as [m|]; [|done]. cbn [enc_map canon]. rewrite (obj_norm_map_val canon), obj_norm_idem, <- (obj_norm_map_val canon), map_map. done. Qed.
Lemma canon_slice {A} (f : A -> json) l : canon (enc_slice f l) = enc_slice (fun x => canon (f x)) l.
Proof. destruct l as [l|]; [|done]. cbn. by rewrite map_map. Qed.
Lemma enc_map_ext {V} (f g : V -> json) (m : gomap V) : (forall k v, mget m k = Some v -> f v = g v) -> enc_map f m = enc_map g m.
Proof.
  destruct m as [m|]; [|done]. intros H. cbn [enc_map]. f_equal. f_equal. apply map_ext_in. intros [k v] Hin%elem_of_list_In%elem_of_map_to_list. cbn. by rewrite (H k v).
Qed.
Lemma enc_slice_ext {A} (f g : A -> json) l : (forall x, x ∈ slist l -> f x = g x) -> enc_slice f l = enc_slice g l.
Proof. destruct l as [l|]; [|done]. intros H. cbn. f_equal. apply map_ext_in. intros x Hx%elem_of_list_In. by apply H. Qed.
Lemma canon_strings l : canon (enc_strings l) = enc_strings l.
Proof. unfold enc_strings. rewrite canon_slice. done. Qed.
Lemma canon_hashes h : canon (enc_hashes h) = enc_hashes h.
Proof. unfold enc_hashes. rewrite canon_map. done. Qed.
Lemma canon_ptrs {V} (P : V -> Prop) (f : V -> json) (m : gomap (option V)) : ptrs_ok P m -> (forall x, P x -> canon (f x) = f x) -> canon (enc_map (enc_ptr f) m) = enc_map (enc_ptr f) m.
Proof. intros Hm H. rewrite canon_map. apply enc_map_ext. intros k o Hk. destruct (Hm _ _ Hk) as [_ Hx]. destruct o as [x|]; [|done]. cbn. apply H. by apply Hx. Qed.

Global Instance ok_inj {A} : Inj (=) (=) (@Ok A).
Proof. by intros x y [= ->]. Qed.
Ltac canon_members := cbn [map fst snd app canon]; rewrite ?canon_strings, ?canon_hashes.
Lemma keyval_canon x : keyval_wf x -> canon (keyval_marshal x) = keyval_marshal x.
Proof. intros (_ & Hu). unfold keyval_marshal. by rewrite (canon_obj_of _ _ _ Hu). Qed.
Lemma key_canon x : key_wf x -> canon (key_marshal x) = key_marshal x.
Proof. intros (_ & _ & Hv & Hu). unfold key_marshal. rewrite (canon_obj_of _ _ _ Hu). canon_members. by rewrite keyval_canon. Qed.
Lemma role_canon x : role_wf x -> canon (role_marshal x) = role_marshal x.
Proof. intros (_ & _ & Hu). unfold role_marshal. rewrite (canon_obj_of _ _ _ Hu). canon_members. done. Qed.
Lemma metafile_canon x : metafile_wf x -> canon (metafile_marshal x) = metafile_marshal x.
Proof.
  intros (_ & _ & _ & Hu). unfold metafile_marshal. rewrite (canon_obj_of _ _ _ Hu). f_equal. destruct (mf_length x =? 0), (decide _); canon_members; done.
Qed.
Lemma targetfile_canon_eq x : targetfile_wf x -> canon (targetfile_marshal x) = targetfile_marshal (targetfile_canon x).
Proof.
  intros (_ & _ & _ & Hu). unfold targetfile_marshal, targetfile_canon. cbn [tf_unrec tf_length tf_hashes tf_custom]. rewrite (canon_obj_of _ _ _ Hu). destruct (tf_custom x); cbn [option_map]; canon_members; done.
Qed.
Lemma delegatedrole_canon x j : delegatedrole_wf x -> delegatedrole_marshal x = Ok j -> canon j = j.
Proof.
  intros (_ & _ & _ & _ & _ & Hx & Hu). unfold delegatedrole_marshal. destruct (dr_paths x) as [p|], (dr_hash_prefixes x) as [h|]; try done; intros H; apply (inj Ok) in H; rewrite <- H, (canon_obj_of _ _ _ Hu); canon_members; done.
Qed.
Lemma succinct_canon x : succinct_wf x -> canon (succinct_marshal x) = succinct_marshal x.
Proof. intros (_ & _ & _ & _ & Hu). unfold succinct_marshal. rewrite (canon_obj_of _ _ _ Hu). canon_members. done. Qed.
Lemma keys_canon m : ptrs_ok key_wf m -> canon (enc_keys m) = enc_keys m.
Proof. intros H. eapply canon_ptrs; [exact H|apply key_canon]. Qed.
Lemma meta_canon m : ptrs_ok metafile_wf m -> canon (enc_meta m) = enc_meta m.
Proof. intros H. eapply canon_ptrs; [exact H|apply metafile_canon]. Qed.
Lemma roles_canon l js : Forall delegatedrole_wf l -> oseq (map delegatedrole_marshal l) = Ok js -> map canon js = js.
Proof.
  intros Hl. revert js; induction Hl as [|x l Hx _ IH]; intros js; cbn; [by intros [= <-]|]. intros (j & Hj & H)%obind_ok. apply obind_ok in H as (r & Hr & H). injection H as <-.
  cbn. rewrite (delegatedrole_canon x j) by done. by rewrite IH.
Qed.
Lemma delegations_canon x j : delegations_wf x -> delegations_marshal x = Ok j -> canon j = j.
Proof.
  intros (Hk & Hr & Hs & Hu). unfold delegations_marshal. intros (tl & Ht & H)%obind_ok. apply (inj Ok) in H. rewrite <- H, (canon_obj_of _ _ _ Hu). cbn [map fst snd]. rewrite keys_canon by done. f_equal. f_equal.
  destruct (d_roles x) as [l|] eqn:E; [|destruct (d_succinct x) as [s|] eqn:E2].
  - apply obind_ok in Ht as (r & Er & Ht). injection Ht as <-. cbn. by rewrite (roles_canon l r).
  - apply (inj Ok) in Ht. rewrite <- Ht. cbn [map fst snd]. rewrite succinct_canon by eauto. done.
  - by injection Ht as <-.
Qed.
Lemma enc_time_canon t e : enc_time t = Ok e -> canon e = e.
Proof. unfold enc_time. case_match; [|done]. by intros [= <-]. Qed.
Lemma root_canon x j : root_wf x -> root_marshal x = Ok j -> canon j = j.
Proof.
  intros (_ & _ & _ & _ & Hk & Hr & Hu). unfold root_marshal. intros (e & He & H)%obind_ok. apply (inj Ok) in H. rewrite <- H, (canon_obj_of _ _ _ Hu). canon_members.
  rewrite (enc_time_canon _ _ He), keys_canon, (canon_ptrs role_wf) by (first [done|apply role_canon]). done.
Qed.
Lemma snapshot_canon x j : snapshot_wf x -> snapshot_marshal x = Ok j -> canon j = j.
Proof.
  intros (_ & _ & _ & _ & Hk & Hu). unfold snapshot_marshal. intros (e & He & H)%obind_ok. apply (inj Ok) in H. rewrite <- H, (canon_obj_of _ _ _ Hu). canon_members.
  rewrite (enc_time_canon _ _ He), meta_canon by done. done.
Qed.
Lemma timestamp_canon x j : timestamp_wf x -> timestamp_marshal x = Ok j -> canon j = j.
Proof.
  intros (_ & _ & _ & _ & Hk & Hu). unfold timestamp_marshal. intros (e & He & H)%obind_ok. apply (inj Ok) in H. rewrite <- H, (canon_obj_of _ _ _ Hu). canon_members.
  rewrite (enc_time_canon _ _ He), meta_canon by done. done.
Qed.
Lemma targets_canon_eq x j : targets_wf x -> targets_marshal x = Ok j -> targets_marshal (targets_canon x) = Ok (canon j).
Proof.
  intros (_ & _ & _ & _ & Ht & _ & Hd & Hu). unfold targets_marshal. intros (e & He & H)%obind_ok. apply obind_ok in H as (d & Ed & H). apply (inj Ok) in H. unfold targets_canon. cbn [tg_type tg_spec tg_version tg_expires tg_targets tg_delegations tg_unrec].
  rewrite He. cbn [obind]. rewrite Ed. cbn [obind]. rewrite <- H, (canon_obj_of _ _ _ Hu). f_equal. f_equal. rewrite map_app.
  assert (canon (enc_map (enc_ptr targetfile_marshal) (tg_targets x)) = enc_map (enc_ptr targetfile_marshal) (map_kept targetfile_canon (tg_targets x))) as Hm.
  { rewrite canon_map. destruct (tg_targets x) as [m|] eqn:Em; [|done]. unfold map_kept. cbn [option_map]. rewrite enc_map_fmap. apply enc_map_ext. intros k o Hk. destruct (Ht _ _ Hk) as [_ Hx].
    destruct o as [t|]; [|done]. cbn. apply targetfile_canon_eq. by apply Hx. }
  assert (map (fun kv => (kv.1, canon kv.2)) d = d) as ->.
  { destruct (tg_delegations x) as [dd|]; [|by injection Ed as <-]. apply obind_ok in Ed as (jd & Ejd & Ed). apply (inj Ok) in Ed. rewrite <- Ed. cbn [map fst snd]. by rewrite (delegations_canon dd jd) by auto. }
  f_equal. canon_members. by rewrite (enc_time_canon _ _ He), Hm.
Qed.

(** ** The payload determines the content *)
Lemma canon_sanitize j : texts_ok j -> canon (json_sanitize j) = canon j.
Proof.
  induction j as [|b|l|t|t|l IH|l IH] using json_ind; intros H; cbn [json_sanitize canon]; try done.
  - by rewrite sanitize_text.
  - by rewrite sanitize_text.
  - apply texts_ok_arr in H. rewrite map_map. f_equal. apply map_ext_in. intros x Hx%elem_of_list_In. rewrite Forall_forall in IH, H. by apply IH; [|apply H].
  - apply texts_ok_obj in H. rewrite map_map. do 2 f_equal. apply map_ext_in. intros [k v] Hx%elem_of_list_In. rewrite Forall_forall in IH, H. destruct (H _ Hx) as [H1 H2]. cbn in *. rewrite sanitize_text by done. specialize (IH _ Hx H2). cbn in IH. by rewrite IH.
Qed.
Lemma nums_wf_sanitize j : nums_wf j -> nums_wf (json_sanitize j).
Proof.
  induction j as [|b|l|t|t|l IH|l IH] using json_ind; intros H; cbn [json_sanitize]; try done.
  - apply nums_wf_arr in H. apply nums_wf_arr. apply Forall_forall. intros x (y & <- & Hy)%elem_of_list_In%in_map_iff. apply elem_of_list_In in Hy. rewrite Forall_forall in IH, H. by apply IH; [|apply H].
  - apply nums_wf_obj in H. apply nums_wf_obj. apply Forall_forall. intros x (y & <- & Hy)%elem_of_list_In%in_map_iff. apply elem_of_list_In in Hy. rewrite Forall_forall in IH, H. cbn. by apply (IH _ Hy); apply (H _ Hy).
Qed.
Lemma payload_content j p : good j -> encode_canonical j = Ok p -> p = cprint (canon j) /\ ct (canon j).
Proof.
  intros (Hw & Ht & _). unfold encode_canonical. destruct (cjson (json_sanitize j)) as [s|] eqn:E; [|done]. intros [= <-].
  apply cjson_canon in E; [|by apply nums_wf_sanitize]. by rewrite canon_sanitize in E.
Qed.
Lemma payload_inj j1 j2 p : good j1 -> good j2 -> encode_canonical j1 = Ok p -> encode_canonical j2 = Ok p -> canon j1 = canon j2.
Proof. intros G1 G2 (-> & C1)%payload_content (E & C2)%payload_content; [|done|done]. by apply cprint_inj. Qed.
Lemma signing_payload_inj {T1 T2} {R1 : RoleTy T1} {S1 : SignedSpec T1} {R2 : RoleTy T2} {S2 : SignedSpec T2} (x : T1) (y : T2) p :
  signed_rt T1 -> signed_rt T2 -> signed_wf x -> signed_wf y -> signing_payload x = Ok p -> signing_payload y = Ok p ->
  exists jx jy, signed_marshal x = Ok jx /\ signed_marshal y = Ok jy /\ canon jx = canon jy.
Proof.
  intros HR1 HR2 Hx Hy. destruct (HR1 x Hx) as (jx & Ex & Gx & _). destruct (HR2 y Hy) as (jy & Ey & Gy & _). unfold signing_payload. rewrite Ex, Ey. cbn [obind]. intros Px Py.
  exists jx, jy. split; [done|]. split; [done|]. by eapply payload_inj.
Qed.
Lemma root_payload_inj (x y : root_t) p : root_wf x -> root_wf y -> signing_payload x = Ok p -> signing_payload y = Ok p -> root_kept x = root_kept y.
Proof.
  intros Hx Hy Px Py. destruct (signing_payload_inj x y p root_signed_rt root_signed_rt Hx Hy Px Py) as (jx & jy & Ex & Ey & E). cbn in Ex, Ey. rewrite (root_canon x jx), (root_canon y jy) in E by done. subst jy.
  destruct (root_rt x Hx) as (j1 & E1 & _ & _ & U1). destruct (root_rt y Hy) as (j2 & E2 & _ & _ & U2). congruence.
Qed.
Lemma snapshot_payload_inj (x y : snapshot_t) p : snapshot_wf x -> snapshot_wf y -> signing_payload x = Ok p -> signing_payload y = Ok p -> snapshot_kept x = snapshot_kept y.
Proof.
  intros Hx Hy Px Py. destruct (signing_payload_inj x y p snapshot_signed_rt snapshot_signed_rt Hx Hy Px Py) as (jx & jy & Ex & Ey & E). cbn in Ex, Ey. rewrite (snapshot_canon x jx), (snapshot_canon y jy) in E by done. subst jy.
  destruct (snapshot_rt x Hx) as (j1 & E1 & _ & _ & U1). destruct (snapshot_rt y Hy) as (j2 & E2 & _ & _ & U2). congruence.
Qed.
Lemma timestamp_payload_inj (x y : timestamp_t) p : timestamp_wf x -> timestamp_wf y -> signing_payload x = Ok p -> signing_payload y = Ok p -> timestamp_kept x = timestamp_kept y.
Proof.
  intros Hx Hy Px Py. destruct (signing_payload_inj x y p timestamp_signed_rt timestamp_signed_rt Hx Hy Px Py) as (jx & jy & Ex & Ey & E). cbn in Ex, Ey. rewrite (timestamp_canon x jx), (timestamp_canon y jy) in E by done. subst jy.
  destruct (timestamp_rt x Hx) as (j1 & E1 & _ & _ & U1). destruct (timestamp_rt y Hy) as (j2 & E2 & _ & _ & U2). congruence.
Qed.
Lemma custom_ok_canon c : custom_ok c -> custom_ok (canon c).
Proof.
  intros (Hn & Hu & Hno & Hw & Ht). split; [by destruct c|].
  assert (forall j, unesc (canon j) = canon j) as Hue.
  { induction j as [|b|l|t|t|l IH|l IH] using json_ind; cbn [canon unesc]; try done.
    - f_equal. rewrite map_map. apply map_ext_in. intros x Hx%elem_of_list_In. rewrite Forall_forall in IH. by apply IH.
    - f_equal. rewrite obj_norm_map_val, map_map. apply map_ext_in. intros [k v] Hx%elem_of_list_In%obj_norm_in. rewrite Forall_forall in IH. specialize (IH _ Hx). cbn in *. by rewrite IH. }
  split; [done|]. clear Hn Hu Hue. split_and!.
  - induction c as [|b|l|t|t|l IH|l IH] using json_ind; cbn [canon]; try done.
    + apply numbers_ok_arr in Hno. apply nums_wf_arr in Hw. apply texts_ok_arr in Ht. apply numbers_ok_arr, Forall_forall. intros x (y & <- & Hy)%elem_of_list_In%in_map_iff. apply elem_of_list_In in Hy. rewrite Forall_forall in *. by apply IH; auto.
    + apply numbers_ok_obj in Hno. apply nums_wf_obj in Hw. apply texts_ok_obj in Ht. rewrite obj_norm_map_val. apply numbers_ok_obj, Forall_forall. intros x (y & <- & Hy)%elem_of_list_In%in_map_iff. apply elem_of_list_In, obj_norm_in in Hy. rewrite Forall_forall in *. cbn. apply IH; auto. by apply Ht.
  - induction c as [|b|l|t|t|l IH|l IH] using json_ind; cbn [canon]; try done.
    + apply numbers_ok_arr in Hno. apply nums_wf_arr in Hw. apply texts_ok_arr in Ht. apply nums_wf_arr, Forall_forall. intros x (y & <- & Hy)%elem_of_list_In%in_map_iff. apply elem_of_list_In in Hy. rewrite Forall_forall in *. by apply IH; auto.
    + apply numbers_ok_obj in Hno. apply nums_wf_obj in Hw. apply texts_ok_obj in Ht. rewrite obj_norm_map_val. apply nums_wf_obj, Forall_forall. intros x (y & <- & Hy)%elem_of_list_In%in_map_iff. apply elem_of_list_In, obj_norm_in in Hy. rewrite Forall_forall in *. cbn. apply IH; auto. by apply Ht.
  - induction c as [|b|l|t|t|l IH|l IH] using json_ind; cbn [canon]; try done.
    + apply numbers_ok_arr in Hno. apply nums_wf_arr in Hw. apply texts_ok_arr in Ht. apply texts_ok_arr, Forall_forall. intros x (y & <- & Hy)%elem_of_list_In%in_map_iff. apply elem_of_list_In in Hy. rewrite Forall_forall in *. by apply IH; auto.
    + apply numbers_ok_obj in Hno. apply nums_wf_obj in Hw. apply texts_ok_obj in Ht. rewrite obj_norm_map_val. apply texts_ok_obj, Forall_forall. intros x (y & <- & Hy)%elem_of_list_In%in_map_iff. apply elem_of_list_In, obj_norm_in in Hy. rewrite Forall_forall in *. cbn. split; [by apply Ht|]. apply IH; auto. by apply Ht.
Qed.
Lemma targets_canon_wf x : targets_wf x -> targets_wf (targets_canon x).
Proof.
  intros (H1 & H2 & H3 & H4 & H5 & H6 & H7 & Hu). unfold targets_wf, targets_canon. cbn [tg_type tg_spec tg_version tg_expires tg_targets tg_delegations tg_unrec]. split_and!; try done.
  - intros k o Hk. destruct (tg_targets x) as [m|]; [|done]. cbn in Hk. rewrite lookup_fmap in Hk. apply fmap_Some in Hk as (o' & Hk & ->). destruct (H5 _ _ Hk) as [Ht Hx]. split; [done|]. intros f Hf.
    destruct o' as [f'|]; [|done]. injection Hf as <-. destruct (Hx _ eq_refl) as (A & B & C & D). unfold targetfile_wf, targetfile_canon. cbn. split_and!; [done|done| |done]. intros c Hc. destruct (tf_custom f') as [c'|]; [|done]. injection Hc as <-. apply custom_ok_canon. by apply C.
  - intros k Hk. apply (H6 k). destruct (tg_targets x) as [m|]; [|done]. cbn in *. rewrite lookup_fmap in Hk. apply fmap_Some in Hk as (o' & Hk & Ho). by destruct o'.
Qed.
Lemma targets_payload_inj (x y : targets_t) p : targets_wf x -> targets_wf y -> signing_payload x = Ok p -> signing_payload y = Ok p ->
  targets_kept (targets_canon x) = targets_kept (targets_canon y).
Proof.
  intros Hx Hy Px Py. destruct (signing_payload_inj x y p targets_signed_rt targets_signed_rt Hx Hy Px Py) as (jx & jy & Ex & Ey & E). cbn in Ex, Ey.
  apply targets_canon_eq in Ex, Ey; [|done|done]. destruct (targets_rt _ (targets_canon_wf x Hx)) as (j1 & E1 & _ & _ & U1). destruct (targets_rt _ (targets_canon_wf y Hy)) as (j2 & E2 & _ & _ & U2). congruence.
Qed.
(** the type name is part of the content *)
Lemma type_member_canon j1 j2 s1 s2 : texts_ok j1 -> texts_ok j2 -> canon j1 = canon j2 -> type_member j1 s1 -> type_member j2 s2 -> s1 = s2.
Proof.
  assert (forall j s, texts_ok j -> type_member j s -> exists l, canon j = JObj l /\ mem_map l !! "_type" = Some (JStr s)) as Ha.
  { intros j s Ht (l & v & Hl & Hm & Hv). destruct j as [| |?|t|t|?|l0]; cbn [reread] in Hl; try done; try (unfold reread_str in Hl; by case_match).
    injection Hl as <-. eexists. cbn [canon]. split; [done|]. rewrite mem_map_obj_norm. apply mem_map_some. apply texts_ok_obj in Ht.
    destruct (last_member_f2 (fun a b => forall s, jstring a = Some s -> b = JStr s) (map (fun kv => (utf8_sanitize kv.1, reread kv.2)) l0) (map (fun kv => (kv.1, canon kv.2)) l0) "_type") as [H1 _].
    - clear Hm. induction l0 as [|[k w] l0 IH]; [constructor|]. apply Forall_cons in Ht as [[Hk Hw] Ht]. cbn. constructor; [|by apply IH]. cbn in *. split; [by rewrite sanitize_text|].
      intros s'. destruct w; cbn; try done; unfold reread_str; cbn in Hw; rewrite sanitize_text by done; case_match; by intros [= <-].
    - destruct (H1 v Hm) as (w & Hw & Hs). by rewrite <- (Hs s Hv). }
  intros T1 T2 E M1 M2. destruct (Ha _ _ T1 M1) as (l1 & E1 & L1). destruct (Ha _ _ T2 M2) as (l2 & E2 & L2). rewrite E, E2 in E1. injection E1 as ->. congruence.
Qed.
Lemma tuf_role_rt T RT SS : tuf_role T RT SS -> signed_rt T.
Proof. destruct 1; [apply root_signed_rt|apply snapshot_signed_rt|apply timestamp_signed_rt|apply targets_signed_rt]. Qed.
Lemma payload_type {T1 T2} {R1 : RoleTy T1} {S1 : SignedSpec T1} {R2 : RoleTy T2} {S2 : SignedSpec T2} (x : T1) (y : T2) p :
  tuf_role T1 R1 S1 -> tuf_role T2 R2 S2 -> signed_wf x -> signed_wf y -> signing_payload x = Ok p -> signing_payload y = Ok p -> signed_type x = signed_type y.
Proof.
  intros HR1%tuf_role_rt HR2%tuf_role_rt Hx Hy Px Py. destruct (signing_payload_inj x y p HR1 HR2 Hx Hy Px Py) as (jx & jy & Ex & Ey & E).
  destruct (HR1 x Hx) as (j1 & E1 & G1 & _ & _ & M1). destruct (HR2 y Hy) as (j2 & E2 & G2 & _ & _ & M2). assert (j1 = jx) as -> by congruence. assert (j2 = jy) as -> by congruence.
  eapply type_member_canon; [apply G1|apply G2|done|done|done].
Qed.
