(** * Saving and loading again: the round trip, structure by structure *)
From stdpp Require Import base gmap strings list sorting.
From Coq Require Import ZArith Lia Ascii String.
From Verif Require Import GoBase GoStr Json GoTime Types Marshal Metadata StrProofs SpecUtf8 Utf8Proofs SpecText JsonText SpecSerial JsonProofs SerialProofs SpecRound RoundBase.
Open Scope Z_scope.

(** ** Integers as text *)
Lemma digits_rev_last f b n : 1 < b -> 0 < n -> n < 2 ^ Z.of_nat f -> exists x, last (digits_rev f b n) = Some x /\ x <> 0.
Proof.
  intros Hb. revert n; induction f as [|f IH]; intros n Hn Hf; [cbn in Hf; lia|]. rewrite digits_rev_S. destruct (Z.ltb_spec n b); [exists n; split; [done|lia]|].
  rewrite Nat2Z.inj_succ, Z.pow_succ_r in Hf by lia. destruct (IH (n / b)) as (x & Hx & Hx0).
  - apply Z.div_str_pos. lia.
  - apply Z.div_lt_upper_bound; [lia|]. nia.
  - exists x. split; [|done]. rewrite last_cons, Hx. done.
Qed.
Lemma digits_string_first n : 0 < n -> exists c r, string_of_digits (digits_of 10 n) = String c r /\ c <> "0"%char.
Proof.
  intros Hn. unfold digits_of. destruct (digits_rev_last (S (Z.to_nat (Z.log2 n))) 10 n) as (x & Hx & Hx0); [lia|done|apply log2_fuel; lia|].
  apply last_Some in Hx as [l Hl]. pose proof (digits_of_val 10 n ltac:(lia) ltac:(lia)) as [_ Hd]. unfold digits_of in Hd. rewrite Hl in *. rewrite rev_app_distr in *. cbn [rev app] in *.
  apply Forall_cons in Hd as [Hd _]. unfold string_of_digits. cbn [map string_of_list_ascii]. eexists _, _. split; [reflexivity|].
  intros He. change "0"%char with (hexdig 0) in He. apply hexdig_inj in He; lia.
Qed.
Lemma digits_string_digits n : 0 <= n -> string_all is_digit (string_of_digits (digits_of 10 n)) = true.
Proof.
  intros Hn. destruct (digits_of_val 10 n) as [_ H]; [lia|done|]. unfold string_of_digits. induction H as [|d l Hd _ IH]; [done|]. cbn [map string_of_list_ascii string_all].
  destruct (hexdig_digit d) as [-> _]; [lia|done].
Qed.
Lemma take_digits_all s : string_all is_digit s = true -> take_digits s = (s, "").
Proof. induction s as [|c s IH]; [done|]. cbn. intros [-> H]%andb_prop. by rewrite IH. Qed.
Lemma digits_string_nonnil n : 0 <= n -> string_of_digits (digits_of 10 n) <> "".
Proof. intros _. unfold string_of_digits. pose proof (digits_of_nonnil 10 n). by destruct (digits_of 10 n). Qed.
Lemma num_int_digits n : 0 <= n -> num_int (string_of_digits (digits_of 10 n)) = (string_of_digits (digits_of 10 n), "").
Proof.
  intros Hn. unfold num_int. rewrite take_digits_all by (by apply digits_string_digits). destruct (Z.eq_dec n 0) as [-> |Hne]; [done|].
  destruct (digits_string_first n) as (c & r & -> & Hc); [lia|]. destruct r; [by destruct c as [[] [] [] [] [] [] [] []]|]. by destruct c as [[] [] [] [] [] [] [] []].
Qed.
Lemma digits_string_no_minus n : 0 <= n -> match string_of_digits (digits_of 10 n) with String "-" r => ("-", r) | _ => ("", string_of_digits (digits_of 10 n)) end = ("", string_of_digits (digits_of 10 n)).
Proof.
  intros Hn. pose proof (digits_string_digits n Hn) as Hd. destruct (string_of_digits (digits_of 10 n)) as [|c r]; [done|]. cbn in Hd. apply andb_prop in Hd as [Hd _].
  destruct c as [[] [] [] [] [] [] [] []]; done.
Qed.
Lemma num_ok_fmt z : num_ok (fmt_dec z).
Proof.
  unfold num_ok, fmt_dec, fmt_base. rewrite parse_num_unfold. destruct (Z.ltb_spec z 0).
  - change ("-" +:+ string_of_digits (digits_of 10 (- z))) with (String "-" (string_of_digits (digits_of 10 (- z)))). cbv beta iota. rewrite num_int_digits by lia.
    pose proof (digits_string_nonnil (- z) ltac:(lia)). destruct (string_of_digits (digits_of 10 (- z))) as [|c r] eqn:E; [done|]. cbn [num_frac num_exp]. rewrite !app_nil_s. done.
  - rewrite digits_string_no_minus by done. rewrite num_int_digits by lia.
    pose proof (digits_string_nonnil z ltac:(lia)). destruct (string_of_digits (digits_of 10 z)) as [|c r] eqn:E; [done|]. cbn [num_frac num_exp]. rewrite !app_nil_s. done.
Qed.
Lemma digits_rev_len f b n : (List.length (digits_rev f b n) <= f)%nat.
Proof. revert n; induction f as [|f IH]; intros n; [done|]. rewrite digits_rev_S. destruct (n <? b); cbn; [lia|]. specialize (IH (n / b)). lia. Qed.
Lemma fmt_dec_len n : 0 <= n < 2 ^ 100 -> str_len (fmt_dec n) <= 101.
Proof.
  intros Hn. unfold fmt_dec, fmt_base. destruct (Z.ltb_spec n 0); [lia|]. unfold string_of_digits, str_len, digits_of.
  assert (forall l : list ascii, String.length (string_of_list_ascii l) = List.length l) as Hs by (induction l; cbn; congruence).
  rewrite Hs, map_length, rev_length. pose proof (digits_rev_len (S (Z.to_nat (Z.log2 n))) 10 n).
  destruct (Z.eq_dec n 0) as [-> |]; [cbn in *; lia|]. assert (Z.log2 n < 100) by (apply Z.log2_lt_pow2; lia). pose proof (Z.log2_nonneg n). lia.
Qed.
Lemma num_split_fmt z : exists neg, num_split (fmt_dec z) = Some (neg, Z.abs z, 0).
Proof.
  unfold num_split, fmt_dec, fmt_base. destruct (Z.ltb_spec z 0).
  - exists true. change ("-" +:+ string_of_digits (digits_of 10 (- z))) with (String "-" (string_of_digits (digits_of 10 (- z)))). cbv beta iota.
    rewrite take_digits_all by (apply digits_string_digits; lia). cbv beta iota. rewrite app_nil_s, parse_nat_fmt by lia. f_equal. f_equal. f_equal. lia.
  - exists false.
    assert (match string_of_digits (digits_of 10 z) with String "-" r => (true, r) | _ => (false, string_of_digits (digits_of 10 z)) end = (false, string_of_digits (digits_of 10 z))) as ->.
    { pose proof (digits_string_digits z ltac:(lia)) as Hd. destruct (string_of_digits (digits_of 10 z)) as [|c r]; [done|]. cbn in Hd. apply andb_prop in Hd as [Hd _]. destruct c as [[] [] [] [] [] [] [] []]; done. }
    rewrite take_digits_all by (apply digits_string_digits; lia). cbv beta iota. rewrite app_nil_s, parse_nat_fmt by lia. f_equal. f_equal. f_equal. lia.
Qed.
Lemma f64_of_fmt z : in_int64 z = true -> f64_of (fmt_dec z) <> None.
Proof.
  intros Hz. unfold in_int64, two63 in Hz. apply andb_prop in Hz as [H1%Z.leb_le H2%Z.ltb_lt]. unfold f64_of. destruct (num_split_fmt z) as [neg ->].
  destruct (Z.eqb_spec (Z.abs z) 0); [done|]. assert (0 <= Z.abs z < 2 ^ 100) as Hb. { split; [lia|]. assert (2 ^ 100 = 1267650600228229401496703205376) as -> by reflexivity. lia. }
  pose proof (fmt_dec_len _ Hb). pose proof (str_len_nonneg (fmt_dec (Z.abs z))). cbv zeta. destruct (Z.ltb_spec 400 (str_len (fmt_dec (Z.abs z)) + 0)); [lia|]. destruct (Z.ltb_spec (str_len (fmt_dec (Z.abs z)) + 0) (-400)); [lia|].
  assert (2 ^ 100 <=? f64_limit = true) as Hl by (vm_compute; done). apply Z.leb_le in Hl.
  change (Z.max 0 0) with 0. change (Z.max (- 0) 0) with 0. change (10 ^ 0) with 1. rewrite !Z.mul_1_r. destruct (Z.leb_spec f64_limit (Z.abs z)); [lia|done].
Qed.
Lemma f64_norm_fmt z : in_int64 z = true -> f64_norm (fmt_dec z) <> None.
Proof.
  intros Hz. unfold f64_norm, f64_text. pose proof (f64_of_fmt z Hz). destruct (f64_of (fmt_dec z)) as [[? ?]|]; [|done].
  destruct (parse_int 10 (fmt_dec z)); [|done]. by destruct (_ <=? _).
Qed.

(** ** Trees *)
Definition good (j : json) : Prop := nums_wf j /\ texts_ok j /\ numbers_ok j.
Lemma numbers_ok_arr l : numbers_ok (JArr l) <-> Forall numbers_ok l.
Proof. cbn. induction l as [|x l IH]; [by split|]. rewrite Forall_cons, <- IH. done. Qed.
Lemma numbers_ok_obj l : numbers_ok (JObj l) <-> Forall (fun kv => numbers_ok kv.2) l.
Proof. cbn. induction l as [|x l IH]; [by split|]. rewrite Forall_cons, <- IH. done. Qed.
Lemma good_arr l : Forall good l -> good (JArr l).
Proof.
  intros H. unfold good. rewrite nums_wf_arr, texts_ok_arr, numbers_ok_arr. split_and!; (eapply Forall_impl; [exact H|]); intros x (? & ? & ?); done.
Qed.
Lemma good_obj l : Forall (fun kv => utf8_text kv.1 /\ good kv.2) l -> good (JObj l).
Proof.
  intros H. unfold good. rewrite nums_wf_obj, texts_ok_obj, numbers_ok_obj. split_and!; (eapply Forall_impl; [exact H|]); intros x (? & ? & ? & ?); done.
Qed.
Lemma good_str s : utf8_text s -> good (JStr s).
Proof. by intros H. Qed.
Lemma good_int z : int_ok z -> good (enc_int z).
Proof. intros H. split_and!; [apply num_ok_fmt|done|by apply f64_norm_fmt]. Qed.
Lemma held_good v : held_value v -> good v.
Proof. intros (H1 & H2 & H3). split_and!; [done|done|]. apply norm_total. eauto. Qed.
Lemma seq_kv_ext {A B} (f g : A -> option B) (l : list (string * A)) : Forall (fun kv => f kv.2 = g kv.2) l ->
  seq_kv (map (fun kv => (kv.1, f kv.2)) l) = seq_kv (map (fun kv => (kv.1, g kv.2)) l).
Proof. intros H. f_equal. induction H as [|x l Hx _ IH]; [done|]. cbn. by rewrite Hx, IH. Qed.
Lemma reread_obj l : Forall (fun kv => utf8_text kv.1) l -> reread (JObj l) = JObj (map (fun kv => (kv.1, reread kv.2)) l).
Proof. intros H. cbn. f_equal. induction H as [|x l Hx _ IH]; [done|]. cbn. by rewrite IH, sanitize_text. Qed.
Lemma norm_reread j : texts_ok j -> norm (reread j) = norm j.
Proof.
  induction j as [|b|n|s|s|l IH|l IH] using json_ind; intros Ht; try done.
  - cbn in *. unfold reread_str. rewrite sanitize_text by done. by destruct (escaped s).
  - cbn in *. unfold reread_str. rewrite sanitize_text by done. by destruct (escaped s).
  - apply texts_ok_arr in Ht. cbn [reread norm]. rewrite map_map.
    replace (map (fun x => norm (reread x)) l) with (map norm l); [done|]. induction IH as [|x l Hx _ IH']; [done|]. apply Forall_cons in Ht as [H1 H2]. cbn. by rewrite Hx, IH'.
  - apply texts_ok_obj in Ht. rewrite reread_obj by (eapply Forall_impl; [exact Ht|]; by intros ? [? _]). cbn [norm]. rewrite map_map. cbn [fst snd].
    assert (map (fun x : string * json => (x.1, norm (reread x.2))) l = map (fun kv => (kv.1, norm kv.2)) l) as ->; [|done].
    induction IH as [|x l Hx _ IH']; [done|]. apply Forall_cons in Ht as [[H0 H1] H2]. cbn. by rewrite Hx, IH'.
Qed.
Lemma unesc_reread j : texts_ok j -> unesc (reread j) = unesc j.
Proof.
  induction j as [|b|n|s|s|l IH|l IH] using json_ind; intros Ht; try done.
  - cbn in *. unfold reread_str. rewrite sanitize_text by done. by destruct (escaped s).
  - cbn in *. unfold reread_str. rewrite sanitize_text by done. by destruct (escaped s).
  - apply texts_ok_arr in Ht. cbn [reread unesc]. rewrite map_map. f_equal. induction IH as [|x l Hx _ IH']; [done|]. apply Forall_cons in Ht as [H1 H2]. cbn. by rewrite Hx, IH'.
  - apply texts_ok_obj in Ht. rewrite reread_obj by (eapply Forall_impl; [exact Ht|]; by intros ? [? _]). cbn [unesc]. rewrite map_map. cbn [fst snd]. f_equal.
    induction IH as [|x l Hx _ IH']; [done|]. apply Forall_cons in Ht as [[H0 H1] H2]. cbn. by rewrite Hx, IH'.
Qed.
Lemma numbers_ok_reread j : texts_ok j -> numbers_ok j -> numbers_ok (reread j).
Proof. intros Ht Hn. apply norm_total. rewrite norm_reread by done. by apply norm_total. Qed.
Lemma reread_null j : reread j = JNull -> j = JNull.
Proof. destruct j; cbn; unfold reread_str; try destruct (escaped s); done. Qed.

(** ** Objects made by MarshalJSON *)
Lemma mlist_elem {V} (u : gomap V) k v : (k, v) ∈ mlist u <-> mget u k = Some v.
Proof. destruct u as [u|]; cbn; [apply elem_of_map_to_list|]. split; [by intros ?%elem_of_nil|done]. Qed.
Definition known_ok (names : list string) (known : list (string * json)) : Prop :=
  Forall (fun kv => kv.1 ∈ names /\ utf8_text kv.1 /\ good kv.2) known.
Lemma obj_members_ok names u known : extra_ok names u -> known_ok names known -> Forall (fun kv => utf8_text kv.1 /\ good kv.2) (obj_norm (mlist u ++ known)).
Proof.
  intros Hu Hk. apply Forall_forall. intros [k v] [Hin|Hin]%obj_norm_in%elem_of_app.
  - apply mlist_elem in Hin. destruct (Hu _ _ Hin) as (? & ? & _). split; [done|]. by apply held_good.
  - unfold known_ok in Hk. rewrite Forall_forall in Hk. by destruct (Hk _ Hin) as (_ & ? & ?).
Qed.
Lemma good_obj_of names u known : extra_ok names u -> known_ok names known -> good (obj_of u known).
Proof. intros Hu Hk. apply good_obj. by eapply obj_members_ok. Qed.
Definition rr (l : list (string * json)) : list (string * json) := map (fun kv => (kv.1, reread kv.2)) l.
Lemma reread_obj_of names u known : extra_ok names u -> known_ok names known -> reread (obj_of u known) = JObj (rr (obj_norm (mlist u ++ known))).
Proof. intros Hu Hk. apply reread_obj. eapply Forall_impl; [by eapply obj_members_ok|]. by intros ? [? _]. Qed.
Lemma decode_members_filter {T} (fs : fields T) l x :
  decode_members fs l x = decode_members fs (kfilter (fun k => match field_lookup fs k with Some _ => true | None => false end) l) x.
Proof.
  revert x; induction l as [|[k v] l IH]; intros x; [done|]. cbn. destruct (field_lookup fs k) as [f|] eqn:E; [|apply IH]. cbn. rewrite E. destruct (f v x); cbn; [apply IH|done|done].
Qed.
Lemma kfilter_rr P l : kfilter P (rr l) = rr (kfilter P l).
Proof. unfold rr. induction l as [|[k v] l IH]; [done|]. cbn. rewrite IH. by destruct (P k). Qed.
Lemma kfilter_all {V} P (l : list (string * V)) : Forall (fun kv => P kv.1 = true) l -> kfilter P l = l.
Proof. induction 1 as [|x l Hx _ IH]; [done|]. cbn. by rewrite Hx, IH. Qed.
Lemma kfilter_none {V} P (l : list (string * V)) : Forall (fun kv => P kv.1 = false) l -> kfilter P l = [].
Proof. induction 1 as [|x l Hx _ IH]; [done|]. cbn. by rewrite Hx, IH. Qed.
(** the struct decoder sees only the known members, in key order *)
Lemma decode_obj {T} (fs : fields T) u known x : extra_ok (map fst fs) u -> known_ok (map fst fs) known ->
  decode_struct fs x (reread (obj_of u known)) = decode_members fs (rr (obj_norm known)) x.
Proof.
  intros Hu Hk. erewrite reread_obj_of by done. cbn [decode_struct]. rewrite decode_members_filter, kfilter_rr, obj_norm_kfilter, kfilter_app.
  rewrite (kfilter_none _ (mlist u)), (kfilter_all _ known); [done|..].
  - eapply Forall_impl; [exact Hk|]. intros [k v] (Hin & _). cbn. destruct (field_lookup fs k) eqn:E; [done|]. exfalso.
    apply elem_of_list_In, in_map_iff in Hin as ([n g] & Heq & Hin). cbn in Heq. subst n. eapply field_lookup_none in E; [|apply elem_of_list_In; exact Hin]. done.
  - apply Forall_forall. intros [k v] Hin%mlist_elem. destruct (Hu _ _ Hin) as (_ & _ & Hn). cbn. destruct (field_lookup fs k) as [g|] eqn:E; [|done]. exfalso.
    apply field_lookup_in in E as (n & Hin' & He). apply (Hn n); [|done]. apply elem_of_list_In, in_map_iff. exists (n, g). split; [done|]. by apply elem_of_list_In.
Qed.
Lemma mget_del_all names (m : unrec) k : mget (del_all names m) k = if decide (k ∈ names) then None else mget m k.
Proof.
  unfold del_all. revert m. induction names as [|n names IH]; intros m; [by destruct (decide _) as [?%elem_of_nil|]|]. cbn [fold_left]. rewrite IH.
  destruct (decide (k ∈ names)); [by rewrite decide_True by by right|]. destruct m as [m|]; cbn.
  - destruct (decide (k = n)) as [-> |Hne]; [rewrite decide_True by left; by rewrite lookup_delete|]. rewrite lookup_delete_ne by done. rewrite decide_False; [done|]. intros [?|?]%elem_of_cons; done.
  - by case_decide.
Qed.
Lemma del_all_some names m : exists m', del_all names (Some m) = Some m'.
Proof. unfold del_all. revert m. induction names as [|n names IH]; intros m; [by exists m|]. cbn. apply IH. Qed.
(** the dictionary keeps exactly the unrecognised members *)
Lemma dict_obj names u known : extra_ok names u -> known_ok names known ->
  exists D, decode_dict (reread (obj_of u known)) = Ok D /\ del_all names D = kept_extra u.
Proof.
  intros Hu Hk. pose proof (good_obj_of _ _ _ Hu Hk) as (_ & Ht & Hn). pose proof (numbers_ok_reread _ Ht Hn) as Hn'.
  pose proof (reread_obj_of _ _ _ Hu Hk) as Hre. rewrite Hre in Hn' |- *.
  destruct (proj2 (decode_dict_ok (JObj (rr (obj_norm (mlist u ++ known)))))) as [D HD]; [split; [right; eauto|done]|]. exists D. split; [done|].
  pose proof HD as (r & -> & _)%decode_dict_some. destruct (del_all_some names (mem_map r)) as [m' Hm']. rewrite Hm'. unfold kept_extra. f_equal. apply map_eq. intros k.
  transitivity (mget (del_all names (Some (mem_map r))) k); [by rewrite Hm'|]. rewrite mget_del_all. change (mmap u !! k) with (mget (Some (mmap u)) k).
  assert (mget (Some (mmap u)) k = mget u k) as -> by (by destruct u). destruct (decide (k ∈ names)) as [Hin|Hnin].
  - symmetry. destruct (mget u k) as [v|] eqn:E; [|done]. destruct (Hu _ _ E) as (_ & _ & Hx). by destruct (Hx k Hin).
  - destruct (decode_dict_lookup _ _ k HD) as [H1 H2].
    assert (forall w, last_member (rr (obj_norm (mlist u ++ known))) k w <-> exists v, mget u k = Some v /\ w = reread v) as Hlm.
    { intros w. rewrite <- mem_map_some. unfold rr. rewrite <- obj_norm_map_val, mem_map_obj_norm, map_app, mem_map_app.
      assert (mem_map (map (fun kv : string * json => (kv.1, reread kv.2)) known) !! k = None) as Hnone.
      { apply mem_map_none. apply Forall_forall. intros [k' v'] ([kx vx] & Heq & Hin)%elem_of_list_In%in_map_iff. cbn in Heq. injection Heq as <- <-. cbn. intros ->. apply Hnin.
        unfold known_ok in Hk. rewrite Forall_forall in Hk. apply elem_of_list_In in Hin. by destruct (Hk _ Hin). }
      rewrite lookup_union_r by done. rewrite mem_map_nodup.
      2:{ change (map (fun kv : string * json => (kv.1, reread kv.2)) (mlist u)) with (prod_map id reread <$> mlist u).
          rewrite <- list_fmap_compose. cbn. destruct u as [u|]; [|constructor]. apply NoDup_fst_map_to_list. }
      rewrite <- elem_of_list_to_map.
      2:{ change (map (fun kv : string * json => (kv.1, reread kv.2)) (mlist u)) with (prod_map id reread <$> mlist u).
          rewrite <- list_fmap_compose. cbn. destruct u as [u|]; [|constructor]. apply NoDup_fst_map_to_list. }
      rewrite elem_of_list_In, in_map_iff. split.
      - intros ([k' v] & [= -> <-] & Hin). exists v. split; [|done]. apply mlist_elem. by apply elem_of_list_In.
      - intros (v & Hin & ->). exists (k, v). split; [done|]. apply elem_of_list_In. by apply mlist_elem. }
    destruct (mget u k) as [v|] eqn:E.
    + destruct (H2 (reread v)) as (v' & Hv' & Hnv); [apply Hlm; eauto|]. destruct (Hu _ _ E) as (_ & (Hvn & _ & Hvt) & _). rewrite norm_reread, Hvn in Hnv by done. injection Hnv as <-. done.
    + destruct (mget (Some (mem_map r)) k) as [v|] eqn:E'; [|done]. destruct (H1 _ eq_refl) as (w & Hw & _). apply Hlm in Hw as (? & ? & _). done.
Qed.

(** ** Field values *)
Lemma dec_string_rr s old : utf8_text s -> dec_string (reread (JStr s)) old = Ok s.
Proof. intros H. cbn. unfold reread_str. rewrite sanitize_text by done. by destruct (escaped s). Qed.
Lemma dec_int_rr z old : int_ok z -> dec_int (reread (enc_int z)) old = Ok z.
Proof. intros H. cbn. unfold fmt_dec. by rewrite parse_int_fmt by done. Qed.
Lemma dec_bool_rr b old : dec_bool (reread (JBool b)) old = Ok b.
Proof. done. Qed.
Lemma reread_hex b : reread (enc_hex b) = JStr (hex_encode b).
Proof. apply plain_reread, hex_plain. Qed.
Lemma hexbytes_rr b : hexbytes_unmarshal (reread (enc_hex b)) = Ok b.
Proof. rewrite reread_hex. cbn. by rewrite hex_decode_encode. Qed.
Lemma good_hex b : good (enc_hex b).
Proof. apply good_str, plain_text, hex_plain. Qed.
Lemma enc_time_ok t : time_ok t -> exists s, enc_time t = Ok (JStr s) /\ reread (JStr s) = JStr s /\ parse_time s = Some t /\ utf8_text s.
Proof.
  intros H. destruct (parse_print_time t H) as (s & Hs & Hp). exists s. unfold enc_time. rewrite Hs. pose proof (print_time_plain _ _ Hs) as Hpl. split; [done|]. split; [by apply plain_reread|]. split; [done|by apply plain_text].
Qed.
Lemma dec_elems_rr {A} (d : json -> A -> outcome A) zero (f : A -> json) (g : A -> A) l :
  (forall x, x ∈ l -> d (reread (f x)) zero = Ok (g x)) -> dec_elems d zero (map reread (map f l)) [] = Ok (map g l).
Proof.
  induction l as [|x l IH]; intros H; [done|]. cbn. rewrite H by left. cbn. rewrite IH; [done|]. intros y Hy. apply H. by right.
Qed.
Lemma dec_slice_rr {A} (d : json -> A -> outcome A) zero (f : A -> json) (g : A -> A) (l : goslice A) :
  (forall x, x ∈ slist l -> d (reread (f x)) zero = Ok (g x)) -> dec_slice d zero (reread (enc_slice f l)) None = Ok (option_map (map g) l).
Proof.
  destruct l as [l|]; [|done]. intros H. cbn [enc_slice reread dec_slice]. change (slist None) with (@nil A). rewrite (dec_elems_rr d zero f g) by exact H. done.
Qed.
Lemma dec_strings_rr l : strs_ok l -> dec_strings (reread (enc_strings l)) None = Ok l.
Proof.
  intros H. unfold dec_strings, enc_strings. rewrite (dec_slice_rr _ _ _ id).
  - f_equal. destruct l; [|done]. cbn. by rewrite map_id.
  - intros x Hx. apply dec_string_rr. unfold strs_ok in H. rewrite Forall_forall in H. by apply H.
Qed.
Lemma good_slice {A} (f : A -> json) l : (forall x, x ∈ slist l -> good (f x)) -> good (enc_slice f l).
Proof.
  destruct l as [l|]; [|by intros _]. intros H. cbn [enc_slice]. apply good_arr. apply Forall_forall. intros j (x & <- & Hx)%elem_of_list_In%in_map_iff. apply H. by apply elem_of_list_In.
Qed.
Lemma good_strings l : strs_ok l -> good (enc_strings l).
Proof. intros H. apply good_slice. intros x Hx. apply good_str. unfold strs_ok in H. rewrite Forall_forall in H. by apply H. Qed.
Lemma fold_insert_map {V W} (g : V -> W) (l : list (string * V)) (acc : gmap string W) :
  fold_left (fun m kv => <[kv.1 := g kv.2]> m) l acc = fold_left (fun m kv => <[kv.1 := kv.2]> m) (map (fun kv => (kv.1, g kv.2)) l) acc.
Proof. revert acc; induction l as [|[k v] l IH]; intros acc; [done|]. cbn. apply IH. Qed.
Lemma dec_map_members_rr {V W} (d : json -> outcome W) (f : V -> json) (g : V -> W) (l : list (string * V)) acc :
  Forall (fun kv => d (reread (f kv.2)) = Ok (g kv.2)) l ->
  dec_map_members d (map (fun kv => (kv.1, reread kv.2)) (map (fun kv => (kv.1, f kv.2)) l)) acc = Ok (fold_left (fun m kv => <[kv.1 := g kv.2]> m) l acc).
Proof. revert acc; induction l as [|[k v] l IH]; intros acc; [done|]. intros [H1 H2]%Forall_cons. cbn in *. rewrite H1. cbn. by apply IH. Qed.
Lemma dec_map_rr {V W} (d : json -> outcome W) (f : V -> json) (g : V -> W) (m : gomap V) :
  (forall k v, mget m k = Some v -> utf8_text k /\ d (reread (f v)) = Ok (g v)) -> dec_map d (reread (enc_map f m)) None = Ok (option_map (fmap g) m).
Proof.
  destruct m as [m|]; [|done]. intros H. cbn [enc_map]. rewrite obj_norm_map_val.
  assert (Forall (fun kv => utf8_text kv.1 /\ d (reread (f kv.2)) = Ok (g kv.2)) (obj_norm (map_to_list m))) as Hf.
  { apply Forall_forall. intros [k v] Hin%obj_norm_in%elem_of_map_to_list. by apply H. }
  rewrite reread_obj.
  2:{ apply Forall_forall. intros [k j] ([k' v] & Heq & Hin)%elem_of_list_In%in_map_iff. injection Heq as <- <-. rewrite Forall_forall in Hf. apply elem_of_list_In in Hin. by apply (Hf _ Hin). }
  cbn [dec_map]. rewrite (dec_map_members_rr d f g) by (eapply Forall_impl; [exact Hf|]; by intros ? [_ ?]).
  cbn [obind option_map]. f_equal. f_equal. rewrite fold_insert_map. change (mem_map (map (fun kv => (kv.1, g kv.2)) (obj_norm (map_to_list m))) = g <$> m).
  rewrite <- obj_norm_map_val, mem_map_obj_norm. rewrite mem_map_nodup.
  - rewrite <- (list_to_map_to_list m) at 2. rewrite <- list_to_map_fmap. done.
  - change (map (fun kv : string * V => (kv.1, g kv.2)) (map_to_list m)) with (prod_map id g <$> map_to_list m). rewrite <- list_fmap_compose. apply NoDup_fst_map_to_list.
Qed.
Lemma good_map {V} (f : V -> json) (m : gomap V) : (forall k v, mget m k = Some v -> utf8_text k /\ good (f v)) -> good (enc_map f m).
Proof.
  destruct m as [m|]; [|by intros _]. intros H. cbn [enc_map]. rewrite obj_norm_map_val. apply good_obj. apply Forall_forall. intros [k j] ([k' v] & Heq & Hin)%elem_of_list_In%in_map_iff. injection Heq as <- <-.
  apply elem_of_list_In, obj_norm_in, elem_of_map_to_list in Hin. by apply H.
Qed.
Lemma dec_hashes_rr h : hashes_ok h -> dec_map hexbytes_unmarshal (reread (enc_hashes h)) None = Ok h.
Proof.
  intros H. unfold enc_hashes. rewrite (dec_map_rr _ _ id).
  - f_equal. destruct h as [h|]; [|done]. cbn. by rewrite map_fmap_id.
  - intros k v Hk. split; [by eapply H|]. apply hexbytes_rr.
Qed.
Lemma good_hashes h : hashes_ok h -> good (enc_hashes h).
Proof. intros H. apply good_map. intros k v Hk. split; [by eapply H|apply good_hex]. Qed.
Lemma dec_ptr_rr {A B} (d : json -> outcome B) (f : A -> json) (g : A -> B) o : (forall x, o = Some x -> f x <> JNull /\ d (reread (f x)) = Ok (g x)) ->
  dec_ptr d (reread (enc_ptr f o)) = Ok (option_map g o).
Proof.
  destruct o as [x|]; [|done]. intros H. destruct (H x eq_refl) as [Hn Hd]. cbn [enc_ptr]. unfold dec_ptr. rewrite Hd. destruct (reread (f x)) eqn:E; try done. by apply reread_null in E.
Qed.
Lemma dec_ptrs_rr {V} (P : V -> Prop) (d : json -> outcome V) (f : V -> json) (g : V -> V) (m : gomap (option V)) : ptrs_ok P m ->
  (forall x, P x -> f x <> JNull /\ d (reread (f x)) = Ok (g x)) -> dec_map (dec_ptr d) (reread (enc_map (enc_ptr f) m)) None = Ok (map_kept g m).
Proof.
  intros Hm H. rewrite (dec_map_rr _ _ (option_map g)); [done|]. intros k o Hk. destruct (Hm _ _ Hk) as [? Hx]. split; [done|]. apply dec_ptr_rr. intros x ->. apply H. by apply Hx.
Qed.
Lemma good_ptrs {V} (P : V -> Prop) (f : V -> json) (m : gomap (option V)) : ptrs_ok P m -> (forall x, P x -> good (f x)) -> good (enc_map (enc_ptr f) m).
Proof.
  intros Hm H. apply good_map. intros k o Hk. destruct (Hm _ _ Hk) as [? Hx]. split; [done|]. destruct o as [x|]; [|done]. apply H. by apply Hx.
Qed.

(** one member *)
Lemma decode_step {T} (fs : fields T) k j l x f y r : field_lookup fs k = Some f -> f (reread j) x = Ok y -> decode_members fs (rr l) y = r ->
  decode_members fs (rr ((k, j) :: l)) x = r.
Proof. intros H1 H2 H3. unfold rr in *. cbn. by rewrite H1, H2. Qed.
Lemma decode_end {T} (fs : fields T) x : decode_members fs (rr []) x = Ok x.
Proof. done. Qed.
(** members of a literal list *)
Ltac known := unfold known_ok; repeat (first [apply Forall_nil_2 | apply Forall_cons_2; [split_and!; [cbn; set_solver|by apply plain_text|]|]]).
