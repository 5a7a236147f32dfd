(** * Reading documents: proofs for C124 *)
From stdpp Require Import base gmap strings list.
From Coq Require Import ZArith Ascii String Lia.
From Verif Require Import GoBase GoStr Json GoTime Types Marshal SpecSerial SpecFields StrProofs SigProofs SerialProofs.
Open Scope Z_scope.

(** ** Names *)
Definition plain_char (c : ascii) : bool := ((97 <=? bz c) && (bz c <=? 122)) || (bz c =? 95).
Fixpoint plain_field (s : string) : bool := match s with EmptyString => true | String c s => plain_char c && plain_field s end.
Definition up (c : ascii) : ascii := if is_lower c then zb (bz c - 32) else c.
Lemma plain_cases c : plain_char c = true -> (is_lower c = true /\ 97 <= bz c <= 122) \/ (is_lower c = false /\ bz c = 95).
Proof.
  unfold plain_char, is_lower. destruct (Z.leb_spec 97 (bz c)), (Z.leb_spec (bz c) 122); cbn; intros Hc; try apply Z.eqb_eq in Hc; lia || (left; split; [|lia]; try reflexivity) || (right; split; [|lia]; try reflexivity).
Qed.
Lemma fold_plain c n : plain_char c = true -> fold_key (String c n) = String (up c) (fold_key n).
Proof.
  intros Hc. apply plain_cases in Hc as [[Hl _]|[Hl Hb]]; cbn [fold_key]; unfold up; rewrite Hl; [done|]. rewrite Hb. destruct n as [|c1 n]; [done|]. cbn [andb Z.eqb]. destruct n as [|c2 n]; done.
Qed.
Lemma bz_inj' a b : bz a = bz b -> a = b.
Proof. intros H. rewrite <- (zb_bz a), <- (zb_bz b). by rewrite H. Qed.
Lemma bz_up c : is_lower c = true -> 97 <= bz c <= 122 -> bz (up c) = bz c - 32.
Proof. intros Hl Hr. unfold up. rewrite Hl. apply bz_zb. lia. Qed.
Lemma fold_spells k : forall n, plain_field n = true -> fold_key k = fold_key n -> spells k n.
Proof.
  induction k as [k IH] using (induction_ltof1 _ String.length). unfold ltof in IH. intros [|d n] Hn Hf.
  { destruct k as [|c k]; [constructor|]. exfalso. revert Hf. cbn. repeat case_match; done. }
  cbn in Hn. apply andb_true_iff in Hn as [Hd Hn]. rewrite fold_plain in Hf by done. destruct k as [|c k]; [done|].
  assert (forall c1, String c1 (fold_key k) = String (up d) (fold_key n) -> c1 = up d /\ spells k n) as Hgo by (intros c1 [= H1 H2]; split; [done|]; apply IH; [cbn; lia|done|done]).
  assert (c = up d -> spells k n -> spells (String c k) (String d n)) as Hsame.
  { intros -> Hs. apply plain_cases in Hd as [[Hl Hr]|[Hl Hb]]; [|unfold up; rewrite Hl; by constructor]. apply (spells_upper d (up d)); [done|by apply bz_up|done]. }
  cbn [fold_key] in Hf. destruct (is_lower c) eqn:Hc.
  { apply Hgo in Hf as [H1 Hs]. assert (97 <= bz c <= 122) as Hcr by (revert Hc; unfold is_lower; rewrite andb_true_iff, !Z.leb_le; lia). apply (f_equal bz) in H1. rewrite bz_zb in H1 by lia.
    apply plain_cases in Hd as [[Hl Hr]|[Hl Hb]]; [|unfold up in H1; rewrite Hl in H1; lia]. rewrite bz_up in H1 by done. assert (c = d) as -> by (apply bz_inj'; lia). by constructor. }
  destruct k as [|c1 k1].
  { assert (String c (fold_key "") = String (up d) (fold_key n)) as Hf' by exact Hf. apply Hgo in Hf' as [H1 Hs]. by apply Hsame. }
  destruct ((bz c =? 197) && (bz c1 =? 191)) eqn:Hls.
  { apply andb_true_iff in Hls as [H1%Z.eqb_eq H2%Z.eqb_eq]. injection Hf as Hu Hf. apply (f_equal bz) in Hu. change (bz "S"%char) with 83 in Hu.
    apply plain_cases in Hd as [[Hl Hr]|[Hl Hb]]; [|unfold up in Hu; rewrite Hl in Hu; lia]. rewrite bz_up in Hu by done. assert (d = "s"%char) as -> by (apply bz_inj'; change (bz "s"%char) with 115; lia). apply spells_long_s; [done|done|]. apply IH; [cbn; lia|done|done]. }
  destruct k1 as [|c2 k2].
  { apply Hgo in Hf as [H1 Hs]. by apply Hsame. }
  destruct ((bz c =? 226) && (bz c1 =? 132) && (bz c2 =? 170)) eqn:Hke.
  { rewrite !andb_true_iff, !Z.eqb_eq in Hke. destruct Hke as [[H1 H2] H3]. injection Hf as Hu Hf. apply (f_equal bz) in Hu. change (bz "K"%char) with 75 in Hu.
    apply plain_cases in Hd as [[Hl Hr]|[Hl Hb]]; [|unfold up in Hu; rewrite Hl in Hu; lia]. rewrite bz_up in Hu by done. assert (d = "k"%char) as -> by (apply bz_inj'; change (bz "k"%char) with 107; lia). apply spells_kelvin; [done..|]. apply IH; [cbn; lia|done|done]. }
  apply Hgo in Hf as [H1 Hs]. by apply Hsame.
Qed.

(** ** Structs *)
Section Struct.
Context {X V : Type} (fs : fields X) (n : string) (get : X -> V).
Definition others : Prop := Forall (fun mh => mh.1 = n \/ forall j x x', mh.2 j x = Ok x' -> get x' = get x) fs.
Lemma field_exact_in k g : field_exact fs k = Some g -> (k, g) ∈ fs.
Proof. clear. induction fs as [|[m h] l IH]; [done|]. cbn. destruct (String.eqb_spec m k) as [-> |]; [intros [= ->]; left|right; auto]. Qed.
Lemma field_fold_in fk g : field_fold fs fk = Some g -> exists m, (m, g) ∈ fs /\ fold_key m = fk.
Proof. clear. induction fs as [|[m h] l IH]; [done|]. cbn. destruct (String.eqb_spec (fold_key m) fk) as [<- |]; [intros [= ->]; exists m; split; [left|done]|]. intros H. destruct (IH H) as (m' & ? & ?). exists m'. split; [by right|done]. Qed.
Lemma other_member k g : others -> plain_field n = true -> ~ spells k n -> field_lookup fs k = Some g -> forall j x x', g j x = Ok x' -> get x' = get x.
Proof.
  intros Ho Hn Hk Hg. assert (exists m, (m, g) ∈ fs /\ fold_key m = fold_key k) as (m & Hin & Hf).
  { unfold field_lookup in Hg. destruct (field_exact fs k) as [h|] eqn:He; [injection Hg as ->; exists k; split; [by apply field_exact_in|done]|by apply field_fold_in]. }
  unfold others in Ho. rewrite Forall_forall in Ho. destruct (Ho _ Hin) as [Hm|H]; [|exact H]. cbn in Hm. subst m. exfalso. apply Hk. by apply fold_spells.
Qed.
Lemma members_missing l : others -> plain_field n = true -> no_member l n -> forall x x', decode_members fs l x = Ok x' -> get x' = get x.
Proof.
  intros Ho Hn. induction l as [|[k v] l IH]; intros Hno x x' H; [by injection H as <-|]. apply Forall_cons in Hno as [Hk Hno]. cbn [decode_members] in H. destruct (field_lookup fs k) as [g|] eqn:Hg; [|by apply IH].
  apply obind_ok in H as (x1 & H1 & H). rewrite (IH Hno _ _ H). by eapply other_member.
Qed.
Lemma members_app l1 l2 : forall x x', decode_members fs (l1 ++ l2) x = Ok x' -> exists x1, decode_members fs l1 x = Ok x1 /\ decode_members fs l2 x1 = Ok x'.
Proof.
  clear. induction l1 as [|[k v] l1 IH]; intros x x' H; [by exists x|]. cbn [decode_members app] in *. destruct (field_lookup fs k) as [g|]; [|by apply IH]. apply obind_ok in H as (x1 & H1 & H). destruct (IH _ _ H) as (x2 & H2 & H3). exists x2. by rewrite H1.
Qed.
Lemma struct_field {R} (getr : R -> V) (read : json -> outcome R) (zero : X) (z : V) (means : json -> V -> Prop) g :
  (forall j x, read j = Ok x -> exists a, decode_struct fs zero j = Ok a /\ getr x = get a) -> get zero = z -> others -> plain_field n = true -> field_exact fs n = Some g ->
  (forall j x x', get x = z -> g j x = Ok x' -> means j (get x')) -> reads_field read n getr z means.
Proof.
  intros Hr Hz Ho Hn Hg Hm. split.
  - intros l x (a & Ha & ->)%Hr Hno. cbn in Ha. rewrite <- Hz. by eapply members_missing.
  - intros l x v (a & Ha & ->)%Hr (l1 & l2 & -> & H1 & H2). cbn in Ha. apply members_app in Ha as (x1 & Ha1 & Ha). cbn [decode_members] in Ha. unfold field_lookup in Ha. rewrite Hg in Ha. apply obind_ok in Ha as (x2 & Hx2 & Ha).
    rewrite (members_missing l2 Ho Hn H2 _ _ Ha). eapply Hm; [|exact Hx2]. rewrite (members_missing l1 Ho Hn H1 _ _ Ha1). exact Hz.
Qed.
End Struct.

(** ** Values *)
Lemma text_ok v old s : old = "" -> dec_string v old = Ok s -> is_text v s.
Proof. intros -> H. destruct v; cbn in H; try discriminate H; injection H as <-; [by left|by right..]. Qed.
Lemma int_ok v old z : old = 0 -> dec_int v old = Ok z -> is_int v z.
Proof. intros -> H. destruct v as [| |s| | | |]; cbn in H; try discriminate H; [injection H as <-; by left|]. right. exists s. split; [done|]. destruct (parse_int 10 s); [by injection H as ->|done]. Qed.
Lemma bool_ok v old z : old = false -> dec_bool v old = Ok z -> is_bool v z.
Proof. intros -> H. destruct v; cbn in H; try discriminate H; injection H as <-; [by left|by right]. Qed.
Lemma time_ok v old z : old = year_one -> dec_time v old = Ok z -> is_time v z.
Proof. intros -> H. destruct v as [| | |s| | |]; cbn in H; try discriminate H; [injection H as <-; by left|]. right. exists s. split; [done|]. destruct (parse_time s); [by injection H as ->|done]. Qed.
Lemma hex_ok v z : hexbytes_unmarshal v = Ok z -> is_hex_text v z.
Proof. intros H. destruct v as [| | |s| | |]; cbn in H; try discriminate H. exists s. split; [done|]. destruct (hex_decode s); [by injection H as ->|done]. Qed.
Lemma ptr_ok {A} (d : json -> outcome A) (el : json -> A -> Prop) v o : (forall w a, d w = Ok a -> el w a) -> dec_ptr d v = Ok o -> is_optional el v o.
Proof. intros Hd H. destruct v; cbn in H; try (apply obind_ok in H as (a & Ha & H); injection H as <-; right; split; [done|]; exists a; split; [by apply Hd|done]). injection H as <-. by left. Qed.
Lemma elems_ok {A} (d : json -> A -> outcome A) zero (el : json -> A -> Prop) l : (forall w a, d w zero = Ok a -> el w a) -> forall r, dec_elems d zero l [] = Ok r -> Forall2 el l r.
Proof. intros Hd. induction l as [|j l IH]; intros r H; cbn in H; [injection H as <-; constructor|]. apply obind_ok in H as (x & Hx & H). apply obind_ok in H as (r' & Hr & H). injection H as <-. constructor; [by apply Hd|by apply IH]. Qed.
Lemma slice_ok {A} (d : json -> A -> outcome A) zero (el : json -> A -> Prop) v old s : old = None -> (forall w a, d w zero = Ok a -> el w a) -> dec_slice d zero v old = Ok s -> is_list el v s.
Proof. intros -> Hd H. destruct v as [| | | | |l|]; cbn in H; try discriminate H; [injection H as <-; by left|]. apply obind_ok in H as (r & Hr & H). injection H as <-. right. exists l, r. split; [done|]. split; [done|]. by eapply elems_ok. Qed.
Lemma last_member_cons {B} (l : list (string * B)) k w k' v' : last_member l k w -> last_member ((k', v') :: l) k w.
Proof. intros (l1 & l2 & -> & H). exists ((k', v') :: l1), l2. done. Qed.
Lemma last_member_dec {B} (l : list (string * B)) k : (exists w, last_member l k w) \/ Forall (fun kv => kv.1 <> k) l.
Proof.
  induction l as [|[k' v'] l [(w & Hw)|IH]]; [by right|left; exists w; by apply last_member_cons|]. destruct (decide (k' = k)) as [-> |Hne]; [left; exists v', [], l; done|right; by constructor].
Qed.
Lemma map_members_ok {A} (d : json -> outcome A) (el : string -> json -> A -> Prop) : (forall k w a, d w = Ok a -> el k w a) -> forall l m g, dec_map_members d l m = Ok g ->
  (forall k y, g !! k = Some y -> (exists w, last_member l k w /\ el k w y) \/ (Forall (fun kv => kv.1 <> k) l /\ m !! k = Some y)) /\ (forall k, is_Some (m !! k) -> is_Some (g !! k)) /\ (forall k w, last_member l k w -> is_Some (g !! k)).
Proof.
  intros Hd. induction l as [|[k v] l IH]; intros m g H; cbn in H.
  { injection H as <-. split; [intros k y Hy; right; by split; [constructor|]|]. split; [done|]. intros k w (l1 & l2 & Hl & _). by destruct l1. }
  apply obind_ok in H as (x & Hx & H). destruct (IH _ _ H) as (H1 & H2 & H3). split_and!.
  - intros k' y Hy. destruct (H1 k' y Hy) as [(w & Hw & He)|[Hno Hm]]; [left; exists w; split; [by apply last_member_cons|done]|].
    destruct (decide (k = k')) as [-> |Hne].
    + rewrite lookup_insert in Hm. injection Hm as <-. left. exists v. split; [exists [], l; done|by apply Hd].
    + rewrite lookup_insert_ne in Hm by done. right. split; [by constructor|done].
  - intros k' Hk'. apply H2. destruct (decide (k = k')) as [-> |Hne]; [rewrite lookup_insert; by eexists|by rewrite lookup_insert_ne].
  - intros k' w Hw. destruct (last_member_dec l k') as [(w' & Hw')|Hno]; [by apply (H3 k' w')|]. apply H2. destruct Hw as (l1 & l2 & Hl & Hl2). destruct l1 as [|p l1].
    + injection Hl as Hk _ _. rewrite Hk, lookup_insert. by eexists.
    + injection Hl as _ Hl. exfalso. rewrite Hl, Forall_app in Hno. destruct Hno as [_ [Hno _]%Forall_cons]. by apply Hno.
Qed.
Lemma map_ok {A} (d : json -> outcome A) (el : string -> json -> A -> Prop) v old m : old = None -> (forall k w a, d w = Ok a -> el k w a) -> dec_map d v old = Ok m -> is_map el v m.
Proof.
  intros -> Hd H. destruct v as [| | | | | |l]; cbn in H; try discriminate H; [injection H as <-; by left|]. apply obind_ok in H as (g & Hg & H). injection H as <-. right. exists l, g. split; [done|]. split; [done|].
  destruct (map_members_ok d el Hd l ∅ g Hg) as (H1 & _ & H3). split; [|exact H3]. intros k y Hy. destruct (H1 k y Hy) as [?|[_ He]]; [done|]. by rewrite lookup_empty in He.
Qed.

(** ** One field *)
Ltac other := let j := fresh in let x := fresh in let x' := fresh in let H := fresh in intros j x x' H; cbn [snd] in H;
  first [ apply obind_ok in H as (? & _ & H); injection H as <-; reflexivity
        | repeat case_match; first [discriminate H | apply obind_ok in H as (? & _ & H); injection H as <-; reflexivity | injection H as <-; reflexivity] ].
Ltac peel H := repeat match type of H with obind _ _ = Ok _ => let a := fresh "a" in let Ha := fresh "Ha" in apply obind_ok in H as (a & Ha & H) end.
Ltac reader f := let j := fresh "j" in let x := fresh "x" in let H := fresh "H" in intros j x H; unfold f in H; peel H; injection H as <-; eexists; split; [eassumption|reflexivity].
Ltac value := let j := fresh "j" in let x := fresh "x" in let x' := fresh "x'" in let Hz := fresh "Hz" in let H := fresh "H" in
  intros j x x' Hz H; apply obind_ok in H as (? & ? & H); injection H as <-; cbn;
  first [ eapply text_ok; eassumption | eapply int_ok; eassumption | eapply bool_ok; eassumption | eapply time_ok; eassumption | apply hex_ok; assumption
        | assumption
        | eapply slice_ok; [exact Hz| |eassumption]; intros ? ? Hp; first [eapply text_ok; [reflexivity|exact Hp] | exact Hp]
        | eapply ptr_ok; [|eassumption]; intros ? ? Hp; exact Hp
        | eapply map_ok; [exact Hz| |eassumption]; intros ? ? ? ?; cbv beta; first [apply hex_ok; assumption | eapply ptr_ok; [|eassumption]; intros ? ? Hp; exact Hp] ].
Ltac field f fs zero := match goal with |- reads_field _ _ ?get _ _ => eapply (struct_field fs _ get get f zero) end; [reader f|reflexivity|repeat first [apply Forall_nil_2 | apply Forall_cons_2; [first [left; reflexivity | right; other]|]]|reflexivity|reflexivity|value].

Lemma keyval_public : reads_field keyval_unmarshal "public" kv_public "" is_text.
Proof. field keyval_unmarshal keyval_fields keyval_zero. Qed.
Lemma key_reads : reads_field key_unmarshal "keytype" k_type "" is_text /\ reads_field key_unmarshal "scheme" k_scheme "" is_text /\ reads_field key_unmarshal "keyval" k_val (mkKeyVal "" None) (is_read keyval_unmarshal).
Proof. split_and!; field key_unmarshal key_fields key_zero. Qed.
Lemma signature_reads : reads_field signature_unmarshal "keyid" sig_keyid "" is_text /\ reads_field signature_unmarshal "sig" sig_sig "" is_hex_text.
Proof. split_and!; field signature_unmarshal signature_fields signature_zero. Qed.
Lemma role_reads : reads_field role_unmarshal "keyids" r_keyids None (is_list is_text) /\ reads_field role_unmarshal "threshold" r_threshold 0 is_int.
Proof. split_and!; field role_unmarshal role_fields role_zero. Qed.
Lemma metafile_reads : reads_field metafile_unmarshal "length" mf_length 0 is_int /\ reads_field metafile_unmarshal "hashes" mf_hashes None (is_map (fun _ => is_hex_text)) /\ reads_field metafile_unmarshal "version" mf_version 0 is_int.
Proof. split_and!; field metafile_unmarshal metafile_fields metafile_zero. Qed.
Lemma targetfile_reads : reads_field targetfile_unmarshal "length" tf_length 0 is_int /\ reads_field targetfile_unmarshal "hashes" tf_hashes None (is_map (fun _ => is_hex_text)) /\
  reads_field targetfile_unmarshal "custom" tf_custom None (is_optional (fun v c => c = unesc v)).
Proof.
  split_and!; [field targetfile_unmarshal targetfile_fields targetfile_zero..|].
  eapply (struct_field targetfile_fields _ tf_custom tf_custom targetfile_unmarshal targetfile_zero); [reader targetfile_unmarshal|reflexivity|repeat first [apply Forall_nil_2 | apply Forall_cons_2; [first [left; reflexivity | right; other]|]]|reflexivity|reflexivity|].
  intros j x x' Hz H. apply obind_ok in H as (c & Hc & H). injection H as <-. cbn. eapply ptr_ok; [|exact Hc]. by intros w a [= <-].
Qed.
Lemma delegatedrole_reads : reads_field delegatedrole_unmarshal "name" dr_name "" is_text /\ reads_field delegatedrole_unmarshal "keyids" dr_keyids None (is_list is_text) /\ reads_field delegatedrole_unmarshal "threshold" dr_threshold 0 is_int /\
  reads_field delegatedrole_unmarshal "terminating" dr_terminating false is_bool /\ reads_field delegatedrole_unmarshal "paths" dr_paths None (is_list is_text) /\ reads_field delegatedrole_unmarshal "path_hash_prefixes" dr_hash_prefixes None (is_list is_text).
Proof. split_and!; field delegatedrole_unmarshal delegatedrole_fields delegatedrole_zero. Qed.
Lemma succinct_reads : reads_field succinct_unmarshal "keyids" sr_keyids None (is_list is_text) /\ reads_field succinct_unmarshal "threshold" sr_threshold 0 is_int /\
  reads_field succinct_unmarshal "bit_length" sr_bit_length 0 is_int /\ reads_field succinct_unmarshal "name_prefix" sr_name_prefix "" is_text.
Proof. split_and!; field succinct_unmarshal succinct_fields succinct_zero. Qed.
Lemma delegations_reads : reads_field delegations_unmarshal "keys" d_keys None (is_map (fun _ => is_optional (is_read key_unmarshal))) /\ reads_field delegations_unmarshal "roles" d_roles None (is_list (is_read delegatedrole_unmarshal)) /\
  reads_field delegations_unmarshal "succinct_roles" d_succinct None (is_optional (is_read succinct_unmarshal)).
Proof. split_and!; field delegations_unmarshal delegations_fields delegations_zero. Qed.
Lemma root_reads : reads_field root_unmarshal "_type" rt_type "" is_text /\ reads_field root_unmarshal "spec_version" rt_spec "" is_text /\ reads_field root_unmarshal "consistent_snapshot" rt_consistent false is_bool /\
  reads_field root_unmarshal "version" rt_version 0 is_int /\ reads_field root_unmarshal "expires" rt_expires year_one is_time /\
  reads_field root_unmarshal "keys" rt_keys None (is_map (fun _ => is_optional (is_read key_unmarshal))) /\ reads_field root_unmarshal "roles" rt_roles None (is_map (fun _ => is_optional (is_read role_unmarshal))).
Proof. split_and!; field root_unmarshal root_fields root_zero. Qed.
Lemma snapshot_reads : reads_field snapshot_unmarshal "_type" sn_type "" is_text /\ reads_field snapshot_unmarshal "spec_version" sn_spec "" is_text /\ reads_field snapshot_unmarshal "version" sn_version 0 is_int /\
  reads_field snapshot_unmarshal "expires" sn_expires year_one is_time /\ reads_field snapshot_unmarshal "meta" sn_meta None (is_map (fun _ => is_optional (is_read metafile_unmarshal))).
Proof. split_and!; field snapshot_unmarshal snapshot_fields snapshot_zero. Qed.
Lemma timestamp_reads : reads_field timestamp_unmarshal "_type" ts_type "" is_text /\ reads_field timestamp_unmarshal "spec_version" ts_spec "" is_text /\ reads_field timestamp_unmarshal "version" ts_version 0 is_int /\
  reads_field timestamp_unmarshal "expires" ts_expires year_one is_time /\ reads_field timestamp_unmarshal "meta" ts_meta None (is_map (fun _ => is_optional (is_read metafile_unmarshal))).
Proof. split_and!; field timestamp_unmarshal timestamp_fields timestamp_zero. Qed.

Definition targets_struct : json -> outcome targets_t := decode_struct targets_fields targets_zero.
Lemma targets_reads : reads_field targets_unmarshal "_type" tg_type "" is_text /\ reads_field targets_unmarshal "spec_version" tg_spec "" is_text /\ reads_field targets_unmarshal "version" tg_version 0 is_int /\
  reads_field targets_unmarshal "expires" tg_expires year_one is_time /\ reads_field targets_unmarshal "delegations" tg_delegations None (is_optional (is_read delegations_unmarshal)) /\
  reads_field targets_unmarshal "targets" tg_targets None (is_map (fun k w y => exists a, targetfile_unmarshal w = Ok a /\ y = Some (mkTargetFile (tf_length a) (tf_hashes a) (tf_custom a) k (tf_unrec a)))).
Proof.
  split_and!; [field targets_unmarshal targets_fields targets_zero..|].
  assert (reads_field targets_struct "targets" tg_targets None (is_map (fun _ => is_optional (is_read targetfile_unmarshal)))) as [H1 H2].
  { eapply (struct_field targets_fields _ tg_targets tg_targets targets_struct targets_zero); [intros j x H; exists x; by split|reflexivity|repeat first [apply Forall_nil_2 | apply Forall_cons_2; [first [left; reflexivity | right; other]|]]|reflexivity|reflexivity|value]. }
  assert (forall j x, targets_unmarshal j = Ok x -> exists a, targets_struct j = Ok a /\ populate_paths (tg_targets a) = Ok (tg_targets x)) as Hr.
  { intros j x H. unfold targets_unmarshal in H. peel H. injection H as <-. eexists. split; [eassumption|done]. }
  split.
  - intros l x (a & Ha & Hp)%Hr Hno. rewrite (H1 l a Ha Hno) in Hp. by injection Hp as <-.
  - intros l x v (a & Ha & Hp)%Hr Hon. destruct (H2 l a v Ha Hon) as [[-> Hn]|(l' & g & -> & Hg & Hk & Hl)].
    { rewrite Hn in Hp. injection Hp as Hp. left. by rewrite Hp. }
    rewrite Hg in Hp. cbn in Hp. destruct (decide _) as [Hall|]; [|done]. injection Hp as Hp. right. exists l', (map_imap (fun n o => Some (option_map (set_path n) o)) g). split; [done|]. split; [by rewrite Hp|]. split.
    + intros k y Hy. rewrite map_lookup_imap in Hy. destruct (g !! k) as [o|] eqn:Ho; [|done]. cbn in Hy. injection Hy as <-. destruct (Hk k o Ho) as (w & Hw & He). exists w. split; [done|]. specialize (Hall k o Ho).
      destruct He as [[_ ->]|[_ (f & Hf & ->)]]; [done|]. by exists f.
    + intros k w Hw. rewrite map_lookup_imap. destruct (Hl k w Hw) as [o ->]. by eexists.
Qed.
Lemma metadata_reads {T} `{RoleTy T} : reads_field (metadata_unmarshal (T := T)) "signed" md_signed signed_zero (is_read signed_unmarshal) /\
  reads_field (metadata_unmarshal (T := T)) "signatures" md_sigs None (is_list (is_read signature_unmarshal)).
Proof.
  split.
  - eapply (struct_field metadata_fields _ mx_signed md_signed metadata_unmarshal (mkMdec signed_zero None false)); [|reflexivity| |reflexivity|reflexivity|].
    + intros j x Hx. unfold metadata_unmarshal in Hx. peel Hx. destruct (mx_saved a0); [done|]. injection Hx as <-. eexists. split; [eassumption|done].
    + apply Forall_cons_2; [by left|]. apply Forall_cons_2; [|apply Forall_nil_2]. right. cbn [snd]. intros j x x' Hx. destruct j; try (injection Hx as <-; reflexivity); apply obind_ok in Hx as (? & _ & Hx); injection Hx as <-; reflexivity.
    + intros j x x' _ Hx. apply obind_ok in Hx as (s & Hs & Hx). injection Hx as <-. exact Hs.
  - set (get := fun d : mdec T => if mx_saved d then None else Some (mx_sigs d)).
    assert (reads_field (metadata_unmarshal (T := T)) "signatures" (fun x => Some (md_sigs x)) (Some None) (fun v o => match o with Some s => is_list (is_read signature_unmarshal) v s | None => True end)) as [H1 H2].
    { eapply (struct_field metadata_fields _ get _ metadata_unmarshal (mkMdec signed_zero None false)); [|reflexivity| |reflexivity|reflexivity|].
      + intros j x Hx. unfold metadata_unmarshal in Hx. peel Hx. exists a0. split; [done|]. unfold get. destruct (mx_saved a0); [done|]. by injection Hx as <-.
      + apply Forall_cons_2; [|apply Forall_cons_2; [by left|apply Forall_nil_2]]. right. cbn [snd]. intros j x x' Hx. apply obind_ok in Hx as (s & Hs & Hx). by injection Hx as <-.
      + intros j x x' Hz Hx. unfold get in *. destruct (mx_saved x) eqn:Hsv; [done|]. injection Hz as Hz.
        destruct j; try (injection Hx as <-; exact I); apply obind_ok in Hx as (s & Hs & Hx); injection Hx as <-; cbn; try rewrite Hsv; (eapply (slice_ok (fun j _ => signature_unmarshal j) signature_zero); [exact Hz|intros ? ? Hd; exact Hd|exact Hs]). }
    split; [intros l x Hx Hno; specialize (H1 l x Hx Hno); congruence|intros l x v Hx Hon; exact (H2 l x v Hx Hon)].
Qed.

(** ** Deciding which members there are *)
Lemma fold_upper d k : 65 <= bz d <= 90 -> fold_key (String d k) = String d (fold_key k).
Proof.
  intros Hd. cbn [fold_key]. assert (is_lower d = false) as -> by (unfold is_lower; apply andb_false_iff; left; apply Z.leb_gt; lia). destruct k as [|c1 k]; [done|].
  assert ((bz d =? 197) = false) as -> by (apply Z.eqb_neq; lia). assert ((bz d =? 226) = false) as -> by (apply Z.eqb_neq; lia). cbn [andb]. by destruct k.
Qed.
Lemma spells_fold k n : spells k n -> plain_field n = true -> fold_key k = fold_key n.
Proof.
  induction 1 as [|c k n _ IH|c d k n Hc Hd _ IH|a b k n Ha Hb _ IH|a b c k n Ha Hb Hc _ IH]; intros Hn; [done|..]; cbn in Hn; apply andb_true_iff in Hn as [Hp Hn]; specialize (IH Hn).
  - by rewrite !fold_plain, IH.
  - rewrite (fold_plain c) by done. rewrite fold_upper by lia. rewrite IH. f_equal. apply bz_inj'. assert (is_lower c = true) as Hl by (unfold is_lower; apply andb_true_iff; rewrite !Z.leb_le; lia). by rewrite bz_up.
  - rewrite (fold_plain "s"%char) by done. cbn [fold_key]. unfold is_lower. rewrite Ha, Hb. cbn [andb Z.leb Z.compare Pos.compare Pos.compare_cont Z.eqb Pos.eqb]. by rewrite IH.
  - rewrite (fold_plain "k"%char) by done. cbn [fold_key]. unfold is_lower. rewrite Ha, Hb, Hc. cbn [andb Z.leb Z.compare Pos.compare Pos.compare_cont Z.eqb Pos.eqb]. by rewrite IH.
Qed.
Definition lacks (l : list (string * json)) (n : string) : bool := forallb (fun kv => negb (String.eqb (fold_key kv.1) (fold_key n))) l.
Lemma lacks_ok l n : plain_field n = true -> lacks l n = true -> no_member l n.
Proof. intros Hn. unfold lacks, no_member. rewrite forallb_forall, Forall_forall. intros H [k v] Hin Hs. apply elem_of_list_In in Hin. specialize (H _ Hin). cbn in *. rewrite (spells_fold k n Hs Hn), String.eqb_refl in H. done. Qed.

(** ** Documents without an expiration time *)
Lemma signed_expires_reads {T} `{RoleTy T} (l s : list (string * json)) (m : metadata T) :
  reads_field (signed_unmarshal (T := T)) "expires" signed_expires year_one is_time -> metadata_unmarshal (JObj l) = Ok m -> only_member l "signed" (JObj s) -> no_member s "expires" -> signed_expires (md_signed m) = year_one.
Proof. intros [H1 _] Hm Hs He. destruct (metadata_reads (T := T)) as [[_ H2] _]. specialize (H2 l m _ Hm Hs). exact (H1 s _ H2 He). Qed.
Fixpoint sole (l : list (string * json)) (n : string) : option json :=
  match l with
  | [] => None
  | (k, v) :: l => if String.eqb k n then if lacks l n then Some v else None else if String.eqb (fold_key k) (fold_key n) then None else sole l n
  end.
Lemma sole_ok n v : plain_field n = true -> forall l, sole l n = Some v -> only_member l n v.
Proof.
  intros Hn. induction l as [|[k w] l IH]; intros H; [done|]. cbn in H. destruct (String.eqb_spec k n) as [-> |Hk].
  - destruct (lacks l n) eqn:Hl; [|done]. injection H as ->. exists [], l. split; [done|]. split; [constructor|by apply lacks_ok].
  - destruct (String.eqb_spec (fold_key k) (fold_key n)) as [|Hf]; [done|]. destruct (IH H) as (l1 & l2 & -> & H1 & H2). exists ((k, w) :: l1), l2. split; [done|]. split; [|done]. constructor; [|done]. intros Hs. apply Hf. by apply spells_fold.
Qed.
