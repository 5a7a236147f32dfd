(** * Indented output and metadata files: proofs *)
From stdpp Require Import base gmap strings list.
From Coq Require Import ZArith Lia Ascii String.
From Verif Require Import GoBase GoStr Json StrProofs SpecUtf8 Types Marshal Keys Metadata TrustedMetadata Updater SpecSerial SpecRound RoundBase RoundStructs CanonProofs SpecUpdater SpecPublish Files SpecFiles IndentProofs.
Open Scope Z_scope.

Lemma is_ws_blank c : is_ws c = true -> blank c.
Proof. unfold is_ws, blank. rewrite !orb_true_iff, !Z.eqb_eq. intros [[[H|H]|H]|H]; [left|right; left|right; right; left|right; right; right]; by apply bz_inj. Qed.
Lemma sl_pad w s s' : string_all is_ws w = true -> same_layout false false s s' -> same_layout false false (w +:+ s) s'.
Proof. induction w as [|c w IH]; [done|]. cbn [string_all]. intros [H1%is_ws_blank H2]%andb_prop Hs. rewrite app_cons_s. apply sl_left; [done|]. by apply IH. Qed.
Lemma eqb_bz c d : Ascii.eqb c d = (bz c =? bz d).
Proof. destruct (Ascii.eqb_spec c d) as [-> |H]; [by rewrite Z.eqb_refl|]. symmetry. apply Z.eqb_neq. intros E. by apply H, bz_inj. Qed.
Lemma indent_layout s : (forall n d, same_layout false false (json_indent false false n d s) s) /\ (forall n d, same_layout true false (json_indent true false n d s) s) /\ (forall n d, same_layout true true (json_indent true true n d s) s).
Proof.
  induction s as [|c s (IH1 & IH2 & IH3)]; [split_and!; intros; constructor|]. split_and!; intros n d; cbn [json_indent].
  - destruct (is_ws c) eqn:Ew; [apply sl_right; [by apply is_ws_blank|done]|].
    assert (forall n' d', same_layout false false (String c (json_indent (bz c =? 34) false n' d' s)) (String c s)) as Hc.
    { intros n' d'. apply sl_out; rewrite eqb_bz; change (bz "034") with 34; destruct (bz c =? 34); done. }
    assert (bz c <> 34 -> forall y, same_layout false false y s -> same_layout false false (String c y) (String c s)) as Hp.
    { intros H y Hy. apply sl_out. rewrite eqb_bz. change (bz "034") with 34. rewrite (proj2 (Z.eqb_neq _ _) H). done. }
    destruct (if n && negb (closes c) then (newline (S d), S d) else ("", d)) as [ld d'] eqn:Ed.
    assert (string_all is_ws ld = true) as Hld. { destruct (n && negb (closes c)); injection Ed as <- <-; [apply newline_ws|done]. }
    apply sl_pad; [done|]. destruct (opens c) eqn:Eo.
    { apply Hp; [|done]. intros E. revert Eo. unfold opens. by rewrite E. }
    destruct (Z.eqb_spec (bz c) 44) as [E|]; [apply Hp; [lia|]; apply sl_pad; [apply newline_ws|done]|].
    destruct (Z.eqb_spec (bz c) 58) as [E|]; [apply Hp; [lia|]; apply sl_left; [by left|done]|].
    destruct (closes c) eqn:Ec.
    { assert (bz c <> 34) as Hc34. { intros E. revert Ec. unfold closes. by rewrite E. } destruct n; [by apply Hp|]. apply sl_pad; [apply newline_ws|]. by apply Hp. }
    apply Hc.
  - destruct (Z.eqb_spec (bz c) 92) as [E|E].
    + assert (c = "092"%char) as -> by (by apply bz_inj). apply sl_backslash. done.
    + apply sl_in; [intros ->; done|]. rewrite eqb_bz. change (bz "034") with 34. destruct (bz c =? 34); done.
  - apply sl_escaped. done.
Qed.

Section Files.
Context {CR : Crypto}.
Lemma pretty_layout {T} {RT : RoleTy T} (m : metadata T) b : to_bytes_fmt false m = Ok b -> exists b', to_bytes_fmt true m = Ok b' /\ same_layout false false b' b.
Proof. unfold to_bytes_fmt. destruct (to_bytes m) as [x| |]; [|done..]. cbn. intros [= <-]. eexists. split; [done|]. apply indent_layout. Qed.
Lemma pretty_reads {T} {RT : RoleTy T} (m : metadata T) b b' : to_bytes_fmt false m = Ok b -> to_bytes_fmt true m = Ok b' -> is_json b -> parse_json b' = parse_json b.
Proof. unfold to_bytes_fmt. destruct (to_bytes m) as [x| |]; [|done..]. cbn. intros [= <-] [= <-] [j Hj]. rewrite Hj. by apply indent_reads. Qed.
Lemma fmt_save_load {T} {RT : RoleTy T} {SS : SignedSpec T} (m : metadata T) pretty : tuf_role T RT SS -> writable m ->
  exists b, to_bytes_fmt pretty m = Ok b /\ is_json b /\ from_bytes b = Ok (metadata_kept m).
Proof.
  intros Hr [Hw Hs]. destruct (save_load m (tuf_role_rt _ _ _ Hr) Hw Hs) as (b & Hb & Hl). unfold to_bytes_fmt. rewrite Hb. cbn. eexists. split; [done|]. unfold from_bytes in Hl. destruct (parse_json b) as [j|] eqn:Ej; [|done].
  destruct pretty.
  - pose proof (indent_reads _ _ Ej) as Hi. split; [by exists j|]. unfold from_bytes. by rewrite Hi.
  - split; [by exists j|]. unfold from_bytes. by rewrite Ej.
Qed.
(** the text begins and ends with a brace *)
Lemma ends_app (x : ascii) s : exists y, s +:+ s1 x = y +:+ s1 x. Proof. by exists s. Qed.
Lemma indent_last q e n d s : exists y, json_indent q e n d (s +:+ "}") = y +:+ "}".
Proof.
  revert q e n d. induction s as [|c s IH]; intros q e n d.
  - rewrite app_nil_l_s. destruct q; [cbn; destruct e; by exists ""|]. cbn. destruct n; cbn; [by exists ""|]. exists (newline (pred d)). done.
  - rewrite app_cons_s. assert (forall q e n d (l : string), exists y, l +:+ json_indent q e n d (s +:+ "}") = y +:+ "}") as IH'.
    { intros q' e' n' d' l. destruct (IH q' e' n' d') as (y & ->). exists (l +:+ y). by rewrite app_assoc_s. }
    assert (forall q e n d (l : string), exists y, String c (l +:+ json_indent q e n d (s +:+ "}")) = y +:+ "}") as IHc.
    { intros q' e' n' d' l. destruct (IH' q' e' n' d' l) as (y & ->). exists (String c y). done. }
    assert (forall q e n d (k l : string), exists y, k +:+ String c (l +:+ json_indent q e n d (s +:+ "}")) = y +:+ "}") as IHl.
    { intros q' e' n' d' k l. destruct (IHc q' e' n' d' l) as (y & ->). exists (k +:+ y). by rewrite app_assoc_s. }
    cbn [json_indent]. destruct q.
    { destruct e; [apply (IHc _ _ _ _ "")|]. destruct (bz c =? 92); apply (IHc _ _ _ _ ""). }
    destruct (is_ws c); [apply IH|]. destruct (if n && negb (closes c) then (newline (S d), S d) else ("", d)) as [ld d'].
    destruct (opens c); [apply (IHl _ _ _ _ ld "")|]. destruct (bz c =? 44); [apply IHl|]. destruct (bz c =? 58); [apply (IHl _ _ _ _ ld " ")|].
    destruct (closes c); [|apply (IHl _ _ _ _ ld "")]. destruct n; [apply (IHl _ _ _ _ ld "")|]. destruct (IHl false false false (pred d') (ld +:+ newline (pred d')) "") as (y & Hy). exists y. rewrite <- Hy, app_assoc_s. done.
Qed.
Lemma indent_first s d : exists y, json_indent false false false d (String "{" s) = String "{" y.
Proof. eexists. cbn. done. Qed.
Lemma fmt_braces {T} {RT : RoleTy T} (m : metadata T) pretty b : to_bytes_fmt pretty m = Ok b -> (exists y, b = String "{" y) /\ exists y, b = y +:+ "}".
Proof.
  unfold to_bytes_fmt, to_bytes, metadata_marshal. destruct (signed_marshal (md_signed m)) as [j| |]; [|done..]. cbn [obind]. unfold obj_of. cbn [print_json]. intros [= <-].
  match goal with |- context [join_str "," ?l] => generalize (join_str "," l) end. intros x. destruct pretty.
  - split; [apply indent_first|]. apply (indent_last false false false 0 (String "{" x)).
  - split; [by eexists|]. by exists (String "{" x).
Qed.
Lemma skip_ws_last y : skip_ws (y +:+ "}") <> "".
Proof. induction y as [|c y IH]; [done|]. rewrite app_cons_s. cbn [skip_ws]. by destruct (is_ws c). Qed.
Lemma app_last_inv (p x y : string) : p +:+ x = y +:+ "}" -> x <> "" -> exists z, x = z +:+ "}".
Proof.
  revert y. induction p as [|c p IH]; intros y; [rewrite app_nil_l_s; eauto|]. rewrite app_cons_s. destruct y as [|c' y].
  - rewrite app_nil_l_s. intros [= -> H] Hx. destruct p; [|done]. rewrite app_nil_l_s in H. done.
  - rewrite app_cons_s. intros [= -> H] Hx. by apply (IH y).
Qed.
Lemma torn_unread {T} {RT : RoleTy T} (m : metadata T) pretty b p : to_bytes_fmt pretty m = Ok b -> is_json b -> cut_short p b -> ~ is_json p.
Proof.
  intros Hb [j Hj] (x & Hx & ->) [j' Hj']. destruct (fmt_braces _ _ _ Hb) as ((y & Hy) & (z & Hz)). destruct p as [|c p]; [done|]. rewrite app_cons_s in Hy. injection Hy as -> _.
  pose proof (prefix_unread p x j j' Hj Hj') as Hs. destruct (app_last_inv _ _ _ Hz Hx) as (u & ->). by apply skip_ws_last in Hs.
Qed.
Lemma unread {T} {RT : RoleTy T} p : ~ is_json p -> from_bytes (T := T) p = Err (EOther "invalid JSON").
Proof. intros H. unfold from_bytes. destruct (parse_json p) as [j|] eqn:E; [|done]. destruct H. by exists j. Qed.
Lemma str_take_cases n b : str_take n b = b \/ cut_short (str_take n b) b.
Proof. destruct (str_drop n b) as [|c r] eqn:E; pose proof (str_take_drop n b) as H; rewrite E in H; [left; by rewrite app_nil_s in H|]. right. exists (String c r). by rewrite H. Qed.

Lemma to_file_ok {T} {RT : RoleTy T} E (m : metadata T) name pretty i i' : to_file E m name pretty i = (i', Ok tt) <->
  exists b, to_bytes_fmt pretty m = Ok b /\ e_io E (io_trace i) = true /\ i' = mkIos (<[name := b]> (io_disk i)) (io_trace i ++ [EvWrite name b]).
Proof.
  unfold to_file, sbind, sout. destruct (to_bytes_fmt pretty m) as [b| |].
  - unfold write_file. destruct (e_io E (io_trace i)).
    + split; [intros [= <-]; by exists b|]. by intros (? & [= <-] & _ & ->).
    + split; [destruct (e_partial E (io_trace i)); done|]. by intros (? & _ & ? & _).
  - split; [done|]. by intros (? & ? & _).
  - split; [done|]. by intros (? & ? & _).
Qed.
Lemma to_file_effect {T} {RT : RoleTy T} E (m : metadata T) name pretty i i' o : to_file E m name pretty i = (i', o) ->
  exists evs, did i i' evs /\ io_disk i' = replay (io_disk i) evs /\
    (evs = [] \/ evs = [EvFail "write" name] \/ exists b x, evs = [EvWrite name x] /\ to_bytes_fmt pretty m = Ok b /\ (x = b \/ o <> Ok tt /\ exists n, x = str_take n b)).
Proof.
  unfold to_file, sbind, sout, did. destruct (to_bytes_fmt pretty m) as [b| |] eqn:Eb.
  - unfold write_file, log. destruct (e_io E (io_trace i)).
    + intros [= <- <-]. eexists. split; [done|]. split; [done|]. right; right. exists b, b. split; [done|]. split; [done|by left].
    + destruct (e_partial E (io_trace i)) as [n|]; intros [= <- <-]; eexists; (split; [done|]); (split; [done|]); [|by right; left]. right; right. exists b, (str_take n b). split_and!; [done|done|]. right. split; [done|eauto].
  - intros [= <- <-]. exists []. rewrite app_nil_r. split; [done|]. split; [done|by left].
  - intros [= <- <-]. exists []. rewrite app_nil_r. split; [done|]. split; [done|by left].
Qed.
Lemma from_file_spec {T} {RT : RoleTy T} E name i i' (o : outcome (metadata T)) : from_file E name i = (i', o) -> io_disk i' = io_disk i /\
  match io_disk i !! name with
  | Some data => (e_io E (io_trace i) = true /\ o = from_bytes data) \/ (e_io E (io_trace i) = false /\ exists e, o = Err e)
  | None => exists e, o = Err e
  end.
Proof.
  unfold from_file, sbind, read_file, sout, log. destruct (io_disk i !! name) as [data|] eqn:Ed.
  - destruct (e_io E (io_trace i)); intros [= <- <-]; (split; [done|]); [by left|right; eauto].
  - intros [= <- <-]. split; [done|eauto].
Qed.
(** the disk after an interrupted ToFile *)
Lemma torn_file {T} {RT : RoleTy T} E (m : metadata T) name pretty i i' o evs d : to_file E m name pretty i = (i', o) -> did i i' evs -> crash (io_disk i) evs d ->
  (forall q, q <> name -> d !! q = io_disk i !! q) /\
  (d !! name = io_disk i !! name \/ exists b x, to_bytes_fmt pretty m = Ok b /\ d !! name = Some x /\ (x = b \/ cut_short x b)).
Proof.
  intros Hf Hd Hc. destruct (to_file_effect _ _ _ _ _ _ _ Hf) as (evs' & Hd' & _ & He). unfold did in *. rewrite Hd in Hd'. apply app_inv_head in Hd' as ->.
  destruct Hc as (e1 & e2 & E12 & Hc). destruct He as [-> |[-> |(b & x & -> & Hb & Hx)]].
  - symmetry in E12. apply app_eq_nil in E12 as [-> ->]. destruct Hc as [-> |(? & ? & ? & ? & ? & _)]; [|done]. split; [done|by left].
  - destruct Hc as [-> |(p & data & rest & n & -> & ->)].
    + destruct e1 as [|e e1]; [split; [done|by left]|]. cbn in E12. injection E12 as <- E12. symmetry in E12. apply app_eq_nil in E12 as [-> ->]. split; [done|by left].
    + destruct e1 as [|e e1]; [done|]. cbn in E12. injection E12 as <- E12. by destruct e1.
  - assert (x = b \/ cut_short x b) as Hx'. { destruct Hx as [-> |(_ & n & ->)]; [by left|apply str_take_cases]. }
    assert (forall n, str_take n x = b \/ cut_short (str_take n x) b) as Hxn.
    { intros n. destruct Hx' as [-> |(z & Hz & ->)]; [apply str_take_cases|]. right. destruct (str_take_cases n x) as [-> |(z' & Hz' & E')]; [by exists z|]. exists (z' +:+ z). split; [destruct z'; [done|by rewrite app_cons_s]|]. rewrite <- app_assoc_s, <- E'. done. }
    destruct Hc as [-> |(p & data & rest & n & -> & ->)].
    + destruct e1 as [|e e1]; [split; [done|by left]|]. cbn in E12. injection E12 as <- E12. symmetry in E12. apply app_eq_nil in E12 as [-> ->]. unfold replay. cbn [fold_left apply_event]. split; [intros q Hq; apply (lookup_insert_ne (M := gmap string)); done|]. right. exists b, x. split; [done|]. split; [apply (lookup_insert (M := gmap string))|done].
    + destruct e1 as [|e e1]; [|cbn in E12; injection E12 as <- E12; by destruct e1]. cbn in E12. injection E12 as <- <- <-. unfold replay. cbn [fold_left apply_event]. split; [intros q Hq; apply (lookup_insert_ne (M := gmap string)); done|]. right. exists b, (str_take n x). split; [done|]. split; [apply (lookup_insert (M := gmap string))|done].
Qed.
End Files.
