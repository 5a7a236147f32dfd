(** * Properties C90 and C91: indented output, metadata files *)
From stdpp Require Import base gmap strings list.
From Coq Require Import ZArith Lia Ascii String.
From Verif Require Import GoBase GoStr Json GoTime SpecUtf8 Types Marshal Keys Metadata TrustedMetadata Updater SpecSerial SpecRound RoundBase RoundStructs CanonProofs SpecBasic BasicProofs SpecUpdater SpecPublish Files SpecFiles IndentProofs FilesProofs PublishProofs Toy Examples ExamplesUpdater.
Open Scope Z_scope.

(** ** C90 *)
(** ToBytes(true) fails when ToBytes(false) does, and otherwise gives the same text up to white space outside string
    literals *)
Theorem C90_layout {T} {RT : RoleTy T} (m : metadata T) :
  match to_bytes_fmt false m with
  | Ok b => exists b', to_bytes_fmt true m = Ok b' /\ same_layout false false b' b
  | Err e => to_bytes_fmt true m = Err e
  | Panic => to_bytes_fmt true m = Panic
  end.
Proof. destruct (to_bytes_fmt false m) as [b| |] eqn:E; [by apply pretty_layout| |]; revert E; unfold to_bytes_fmt; destruct (to_bytes m); cbn; congruence. Qed.
Print Assumptions C90_layout.
(** Loading treats both alike, into whichever type *)
Theorem C90_loads_alike {T U} {RT : RoleTy T} {RU : RoleTy U} (m : metadata T) b b' : to_bytes_fmt false m = Ok b -> to_bytes_fmt true m = Ok b' -> is_json b ->
  from_bytes (T := U) b' = from_bytes (T := U) b.
Proof. intros Hb Hb' Hj. unfold from_bytes. by rewrite (pretty_reads m b b' Hb Hb' Hj). Qed.
Print Assumptions C90_loads_alike.
(** What can be written is JSON in both forms and is read back *)
Theorem C90_save_load {T} {RT : RoleTy T} {SS : SignedSpec T} (m : metadata T) pretty : tuf_role T RT SS -> writable m ->
  exists b, to_bytes_fmt pretty m = Ok b /\ is_json b /\ from_bytes b = Ok (metadata_kept m).
Proof. exact (fmt_save_load m pretty). Qed.
Print Assumptions C90_save_load.
(** json.Indent changes the reading of no document at all *)
Theorem C90_indent s j : parse_json s = Some j -> parse_json (json_indent false false false 0 s) = Some j.
Proof. exact (indent_reads s j). Qed.
Print Assumptions C90_indent.
Definition lf : string := String "010" "".
Definition tab : string := String "009" "".
Definition qt (s : string) : string := String "034" (s +:+ String "034" "").
Example C90_case : json_indent false false false 0 ("{" +:+ qt "a: [" +:+ ":[1,{}]," +:+ qt "b" +:+ ":[]}") =
  "{" +:+ lf +:+ tab +:+ qt "a: [" +:+ ": [" +:+ lf +:+ tab +:+ tab +:+ "1," +:+ lf +:+ tab +:+ tab +:+ "{}" +:+ lf +:+ tab +:+ "]," +:+ lf +:+ tab +:+ qt "b" +:+ ": []" +:+ lf +:+ "}" /\
  writable (Targets t2030) /\ is_json "[1]".
Proof.
  split; [vm_compute; reflexivity|]. assert (Ht : time_ok t2030) by (vm_compute; repeat split; try reflexivity; intros [=]). split; [|exists (JArr [JNum "1"]); reflexivity]. split.
  - split; [by apply targets_new_wf|]. split; [done|]. split; [by apply Forall_nil|]. split; [|done]. unfold unique_key_ids. constructor.
  - apply easy_document; [by apply easy_targets|by apply Forall_nil|done].
Qed.

(** ** C91 *)
(** After a successful ToFile the file holds the written form, no other file changed, and FromFile gives the object back
    (or an error if reading fails) *)
Theorem C91_saved {T} {RT : RoleTy T} {SS : SignedSpec T} E (m : metadata T) name pretty i i' : tuf_role T RT SS -> writable m -> to_file E m name pretty i = (i', Ok tt) ->
  (forall q, q <> name -> io_disk i' !! q = io_disk i !! q) /\
  (exists b, to_bytes_fmt pretty m = Ok b /\ io_disk i' !! name = Some b) /\
  forall E2 i2 i3 (o : outcome (metadata T)), io_disk i2 !! name = io_disk i' !! name -> from_file E2 name i2 = (i3, o) ->
    (e_io E2 (io_trace i2) = true /\ o = Ok (metadata_kept m)) \/ (e_io E2 (io_trace i2) = false /\ exists e, o = Err e).
Proof.
  intros Hr Hw (b & Hb & _ & ->)%to_file_ok. cbn [io_disk].
  assert (forall q, q <> name -> <[name:=b]> (io_disk i) !! q = io_disk i !! q) as Hq by (intros q Hq; apply (lookup_insert_ne (M := gmap string)); done).
  assert (<[name:=b]> (io_disk i) !! name = Some b) as Hn by apply (lookup_insert (M := gmap string)).
  split; [done|]. split; [eauto|]. intros E2 i2 i3 o Hd Hf. apply from_file_spec in Hf as [_ Hf]. rewrite Hd, Hn in Hf. destruct Hf as [[H1 ->]|H]; [|by right]. left. split; [done|].
  destruct (fmt_save_load m pretty Hr Hw) as (b2 & Hb2 & _ & Hl). rewrite Hb in Hb2. by injection Hb2 as <-.
Qed.
Print Assumptions C91_saved.
(** ToFile fails, or the process is stopped anywhere inside it: only this file is affected; it is as before, or it holds
    the new object, or it cannot be loaded into any type.  Never does it hold different metadata. *)
Theorem C91_interrupted {T} {RT : RoleTy T} {SS : SignedSpec T} E (m : metadata T) name pretty i i' o evs d : tuf_role T RT SS -> writable m ->
  to_file E m name pretty i = (i', o) -> did i i' evs -> crash (io_disk i) evs d ->
  (forall q, q <> name -> d !! q = io_disk i !! q) /\
  (d !! name = io_disk i !! name \/
   exists x, d !! name = Some x /\ (from_bytes (T := T) x = Ok (metadata_kept m) \/ forall U (RU : RoleTy U), from_bytes (T := U) x = Err (EOther "invalid JSON"))).
Proof.
  intros Hr Hw Hf Hd Hc. destruct (torn_file _ _ _ _ _ _ _ _ _ Hf Hd Hc) as (Hq & Hn). split; [done|]. destruct Hn as [Hn|(b & x & Hb & Hx & Hc')]; [by left|]. right. exists x. split; [done|].
  destruct (fmt_save_load m pretty Hr Hw) as (b2 & Hb2 & Hj & Hl). rewrite Hb in Hb2. injection Hb2 as <-. destruct Hc' as [-> |Hc']; [by left|]. right. intros U RU. apply unread. by apply (torn_unread m pretty b x).
Qed.
Print Assumptions C91_interrupted.
(** the same for the disk that a ToFile leaves which returned an error *)
Theorem C91_failed {T} {RT : RoleTy T} {SS : SignedSpec T} E (m : metadata T) name pretty i i' e : tuf_role T RT SS -> writable m -> to_file E m name pretty i = (i', Err e) ->
  (forall q, q <> name -> io_disk i' !! q = io_disk i !! q) /\
  (io_disk i' !! name = io_disk i !! name \/
   exists x, io_disk i' !! name = Some x /\ (from_bytes (T := T) x = Ok (metadata_kept m) \/ forall U (RU : RoleTy U), from_bytes (T := U) x = Err (EOther "invalid JSON"))).
Proof.
  intros Hr Hw Hf. destruct (to_file_effect _ _ _ _ _ _ _ Hf) as (evs & Hd & Hdisk & _). apply (C91_interrupted E m name pretty i i' _ evs (io_disk i') Hr Hw Hf Hd).
  exists evs, []. rewrite app_nil_r. split; [done|]. by left.
Qed.
Print Assumptions C91_failed.
(** not atomic: saving over a file that can be loaded may leave one that cannot *)
Theorem C91_atomic_refuted : exists E (m : metadata targets_t) i i' evs d, writable m /\ to_file E m "targets.json" false i = (i', Ok tt) /\ did i i' evs /\ crash (io_disk i) evs d /\
  (exists x m0, io_disk i !! "targets.json" = Some x /\ from_bytes (T := targets_t) x = Ok m0) /\
  (exists x, d !! "targets.json" = Some x /\ from_bytes (T := targets_t) x = Err (EOther "invalid JSON")).
Proof.
  destruct (fmt_save_load (Targets t2030) false is_targets ltac:(apply C90_case)) as (b & Hb & _ & Hl). destruct (fmt_braces _ _ _ Hb) as ((y & Hy) & _).
  exists (ex_env []), (Targets t2030), (mkIos {["targets.json" := b]} []), (mkIos (<["targets.json" := b]> {["targets.json" := b]}) [EvWrite "targets.json" b]), [EvWrite "targets.json" b], (<["targets.json" := "{"]> {["targets.json" := b]}).
  split; [apply C90_case|]. split; [apply to_file_ok; exists b; done|]. split; [done|]. split.
  - exists [], [EvWrite "targets.json" b]. split; [done|]. right. exists "targets.json", b, [], 1%nat. split; [done|]. rewrite Hy. done.
  - split; [exists b, (metadata_kept (Targets t2030)); split; [apply (lookup_singleton (M := gmap string))|done]|]. exists "{". split; [apply (lookup_insert (M := gmap string))|]. reflexivity.
Qed.
Print Assumptions C91_atomic_refuted.
(** a description made from a file describes the data in the file *)
Theorem C91_target_from_file {CR : Crypto} E path algs i i' f : targetfile_from_file E path algs i = (i', Ok f) ->
  io_disk i' = io_disk i /\ exists data, io_disk i !! path = Some data /\ tf_path f = path /\ targetfile_verify f data = Ok tt /\ targetfile_from_bytes path data algs = Ok f.
Proof.
  unfold targetfile_from_file, sbind, read_file, sout, log. destruct (io_disk i !! path) as [data|] eqn:Ed; [|done]. destruct (e_io E (io_trace i)); [|done]. intros [= <- Hf]. split; [done|]. exists data. split; [done|].
  split; [by apply targetfile_from_bytes_ok in Hf as (_ & ? & _)|]. split; [|done]. by apply (generated_accepts path data algs f data Hf).
Qed.
Print Assumptions C91_target_from_file.
Example C91_case : let i := mkIos {["p" := "data"]} [] in
  (exists i' f, targetfile_from_file (CR := toy_crypto) (ex_env []) "p" [] i = (i', Ok f)) /\
  (exists i', to_file (ex_env []) (Targets t2030) "x" true i = (i', Ok tt)) /\
  (exists i' e, to_file (ex_env_failing 0 []) (Targets t2030) "x" true i = (i', Err e) /\ io_disk i' !! "x" = Some ("{" +:+ lf +:+ tab)).
Proof.
  cbv zeta. split; [eexists _, _; vm_compute; reflexivity|]. destruct (fmt_save_load (Targets t2030) true is_targets ltac:(apply C90_case)) as (b & Hb & _ & Hl). split.
  - eexists. apply to_file_ok. exists b. done.
  - eexists _, _. split; [unfold to_file, sbind, sout; rewrite Hb; reflexivity|]. cbn [io_disk log].
    assert (str_take 3 b = "{" +:+ lf +:+ tab) as <-; [|apply (lookup_insert (M := gmap string))]. revert Hb. clear. vm_compute. intros [= <-]. reflexivity.
Qed.
