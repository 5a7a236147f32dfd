(** * Property C17: loading, saving and loading again *)
From stdpp Require Import base gmap strings list.
From Coq Require Import ZArith Lia Ascii String.
From Verif Require Import GoBase GoStr Json GoTime Types Marshal Keys Metadata SpecUtf8 SpecText SpecSerial JsonProofs RoundProofs SpecRound RoundKept SpecExtra SpecLoad LoadProofs PropertiesSerial.
Open Scope Z_scope.

(** ** C17 *)
(** Metadata loaded from any bytes and saved again: the saved bytes load, with the same content ([metadata_kept] drops
    only nil-ness of empty maps, and succinct roles that stand beside listed roles), and the signing payload is the same.
    Needed: no unrecognised member name equals a known one in another letter case. *)
Theorem C17_reload {T} {RT : RoleTy T} {SS : SignedSpec T} {CS : ClearSpec T} (data b : string) (m : metadata T) : tuf_role_c T RT SS CS ->
  from_bytes data = Ok m -> to_bytes m = Ok b -> metadata_clear m ->
  exists m', from_bytes b = Ok m' /\ m' = metadata_kept m /\ to_bytes m' = Ok b /\ signing_payload (md_signed m') = signing_payload (md_signed m).
Proof. intros Hr Hf Hb Hc. destruct (load_save_load data b m Hr Hf Hb Hc) as (H1 & H2 & H3). by exists (metadata_kept m). Qed.
Print Assumptions C17_reload.
(** from the first save on, saving and loading change nothing *)
Theorem C17_stable {T} {RT : RoleTy T} {SS : SignedSpec T} {CS : ClearSpec T} (data b : string) (m m' : metadata T) : tuf_role_c T RT SS CS ->
  from_bytes data = Ok m -> to_bytes m = Ok b -> metadata_clear m -> from_bytes b = Ok m' ->
  to_bytes m' = Ok b /\ md_sigs m' = option_map (map signature_kept) (md_sigs m) /\ metadata_kept m' = m'.
Proof.
  intros Hr Hf Hb Hc Hf'. destruct (load_save_load data b m Hr Hf Hb Hc) as (H1 & H2 & H3). assert (m' = metadata_kept m) as -> by congruence.
  split; [done|]. split; [done|]. apply (metadata_kept_idem (RT := RT)). by apply role_c.
Qed.
Print Assumptions C17_stable.

Definition clear_b (names : list string) (u : unrec) : bool := forallb (fun kv => forallb (fun n => negb (String.eqb (fold_key n) (fold_key kv.1))) names) (mlist u).
Lemma clear_b_spec names u : clear_b names u = true -> clear_names names u.
Proof.
  unfold clear_b. rewrite forallb_forall. intros H k v Hk%mlist_elem%elem_of_list_In n Hn%elem_of_list_In Hf. specialize (H _ Hk). rewrite forallb_forall in H. specialize (H n Hn). cbn in H.
  rewrite Hf, String.eqb_refl in H. done.
Qed.
Definition ts_clear_b (m : metadata timestamp_t) : bool :=
  forallb (fun kv => match kv.2 with Some x => clear_b in_metafile (mf_unrec x) | None => true end) (mlist (ts_meta (md_signed m))) && clear_b in_snapshot (ts_unrec (md_signed m)) &&
  forallb (fun s => clear_b in_signature (sig_unrec s)) (slist (md_sigs m)) && clear_b in_metadata (md_unrec m).
Lemma ts_clear_b_spec m : ts_clear_b m = true -> metadata_clear m.
Proof.
  unfold ts_clear_b. rewrite !andb_true_iff, !forallb_forall. intros (((H1 & H2) & H3) & H4). split; [split|split].
  - intros k x Hk%mlist_elem%elem_of_list_In. apply clear_b_spec. apply (H1 _ Hk).
  - by apply clear_b_spec.
  - apply Forall_forall. intros s Hs%elem_of_list_In. apply clear_b_spec. by apply H3.
  - by apply clear_b_spec.
Qed.
(** a document with unrecognised members, white space, an escaped string and a signature *)
Definition c17_doc : string :=
  "{""signatures"": [{""keyid"":""a"",""sig"":""00"",""z"":[1.50,true]}], ""q"": null, ""signed"": {""version"":3, ""_type"":""timestamp"", ""x"": {""b"":1,""a"":""A""}, ""expires"":""2030-01-01T00:00:00Z"", ""spec_version"":""1.0.31"", ""meta"":{""snapshot.json"":{""version"":7,""custom"":1e2}}}}".
Example C17_case : exists (m : metadata timestamp_t) b, from_bytes c17_doc = Ok m /\ to_bytes m = Ok b /\ metadata_clear m /\ signed_version (md_signed m) = 3 /\ b <> c17_doc.
Proof.
  enough (match from_bytes (T := timestamp_t) c17_doc with
          | Ok m => match to_bytes m with Ok b => ts_clear_b m && (signed_version (md_signed m) =? 3) && negb (String.eqb b c17_doc) | _ => false end | _ => false end = true) as H.
  { destruct (from_bytes c17_doc) as [m| |] eqn:E; [|done..]. destruct (to_bytes m) as [b| |] eqn:Eb; [|done..]. apply andb_prop in H as [[H1 H2%Z.eqb_eq]%andb_prop H3%negb_true_iff].
    exists m, b. split; [done|]. split; [done|]. split; [by apply ts_clear_b_spec|]. split; [done|]. by apply String.eqb_neq. }
  vm_compute. reflexivity.
Qed.
(** With a look-alike name the version changes: "ver\197\191ion" is read as "version", and is written after it *)
Definition c17_long_s : string := str_of [118; 101; 114; 197; 191; 105; 111; 110].
Definition c17_signed (first : string * json) : json :=
  JObj ([first; ("_type", JStr "timestamp"); ("version", JNum "1"); ("spec_version", JStr "1.0.31"); ("expires", JStr "2030-01-01T00:00:00Z"); ("meta", JObj [])]).
Definition c17_twice (data : string) : bool * bool :=
  match from_bytes (T := timestamp_t) data with
  | Ok m => match to_bytes m with
            | Ok b => match from_bytes (T := timestamp_t) b with
                      | Ok m' => (true, signed_version (md_signed m) =? signed_version (md_signed m'))
                      | _ => (false, false)
                      end
            | _ => (true, true)
            end
  | _ => (true, true)
  end.
Theorem C17_content_refuted : exists (data b : string) (m m' : metadata timestamp_t),
  from_bytes data = Ok m /\ to_bytes m = Ok b /\ from_bytes b = Ok m' /\ signed_version (md_signed m') <> signed_version (md_signed m).
Proof.
  assert (c17_twice (doc (c17_signed (c17_long_s, JNum "5")) (JArr [])) = (true, false)) as H by (vm_compute; reflexivity).
  unfold c17_twice in H. set (data := doc _ _) in *. destruct (from_bytes data) as [m| |] eqn:E; [|done..]. destruct (to_bytes m) as [b| |] eqn:Eb; [|done..].
  destruct (from_bytes b) as [m'| |] eqn:E'; [|done..]. exists data, b, m, m'. split; [done|]. split; [done|]. split; [done|]. apply (f_equal snd) in H. cbn [snd] in H. apply Z.eqb_neq in H. by apply not_eq_sym.
Qed.
Print Assumptions C17_content_refuted.
(** or the saved file does not load any more: "VERSION" is kept as a 64-bit float, too large for an int64 *)
Theorem C17_reload_refuted : exists (data b : string) (m : metadata timestamp_t), from_bytes data = Ok m /\ to_bytes m = Ok b /\ forall m' : metadata timestamp_t, from_bytes b <> Ok m'.
Proof.
  assert (c17_twice (doc (c17_signed ("VERSION", JNum "9223372036854775807")) (JArr [])) = (false, false)) as H by (vm_compute; reflexivity).
  unfold c17_twice in H. set (data := doc _ _) in *. destruct (from_bytes data) as [m| |] eqn:E; [|done..]. destruct (to_bytes m) as [b| |] eqn:Eb; [|done..].
  exists data, b, m. split; [done|]. split; [done|]. intros m' Hm'. by rewrite Hm' in H.
Qed.
Print Assumptions C17_reload_refuted.
