(** * Properties C16, C20-C26, C75, C80-C82 *)
From stdpp Require Import base gmap strings list.
From Coq Require Import ZArith Lia Ascii String.
From Verif Require Import GoBase GoStr Json GoTime Types Marshal Keys Metadata Fetcher Repository SpecBasic StrProofs BasicProofs Toy Examples.
Open Scope Z_scope.

(** ** C16 *)
Theorem C16_hex_round_trip (b : string) : hexbytes_unmarshal (enc_hex b) = Ok b.
Proof. exact (hex_round_trip b). Qed.
Print Assumptions C16_hex_round_trip.
(** accepted: strings without escapes, of even length, of hex digits in either case *)
Theorem C16_hex_accepts (j : json) :
  (exists b, hexbytes_unmarshal j = Ok b) <->
  exists s, j = JStr s /\ Nat.Even (String.length s) /\
    Forall (fun c => c ∈ list_ascii_of_string "0123456789abcdefABCDEF") (list_ascii_of_string s).
Proof. exact (hex_accepts j). Qed.
Print Assumptions C16_hex_accepts.
Theorem C16_hex_case_insensitive (s t : string) :
  String.length s = String.length t ->
  (forall n c d, String.get n s = Some c -> String.get n t = Some d -> lower_ascii c = lower_ascii d) ->
  hex_decode s = hex_decode t.
Proof. exact (hex_case s t). Qed.
Print Assumptions C16_hex_case_insensitive.
Example C16_case : hexbytes_unmarshal (JStr "0aFf") = Ok (String (zb 10) (String (zb 255) "")) /\ is_ok (hexbytes_unmarshal (JStr "0aF")) = false.
Proof. vm_compute. auto. Qed.

(** ** C20 *)
Theorem C20_expiry_is_strict {T} {RT : RoleTy T} (x : T) (ref : Z) :
  is_expired x ref = true <-> instant (signed_expires x) < ref.
Proof. exact (after_spec ref (signed_expires x)). Qed.
Print Assumptions C20_expiry_is_strict.
Theorem C20_expiry_is_monotone {T} {RT : RoleTy T} (x : T) (ref ref' : Z) :
  is_expired x ref = true -> ref <= ref' -> is_expired x ref' = true.
Proof. exact (expired_mono x ref ref'). Qed.
Print Assumptions C20_expiry_is_monotone.
(** the four types take their own expires member *)
Theorem C20_expires_member (r : root_t) (s : snapshot_t) (t : timestamp_t) (g : targets_t) :
  signed_expires r = rt_expires r /\ signed_expires s = sn_expires s /\ signed_expires t = ts_expires t /\ signed_expires g = tg_expires g.
Proof. exact (conj eq_refl (conj eq_refl (conj eq_refl eq_refl))). Qed.
(** instants follow the calendar: the epoch, the next day, the zone, and the order of wall-clock times *)
Theorem C20_instants_follow_the_calendar :
  (forall h mi s ns off, instant (mkTime 1970 1 1 h mi s ns off) = (h * 3600 + mi * 60 + s - off) * 1000000000 + ns) /\
  (forall y m d y' m' d' h mi s ns off, next_day (y, m, d) (y', m', d') ->
     instant (mkTime y' m' d' h mi s ns off) = instant (mkTime y m d h mi s ns off) + 24 * 3600 * 1000000000) /\
  (forall t t', valid_time t -> valid_time t' -> t_off t = t_off t' -> lex_lt (clock t) (clock t') -> instant t < instant t').
Proof. exact instant_calendar. Qed.
Print Assumptions C20_instants_follow_the_calendar.
Example C20_case : is_expired (md_signed ex_targets) (instant t2030) = false /\ is_expired (md_signed ex_targets) (instant t2030 + 1) = true.
Proof. vm_compute. auto. Qed.
Example C20_calendar_case : next_day (2024, 2, 28) (2024, 2, 29) /\ next_day (2023, 2, 28) (2023, 3, 1) /\ valid_time t2030.
Proof.
  split; [|split].
  - apply (next_same 2024 2 28 29); [|lia]. right. right. left. split; [reflexivity|]. split; [|reflexivity]. left. split; [reflexivity|discriminate].
  - apply (next_month 2023 2 28); [|lia]. right. right. right. split; [reflexivity|]. split; [|reflexivity].
    intros [[H _]|H]; discriminate H.
  - split; [|cbn; lia]. exists 31. split; [left; split; [cbn; tauto|reflexivity]|cbn; lia].
Qed.

(** ** C21 *)
Theorem C21_metafile_check {CR : Crypto} (f : metafile) (data : string) :
  metafile_verify (Some f) data = Ok tt <->
  hashes_ok (mf_hashes f) data /\ (mf_length f = 0 \/ mf_length f = Z.of_nat (String.length data)).
Proof. exact (metafile_verify_ok f data). Qed.
Print Assumptions C21_metafile_check.
Theorem C21_metafile_check_error {CR : Crypto} (f : metafile) (data : string) :
  metafile_verify (Some f) data = Ok tt \/ exists msg, metafile_verify (Some f) data = Err (ErrLengthOrHashMismatch msg).
Proof. exact (metafile_verify_cases f data). Qed.
Print Assumptions C21_metafile_check_error.
Example C21_case : is_ok (metafile_verify (ex_meta 1 "abc") "abc") = true /\ is_ok (metafile_verify (ex_meta 1 "abc") "abd") = false.
Proof. vm_compute. auto. Qed.

(** ** C22 *)
Theorem C22_target_check {CR : Crypto} (f : targetfile) (data : string) :
  targetfile_verify f data = Ok tt <-> hashes_ok (tf_hashes f) data /\ tf_length f = Z.of_nat (String.length data).
Proof. exact (targetfile_verify_ok f data). Qed.
Print Assumptions C22_target_check.
Theorem C22_target_check_error {CR : Crypto} (f : targetfile) (data : string) :
  targetfile_verify f data = Ok tt \/ exists msg, targetfile_verify f data = Err (ErrLengthOrHashMismatch msg).
Proof. exact (targetfile_verify_cases f data). Qed.
Print Assumptions C22_target_check_error.
Example C22_case : is_ok (targetfile_verify (ex_file "abc") "abc") = true /\ is_ok (targetfile_verify (ex_file "abc") "abcd") = false.
Proof. vm_compute. auto. Qed.

(** ** C23: refuted (no hashes at all is accepted); true when a hash is listed *)
Theorem C23_refuted : exists (CR : Crypto) (f : targetfile) (j : json),
  targetfile_unmarshal j = Ok f /\ (forall alg dig, ~ lists (tf_hashes f) alg dig) /\
  forall data, String.length data = 3%nat -> targetfile_verify f data = Ok tt.
Proof. exact (ex_intro _ toy_crypto no_hash_target). Qed.
Print Assumptions C23_refuted.
Theorem C23_some_hash {CR : Crypto} (f : targetfile) (data : string) :
  (exists alg dig, lists (tf_hashes f) alg dig) -> targetfile_verify f data = Ok tt ->
  lists (tf_hashes f) "sha256" (sha256 data) \/ lists (tf_hashes f) "sha512" (sha512 data).
Proof. exact (some_hash f data). Qed.
Print Assumptions C23_some_hash.

(** ** C24 *)
Theorem C24_generated_description {CR : Crypto} (path data : string) (algs : list string) (f : targetfile) :
  targetfile_from_bytes path data algs = Ok f <->
  (forall a, a ∈ match algs with [] => ["sha256"] | _ => algs end -> a = "sha256" \/ a = "sha512") /\
  tf_path f = path /\ tf_length f = Z.of_nat (String.length data) /\ tf_custom f = None /\ tf_unrec f = None /\
  exists m, tf_hashes f = Some m /\
    forall alg dig, m !! alg = Some dig <-> alg ∈ match algs with [] => ["sha256"] | _ => algs end /\ is_digest data alg dig.
Proof. exact (targetfile_from_bytes_ok path data algs f). Qed.
Print Assumptions C24_generated_description.
Theorem C24_unsupported_algorithm {CR : Crypto} (path data : string) (algs : list string) a :
  a ∈ algs -> a <> "sha256" -> a <> "sha512" -> exists msg, targetfile_from_bytes path data algs = Err (ErrValue msg).
Proof. exact (targetfile_from_bytes_err path data algs a). Qed.
Print Assumptions C24_unsupported_algorithm.
Theorem C24_accepts_same_digests {CR : Crypto} (path data : string) (algs : list string) (f : targetfile) (data' : string) :
  targetfile_from_bytes path data algs = Ok f ->
  (targetfile_verify f data' = Ok tt <->
   String.length data' = String.length data /\
   forall alg, alg ∈ match algs with [] => ["sha256"] | _ => algs end ->
     (alg = "sha256" -> sha256 data' = sha256 data) /\ (alg = "sha512" -> sha512 data' = sha512 data)).
Proof. exact (generated_accepts path data algs f data'). Qed.
Print Assumptions C24_accepts_same_digests.
Example C24_case : exists f, targetfile_from_bytes "p" "data" ["sha512"; "sha256"] = Ok f.
Proof. eexists. reflexivity. Qed.

(** ** C25 *)
Theorem C25_equality_exact (a b : targetfile) :
  targetfile_equal a b = true <->
  tf_length a = tf_length b /\
  (exists alg d, lists (tf_hashes a) alg d /\ lists (tf_hashes b) alg d) /\
  (forall alg d d', lists (tf_hashes a) alg d -> lists (tf_hashes b) alg d' -> d = d').
Proof. exact (targetfile_equal_spec a b). Qed.
Print Assumptions C25_equality_exact.
Theorem C25_symmetric (a b : targetfile) : targetfile_equal a b = targetfile_equal b a.
Proof. exact (targetfile_equal_sym a b). Qed.
Print Assumptions C25_symmetric.
Theorem C25_identical_when_same_algorithms (a b : targetfile) :
  targetfile_equal a b = true ->
  (forall alg, (exists d, lists (tf_hashes a) alg d) <-> (exists d, lists (tf_hashes b) alg d)) ->
  tf_length a = tf_length b /\ forall alg d, lists (tf_hashes a) alg d <-> lists (tf_hashes b) alg d.
Proof. exact (targetfile_equal_same a b). Qed.
Print Assumptions C25_identical_when_same_algorithms.
Example C25_case : targetfile_equal (ex_file "abc") (ex_file "abc") = true /\ targetfile_equal (ex_file "abc") (ex_file "abd") = false.
Proof. vm_compute. auto. Qed.

(** ** C26: refuted; reflexive exactly for descriptions with a hash; transitive when the middle one has all algorithms *)
Theorem C26_refuted :
  (exists a, targetfile_equal a a = false) /\
  (exists a b c, targetfile_equal a b = true /\ targetfile_equal b c = true /\ targetfile_equal a c = false).
Proof. exact equal_not_equivalence. Qed.
Print Assumptions C26_refuted.
Theorem C26_reflexive_iff (a : targetfile) :
  targetfile_equal a a = true <-> exists alg d, lists (tf_hashes a) alg d.
Proof. exact (targetfile_equal_refl a). Qed.
Print Assumptions C26_reflexive_iff.
Theorem C26_transitive_same_algorithms (a b c : targetfile) :
  (forall alg, (exists d, lists (tf_hashes a) alg d) <-> (exists d, lists (tf_hashes b) alg d)) ->
  targetfile_equal a b = true -> targetfile_equal b c = true -> targetfile_equal a c = true.
Proof. exact (targetfile_equal_trans a b c). Qed.
Print Assumptions C26_transitive_same_algorithms.

(** ** C75 *)
Theorem C75_download_exact (r : response) (url : string) (maxlen : Z) (data : string) :
  0 <= maxlen < 2 ^ 63 - 1 ->
  download_file (Ok r) url maxlen = Ok data <->
  rs_status r = 200 /\ (rs_length r = "" \/ exists n, dec_number (rs_length r) n /\ n <= maxlen) /\
  rs_broken r = false /\ Z.of_nat (String.length (rs_body r)) <= maxlen /\ data = rs_body r.
Proof. exact (download_file_ok r url maxlen data). Qed.
Print Assumptions C75_download_exact.
Theorem C75_never_exceeds (res : outcome response) (url : string) (maxlen : Z) (data : string) :
  - 2 ^ 63 <= maxlen < 2 ^ 63 -> download_file res url maxlen = Ok data -> Z.of_nat (String.length data) <= maxlen.
Proof. exact (download_file_bounded res url maxlen data). Qed.
Print Assumptions C75_never_exceeds.
Theorem C75_http_status (r : response) (url : string) (maxlen : Z) :
  rs_status r <> 200 -> download_file (Ok r) url maxlen = Err (ErrDownloadHTTP (rs_status r) url).
Proof. exact (download_file_status (Ok r) url maxlen r eq_refl). Qed.
Print Assumptions C75_http_status.
(** why the largest limit is excluded above: maxLength+1 overflows and every body is read as empty *)
Theorem C75_largest_limit_refuted : exists body url,
  body <> "" /\ download_file (Ok (mkResponse 200 "" body false)) url (2 ^ 63 - 1) = Ok "".
Proof. exact download_file_overflow_ex. Qed.
Print Assumptions C75_largest_limit_refuted.
Example C75_case : download_file (Ok (mkResponse 200 "+005" "hello" false)) "u" 5 = Ok "hello" /\
  is_ok (download_file (Ok (mkResponse 200 "" "hello" false)) "u" 4) = false /\
  is_ok (download_file (Ok (mkResponse 200 "6" "hello" false)) "u" 5) = false /\ dec_number "+005" 5.
Proof.
  split; [done|]. split; [done|]. split; [done|]. apply parse_int_dec. done.
Qed.

(** ** C80 *)
Theorem C80_repository_errors (e : gerr) :
  errors_is e (ErrRepository "") = true <->
  (exists m, let i := innermost e in i = ErrUnsignedMetadata m \/ i = ErrBadVersionNumber m \/ i = ErrEqualVersionNumber m \/
     i = ErrExpiredMetadata m \/ i = ErrLengthOrHashMismatch m)
  \/ innermost e = ErrRepository "".
Proof. exact (errors_is_repository_all e). Qed.
Print Assumptions C80_repository_errors.
Theorem C80_bad_version_errors (e : gerr) :
  errors_is e (ErrBadVersionNumber "") = true <->
  exists m, innermost e = ErrBadVersionNumber m \/ innermost e = ErrEqualVersionNumber m.
Proof. exact (errors_is_bad_version_all e). Qed.
Print Assumptions C80_bad_version_errors.
Theorem C80_download_errors (e : gerr) :
  errors_is e (ErrDownload "") = true <->
  (exists m, innermost e = ErrDownloadLengthMismatch m) \/ (exists s u, innermost e = ErrDownloadHTTP s u) \/ innermost e = ErrDownload "".
Proof. exact (errors_is_download_all e). Qed.
Print Assumptions C80_download_errors.
Theorem C80_single_errors (e : gerr) :
  (errors_is e (ErrUnsignedMetadata "") = true <-> exists m, innermost e = ErrUnsignedMetadata m) /\
  (errors_is e (ErrEqualVersionNumber "") = true <-> exists m, innermost e = ErrEqualVersionNumber m) /\
  (errors_is e (ErrExpiredMetadata "") = true <-> exists m, innermost e = ErrExpiredMetadata m) /\
  (errors_is e (ErrLengthOrHashMismatch "") = true <-> exists m, innermost e = ErrLengthOrHashMismatch m) /\
  (errors_is e (ErrDownloadLengthMismatch "") = true <-> exists m, innermost e = ErrDownloadLengthMismatch m) /\
  (errors_is e (ErrDownloadHTTP 0 "") = true <-> exists s u, innermost e = ErrDownloadHTTP s u) /\
  (errors_is e (ErrValue "") = true <-> innermost e = ErrValue "") /\
  (errors_is e (ErrType "") = true <-> innermost e = ErrType "") /\
  (errors_is e (ErrRuntime "") = true <-> innermost e = ErrRuntime "").
Proof. exact (errors_is_leaf_all e). Qed.
Print Assumptions C80_single_errors.
Theorem C80_families_disjoint (e : gerr) :
  ~ (errors_is e (ErrRepository "") = true /\ errors_is e (ErrDownload "") = true).
Proof. exact (errors_families e). Qed.
Print Assumptions C80_families_disjoint.
Example C80_case : errors_is (EWrap "json" (ErrEqualVersionNumber "new version")) (ErrRepository "") = true.
Proof. done. Qed.

(** ** C81: refuted; only the empty message is recognised *)
Theorem C81_refuted : exists m, errors_is (ErrRepository m) (ErrRepository "") = false.
Proof. exact (ex_intro _ "x" eq_refl). Qed.
Print Assumptions C81_refuted.
Theorem C81_only_empty_message (m : string) : errors_is (ErrRepository m) (ErrRepository "") = true <-> m = "".
Proof. exact (errors_is_repo_msg m). Qed.
Print Assumptions C81_only_empty_message.

(** ** C82 *)
(** the calls of the store and, read off a history, the latest value stored for each role *)
Inductive set_call :=
  | SetRoot (m : option (metadata root_t)) | SetSnapshot (m : option (metadata snapshot_t))
  | SetTimestamp (m : option (metadata timestamp_t)) | SetTargets (name : string) (m : option (metadata targets_t)).
Definition run_call (c : set_call) (r : repository) : repository :=
  match c with
  | SetRoot m => repo_set_root m r | SetSnapshot m => repo_set_snapshot m r
  | SetTimestamp m => repo_set_timestamp m r | SetTargets n m => repo_set_targets n m r
  end.
Definition run_calls (l : list set_call) : repository := fold_left (fun r c => run_call c r) l repo_new.
(** the value of the last call selected by [f], nil if there is none *)
Definition latest {A} (f : set_call -> option (option A)) (l : list set_call) (v : option A) : Prop :=
  (exists l1 c l2, l = l1 ++ c :: l2 /\ f c = Some v /\ Forall (fun c => f c = None) l2)
  \/ (Forall (fun c => f c = None) l /\ v = None).
Lemma latest_fold {A} (f : set_call -> option (option A)) (get : repository -> option A) :
  get repo_new = None -> (forall c r, get (run_call c r) = default (get r) (f c)) ->
  forall l, latest f l (get (run_calls l)).
Proof.
  intros H0 Hs l. induction l as [|c l IH] using rev_ind.
  - right. split; [constructor|done].
  - unfold run_calls. rewrite fold_left_app. cbn. rewrite Hs. destruct (f c) as [v|] eqn:E; cbn.
    + left. exists l, c, []. split; [done|]. split; [done|constructor].
    + destruct IH as [(l1 & d & l2 & -> & Hd & Hf)|[Hf Hn]].
      * left. exists l1, d, (l2 ++ [c]). split; [by rewrite <- app_assoc|]. split; [done|]. apply Forall_app. split; [done|]. by constructor.
      * right. split; [apply Forall_app; split; [done|by constructor]|done].
Qed.
Theorem C82_store (l : list set_call) (name : string) :
  latest (fun c => match c with SetRoot m => Some m | _ => None end) l (repo_root (run_calls l)) /\
  latest (fun c => match c with SetSnapshot m => Some m | _ => None end) l (repo_snapshot (run_calls l)) /\
  latest (fun c => match c with SetTimestamp m => Some m | _ => None end) l (repo_timestamp (run_calls l)) /\
  latest (fun c => match c with SetTargets n m => if decide (n = name) then Some m else None | _ => None end) l (repo_targets name (run_calls l)).
Proof.
  repeat split; apply latest_fold; try done; intros []; cbn; try done.
  intros r. unfold repo_targets, repo_set_targets. cbn. destruct (decide (name0 = name)) as [->|Hn]; cbn.
  - by rewrite lookup_insert.
  - by rewrite lookup_insert_ne.
Qed.
Print Assumptions C82_store.
Example C82_case : repo_targets "a" (run_calls [SetTargets "a" (Some ex_targets); SetRoot None; SetTargets "b" None]) = Some ex_targets.
Proof. reflexivity. Qed.
