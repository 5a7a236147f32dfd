{
 "C04": {
  "status": "proved",
  "note": "False as stated of the code: C04_refuted exhibits documents with threshold 0. C04_positive_root and C04_positive_targets are the strongest true versions."
 },
 "C05": {
  "status": "proved",
  "note": "False as stated of the code: C05_refuted lists one key under two IDs. C05_distinct_keys holds when different listed IDs resolve to different keys."
 },
 "C06": {
  "status": "proved",
  "note": "False as stated for succinct roles (C06_refuted: any role name passes). C06_standard_delegations proves it for listed roles."
 },
 "C07": {
  "status": "proved",
  "note": "False as stated (C07_refuted: null key, wrong-length ed25519 key). The no_panic theorems and C07_panic_iff describe exactly when it is true."
 },
 "C23": {
  "status": "proved",
  "note": "False as stated: C23_refuted gives a decodable description without hashes that accepts any data of the right length. C23_some_hash is the true version."
 },
 "C26": {
  "status": "proved",
  "note": "False as stated: C26_refuted. C26_reflexive_iff and C26_transitive_same_algorithms say when it holds."
 },
 "C75": {
  "status": "proved",
  "note": "Exact for limits 0 <= maxLength < MaxInt64; at MaxInt64 the code overflows (C75_largest_limit_refuted). The bound on the returned data holds for every limit."
 },
 "C81": {
  "status": "proved",
  "note": "False as stated: C81_refuted; only the empty message is recognised (C81_only_empty_message)."
 },
 "C27": {
  "status": "proved",
  "note": "Exact for ASCII target paths with any pattern; for other byte strings no false match against the byte-level reading. C27_multibyte_refuted shows why: after a star the code matches from the middle of multi-byte characters."
 },
 "C28": {
  "status": "proved",
  "note": "False as stated: C28_refuted (for every digest function and path); the code compares base64 (C28_base64_prefix)."
 },
 "C31": {
  "status": "proved",
  "note": "False as stated: C31_refuted; C31_bins_accepted, C31_accepted_exactly and C31_lower_case_digits say what is accepted."
 },
 "C32": {
  "status": "proved",
  "note": "False as stated: C32_refuted; C32_panics_iff says exactly when it panics."
 },
 "C34": {
  "status": "proved",
  "note": "Exact effect for any root metadata. A failing call returns no new object in the model; the Go code makes no assignment before its error returns (checked by reading)."
 },
 "C35": {
  "status": "proved",
  "note": "Exact effects for standard and succinct delegations. Refuted for delegations with neither kind of roles: AddKey succeeds for any role name (C35_no_roles_refuted)."
 },
 "C36": {
  "status": "proved",
  "note": "Hypothesis pem_round_trip states what is relied upon from the PEM/x509 libraries; ed25519 needs nothing."
 },
 "C37": {
  "status": "proved",
  "note": "Also proved: ID() panics exactly when the content has no canonical form, which a parsed key can trigger (C37_id_panic_refuted)."
 },
 "C38": {
  "status": "proved",
  "note": "Refuted at the largest 64-bit version (C38_overflow_refuted: the accepted successor wraps around); C38_root_chain and C38_chain_versions prove the chain for every history and exact version arithmetic below that bound."
 },
 "C39": {
  "status": "proved",
  "note": "If the trusted snapshot is itself expired or mismatching, a role loaded before its delegator fails with that error instead of the runtime error (C39_delegator_first)."
 },
 "C44": {
  "status": "proved",
  "note": "The acceptance half holds for every call. The half about reachable states is refuted for arbitrary API call sequences (C44_refuted) and proved for calls made as the client makes them: no role loaded twice, root as delegator only for targets or after targets (C44_loaded_agree)."
 },
 "C45": {
  "status": "proved",
  "note": "C45_panicked_calls also covers calls that panic."
 },
 "C47": {
  "status": "proved",
  "note": "Top-level timestamp/snapshot: every history. Delegated roles: refuted for arbitrary call sequences (C47_refuted, reloading the delegator), proved for calls as the client makes them (C47_delegation_chain)."
 },
 "C48": {
  "status": "proved",
  "note": "Refuted: {} panics in New, and a validly signed timestamp without snapshot.json makes later calls panic. The C48_*_no_panic theorems give sufficient well-formedness conditions for each operation."
 },
 "C12": {
  "status": "proved",
  "note": "The FromBytes half is false as stated (C12_loaded_type_refuted: _TYPE next to _type); C12_loaded_type holds for documents without a second spelling of signed or _type. The trusted-set half holds for every byte string (C12_held_types)."
 },
 "C11": {
  "status": "proved",
  "note": "The rejection error is ErrValue when every number fits a float; a document with a larger number is rejected before (C11_other_type_never_accepted)."
 },
 "C14": {
  "status": "proved",
  "note": "False as stated: C14_no_panic_refuted, C14_null_target_refuted. C14_panics_exactly characterises the panics for root, snapshot and timestamp; C14_targets_no_panic and C14_targets_untyped bound them for targets."
 },
 "C18": {
  "status": "proved",
  "note": "VerifyDelegate never succeeds for any delegator; it returns an error unless the delegator holds a null role or key, where it panics (C07)."
 },
 "C52": {
  "status": "proved",
  "note": "The bound on the versions excludes wrap-around at the largest 64-bit integer. evs1 are the events of the root update, evs2 all later ones."
 },
 "C54": {
  "status": "proved",
  "note": "C54_chain and C54_verified are the property as stated. That each role of the chain is signed with the keys its predecessor lists is proved for the first search of a session (C54_signed_first) and refuted for later ones (C54_signed_refuted: roles are cached by name only)."
 },
 "C57": {
  "status": "proved",
  "note": "False as stated: C57_order_refuted (GetRolesForTarget returns a Go map, the client iterates over it). C57_single_delegations: the answer is a function of the loaded metadata when no role delegates the path to two roles."
 },
 "C58": {
  "status": "proved",
  "note": "DownloadTarget writes the target file in place: C58_stored says that after a crash the file may hold a part of the verified data."
 },
 "C59": {
  "status": "proved",
  "note": "If no file name is given and none can be derived the call returns an error instead of an empty result (third case of C59_found)."
 },
 "C62": {
  "status": "proved",
  "note": "Proved for the first Refresh of a session; the hypothesis that the cached file was read is needed because a failing read is treated as an absent cache."
 },
 "C63": {
  "status": "proved",
  "note": "False as stated: C63_damaged_refuted (a file that is not JSON in the timestamp or snapshot file). C63_benign_cache says which cached files do not matter."
 },
 "C66": {
  "status": "proved",
  "note": "False as stated: C66_refuted. C66_three_files: the local timestamp, snapshot and targets files are the only ones that matter."
 },
 "C68": {
  "status": "proved",
  "note": "False as stated: C68_not_found_refuted, C68_outside_refuted (files are written under escaped names and looked for under unescaped ones). C68_same_file and C68_used hold for names of unreserved characters."
 },
 "C69": {
  "status": "proved",
  "note": "False as stated: C69_refuted. C69_delegated_only is the true version, for every crash point."
 },
 "C71": {
  "status": "proved",
  "note": "The hypotheses spell out what honest means; ExamplesHonest.v checks them for a concrete repository with a root rotation."
 },
 "C72": {
  "status": "proved",
  "note": "False as stated for nested directories: C72_nested_refuted. C72_flat and C72_one_directory hold otherwise; the hash is any of the listed ones (map iteration order)."
 },
 "C73": {
  "status": "proved",
  "note": "False as stated: C73_dots_refuted, C73_relative_refuted. C73_distinct and C73_inside hold for directory names without characters special in URLs; url.JoinPath is a parameter for other directories."
 },
 "C74": {
  "status": "proved",
  "note": "False as stated: C74_refuted (New). C74_session is the true version within a session."
 },
 "C83": {
  "status": "proved",
  "note": "False as stated: C83_refuted. Refresh itself makes no download (C64)."
 },
 "C76": {
  "status": "proved",
  "note": "False as stated: C76_refuted (the address of the loop variable is returned: info and repositories of the last group, below the threshold). C76_consensus: what is returned is a group of answers of different repositories for a matching pattern, some group reaches the threshold, and if all answers agree it is the returned one; C76_complete is the converse; C76_answers: each answer is an entry of verified metadata of that repository."
 },
 "C77": {
  "status": "proved",
  "note": "C77_conflict (for answers on which TargetFiles.Equal is an equivalence, see C26) and C77_terminating; the mappings before are described by the relation passes."
 },
 "C78": {
  "status": "proved",
  "note": "C78_verified; earlier repositories of the list had neither a cached copy nor a successful download (given_up)."
 },
 "C79": {
  "status": "proved",
  "note": "C79_roots; C79_clients: in every session each repository has exactly one client, made with its own root, first URL and directory, and this client is a session in the sense of C51-C74."
 },
 "C84": {
  "status": "proved",
  "note": "False as stated: C84_unknown_refuted, C84_null_mapping_refuted, C84_no_url_refuted, C84_null_map_refuted. C84_searches: otherwise a panic of GetTargetInfo is one of a single repository's client."
 },
 "C85": {
  "status": "proved",
  "note": "That targets without consensus are left out is false: C85_skips_refuted (the whole call fails). C85_top_level: when it succeeds, the result has exactly the listed targets, each found by GetTargetInfo."
 },
 "C86": {
  "status": "proved",
  "note": "C86_refresh."
 },
 "C87": {
  "status": "proved",
  "note": "False as stated: C87_refuted (repositories A and ./A). C87_plain: true of names without slash other than the empty name, . and .."
 },
 "C88": {
  "status": "proved",
  "note": "False as stated: C88_refuted (with the cache enabled and LocalTargetsDir empty New always fails, since EnsurePathsExist creates the configured directories, not the computed ones). C88_dirs: the directories of every client that was made."
 },
 "C09": {
  "status": "proved",
  "note": "Literal equality fails only in what the payload cannot show: nil against empty maps of unrecognised fields and the member order of custom data. Equality is stated after erasing exactly that (X_kept, targets_canon in SpecRound.v)."
 },
 "C10": {
  "status": "proved",
  "note": "False as stated (C10_literal_refuted): a nil map of unrecognised fields comes back empty. C10_round_trip gives the value that comes back (metadata_kept in SpecRound.v); C10_round_trip_exact is the identity for values of that form. Well-formedness (metadata_wf) and JSON nesting within the decoder limit are hypotheses."
 },
 "C19": {
  "status": "proved",
  "note": "Delegations are compared after the nil/empty change of C10."
 },
 "C15": {
  "status": "proved",
  "note": "False as stated for numbers beyond 2^53 (C15_value_refuted): they are kept as the nearest 64-bit float. C15_read states what is kept for every value (exact for integers up to 2^53), C15_written that it is written back, C15_payload and C15_signed that the signature covers it."
 },
 "C17": {
  "status": "proved",
  "note": "False as stated: C17_content_refuted gives accepted bytes whose version changes on save and reload (member \"ver\\u017fion\" is matched to version), C17_reload_refuted accepted bytes whose saved form is rejected (\"VERSION\": 9223372036854775807). C17_reload and C17_stable prove the property for all accepted bytes without such look-alike member names: same content (up to nil or empty maps), same bytes on the second save, same signing payload."
 },
 "C95": {
  "status": "proved",
  "note": "False if stolen keys are counted rather than key IDs (C95_keys_refuted: one stolen key listed under two IDs meets a threshold of 2). C95_verify_root and C95_verify_targets are the step, C95_session the invariant for all client sessions, C95_target the consequence for what GetTargetInfo answers. That nothing is forged, and that honest owners sign only delegations with too few stolen keys, are hypotheses, asked only of documents the client receives."
 },
 "C92": {
  "status": "proved",
  "note": "False as stated: a role to which loaded metadata delegate but which the snapshot does not list makes GetTargetInfo dereference nil, and a snapshot without targets.json makes Refresh do so (C92_refuted, C92_case). C92_calls shows that this is the only way on well-formed documents; C92_new, C92_download and C92_find that the other calls never panic. What happens on ill-formed documents is in C48 and C12."
 },
 "C93": {
  "status": "proved",
  "note": "C93_case shows that metadata that expired after New are still used for lookups."
 },
 "C94": {
  "status": "proved",
  "note": "The cached files must be metadata of the right type (a damaged cache file is C63_damaged_refuted). C94_contrast shows that without a key rotation the client stays stuck, as C62 requires."
 },
 "C89": {
  "status": "proved",
  "note": "C89_same_verdict_root and C89_same_verdict_targets state the first sentence, C89_bootstrap the second; C89_published is the general step for any version. That keys survive PEM (pem_round_trip) is a hypothesis on crypto/x509."
 },
 "C96": {
  "status": "proved",
  "note": "False as stated: Sign appends, so when a key that has signed before signs again, the saved file has that key ID twice and loading refuses it (C96_signed_again, for all objects and signers). C96_cleared: after ClearSignatures the statement holds."
 },
 "C90": {
  "status": "proved",
  "note": "C90_layout: only white space outside literals differs; C90_loads_alike: same result of loading, whenever the compact text is JSON at all; C90_save_load: it is for objects that can be written; C90_indent: json.Indent preserves the reading of every document."
 },
 "C91": {
  "status": "proved",
  "note": "Atomicity is false: C91_atomic_refuted. C91_interrupted and C91_failed are the strongest true version: a torn file is never mistaken for metadata of any type. C91_saved and C91_target_from_file prove the rest."
 },
 "C97": {
  "status": "proved",
  "note": "Trust, versions and complete documents: C97_trust, C97_version, C97_file, in every history. That the client can always be restarted is false: a delegated role called root replaces root.json and no later start succeeds (C97_restart_refuted). C97_restart: it can if no such role is ever loaded. Target files are assumed not to be stored over the root file (spares_root)."
 },
 "C98": {
  "status": "proved",
  "note": "DownloadTarget writes in place, so a torn file can be left (C58_stored); the length check keeps it from being used."
 },
 "C99": {
  "status": "proved",
  "note": "C99_place needs a download directory without characters that url.JoinPath treats specially, and a target other than '', '.' and '..'."
 },
 "C100": {
  "status": "proved",
  "note": "False as stated, in three ways: --file X saves to tuf_metadata/X, so get finds no root unless X is root.json (C100_usable_refuted); X may lead out of the directory and overwrite another file (C100_inside_refuted); a downloaded root is stored before it is verified, stays when verification fails and blocks init until reset (C100_failed_refuted). C100_downloaded, C100_copied, C100_interrupted, C100_once and C100_then_get are the true parts."
 },
 "C101": {
  "status": "proved",
  "note": "C101_root_file: the root file may become targets metadata if a role is called root (see C97); get then fails (C99_needs_root)."
 },
 "C102": {
  "status": "proved",
  "note": "Directories themselves are not modelled; empty means that no file is left in them."
 },
 "C103": {
  "status": "proved",
  "note": "False as stated for hash-prefixed targets in nested directories: C103_nested_refuted (the client asks for dir/<hash>.sub/file, see C72). Proved: C103_search, C103_found, C103_delivered for the rest."
 },
 "C104": {
  "status": "proved",
  "note": "C104_shared, C104_whole: all interleavings, torn writes included. That the cache keeps the newest version is false when clients share it: C104_newest_refuted (a slow client stores timestamp 8 over timestamp 9)."
 },
 "C105": {
  "status": "proved",
  "note": "C105_delivers, C105_first_use. Two things a user would expect are false: what the server sends for 1.root.json is stored whatever it is, so an error page blocks every later run (C105_repeat_refuted); a failing os.Stat is taken for a missing root file and the trusted root is replaced (C105_stat_refuted)."
 },
 "C106": {
  "status": "proved",
  "note": "C106_authentic, C106_anchor. Without the exception for .. false: a target ../../root.json replaces the trusted root (C106_anchor_refuted). If two targets belong to one repository the result depends on the map order (C106_order_refuted)."
 },
 "C107": {
  "status": "proved",
  "note": "C107_authentic, C107_anchor. How many repositories stand behind the file is C76, where the threshold is shown not to be kept; the exception for .. is needed (C106_anchor_refuted)."
 },
 "C108": {
  "status": "proved",
  "note": "C108_one_release. The English claim for files replaced in place (no consistent snapshots) is false: C108_in_place_refuted. Root metadata is the same for all the releases considered."
 },
 "C109": {
  "status": "proved",
  "note": "C109_follows. Sessions are complete (New, Refresh, then any use); interrupted ones are C65 and C90. Root metadata is the same for all the releases considered."
 },
 "C110": {
  "status": "proved",
  "note": "C110_works and C110_runs. Directories are not modelled (writing does not need an existing directory); key pairs and expiry times are arguments; an error of the program is an error outcome (log and panic in Go). Public keys are assumed to be written as text."
 },
 "C111": {
  "status": "proved",
  "note": "False as stated in the last sentence: C111_moment_refuted shows a moment of a run at which the new timestamp is published but the role it delegates to is not, and the search fails. The rest is C111_works and C111_runs. Directories are not modelled (writing does not need an existing directory); key pairs, expiry times and the choice of the directory name are arguments; public keys are assumed to be written as text."
 },
 "C112": {
  "status": "proved",
  "note": "C112_follows. The n-th key pair made is an argument (key n); roots are rotated with their online keys only (see C117 for the root keys); each role has one signer (see C114). The dump directory, FetchTracker and the log are left out. url.Parse is an argument that is assumed to give the path of the metadata URLs."
 },
 "C113": {
  "status": "proved",
  "note": "False as stated: C113_refuted (the client has refreshed and found the target, its download ends the program). What holds instead: C113_content (whatever a request below /targets/ gives is the latest content of a name with an empty part), so C113_none (no request succeeds unless such a name was added), C113_doubled (dir/sub/file gets the target dir//sub/file) and C113_panics (requests for names with at most one slash end the program)."
 },
 "C114": {
  "status": "proved",
  "note": "False as stated: C114_refuted, with two keys for the snapshot role, both listed by root; without the hashes the same client refreshes. With one signer per role it holds: C112_follows includes histories that switch the hashes on."
 },
 "C115": {
  "status": "proved",
  "note": "False as stated for delegated roles without delegations: C115_lost (the metadata of the delegating role stays as it is, because getDelegator returns the address of a copy). C115_top_level proves it for the role targets."
 },
 "C116": {
  "status": "proved",
  "note": "False as stated: C116_succinct (AddSuccinctRoles never returns), C116_no_role (AddTarget for a role that is missing or has no map of targets), C116_plain_root (the request for root.json without a version)."
 },
 "C117": {
  "status": "proved",
  "note": "False as stated: C117_locked_out proves the opposite for every history. The simulator signs the new root with the new key only, so no later refresh of any client that trusts the first root succeeds, whatever is done after the rotation; the client stays at the root before it. Assumes that no key accepts the empty signature (the library verifies it when a listed key has no signature) and that the client allows enough root rotations to reach the new root."
 },
 "C118": {
  "status": "proved",
  "note": "C118_returning is an induction over the visits: `visited` (SpecReturn.v) relates the acts so far, the simulator and the client's cache. Nothing is assumed of the cache but that the earlier visits left it. C118_careless_refuted computes a history in which the version is not increased and the returning client misses the new target. Visits are New followed by Refresh."
 },
 "C119": {
  "status": "proved",
  "note": "C119_delegated. `answer` (SpecSimRoles.v) says what GetTargetInfo may return. The delegated roles have no keys of their own yet, a threshold of 1 and no delegations, as in the tests. C119_dotted_refuted computes why names with a dot are excluded: the simulator takes the text before the first dot of a file name as its version and answers 404."
 },
 "C120": {
  "status": "proved",
  "note": "C120_order is a statement about pairs of runs. C120_error_refuted: a snapshot that drops a file and lowers a version gives a repository error or another error depending on which is looked at first (errors.Is(ErrRepository{Msg: ...}, ErrRepository{}) is false, see C81). C120_panic_refuted: a null entry next to a dropped file panics or fails depending on the order. That a second delegation for the path makes the answer depend on the order is C57_order_refuted."
 },
 "C121": {
  "status": "proved",
  "note": "C121_offline is an equivalence, so nothing is missing from the conditions; C121_cached_root and C121_same_root are the simple cases. C121_rotated_refuted: after a rotation of the timestamp key the refreshed client cannot go offline with the root it was configured with (it can with the cached one, C121_cached_case). C121_hash_refuted: a cached snapshot that the online refresh accepts without comparing hashes is refused offline."
 },
 "C122": {
  "status": "proved",
  "note": "C122_recovers quantifies over hard_life: histories of complete and interrupted sessions. The root metadata is the same for all releases, as in C109. A temporary file that an interruption leaves behind must be gone before the next start, because the model's CreateTemp does not try a second name. C122_case interrupts a session after any number of events; C122_runs computes all 37 points of one session; C122_offline_refuted is the counterexample for local mode."
 },
 "C123": {
  "status": "proved",
  "note": "get_settings (SpecGet.v) says in terms of the flags what the configuration of get must be; offers says what a release must have for a name. Liveness counterpart of C99: get succeeds at any moment of a publishing history, and init followed by get. The file delivered fits the same description as the published one (they differ only if the listed hashes collide, when such a file was in the download directory before). Nested directories are excluded for hash-prefixed names as in C103."
 },
 "C124": {
  "status": "proved",
  "note": "SpecFields.v defines other spellings of a name (spells), the value a member stands for, and reads_field; C124_document, C124_signed and C124_parts say it of every field of the format. The unknown members are C15. Objects with several members for one field are not covered (Go merges maps then). C124_version_refuted and C124_threshold_refuted show that required members are not required. C124_unsigned_refuted is the second one in full: New, Refresh and GetTargetInfo of a client with such a trusted root, ending with a target from targets metadata without any signature."
 },
 "C125": {
  "status": "proved",
  "note": "SpecRotate.v defines when roots appear and for which roots a release must be signed. C125_rotates is for any number of roots and releases and any moments; its last part (serves_release) is that of C108, for the root the client arrived at. C125_calm reduces the requirement to the newest root if none appears meanwhile. C125_case meets the hypotheses for every moment at which a root with another timestamp key appears, because the new timestamp is signed with the old and the new key; C125_race_refuted is the same repository with the new key only. Files of a release must have the same names for all those roots."
 },
 "C126": {
  "status": "proved",
  "note": "Extends C109 (many sessions, one root) and C125 (one session, many roots). SpecEra.v: overlapping, in_time, ready_for_all and long_life. Interrupted sessions are C127. C126_case meets the hypotheses for every moment of a key rotation with both keys, C126_given_up_case with the new key only; C126_early_case and late_in_time show sessions that are in time then. C126_follows is for online clients (UnsafeLocalMode off)."
 },
 "C127": {
  "status": "proved",
  "note": "Joins C122 (interruptions, one root) and C126 (root rotations, no interruptions). SpecRough.v: rough_life. An interrupted session is a beginning of one that would have succeeded in time; cached metadata files are left as the interruption left them, and left-over temporary files are removed before the next start, as in C122. C127_case meets the hypotheses for every moment of a key rotation and every point of interruption of a first session; C127_runs computes the sessions after all interruptions of two of them. Online clients only (UnsafeLocalMode off)."
 }
}