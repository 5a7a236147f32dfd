{"id": "C01", "title": "VerifyDelegate succeeds exactly on a threshold of distinct authorised key IDs", "statement": "meta.VerifyDelegate(role, m) returns nil exactly when the delegator delegates to role with a non-empty key ID list, every listed key ID resolves to a usable key, m.Signed can be canonicalised, and there are at least threshold pairwise distinct key IDs of that list whose key verifies the last signature m carries for that key ID over the canonical form of m.Signed.", "quantifier": "every root or targets delegator, role name, delegated metadata of any type, signature list and signature-verification outcome", "why_tests_cant": "the accept set ranges over every combination of key lists, duplicate signatures and per-key verification outcomes; tests sample a handful", "anchors": ["metadata/metadata.go:VerifyDelegate", "metadata/keys.go:ToPublicKey"]}
{"id": "C02", "title": "Repeated key IDs and repeated signatures never raise the signature count", "statement": "Listing a key ID twice in a role, reordering the role's key IDs, or carrying several signatures under one key ID never lets fewer than threshold distinct key IDs pass VerifyDelegate.", "quantifier": "every multiset of role key IDs and signatures", "why_tests_cant": "needs all duplications and permutations of unbounded lists", "anchors": ["metadata/metadata.go:VerifyDelegate"]}
{"id": "C03", "title": "Signatures by keys outside the role have no influence", "statement": "Adding, removing or changing signatures whose key ID is not listed for the delegated role, or the unrecognised fields outside Signed, never changes the result of VerifyDelegate.", "quantifier": "every signature list and every foreign signature added to it", "why_tests_cant": "non-interference relates pairs of runs over all inputs", "anchors": ["metadata/metadata.go:VerifyDelegate"]}
{"id": "C04", "title": "A verified delegation carries at least one valid signature", "statement": "If VerifyDelegate returns nil then at least one key listed for the role has signed the metadata.", "quantifier": "every delegator, including delegators with any threshold value found in JSON", "why_tests_cant": "thresholds are arbitrary integers from parsed JSON; the bad values (0, negative) are never in fixtures", "anchors": ["metadata/metadata.go:VerifyDelegate", "metadata/types.go:Role"]}
{"id": "C05", "title": "The threshold counts distinct keys, not distinct names for one key", "statement": "If VerifyDelegate returns nil for threshold t then t different public keys have signed.", "quantifier": "every delegator key table, including tables that list one public key under several key IDs", "why_tests_cant": "requires adversarial key tables that no fixture builds", "anchors": ["metadata/metadata.go:VerifyDelegate", "metadata/keys.go:ID"]}
{"id": "C06", "title": "Succinct delegations only cover their own bins", "statement": "VerifyDelegate on targets metadata that uses succinct roles succeeds only for role names that are bins of that delegation.", "quantifier": "every role name and succinct delegation", "why_tests_cant": "all strings are possible role names", "anchors": ["metadata/metadata.go:VerifyDelegate", "metadata/metadata.go:SuccinctRoles.IsDelegatedRole"]}
{"id": "C07", "title": "VerifyDelegate never panics on metadata obtained from FromBytes", "statement": "For all byte strings accepted by FromBytes as delegator and delegated metadata, VerifyDelegate returns (nil or an error).", "quantifier": "every pair of parsed documents", "why_tests_cant": "attacker-controlled JSON is unbounded; the crashing shapes (null keys, short ed25519 keys) are not in fixtures", "anchors": ["metadata/metadata.go:VerifyDelegate", "metadata/keys.go:ToPublicKey"]}
{"id": "C08", "title": "What threshold signers sign, verifies", "statement": "If at least threshold signers whose public keys are listed for a role call Sign on metadata m, VerifyDelegate(role, m) succeeds, in whatever order they sign and whatever other signers also sign.", "quantifier": "every set and order of signers, every metadata value", "why_tests_cant": "completeness over all signer sets and orders", "anchors": ["metadata/metadata.go:Sign", "metadata/metadata.go:VerifyDelegate"]}
{"id": "C09", "title": "A signature binds the complete signed content", "statement": "Two well-formed Signed values with the same canonical signing payload are equal, so a valid signature over one document is a signature over no other document content or role type.", "quantifier": "every pair of well-formed Signed values of any role type", "why_tests_cant": "injectivity relates all pairs of documents", "anchors": ["metadata/metadata.go:Sign", "metadata/metadata.go:VerifyDelegate", "metadata/marshal.go"]}
{"id": "C10", "title": "Serialisation round trip", "statement": "For every well-formed metadata object m of each of the four types, FromBytes(ToBytes(m)) succeeds and yields m, including unrecognised fields at every level, nil versus empty collections, hashes, custom data and delegations.", "quantifier": "every well-formed metadata value of each type", "why_tests_cant": "structural induction over unbounded nested data", "anchors": ["metadata/marshal.go", "metadata/metadata.go:FromBytes", "metadata/metadata.go:ToBytes"]}
{"id": "C11", "title": "FromBytes only accepts documents of the requested type", "statement": "If FromBytes on a value of type T succeeds then the document's signed._type member is T's type name; a document with another _type is rejected with an error.", "quantifier": "every byte string and each of the four types", "why_tests_cant": "all documents", "anchors": ["metadata/metadata.go:fromBytes", "metadata/metadata.go:checkType"]}
{"id": "C12", "title": "Loaded metadata reports the role type it was loaded as", "statement": "If FromBytes succeeds as type T then the resulting Signed.Type equals T's type name; and whatever JSON was fed, every metadata object held by TrustedMetadata has the type of its role.", "quantifier": "every byte string, including documents whose member names differ from the known names only in letter case", "why_tests_cant": "Go's JSON decoder matches member names case-insensitively: only a model of it shows the difference between the checked and the decoded member", "anchors": ["metadata/metadata.go:checkType", "metadata/marshal.go", "metadata/trustedmetadata/trustedmetadata.go"]}
{"id": "C13", "title": "Accepted metadata has unique signature key IDs", "statement": "FromBytes succeeds only if no two signatures carry the same key ID; a document that is otherwise acceptable and has two signatures for one key ID is rejected.", "quantifier": "every document with any number of signatures", "why_tests_cant": "all signature lists", "anchors": ["metadata/metadata.go:checkUniqueSignatures"]}
{"id": "C14", "title": "FromBytes never panics", "statement": "For every byte string FromBytes returns a value or an error.", "quantifier": "every byte string", "why_tests_cant": "the input space is all byte strings; the crashing shapes are not in fixtures", "anchors": ["metadata/metadata.go:checkType", "metadata/marshal.go:TargetsType.UnmarshalJSON"]}
{"id": "C15", "title": "Unrecognised fields are preserved and signed", "statement": "Every member of a signed object that is not part of the TUF format is kept by FromBytes, written back by ToBytes with the same value, and is part of the payload that signatures are checked against.", "quantifier": "every member name and JSON value", "why_tests_cant": "all extra members and all JSON values, including numbers beyond 2^53", "anchors": ["metadata/marshal.go", "metadata/metadata.go:VerifyDelegate"]}
{"id": "C16", "title": "Hex-encoded byte strings round-trip", "statement": "Decoding the JSON encoding of any byte string as HexBytes gives the byte string back; decoding accepts exactly even-length strings of hex digits in either case and its result does not depend on case.", "quantifier": "every byte string / every string", "why_tests_cant": "all byte strings", "anchors": ["metadata/marshal.go:HexBytes"]}
{"id": "C17", "title": "Saving and reloading is idempotent", "statement": "If FromBytes(b)=m and ToBytes(m)=b' then FromBytes(b') succeeds with the same content, so the signing payload of reloaded metadata is unchanged.", "quantifier": "every accepted byte string", "why_tests_cant": "all accepted documents, not only well-formed constructed ones", "anchors": ["metadata/marshal.go", "metadata/metadata.go:fromBytes"]}
{"id": "C18", "title": "A delegated role with both paths and path_hash_prefixes cannot be written or signed", "statement": "ToBytes, Sign and VerifyDelegate return an error for targets metadata in which some delegated role has both paths and path_hash_prefixes.", "quantifier": "every targets metadata value", "why_tests_cant": "all delegation lists", "anchors": ["metadata/marshal.go:DelegatedRole.MarshalJSON"]}
{"id": "C19", "title": "Either-or delegations survive", "statement": "For targets metadata using either roles or succinct_roles the delegations are preserved by a save/load cycle; if both are present succinct_roles is dropped.", "quantifier": "every delegations value", "why_tests_cant": "all delegation values", "anchors": ["metadata/marshal.go:Delegations.MarshalJSON"]}
{"id": "C20", "title": "Expiry is a strict comparison with the reference time", "statement": "IsExpired(t) is true exactly when t is strictly after Signed.Expires, for all four types; once expired, metadata stays expired for every later t.", "quantifier": "every pair of instants", "why_tests_cant": "all instants including the boundary", "anchors": ["metadata/metadata.go:IsExpired"]}
{"id": "C21", "title": "Metafile length and hash check is exact", "statement": "MetaFiles.VerifyLengthHashes(data) returns nil exactly when every listed hash is of a supported algorithm and equals the digest of data, and the length equals len(data) unless it is 0 (absent).", "quantifier": "every hash table, length and data", "why_tests_cant": "all tables and byte strings", "anchors": ["metadata/metadata.go:MetaFiles.VerifyLengthHashes", "metadata/metadata.go:verifyHashes", "metadata/metadata.go:verifyLength"]}
{"id": "C22", "title": "Target file length and hash check is exact", "statement": "TargetFiles.VerifyLengthHashes(data) returns nil exactly when the length equals len(data) and every listed hash is of a supported algorithm and equals the digest of data.", "quantifier": "every hash table, length and data", "why_tests_cant": "all tables and byte strings", "anchors": ["metadata/metadata.go:TargetFiles.VerifyLengthHashes"]}
{"id": "C23", "title": "A verified target has had at least one digest compared", "statement": "If TargetFiles.VerifyLengthHashes(data) returns nil then at least one digest of data was compared.", "quantifier": "every target file value obtained from JSON", "why_tests_cant": "the failing shape (missing or empty hashes) is not in fixtures", "anchors": ["metadata/metadata.go:TargetFiles.VerifyLengthHashes"]}
{"id": "C24", "title": "A target description generated from data accepts exactly data with the same digests", "statement": "TargetFiles.FromBytes(path, data, algs...) with supported algorithms yields a description with the path, length len(data) and the digest for every requested algorithm (sha256 by default); it accepts data and accepts other data only if it has equal length and equal digests for every requested algorithm; an unsupported algorithm is an error.", "quantifier": "every data, path and algorithm list", "why_tests_cant": "all byte strings and lists", "anchors": ["metadata/metadata.go:TargetFiles.FromBytes"]}
{"id": "C25", "title": "Target description equality", "statement": "TargetFiles.Equal is symmetric, implies equal lengths, a common hash algorithm and no common algorithm with different digests; two descriptions that are equal in this sense are identical when they list the same algorithms.", "quantifier": "every pair of descriptions", "why_tests_cant": "relations over all pairs", "anchors": ["metadata/metadata.go:TargetFiles.Equal", "metadata/metadata.go:Hashes.Equal"]}
{"id": "C26", "title": "Target description equality is an equivalence", "statement": "TargetFiles.Equal is reflexive and transitive, so that grouping equal descriptions is meaningful.", "quantifier": "every triple of descriptions", "why_tests_cant": "needs triples with different algorithm sets", "anchors": ["metadata/metadata.go:Hashes.Equal"]}
{"id": "C27", "title": "Path patterns match per path segment", "statement": "IsDelegatedPath with paths is true exactly when some pattern has as many /-separated segments as the target path and each segment of the path matches the corresponding glob segment (* any run of non-separators, ? one non-separator, [] classes, backslash escapes); wildcards never cross a separator.", "quantifier": "every path and pattern list", "why_tests_cant": "all strings and patterns", "anchors": ["metadata/metadata.go:IsDelegatedPath", "metadata/metadata.go:isTargetInPathPattern"]}
{"id": "C28", "title": "Hash-prefix delegations match the hex digest prefix", "statement": "IsDelegatedPath with path_hash_prefixes is true exactly when the hexadecimal SHA-256 digest of the target path starts with one of the prefixes.", "quantifier": "every path and prefix list", "why_tests_cant": "all digests and prefixes", "anchors": ["metadata/metadata.go:IsDelegatedPath"]}
{"id": "C29", "title": "GetRolesForTarget returns exactly the responsible roles", "statement": "Delegations.GetRolesForTarget(path) contains a role name exactly when a delegated role of that name is trusted for path, with the terminating flag of a role of that name that is trusted for path.", "quantifier": "every delegations value and path", "why_tests_cant": "all role lists including repeated names", "anchors": ["metadata/metadata.go:Delegations.GetRolesForTarget"]}
{"id": "C30", "title": "Succinct roles assign every path to exactly one existing bin", "statement": "For 1 <= bit_length <= 32, SuccinctRoles.GetRolesForTarget(path) is a single terminating role which is a member of GetRoles() and accepted by IsDelegatedRole, and whose index is the leftmost bit_length bits of the SHA-256 digest of path; GetRoles() lists exactly 2^bit_length pairwise different names.", "quantifier": "every path, prefix and bit length in range", "why_tests_cant": "all digests, all bins", "anchors": ["metadata/metadata.go:SuccinctRoles.GetRolesForTarget", "metadata/metadata.go:SuccinctRoles.GetRoles", "metadata/metadata.go:SuccinctRoles.IsDelegatedRole"]}
{"id": "C31", "title": "IsDelegatedRole accepts exactly the bins", "statement": "SuccinctRoles.IsDelegatedRole(name) is true exactly when name is a member of GetRoles().", "quantifier": "every string", "why_tests_cant": "all strings; the accepted non-bins (upper case, sign characters) are not in fixtures", "anchors": ["metadata/metadata.go:SuccinctRoles.IsDelegatedRole"]}
{"id": "C32", "title": "Succinct role lookup never panics on parsed metadata", "statement": "GetRolesForTarget returns for every bit_length that parsed metadata can carry.", "quantifier": "every 64-bit bit_length", "why_tests_cant": "all integers", "anchors": ["metadata/metadata.go:SuccinctRoles.GetRolesForTarget"]}
{"id": "C33", "title": "Root AddKey and RevokeKey keep the key table consistent", "statement": "Starting from Root(), after any sequence of AddKey and RevokeKey calls every key ID of every role is in the key table, the table holds no key that no role uses, and no role lists a key ID twice.", "quantifier": "every sequence of operations with any keys and role names", "why_tests_cant": "all histories", "anchors": ["metadata/metadata.go:RootType.AddKey", "metadata/metadata.go:RootType.RevokeKey"]}
{"id": "C34", "title": "Root AddKey/RevokeKey effects", "statement": "AddKey(key, role) adds key.ID() to exactly that role once and to the key table and changes nothing else; RevokeKey(id, role) removes id from exactly that role, removes it from the key table exactly when no role uses it any more and changes nothing else; both fail without any effect for unknown roles, RevokeKey also for unused key IDs.", "quantifier": "every root value, key and role", "why_tests_cant": "all values", "anchors": ["metadata/metadata.go:RootType.AddKey", "metadata/metadata.go:RootType.RevokeKey"]}
{"id": "C35", "title": "Targets AddKey/RevokeKey effects", "statement": "The same for the delegations of targets metadata, for standard and for succinct delegations.", "quantifier": "every targets value, key and role", "why_tests_cant": "all values", "anchors": ["metadata/metadata.go:TargetsType.AddKey", "metadata/metadata.go:TargetsType.RevokeKey"]}
{"id": "C36", "title": "Public key conversion round trip", "statement": "ToPublicKey(KeyFromPublicKey(k)) = k for every supported public key, and KeyFromPublicKey rejects every other key type.", "quantifier": "every public key", "why_tests_cant": "all keys", "anchors": ["metadata/keys.go:ToPublicKey", "metadata/keys.go:KeyFromPublicKey"]}
{"id": "C37", "title": "Key IDs are content hashes", "statement": "For a key that was just parsed or created, ID() is the hex SHA-256 of the canonical JSON of the key; it is stable, and two such keys with equal IDs have equal canonical JSON unless SHA-256 collides.", "quantifier": "every key", "why_tests_cant": "all keys", "anchors": ["metadata/keys.go:ID"]}
{"id": "C38", "title": "Unbroken root chain", "statement": "In every state reachable from New(rootData) by any sequence of Update* calls, the trusted root is linked to the initial root by a chain in which every root is signed by a threshold of the previous root's and of its own root keys and has the previous version plus one.", "quantifier": "every initial root and every sequence of Update* calls with any data", "why_tests_cant": "all histories of any length with adversarial data", "anchors": ["metadata/trustedmetadata/trustedmetadata.go:UpdateRoot", "metadata/trustedmetadata/trustedmetadata.go:loadTrustedRoot"]}
{"id": "C39", "title": "Root is frozen once a timestamp is loaded; workflow order is enforced", "statement": "UpdateRoot after a timestamp is loaded, UpdateTimestamp after a snapshot, UpdateSnapshot before a timestamp or after targets, UpdateTargets before a snapshot and delegated targets before their delegator are all rejected with a runtime error and without any state change.", "quantifier": "every reachable state and data", "why_tests_cant": "all interleavings of operations", "anchors": ["metadata/trustedmetadata/trustedmetadata.go"]}
{"id": "C40", "title": "Timestamp never rolls back", "statement": "Over any sequence of calls the version of the trusted timestamp never decreases and strictly increases whenever the timestamp is replaced, and the snapshot version it vouches for never decreases.", "quantifier": "every history of calls", "why_tests_cant": "all histories", "anchors": ["metadata/trustedmetadata/trustedmetadata.go:UpdateTimestamp"]}
{"id": "C41", "title": "Equal timestamp version keeps the old timestamp", "statement": "A correctly signed timestamp with the trusted version is reported as equal version number and leaves the state unchanged.", "quantifier": "every state and data", "why_tests_cant": "all states", "anchors": ["metadata/trustedmetadata/trustedmetadata.go:UpdateTimestamp"]}
{"id": "C42", "title": "Snapshot never drops or rolls back listed metadata", "statement": "Whenever a trusted snapshot is replaced, every file it listed is still listed with a version at least as high.", "quantifier": "every history of calls, snapshots with any number of entries, any map iteration order", "why_tests_cant": "all histories and all iteration orders", "anchors": ["metadata/trustedmetadata/trustedmetadata.go:UpdateSnapshot"]}
{"id": "C43", "title": "Snapshot agrees with the timestamp", "statement": "UpdateSnapshot succeeds only if the new snapshot has the version named by the trusted timestamp, is unexpired at the reference time, is signed by the root's snapshot keys and (unless flagged as already trusted) matches the length and hashes named by the timestamp.", "quantifier": "every state and data", "why_tests_cant": "all states and data", "anchors": ["metadata/trustedmetadata/trustedmetadata.go:UpdateSnapshot", "metadata/trustedmetadata/trustedmetadata.go:checkFinalSnapshot"]}
{"id": "C44", "title": "Targets agree with the snapshot", "statement": "UpdateTargets/UpdateDelegatedTargets succeed only if the new metadata has the version, length and hashes named by the trusted snapshot, is unexpired, and is signed by a threshold of the keys its delegator lists for it; and in every reachable state all loaded targets metadata satisfies this with respect to the current snapshot.", "quantifier": "every reachable state", "why_tests_cant": "invariant over all histories", "anchors": ["metadata/trustedmetadata/trustedmetadata.go:UpdateDelegatedTargets"]}
{"id": "C45", "title": "Failed updates change nothing, except for documented intermediate loads", "statement": "If an Update* call fails the trusted set is unchanged, except that an expired but otherwise valid timestamp and an expired or version-mismatched but otherwise valid snapshot are kept (and block everything that follows).", "quantifier": "every state, operation and data", "why_tests_cant": "all failure paths", "anchors": ["metadata/trustedmetadata/trustedmetadata.go"]}
{"id": "C46", "title": "Expired metadata blocks the workflow", "statement": "With an expired root no timestamp can be loaded, with an expired timestamp no snapshot, with an expired or mismatching snapshot no targets, and no expired targets metadata is ever loaded.", "quantifier": "every reachable state and data", "why_tests_cant": "all states", "anchors": ["metadata/trustedmetadata/trustedmetadata.go"]}
{"id": "C47", "title": "Everything trusted is reachable from the trusted root", "statement": "In every reachable state timestamp, snapshot and top-level targets are signed by a threshold of the current root's keys for the role, and every delegated role is signed by a threshold of the keys that a loaded delegator lists for it, so that a delegation chain leads from the root to every loaded role.", "quantifier": "every history", "why_tests_cant": "inductive invariant over all histories", "anchors": ["metadata/trustedmetadata/trustedmetadata.go"]}
{"id": "C48", "title": "TrustedMetadata operations never panic", "statement": "For all byte strings, New and the Update* calls return.", "quantifier": "every history with adversarial data", "why_tests_cant": "all byte strings (timestamp without snapshot.json, null entries)", "anchors": ["metadata/trustedmetadata/trustedmetadata.go"]}
{"id": "C49", "title": "New only accepts a self-signed root", "statement": "New(data) succeeds exactly when data parses as root metadata that verifies with its own root role; expiry of the initial root is not considered.", "quantifier": "every byte string", "why_tests_cant": "all documents", "anchors": ["metadata/trustedmetadata/trustedmetadata.go:loadTrustedRoot"]}
{"id": "C50", "title": "Exact acceptance conditions of every update", "statement": "Each Update* call succeeds exactly under the conditions of the TUF client workflow that the code documents (no more, no less), and its successful effect is exactly the replacement of the one role.", "quantifier": "every state and data", "why_tests_cant": "full functional characterisation", "anchors": ["metadata/trustedmetadata/trustedmetadata.go"]}
{"id": "C51", "title": "Refresh yields a complete, fresh and mutually consistent top-level set", "statement": "If Refresh returns nil then root, timestamp, snapshot and targets are loaded, none is expired at the reference time, snapshot version equals the timestamp's entry and targets version equals the snapshot's entry, whatever the server and the local cache contained.", "quantifier": "every server behaviour, cache content and configuration", "why_tests_cant": "adversarial server and cache", "anchors": ["metadata/updater/updater.go:Refresh"]}
{"id": "C52", "title": "Root rotation requests consecutive versions and is bounded", "statement": "The root update requests root versions N+1, N+2, ... in order, at most MaxRootRotations of them, stops at the first 404/403, fails on any other error, and the resulting root version is N plus the number of successful downloads.", "quantifier": "every server behaviour and bound", "why_tests_cant": "all servers", "anchors": ["metadata/updater/updater.go:loadRoot"]}
{"id": "C53", "title": "Every download is bounded", "statement": "Every metadata download is requested with the configured maximum for its role or the signed length from the parent metadata, and every target download with the signed target length.", "quantifier": "every run of every API call", "why_tests_cant": "all runs", "anchors": ["metadata/updater/updater.go:downloadMetadata", "metadata/updater/updater.go:DownloadTarget"]}
{"id": "C54", "title": "Returned target info is authorised by a delegation chain", "statement": "If GetTargetInfo(path) returns info then there is a chain targets=r0,...,rk of loaded verified roles, each of which delegates path to the next, and info is rk's entry for path.", "quantifier": "every server, cache, delegation graph and map iteration order", "why_tests_cant": "all graphs including cycles and diamonds", "anchors": ["metadata/updater/updater.go:preOrderDepthFirstWalk"]}
{"id": "C55", "title": "Target search terminates and is bounded", "statement": "GetTargetInfo inspects at most MaxDelegations+1 roles, none twice, for every delegation graph including cyclic ones.", "quantifier": "every delegation graph", "why_tests_cant": "all graphs", "anchors": ["metadata/updater/updater.go:preOrderDepthFirstWalk"]}
{"id": "C56", "title": "Target search is a pre-order depth-first walk that honours terminating delegations", "statement": "For a given order of the children, the roles are inspected in pre-order depth-first order, a terminating delegation prunes everything not below it, and the first role with an entry for the path answers.", "quantifier": "every delegation graph and iteration order", "why_tests_cant": "all graphs", "anchors": ["metadata/updater/updater.go:preOrderDepthFirstWalk"]}
{"id": "C57", "title": "Delegations are searched in order of appearance", "statement": "When several delegated roles of one delegator are trusted for a path, the one listed first is searched first, and the answer is a function of the metadata.", "quantifier": "every delegation list", "why_tests_cant": "Go map iteration order is random: a test observes one order", "anchors": ["metadata/updater/updater.go:preOrderDepthFirstWalk", "metadata/metadata.go:Delegations.GetRolesForTarget"]}
{"id": "C58", "title": "DownloadTarget only returns and stores verified data", "statement": "If DownloadTarget returns data it matches length and all hashes of the target info, and the data written to disk is exactly the returned data at the returned path; nothing is written when verification fails.", "quantifier": "every server behaviour, target info and configuration", "why_tests_cant": "adversarial server", "anchors": ["metadata/updater/updater.go:DownloadTarget"]}
{"id": "C59", "title": "FindCachedTarget only returns verified data", "statement": "FindCachedTarget returns a path and data only if the file at that path holds exactly this data and it matches the target info; otherwise, including for missing or tampered files, it returns an empty result without error; it never touches the network or writes.", "quantifier": "every disk content", "why_tests_cant": "adversarial cache", "anchors": ["metadata/updater/updater.go:FindCachedTarget"]}
{"id": "C60", "title": "Only verified metadata is persisted", "statement": "Every metadata file written by Refresh or GetTargetInfo has content that was accepted as trusted metadata for the role it is written for.", "quantifier": "every run", "why_tests_cant": "all runs", "anchors": ["metadata/updater/updater.go:persistMetadata"]}
{"id": "C61", "title": "Crash-atomic metadata files", "statement": "If the process stops at any point during New, Refresh or GetTargetInfo, each cached metadata file holds either its previous content or a complete new content, never a partial one.", "quantifier": "every crash point in every run, including partial writes", "why_tests_cant": "all crash points", "anchors": ["metadata/updater/updater.go:persistMetadata"]}
{"id": "C62", "title": "Rollback protection across sessions", "statement": "If the cached timestamp is valid under the root obtained by a session, then after that session's Refresh (successful or not) the trusted timestamp has at least the cached version, and a persisted timestamp never has a smaller version than the cached one it replaces.", "quantifier": "every sequence of sessions and every server", "why_tests_cant": "multi-session histories", "anchors": ["metadata/updater/updater.go:loadTimestamp"]}
{"id": "C63", "title": "A damaged local cache does not prevent an update", "statement": "If the repository serves valid current metadata then Refresh succeeds whatever bytes the cached timestamp, snapshot and targets files contain.", "quantifier": "every cache content", "why_tests_cant": "all byte strings (non-JSON, wrong type, duplicate signatures, ...)", "anchors": ["metadata/updater/updater.go:loadTimestamp", "metadata/updater/updater.go:loadSnapshot", "metadata/updater/updater.go:loadTargets", "metadata/errors.go"]}
{"id": "C64", "title": "Unsafe local mode never contacts the network", "statement": "With UnsafeLocalMode, Refresh makes no download and still verifies signatures, hashes, versions and expiry.", "quantifier": "every cache content", "why_tests_cant": "all caches", "anchors": ["metadata/updater/updater.go:unsafeLocalRefresh"]}
{"id": "C65", "title": "DisableLocalCache keeps the disk untouched", "statement": "With DisableLocalCache no API call writes, renames or removes any file.", "quantifier": "every run", "why_tests_cant": "all runs", "anchors": ["metadata/updater/updater.go:persistMetadata", "metadata/updater/updater.go:DownloadTarget"]}
{"id": "C66", "title": "DisableLocalCache does not consult local files", "statement": "With DisableLocalCache the outcome of Refresh does not depend on files on disk.", "quantifier": "every disk content", "why_tests_cant": "relates pairs of runs", "anchors": ["metadata/updater/updater.go:loadTimestamp"]}
{"id": "C67", "title": "Cached metadata file names identify the role and stay inside the cache directory", "statement": "The file name used to persist a role contains no path separator and two different role names never share a file name.", "quantifier": "every pair of role names", "why_tests_cant": "all strings", "anchors": ["metadata/updater/updater.go:persistMetadata"]}
{"id": "C68", "title": "Persisted role metadata is found again", "statement": "Metadata persisted for a role is read back when the same role is loaded in a later session, and reading never leaves the metadata directory.", "quantifier": "every role name", "why_tests_cant": "all strings (names with / or .. or escaped characters)", "anchors": ["metadata/updater/updater.go:loadLocalMetadata", "metadata/updater/updater.go:persistMetadata"]}
{"id": "C69", "title": "Delegated metadata never replaces cached top-level metadata", "statement": "Loading a delegated role never changes the cached root, timestamp, snapshot or targets file.", "quantifier": "every delegated role name", "why_tests_cant": "all strings as role names", "anchors": ["metadata/updater/updater.go:persistMetadata"]}
{"id": "C70", "title": "Refresh is effective once", "statement": "Once a snapshot has been loaded, a further Refresh cannot replace timestamp, snapshot or any loaded targets metadata.", "quantifier": "every server behaviour", "why_tests_cant": "all histories", "anchors": ["metadata/updater/updater.go:Refresh"]}
{"id": "C71", "title": "An honest repository is always accepted", "statement": "If the server publishes correctly signed, unexpired, mutually consistent metadata for the client's root then New and Refresh succeed on an empty cache and yield exactly the published metadata.", "quantifier": "every consistent repository", "why_tests_cant": "liveness over all repositories", "anchors": ["metadata/updater/updater.go:Refresh"]}
{"id": "C72", "title": "Hash-prefixed target URLs", "statement": "With consistent snapshots and hash prefixing, the target at path d/n is requested as d/<hash>.n where d is the whole directory part and n the file name.", "quantifier": "every target path", "why_tests_cant": "all paths (nested directories)", "anchors": ["metadata/updater/updater.go:DownloadTarget"]}
{"id": "C73", "title": "Cached target file names are unambiguous", "statement": "Different target paths are stored under different file names inside LocalTargetsDir.", "quantifier": "every pair of target paths", "why_tests_cant": "all strings", "anchors": ["metadata/updater/updater.go:generateTargetFilePath"]}
{"id": "C74", "title": "Cached root never goes backwards", "statement": "The version of the cached root file never decreases over any sequence of sessions.", "quantifier": "every sequence of sessions", "why_tests_cant": "histories", "anchors": ["metadata/updater/updater.go:New", "metadata/updater/updater.go:loadRoot"]}
{"id": "C75", "title": "Downloads never exceed the requested maximum", "statement": "DefaultFetcher.DownloadFile returns at most maxLength bytes and returns the complete body exactly when status is 200, the announced length is absent or a number within the limit, and the body is within the limit; otherwise it fails (with the HTTP status when it is not 200).", "quantifier": "every response, announced length and limit", "why_tests_cant": "all responses and limits", "anchors": ["metadata/fetcher/fetcher.go:DownloadFile"]}
{"id": "C76", "title": "Multi-repository consensus", "statement": "If the multi-repository GetTargetInfo returns info and repositories then some mapping whose pattern matches lists these repositories, they are pairwise different, at least the mapping's threshold of them, and each of them returned a matching description of the target.", "quantifier": "every map file, set of repositories and answers", "why_tests_cant": "all answer combinations", "anchors": ["metadata/multirepo/multirepo.go:GetTargetInfo"]}
{"id": "C77", "title": "Conflicting consensus is an error; terminating mappings stop the search", "statement": "If two different descriptions both reach the threshold of a matching mapping the call fails; after a matching terminating mapping without consensus no later mapping is consulted.", "quantifier": "every map file and answers", "why_tests_cant": "all answers", "anchors": ["metadata/multirepo/multirepo.go:GetTargetInfo"]}
{"id": "C78", "title": "Multi-repository downloads are verified", "statement": "MultiRepoClient.DownloadTarget returns only data that matches the given target info, from the cache or from one of the given repositories in order.", "quantifier": "every set of repositories, caches and servers", "why_tests_cant": "adversarial repositories", "anchors": ["metadata/multirepo/multirepo.go:DownloadTarget"]}
{"id": "C79", "title": "A multi-repository configuration has a trusted root for every repository", "statement": "NewConfig succeeds only if every repository of the map file has a trusted root.", "quantifier": "every map file", "why_tests_cant": "all map files", "anchors": ["metadata/multirepo/multirepo.go:NewConfig"]}
{"id": "C80", "title": "Error hierarchy", "statement": "errors.Is(e, ErrRepository{}) holds for every unsigned, bad version, equal version, expired and length/hash error; equal version errors are also bad version errors; HTTP and length download errors are download errors; no error of one family is in another.", "quantifier": "every error value and message", "why_tests_cant": "all messages", "anchors": ["metadata/errors.go"]}
{"id": "C81", "title": "Repository errors are recognised as repository errors", "statement": "errors.Is(e, ErrRepository{}) holds for every error of type ErrRepository.", "quantifier": "every message", "why_tests_cant": "all messages", "anchors": ["metadata/errors.go", "metadata/updater/updater.go:loadTargets"]}
{"id": "C82", "title": "Repository store returns what was stored", "statement": "For every sequence of Set* calls on the repository store each getter returns the value of the latest corresponding Set* call.", "quantifier": "every sequence of calls", "why_tests_cant": "all histories", "anchors": ["metadata/repository/repository.go"]}
{"id": "C83", "title": "Unsafe local mode applies to target searches", "statement": "With UnsafeLocalMode, GetTargetInfo makes no download either.", "quantifier": "every repository, every local cache, every target path", "why_tests_cant": "A test with a repository without delegations, or with all delegated roles cached, does not show that missing delegated roles are fetched from the network.", "anchors": ["metadata/updater/updater.go:GetTargetInfo", "metadata/updater/updater.go:preOrderDepthFirstWalk", "metadata/updater/updater.go:loadTargets", "metadata/config/config.go:UpdaterConfig"]}
{"id": "C84", "title": "A multi-repository configuration that was accepted can be used without a panic", "statement": "For every map file that NewConfig accepts, New and GetTargetInfo return (a value or an error).", "quantifier": "every map file, set of repositories and history of calls", "why_tests_cant": "the map file is arbitrary JSON; the crashing shapes (unknown repository names, null mappings, empty URL lists, null) are not in fixtures", "anchors": ["metadata/multirepo/multirepo.go:NewConfig", "metadata/multirepo/multirepo.go:New", "metadata/multirepo/multirepo.go:initTUFClients", "metadata/multirepo/multirepo.go:GetTargetInfo"]}
{"id": "C85", "title": "Top-level targets of several repositories", "statement": "GetTopLevelTargets returns exactly the targets the repositories' top-level metadata list for which the mappings give a consensus, each with the description GetTargetInfo finds; others are left out.", "quantifier": "every map file, set of repositories and answers", "why_tests_cant": "all combinations of metadata of all repositories; map iteration order", "anchors": ["metadata/multirepo/multirepo.go:GetTopLevelTargets"]}
{"id": "C86", "title": "Multi-repository Refresh is complete", "statement": "If Refresh returns nil then the client of every repository holds a complete, fresh, verified and mutually consistent set of top-level metadata.", "quantifier": "every map file, history of calls, servers and iteration order", "why_tests_cant": "all histories and servers", "anchors": ["metadata/multirepo/multirepo.go:Refresh"]}
{"id": "C87", "title": "Repositories do not share local metadata", "statement": "Clients of different repositories keep their local metadata in different directories.", "quantifier": "every map file, every pair of repositories", "why_tests_cant": "all repository names", "anchors": ["metadata/multirepo/multirepo.go:initTUFClients"]}
{"id": "C88", "title": "Repositories have their own targets directory by default", "statement": "If LocalTargetsDir is not set, every repository gets a targets directory of its own under its metadata directory; if it is set it is used for all.", "quantifier": "every configuration", "why_tests_cant": "all configurations and file systems", "anchors": ["metadata/multirepo/multirepo.go:initTUFClients", "metadata/multirepo/multirepo.go:EnsurePathsExist"]}
{"id": "C89", "title": "What is published with the library is accepted by its client", "statement": "Metadata that VerifyDelegate accepts in memory are accepted after both sides were saved and loaded, with the same verdict in all cases. Hence the first version of a repository, made with Root, AddKey, RevokeKey, Timestamp, Snapshot, Targets and signed with at least one listed key per role (thresholds are 1), is accepted file by file by a client that starts from its root, until something expires, and the client then holds version 1, consistent snapshots, and the expiry times given.", "quantifier": "every delegating and delegated object, every name; every sequence of AddKey and RevokeKey calls, every set of signing keys, every expiry time and reference time before it", "why_tests_cant": "ranges over all metadata objects, histories of key operations and signers", "anchors": ["metadata/metadata.go:Root", "metadata/metadata.go:AddKey", "metadata/metadata.go:Sign", "metadata/metadata.go:ToBytes", "metadata/metadata.go:VerifyDelegate", "metadata/trustedmetadata/trustedmetadata.go:New"]}
{"id": "C90", "title": "Indented output is the same metadata", "statement": "ToBytes(true) succeeds when ToBytes(false) does, its text differs from the compact one in white space outside string literals only, and FromBytes gives the same result for both, for every type it is loaded into.", "quantifier": "every metadata object of the four types (and json.Indent on every JSON text)", "why_tests_cant": "ranges over all objects and texts, including strings with quotes, backslashes, escapes and braces", "anchors": ["metadata/metadata.go:ToBytes", "metadata/metadata.go:FromBytes"]}
{"id": "C91", "title": "Metadata files", "statement": "ToFile followed by FromFile gives the object back and touches no other file. ToFile is atomic: when it fails or the process stops inside it, the file holds the old content or the new one. TargetFiles.FromFile describes the content of the file.", "quantifier": "every object, file name, disk content, file system behaviour and crash point", "why_tests_cant": "ranges over all crash points, partial writes and previous contents", "anchors": ["metadata/metadata.go:ToFile", "metadata/metadata.go:FromFile", "metadata/metadata.go:TargetFiles.FromFile"]}
{"id": "C92", "title": "The updater does not crash", "statement": "On well-formed documents (no null entries, proper keys, a snapshot entry in the timestamp, at most 32 bits of hash bins), and with a fetcher that does not panic itself, New, Refresh, GetTargetInfo, DownloadTarget and FindCachedTarget return a result or an error; they never panic.", "quantifier": "every well-formed document a server or cache may offer, every sequence of calls, every file system and network failure", "why_tests_cant": "all documents and call sequences", "anchors": ["metadata/updater/updater.go:loadTargets", "metadata/updater/updater.go:loadSnapshot", "metadata/updater/updater.go:preOrderDepthFirstWalk", "metadata/updater/updater.go:DownloadTarget", "metadata/updater/updater.go:FindCachedTarget"]}
{"id": "C93", "title": "Expiry is judged at one fixed moment", "statement": "All expiry checks of an updater use the clock reading taken when it was created: everything loaded was unexpired then, after a successful Refresh root, timestamp, snapshot and targets all were, and what happens to the clock later has no influence.", "quantifier": "every session: any sequence of calls, files and server answers", "why_tests_cant": "all histories", "anchors": ["metadata/trustedmetadata/trustedmetadata.go:New", "metadata/trustedmetadata/trustedmetadata.go:UpdateTimestamp", "metadata/updater/updater.go:New"]}
{"id": "C94", "title": "Recovery from a fast-forward attack", "statement": "After attackers with a timestamp or snapshot key made clients cache metadata with arbitrarily high versions, publishing a root with new keys for these roles restores them: the next Refresh ignores the cached files and reaches what is published.", "quantifier": "every cached timestamp and snapshot not signed under the new root, whatever its version; every honest publication", "why_tests_cant": "all versions and cache contents", "anchors": ["metadata/updater/updater.go:loadTimestamp", "metadata/updater/updater.go:loadSnapshot", "metadata/trustedmetadata/trustedmetadata.go:UpdateTimestamp", "metadata/trustedmetadata/trustedmetadata.go:UpdateSnapshot"]}
{"id": "C95", "title": "Compromise resilience", "statement": "Let attackers hold some signing keys and control everything the client receives, but forge no signature of other keys. For every role for which they hold fewer keys than its threshold, and that is reached from the trusted root over such roles only, whatever the client accepts has been signed by an honest owner of one of the keys listed for that role; compromising one role (say timestamp) gives no influence over others.", "quantifier": "every set of stolen keys, every server behaviour, every sequence of Refresh, GetTargetInfo, DownloadTarget and FindCachedTarget calls, every change of the cache in between", "why_tests_cant": "ranges over all adversaries and histories", "anchors": ["metadata/metadata.go:VerifyDelegate", "metadata/trustedmetadata/trustedmetadata.go", "metadata/updater/updater.go"]}
{"id": "C96", "title": "Signing again", "statement": "Metadata can be signed again, for instance after a version bump: what Sign leaves can be saved and loaded, and carries the signatures of those who signed last.", "quantifier": "every object of the four types, every list of signers, every earlier signature", "why_tests_cant": "ranges over all objects and signer sets; the existing tests load, clear and sign in one fixed order", "anchors": ["metadata/metadata.go:Sign", "metadata/metadata.go:ClearSignatures", "metadata/metadata.go:checkUniqueSignatures"]}
{"id": "C97", "title": "Trust survives restarts and interruptions", "statement": "A client that takes its trusted root from the metadata directory each time it starts only ever uses successors of the root it was first given, over any number of runs that finish, fail or are interrupted; the root file is a complete document at every moment, and the client can be restarted at any time.", "quantifier": "every history of starts, calls, failures, interruptions at any file operation, and changes to other files; every server behaviour, clock and configuration per run", "why_tests_cant": "ranges over unbounded histories and all crash points", "anchors": ["metadata/updater/updater.go:New", "metadata/updater/updater.go:loadRoot", "metadata/updater/updater.go:persistMetadata", "examples/client/client_example.go"]}
{"id": "C98", "title": "An interrupted target download is never taken for the target", "statement": "If DownloadTarget is stopped anywhere, FindCachedTarget of any later client returns for this target only data that was there before or has been downloaded completely.", "quantifier": "every interruption point, target, directory, later configuration and environment", "why_tests_cant": "all crash points", "anchors": ["metadata/updater/updater.go:DownloadTarget", "metadata/updater/updater.go:FindCachedTarget"]}
{"id": "C99", "title": "The command line client delivers authentic targets only", "statement": "When tuf-client get prints a path, the file there is the requested target: its length and hashes are in metadata reached by delegations for it, of a complete, fresh and consistent set under a successor of the root file; it lies in the download directory under the target's escaped name. Without a self-signed root file get fails and changes nothing.", "quantifier": "every server, disk content, flag and target", "why_tests_cant": "adversarial server and disk", "anchors": ["examples/cli/tuf-client/cmd/get.go:GetCmd", "examples/cli/tuf-client/cmd/get.go:verifyEnv"]}
{"id": "C100", "title": "tuf-client init leaves a verified root for get, or nothing", "statement": "After a successful init the root file used by get holds the root metadata given or downloaded, and it is self-signed; a failed init leaves nothing behind; init changes files in the metadata directory only, and does not overwrite an initialised one.", "quantifier": "every server, file argument, disk content and interruption", "why_tests_cant": "all arguments, answers and crash points", "anchors": ["examples/cli/tuf-client/cmd/init.go:InitializeCmd", "examples/cli/tuf-client/cmd/init.go:fetchTrustedRoot", "examples/cli/tuf-client/cmd/init.go:prepareEnvironment"]}
{"id": "C101", "title": "Any number of get commands keep to the first root", "statement": "After any number of tuf-client get commands in a directory, each finished, failed or interrupted, whatever a further get delivers is authenticated from the root the first one started with, and the root file has always been a complete document.", "quantifier": "every sequence of commands, servers, flags, clocks and interruptions", "why_tests_cant": "unbounded histories", "anchors": ["examples/cli/tuf-client/cmd/get.go:GetCmd", "metadata/updater/updater.go:persistMetadata"]}
{"id": "C102", "title": "tuf-client reset removes the two directories and nothing else", "statement": "reset changes no file outside its two directories and only removes files; without --force it removes from a directory only if its question was answered with yes; with --force and a working disk both are empty afterwards, get fails until the next init, and init can be run again.", "quantifier": "every disk, every sequence of typed lines, every interruption", "why_tests_cant": "all disks and crash points", "anchors": ["examples/cli/tuf-client/cmd/reset.go:ResetCmd", "examples/cli/tuf-client/cmd/reset.go:askForConfirmation"]}
{"id": "C103", "title": "Every target of an honest repository can be found and downloaded", "statement": "With a repository whose metadata, delegated roles included, are correctly signed, unexpired, consistent and on the server, GetTargetInfo never fails because of a role on its way: it returns what a pre-order search through everything published finds. A target listed by a role that delegations for its path lead to is found, unless a delegation for the path is terminating or there are more than MaxDelegations+1 roles, and DownloadTarget then returns and stores the file.", "quantifier": "every honest repository with any number and shape of delegations, every target path, any number of earlier searches, every cache content that is not from another history, every iteration order of maps", "why_tests_cant": "all delegation graphs, all orders in which maps are iterated, all cache contents", "anchors": ["metadata/updater/updater.go:GetTargetInfo", "metadata/updater/updater.go:preOrderDepthFirstWalk", "metadata/updater/updater.go:DownloadTarget", "metadata/updater/updater.go:loadTargets"]}
{"id": "C104", "title": "Clients that share a cache directory never see half-written metadata", "statement": "Any number of clients use one metadata directory at the same time, their file operations interleaved in any way and any of them stopping at any point. At every moment each cached metadata file is as it was at first or holds a complete document which one of the clients verified and stored in that file. (They do not keep the newest: a slow client can put an older version back.)", "quantifier": "any number of clients, every interleaving of their file operations, every partial write, every point where one stops, every behaviour of the servers", "why_tests_cant": "unbounded interleavings and crash points", "anchors": ["metadata/updater/updater.go:persistMetadata", "metadata/updater/updater.go:New", "metadata/updater/updater.go:Refresh"]}
{"id": "C105", "title": "The client example trusts the first root it stored, and only that one", "statement": "When the Trust-On-First-Use example reports a downloaded file, the file is the requested target, authenticated from the root file that was already there, or, if there was none, from what the server sent for 1.root.json. Once a root file is there, no later run, however it ends, changes whom the program trusts: every file reported later comes from that root or a successor signed by it. (A failed first use cannot be repeated, and a failing os.Stat counts as a missing root file.)", "quantifier": "every server, target name, clock and file-system failure, any number of earlier runs, each finished, failed or interrupted at any point", "why_tests_cant": "all histories of runs, all crash points and failures", "anchors": ["examples/client/client_example.go:InitTrustOnFirstUse", "examples/client/client_example.go:DownloadTarget", "examples/client/client_example.go:InitEnvironment", "examples/client/client_example.go:main"]}
{"id": "C106", "title": "The multi-repository bootstrap only hands out verified map files and roots", "statement": "Every map file and every repository root that BootstrapTUF returns is a target of metadata verified from root.json in the working directory, with the listed length and hashes, filed under the first part of its name, and no listed target is left out. A run leaves root.json as it was wherever it stops, unless verified metadata lists a name with a .. part. (Such a name can replace root.json; two targets of one repository give whichever comes last in map order.)", "quantifier": "every server, every set of listed targets, every map order, every file-system failure, every point of interruption", "why_tests_cant": "all target names and map orders, all crash points", "anchors": ["examples/multirepo/client/client_example.go:BootstrapTUF", "metadata/updater/updater.go:GetTopLevelTargets", "metadata/updater/updater.go:DownloadTarget"]}
{"id": "C107", "title": "The multi-repository example delivers only files that the chain of roots vouches for", "statement": "When the multi-repository example succeeds, the file it stored is the requested target, authenticated from the root of a repository that a mapping of the map file with a matching pattern names; this root and the map file are themselves targets of metadata verified from root.json in the working directory. However far a run gets, root.json stays as it was, unless that verified metadata lists a name with a .. part.", "quantifier": "every server of the first repository and of every repository in the map file, every map file, target name, map order, file-system failure and point of interruption", "why_tests_cant": "all map files and servers, all crash points", "anchors": ["examples/multirepo/client/client_example.go:main", "examples/multirepo/client/client_example.go:InitMultiRepoTUF", "metadata/multirepo/multirepo.go:New", "metadata/multirepo/multirepo.go:DownloadTarget"]}
{"id": "C108", "title": "A client sees exactly one release while the repository publishes", "statement": "If every release is announced (its timestamp served) only when all its files are on the server, and they stay there under their versioned names, then New and Refresh succeed at any moment with the metadata of exactly one release, and every later GetTargetInfo and DownloadTarget is served from that release, whatever is published meanwhile. (Not so without consistent snapshots: even if the server holds a complete release at every moment, Refresh can fail.)", "quantifier": "every sequence and timing of releases, every number of root updates, delegated roles and target files, every cache of earlier releases, every sequence of searches and downloads", "why_tests_cant": "all interleavings of publication with the steps of a client", "anchors": ["metadata/updater/updater.go:Refresh", "metadata/updater/updater.go:loadTimestamp", "metadata/updater/updater.go:loadSnapshot", "metadata/updater/updater.go:loadTargets", "metadata/updater/updater.go:GetTargetInfo", "metadata/updater/updater.go:DownloadTarget"]}
{"id": "C109", "title": "A client used again and again follows the releases and never goes back", "statement": "With such a repository, a client that is started over and over with the same cache sees the releases in order. Each new session succeeds; it sees a release at least as new as those seen before and as the one current when the session starts.", "quantifier": "every number of sessions, searches and downloads, every timing of releases and of the clock, every set of changed files", "why_tests_cant": "all histories of sessions and publications", "anchors": ["metadata/updater/updater.go:New", "metadata/updater/updater.go:Refresh", "metadata/updater/updater.go:persistMetadata", "metadata/updater/updater.go:loadLocalMetadata"]}
{"id": "C110", "title": "The example program that makes the bootstrap repository makes a complete one", "statement": "When examples/multirepo/repository ends without an error, the metadata and target directories below its working directory form a complete TUF repository: if a web server delivers them, every new client that trusts the root file that was written for the client example finds each of the three targets and downloads exactly the file that was in the targets directory, with and without hash prefixes. The program ends without an error if the file system works, the target files are there and the generated keys are usable and different.", "quantifier": "every working directory, every content of the target files, all keys and expiry times, all map iteration orders, every client configuration that is large enough, every time before the expiry", "why_tests_cant": "all keys, contents, directories and client configurations", "anchors": ["examples/multirepo/repository/generate_metadata.go:main", "examples/multirepo/repository/generate_metadata.go:copyHashPrefixed", "metadata/metadata.go:ToFile", "metadata/metadata.go:FromFile"]}
{"id": "C111", "title": "The repository example makes a repository whose clients follow its root rotations and its delegation", "statement": "When examples/repository ends without an error, the directory it has made is a TUF repository with three versions of root metadata: if a web server delivers it, every new client that trusts the first root file (which needs the signatures of two keys) gets, through the rotation of a root key and the change of the threshold, to the third version, follows the terminating delegation to the role go-scripts, finds the target basic_repository.go there, and downloads exactly the file the program described. The program ends without an error if the file system works, the file is there, the directory name is new and the generated keys are usable and different. From the end of the first release on, clients find the target at every moment of the run.", "quantifier": "every working directory, every content of the file, all keys and expiry times, every choice of the directory name, every client configuration that allows two root updates and one delegation, every time before the expiry, every moment of the run", "why_tests_cant": "all keys, contents, directories, client configurations and interruption points", "anchors": ["examples/repository/basic_repository.go:main", "metadata/metadata.go:AddKey", "metadata/metadata.go:RevokeKey", "metadata/metadata.go:ClearSignatures", "metadata/updater/updater.go:GetTargetInfo"]}
{"id": "C112", "title": "The simulator used by the tests serves a repository that every client can follow", "statement": "Whatever sequence of targets is added, target versions set, settings for hashes and prefixes changed, UpdateTimestamp and UpdateSnapshot called and new roots published (with rotated keys of timestamp, snapshot and targets, with and without consistent snapshots): no call fails or ends the program, and after a final UpdateSnapshot every new client that trusts the simulator's first root and uses the simulator as its fetcher refreshes without an error; its trusted metadata is that of the simulator's objects, and GetTargetInfo finds the length and the hashes of the last content added under each name, and no other names.", "quantifier": "every history of calls of any length, all names and contents, all keys, every iteration order of the Go maps, every client configuration that allows enough root updates and large enough files, every time before the expiry", "why_tests_cant": "unbounded histories; every map iteration order; all keys and contents", "anchors": ["testutils/simulator/repository_simulator.go:NewRepository", "testutils/simulator/repository_simulator.go:UpdateSnapshot", "testutils/simulator/repository_simulator.go:RotateKeys", "testutils/simulator/repository_simulator.go:PublishRoot", "testutils/simulator/repository_simulator.go:DownloadFile", "metadata/updater/updater.go:Refresh"]}
{"id": "C113", "title": "A target added to the simulator can be downloaded by its clients", "statement": "After AddTarget and UpdateSnapshot, a client that finds the target with GetTargetInfo gets the content that was added from DownloadTarget.", "quantifier": "every history of calls, every target name and content, with and without consistent snapshots and hash prefixes", "why_tests_cant": "all names and histories; the tests only fetch metadata", "anchors": ["testutils/simulator/repository_simulator.go:fetch", "testutils/simulator/repository_simulator.go:lastIndex", "testutils/simulator/repository_simulator.go:FetchTarget", "metadata/updater/updater.go:DownloadTarget"]}
{"id": "C114", "title": "The simulator's hashes of metadata files are those of the files it serves", "statement": "With ComputeMetafileHashesAndLength, every metadata file that a client downloads matches the hash in the snapshot or timestamp file, however many signers its role has.", "quantifier": "all numbers of signers, every iteration order of the Go maps at the time of hashing and of serving", "why_tests_cant": "the result depends on the random iteration order of maps", "anchors": ["testutils/simulator/repository_simulator.go:signMetadata", "testutils/simulator/repository_simulator.go:computeHashesAndLength"]}
{"id": "C115", "title": "A delegation added to the simulator is in the metadata of the delegating role", "statement": "When AddDelegation returns, the metadata of the delegating role, whether targets or a delegated role, lists the new role with a key that signs the metadata served for it.", "quantifier": "every state of the simulator, every delegating role, every new role and content", "why_tests_cant": "all states and roles", "anchors": ["testutils/simulator/repository_simulator.go:AddDelegation", "testutils/simulator/repository_simulator.go:getDelegator", "metadata/metadata.go:AddKey"]}
{"id": "C116", "title": "Calls of the simulator return", "statement": "AddSuccinctRoles, AddTarget and requests of clients return a result or an error: none of them ends the program.", "quantifier": "every state of the simulator, all arguments and URLs", "why_tests_cant": "all states and arguments", "anchors": ["testutils/simulator/repository_simulator.go:AddSuccinctRoles", "testutils/simulator/repository_simulator.go:AddTarget", "testutils/simulator/repository_simulator.go:FetchMetadata"]}
{"id": "C117", "title": "Clients follow a rotation of the simulator's root key", "statement": "After RotateKeys of the root role and the publication of the next root, clients that trust an earlier root go on refreshing without errors.", "quantifier": "every history of the simulator before and after the rotation, every client that trusts the first root", "why_tests_cant": "all histories and clients; the repository's tests never rotate the root key", "anchors": ["testutils/simulator/repository_simulator.go:RotateKeys", "testutils/simulator/repository_simulator.go:PublishRoot", "metadata/trustedmetadata/trustedmetadata.go:UpdateRoot"]}
{"id": "C118", "title": "A client that comes back follows the simulator, provided versions are increased", "statement": "After NewRepository, let a test act on the simulator in any way (AddTarget, target version changes, ComputeMetafileHashesAndLength and PrefixTargetsWithHash settings, key rotations of the online roles, PublishRoot, UpdateTimestamp, UpdateSnapshot), with an UpdateSnapshot before each visit of a client that keeps its cache directory between visits. If between two visits the targets metadata is unchanged or its version is higher than at the previous visit, then at every visit New and Refresh return no error, the trusted metadata has the content of the simulator's objects at that moment, GetTargetInfo finds exactly the targets added so far with their length and hashes, and the cache stays usable. The condition is needed: if AddTarget is followed by UpdateSnapshot without increasing the targets version, a client that comes back refreshes without an error and does not find the new target.", "quantifier": "every number of visits; every sequence of calls between them; every order of Go's map iterations; every client configuration that can reach the simulator, and every cache left by its earlier visits", "why_tests_cant": "A test visits the simulator once or twice with a fixed history; whether a cached file of some earlier visit can block or shadow a later one depends on the whole history of versions and key rotations.", "anchors": ["testutils/simulator/repository_simulator.go: UpdateSnapshot, UpdateTimestamp, AddTarget, RotateKeys, PublishRoot, FetchMetadata, computeHashesAndLength", "metadata/updater/updater.go: Refresh, loadTimestamp, loadSnapshot, loadTargets, loadLocalMetadata", "metadata/trustedmetadata/trustedmetadata.go: UpdateTimestamp, UpdateSnapshot, UpdateDelegatedTargets"]}
{"id": "C119", "title": "Clients follow the delegations added to the simulator", "statement": "After NewRepository, any sequence of calls to the simulator, with AddDelegation(\"targets\", role, targets) for any roles at any points in it (distinct names made of unreserved URL characters and without dots; any path patterns or hash prefixes; terminating or not; any targets), followed by UpdateSnapshot, never fails. A new client that trusts the first root and allows as many delegations as there are roles then gets from GetTargetInfo, for every path and after any earlier requests: the length and hashes of the file last added under that path to the top-level targets, if there is one; otherwise the entry of a delegated role that is delegated the path and lists it; otherwise an error, and an error only if no role that is delegated the path lists it, or a terminating role that is delegated the path does not list it. With consistent snapshots this does not hold for role names that have a dot.", "quantifier": "every history of the simulator, every list of delegated roles with any paths and targets, every order of map iterations, every path, every sequence of earlier requests, every client that can reach the simulator", "why_tests_cant": "The tests add one or two delegations with fixed names and paths; which roles are visited, and whether a role hides another, depends on all of them and on Go's map order.", "anchors": ["testutils/simulator/repository_simulator.go: AddDelegation, AllTargets, getDelegator, FetchMetadata, UpdateSnapshot, fetch, partition", "metadata/updater/updater.go: GetTargetInfo, preOrderDepthFirstWalk, loadTargets", "metadata/metadata.go: AddKey, GetRolesForTarget, IsDelegatedPath, VerifyDelegate"]}
{"id": "C120", "title": "Go's map order decides nothing beyond the choices of C57", "statement": "The same calls of one updater, with the same network, files and random numbers, give the same answers, the same downloads and the same files whatever order Go's map iterations take, as long as no call panics, no role delegates a searched path to two roles and no downloaded target has several hashes (only if hash-prefixed names are on). A failing call fails in every order. Which kind of error Refresh returns, and whether it panics instead, does depend on the order.", "quantifier": "every sequence of calls, every pair of iteration orders (chosen anew for every iteration), every network and file system behaviour, every state of the updater", "why_tests_cant": "A test runs with whatever order the runtime happens to choose; the property compares two runs over all orders.", "anchors": ["metadata/updater/updater.go: New, Refresh, GetTargetInfo, DownloadTarget, FindCachedTarget, preOrderDepthFirstWalk", "metadata/trustedmetadata/trustedmetadata.go: UpdateSnapshot", "metadata/metadata.go: GetRolesForTarget", "metadata/errors.go: Is"]}
{"id": "C121", "title": "What an online refresh has cached, local mode can use", "statement": "After a successful Refresh of a new updater with the cache switched on, whatever the network served, the metadata directory holds the very documents the updater trusts, root included. The same client started later with UnsafeLocalMode on these files, from the same initial root or from the cached root.json, refreshes successfully exactly if that root's keys signed them, nothing is expired at that time and the snapshot file matches the timestamp's description of it, and it then holds the same documents. So a client without a cached snapshot before can go offline from the cached root until something expires. From the initial root it cannot if the root was rotated online (local mode never loads newer roots), and a client that kept a cached snapshot in another encoding may not be able to.", "quantifier": "every network, prior cache content, configuration, clock and later file system behaviour", "why_tests_cant": "The two runs are related through the disk for every response of the server and every prior content of the cache.", "anchors": ["metadata/updater/updater.go: New, Refresh, onlineRefresh, unsafeLocalRefresh, loadTimestamp, loadSnapshot, loadTargets, persistMetadata, loadLocalMetadata"]}
{"id": "C122", "title": "No interruption locks a client out", "statement": "A client of a repository that publishes one correctly signed release after the other is started again and again; any of its sessions (New, Refresh, searches, downloads) may be interrupted after any event, even in the middle of a write. If the cached metadata files stay as the interruption left them, and left-over temporary files are gone, then the next New and Refresh succeed, with a release at least as new as all releases seen in earlier sessions and as the one that is current at the start, and all searches and downloads are served from that release. This does not extend to local mode: a cache that was good enough to go offline can be useless for that after an interrupted session, because it mixes the timestamp of one release with the snapshot of another.", "quantifier": "every history of sessions and interruptions, every point of interruption, every sequence of releases and moments of their publication, every initial cache that does not contradict the releases still to come", "why_tests_cant": "The points of interruption, their number and their interleaving with publications are unbounded.", "anchors": ["metadata/updater/updater.go: New, Refresh, loadRoot, loadTimestamp, loadSnapshot, loadTargets, persistMetadata, GetTargetInfo, DownloadTarget"]}
{"id": "C123", "title": "The command line client gets every target of a repository that publishes", "statement": "While a repository publishes releases at --url (metadata) and --turl (target files; by default --url, with hashes in the file names unless --nonprefixed), `tuf-client get NAME` succeeds in every directory whose tuf_metadata/root.json leads to the repository's root, for every NAME that each release has a unique description of within 33 roles and without terminating delegations. It prints tuf_download/<escaped NAME>, and the file there has the length and hashes that a release lists. In an empty directory `tuf-client init --url` succeeds if the server has self-signed root metadata, and get works at any time after it.", "quantifier": "all flags, directories, target names, repositories, histories of releases published before and during the command, all contents of the metadata cache that are not newer than the releases, all contents of the download directory", "why_tests_cant": "a test runs the command against one server state; here releases may appear at any moment during the run and names, delegation structures and cache contents are arbitrary", "anchors": ["examples/cli/tuf-client/cmd/get.go:GetCmd", "examples/cli/tuf-client/cmd/get.go:verifyEnv", "examples/cli/tuf-client/cmd/init.go:InitializeCmd", "metadata/config/config.go:New", "metadata/updater/updater.go:Updater.Refresh", "metadata/updater/updater.go:Updater.GetTargetInfo", "metadata/updater/updater.go:Updater.DownloadTarget"]}
{"id": "C124", "title": "Reading gives every field the value of its member, and a missing member the zero value", "statement": "When a document (or a part of it: signature, key, role, delegation, file description) is read, each field of the result has exactly the value of the JSON member of that name; if no member spells the name (upper and lower case do not matter), the field is 0, empty, false, absent, or, for the expiration time, the beginning of the year 1. A document without an expiration time has therefore expired at every later time. That a document without a required member is refused is false: a fresh client accepts a timestamp without a version, and a root whose targets role has no threshold lets unsigned targets metadata pass.", "quantifier": "all JSON objects, with any members in any order and any spelling, for all four roles and all nested structures and all their fields", "why_tests_cant": "the objects, the other members and their order are unbounded; a test reads a few documents", "anchors": ["metadata/marshal.go: UnmarshalJSON of RootType, SnapshotType, TimestampType, TargetsType, MetaFiles, TargetFiles, Key, KeyVal, Signature, Role, DelegatedRole, SuccinctRoles, Delegations, Metadata", "metadata/types.go", "metadata/metadata.go: fromBytes, IsExpired, VerifyDelegate"]}
{"id": "C125", "title": "New root metadata may appear while clients are at work", "statement": "A repository publishes new root metadata, possibly with other keys, and new releases at any moments, also while a client is in the middle of New and Refresh. If every announced timestamp (with the files it leads to) is correctly signed for each root that was the newest at some moment since the client started, then New and Refresh succeed; the client then trusts the newest root of some moment between its start and its end, and everything else it trusts and delivers is of one release. If no root appears meanwhile, releases signed for the newest root are enough. That this is always enough is false: if root and timestamp are replaced at once between the client's last root request and its timestamp request, Refresh fails, even with an empty cache.", "quantifier": "all numbers of new roots and releases, all moments at which they appear, all clients with any permissible cache, and all later uses of the client", "why_tests_cant": "the moments at which files appear, the number of roots and releases, and the client's cache are unbounded; a test replaces files at a few moments", "anchors": ["metadata/updater/updater.go: New, Refresh, loadRoot, loadTimestamp, loadSnapshot, loadTargets, GetTargetInfo, DownloadTarget", "metadata/trustedmetadata/trustedmetadata.go: UpdateRoot, UpdateTimestamp"]}
{"id": "C126", "title": "A client that is used again and again follows root rotations and releases, and never goes back", "statement": "A repository publishes new roots and new releases over time; each release stays correctly signed for the newest root and, back to some older root, for the ones before; older roots are given up. A client is started, refreshed and used any number of times. The roots and the releases it sees are in order. Each session that ends Refresh before the root that was the newest at its start is given up succeeds, whatever the earlier sessions left in the cache: the client then trusts a root and a release at least as new as all it saw before and as those that were current at its start, and everything it delivers is of that release. The requirement to be in time cannot be dropped (C125_race_refuted).", "quantifier": "all numbers of sessions, roots and releases, all moments at which roots and releases appear and roots are given up, all searches and downloads within the sessions", "why_tests_cant": "histories of sessions and publications are unbounded; a test plays a few of them", "anchors": ["metadata/updater/updater.go: New, Refresh, loadRoot, loadTimestamp, loadSnapshot, loadTargets, persistMetadata, loadLocalMetadata, GetTargetInfo, DownloadTarget", "metadata/trustedmetadata/trustedmetadata.go: UpdateRoot, UpdateTimestamp, UpdateSnapshot, UpdateDelegatedTargets"]}
{"id": "C127", "title": "A client recovers from interruptions while roots are rotated and releases are published", "statement": "A repository publishes new roots and new releases over time and gives up old roots, as in C126. A client is started any number of times; each session either refreshes and is used, or is interrupted (the process is killed) after any of its events, also in the middle of a write, for example while it stores one of several new root files. Between the sessions the repository may publish more. The next session that ends Refresh before the root that was the newest at its start is given up succeeds, whatever the interruptions left in the cache. The roots and releases it sees never go back, and everything it delivers is of the release it sees.", "quantifier": "all numbers of sessions and interruptions, all points of interruption, all lengths of partly written files, all numbers of roots and releases and moments at which they appear or are given up", "why_tests_cant": "points of interruption combine with moments of publication and with histories of sessions; a test plays a few combinations", "anchors": ["metadata/updater/updater.go: New, Refresh, loadRoot, loadTimestamp, loadSnapshot, loadTargets, persistMetadata, loadLocalMetadata, GetTargetInfo, DownloadTarget", "metadata/trustedmetadata/trustedmetadata.go: UpdateRoot, UpdateTimestamp, UpdateSnapshot, UpdateDelegatedTargets"]}
