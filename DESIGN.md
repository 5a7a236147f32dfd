# Formal model of go-tuf-metadata in Rocq (Coq 8.16.1)

## 1. What is modelled, and where

Each Go file has one model file (`rocq/theories/*.v`); every definition cites the Go file and lines.
Model files contain only total, computable Gallina functions. Specifications (`Spec*.v`), proofs
(`*Proofs.v`) and final statements (`Properties*.v`, each theorem followed by `Print Assumptions` and a
concrete non-vacuity `Example`) are separate.

| model file | Go code |
|---|---|
| `GoBase.v` | results (`Ok` / `Err` / `Panic`), Go errors and `errors.Is` (`metadata/errors.go`), 64-bit integers |
| `GoStr.v` | the string functions of the standard library the code calls: hex, base64, `url.QueryEscape`, `strconv`, `strings`, `path` |
| `Glob.v` | `filepath.Match` |
| `Json.v` | JSON trees, `encoding/json` decoding into `any`, canonical JSON encoder of go-securesystemslib |
| `Types.v`, `Marshal.v` | `metadata/types.go`, `metadata/marshal.go` |
| `Keys.v` | `metadata/keys.go` |
| `Metadata.v` | `metadata/metadata.go` |
| `Files.v` | `json.Indent`, `ToBytes`, `ToFile`, `FromFile` of `metadata/metadata.go` |
| `Cli.v` | `examples/cli/tuf-client/cmd` (`init`, `get`, `reset`); flags are arguments, printing is not modelled |
| `ExampleClients.v` | `examples/client/client_example.go` and `examples/multirepo/client/client_example.go`; addresses and the target name are arguments |
| `ExampleRepos.v` | `examples/multirepo/repository/generate_metadata.go` and `examples/repository/basic_repository.go`; key pairs and expiry times are arguments |
| `Simulator.v` | `testutils/simulator/repository_simulator.go`: the in-memory repository of the tests, as a source of metadata and targets; key pairs and the path in a URL are arguments |
| `TrustedMetadata.v` | `metadata/trustedmetadata/trustedmetadata.go` |
| `Fetcher.v` | `metadata/fetcher/fetcher.go`, `metadata/config/config.go` |
| `Updater.v` | `metadata/updater/updater.go` |
| `MultiRepo.v` | `metadata/multirepo/multirepo.go` |
| `Repository.v` | `metadata/repository/repository.go` |

### Modelling decisions

* **Results.** A Go call is `Ok v`, `Err e` or `Panic`; panics are part of the model (nil dereference, failed
  type assertion, negative shift, `ed25519.Verify` on a wrong key length), they are not assumed away.
* **Go values.** Byte strings and strings are Coq `string`s (lists of bytes). `int64`/`int` are `Z` with explicit
  wrap-around where the code does arithmetic. Maps are `option (gmap string V)` and slices `option (list A)`
  (`None` = nil), pointers are `option`.
* **Map iteration order** is an oracle (a permutation for every iteration); theorems quantify over it.
* **Cryptography** is a record of functions (`sha256`, `sha512`, PEM/PKIX, raw signature verification), with the
  only assumed law that digests have their fixed length. No collision resistance or unforgeability is assumed; a
  theorem that needs such a thing says so in its statement.
* **JSON and RFC 3339 text**: both layers are concrete. `Json.v` has the text parser (strings, escapes, surrogates,
  numbers, the 10000-level nesting limit, trailing data), the compact printer of `encoding/json`, and the canonical
  encoder; `Marshal.v` has the tree-level semantics (case-insensitive member names, duplicate members, null, number
  ranges, element reuse). `GoTime.v` has the lenient RFC 3339 parser of Go 1.21 and the printer. Numbers inside
  unrecognised members are `float64` values as in `map[string]any` (`Json.v`, `f64_*`).
* **Network, disk, clock**: the updater is a state machine over a disk (finite map from path to bytes), a server
  oracle (any answer to any request at any time), an I/O oracle (any file operation may fail, writes may be
  partial) and a log of all requests and file operations. A crash is a prefix of the log.
* **Pointers**: aliasing between values is not modelled (values are copied), except for the one place where the code's
  behaviour depends on it (the loop variable in the multi-repository client).
* **File system**: files are keyed by path strings; directories, links and path aliases do not exist. Paths are
  compared as the strings the code builds. A failed read delivers its error in a `Read` of its own.
* **Conversions** of out-of-range floats to integers follow amd64.
* **Goroutines**: the library starts none and takes no locks; concurrent use of one object is out of scope. The one
  goroutine of the simulator sends the elements of a list through a channel; the model has the list.

## 2. Not modelled

Logging and printing, flag parsing, the stub `examples/cli/tuf`, the generation of key pairs, other test utilities than the
simulator (and of the simulator the dump directory, `FetchTracker` and `InitMetadataDir`), the TLS/HTTP layer below
`http.Client.Do`, file modes, symbolic links, `sigstore` internals (which hash/padding is used), memory limits.

## 3. Trusted base

Coq's kernel (and `coqchk`), the correspondence between the Go text and the model (by reading; the code cannot be
run here), the documented behaviour of the Go standard library functions re-implemented in `GoStr.v`, `Glob.v`,
`Json.v`, `go-securesystemslib/cjson` and `sigstore` as described in the comments. `Print Assumptions` of every
theorem is printed during the build; the list is in section 5.

## 4. Plan per property

"char." = proved as an if-and-only-if characterisation of the modelled function. "refuted" = the property, as users
expect it, is false of the code: a concrete counterexample is proved, together with the strongest true version.

| id | how |
|---|---|
| C01 | char. of `verify_delegate` by a declarative spec (exists a duplicate-free list of role key IDs ...) |
| C02, C03 | corollaries of C01's spec plus invariance theorems relating two runs |
| C04 | refuted (threshold <= 0); true version for threshold >= 1 |
| C05 | refuted (one key under two IDs); true version when key table is injective on content |
| C06 | refuted (any role name is accepted for succinct roles) |
| C07 | refuted (null key, short ed25519 key); exact characterisation of the panicking inputs |
| C08 | induction over the signer list with a correctness hypothesis relating signer and verifier |
| C09 | injectivity of the canonical encoder on JSON trees + injectivity of marshalling on well-formed values |
| C10, C17, C19 | structural induction; tree-level decode(encode x) = x per type |
| C11, C12, C13 | char. of `from_bytes`; C12 refuted for FromBytes (case-insensitive member names), proved for the trusted set |
| C14 | refuted; characterisation of panicking documents |
| C15 | tree-level theorem for all members; numbers beyond 2^53 refuted |
| C16 | induction over byte strings |
| C18 | direct |
| C20-C25 | char.; C23, C26 refuted + true versions |
| C27 | glob matcher proved equivalent to a declarative matching relation, per segment |
| C28 | refuted (base64 instead of hex); exact characterisation of the real behaviour |
| C29 | char. of the resulting map |
| C30-C32 | arithmetic on digests, hex formatting and parsing; C31, C32 refuted + true versions |
| C33-C35 | char. of effects; invariant by induction over operation sequences |
| C36, C37 | char. with abstract PKIX/PEM functions satisfying their round-trip law |
| C38-C50 | char. of each update; inductive invariant over operation sequences; C48 refuted + characterised |
| C51-C56, C58-C62, C64, C65, C70, C71 | invariants of the updater state machine, Hoare-style over all oracles |
| C57, C63, C66, C68, C69, C72-C74 | refuted + true versions |
| C67 | injectivity of `url.QueryEscape` |
| C75 | char. of `download_file`; boundary maxLength = MaxInt64 |
| C76 | refuted (Go 1.21 loop variable aliasing) + true version |
| C77-C79 | char. |
| C80, C81 | all error constructors; C81 refuted |
| C82 | induction over operation sequences |
| C83 | refuted (GetTargetInfo downloads in unsafe local mode); true version for roles in the cache |
| C84 | refuted (unknown repository, null mapping entry, empty URL list); true version |
| C85-C88 | char. / invariants of the multi-repository client; C85, C87, C88 refuted + true versions |
| C89 | VerifyDelegate reads only what saving keeps (C09), so verdicts survive; for the API calls an invariant of AddKey and RevokeKey, then the acceptance conditions of C38-C47 |
| C90 | text-level model of `json.Indent`; the parser reads every white-space variant of a document alike |
| C91 | `ToFile`/`FromFile` on the disk model; refuted for crash atomicity; true version: no proper beginning of a written file is JSON |
| C92 | panics of the updater: refuted (a delegated role that the snapshot does not list); true version |
| C93 | the reference time is fixed when the updater is created: invariant over all calls |
| C94 | fast-forward recovery: corollary of the exact acceptance conditions |
| C95 | compromise resilience: counting argument on C01's spec, content equality by C09 |
| C96 | sign, save, load: false when a key signs twice (proved for all objects); holds after ClearSignatures |
| C97 | invariant over client histories (`SpecHistory.v`: starts, calls, stops, interruptions, other files changing); restart false if a role is called root, true otherwise |
| C98 | C58 and C59 combined with the length check |
| C99, C101 | `get` as a sequence of API calls of a session; C101 embeds runs of `get` into the histories of C97 |
| C100 | all outcomes of `init`; three refutations with witnesses |
| C102 | all outcomes of `reset`; answers specified by a list of spellings |
| C103 | an invariant of the walk against an honest server: each role loads as published, so the run is a `search` through everything published (induction over the fuel); completeness by closure of exhausted searches and a counting argument for the budget |
| C104 | clients as lists of file operations (those of New and API calls), interleaved one at a time with partial writes visible; invariant: each client is outside or inside one store, which it does in its own temporary file, and temporary files are never shared (O_EXCL) |
| C105 | the program's run is decomposed into the choice of the root file and a run of New and the API, for which C89–C101 give the facts; induction over the runs for the root file |
| C106 | induction over the listed targets: each entry adds what DownloadTarget verified; each step leaves a file alone unless it is a place of a listed target, and path cleaning keeps names without .. inside the directory |
| C107 | composition of C106, C76 and C78; a preservation argument over all calls of the multi-repository client for the root file |
| C108 | SpecLive.v: a server whose answers depend on the moment; an environment that agrees with it from the announcement on is constant, so C63/C103 apply after a change of environment (LiveProofs.v) |
| C109 | invariant of the cache over sessions: each file is as before or the metadata of the release just seen, so it suits all later releases (LifeProofs.v) |
| C110 | what each step of the program leaves in memory and on disk; values without unrecognised fields can be written and read back (PlainProofs.v); the written files are an honest publication, then C103 (GenerateProofs.v); success by computation of the steps (RunsProofs.v) |
| C111 | who may sign for a role after each call of AddKey, RevokeKey and of a change of the threshold (TeamsProofs.v); so every metadata value the program makes, and that each version of root is signed by the keys of its predecessor and its own (BasicRepoProofs.v); what a run writes, and that it succeeds (BasicRunProofs.v); the result is an honest publication with one delegated role, and the search of C103 through it (BasicServedProofs.v); the refutation by computation of interrupted runs |
| C112 | invariants of the simulator (one working key per role that signs it, a chain of roots, plain content) kept by every call, by induction on the history; then what is served is an honest publication (C71); the listed targets by a second induction |
| C113-C116 | the name that FetchTarget looks up always has an empty part; refutations of C113 and C114 by computation of a full client session; C115, C116 by cases on the calls, for every state |
| C117 | false: the history is run up to the rotation with the invariants of C112; the new root carries one signature, under a key ID the old root does not list; induction over the root files that a client downloads; the published roots only grow, so the lock lasts for every later history |
| C118 | induction over the visits of a client: each cached file is of an earlier state of the simulator (version numbers only grow; the cached targets are an older version or the present ones, under any key that ever signed them), which is all that C63's conditions on a cache need; the needed condition on the targets version is refuted by computing a history without it |
| C119 | the invariant of C112 without its emptiness of MDDelegates, plus one on the delegations of targets that every act keeps (each listed role has its one key, a file signed by it and a snapshot entry); the search of C103 over a tree of depth one, inverted; a dotted role name is refuted by computation |
| C120 | a relation between the runs of an environment and of the same environment with another `e_order`, kept by every step of the updater: equal states and equal answers unless one panics; the rollback check succeeds in all orders or in none, a search with at most one child per role and a single hash leave one permutation; the kind of error and the panic are refuted by computation |
| C121 | each loading step of an online refresh leaves the document it trusts in the cache (whether it was downloaded or read from there); a local refresh is then computed through the specifications of the three updates, which gives an equivalence; counterexamples by computation (`SpecOffline`, `OfflineProofs`, `PropertiesOffline`) |
| C122 | a relation on the disk, composed along the calls of a session: before the timestamp is requested no cached file but the root changes at any point, and from then on each file is at every point as it was or as it will be, since every role's file is written at most once; so at each point the cache fits all releases that can still be current; then induction over the history with the lemmas for C109 (`SpecCut`, `CutProofs`, `PropertiesCut`) |
| C123 | `tuf-client get` and `init` succeed against a publishing repository. `get_settings` pins the client's configuration in terms of the flags; the updater part is composed from C108's invariants (Refresh), C103's search, FindCachedTarget and the download; `init` is run symbolically. | SpecGet.v, GetProofs.v, PropertiesGet.v |
| C124 | Every field has the value of its member, missing members give zero values. One lemma about `decode_members` (fields with another name do not change the projection), with an independent definition of case-insensitive spelling, instantiated for every field. | SpecFields.v, FieldsProofs.v, PropertiesFields.v |
| C125 | Roots that appear while a client works. Induction over the root loop against a server whose newest root grows with the trace: the loop ends with a root that was the newest at some moment; the rest is C108 for that root. The race between root and timestamp is a computed counterexample. | SpecRotate.v, RotateProofs.v, PropertiesRotate.v |
| C126 | Many sessions and many roots. What a session leaves in the cache fits all later releases under every root (the conditions on cached files do not depend on who signs them), so the cache stays usable; induction over the sessions as in C109. | SpecEra.v, EraProofs.v, PropertiesEra.v |
| C127 | Interrupted sessions with many roots. Until the timestamp is requested a session changes no cached file but the root's, which New and Refresh never read back; afterwards every file changes at once, so a cut leaves old or new files (C122), and both fit all later releases under every root (C126). | SpecRough.v, RoughProofs.v, PropertiesRough.v |

## 5. Axioms

Every theorem listed in `MANIFEST.json` prints "Closed under the global context": no axiom, neither of ours nor of
the standard library, is used by any of them. `coqchk -norec` on all modules additionally reports the axioms of the
loaded standard library that no theorem depends on: `Coq.ssr.ssrunder.Under_rel.{Over_rel, Under_rel_from_rel,
over_rel, over_rel_done, Under_rel, Under_relE, under_rel_done}` (they come with ssreflect, which std++ loads).

The cryptographic functions and the environment are not axioms: they are arguments (`Crypto`, `env`) of the
definitions, and the theorems quantify over all of them. `Toy.v` has a concrete instance, used in the examples.

## 6. Testing the theorems against wrong programs

`seeded/LOG.jsonl` has one line per edited definition. The edits are applied one at a time to a scratch copy; every
file that depends on the edited one is compiled again; a proof that no longer goes through is replaced by `Admitted`
in the scratch copy (so that all later files are still checked), and `Print Assumptions` then tells which of the
final theorems rest on a proof that failed. `failed_proofs` are the proofs that failed themselves,
`theorems_failed` the final theorems that depend on them.
The later entries (ids ga, gb, fd, rt, er) come from a quicker run, which takes the dependencies from the `.glob` files and
stops at the first failed proof on which a final theorem (for rt and er: C125, C126) rests; other theorems may fail, too.
