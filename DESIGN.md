# Formal model of getsolus/ferryd in Rocq (Coq 8.16.1)

This file was written before the proofs; it is kept in step with them.

## 1. Shape of the model

All theories use the Coq standard library only. Go strings and byte slices are
`string` (bytes); Go `int` is `Z`; `uint64` reference counts are `N`
(decrementing 0 wraps to 2^64-1, incrementing does not wrap - 2^64 references
would be needed). A Go call yields `res A := Ok a | Err | Panic`.

| file | models |
|---|---|
| `Base.v` | library: byte-string order, sorted string maps (`smap`, iteration in key order as in goleveldb), sorting |
| `Paths.v` | `filepath.Clean/Join/Base`, `MetaPackage.GetPathComponent`, `GetID` |
| `Model.v` | `core/pool.go`, `core/repo.go`, `core/repo_index.go`, `core/api.go`, `core/manager.go`, `core/util.go` (files with inodes and hard links) |
| `Assets.v` | `libeopkg/components.go`, `groups.go`, `FixMissingLocalLanguage` of `main.go` |
| `Purge.v` | `core/purge_cloudflare.go` |
| `WorkerLoop.v` | `jobs/worker.go` Start/Stop/setTime, `jobs/processor.go` Begin/Close: timers, exit channels, WaitGroup |
| `Faults.v` | requests given up because a write failed (`core/pool.go:228-232`, `core/repo_index.go:296-307`) |
| `RepoDirs.v` | the paths of `core/repo.go`: `bakeRepo`, `CreateRepo`, `DeleteRepo` for arbitrary names |
| `Reading.v` | `libeopkg/package.go`, `metadata.go`: from a package file to its metadata |
| `LibDb.v` | `libdb/leveldb.go`: the flat key space with prefixes, batches, `NextSequence` |
| `Gob.v` | `libdb/transcoder.go`, `PutObject`/`GetObject`/`Decode` of `libdb/leveldb.go`, the stored record types, encoding/gob |
| `Jobs.v` | `jobs/store.go`, `worker.go`, `processor.go` as a state machine with crash points |
| `Dispatch.v` | job constructors and handlers of `jobs/*.go`, `NewJobHandler`, decimal printing/parsing, request handlers of `ferryd/handlers.go` |
| `Escape.v` | `core/escape.go` and Go's UTF-8 decoder/encoder |
| `Unxml.v` | `libeopkg/package.go:ReadMetadata`, `distribution.go`, `components.go`, `groups.go` readers: struct tags, encoding/xml's unmarshal from a tree of elements |
| `FilesXml.v` | `libeopkg/files.go`, `libeopkg/package.go:ReadFiles` |
| `Xml.v` | `core/repo_index.go:emitIndex` down to bytes: struct tags of `libeopkg`, encoding/xml's Encoder, bufio.Writer, `core/escape.go` |
| `DeltaProd.v` | `libeopkg/delta.go`, `libeopkg/util.go` (`ComputeDeltaName`, `IsDeltaPossible`) |
| `WorkDir.v` | `libeopkg/delta.go` step by step with the work directory, `ExtractTarball`, `XzFile`/`UnxzFile`, `ProduceDelta`, `CreateDelta` |
| `DeltaJob.v` | `jobs/delta.go` and the delta part of `core/api.go`, `core/repo.go` |
| `Lock.v` | `ferryd/lockfile.go` for any number of processes |
| `Transit.v` | `core/transit_manifest.go`, `jobs/transit_job.go` |
| `Trees.v` | `ferryctl/cmd/import.go:GetEopkgs`, `core/util.go:RemovePackageParents` |
| `Conc.v` | concurrent use of the Manager: mutexes, interleavings of the database accesses |
| `Daemon.v` | requests + queue + workers + dispatcher + manager + uploads in one state machine with crash points |
| `Client.v` | `libferry/main.go`, `types.go`, `ferryctl/cmd/*.go`, routes of `ferryd/server.go`: from the command line through URL, router and JSON to the queued job |
| `Server.v` | `ferryd/server.go` Bind/Serve/Close, `ferryd/monitor.go`, stopping of the workers |
| `Listing.v` | `GetRepos`, `GetPoolItems`, `ferryctl list` |
| `Times.v` | the time stamps of jobs (`TimingInformation`), `ferryctl status` |
| `Demo.v`, `DemoOk.v` | concrete packages, environments and histories that meet the hypotheses |
| `Spec.v`, `JobSpec.v`, `DaemonSpec.v`, `XmlSpec.v` | the vocabulary the property theorems are stated in (no proofs) |
| `Props*.v` | property theorems with `Print Assumptions`; small specifications precede the theorems |
| all others | lemmas (invariants `DbInv`, `FsInv`, `DaemonFacts`; a small weakest-precondition calculus `Wp`; facts per operation) |

### Execution and crashes

A Manager operation is a function `state -> list state * state * res A`: the
list is the state after **each durable write** (one database put/delete, one
batch commit, one link/unlink/truncate/write/rename of a file). A crash can
happen after any of them; restarting drops the volatile part of the state
(repository cache, uncommitted batch). Thus "for every crash point" is "for
every element of the trace".

### What is a parameter (oracle)

`Env` holds the parts that are not ferryd's logic: `parse` (zip + XML decoding
of a package file into its metadata; may fail or panic), SHA-1/SHA-256, whether
two trees are on the same filesystem (hard links possible), XML encoding of the
index document (`render`; modelled by itself in `Xml.v`, C105; joined in C106), decoding of the asset files and `sort.Sort` on them, the `xz`/`zstd` output.
Per call: Go's map iteration order used for the renames, the order Go's
unstable sort gives to packages with equal release, whether an external tool / rename
fails, how the Cloudflare purge ends (C97). Every theorem is for all values of these.

### Domain hypotheses, and where they come from

* `good_catalog`: a package ID (file name) determines the metadata inside the
  file. The README and `PoolEntry.Name` ("Name&ID") demand instance-unique IDs;
  all dedup in the code relies on it.
* releases are >= 1 where stated (`UnrefPackage` starts its maximum at 0).
* metadata has a history and a source name where stated (else the code panics,
  which is property C45).
* every component and group in the asset files has its texts where stated
  (`good_asset`; else indexing panics, which is property C96), and Cloudflare does
  not refuse a purge without a message (`go_purge`; else it panics, C97).
* repository names do not contain `-package` (else buckets collide: C37) and are one
  path component (else their directories overlap: C98; `Model.v` gives each its own tree).

## 2. Trusted base

* Coq 8.16.1's kernel (and `coqchk`), the OCaml runtime, the standard library.
* `Print Assumptions` of every property theorem prints "Closed under the global
  context": no axioms. (`coqchk` of the whole development also lists seven fields
  of module types in `Coq.ssr.ssrunder`, a file of the standard library that is
  loaded with ssreflect-style rewriting; no theorem depends on them.)
* The reading of the Go code: each definition cites file and lines. The code
  was never run.
* Assumed about the outside: goleveldb (atomic durable `Put`, `Delete`,
  `Write(batch)`, ordered prefix iteration, an error after `Close`), POSIX
  link/unlink/rename/O_TRUNC semantics, `flock` per open file, the documented
  behaviour of encoding/gob (header of `Gob.v`), Go's maps, sort, `encoding/json` on strings, `net/url`, the routing
  rules of httprouter v1.3.0 (exact match first, redirects for trailing slashes
  and case), cobra's splitting of arguments, `net.Listen` failing on an existing
  socket path, the watcher reporting an Update when a written file is closed.

### Modelled
`core` (all of the manager, pool, repositories, index, manifests, escaping),
`jobs` (store, workers, processor, all job types), `libdb` (LevelDB handle),
`libeopkg` (reading, delta naming and production), `ferryd` (handlers, lock file,
server life cycle, incoming monitor), `libferry` and `ferryctl` (every call and
command that changes something), in the parts listed in the table above.

### Not modelled
Logging, file modes/owners/times, TLS, HTTP framing and time-outs, Cloudflare
request contents (only success/failure), the tokenizing of XML (from elements on: `Unxml.v`, C107), zip/tar byte formats, the printing of listings by `ferryctl`, memory
exhaustion, I/O errors other than "file missing" and failing writes (C100), partial `write`s (a file being copied is empty, then complete).

### Remarks on reach
* `EscapedWriter` (C46, C47) is fed by encoding/xml's buffered writer, 4096 bytes at a
  time: C105 has the whole path, with the reader's view of CDATA sections, which C46's
  reader does not have.
* `deltasEnabled = false`: the tail of the transit and pull jobs that queues delta
  jobs is dead code and modelled as such.
* The concurrency refutations C55, C65, C66 are about the Manager used by several
  workers at once, which is what the background workers are for. At this commit
  the dispatcher refuses the background job types (C35), so the daemon itself does
  not reach them; the sequential worker is alone (C68).
* C67 treats a job as a sequence of lock operations and arbitrary data accesses,
  with the lock order read off the code.
* The daemon model executes a job in one step when it is not interrupted, and has
  a crash point at every durable write inside it. Sequential jobs run on one
  worker, so nothing is lost by that; background jobs fail in the dispatcher.
* C76 treats each call of `Close` as one step and splits `store.Close` in two.

## 3. Plan per property

Three proof shapes are used: **Inv** (invariant by induction over all
histories), **Spec** (functional correctness of one operation from every state
meeting the invariant), **Alg** (algebraic law over all inputs). **Ref**: the
full claim is false of the code; a `_refuted` theorem gives a concrete history,
and the part that does hold is proved as `_partial`.

| id | plan |
|---|---|
| C01 | Inv. `refs`: for each ID, number of listings <= pool reference count. Histories: any ops, including crashes in adding operations and in delete |
| C02 | Ref (adding a version drops the delta listing without unref) + Inv `=` for delta-free, crash-free histories |
| C03 | Inv: published is in available, maximal release. Ref for releases <= 0 |
| C04 | Inv: entry well-formedness |
| C05 | Inv on inodes: repo and pool files of every listed package have the recorded SHA-1 and size. Ref for deltas |
| C06, C07 | Spec of the emitted document against an independent description. C07 Ref if package metadata already carries deltas |
| C08 | trace of `Index`: every published file old-complete or new-complete, all rename orders, all failures |
| C09 | Ref (crash between renames) + Spec: after success all nine agree |
| C10 | trace: after any crash, at most two runs fail, the third succeeds; Ref for "the next run succeeds" |
| C11 | Spec: frame theorem over all operations |
| C12, C13 | Spec |
| C14-C17, C19, C21 | Spec of the operation from every invariant state |
| C18 | Ref: the flag is inverted; Spec of the actual behaviour |
| C20 | Ref + Spec of what is removed |
| C22 | trace invariant of all adding operations |
| C23 | Ref (crash in UnrefPackage) + delete: trace invariant of the database part |
| C24 | Ref (retry truncates the shared inode); crashes that leave no unlisted file are harmless (PropsRetry.v, by the orphan-free invariant of History.v), create and index crashes never leave one |
| C25 | Ref (Deltas not copied) + Spec: everything else of the entry kept |
| C26, C27 | Ref (same inode / missing source; hard link alias) + Alg with the exact condition |
| C28-C33 | state machine of the job store, Inv over all histories/crash points; C33 Ref |
| C34, C35, C36 | Alg (decimal round trip); Ref: Delta jobs not dispatchable, which then breaks status |
| C37-C40 | flat key space; C37 Ref for colliding names + Alg for safe ones; C39 Ref |
| C41 | Alg with side condition; Ref without |
| C42, C43 | Alg |
| C44 | Alg for normal names; Ref for `..` |
| C45 | Ref (three panics) + Spec: no panic for well-formed metadata, from all invariant states |
| C46, C47 | Alg on UTF-8; C47 Ref when a rune is split |
| C48-C50 | Spec; C49, C50 Ref |
| C51, C52 | transition system of processes; Ref (unlink race; stale digits) + Inv without `Clean` |
| C53, C54, C58 | Alg / induction on trees |
| C55 | Ref (lost update) + serial composition correct |
| C56 | Inv |
| C57 | Spec: simulation of the job by a history of requests |
| C59 | Inv + wp: no operation panics from an invariant state with files in the domain |
| C60 | Inv: package files in a repository tree are listed there, package files in the pool tree have a pool entry |
| C61 | Ref (nothing made, so no index) + Spec when a delta was made |
| C62 | exact condition for a start to be refused, over all lock file contents; Ref (PID reuse) |
| C63, C64 | Ref + exact conditions |
| C65, C66 | interleavings of the database accesses of two requests; Ref + commutation for other packages |
| C67 | well-founded order on locks, measure on the remaining steps |
| C68 | Inv `DI` over all histories of the whole daemon: the log is the accepted requests in order; replay of the log gives the repositories |
| C69 | composition: C68's replay is a history of `Spec.v`, so C01-C05 hold of the daemon |
| C70 | Spec: second run of each operation from the state after the first; Ref for trim-obsolete |
| C71 | Ref for every panicking file: induction over restarts; see C72 |
| C72 | Progress: a round of the sequential worker ends a job; measure on the queue |
| C73 | Inv: existence of repositories only changes in create, clone, delete |
| C74 | Alg over all strings: URL parsing, router, JSON; Ref for unescaped names |
| C75 | Inv over the server's states: workers that left hold nothing; the `DI` invariant with quiet stops erased |
| C76 | accepted jobs only grow, C30/C33; case analysis over the shutdown's steps; Ref |
| C77 | exact condition of a start, invariant on the socket; Ref |
| C78 | Inv: which report can become a job; Ref for uploads while not serving |
| C79 | Relational: two executions in lock step, states equal up to the cache (Sim.v) |
| C80 | Inv per request: additions never change a pool record, removals never create one; then induction over the history and C04, C05 |
| C81 | Inv: the phase of each worker agrees with the log of attempts (PropsTruth.v); the log agrees with the replayed operations |
| C82 | Alg on the maps; the invariant that items are stored under their names (PropsStale.v); C01, C02 |
| C83 | Times.v keeps the time stamps beside the job store of Jobs.v (entries of the queues, jobs in the memory of workers, records of finished jobs) with clock readings before and under the lock as part of each event, and models the status with times and ferryctl's tables. Invariant: a queued entry has a begin time exactly if it is claimed, with the invariants of Jobs.v. |
| C84 | Same model. Invariant: for each stamp, the event at which it was read; the order of the three events with steady_clock. |
| C85 | Same model. Stamps agree with job numbers (push_stamps); excerpt of any correct sorting; counterexample with two concurrent requests. |
| C86 | DeleteRetry.v: what every durable write of delete_repo leaves (the repository's own files only shrink, nothing else moves); before the commit the invariant of the history gives the same final disk from any such instant; after it the record is gone, so the second run errors in GetRepo while the directory exists. |
| C87 | RemoveRetry.v: a relation between two runs whose file names differ only where the second has none (the run never reads package files), kept by every step of a removal; names only disappear (mono), so the two final disks agree. The refutations are computed. |
| C88 | Import.v follows one file through AddLocalPackage/AddPackage/LinkOrCopyFile with a weakest-precondition rule giving the exact files created; induction over the request's list. PropsImport.v. |
| C89 | Same.v: an entry is determined by its set of available and delta IDs (the published one is the maximum by release), a count by the entries, a pool record by count and bytes, an index text by entries, records and assets. Two runs are then compared through the listing only. PropsImport.v. |
| C90 | Same.v, from C89's determination lemmas plus the exact facts of C16 (removal) and RemoveRetry's monotonicity (a removal creates no file). PropsImport.v. |
| C91 | Same.v: the index text of r is a function of what events not about r keep (Frame.v, item_kept); induction over the later events, crash points included. PropsSame.v. |
| C92 | C14's facts, C89's determination of entries inside one state, C91 for the original. PropsSame.v. |
| C93 | RemoveCrash.v: a relation `mid` between the state before the removal of one package and every state inside it (entries unchanged, only this package's and its deltas' files and records touched, the record gone only at the last reference); with C03/C05's invariant this gives the claim; induction over the list of packages. PropsCrash.v. |
| C94 | The weakest-precondition proof of the pull (ApiOps.v) specialised to one repository: nothing is newer than itself, so only pullAssets and the index remain. PropsSelf.v. |
| C95 | Assets.v models NewComponents/NewGroups after the XML decoder; `describes` (Spec.v) requires the sorted lists; uniqueness of a sorted list with distinct names gives order irrelevance. PropsAssets.v. |
| C96 | The state with the bad file satisfies the invariants of a world in which no asset file can be read; emission of the packages then succeeds and the asset part panics; induction over the retries. PropsAssets.v. |
| C97 | Purge.v models purgeCloudflare; case analysis; for the index, the two runs agree up to the purge, and by then all temporary files are gone, so the cleanup removes nothing. PropsPurge.v. |
| C98 | RepoDirs.v maps names to paths and has the conditional RemoveAll; exact characterisation of delete for all names; with PathFacts, directories of different ordinary names are disjoint; induction over histories; vm_compute witnesses for `stable/x` and `../../etc/x`. PropsRepoDirs.v. |
| C99 | WorkerLoop.v: state machine of workers (place, timer, exit channel of capacity one), WaitGroup counter and the call of Close; invariant over all schedules; a decreasing measure for the end of the stop; counterexample schedule of any length. PropsWorker.v. |
| C100 | Faults.v adds to histories the event that a request is given up after n of its writes, with any clean-up and any coherent cache; the cache-insensitivity relation of Sim.v gives equivalence with a crash; the invariant of History.v is kept by the clean-up; vm_compute witnesses. PropsFaults.v. |
| C101 | Gob.v: Go types and values, what gob sends, its bytes, the decoder, EncodeType/DecodeType, PutObject/GetObject, and the types of all stored records; GobFacts.v: decode after encode by mutual induction on types; PropsGob.v, with LibDbFacts.v for the manager's database. |
| C102 | Commute.v: indexing as a simulation between two states (index_sim), the database functions of DbOps/Pure depend on the target's and source's entries only, imports by induction over the files sent against both states; Frame.v and item_instants give that the earlier request leaves these alone; Same.v's counts_same gives the pool. PropsCommute.v. |
| C103 | PropsFails.v: indexing keeps everything but index files (keeps bk over every stage); a request is the same program before its index whatever the tools (J_bind/J_tail); the outcomes of ApiOps.v read for Err; imports by induction over the files sent (import_prefix). |
| C104 | WorkDir.v: every step of the production on the files of the work directory, with an oracle for failing steps; PropsWorkDir.v: weakest preconditions over all instants (stage_ok), leftovers arbitrary; PathFacts.v for the directory's place. |
| C105 | Xml.v: struct tags, encoding/xml's Encoder (elements, attributes, EscapeText, CDATA sections), its bufio.Writer, then Escape.v; XmlSpec.v: a character-level XML reader and what it means that an element describes a structure; XmlFacts/XmlTree/XmlDoc/XmlSays.v: what each writer does to the text, what the reader makes of it, by induction on texts, trees and chunks; PropsXml.v: theorems, four witnesses, a complete demo. |
| C106 | ReaderSpec.v: the document of Model.v and the structure of Xml.v are the same packages (same_package), the document's text is that of Xml.v (xml_env); what the elements of the file say (shows, offers, download); PropsReader.v: C07's document, C105's reader on its bytes, C05's files; demo with an environment that writes XML, two packages and a delta. |
| C107 | Unxml.v: encoding/xml's unmarshal and unmarshalPath, driven by the struct tags (T_package ... T_group), from a tree of elements; trimming, numbers, FixMissingLocalLanguage with its panic. UnxmlSpec.v: what a tree states, as questions by element name. UnxmlFacts.v: decoding into a struct is decoding into each of its fields by itself (feed_struct), a field gets what its path selects (feed_result); PropsUnxml.v: field by field from there; UnxmlWords.v: trimming, numbers and names against definitions of their own (C107_words); demo with a document read, one that fails and one that panics. |
| C108 | RelaySpec.v: relayed l e: the index element e states what the metadata elements l state, name by name. PropsRelay.v: C107's structure is C105's structure, ASCII texts are unchanged, so both documents state it; demo: a metadata.xml read from text, its package in an index that meets the hypotheses. PropsNumbers.v: C108_numbers, a text that is a number in C105's sense is one to C107's decoder, with the same value. |
| C109 | FilesXml.v: the tags of files.go on the decoder of Unxml.v, strconv.ParseUint(_, 8, 32), initFileMode file by file. PropsFilesXml.v: specification (states_file, unreadable, octal notation as an inductive relation), proof by C107's field lemmas and induction on the list; demo with files read and two failures. |
| C110 | PropsDecoded.v: the elements written have no prefixes (but xml:lang) and no repeated attributes, so the decoder's loose matching of names finds what C105 describes; each element then states the package (C107's specification); what an element states is one package, and every number in it is one, so decoding succeeds with it. Demo: a package read from metadata.xml, indexed with a delta. |

## 4. Findings (disagreements between properties and code)

Each is witnessed by a `_refuted` theorem on a concrete history; the notes in
MANIFEST.json say what holds instead.

* Data loss or corruption: C24 (a re-run truncates a hard-linked package; C100: after a
  full disk as well as after a kill), C26
  (missing source reported as success), C27 (uploads hard-linked into the pool),
  C23 (crash in a single-package removal), C87 (the re-run of an interrupted removal
  counts down twice), C94 (pulling a repository from itself empties its assets), C86 (a killed deletion leaves an undeletable directory), C50 (manifest paths with `..`), C44
  (source names with `..`), C37 (repository names containing `-package`), C98 (cloning to
  a name with a slash puts one repository inside another).
* Bookkeeping: C02 and C25 (delta listings dropped without release), C32, C33
  (records lost in a crash), C36 (status fails while an undispatchable job is
  queued), C39 (reads in a transaction miss its own writes), C52 (stale digits in
  the lock file), C09, C10 (index files between two renames), C64 (an uploaded
  delta is published as a package), C103 (a create, clone or import that reports an
  error may have been done all the same, but for its index).
* Wrong behaviour: C18 (inverted flag), C20 and C70 (trim-obsolete removes one
  `-dbginfo` version per run), C34, C35 (delta jobs never run; 32-bit numbers),
  C49, C63 (uploads are not all-or-nothing and cannot be retried), C61, C74
  (names in URLs are not escaped), C47 and C105 (characters split between writes; symbols
  in CDATA sections, languages of the distribution), C43, C85
  (of two concurrent requests the later one can be listed first), C88 (a different file
  of a known name is accepted and ignored), C89 and C92 (of versions with one release
  number the first imported is published, in a clone possibly another).
* Availability: C45 and C71 (one bad file panics the daemon at every start), C96 (so
  does an incomplete components.xml at every index run), C107 (a package whose metadata.xml
  has no Summary or no Description panics when it is read), C97 (a refused purge without
  a message panics), C62
  (PID reuse), C104 (a torn delta copied to another
  file system is never replaced), C77 (stale socket), C78 (uploads while down are missed), C76
  (acknowledged and dropped during the stop), C51 (two daemons at once).
* Concurrency (see the remark in section 2): C55, C65, C66.

## 5. Axioms

None: `Print Assumptions` after each property theorem prints "Closed under the
global context".

## 6. Testing the theorems

`tools/mutate.py` applies a textual edit to one definition of the model in a
scratch copy, rebuilds with failing proofs replaced one at a time, and reports
which theorems fail; `seeded/LOG.jsonl` has one line per attempt. A theorem that
survived a bug its English claim excludes was tightened (field `tightened`).
