{"id": "C01", "title": "A package that some repository still lists is never purged from the pool", "statement": "After any sequence of repository operations that ran to completion (create, delete, clone, pull, import, upload, copy source, remove source, trim, delta add/ref), the pool listing reports for every package or delta ID a reference count at least equal to the number of repositories listing that ID, and every listed ID is still in the pool.", "quantifier": "all finite histories of API operations, all package sets with instance-unique IDs, all filesystems (hard-link capable or not)", "why_tests_cant": "the count is maintained incrementally by dozens of call sites; only an invariant over all histories covers every order of adds, refs and unrefs", "anchors": ["src/ferryd/core/pool.go:RefEntry", "src/ferryd/core/pool.go:UnrefEntry", "src/ferryd/core/pool.go:addPackageInternal", "src/ferryd/core/repo.go:UnrefPackage", "src/ferryd/core/repo.go:DeleteRepo"]}
{"id": "C02", "title": "The pool holds nothing that no repository lists", "statement": "After any completed history the reference count of a pool item equals the number of repositories listing it, so an item disappears from the pool exactly when its last listing does.", "quantifier": "all finite histories of API operations", "why_tests_cant": "leaks only show up after particular orders of delta and package insertions", "anchors": ["src/ferryd/core/pool.go:UnrefEntry", "src/ferryd/core/repo.go:buildSaneEntry", "src/ferryd/core/repo.go:AddLocalDelta"]}
{"id": "C03", "title": "The published version of a package is its highest release", "statement": "In every repository, after any completed history, the version published for a package name is one of the available ones and no available version has a higher release number.", "quantifier": "all histories, all release numbers (positive)", "why_tests_cant": "the published version is recomputed incrementally on every insertion and removal; only an invariant covers all orders in which versions can come and go", "anchors": ["src/ferryd/core/repo.go:buildSaneEntry", "src/ferryd/core/repo.go:UnrefPackage"]}
{"id": "C04", "title": "Repository entries stay well formed", "statement": "For every repository and package name after any completed history: the list of available IDs is sorted, free of duplicates and not empty, the published ID is in it, and all of them resolve in the pool to a package of that name.", "quantifier": "all histories", "why_tests_cant": "a representation invariant has to survive every one of unboundedly many histories; a test checks the state after a few", "anchors": ["src/ferryd/core/repo.go:RepoEntry", "src/ferryd/core/repo.go:putEntry", "src/ferryd/core/repo.go:buildSaneEntry", "src/ferryd/core/repo.go:UnrefPackage"]}
{"id": "C05", "title": "Every listed package is downloadable and intact", "statement": "After any completed history, for every package ID listed by a repository, the file <repo>/<PackageURI> exists and its size and SHA-1 are those recorded in the pool metadata.", "quantifier": "all histories without deltas and without outside interference with uploaded files; all file contents", "why_tests_cant": "the file is a hard link or a copy whose fate depends on the order of purges and links elsewhere; tests sample a few orders", "anchors": ["src/ferryd/core/repo.go:AddLocalPackage", "src/ferryd/core/repo.go:RefPackage", "src/ferryd/core/pool.go:addPackageInternal", "src/ferryd/core/util.go:LinkOrCopyFile"]}
{"id": "C06", "title": "The index lists exactly the published version of every non-obsolete package", "statement": "A successful index run writes a document with exactly one package record per package name of the repository that is not obsolete (directly, or as -dbginfo of an obsolete name), that record being the published version with its pool metadata, and no other record; records are in ascending ID order.", "quantifier": "all repository contents, all obsolete lists", "why_tests_cant": "it must hold for every set of package names and every obsolete list, including names that are the -dbginfo of an obsolete one", "anchors": ["src/ferryd/core/repo_index.go:emitIndex", "src/ferryd/core/repo_index.go:emitIndexPackage"]}
{"id": "C07", "title": "The index offers exactly the applicable deltas", "statement": "For each package record in a written index the delta records are exactly the repository's deltas for that name whose target release is the record's release, each with its recorded source release, URI, size and hash, in ascending ID order.", "quantifier": "all delta sets", "why_tests_cant": "it must hold for every combination of source and target releases present in the repository", "anchors": ["src/ferryd/core/repo_index.go:pushDeltaPackages"]}
{"id": "C08", "title": "Clients never see a partial index", "statement": "At every instant of an index run - including after a crash at any point, after any failure, and for any order in which the finished files are moved into place - each of the nine published index files is either complete and as it was before the run or complete and new.", "quantifier": "all crash points, all rename orders, all earlier disk states", "why_tests_cant": "crash points and map iteration order cannot be enumerated by tests", "anchors": ["src/ferryd/core/repo_index.go:Index"]}
{"id": "C09", "title": "Index and checksum files always agree", "statement": "At every instant the published checksum file of the index is the checksum of the published index.", "quantifier": "all crash points and rename orders", "why_tests_cant": "needs a crash between two renames", "anchors": ["src/ferryd/core/repo_index.go:Index"]}
{"id": "C10", "title": "Indexing recovers from a crash", "statement": "After a crash at any point of an index run, index runs started afterwards succeed again.", "quantifier": "all crash points", "why_tests_cant": "leftover temporary files depend on the crash point", "anchors": ["src/ferryd/core/repo_index.go:Index", "src/libeopkg/util.go:XzFile"]}
{"id": "C11", "title": "Operations on one repository leave the others alone", "statement": "An operation whose target is repository T changes no entry and no file of any other repository.", "quantifier": "all operations, all states, all pairs of repositories", "why_tests_cant": "it says that nothing else changes, for every state the other repositories can be in; a test can only look at what it set up", "anchors": ["src/ferryd/core/api.go", "src/ferryd/core/repo.go"]}
{"id": "C12", "title": "Deleting a repository frees exactly what it owned", "statement": "A successful delete removes the repository, its listings and its files; a pool item is purged iff no other repository lists it; all other listings still resolve; a repository created later under the same name is empty.", "quantifier": "all states reachable by completed histories", "why_tests_cant": "packages may be shared between any number of repositories in any pattern, so the set of items that must survive is unbounded", "anchors": ["src/ferryd/core/repo.go:DeleteRepo"]}
{"id": "C13", "title": "Creating a repository never clobbers one", "statement": "Create fails, changing nothing, if the repository exists or its directory is on disk; otherwise it adds exactly one empty repository.", "quantifier": "all states and names", "why_tests_cant": "it quantifies over every state in which a repository may or may not exist, including those left by earlier failures", "anchors": ["src/ferryd/core/repo.go:CreateRepo", "src/ferryd/core/repo.go:GetRepo", "src/ferryd/core/repo.go:bakeRepo"]}
{"id": "C14", "title": "Clones are faithful", "statement": "A successful full clone lists for every package name exactly the IDs and deltas of the source, with a published version of the same release; a successful tip clone lists exactly the published version of each name; the source is unchanged.", "quantifier": "all source repositories", "why_tests_cant": "it must hold for every content of the source repository, deltas included", "anchors": ["src/ferryd/core/repo.go:CloneFrom", "src/ferryd/core/api.go:CloneRepo"]}
{"id": "C15", "title": "Pull brings the target up to the source and removes nothing", "statement": "After a successful pull every source package name is in the target with published release at least the source's; exactly the missing or older names changed and are reported; nothing was removed; if any target version is newer the pull fails before changing any listing.", "quantifier": "all pairs of repositories", "why_tests_cant": "it must hold for every pair of contents of source and target, overlapping in any way", "anchors": ["src/ferryd/core/repo.go:PullFrom"]}
{"id": "C16", "title": "Remove source removes exactly the matching packages", "statement": "A successful remove-source(source, release) removes from the repository exactly the IDs whose source name matches and whose release matches (any release when release <= 0), together with deltas from or to them; it fails and changes nothing if nothing matches.", "quantifier": "all repositories, source names and releases", "why_tests_cant": "it must hold for every content of the repository and every choice of source and release", "anchors": ["src/ferryd/core/repo.go:RemoveSource", "src/ferryd/core/repo.go:UnrefPackage"]}
{"id": "C17", "title": "Copy source copies exactly the matching packages", "statement": "A successful copy-source adds to the target exactly the matching IDs of the source repository and removes none; fails unchanged if nothing matches.", "quantifier": "all repositories", "why_tests_cant": "it must hold for every content of both repositories and every choice of source and release", "anchors": ["src/ferryd/core/repo.go:CopySourceFrom"]}
{"id": "C18", "title": "Copy source re-indexes the target unless told to skip", "statement": "After a successful copy source without the skip-index flag the target's index reflects the copied packages; with the flag the index files are untouched.", "quantifier": "both flag values, all contents", "why_tests_cant": "it relates the flag and the content of the index afterwards for every state before the request", "anchors": ["src/ferryd/core/api.go:CopySource"]}
{"id": "C19", "title": "Trim packages keeps exactly the newest versions", "statement": "A successful trim to N >= 1 leaves for each name the N highest releases (all, if fewer) including the published one, removes all others, and rejects N < 1 without effect; whatever order an unstable sort gives to equal releases.", "quantifier": "all contents, all N, all sort implementations", "why_tests_cant": "the number of versions is unbounded and the library's sort is not stable, so ties may go either way", "anchors": ["src/ferryd/core/repo.go:TrimPackages", "src/libeopkg/main.go:PackageSet"]}
{"id": "C20", "title": "Trim obsolete removes every obsolete package", "statement": "After a successful trim-obsolete no package whose name is obsolete (or is the -dbginfo of one) is left in the repository.", "quantifier": "all contents and obsolete lists", "why_tests_cant": "it must hold for every obsolete list and every set of installed names", "anchors": ["src/ferryd/core/repo.go:TrimObsolete"]}
{"id": "C21", "title": "Uploads can only move a package forward", "statement": "An upload accepted in strict mode for an existing name has a release strictly higher than the published one and becomes the published version; a rejected upload changes nothing.", "quantifier": "all states and packages", "why_tests_cant": "it must hold for every state of the repository and every package file", "anchors": ["src/ferryd/core/repo.go:AddPackage"]}
{"id": "C22", "title": "A crash while adding never loses or corrupts what is listed", "statement": "At every crash point of import, reference, clone, pull and copy, reference counts are still at least the number of listings and every listing resolves.", "quantifier": "all crash points of all adding operations in all reachable states", "why_tests_cant": "a test would have to stop the process between every two durable writes of every operation in every state", "anchors": ["src/ferryd/core/repo.go:AddLocalPackage", "src/ferryd/core/repo.go:RefPackage", "src/ferryd/core/repo.go:CloneFrom"]}
{"id": "C23", "title": "A crash while removing never leaves a listing without its package", "statement": "At every crash point of remove source, trim and delete, every listing still resolves and no reference count is below the number of listings.", "quantifier": "all crash points of removing operations", "why_tests_cant": "a test would have to stop the process between every two durable writes of every operation in every state", "anchors": ["src/ferryd/core/repo.go:UnrefPackage", "src/ferryd/core/repo.go:removePackageInternal"]}
{"id": "C24", "title": "Re-running an interrupted job is safe", "statement": "When the daemon restarts after a crash and re-runs the interrupted add, all package files that were intact stay intact.", "quantifier": "all crash points, all states", "why_tests_cant": "needs a crash between two specific writes", "anchors": ["src/ferryd/core/repo.go:AddLocalPackage", "src/ferryd/core/util.go:CopyFile", "src/ferryd/jobs/store.go:setup"]}
{"id": "C25", "title": "Adding a version keeps the deltas already listed", "statement": "Importing or referencing a package version never removes deltas from the repository's listing.", "quantifier": "all states", "why_tests_cant": "it must hold for every entry an addition can meet: any number of versions and deltas, listed in any order", "anchors": ["src/ferryd/core/repo.go:buildSaneEntry"]}
{"id": "C26", "title": "Placing a file yields its content", "statement": "When placing a file (link, else copy) reports success the destination has the content of the source and the source is unchanged.", "quantifier": "all filesystem states", "why_tests_cant": "which files are links to the same data is decided by earlier history; tests do not sample aliased states", "anchors": ["src/ferryd/core/util.go:LinkOrCopyFile", "src/ferryd/core/util.go:CopyFile"]}
{"id": "C27", "title": "The pool is independent of the uploaded file", "statement": "Changing the uploaded file in place after a successful import does not change the package served.", "quantifier": "all states", "why_tests_cant": "which files are links to the same data is decided by earlier history; tests do not sample aliased states", "anchors": ["src/ferryd/core/pool.go:addPackageInternal", "src/ferryd/core/util.go:LinkOrCopyFile"]}
{"id": "C28", "title": "Jobs of a queue start in the order they were accepted", "statement": "For every history of pushes, claims, retires and restarts a claim returns the oldest unclaimed job of the queue.", "quantifier": "all histories with fewer than 2^64 pushes", "why_tests_cant": "the queue may have any length, any history of claims and any byte order of keys", "anchors": ["src/ferryd/jobs/store.go:claimJobInternal", "src/ferryd/jobs/store.go:pushJobInternal", "src/libdb/leveldb.go:NextSequence"]}
{"id": "C29", "title": "No job is handed to two workers", "statement": "Between restarts, whatever the interleaving of workers, a job is claimed at most once before being retired.", "quantifier": "all schedules of all numbers of workers", "why_tests_cant": "the schedule of workers decides who asks for a job between any two database accesses", "anchors": ["src/ferryd/jobs/store.go:claimJobInternal", "src/ferryd/jobs/worker.go:Start"]}
{"id": "C30", "title": "Accepted jobs survive crashes until they are retired", "statement": "After any history including crashes between any two database writes, every accepted job that was not retired is in its queue, unclaimed after restart, exactly once and with its parameters.", "quantifier": "all histories and crash points", "why_tests_cant": "the process may die between any two writes, at the claim, at the retirement or at start-up itself", "anchors": ["src/ferryd/jobs/store.go:setup", "src/ferryd/jobs/store.go:unclaimJobs", "src/ferryd/jobs/store.go:RetireSequentialJob"]}
{"id": "C31", "title": "Sequential jobs never overlap", "statement": "At every moment at most one sequential job is being executed, and sequential jobs run in acceptance order.", "quantifier": "all schedules, all worker counts", "why_tests_cant": "the schedule of unboundedly many workers decides which job is running when", "anchors": ["src/ferryd/jobs/processor.go:NewProcessor", "src/ferryd/jobs/worker.go:Start"]}
{"id": "C32", "title": "Job history shows the last 100 jobs of each outcome", "statement": "After any number of completions since the last reset, the stored successful (failed) jobs are exactly the most recent min(n,100), without duplicates.", "quantifier": "all completion sequences", "why_tests_cant": "the history is a bounded window on an unbounded sequence of jobs; the corner cases lie at wrap-around and at equal timestamps", "anchors": ["src/ferryd/jobs/store.go:markCompletion", "src/ferryd/jobs/store.go:clonePastJobs"]}
{"id": "C33", "title": "Every finished job leaves a record", "statement": "A job that has left the queue is in the completed or failed history (until rotated out), also if the daemon crashes at any moment.", "quantifier": "all crash points", "why_tests_cant": "the process may die between any two writes of the retirement, in any state of the history", "anchors": ["src/ferryd/jobs/store.go:RetireSequentialJob", "src/ferryd/jobs/store.go:markCompletion"]}
{"id": "C34", "title": "Job parameters survive the queue", "statement": "For every request the handler built from the stored job has exactly the request's parameters.", "quantifier": "all parameter values", "why_tests_cant": "it must hold for every integer and every string a request can carry", "anchors": ["src/ferryd/jobs/remove_source.go", "src/ferryd/jobs/copy_source.go", "src/ferryd/jobs/trim_packages.go", "src/ferryd/jobs/bulk_add.go", "src/ferryd/jobs/clone_repo.go"]}
{"id": "C35", "title": "Every queued job can be executed", "statement": "Every job the daemon queues, including those queued by other jobs, is accepted by the job dispatcher.", "quantifier": "all requests", "why_tests_cant": "it must hold for every kind of request and every parameter", "anchors": ["src/ferryd/jobs/main.go:NewJobHandler", "src/ferryd/jobs/delta_repo.go", "src/ferryd/jobs/delta.go"]}
{"id": "C36", "title": "Status always works", "statement": "The status request lists every queued or running job, whatever is in the queues.", "quantifier": "all queue contents", "why_tests_cant": "it must hold for every content of the queue and every point in a job's life", "anchors": ["src/ferryd/jobs/store.go:ActiveJobs", "src/ferryd/jobs/store.go:cloneCurrentJobs", "src/ferryd/handlers.go:GetStatus"]}
{"id": "C37", "title": "Database buckets are independent", "statement": "Writing, deleting and iterating through one bucket neither sees nor changes keys of another bucket.", "quantifier": "all bucket names and keys", "why_tests_cant": "it must hold for every pair of bucket names and keys, including ones that are prefixes of one another", "anchors": ["src/libdb/leveldb.go:Bucket", "src/libdb/leveldb.go:ForEach", "src/libdb/leveldb.go:getRealKey"]}
{"id": "C38", "title": "Transactions are all or nothing", "statement": "If the function given to Update fails nothing is written; if it succeeds all its writes take effect in one step, the last write to a key winning.", "quantifier": "all functions and states", "why_tests_cant": "it must hold for every body of a transaction and every point at which it can fail", "anchors": ["src/libdb/leveldb.go:Update"]}
{"id": "C39", "title": "A transaction sees its own writes", "statement": "A read inside Update returns the value last written in that transaction.", "quantifier": "all transactions", "why_tests_cant": "it must hold for every sequence of reads and writes inside a transaction, on every database", "anchors": ["src/libdb/leveldb.go:Update", "src/libdb/leveldb.go:GetObject"]}
{"id": "C40", "title": "Sequence numbers are fresh", "statement": "NextSequence returns a key that is not in the bucket and sorts after every key of the bucket.", "quantifier": "all buckets with numeric keys below the maximum", "why_tests_cant": "it must hold for every set of keys already stored, including those left by earlier daemons", "anchors": ["src/libdb/leveldb.go:NextSequence"]}
{"id": "C41", "title": "Different deltas have different names", "statement": "Two package pairs get the same delta file name only if name, both releases, distribution release and architecture agree.", "quantifier": "all package pairs", "why_tests_cant": "it must hold for every string a package may be called", "anchors": ["src/libeopkg/util.go:ComputeDeltaName"]}
{"id": "C42", "title": "Deltas only go forward between versions of one package", "statement": "Delta possibility is irreflexive, asymmetric and transitive, and implies same name, distribution release and architecture.", "quantifier": "all packages", "why_tests_cant": "it must hold for every pair of packages that agree or disagree in any of the fields", "anchors": ["src/libeopkg/util.go:IsDeltaPossible"]}
{"id": "C43", "title": "A delta contains everything the old version lacks", "statement": "Every file of the new package is either in the delta or has its content (hash) in the old package; directories are always included; nothing else is in the delta; a delta is refused exactly when it would contain every file.", "quantifier": "all file lists", "why_tests_cant": "it must hold for every pair of file lists and every set of equal hashes among them", "anchors": ["src/libeopkg/delta.go:produceInstallBall", "src/libeopkg/delta.go:copyInstallPartial"]}
{"id": "C44", "title": "Package files stay inside the repository tree", "statement": "The path of a package inside a repository or the pool, computed from its source name and ID, is below the tree root, and its last component is the ID.", "quantifier": "all source names and IDs", "why_tests_cant": "it must hold for every string that can appear as a name or path component", "anchors": ["src/libeopkg/metadata.go:GetPathComponent", "src/libeopkg/metadata.go:GetID", "src/ferryd/core/pool.go:GetMetaPoolPath"]}
{"id": "C45", "title": "No package file can crash the daemon", "statement": "Importing any readable package file either succeeds or returns an error.", "quantifier": "all package metadata", "why_tests_cant": "it must hold for every package metadata, including empty and adversarial names", "anchors": ["src/libeopkg/metadata.go:GetRelease", "src/libeopkg/metadata.go:GetPathComponent", "src/libeopkg/main.go:FixMissingLocalLanguage"]}
{"id": "C46", "title": "Index text escaping is lossless and yields valid UTF-8", "statement": "For every byte string written, the output is valid UTF-8; ASCII bytes pass unchanged; and replacing character references in the output by their characters gives back the input whenever it was valid UTF-8.", "quantifier": "all byte strings", "why_tests_cant": "it must hold for every byte string, valid UTF-8 or not", "anchors": ["src/ferryd/core/escape.go:Write"]}
{"id": "C47", "title": "Escaping does not depend on how the text is split into writes", "statement": "Writing a text in several pieces gives the same output as writing it at once.", "quantifier": "all splits of all texts", "why_tests_cant": "the writer is fed in chunks that may split a multi-byte character at any point", "anchors": ["src/ferryd/core/escape.go:Write", "src/ferryd/core/repo_index.go:emitIndex"]}
{"id": "C48", "title": "Nothing is imported from an upload unless the whole payload checks out", "statement": "An upload manifest is processed only if version is 1.0, target non-empty, at least one file, every file named and ending in .eopkg with a checksum, all files present with the stated SHA-256, and the target repository exists; otherwise no listing changes.", "quantifier": "all manifests, all directory contents", "why_tests_cant": "it must hold for every manifest, every set of files and every failure on the way", "anchors": ["src/ferryd/core/transit_manifest.go", "src/ferryd/jobs/transit_job.go:Execute"]}
{"id": "C49", "title": "An upload is imported completely or not at all", "statement": "If processing a manifest fails, none of its packages is listed.", "quantifier": "all manifests and states", "why_tests_cant": "the failure may happen at any position of a list of any length", "anchors": ["src/ferryd/jobs/transit_job.go:Execute", "src/ferryd/core/api.go:AddPackages"]}
{"id": "C50", "title": "A manifest can only touch files of the incoming directory", "statement": "Every file read or deleted while processing a manifest is in the manifest's directory.", "quantifier": "all manifests", "why_tests_cant": "it must hold for every string that may be written in a manifest", "anchors": ["src/ferryd/core/transit_manifest.go:GetPaths", "src/ferryd/jobs/transit_job.go:Execute"]}
{"id": "C51", "title": "At most one daemon owns a base directory", "statement": "For every interleaving of starting, stopping and crashing daemons at most one holds the lock.", "quantifier": "all interleavings", "why_tests_cant": "two processes may interleave between any two system calls on the lock file", "anchors": ["src/ferryd/lockfile.go:Lock", "src/ferryd/lockfile.go:Clean", "src/ferryd/server.go:Close"]}
{"id": "C52", "title": "The lock file holds the owner's process ID", "statement": "After a successful Lock the number read from the lock file is the owner's PID.", "quantifier": "all previous contents, all PIDs", "why_tests_cant": "the lock file may have any previous content, longer or shorter than the new one", "anchors": ["src/ferryd/lockfile.go:writePID", "src/ferryd/lockfile.go:readPID"]}
{"id": "C53", "title": "The worker pool always has exactly one sequential worker and at least one background worker", "statement": "For every requested job count and CPU count the processor has one sequential worker, first, and n >= 1 background workers, and waits for as many as it starts.", "quantifier": "all integers", "why_tests_cant": "it must hold for every configured number of workers and every number of processors", "anchors": ["src/ferryd/jobs/processor.go:NewProcessor"]}
{"id": "C54", "title": "Import of a directory sends exactly its packages", "statement": "The client sends every file below the given path whose name ends in x86_64.eopkg and nothing else, unless some directory is unreadable, in which case it sends nothing.", "quantifier": "all directory trees", "why_tests_cant": "it must hold for every directory tree, however deep, and every failure inside it", "anchors": ["src/ferryctl/cmd/import.go:GetEopkgs"]}
{"id": "C55", "title": "Concurrent references are all counted", "statement": "When several workers reference and release pool items concurrently the final reference counts are those of some sequential order.", "quantifier": "all interleavings of database reads and writes", "why_tests_cant": "the failing interleaving needs two workers between two particular database accesses; schedules cannot be enumerated", "anchors": ["src/ferryd/core/pool.go:RefEntry", "src/ferryd/core/pool.go:UnrefEntry", "src/ferryd/core/repo.go:RefDelta"]}
{"id": "C56", "title": "A delta marked as failed stays marked", "statement": "Once a delta was recorded as impossible every later query says so and the record keeps the first reason, whatever operations follow.", "quantifier": "all histories", "why_tests_cant": "it must hold after every history of operations, not only after the sampled ones", "anchors": ["src/ferryd/core/pool.go:MarkDeltaFailed", "src/ferryd/core/pool.go:GetDeltaFailed"]}
{"id": "C57", "title": "A delta job only produces deltas from older versions to the tip", "statement": "For every package set the deltas attempted are exactly (old, tip) for all but the highest release, skipping known failures and deltas the repository has; a delta is registered with those two packages.", "quantifier": "all package sets", "why_tests_cant": "it must hold for every set of versions and every set of deltas already present", "anchors": ["src/ferryd/jobs/delta.go:executeInternal"]}
{"id": "C58", "title": "Cleaning up empty directories never removes a non-empty one", "statement": "After removing a package the parent directories are removed only when empty, and no other directory is removed.", "quantifier": "all directory trees", "why_tests_cant": "it must hold for every directory tree, however deep", "anchors": ["src/ferryd/core/util.go:RemovePackageParents"]}
{"id": "C59", "title": "No repository request can make the daemon panic", "statement": "Whatever requests, failures and crashes came before, every repository request returns a result or an error, provided package files have a history with positive releases, a source name, and a file name that determines their metadata, components and groups have their texts, and Cloudflare does not refuse a purge without a message.", "quantifier": "all histories incl. crashes at every durable write, all requests", "why_tests_cant": "a panic needs one particular state among unboundedly many", "anchors": ["src/ferryd/core/api.go", "src/ferryd/core/repo.go", "src/ferryd/core/pool.go", "src/ferryd/core/repo_index.go"]}
{"id": "C60", "title": "No orphaned package files", "statement": "After any completed history every package file below a repository directory is listed by that repository and every package file in the pool directory is in the pool database.", "quantifier": "all completed histories", "why_tests_cant": "it must hold after every history of operations, not only after the sampled ones", "anchors": ["src/ferryd/core/repo.go:removePackageInternal", "src/ferryd/core/pool.go:UnrefEntry", "src/ferryd/core/repo.go:DeleteRepo"]}
{"id": "C61", "title": "After a delta job with indexing the index offers the repository's deltas", "statement": "When a delta job that was asked to index succeeds, the published index offers every delta the repository now lists for the published versions.", "quantifier": "all states, package sets and delta outcomes", "why_tests_cant": "the outcome depends on which deltas other repositories already brought into the pool; all combinations cannot be enumerated", "anchors": ["src/ferryd/jobs/delta.go:Execute", "src/ferryd/jobs/delta.go:executeInternal"]}
{"id": "C62", "title": "A crashed daemon can be started again", "statement": "When no daemon is running, starting one on the base directory succeeds, whatever lock file earlier daemons left behind.", "quantifier": "all histories of daemons starting, stopping and crashing, all process IDs", "why_tests_cant": "depends on the left-over lock file of arbitrary earlier runs and on process IDs the system hands out", "anchors": ["src/ferryd/lockfile.go:NewLockFile", "src/ferryd/lockfile.go:Lock"]}
{"id": "C63", "title": "An upload interrupted by a crash is completed after the restart", "statement": "If the daemon dies while it processes an accepted upload that would have succeeded, the job is run again after the restart and completes the import.", "quantifier": "all uploads, every crash point", "why_tests_cant": "crash points between any two durable writes", "anchors": ["src/ferryd/jobs/transit_job.go:Execute", "src/ferryd/core/api.go:AddPackages", "src/ferryd/core/repo.go:AddPackage"]}
{"id": "C64", "title": "Uploading a delta does not publish it as a package", "statement": "After processing any manifest the packages a repository newly lists are packages, never delta files.", "quantifier": "all manifests and states", "why_tests_cant": "it must hold for every manifest and every set of files beside it", "anchors": ["src/ferryd/core/transit_manifest.go:NewTransitManifest", "src/ferryd/core/repo.go:AddPackage"]}
{"id": "C65", "title": "A removal and a delta job on one repository do not disturb each other", "statement": "When a package version is removed from a repository while a background worker adds a delta to it, the repository and the pool end up as if one had run after the other.", "quantifier": "all interleavings of the database reads and writes, all databases", "why_tests_cant": "the failing interleavings need two workers between two particular database accesses", "anchors": ["src/ferryd/core/repo.go:UnrefPackage", "src/ferryd/core/repo.go:RefDelta", "src/ferryd/core/repo.go:AddLocalDelta", "src/ferryd/core/pool.go:RefEntry", "src/ferryd/jobs/worker.go:Start"]}
{"id": "C66", "title": "Concurrent requests on one repository are serialised", "statement": "Any number of concurrent additions and references to one repository take effect one after the other, from the first use after a start of the daemon on.", "quantifier": "all interleavings, any number of workers, all databases", "why_tests_cant": "the number of interleavings is unbounded and the scheduler is not under the test's control", "anchors": ["src/ferryd/core/repo.go:GetRepo", "src/ferryd/core/repo.go:RefDelta", "src/ferryd/core/repo.go:AddLocalDelta", "src/ferryd/core/repo.go:RefPackage", "src/ferryd/core/repo.go:AddLocalPackage"]}
{"id": "C67", "title": "The workers never block each other for ever", "statement": "Whatever jobs the sequential worker and the background workers run, in every interleaving some unfinished worker can go on, and all jobs end.", "quantifier": "all job lists, any number of workers, all interleavings", "why_tests_cant": "a deadlock needs one particular interleaving of lock operations", "anchors": ["src/ferryd/core/repo.go:CloneFrom", "src/ferryd/core/repo.go:PullFrom", "src/ferryd/core/repo.go:TrimObsolete", "src/ferryd/core/repo.go:UnrefPackage", "src/ferryd/core/repo.go:RefDelta", "src/ferryd/core/repo.go:DeleteRepo", "src/ferryd/core/repo_index.go:Index", "src/ferryd/jobs/worker.go:Start"]}
{"id": "C68", "title": "Requests take effect one at a time, in the order they were accepted, across restarts", "statement": "The repositories are at every moment exactly what the attempts at the accepted requests and changes by the outside world made of them; attempts follow the order of acceptance; every attempt asks for exactly what its request asked; no attempt at a request is made before the last attempt at every earlier one ran to its end; a request whose last attempt did not run to its end is still queued; without a stop of the daemon each request is attempted at most once.", "quantifier": "every number of workers, every sequence of requests, polls, retirements, stops and starts, every point at which the daemon dies (fewer than 2^62 events)", "why_tests_cant": "requests, workers and crashes interleave without bound, and the order must survive every restart", "anchors": ["src/ferryd/handlers.go:CreateRepo", "src/ferryd/jobs/worker.go:processJob", "src/ferryd/jobs/store.go:ClaimSequentialJob", "src/ferryd/jobs/processor.go:Begin", "src/ferryd/server.go:Bind"]}
{"id": "C69", "title": "The running daemon keeps its repositories sound", "statement": "Whatever requests arrive over the API and through the incoming directory, however workers interleave, and wherever the daemon is killed: it never panics on well-formed packages, everything a repository lists is in the pool, entries are well-formed, and the published version is the newest; if no job was cut short, reference counts are exact, listed packages are served with the recorded hash and size, and no package file is orphaned.", "quantifier": "every history of requests, manifests, worker interleavings, stops and crash points of the whole daemon", "why_tests_cant": "it composes the queue, the dispatcher, uploads and the repositories over unbounded histories with crashes", "anchors": ["src/ferryd/server.go", "src/ferryd/jobs/main.go:NewJobHandler", "src/ferryd/jobs/worker.go:processJob", "src/ferryd/core/api.go"]}
{"id": "C70", "title": "Executing a request twice is the same as executing it once", "statement": "Because a job that was completed but not yet retired is run again after a restart, repeating a request that just succeeded must leave every repository offering the same versions, with the same one published.", "quantifier": "every reachable state, every request, every outcome of sorting and linking", "why_tests_cant": "it must hold for every content of the repositories the request may meet", "anchors": ["src/ferryd/jobs/store.go:NewStore", "src/ferryd/jobs/store.go:UnclaimSequential", "src/ferryd/core/repo.go:TrimObsolete", "src/ferryd/core/api.go"]}
{"id": "C71", "title": "One bad request does not stop the others", "statement": "An accepted request is attempted eventually, provided the daemon is started again whenever it dies, whatever package files earlier requests import.", "quantifier": "every history of requests, starts and stops after the bad request, of any length", "why_tests_cant": "it speaks about all continuations of a history, with restarts at arbitrary points", "anchors": ["src/ferryd/jobs/worker.go:processJob", "src/ferryd/jobs/store.go:UnclaimSequential", "src/ferryd/jobs/bulk_add.go:Execute", "src/libeopkg/package.go:ReadMetadata"]}
{"id": "C72", "title": "As long as the daemon is up and no job panics, every waiting request is executed to its end", "statement": "If the sequential worker keeps coming round, then whatever else happens meanwhile (new requests, background workers, resets, changes of files), after finitely many rounds the first m waiting requests have been executed to their end and taken out of the queue.", "quantifier": "every history, every number of waiting requests and of packages, every interleaving of the worker's rounds with all other events", "why_tests_cant": "a liveness property over all interleavings", "anchors": ["src/ferryd/jobs/worker.go:processJob", "src/ferryd/jobs/worker.go:Start", "src/ferryd/jobs/delta_repo.go:Execute", "src/ferryd/jobs/store.go:RetireSequentialJob"]}
{"id": "C73", "title": "Repositories come and go only by request", "statement": "Only creating, cloning and deleting make or unmake repositories, each only the one it names; this holds at every instant of every request, including the instant of a crash.", "quantifier": "every reachable state, every request, every crash point", "why_tests_cant": "it says that no other repository appears or vanishes, in any state, at any instant", "anchors": ["src/ferryd/core/repo.go:CreateRepo", "src/ferryd/core/repo.go:DeleteRepo", "src/ferryd/core/repo.go:GetRepo"]}
{"id": "C74", "title": "What a user types is what the daemon queues", "statement": "Every ferryctl command and every call of the client library arrives at the daemon as the request it stands for: the same operation, for the same repository, with the same source, target, paths, release number and flags; no name a user can type makes the daemon do something else.", "quantifier": "every sub-command, every argument list, every string as repository, source, target or path, every number", "why_tests_cant": "names are strings that pass through a command line, a URL, a router that redirects, and JSON; only a statement about all strings covers what each of these layers does to them", "anchors": ["src/libferry/main.go:formURI", "src/libferry/main.go:postBasicResponse", "src/libferry/types.go:CopySourceRequest", "src/ferryd/server.go:NewServer", "src/ferryd/handlers.go:CopySource", "src/ferryctl/cmd/copy_source.go:copySource"]}
{"id": "C75", "title": "Asking the daemon to stop interrupts nothing", "statement": "When the daemon is asked to stop, it lets every job that is being executed run to its end before it closes its database; stopping and starting it any number of times repeats no request and leaves none half-done: a request that is not in the queue any more was executed exactly once, to its end.", "quantifier": "every history of requests, uploads, worker steps, stops and starts without a kill, every number of workers", "why_tests_cant": "stopping races with the workers, the watcher and the HTTP handlers at every point of every job; a test stops the daemon at a few of them", "anchors": ["src/ferryd/server.go:Close", "src/ferryd/jobs/processor.go:Close", "src/ferryd/jobs/worker.go:Start", "src/ferryd/jobs/store.go:Close"]}
{"id": "C76", "title": "A request the daemon acknowledged is queued", "statement": "When a client is told that its request was accepted, the request is in the queue from then on, across crashes and restarts, until it has been executed to its end; a request that is answered with an error or not at all has no effect.", "quantifier": "every history, every request, every moment of the daemon's life including the moments between the calls of its shutdown", "why_tests_cant": "it depends on where in the shutdown sequence the request arrives; the interval between two calls cannot be hit by a test", "anchors": ["src/ferryd/jobs/processor.go:PushJob", "src/ferryd/jobs/store.go:Close", "src/ferryd/handlers.go:CreateRepo", "src/ferryd/server.go:Close"]}
{"id": "C77", "title": "The daemon can be started again, and finds its queue", "statement": "However the daemon's process ended, the next start succeeds and continues with the queue as it was left.", "quantifier": "every history, clean stops and kills at every point, with and without systemd's socket", "why_tests_cant": "it quantifies over all ways in which the previous process can have ended", "anchors": ["src/ferryd/server.go:Bind", "src/ferryd/server.go:Close", "src/ferryd/server.go:Serve", "src/ferryd/jobs/store.go:NewStore"]}
{"id": "C78", "title": "Every uploaded manifest is processed, and nothing else is", "statement": "Every manifest written to the incoming directory is queued for processing, and only files with the manifest suffix that lie directly in the incoming directory are.", "quantifier": "every history of uploads, watcher reports, stops and starts, every file name", "why_tests_cant": "whether an upload is noticed depends on when it happens relative to starts and stops of the daemon; what is queued must be safe for every report the watcher can make", "anchors": ["src/ferryd/monitor.go:WatchIncoming", "src/ferryd/monitor.go:processTransitManifest", "src/ferryd/monitor.go:InitWatcher"]}
{"id": "C79", "title": "Stopping and starting the daemon leaves no trace", "statement": "A stop and a start between two requests changes nothing: repositories, pool, files and the outcome of every later request are the same as if the daemon had run on.", "quantifier": "every history, stops at every place and in every number, every later request, every crash point of the later requests", "why_tests_cant": "the in-memory cache of repositories makes two daemons with the same database differ inside; that this never shows is a statement about pairs of executions", "anchors": ["src/ferryd/core/repo.go:GetRepo", "src/ferryd/core/repo.go:DeleteRepo", "src/ferryd/core/repo.go:bakeRepo", "src/ferryd/core/manager.go:NewManager"]}
{"id": "C80", "title": "What an index promised stays true while the package is listed", "statement": "A client that fetched an index may download the packages named there later: as long as the repository keeps listing the package, the file is at the promised path with the promised hash and size, whatever was added, pulled, removed, deleted or re-uploaded in between.", "quantifier": "every pair of histories, every repository, every index document and record in it", "why_tests_cant": "it relates two moments with arbitrarily many requests between them", "anchors": ["src/ferryd/core/pool.go:AddPackage", "src/ferryd/core/pool.go:addPackageInternal", "src/ferryd/core/pool.go:RefEntry", "src/ferryd/core/pool.go:UnrefEntry", "src/ferryd/core/repo_index.go:emitIndex"]}
{"id": "C81", "title": "The job history tells the truth", "statement": "When a job leaves the queue while the daemon runs on, the status shows exactly one new record: among the completed jobs if the last attempt at it succeeded, among the failed jobs if it failed, with the description of the request. Nothing else, short of a reset, changes the two lists.", "quantifier": "every history of requests, polls, crashes and restarts, every number of workers, every job", "why_tests_cant": "the record is written steps after the job was executed, with other workers, requests and crashes in between", "anchors": ["src/ferryd/jobs/worker.go:processJob", "src/ferryd/jobs/worker.go:Start", "src/ferryd/jobs/store.go:markCompletion", "src/ferryd/jobs/store.go:RetireSequentialJob"]}
{"id": "C82", "title": "The listings show exactly what there is", "statement": "list repos shows every existing repository once, in alphabetical order, and nothing else. list pool shows every pool item once with its reference count, also while a request is being executed; the count is never less than the number of repositories that list the item, and equal to it between requests when there were no crashes and deltas.", "quantifier": "every history, every moment inside a request, every package and repository", "why_tests_cant": "it must hold in every state of the database that a listing can see", "anchors": ["src/ferryd/core/repo.go:GetRepos", "src/ferryd/core/pool.go:GetPoolItems", "src/ferryd/handlers.go:GetRepos", "src/ferryd/handlers.go:GetPoolItems", "src/ferryctl/cmd/list_repos.go:listRepos", "src/ferryctl/cmd/list_pool.go:listPool"]}
{"id": "C83", "title": "The status says which jobs are running", "statement": "While the daemon is up, the list of current jobs has one line for every job that is queued or being executed, and the line says running exactly if a worker of the daemon is executing the job at that moment; a job interrupted by a crash is shown as queued until it is taken up again.", "quantifier": "every history of requests, claims, completions, crashes at every write and restarts, with any positive clock readings", "why_tests_cant": "the mark is the begin time stored with the job, which crashes and interrupted restarts leave behind; only an invariant over all histories shows that it always agrees with the workers", "anchors": ["src/ferryd/jobs/store.go:claimJobInternal", "src/ferryd/jobs/store.go:unclaimJobs", "src/ferryd/jobs/store.go:cloneCurrentJobs", "src/ferryctl/cmd/status.go:printActiveJobs"]}
{"id": "C84", "title": "The times of a finished job are real", "statement": "The times shown for a failed or completed job are those of its request, of a later claim by a worker and of the end of that worker's execution; with a clock that does not go back no waiting, execution or total time in the status is negative.", "quantifier": "every history and every interleaving of clock readings with the lock, including crashes and restarts in the middle of the job", "why_tests_cant": "two of the three times are read outside the lock, and crashes reset some of them; the claim is about every interleaving", "anchors": ["src/ferryd/jobs/store.go:pushJobInternal", "src/ferryd/jobs/store.go:markCompletion", "src/ferryd/jobs/worker.go:Start", "src/libferry/types.go:TotalTime"]}
{"id": "C85", "title": "The status lists the current jobs in the order of execution", "statement": "ferryctl status lists the current jobs in the order in which they were queued, which is the order in which they are executed; it prints the first ten of them, and the newest ten of the failed and of the completed jobs, or all with -a.", "quantifier": "every history, every number of jobs, every clock, every correct sorting", "why_tests_cant": "the order of the list is that of the clock readings, the order of execution that of the sequence numbers; whether they agree depends on the interleaving of concurrent requests", "anchors": ["src/ferryctl/cmd/status.go:getStatus", "src/libferry/types.go:Less", "src/ferryd/jobs/store.go:pushJobInternal"]}
{"id": "C86", "title": "An interrupted deletion is finished when it is run again", "statement": "If the daemon is killed at any instant of deleting a repository, running the deletion again (which the daemon does after a restart) leaves the disk exactly as an undisturbed deletion leaves it; the other repositories serve all their packages meanwhile.", "quantifier": "every reachable history, every repository, every durable write of the deletion at which the daemon is killed", "why_tests_cant": "a test would have to kill the process between any two writes of any deletion on any repository set; the failing window lies between two adjacent statements", "anchors": ["src/ferryd/core/repo.go:DeleteRepo", "src/ferryd/core/repo.go:CreateRepo", "src/ferryd/core/repo.go:CloneFrom"]}
{"id": "C87", "title": "An interrupted removal can simply be repeated", "statement": "If the daemon is killed at any instant of removing packages from a repository (by source, by trimming old releases, by trimming obsolete packages), running the request again leaves the repositories exactly as an undisturbed run leaves them.", "quantifier": "every history of requests, crashes and outside events, every removal request, every durable write at which the daemon is killed", "why_tests_cant": "the number of instants grows with the request and the state; each needs a kill, a restart and a comparison with a run that was not killed", "anchors": ["src/ferryd/core/repo.go:RemoveSource", "src/ferryd/core/repo.go:UnrefPackage", "src/ferryd/core/repo.go:TrimPackages", "src/ferryd/core/repo.go:TrimObsolete", "src/ferryd/core/pool.go:UnrefEntry"]}
{"id": "C88", "title": "An import adds exactly the packages sent, with the bytes sent", "statement": "A successful import of package files into a repository makes exactly those packages (besides the ones listed before) available in it; a package not listed before is served, from the repository and from the pool, with the bytes sent, or, if the pool already had a package of that file name, with the bytes the pool had. No existing file changes, the only new files are the pool file and the published file of packages sent, and other repositories keep their listings. (That the bytes served are always the bytes sent is false.)", "quantifier": "every environment, catalogue, history of completed requests, list of package files (any length, duplicates allowed) and scheduling of map iteration", "why_tests_cant": "the exact set of files written depends on everything imported before, on duplicates in the request and on which packages the pool already has", "anchors": ["src/ferryd/core/api.go:AddPackages", "src/ferryd/core/repo.go:AddPackage", "src/ferryd/core/repo.go:AddLocalPackage", "src/ferryd/core/pool.go:addPackageInternal", "src/ferryd/core/util.go:LinkOrCopyFile"]}
{"id": "C89", "title": "Only what is listed matters: order and batching of imports are irrelevant", "statement": "Two histories that end with the same packages listed in the same repositories end with the same records, the same published versions and the same reference counts, and, where the package files agree, the same pool records. In particular one set of package files gives the same records, package files and, byte for byte, the same index whether it is sent in one order or another, in one request or in two - provided no two versions of one package share a release number.", "quantifier": "every pair of crash-free histories without delta production; every list of files, permutation and splitting", "why_tests_cant": "a test compares a few histories; this is a statement about all pairs of histories", "anchors": ["src/ferryd/core/api.go:AddPackages", "src/ferryd/core/repo.go:buildSaneEntry", "src/ferryd/core/repo.go:AddLocalPackage", "src/ferryd/core/repo_index.go:emitIndex"]}
{"id": "C90", "title": "Removing the source release just imported undoes the import", "statement": "If an import brought packages none of which were listed, and these are exactly the packages of one source release in the repository, then removing that source release restores every record, every reference count, every pool record, every package file of the pool and of the repositories, all assets, and, byte for byte, the index the repository would have had.", "quantifier": "every history, every list of files, every source and release meeting the condition", "why_tests_cant": "an inverse law over all states; the removal recomputes the published version and purges the pool", "anchors": ["src/ferryd/core/api.go:AddPackages", "src/ferryd/core/api.go:RemoveSource", "src/ferryd/core/repo.go:RemoveSource", "src/ferryd/core/pool.go:UnrefEntry"]}
{"id": "C91", "title": "An index stays up to date until something is done to its repository", "statement": "After a request that re-indexes a repository succeeded, no sequence of requests on other repositories, crashes of such requests, restarts, uploads or changes to other repositories' assets makes its index out of date: indexing it again publishes the same bytes.", "quantifier": "every history before and every sequence of events, of any length, after the request", "why_tests_cant": "quantifies over all later histories including crash points; the index is computed from records in the pool that all repositories share", "anchors": ["src/ferryd/core/repo_index.go:Index", "src/ferryd/core/repo_index.go:emitIndex", "src/ferryd/core/pool.go:GetEntry", "src/ferryd/core/pool.go:UnrefEntry"]}
{"id": "C92", "title": "A full clone publishes, byte for byte, the index of the original", "statement": "A successful full clone of a repository whose index is up to date publishes an index, and all its compressed and hashed variants, identical to the original's, and leaves the original's as it was - provided no two versions of a package share a release number and the new name has no left-over assets that the original lacks.", "quantifier": "every history, every later sequence of events not about the original, every pair of names", "why_tests_cant": "compares two computations over arbitrary contents; the published version is recomputed package by package in another order than that of the imports", "anchors": ["src/ferryd/core/api.go:CloneRepo", "src/ferryd/core/repo.go:CloneFrom", "src/ferryd/core/repo_index.go:emitIndex"]}
{"id": "C93", "title": "A kill in the middle of a removal damages at most the package being removed", "statement": "If the daemon is killed at any instant of removing packages from a repository (by source, by trimming old releases, by trimming obsolete packages), everything that is then listed in any repository is still served, with the recorded size and hash, except perhaps one package of the repository worked on, and that package is one the request was about to remove.", "quantifier": "every history of completed requests, every removal request of any size, every durable write at which the daemon is killed", "why_tests_cant": "the number of instants grows with the request, and the claim is about all packages of all repositories at each of them", "anchors": ["src/ferryd/core/repo.go:UnrefPackage", "src/ferryd/core/repo.go:removePackageInternal", "src/ferryd/core/pool.go:UnrefEntry", "src/ferryd/core/repo.go:RemoveSource", "src/ferryd/core/repo.go:TrimPackages", "src/ferryd/core/repo.go:TrimObsolete"]}
{"id": "C94", "title": "Pulling a repository from itself is harmless", "statement": "A pull whose source and target are the same repository changes nothing: no listing, no reference count, no package file, no asset.", "quantifier": "every history, every repository", "why_tests_cant": "the effect on each of the files of a repository depends on all that was put there before", "anchors": ["src/ferryd/core/api.go:PullRepo", "src/ferryd/core/repo.go:PullFrom", "src/ferryd/core/repo.go:pullAssets", "src/ferryd/core/util.go:CopyFile"]}
{"id": "C95", "title": "The index carries the components and groups of the repository", "statement": "A successful index run publishes every component of the repository's components.xml and every group of its groups.xml, nothing else, sorted by name, with English as the language of a first text that has none; without the file, none. In which order a file gives its items makes no difference to any of the nine published files (if no name occurs twice).", "quantifier": "every history, every repository, every content of the two files", "why_tests_cant": "the files may hold any number of items in any order, and the published text must be the same for all orders", "anchors": ["src/ferryd/core/repo_index.go:emitComponents", "src/ferryd/core/repo_index.go:emitGroups", "src/libeopkg/components.go:NewComponents", "src/libeopkg/groups.go:NewGroups", "src/libeopkg/main.go:FixMissingLocalLanguage"]}
{"id": "C96", "title": "A malformed components.xml or groups.xml makes indexing fail, not the daemon", "statement": "When the components.xml or groups.xml of a repository is malformed, re-indexing the repository reports an error, and the daemon goes on.", "quantifier": "every history, every content of the two files, any number of restarts and retries", "why_tests_cant": "the malformed file must be combined with every state and every number of retries after a restart", "anchors": ["src/libeopkg/components.go:NewComponents", "src/libeopkg/groups.go:NewGroups", "src/libeopkg/main.go:FixMissingLocalLanguage", "src/ferryd/core/repo_index.go:Index"]}
{"id": "C97", "title": "The CDN cache is purged of exactly the listed files, after everything is published", "statement": "After an index run the daemon asks Cloudflare to purge exactly the non-empty lines of /etc/ferryd/<repository>, in order, and nothing if the token, the zone or the file is missing; it reports success exactly if nothing is to be purged or Cloudflare confirms. The purge comes last: however it ends, the published files, the packages and the database are those of a run with a successful purge.", "quantifier": "every list file, every answer, every state and repository", "why_tests_cant": "the content of the list file and the answers of the service are unbounded", "anchors": ["src/ferryd/core/purge_cloudflare.go:purgeCloudflare", "src/ferryd/core/repo_index.go:Index"]}
{"id": "C98", "title": "Deleting a repository leaves every other repository's files alone", "statement": "Deleting a repository removes its registration and exactly the files in its own four directories (packages, assets, delta builds, delta staging); the files of every other repository and everything outside the repository trees stay. A new repository starts with an empty package directory.", "quantifier": "every base directory, every state of the disk, every history of creations, clones, deletions and writes, every repository name", "why_tests_cant": "names and disk contents are unbounded, and one bad name out of infinitely many suffices to lose a repository", "anchors": ["src/ferryd/core/repo.go:bakeRepo", "src/ferryd/core/repo.go:CreateRepo", "src/ferryd/core/repo.go:DeleteRepo", "src/ferryd/handlers.go:CloneRepo"]}
{"id": "C99", "title": "Workers neither fall asleep nor outlive a stop", "statement": "As long as no stop was requested, every worker of the job processor that is not executing a job has a running or expired timer, so it asks the queue again. A stop request is never blocked by the workers, returns only when every worker has left (no job is still being executed), cannot deadlock, and a worker that was told to leave starts at most one more job.", "quantifier": "every number of workers, every schedule of the workers, their timers and the stopping goroutine, every result of the queue", "why_tests_cant": "schedules of goroutines and timers cannot be enumerated by tests", "anchors": ["src/ferryd/jobs/worker.go:Start", "src/ferryd/jobs/worker.go:Stop", "src/ferryd/jobs/worker.go:setTime", "src/ferryd/jobs/processor.go:Begin", "src/ferryd/jobs/processor.go:Close"]}
{"id": "C100", "title": "A request that fails on an I/O error leaves the repositories sound", "statement": "If a write fails in the middle of a request (disk full, I/O error) and the request ends with an error while the daemon goes on, every listed package is still in the pool, entries are well formed and publish their newest version; further requests behave as they would after a kill at that instant and a restart; listed files are not damaged; repeating the request is harmless.", "quantifier": "every history of requests, every request that fails, every write at which it fails, every set of files the clean-up manages to remove, every content of the repository cache", "why_tests_cant": "failing writes are hard to provoke and the failure instants, alone and combined over a history, cannot be enumerated", "anchors": ["src/ferryd/core/pool.go:addPackageInternal", "src/ferryd/core/repo_index.go:Index", "src/ferryd/core/repo.go:AddPackage", "src/ferryd/core/repo.go:DeleteRepo", "src/libdb/leveldb.go:Update"]}
{"id": "C101", "title": "Stored records read back as they were stored", "statement": "Every record written to the database (repositories, repository entries, pool entries with their metadata, skipped deltas, queued jobs, job history) reads back with the value it was written with, also by a later run of the daemon and whatever else was written meanwhile; the manager's database read through its bytes is exactly the database of records; storing a record fails only if it is gigabytes large; a release with other fields reads the fields it shares.", "quantifier": "every value of every stored type (zero values, nil and empty slices, nil pointers included), every numbering of types by the writing run, every later sequence of writes, every sequence of writes and deletes of the manager", "why_tests_cant": "the values are unbounded and the encoding leaves out fields depending on their values; a test shows it for the records it writes", "anchors": ["src/libdb/transcoder.go:EncodeType", "src/libdb/transcoder.go:DecodeType", "src/libdb/leveldb.go:PutObject", "src/libdb/leveldb.go:GetObject", "src/libdb/leveldb.go:Decode", "src/ferryd/core/pool.go:PoolEntry", "src/ferryd/core/repo.go:RepoEntry", "src/ferryd/jobs/main.go:JobEntry", "src/libeopkg/metadata.go:MetaPackage"]}
{"id": "C102", "title": "Requests for different repositories do not interfere", "statement": "What a request does to its repository, and how it is answered, does not depend on requests made before it on repositories it neither changes nor copies from; two requests neither of which changes a repository the other changes or copies from can be made in either order: same answers, same repositories, records, index files and assets, same pool with the same reference counts.", "quantifier": "every reachable state, every pair of requests for different repositories, every environment", "why_tests_cant": "a test runs two requests on one state; that they never meet through the shared pool must hold for every state of it", "anchors": ["src/ferryd/core/manager.go:Manager", "src/ferryd/core/pool.go:AddPackage", "src/ferryd/core/pool.go:RefEntry", "src/ferryd/core/pool.go:UnrefEntry", "src/ferryd/core/repo.go:AddLocalPackage", "src/ferryd/core/repo.go:RefPackage", "src/ferryd/core/repo_index.go:Index"]}
{"id": "C103", "title": "A request that reports an error was refused, or only its index is missing", "statement": "When a request reports an error, either it changed nothing at all (a refused pull may have copied asset files), or everything it asks for is done and only the public index is still the old one or half-made, exactly as if indexing alone had been requested and had failed; an import may also have stopped at the first file it cannot take (missing, unreadable, or not newer), in which case exactly the files before it are imported. Whether the compressors work or the files can be renamed changes nothing but the index files.", "quantifier": "every reachable state, every request and its arguments, every behaviour of the external tools", "why_tests_cant": "the error can come from any of the steps, for any state and any combination of failing tools; a test fails one step on one state", "anchors": ["src/ferryd/core/api.go:CreateRepo", "src/ferryd/core/api.go:CloneRepo", "src/ferryd/core/api.go:PullRepo", "src/ferryd/core/api.go:AddPackages", "src/ferryd/core/api.go:RemoveSource", "src/ferryd/core/api.go:TrimPackages", "src/ferryd/core/repo_index.go:Index", "src/ferryd/core/repo.go:AddPackage"]}
{"id": "C104", "title": "Producing a delta is all or nothing", "statement": "Whatever earlier productions of the delta left in its work directory, whichever step fails (no space, no xz, ...) and wherever the daemon is killed: a delta reported as done is staged complete, with exactly the contents C43 describes, and the work directory is gone; a failure leaves nothing in the staging area or the build area; at every instant the staging area holds nothing or the whole delta; and after a kill at most the second attempt succeeds. The work directory is the repository's own.", "quantifier": "every pair of packages, every leftover content of the work directory, every set of failing steps, every crash point", "why_tests_cant": "there are some twenty steps, each with its own failure and crash point, and leftovers of any of them at the start; a test runs a production from an empty directory to the end", "anchors": ["src/libeopkg/delta.go:NewDeltaProducer", "src/libeopkg/delta.go:Commit", "src/libeopkg/delta.go:produceInstallBall", "src/libeopkg/delta.go:copyInstallPartial", "src/libeopkg/delta.go:Close", "src/libeopkg/package.go:ExtractTarball", "src/libeopkg/util.go:XzFile", "src/libeopkg/util.go:UnxzFile", "src/ferryd/core/util.go:ProduceDelta", "src/ferryd/core/util.go:LinkOrCopyFile", "src/ferryd/core/repo.go:CreateDelta"]}
{"id": "C105", "title": "The file of the index says what the metadata says", "statement": "For every set of packages, components, groups and distribution a repository has, the bytes written as eopkg-index.xml are a well-formed XML document in which every one of them has its element, with every field, attribute, number and translation under its name, in order, and with exactly the text of the metadata; fields that are absent are absent.", "quantifier": "every index: any number of packages, dependencies, updates, deltas, translations, and every text over the characters of XML, of any length, with any division of the output over the buffered writer's pieces", "why_tests_cant": "the file passes three writers (XML encoder, a buffer of 4096 bytes, a writer that rewrites symbols); whether a text survives depends on all of its characters and on where they fall in the buffer", "anchors": ["src/ferryd/core/repo_index.go:emitIndex", "src/ferryd/core/repo_index.go:emitIndexPackage", "src/ferryd/core/escape.go:EscapedWriter", "src/libeopkg/metadata.go:MetaPackage", "src/libeopkg/main.go:LocalisedField", "src/libeopkg/components.go:Component", "src/libeopkg/groups.go:Group", "src/libeopkg/distribution.go:Distribution"]}
{"id": "C106", "title": "A client reading the index finds exactly the published packages, and can download them", "statement": "When indexing a repository succeeds, the bytes of eopkg-index.xml, read as XML, contain one Package element for each listed and not obsolete name and no other; it shows name, URI, hash, size, history, release, architecture and source of the published version and offers exactly the deltas that lead to it; and the file named by each URI is in the repository with that size and hash.", "quantifier": "every history of requests, uploads and crashes (completed requests for the download part), every repository and catalog whose texts are ASCII, every order of maps and of equal items", "why_tests_cant": "the path from the database to a client crosses the delta selection, the sorting, the XML encoder, a buffer and an escaping writer; that nothing is lost, added or moved on the way is a statement about all repositories", "anchors": ["src/ferryd/core/repo_index.go:emitIndex", "src/ferryd/core/repo.go:Repository", "src/ferryd/core/pool.go:Pool", "src/ferryd/core/escape.go:EscapedWriter", "src/libeopkg/metadata.go:MetaPackage"]}
{"id": "C107", "title": "metadata.xml and the asset files are read as they are written", "statement": "Reading a package's metadata.xml ends in one of three ways: it fails, and then some attribute or element that should hold a number holds none; it panics, and then there is no Summary or no Description; or it gives a package in which every field has the value that the elements and attributes of its name state (the last one where one value is kept, all in order for lists, empty when absent), with blanks around translations removed and the first translation without a language taken as English. distribution.xml, components.xml and groups.xml are always read as they are written.", "quantifier": "every tree of XML elements, with any nesting, repetition, order, prefixes, missing and unknown elements", "why_tests_cant": "the decoder fills structures by tags, pointers and paths while it walks a document of any shape and order; a test has a few documents, and a wrong tag, a dropped repeat or a lost field shows only for the documents that use it", "anchors": ["src/libeopkg/metadata.go:MetaPackage", "src/libeopkg/package.go:ReadMetadata", "src/libeopkg/distribution.go:NewDistribution", "src/libeopkg/components.go:NewComponents", "src/libeopkg/groups.go:NewGroups", "src/libeopkg/main.go:FixMissingLocalLanguage"]}
{"id": "C108", "title": "The index says of a package what its own metadata.xml says, and of the assets what their files say", "statement": "For every package in an index, the Package element in the bytes of eopkg-index.xml, read as XML, states the same names, licenses, translations, dependencies, conflicts, replacements, provided files, history, installed size and source as the metadata.xml it was read from; and the distribution, components and groups state what their files say.", "quantifier": "every metadata.xml that is read, every index that holds the package and whose texts are ASCII", "why_tests_cant": "what is lost between two documents is decided by two sets of struct tags, a decoder, an encoder and an escaping writer together; a field missing in one package of a test's collection does not show", "anchors": ["src/libeopkg/metadata.go:MetaPackage", "src/libeopkg/package.go:ReadMetadata", "src/libeopkg/distribution.go:NewDistribution", "src/libeopkg/components.go:NewComponents", "src/libeopkg/groups.go:NewGroups", "src/ferryd/core/repo_index.go:emitIndex", "src/ferryd/core/pool.go:Pool"]}
{"id": "C109", "title": "files.xml is read as it is written", "statement": "Reading a package's files.xml gives one record for each File element, in document order, with the path, type, size, owner, group, hash and mode that its elements state (the mode in octal, within 32 bits); it fails exactly when some File element has a size, owner or group that is no number or has no valid mode.", "quantifier": "every tree of XML elements, with any nesting, repetition, order, prefixes, missing and unknown elements", "why_tests_cant": "a delta is produced from these records: a file that is dropped, merged with another or read with the hash of another loses its content in the delta, and only for packages of that shape; a test reads one package", "anchors": ["src/libeopkg/files.go:File", "src/libeopkg/files.go:File.initFileMode", "src/libeopkg/package.go:ReadFiles"]}
{"id": "C110", "title": "Whoever decodes the index gets back the packages that were indexed", "statement": "Decoding any Package element in the bytes of eopkg-index.xml with the same structures that metadata.xml is decoded with succeeds and gives the package that was indexed, field by field: translations with their languages, dependencies with their bounds, history, provided files, sizes, hash, URI and deltas. The one difference is an empty list that is present, which comes back as an absent one.", "quantifier": "every index, every package in it whose texts are ASCII, and every package of an index whose elements fit the writer's buffer if its summaries, descriptions and comments have no symbol characters; all numbers of 64 bits", "why_tests_cant": "the encoder's tags, the escaping and the decoder's matching of names are inverse only together, for every combination of absent, empty and repeated fields; a test decodes the few packages it encodes", "anchors": ["src/libeopkg/metadata.go:MetaPackage", "src/ferryd/core/repo_index.go:emitIndex"]}
