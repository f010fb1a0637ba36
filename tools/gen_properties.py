#!/usr/bin/env python3
"""Writes /verif/properties.jsonl (kept as a script so that the list is easy to extend)."""
import json, os
P = []
def p(id, title, statement, quantifier, why, anchors):
    P.append(dict(id=id, title=title, statement=statement, quantifier=quantifier,
                  why_tests_cant=why, anchors=anchors))
R="src/ferryd/core/repo.go"; PL="src/ferryd/core/pool.go"; IX="src/ferryd/core/repo_index.go"
A="src/ferryd/core/api.go"; U="src/ferryd/core/util.go"; ST="src/ferryd/jobs/store.go"
DB="src/libdb/leveldb.go"
p("C01","A package that some repository still lists is never purged from the pool",
  "After any sequence of repository operations that ran to completion (create, delete, clone, pull, import, upload, copy source, remove source, trim, delta add/ref), the pool listing reports for every package or delta ID a reference count at least equal to the number of repositories listing that ID, and every listed ID is still in the pool.",
  "all finite histories of API operations, all package sets with instance-unique IDs, all filesystems (hard-link capable or not)",
  "the count is maintained incrementally by dozens of call sites; only an invariant over all histories covers every order of adds, refs and unrefs",
  [PL+":RefEntry",PL+":UnrefEntry",PL+":addPackageInternal",R+":UnrefPackage",R+":DeleteRepo"])
p("C02","The pool holds nothing that no repository lists",
  "After any completed history the reference count of a pool item equals the number of repositories listing it, so an item disappears from the pool exactly when its last listing does.",
  "all finite histories of API operations",
  "leaks only show up after particular orders of delta and package insertions",
  [PL+":UnrefEntry",R+":buildSaneEntry",R+":AddLocalDelta"])
p("C03","The published version of a package is its highest release",
  "In every repository, after any completed history, the version published for a package name is one of the available ones and no available version has a higher release number.",
  "all histories, all release numbers (positive)", "depends on every order of inserting and removing versions",
  [R+":buildSaneEntry",R+":UnrefPackage"])
p("C04","Repository entries stay well formed",
  "For every repository and package name after any completed history: the list of available IDs is sorted, free of duplicates and not empty, the published ID is in it, and all of them resolve in the pool to a package of that name.",
  "all histories","a representation invariant over unbounded histories",
  [R+":RepoEntry",R+":putEntry",R+":buildSaneEntry",R+":UnrefPackage"])
p("C05","Every listed package is downloadable and intact",
  "After any completed history, for every package ID listed by a repository, the file <repo>/<PackageURI> exists and its size and SHA-1 are those recorded in the pool metadata.",
  "all histories without deltas and without outside interference with uploaded files; all file contents",
  "hard-link aliasing and purge order matter; tests sample a few orders",
  [R+":AddLocalPackage",R+":RefPackage",PL+":addPackageInternal",U+":LinkOrCopyFile"])
p("C06","The index lists exactly the published version of every non-obsolete package",
  "A successful index run writes a document with exactly one package record per package name of the repository that is not obsolete (directly, or as -dbginfo of an obsolete name), that record being the published version with its pool metadata, and no other record; records are in ascending ID order.",
  "all repository contents, all obsolete lists","for every set of packages and obsoletes",
  [IX+":emitIndex",IX+":emitIndexPackage"])
p("C07","The index offers exactly the applicable deltas",
  "For each package record in a written index the delta records are exactly the repository's deltas for that name whose target release is the record's release, each with its recorded source release, URI, size and hash, in ascending ID order.",
  "all delta sets","for every combination of from/to releases",[IX+":pushDeltaPackages"])
p("C08","Clients never see a partial index",
  "At every instant of an index run - including after a crash at any point, after any failure, and for any order in which the finished files are moved into place - each of the nine published index files is either complete and as it was before the run or complete and new.",
  "all crash points, all rename orders, all earlier disk states","crash points and map iteration order cannot be enumerated by tests",
  [IX+":Index"])
p("C09","Index and checksum files always agree",
  "At every instant the published checksum file of the index is the checksum of the published index.",
  "all crash points and rename orders","needs a crash between two renames",[IX+":Index"])
p("C10","Indexing recovers from a crash",
  "After a crash at any point of an index run, index runs started afterwards succeed again.",
  "all crash points","leftover temporary files depend on the crash point",[IX+":Index","src/libeopkg/util.go:XzFile"])
p("C11","Operations on one repository leave the others alone",
  "An operation whose target is repository T changes no entry and no file of any other repository.",
  "all operations, all states, all pairs of repositories","frame property over all states",[A,R])
p("C12","Deleting a repository frees exactly what it owned",
  "A successful delete removes the repository, its listings and its files; a pool item is purged iff no other repository lists it; all other listings still resolve; a repository created later under the same name is empty.",
  "all states reachable by completed histories","sharing patterns are unbounded",[R+":DeleteRepo"])
p("C13","Creating a repository never clobbers one",
  "Create fails, changing nothing, if the repository exists or its directory is on disk; otherwise it adds exactly one empty repository.",
  "all states and names","for every state",[R+":CreateRepo",R+":GetRepo",R+":bakeRepo"])
p("C14","Clones are faithful",
  "A successful full clone lists for every package name exactly the IDs and deltas of the source, with a published version of the same release; a successful tip clone lists exactly the published version of each name; the source is unchanged.",
  "all source repositories","for every source content",[R+":CloneFrom",A+":CloneRepo"])
p("C15","Pull brings the target up to the source and removes nothing",
  "After a successful pull every source package name is in the target with published release at least the source's; exactly the missing or older names changed and are reported; nothing was removed; if any target version is newer the pull fails before changing any listing.",
  "all pairs of repositories","for every pair of contents",[R+":PullFrom"])
p("C16","Remove source removes exactly the matching packages",
  "A successful remove-source(source, release) removes from the repository exactly the IDs whose source name matches and whose release matches (any release when release <= 0), together with deltas from or to them; it fails and changes nothing if nothing matches.",
  "all repositories, source names and releases","for every content",[R+":RemoveSource",R+":UnrefPackage"])
p("C17","Copy source copies exactly the matching packages",
  "A successful copy-source adds to the target exactly the matching IDs of the source repository and removes none; fails unchanged if nothing matches.",
  "all repositories","for every content",[R+":CopySourceFrom"])
p("C18","Copy source re-indexes the target unless told to skip",
  "After a successful copy source without the skip-index flag the target's index reflects the copied packages; with the flag the index files are untouched.",
  "both flag values, all contents","relation between flag and effect over all states",[A+":CopySource"])
p("C19","Trim packages keeps exactly the newest versions",
  "A successful trim to N >= 1 leaves for each name the N highest releases (all, if fewer) including the published one, removes all others, and rejects N < 1 without effect; whatever order an unstable sort gives to equal releases.",
  "all contents, all N, all sort implementations","sort instability and unbounded sizes",[R+":TrimPackages","src/libeopkg/main.go:PackageSet"])
p("C20","Trim obsolete removes every obsolete package",
  "After a successful trim-obsolete no package whose name is obsolete (or is the -dbginfo of one) is left in the repository.",
  "all contents and obsolete lists","for every obsolete list",[R+":TrimObsolete"])
p("C21","Uploads can only move a package forward",
  "An upload accepted in strict mode for an existing name has a release strictly higher than the published one and becomes the published version; a rejected upload changes nothing.",
  "all states and packages","for every state",[R+":AddPackage"])
p("C22","A crash while adding never loses or corrupts what is listed",
  "At every crash point of import, reference, clone, pull and copy, reference counts are still at least the number of listings and every listing resolves.",
  "all crash points of all adding operations in all reachable states","crash points",[R+":AddLocalPackage",R+":RefPackage",R+":CloneFrom"])
p("C23","A crash while removing never leaves a listing without its package",
  "At every crash point of remove source, trim and delete, every listing still resolves and no reference count is below the number of listings.",
  "all crash points of removing operations","crash points",[R+":UnrefPackage",R+":removePackageInternal"])
p("C24","Re-running an interrupted job is safe",
  "When the daemon restarts after a crash and re-runs the interrupted add, all package files that were intact stay intact.",
  "all crash points, all states","needs a crash between two specific writes",[R+":AddLocalPackage",U+":CopyFile",ST+":setup"])
p("C25","Adding a version keeps the deltas already listed",
  "Importing or referencing a package version never removes deltas from the repository's listing.",
  "all states","depends on state",[R+":buildSaneEntry"])
p("C26","Placing a file yields its content",
  "When placing a file (link, else copy) reports success the destination has the content of the source and the source is unchanged.",
  "all filesystem states","aliasing states are not sampled",[U+":LinkOrCopyFile",U+":CopyFile"])
p("C27","The pool is independent of the uploaded file",
  "Changing the uploaded file in place after a successful import does not change the package served.",
  "all states","aliasing",[PL+":addPackageInternal",U+":LinkOrCopyFile"])
p("C28","Jobs of a queue start in the order they were accepted",
  "For every history of pushes, claims, retires and restarts a claim returns the oldest unclaimed job of the queue.",
  "all histories with fewer than 2^64 pushes","unbounded histories, byte-order of keys",[ST+":claimJobInternal",ST+":pushJobInternal",DB+":NextSequence"])
p("C29","No job is handed to two workers",
  "Between restarts, whatever the interleaving of workers, a job is claimed at most once before being retired.",
  "all schedules of all numbers of workers","schedules",[ST+":claimJobInternal","src/ferryd/jobs/worker.go:Start"])
p("C30","Accepted jobs survive crashes until they are retired",
  "After any history including crashes between any two database writes, every accepted job that was not retired is in its queue, unclaimed after restart, exactly once and with its parameters.",
  "all histories and crash points","crash points",[ST+":setup",ST+":unclaimJobs",ST+":RetireSequentialJob"])
p("C31","Sequential jobs never overlap",
  "At every moment at most one sequential job is being executed, and sequential jobs run in acceptance order.",
  "all schedules, all worker counts","schedules",["src/ferryd/jobs/processor.go:NewProcessor","src/ferryd/jobs/worker.go:Start"])
p("C32","Job history shows the last 100 jobs of each outcome",
  "After any number of completions since the last reset, the stored successful (failed) jobs are exactly the most recent min(n,100), without duplicates.",
  "all completion sequences","unbounded sequences and wrap-around",[ST+":markCompletion",ST+":clonePastJobs"])
p("C33","Every finished job leaves a record",
  "A job that has left the queue is in the completed or failed history (until rotated out), also if the daemon crashes at any moment.",
  "all crash points","crash points",[ST+":RetireSequentialJob",ST+":markCompletion"])
p("C34","Job parameters survive the queue",
  "For every request the handler built from the stored job has exactly the request's parameters.",
  "all parameter values","all integers and strings",["src/ferryd/jobs/remove_source.go","src/ferryd/jobs/copy_source.go","src/ferryd/jobs/trim_packages.go","src/ferryd/jobs/bulk_add.go","src/ferryd/jobs/clone_repo.go"])
p("C35","Every queued job can be executed",
  "Every job the daemon queues, including those queued by other jobs, is accepted by the job dispatcher.",
  "all requests","all request kinds and parameters",["src/ferryd/jobs/main.go:NewJobHandler","src/ferryd/jobs/delta_repo.go","src/ferryd/jobs/delta.go"])
p("C36","Status always works",
  "The status request lists every queued or running job, whatever is in the queues.",
  "all queue contents","all queue contents",[ST+":ActiveJobs",ST+":cloneCurrentJobs","src/ferryd/handlers.go:GetStatus"])
p("C37","Database buckets are independent",
  "Writing, deleting and iterating through one bucket neither sees nor changes keys of another bucket.",
  "all bucket names and keys","all strings",[DB+":Bucket",DB+":ForEach",DB+":getRealKey"])
p("C38","Transactions are all or nothing",
  "If the function given to Update fails nothing is written; if it succeeds all its writes take effect in one step, the last write to a key winning.",
  "all functions and states","all write sequences",[DB+":Update"])
p("C39","A transaction sees its own writes",
  "A read inside Update returns the value last written in that transaction.",
  "all transactions","",[DB+":Update",DB+":GetObject"])
p("C40","Sequence numbers are fresh",
  "NextSequence returns a key that is not in the bucket and sorts after every key of the bucket.",
  "all buckets with numeric keys below the maximum","all key sets",[DB+":NextSequence"])
p("C41","Different deltas have different names",
  "Two package pairs get the same delta file name only if name, both releases, distribution release and architecture agree.",
  "all package pairs","all strings",["src/libeopkg/util.go:ComputeDeltaName"])
p("C42","Deltas only go forward between versions of one package",
  "Delta possibility is irreflexive, asymmetric and transitive, and implies same name, distribution release and architecture.",
  "all packages","all triples",["src/libeopkg/util.go:IsDeltaPossible"])
p("C43","A delta contains everything the old version lacks",
  "Every file of the new package is either in the delta or has its content (hash) in the old package; directories are always included; nothing else is in the delta; a delta is refused exactly when it would contain every file.",
  "all file lists","all file lists",["src/libeopkg/delta.go:produceInstallBall","src/libeopkg/delta.go:copyInstallPartial"])
p("C44","Package files stay inside the repository tree",
  "The path of a package inside a repository or the pool, computed from its source name and ID, is below the tree root, and its last component is the ID.",
  "all source names and IDs","all strings",["src/libeopkg/metadata.go:GetPathComponent","src/libeopkg/metadata.go:GetID",PL+":GetMetaPoolPath"])
p("C45","No package file can crash the daemon",
  "Importing any readable package file either succeeds or returns an error.",
  "all package metadata","all metadata",["src/libeopkg/metadata.go:GetRelease","src/libeopkg/metadata.go:GetPathComponent","src/libeopkg/main.go:FixMissingLocalLanguage"])
p("C46","Index text escaping is lossless and yields valid UTF-8",
  "For every byte string written, the output is valid UTF-8; ASCII bytes pass unchanged; and replacing character references in the output by their characters gives back the input whenever it was valid UTF-8.",
  "all byte strings","all byte strings",["src/ferryd/core/escape.go:Write"])
p("C47","Escaping does not depend on how the text is split into writes",
  "Writing a text in several pieces gives the same output as writing it at once.",
  "all splits of all texts","buffer boundaries",["src/ferryd/core/escape.go:Write",IX+":emitIndex"])
p("C48","Nothing is imported from an upload unless the whole payload checks out",
  "An upload manifest is processed only if version is 1.0, target non-empty, at least one file, every file named and ending in .eopkg with a checksum, all files present with the stated SHA-256, and the target repository exists; otherwise no listing changes.",
  "all manifests, all directory contents","all manifests",["src/ferryd/core/transit_manifest.go","src/ferryd/jobs/transit_job.go:Execute"])
p("C49","An upload is imported completely or not at all",
  "If processing a manifest fails, none of its packages is listed.",
  "all manifests and states","failure position",["src/ferryd/jobs/transit_job.go:Execute",A+":AddPackages"])
p("C50","A manifest can only touch files of the incoming directory",
  "Every file read or deleted while processing a manifest is in the manifest's directory.",
  "all manifests","all paths",["src/ferryd/core/transit_manifest.go:GetPaths","src/ferryd/jobs/transit_job.go:Execute"])
p("C51","At most one daemon owns a base directory",
  "For every interleaving of starting, stopping and crashing daemons at most one holds the lock.",
  "all interleavings","interleavings",["src/ferryd/lockfile.go:Lock","src/ferryd/lockfile.go:Clean","src/ferryd/server.go:Close"])
p("C52","The lock file holds the owner's process ID",
  "After a successful Lock the number read from the lock file is the owner's PID.",
  "all previous contents, all PIDs","all previous contents",["src/ferryd/lockfile.go:writePID","src/ferryd/lockfile.go:readPID"])
p("C53","The worker pool always has exactly one sequential worker and at least one background worker",
  "For every requested job count and CPU count the processor has one sequential worker, first, and n >= 1 background workers, and waits for as many as it starts.",
  "all integers","all integers",["src/ferryd/jobs/processor.go:NewProcessor"])
p("C54","Import of a directory sends exactly its packages",
  "The client sends every file below the given path whose name ends in x86_64.eopkg and nothing else, unless some directory is unreadable, in which case it sends nothing.",
  "all directory trees","all trees",["src/ferryctl/cmd/import.go:GetEopkgs"])
p("C55","Concurrent references are all counted",
  "When several workers reference and release pool items concurrently the final reference counts are those of some sequential order.",
  "all interleavings of database reads and writes","interleavings",[PL+":RefEntry",PL+":UnrefEntry",R+":RefDelta"])
p("C56","A delta marked as failed stays marked",
  "Once a delta was recorded as impossible every later query says so and the record keeps the first reason, whatever operations follow.",
  "all histories","all histories",[PL+":MarkDeltaFailed",PL+":GetDeltaFailed"])
p("C57","A delta job only produces deltas from older versions to the tip",
  "For every package set the deltas attempted are exactly (old, tip) for all but the highest release, skipping known failures and deltas the repository has; a delta is registered with those two packages.",
  "all package sets","all package sets",["src/ferryd/jobs/delta.go:executeInternal"])
p("C58","Cleaning up empty directories never removes a non-empty one",
  "After removing a package the parent directories are removed only when empty, and no other directory is removed.",
  "all directory trees","all trees",[U+":RemovePackageParents"])
p("C59","No repository request can make the daemon panic",
  "Whatever requests, failures and crashes came before, every repository request returns a result or an error, provided package files have a history with positive releases, a source name, and a file name that determines their metadata, components and groups have their texts, and Cloudflare does not refuse a purge without a message.",
  "all histories incl. crashes at every durable write, all requests","a panic needs one particular state among unboundedly many",[A,R,PL,IX])
p("C60","No orphaned package files",
  "After any completed history every package file below a repository directory is listed by that repository and every package file in the pool directory is in the pool database.",
  "all completed histories","all histories",[R+":removePackageInternal",PL+":UnrefEntry",R+":DeleteRepo"])
p("C61","After a delta job with indexing the index offers the repository's deltas",
  "When a delta job that was asked to index succeeds, the published index offers every delta the repository now lists for the published versions.",
  "all states, package sets and delta outcomes","the outcome depends on which deltas other repositories already brought into the pool; all combinations cannot be enumerated",["src/ferryd/jobs/delta.go:Execute","src/ferryd/jobs/delta.go:executeInternal"])
p("C62","A crashed daemon can be started again",
  "When no daemon is running, starting one on the base directory succeeds, whatever lock file earlier daemons left behind.",
  "all histories of daemons starting, stopping and crashing, all process IDs","depends on the left-over lock file of arbitrary earlier runs and on process IDs the system hands out",["src/ferryd/lockfile.go:NewLockFile","src/ferryd/lockfile.go:Lock"])
p("C63","An upload interrupted by a crash is completed after the restart",
  "If the daemon dies while it processes an accepted upload that would have succeeded, the job is run again after the restart and completes the import.",
  "all uploads, every crash point","crash points between any two durable writes",["src/ferryd/jobs/transit_job.go:Execute",A+":AddPackages",R+":AddPackage"])
p("C64","Uploading a delta does not publish it as a package",
  "After processing any manifest the packages a repository newly lists are packages, never delta files.",
  "all manifests and states","all manifests",["src/ferryd/core/transit_manifest.go:NewTransitManifest",R+":AddPackage"])
p("C65","A removal and a delta job on one repository do not disturb each other",
  "When a package version is removed from a repository while a background worker adds a delta to it, the repository and the pool end up as if one had run after the other.",
  "all interleavings of the database reads and writes, all databases","the failing interleavings need two workers between two particular database accesses",[R+":UnrefPackage",R+":RefDelta",R+":AddLocalDelta",PL+":RefEntry","src/ferryd/jobs/worker.go:Start"])
p("C66","Concurrent requests on one repository are serialised",
  "Any number of concurrent additions and references to one repository take effect one after the other, from the first use after a start of the daemon on.",
  "all interleavings, any number of workers, all databases","the number of interleavings is unbounded and the scheduler is not under the test's control",[R+":GetRepo",R+":RefDelta",R+":AddLocalDelta",R+":RefPackage",R+":AddLocalPackage"])
p("C67","The workers never block each other for ever",
  "Whatever jobs the sequential worker and the background workers run, in every interleaving some unfinished worker can go on, and all jobs end.",
  "all job lists, any number of workers, all interleavings","a deadlock needs one particular interleaving of lock operations",[R+":CloneFrom",R+":PullFrom",R+":TrimObsolete",R+":UnrefPackage",R+":RefDelta",R+":DeleteRepo",IX+":Index","src/ferryd/jobs/worker.go:Start"])
# Fuller reasons for the properties whose reason above is only a keyword.
p("C68","Requests take effect one at a time, in the order they were accepted, across restarts",
 "The repositories are at every moment exactly what the attempts at the accepted requests and changes by the outside world made of them; attempts follow the order of acceptance; every attempt asks for exactly what its request asked; no attempt at a request is made before the last attempt at every earlier one ran to its end; a request whose last attempt did not run to its end is still queued; without a stop of the daemon each request is attempted at most once.",
 "every number of workers, every sequence of requests, polls, retirements, stops and starts, every point at which the daemon dies (fewer than 2^62 events)",
 "requests, workers and crashes interleave without bound, and the order must survive every restart",
 ["src/ferryd/handlers.go:CreateRepo","src/ferryd/jobs/worker.go:processJob","src/ferryd/jobs/store.go:ClaimSequentialJob","src/ferryd/jobs/processor.go:Begin","src/ferryd/server.go:Bind"])
p("C69","The running daemon keeps its repositories sound",
 "Whatever requests arrive over the API and through the incoming directory, however workers interleave, and wherever the daemon is killed: it never panics on well-formed packages, everything a repository lists is in the pool, entries are well-formed, and the published version is the newest; if no job was cut short, reference counts are exact, listed packages are served with the recorded hash and size, and no package file is orphaned.",
 "every history of requests, manifests, worker interleavings, stops and crash points of the whole daemon",
 "it composes the queue, the dispatcher, uploads and the repositories over unbounded histories with crashes",
 ["src/ferryd/server.go","src/ferryd/jobs/main.go:NewJobHandler","src/ferryd/jobs/worker.go:processJob","src/ferryd/core/api.go"])
p("C70","Executing a request twice is the same as executing it once",
 "Because a job that was completed but not yet retired is run again after a restart, repeating a request that just succeeded must leave every repository offering the same versions, with the same one published.",
 "every reachable state, every request, every outcome of sorting and linking",
 "it must hold for every content of the repositories the request may meet",
 ["src/ferryd/jobs/store.go:NewStore","src/ferryd/jobs/store.go:UnclaimSequential","src/ferryd/core/repo.go:TrimObsolete","src/ferryd/core/api.go"])
p("C71","One bad request does not stop the others",
 "An accepted request is attempted eventually, provided the daemon is started again whenever it dies, whatever package files earlier requests import.",
 "every history of requests, starts and stops after the bad request, of any length",
 "it speaks about all continuations of a history, with restarts at arbitrary points",
 ["src/ferryd/jobs/worker.go:processJob","src/ferryd/jobs/store.go:UnclaimSequential","src/ferryd/jobs/bulk_add.go:Execute","src/libeopkg/package.go:ReadMetadata"])
p("C72","As long as the daemon is up and no job panics, every waiting request is executed to its end",
 "If the sequential worker keeps coming round, then whatever else happens meanwhile (new requests, background workers, resets, changes of files), after finitely many rounds the first m waiting requests have been executed to their end and taken out of the queue.",
 "every history, every number of waiting requests and of packages, every interleaving of the worker's rounds with all other events",
 "a liveness property over all interleavings",
 ["src/ferryd/jobs/worker.go:processJob","src/ferryd/jobs/worker.go:Start","src/ferryd/jobs/delta_repo.go:Execute","src/ferryd/jobs/store.go:RetireSequentialJob"])
p("C73","Repositories come and go only by request",
 "Only creating, cloning and deleting make or unmake repositories, each only the one it names; this holds at every instant of every request, including the instant of a crash.",
 "every reachable state, every request, every crash point",
 "it says that no other repository appears or vanishes, in any state, at any instant",
 ["src/ferryd/core/repo.go:CreateRepo","src/ferryd/core/repo.go:DeleteRepo","src/ferryd/core/repo.go:GetRepo"])
p("C74","What a user types is what the daemon queues",
 "Every ferryctl command and every call of the client library arrives at the daemon as the request it stands for: the same operation, for the same repository, with the same source, target, paths, release number and flags; no name a user can type makes the daemon do something else.",
 "every sub-command, every argument list, every string as repository, source, target or path, every number",
 "names are strings that pass through a command line, a URL, a router that redirects, and JSON; only a statement about all strings covers what each of these layers does to them",
 ["src/libferry/main.go:formURI","src/libferry/main.go:postBasicResponse","src/libferry/types.go:CopySourceRequest","src/ferryd/server.go:NewServer","src/ferryd/handlers.go:CopySource","src/ferryctl/cmd/copy_source.go:copySource"])
p("C75","Asking the daemon to stop interrupts nothing",
 "When the daemon is asked to stop, it lets every job that is being executed run to its end before it closes its database; stopping and starting it any number of times repeats no request and leaves none half-done: a request that is not in the queue any more was executed exactly once, to its end.",
 "every history of requests, uploads, worker steps, stops and starts without a kill, every number of workers",
 "stopping races with the workers, the watcher and the HTTP handlers at every point of every job; a test stops the daemon at a few of them",
 ["src/ferryd/server.go:Close","src/ferryd/jobs/processor.go:Close","src/ferryd/jobs/worker.go:Start","src/ferryd/jobs/store.go:Close"])
p("C76","A request the daemon acknowledged is queued",
 "When a client is told that its request was accepted, the request is in the queue from then on, across crashes and restarts, until it has been executed to its end; a request that is answered with an error or not at all has no effect.",
 "every history, every request, every moment of the daemon's life including the moments between the calls of its shutdown",
 "it depends on where in the shutdown sequence the request arrives; the interval between two calls cannot be hit by a test",
 ["src/ferryd/jobs/processor.go:PushJob","src/ferryd/jobs/store.go:Close","src/ferryd/handlers.go:CreateRepo","src/ferryd/server.go:Close"])
p("C77","The daemon can be started again, and finds its queue",
 "However the daemon's process ended, the next start succeeds and continues with the queue as it was left.",
 "every history, clean stops and kills at every point, with and without systemd's socket",
 "it quantifies over all ways in which the previous process can have ended",
 ["src/ferryd/server.go:Bind","src/ferryd/server.go:Close","src/ferryd/server.go:Serve","src/ferryd/jobs/store.go:NewStore"])
p("C78","Every uploaded manifest is processed, and nothing else is",
 "Every manifest written to the incoming directory is queued for processing, and only files with the manifest suffix that lie directly in the incoming directory are.",
 "every history of uploads, watcher reports, stops and starts, every file name",
 "whether an upload is noticed depends on when it happens relative to starts and stops of the daemon; what is queued must be safe for every report the watcher can make",
 ["src/ferryd/monitor.go:WatchIncoming","src/ferryd/monitor.go:processTransitManifest","src/ferryd/monitor.go:InitWatcher"])
p("C79","Stopping and starting the daemon leaves no trace",
 "A stop and a start between two requests changes nothing: repositories, pool, files and the outcome of every later request are the same as if the daemon had run on.",
 "every history, stops at every place and in every number, every later request, every crash point of the later requests",
 "the in-memory cache of repositories makes two daemons with the same database differ inside; that this never shows is a statement about pairs of executions",
 ["src/ferryd/core/repo.go:GetRepo","src/ferryd/core/repo.go:DeleteRepo","src/ferryd/core/repo.go:bakeRepo","src/ferryd/core/manager.go:NewManager"])
p("C80","What an index promised stays true while the package is listed",
 "A client that fetched an index may download the packages named there later: as long as the repository keeps listing the package, the file is at the promised path with the promised hash and size, whatever was added, pulled, removed, deleted or re-uploaded in between.",
 "every pair of histories, every repository, every index document and record in it",
 "it relates two moments with arbitrarily many requests between them",
 ["src/ferryd/core/pool.go:AddPackage","src/ferryd/core/pool.go:addPackageInternal","src/ferryd/core/pool.go:RefEntry","src/ferryd/core/pool.go:UnrefEntry","src/ferryd/core/repo_index.go:emitIndex"])
p('C81',
 'The job history tells the truth',
 'When a job leaves the queue while the daemon runs on, the status shows exactly one new record: among the completed jobs if the last attempt at it succeeded, among the failed jobs if it failed, with the description of the request. Nothing else, short of a reset, changes the two lists.',
 'every history of requests, polls, crashes and restarts, every number of workers, every job',
 'the record is written steps after the job was executed, with other workers, requests and crashes in between',
 ['src/ferryd/jobs/worker.go:processJob', 'src/ferryd/jobs/worker.go:Start', 'src/ferryd/jobs/store.go:markCompletion', 'src/ferryd/jobs/store.go:RetireSequentialJob'])
p('C82',
 'The listings show exactly what there is',
 'list repos shows every existing repository once, in alphabetical order, and nothing else. list pool shows every pool item once with its reference count, also while a request is being executed; the count is never less than the number of repositories that list the item, and equal to it between requests when there were no crashes and deltas.',
 'every history, every moment inside a request, every package and repository',
 'it must hold in every state of the database that a listing can see',
 ['src/ferryd/core/repo.go:GetRepos', 'src/ferryd/core/pool.go:GetPoolItems', 'src/ferryd/handlers.go:GetRepos', 'src/ferryd/handlers.go:GetPoolItems', 'src/ferryctl/cmd/list_repos.go:listRepos', 'src/ferryctl/cmd/list_pool.go:listPool'])
p('C83',
 'The status says which jobs are running',
 'While the daemon is up, the list of current jobs has one line for every job that is queued or being executed, and the line says running exactly if a worker of the daemon is executing the job at that moment; a job interrupted by a crash is shown as queued until it is taken up again.',
 'every history of requests, claims, completions, crashes at every write and restarts, with any positive clock readings',
 'the mark is the begin time stored with the job, which crashes and interrupted restarts leave behind; only an invariant over all histories shows that it always agrees with the workers',
 ['src/ferryd/jobs/store.go:claimJobInternal', 'src/ferryd/jobs/store.go:unclaimJobs', 'src/ferryd/jobs/store.go:cloneCurrentJobs', 'src/ferryctl/cmd/status.go:printActiveJobs'])
p('C84',
 'The times of a finished job are real',
 "The times shown for a failed or completed job are those of its request, of a later claim by a worker and of the end of that worker's execution; with a clock that does not go back no waiting, execution or total time in the status is negative.",
 'every history and every interleaving of clock readings with the lock, including crashes and restarts in the middle of the job',
 'two of the three times are read outside the lock, and crashes reset some of them; the claim is about every interleaving',
 ['src/ferryd/jobs/store.go:pushJobInternal', 'src/ferryd/jobs/store.go:markCompletion', 'src/ferryd/jobs/worker.go:Start', 'src/libferry/types.go:TotalTime'])
p('C85',
 'The status lists the current jobs in the order of execution',
 'ferryctl status lists the current jobs in the order in which they were queued, which is the order in which they are executed; it prints the first ten of them, and the newest ten of the failed and of the completed jobs, or all with -a.',
 'every history, every number of jobs, every clock, every correct sorting',
 'the order of the list is that of the clock readings, the order of execution that of the sequence numbers; whether they agree depends on the interleaving of concurrent requests',
 ['src/ferryctl/cmd/status.go:getStatus', 'src/libferry/types.go:Less', 'src/ferryd/jobs/store.go:pushJobInternal'])
p('C86',
 'An interrupted deletion is finished when it is run again',
 'If the daemon is killed at any instant of deleting a repository, running the deletion again (which the daemon does after a restart) leaves the disk exactly as an undisturbed deletion leaves it; the other repositories serve all their packages meanwhile.',
 'every reachable history, every repository, every durable write of the deletion at which the daemon is killed',
 'a test would have to kill the process between any two writes of any deletion on any repository set; the failing window lies between two adjacent statements',
 ['src/ferryd/core/repo.go:DeleteRepo', 'src/ferryd/core/repo.go:CreateRepo', 'src/ferryd/core/repo.go:CloneFrom'])
p('C87',
 'An interrupted removal can simply be repeated',
 'If the daemon is killed at any instant of removing packages from a repository (by source, by trimming old releases, by trimming obsolete packages), running the request again leaves the repositories exactly as an undisturbed run leaves them.',
 'every history of requests, crashes and outside events, every removal request, every durable write at which the daemon is killed',
 'the number of instants grows with the request and the state; each needs a kill, a restart and a comparison with a run that was not killed',
 ['src/ferryd/core/repo.go:RemoveSource', 'src/ferryd/core/repo.go:UnrefPackage', 'src/ferryd/core/repo.go:TrimPackages', 'src/ferryd/core/repo.go:TrimObsolete', 'src/ferryd/core/pool.go:UnrefEntry'])
p('C88',
 'An import adds exactly the packages sent, with the bytes sent',
 'A successful import of package files into a repository makes exactly those packages (besides the ones listed before) available in it; a package not listed before is served, from the repository and from the pool, with the bytes sent, or, if the pool already had a package of that file name, with the bytes the pool had. No existing file changes, the only new files are the pool file and the published file of packages sent, and other repositories keep their listings. (That the bytes served are always the bytes sent is false.)',
 'every environment, catalogue, history of completed requests, list of package files (any length, duplicates allowed) and scheduling of map iteration',
 'the exact set of files written depends on everything imported before, on duplicates in the request and on which packages the pool already has',
 ['src/ferryd/core/api.go:AddPackages', 'src/ferryd/core/repo.go:AddPackage', 'src/ferryd/core/repo.go:AddLocalPackage', 'src/ferryd/core/pool.go:addPackageInternal', 'src/ferryd/core/util.go:LinkOrCopyFile'])
p('C89',
 'Only what is listed matters: order and batching of imports are irrelevant',
 'Two histories that end with the same packages listed in the same repositories end with the same records, the same published versions and the same reference counts, and, where the package files agree, the same pool records. In particular one set of package files gives the same records, package files and, byte for byte, the same index whether it is sent in one order or another, in one request or in two - provided no two versions of one package share a release number.',
 'every pair of crash-free histories without delta production; every list of files, permutation and splitting',
 'a test compares a few histories; this is a statement about all pairs of histories',
 ['src/ferryd/core/api.go:AddPackages', 'src/ferryd/core/repo.go:buildSaneEntry', 'src/ferryd/core/repo.go:AddLocalPackage', 'src/ferryd/core/repo_index.go:emitIndex'])
p('C90',
 'Removing the source release just imported undoes the import',
 'If an import brought packages none of which were listed, and these are exactly the packages of one source release in the repository, then removing that source release restores every record, every reference count, every pool record, every package file of the pool and of the repositories, all assets, and, byte for byte, the index the repository would have had.',
 'every history, every list of files, every source and release meeting the condition',
 'an inverse law over all states; the removal recomputes the published version and purges the pool',
 ['src/ferryd/core/api.go:AddPackages', 'src/ferryd/core/api.go:RemoveSource', 'src/ferryd/core/repo.go:RemoveSource', 'src/ferryd/core/pool.go:UnrefEntry'])
p('C91',
 'An index stays up to date until something is done to its repository',
 "After a request that re-indexes a repository succeeded, no sequence of requests on other repositories, crashes of such requests, restarts, uploads or changes to other repositories' assets makes its index out of date: indexing it again publishes the same bytes.",
 'every history before and every sequence of events, of any length, after the request',
 'quantifies over all later histories including crash points; the index is computed from records in the pool that all repositories share',
 ['src/ferryd/core/repo_index.go:Index', 'src/ferryd/core/repo_index.go:emitIndex', 'src/ferryd/core/pool.go:GetEntry', 'src/ferryd/core/pool.go:UnrefEntry'])
p('C92',
 'A full clone publishes, byte for byte, the index of the original',
 "A successful full clone of a repository whose index is up to date publishes an index, and all its compressed and hashed variants, identical to the original's, and leaves the original's as it was - provided no two versions of a package share a release number and the new name has no left-over assets that the original lacks.",
 'every history, every later sequence of events not about the original, every pair of names',
 'compares two computations over arbitrary contents; the published version is recomputed package by package in another order than that of the imports',
 ['src/ferryd/core/api.go:CloneRepo', 'src/ferryd/core/repo.go:CloneFrom', 'src/ferryd/core/repo_index.go:emitIndex'])
p('C93',
 'A kill in the middle of a removal damages at most the package being removed',
 'If the daemon is killed at any instant of removing packages from a repository (by source, by trimming old releases, by trimming obsolete packages), everything that is then listed in any repository is still served, with the recorded size and hash, except perhaps one package of the repository worked on, and that package is one the request was about to remove.',
 'every history of completed requests, every removal request of any size, every durable write at which the daemon is killed',
 'the number of instants grows with the request, and the claim is about all packages of all repositories at each of them',
 ['src/ferryd/core/repo.go:UnrefPackage', 'src/ferryd/core/repo.go:removePackageInternal', 'src/ferryd/core/pool.go:UnrefEntry', 'src/ferryd/core/repo.go:RemoveSource', 'src/ferryd/core/repo.go:TrimPackages', 'src/ferryd/core/repo.go:TrimObsolete'])
p('C94',
 'Pulling a repository from itself is harmless',
 'A pull whose source and target are the same repository changes nothing: no listing, no reference count, no package file, no asset.',
 'every history, every repository',
 'the effect on each of the files of a repository depends on all that was put there before',
 ['src/ferryd/core/api.go:PullRepo', 'src/ferryd/core/repo.go:PullFrom', 'src/ferryd/core/repo.go:pullAssets', 'src/ferryd/core/util.go:CopyFile'])
p('C95',
 'The index carries the components and groups of the repository',
 "A successful index run publishes every component of the repository's components.xml and every group of its groups.xml, nothing else, sorted by name, with English as the language of a first text that has none; without the file, none. In which order a file gives its items makes no difference to any of the nine published files (if no name occurs twice).",
 'every history, every repository, every content of the two files',
 'the files may hold any number of items in any order, and the published text must be the same for all orders',
 ['src/ferryd/core/repo_index.go:emitComponents', 'src/ferryd/core/repo_index.go:emitGroups', 'src/libeopkg/components.go:NewComponents', 'src/libeopkg/groups.go:NewGroups', 'src/libeopkg/main.go:FixMissingLocalLanguage'])
p('C96',
 'A malformed components.xml or groups.xml makes indexing fail, not the daemon',
 'When the components.xml or groups.xml of a repository is malformed, re-indexing the repository reports an error, and the daemon goes on.',
 'every history, every content of the two files, any number of restarts and retries',
 'the malformed file must be combined with every state and every number of retries after a restart',
 ['src/libeopkg/components.go:NewComponents', 'src/libeopkg/groups.go:NewGroups', 'src/libeopkg/main.go:FixMissingLocalLanguage', 'src/ferryd/core/repo_index.go:Index'])
p('C97',
 'The CDN cache is purged of exactly the listed files, after everything is published',
 'After an index run the daemon asks Cloudflare to purge exactly the non-empty lines of /etc/ferryd/<repository>, in order, and nothing if the token, the zone or the file is missing; it reports success exactly if nothing is to be purged or Cloudflare confirms. The purge comes last: however it ends, the published files, the packages and the database are those of a run with a successful purge.',
 'every list file, every answer, every state and repository',
 'the content of the list file and the answers of the service are unbounded',
 ['src/ferryd/core/purge_cloudflare.go:purgeCloudflare', 'src/ferryd/core/repo_index.go:Index'])
p('C98',
 "Deleting a repository leaves every other repository's files alone",
 'Deleting a repository removes its registration and exactly the files in its own four directories (packages, assets, delta builds, delta staging); the files of every other repository and everything outside the repository trees stay. A new repository starts with an empty package directory.',
 'every base directory, every state of the disk, every history of creations, clones, deletions and writes, every repository name',
 'names and disk contents are unbounded, and one bad name out of infinitely many suffices to lose a repository',
 ['src/ferryd/core/repo.go:bakeRepo', 'src/ferryd/core/repo.go:CreateRepo', 'src/ferryd/core/repo.go:DeleteRepo', 'src/ferryd/handlers.go:CloneRepo'])
p('C99',
 'Workers neither fall asleep nor outlive a stop',
 'As long as no stop was requested, every worker of the job processor that is not executing a job has a running or expired timer, so it asks the queue again. A stop request is never blocked by the workers, returns only when every worker has left (no job is still being executed), cannot deadlock, and a worker that was told to leave starts at most one more job.',
 'every number of workers, every schedule of the workers, their timers and the stopping goroutine, every result of the queue',
 'schedules of goroutines and timers cannot be enumerated by tests',
 ['src/ferryd/jobs/worker.go:Start', 'src/ferryd/jobs/worker.go:Stop', 'src/ferryd/jobs/worker.go:setTime', 'src/ferryd/jobs/processor.go:Begin', 'src/ferryd/jobs/processor.go:Close'])
p('C100',
 'A request that fails on an I/O error leaves the repositories sound',
 'If a write fails in the middle of a request (disk full, I/O error) and the request ends with an error while the daemon goes on, every listed package is still in the pool, entries are well formed and publish their newest version; further requests behave as they would after a kill at that instant and a restart; listed files are not damaged; repeating the request is harmless.',
 'every history of requests, every request that fails, every write at which it fails, every set of files the clean-up manages to remove, every content of the repository cache',
 'failing writes are hard to provoke and the failure instants, alone and combined over a history, cannot be enumerated',
 ['src/ferryd/core/pool.go:addPackageInternal', 'src/ferryd/core/repo_index.go:Index', 'src/ferryd/core/repo.go:AddPackage', 'src/ferryd/core/repo.go:DeleteRepo', 'src/libdb/leveldb.go:Update'])
p('C101',
 'Stored records read back as they were stored',
 "Every record written to the database (repositories, repository entries, pool entries with their metadata, skipped deltas, queued jobs, job history) reads back with the value it was written with, also by a later run of the daemon and whatever else was written meanwhile; the manager's database read through its bytes is exactly the database of records; storing a record fails only if it is gigabytes large; a release with other fields reads the fields it shares.",
 'every value of every stored type (zero values, nil and empty slices, nil pointers included), every numbering of types by the writing run, every later sequence of writes, every sequence of writes and deletes of the manager',
 'the values are unbounded and the encoding leaves out fields depending on their values; a test shows it for the records it writes',
 ['src/libdb/transcoder.go:EncodeType', 'src/libdb/transcoder.go:DecodeType', 'src/libdb/leveldb.go:PutObject', 'src/libdb/leveldb.go:GetObject', 'src/libdb/leveldb.go:Decode', 'src/ferryd/core/pool.go:PoolEntry', 'src/ferryd/core/repo.go:RepoEntry', 'src/ferryd/jobs/main.go:JobEntry', 'src/libeopkg/metadata.go:MetaPackage'])
p('C102',
 'Requests for different repositories do not interfere',
 'What a request does to its repository, and how it is answered, does not depend on requests made before it on repositories it neither changes nor copies from; two requests neither of which changes a repository the other changes or copies from can be made in either order: same answers, same repositories, records, index files and assets, same pool with the same reference counts.',
 'every reachable state, every pair of requests for different repositories, every environment',
 'a test runs two requests on one state; that they never meet through the shared pool must hold for every state of it',
 ['src/ferryd/core/manager.go:Manager', 'src/ferryd/core/pool.go:AddPackage', 'src/ferryd/core/pool.go:RefEntry', 'src/ferryd/core/pool.go:UnrefEntry', 'src/ferryd/core/repo.go:AddLocalPackage', 'src/ferryd/core/repo.go:RefPackage', 'src/ferryd/core/repo_index.go:Index'])
p('C103',
 'A request that reports an error was refused, or only its index is missing',
 'When a request reports an error, either it changed nothing at all (a refused pull may have copied asset files), or everything it asks for is done and only the public index is still the old one or half-made, exactly as if indexing alone had been requested and had failed; an import may also have stopped at the first file it cannot take (missing, unreadable, or not newer), in which case exactly the files before it are imported. Whether the compressors work or the files can be renamed changes nothing but the index files.',
 'every reachable state, every request and its arguments, every behaviour of the external tools',
 'the error can come from any of the steps, for any state and any combination of failing tools; a test fails one step on one state',
 ['src/ferryd/core/api.go:CreateRepo', 'src/ferryd/core/api.go:CloneRepo', 'src/ferryd/core/api.go:PullRepo', 'src/ferryd/core/api.go:AddPackages', 'src/ferryd/core/api.go:RemoveSource', 'src/ferryd/core/api.go:TrimPackages', 'src/ferryd/core/repo_index.go:Index', 'src/ferryd/core/repo.go:AddPackage'])
p('C104',
 'Producing a delta is all or nothing',
 "Whatever earlier productions of the delta left in its work directory, whichever step fails (no space, no xz, ...) and wherever the daemon is killed: a delta reported as done is staged complete, with exactly the contents C43 describes, and the work directory is gone; a failure leaves nothing in the staging area or the build area; at every instant the staging area holds nothing or the whole delta; and after a kill at most the second attempt succeeds. The work directory is the repository's own.",
 'every pair of packages, every leftover content of the work directory, every set of failing steps, every crash point',
 'there are some twenty steps, each with its own failure and crash point, and leftovers of any of them at the start; a test runs a production from an empty directory to the end',
 ['src/libeopkg/delta.go:NewDeltaProducer', 'src/libeopkg/delta.go:Commit', 'src/libeopkg/delta.go:produceInstallBall', 'src/libeopkg/delta.go:copyInstallPartial', 'src/libeopkg/delta.go:Close', 'src/libeopkg/package.go:ExtractTarball', 'src/libeopkg/util.go:XzFile', 'src/libeopkg/util.go:UnxzFile', 'src/ferryd/core/util.go:ProduceDelta', 'src/ferryd/core/util.go:LinkOrCopyFile', 'src/ferryd/core/repo.go:CreateDelta'])
p('C105',
 'The file of the index says what the metadata says',
 'For every set of packages, components, groups and distribution a repository has, the bytes written as eopkg-index.xml are a well-formed XML document in which every one of them has its element, with every field, attribute, number and translation under its name, in order, and with exactly the text of the metadata; fields that are absent are absent.',
 "every index: any number of packages, dependencies, updates, deltas, translations, and every text over the characters of XML, of any length, with any division of the output over the buffered writer's pieces",
 'the file passes three writers (XML encoder, a buffer of 4096 bytes, a writer that rewrites symbols); whether a text survives depends on all of its characters and on where they fall in the buffer',
 ['src/ferryd/core/repo_index.go:emitIndex', 'src/ferryd/core/repo_index.go:emitIndexPackage', 'src/ferryd/core/escape.go:EscapedWriter', 'src/libeopkg/metadata.go:MetaPackage', 'src/libeopkg/main.go:LocalisedField', 'src/libeopkg/components.go:Component', 'src/libeopkg/groups.go:Group', 'src/libeopkg/distribution.go:Distribution'])
p('C106',
 'A client reading the index finds exactly the published packages, and can download them',
 'When indexing a repository succeeds, the bytes of eopkg-index.xml, read as XML, contain one Package element for each listed and not obsolete name and no other; it shows name, URI, hash, size, history, release, architecture and source of the published version and offers exactly the deltas that lead to it; and the file named by each URI is in the repository with that size and hash.',
 'every history of requests, uploads and crashes (completed requests for the download part), every repository and catalog whose texts are ASCII, every order of maps and of equal items',
 'the path from the database to a client crosses the delta selection, the sorting, the XML encoder, a buffer and an escaping writer; that nothing is lost, added or moved on the way is a statement about all repositories',
 ['src/ferryd/core/repo_index.go:emitIndex', 'src/ferryd/core/repo.go:Repository', 'src/ferryd/core/pool.go:Pool', 'src/ferryd/core/escape.go:EscapedWriter', 'src/libeopkg/metadata.go:MetaPackage'])
p('C107',
 'metadata.xml and the asset files are read as they are written',
 "Reading a package's metadata.xml ends in one of three ways: it fails, and then some attribute or element that should hold a number holds none; it panics, and then there is no Summary or no Description; or it gives a package in which every field has the value that the elements and attributes of its name state (the last one where one value is kept, all in order for lists, empty when absent), with blanks around translations removed and the first translation without a language taken as English. distribution.xml, components.xml and groups.xml are always read as they are written.",
 'every tree of XML elements, with any nesting, repetition, order, prefixes, missing and unknown elements',
 'the decoder fills structures by tags, pointers and paths while it walks a document of any shape and order; a test has a few documents, and a wrong tag, a dropped repeat or a lost field shows only for the documents that use it',
 ['src/libeopkg/metadata.go:MetaPackage', 'src/libeopkg/package.go:ReadMetadata', 'src/libeopkg/distribution.go:NewDistribution', 'src/libeopkg/components.go:NewComponents', 'src/libeopkg/groups.go:NewGroups', 'src/libeopkg/main.go:FixMissingLocalLanguage'])
p('C108',
 'The index says of a package what its own metadata.xml says, and of the assets what their files say',
 'For every package in an index, the Package element in the bytes of eopkg-index.xml, read as XML, states the same names, licenses, translations, dependencies, conflicts, replacements, provided files, history, installed size and source as the metadata.xml it was read from; and the distribution, components and groups state what their files say.',
 'every metadata.xml that is read, every index that holds the package and whose texts are ASCII',
 "what is lost between two documents is decided by two sets of struct tags, a decoder, an encoder and an escaping writer together; a field missing in one package of a test's collection does not show",
 ['src/libeopkg/metadata.go:MetaPackage', 'src/libeopkg/package.go:ReadMetadata', 'src/libeopkg/distribution.go:NewDistribution', 'src/libeopkg/components.go:NewComponents', 'src/libeopkg/groups.go:NewGroups', 'src/ferryd/core/repo_index.go:emitIndex', 'src/ferryd/core/pool.go:Pool'])
p('C109',
 'files.xml is read as it is written',
 "Reading a package's files.xml gives one record for each File element, in document order, with the path, type, size, owner, group, hash and mode that its elements state (the mode in octal, within 32 bits); it fails exactly when some File element has a size, owner or group that is no number or has no valid mode.",
 'every tree of XML elements, with any nesting, repetition, order, prefixes, missing and unknown elements',
 'a delta is produced from these records: a file that is dropped, merged with another or read with the hash of another loses its content in the delta, and only for packages of that shape; a test reads one package',
 ['src/libeopkg/files.go:File', 'src/libeopkg/files.go:File.initFileMode', 'src/libeopkg/package.go:ReadFiles'])
p('C110',
 'Whoever decodes the index gets back the packages that were indexed',
 'Decoding any Package element in the bytes of eopkg-index.xml with the same structures that metadata.xml is decoded with succeeds and gives the package that was indexed, field by field: translations with their languages, dependencies with their bounds, history, provided files, sizes, hash, URI and deltas. The one difference is an empty list that is present, which comes back as an absent one.',
 "every index, every package in it whose texts are ASCII, and every package of an index whose elements fit the writer's buffer if its summaries, descriptions and comments have no symbol characters; all numbers of 64 bits",
 "the encoder's tags, the escaping and the decoder's matching of names are inverse only together, for every combination of absent, empty and repeated fields; a test decodes the few packages it encodes",
 ['src/libeopkg/metadata.go:MetaPackage', 'src/ferryd/core/repo_index.go:emitIndex'])
W={
"C03":"the published version is recomputed incrementally on every insertion and removal; only an invariant covers all orders in which versions can come and go",
"C04":"a representation invariant has to survive every one of unboundedly many histories; a test checks the state after a few",
"C05":"the file is a hard link or a copy whose fate depends on the order of purges and links elsewhere; tests sample a few orders",
"C06":"it must hold for every set of package names and every obsolete list, including names that are the -dbginfo of an obsolete one",
"C07":"it must hold for every combination of source and target releases present in the repository",
"C11":"it says that nothing else changes, for every state the other repositories can be in; a test can only look at what it set up",
"C12":"packages may be shared between any number of repositories in any pattern, so the set of items that must survive is unbounded",
"C13":"it quantifies over every state in which a repository may or may not exist, including those left by earlier failures",
"C14":"it must hold for every content of the source repository, deltas included",
"C15":"it must hold for every pair of contents of source and target, overlapping in any way",
"C16":"it must hold for every content of the repository and every choice of source and release",
"C17":"it must hold for every content of both repositories and every choice of source and release",
"C18":"it relates the flag and the content of the index afterwards for every state before the request",
"C19":"the number of versions is unbounded and the library's sort is not stable, so ties may go either way",
"C20":"it must hold for every obsolete list and every set of installed names",
"C21":"it must hold for every state of the repository and every package file",
"C22":"a test would have to stop the process between every two durable writes of every operation in every state",
"C23":"a test would have to stop the process between every two durable writes of every operation in every state",
"C25":"it must hold for every entry an addition can meet: any number of versions and deltas, listed in any order",
"C26":"which files are links to the same data is decided by earlier history; tests do not sample aliased states",
"C27":"which files are links to the same data is decided by earlier history; tests do not sample aliased states",
"C28":"the queue may have any length, any history of claims and any byte order of keys",
"C29":"the schedule of workers decides who asks for a job between any two database accesses",
"C30":"the process may die between any two writes, at the claim, at the retirement or at start-up itself",
"C31":"the schedule of unboundedly many workers decides which job is running when",
"C32":"the history is a bounded window on an unbounded sequence of jobs; the corner cases lie at wrap-around and at equal timestamps",
"C33":"the process may die between any two writes of the retirement, in any state of the history",
"C34":"it must hold for every integer and every string a request can carry",
"C35":"it must hold for every kind of request and every parameter",
"C36":"it must hold for every content of the queue and every point in a job's life",
"C37":"it must hold for every pair of bucket names and keys, including ones that are prefixes of one another",
"C38":"it must hold for every body of a transaction and every point at which it can fail",
"C39":"it must hold for every sequence of reads and writes inside a transaction, on every database",
"C40":"it must hold for every set of keys already stored, including those left by earlier daemons",
"C41":"it must hold for every string a package may be called",
"C42":"it must hold for every pair of packages that agree or disagree in any of the fields",
"C43":"it must hold for every pair of file lists and every set of equal hashes among them",
"C44":"it must hold for every string that can appear as a name or path component",
"C45":"it must hold for every package metadata, including empty and adversarial names",
"C46":"it must hold for every byte string, valid UTF-8 or not",
"C47":"the writer is fed in chunks that may split a multi-byte character at any point",
"C48":"it must hold for every manifest, every set of files and every failure on the way",
"C49":"the failure may happen at any position of a list of any length",
"C50":"it must hold for every string that may be written in a manifest",
"C51":"two processes may interleave between any two system calls on the lock file",
"C52":"the lock file may have any previous content, longer or shorter than the new one",
"C53":"it must hold for every configured number of workers and every number of processors",
"C54":"it must hold for every directory tree, however deep, and every failure inside it",
"C55":"the failing interleaving needs two workers between two particular database accesses; schedules cannot be enumerated",
"C56":"it must hold after every history of operations, not only after the sampled ones",
"C57":"it must hold for every set of versions and every set of deltas already present",
"C58":"it must hold for every directory tree, however deep",
"C60":"it must hold after every history of operations, not only after the sampled ones",
"C64":"it must hold for every manifest and every set of files beside it",
}
for d in P:
    d["why_tests_cant"]=W.get(d["id"],d["why_tests_cant"])
with open(os.path.join(os.path.dirname(__file__), "..", "properties.jsonl"), "w") as f:
    for x in P:
        if not x["why_tests_cant"]: x["why_tests_cant"]="ranges over all transactions"
        f.write(json.dumps(x)+"\n")
print(len(P))
