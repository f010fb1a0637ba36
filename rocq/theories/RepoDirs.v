(** * RepoDirs: where a repository's files are, and what deleting it removes.
    The main model (Model.v) gives each repository name its own tree. This file
    models how the daemon turns names into paths, so that C98 can say for which
    names that is right. *)
From Verif Require Import Base Paths.
Open Scope string_scope. Open Scope list_scope.

(** The four directories of a repository. core/repo.go:34-46 (the constants),
    95-99 (Init), 125-131 (bakeRepo: filepath.Join of the base and the name) *)
Inductive kind := KRepo | KAssets | KDelta | KStage.
Definition kinds : list kind := [KRepo; KAssets; KDelta; KStage].
Definition component (k : kind) : string :=
  match k with KRepo => "repo" | KAssets => "assets" | KDelta => "deltaBuilds" | KStage => "deltaStaging" end.
Definition repo_dir (base : string) (k : kind) (id : string) : string := join (join base (component k)) id.

(** What is on disk: directories and files by their cleaned absolute path, and
    the names in the repository bucket. The cache of repository objects
    (core/repo.go:182-184) holds names of the bucket only and is left out. *)
Record disk := Disk { d_repos : list string; d_dirs : list string; d_files : list (string * string) }.

(** os.RemoveAll(p) removes p and everything below it. *)
Definition removed_by (p q : string) : bool := seqb q p || has_prefix (p ++ "/") q.

(** os.Stat succeeds: core/util.go:149-155 PathExists. A path exists if it is
    recorded or something below it is. *)
Definition path_exists (d : disk) (p : string) : bool :=
  existsb (removed_by p) (d_dirs d) || existsb (fun f => removed_by p (fst f)) (d_files d).

(** os.MkdirAll(p): p and all its parents. Simplification: it succeeds. *)
Definition ancestors (p : string) : list string :=
  let comps := split_slash p in
  map (fun n => join_slash (firstn n comps)) (seq 2 (List.length comps - 1)).
Definition mkdir_all (p : string) (d : disk) : disk := Disk (d_repos d) (ancestors p ++ d_dirs d) (d_files d).

(** core/repo.go:133-149: each of the four paths that does not exist yet *)
Definition bake (base id : string) (d : disk) : disk :=
  fold_left (fun d k => if path_exists d (repo_dir base k id) then d else mkdir_all (repo_dir base k id) d) kinds d.

(** core/repo.go:202-235 CreateRepo (also the first step of CloneRepo,
    core/api.go:198-209): refused if registered or if the directory in repo/ exists *)
Definition create (base id : string) (d : disk) : option disk :=
  if existsb (seqb id) (d_repos d) then None
  else if path_exists d (repo_dir base KRepo id) then None
  else Some (bake base id (Disk (id :: d_repos d) (d_dirs d) (d_files d))).

Definition remove_all (p : string) (d : disk) : disk :=
  Disk (d_repos d) (filter (fun q => negb (removed_by p q)) (d_dirs d))
       (filter (fun f => negb (removed_by p (fst f))) (d_files d)).

(** core/repo.go:239-315 DeleteRepo: the name leaves the bucket (285), then each
    of the four paths is removed if it exists (293-312). Simplifications: the
    packages are unreferenced in Model.v (their files are below the first
    path); RemoveAll succeeds (an error is only logged). *)
Definition delete (base id : string) (d : disk) : option disk :=
  if existsb (seqb id) (d_repos d) then
    Some (fold_left (fun d k => if path_exists d (repo_dir base k id) then remove_all (repo_dir base k id) d else d) kinds
            (Disk (filter (fun x => negb (seqb id x)) (d_repos d)) (d_dirs d) (d_files d)))
  else None.

(** A file is written below a directory of a registered repository (a package,
    an index file, an asset, a delta). core/repo.go:462-498 etc.: the path is
    filepath.Join of the directory and a relative path. *)
Definition write_file (base : string) (k : kind) (id rel content : string) (d : disk) : option disk :=
  if existsb (seqb id) (d_repos d) then
    let p := join (repo_dir base k id) rel in
    Some (Disk (d_repos d) (removelast (ancestors p) ++ d_dirs d) ((p, content) :: filter (fun f => negb (seqb p (fst f))) (d_files d)))
  else None.

Inductive dop := DCreate (id : string) | DDelete (id : string) | DWrite (k : kind) (id rel content : string).
(** A refused request changes nothing. *)
Definition dstep (base : string) (d : disk) (o : dop) : disk :=
  let r := match o with
           | DCreate id => create base id d
           | DDelete id => delete base id d
           | DWrite k id rel c => write_file base k id rel c d
           end in
  match r with Some d' => d' | None => d end.

(** core/repo.go:95-115 Init creates the first three base directories; the
    fourth comes with the first bakeRepo. [other]: whatever else is there (the
    pool, the databases, files of the operator). *)
Definition dstart (base : string) (other : list (string * string)) : disk :=
  fold_left (fun d k => mkdir_all (join base (component k)) d) [KRepo; KAssets; KDelta] (Disk [] [] other).
Definition drun (base : string) (other : list (string * string)) (l : list dop) : disk :=
  fold_left (dstep base) l (dstart base other).
