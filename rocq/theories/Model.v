(** * Model: the package pool, the repositories, the index and the Manager API

    Executable model of src/ferryd/core/{pool,repo,repo_index,api,util}.go.
    No proofs in this file. *)
From Verif Require Export Base Paths Assets.

(** ** Package metadata (libeopkg/metadata.go) *)

(** libeopkg/metadata.go:62-76 Update: release and version; other fields dropped *)
Record update := Update { u_rel : Z; u_ver : string }.

(** libeopkg/metadata.go:99-104 Delta: a delta offered by the index *)
Record drec := DRec { dr_from : Z; dr_uri : string; dr_size : N; dr_hash : string }.

(** libeopkg/metadata.go:108-150 MetaPackage. [m_rest] stands for all fields the
    code only carries along (summary, licences, dependencies, ...). *)
Record meta := Meta {
  m_name : string;
  m_src : string;              (* Source.Name *)
  m_hist : list update;        (* History *)
  m_drel : string;             (* DistributionRelease *)
  m_arch : string;             (* Architecture *)
  m_rest : string;
  m_deltas : list drec;        (* DeltaPackages; nil = [] *)
  m_size : N;                  (* PackageSize *)
  m_hash : string;             (* PackageHash *)
  m_uri : string               (* PackageURI *)
}.

(** libeopkg/metadata.go:158-160 GetRelease: index 0 of History, panics if empty *)
Definition get_release (m : meta) : res Z :=
  match m_hist m with [] => Panic | u :: _ => Ok (u_rel u) end.
(** libeopkg/metadata.go:163-165 GetVersion *)
Definition get_version (m : meta) : res string :=
  match m_hist m with [] => Panic | u :: _ => Ok (u_ver u) end.
(** libeopkg/metadata.go:153-155 GetID *)
Definition get_id (m : meta) : string := base (m_uri m).

(** core/pool.go:218-220: the three fields set when a file enters the pool;
    PackageURI = GetPathComponent() + "/" + ID *)
Definition set_index_bits (m : meta) (comp id hash : string) (size : N) : meta :=
  Meta (m_name m) (m_src m) (m_hist m) (m_drel m) (m_arch m) (m_rest m) (m_deltas m)
       size hash (comp ++ "/" ++ id)%string.
(** repo_index.go:161-163: DeltaPackages replaced in the emitted copy *)
Definition set_deltas (m : meta) (ds : list drec) : meta :=
  Meta (m_name m) (m_src m) (m_hist m) (m_drel m) (m_arch m) (m_rest m) ds
       (m_size m) (m_hash m) (m_uri m).

(** ** Database records *)

(** core/pool.go:46-51 DeltaInformation *)
Record dinfo := DInfo { d_frel : Z; d_from : string; d_trel : Z; d_to : string }.
(** core/pool.go:68-74 PoolEntry (SchemaVersion dropped) *)
Record pentry := PEntry { p_name : string; p_rc : N; p_meta : meta; p_delta : option dinfo }.
(** core/pool.go:55-59 DeltaSkipEntry *)
Record sentry := SEntry { k_name : string; k_delta : dinfo }.
(** core/repo.go:85-91 RepoEntry *)
Record entry := Entry { e_name : string; e_avail : list string; e_pub : string; e_deltas : list string }.

Definition set_rc (p : pentry) (n : N) : pentry := PEntry (p_name p) n (p_meta p) (p_delta p).

(** The typed view of the manager's database: buckets "repo", "repo"/ID/"package",
    "pool", "deltaSkip" (core/repo.go:47-51, core/pool.go:31-35). That the flat
    key space of libdb implements this view is proved in LibDb.v. *)
Record db := Db {
  d_repos : smap unit;
  d_ents : string -> smap entry;
  d_pool : smap pentry;
  d_skip : smap sentry
}.

Inductive dbop :=
| PutRepo (id : string)
| DelRepo (id : string)
| PutEnt (r : string) (e : entry)
| DelEnt (r n : string)
| PutPool (p : pentry)
| DelPool (id : string)
| PutSkip (k : sentry).

Definition op_key (o : dbop) : string :=
  match o with
  | PutRepo id | DelRepo id => id
  | PutEnt _ e => e_name e
  | DelEnt _ n => n
  | PutPool p => p_name p
  | DelPool id => id
  | PutSkip k => k_name k
  end.

Definition apply_op (d : db) (o : dbop) : db :=
  match o with
  | PutRepo id => Db (mput (d_repos d) id tt) (d_ents d) (d_pool d) (d_skip d)
  | DelRepo id => Db (mdel (d_repos d) id) (d_ents d) (d_pool d) (d_skip d)
  | PutEnt r e => Db (d_repos d) (fupd (d_ents d) r (mput (d_ents d r) (e_name e) e)) (d_pool d) (d_skip d)
  | DelEnt r n => Db (d_repos d) (fupd (d_ents d) r (mdel (d_ents d r) n)) (d_pool d) (d_skip d)
  | PutPool p => Db (d_repos d) (d_ents d) (mput (d_pool d) (p_name p) p) (d_skip d)
  | DelPool id => Db (d_repos d) (d_ents d) (mdel (d_pool d) id) (d_skip d)
  | PutSkip k => Db (d_repos d) (d_ents d) (d_pool d) (mput (d_skip d) (k_name k) k)
  end.

(** libdb/leveldb.go:89-92,106-109: reserved keys are refused by Put and Delete *)
Definition reserved (key : string) : bool :=
  has_prefix "|bucket|" key || has_prefix "|rootBucket|-" key.

(** ** Files

    Package files live in trees; a location is tree / directory / file name.
    Names point to inodes so that hard links alias. [TExt] is everything outside
    the managed trees (uploads), [TStage r] is deltaStaging/<r>.
    The repository root directory additionally holds the index files, and
    assets/<r> the asset files; both are plain name->content maps because they
    are never hard-linked. Directories are not represented, except the existence
    of repo/<id> ([f_dir]) which CreateRepo looks at; MkdirAll is therefore a
    no-op and RemovePackageParents is modelled separately (Trees.v). *)
Inductive tree := TExt | TPool | TRepo (r : string) | TStage (r : string).
Record loc := Loc { l_tree : tree; l_comp : string; l_id : string }.

Definition tree_eqb (a b : tree) : bool :=
  match a, b with
  | TExt, TExt | TPool, TPool => true
  | TRepo x, TRepo y | TStage x, TStage y => seqb x y
  | _, _ => false
  end.
Definition loc_eqb (a b : loc) : bool :=
  tree_eqb (l_tree a) (l_tree b) && seqb (l_comp a) (l_comp b) && seqb (l_id a) (l_id b).

Record fs := Fs {
  f_name : loc -> option nat;
  f_data : nat -> string;
  f_next : nat;
  f_root : string -> string -> option string;
  f_asset : string -> string -> option string;
  f_dir : string -> bool
}.

Definition nupd (f : loc -> option nat) (l : loc) (v : option nat) : loc -> option nat :=
  fun x => if loc_eqb x l then v else f x.
Definition dupd (f : nat -> string) (i : nat) (v : string) : nat -> string :=
  fun x => if Nat.eqb x i then v else f x.
Definition fs_set_name (f : fs) (l : loc) (v : option nat) : fs :=
  Fs (nupd (f_name f) l v) (f_data f) (f_next f) (f_root f) (f_asset f) (f_dir f).
Definition fs_write (f : fs) (i : nat) (v : string) : fs :=
  Fs (f_name f) (dupd (f_data f) i v) (f_next f) (f_root f) (f_asset f) (f_dir f).
Definition fs_create (f : fs) (l : loc) (v : string) : fs :=
  Fs (nupd (f_name f) l (Some (f_next f))) (dupd (f_data f) (f_next f) v) (S (f_next f))
     (f_root f) (f_asset f) (f_dir f).
Definition fs_set_root (f : fs) (r file : string) (v : option string) : fs :=
  Fs (f_name f) (f_data f) (f_next f) (fupd (f_root f) r (fupd (f_root f r) file v)) (f_asset f) (f_dir f).
Definition fs_set_asset (f : fs) (r file : string) (v : option string) : fs :=
  Fs (f_name f) (f_data f) (f_next f) (f_root f) (fupd (f_asset f) r (fupd (f_asset f r) file v)) (f_dir f).
Definition fs_set_dir (f : fs) (r : string) (b : bool) : fs :=
  Fs (f_name f) (f_data f) (f_next f) (f_root f) (f_asset f) (fupd (f_dir f) r b).
(* os.RemoveAll(repo/<r>) *)
Definition fs_rm_repo (f : fs) (r : string) : fs :=
  Fs (fun l => if tree_eqb (l_tree l) (TRepo r) then None else f_name f l) (f_data f) (f_next f)
     (fupd (f_root f) r (fun _ => None)) (f_asset f) (fupd (f_dir f) r false).
(* os.RemoveAll(assets/<r>) *)
Definition fs_rm_asset (f : fs) (r : string) : fs :=
  Fs (f_name f) (f_data f) (f_next f) (f_root f) (fupd (f_asset f) r (fun _ => None)) (f_dir f).
(* os.RemoveAll(deltaStaging/<r>) *)
Definition fs_rm_stage (f : fs) (r : string) : fs :=
  Fs (fun l => if tree_eqb (l_tree l) (TStage r) then None else f_name f l) (f_data f) (f_next f)
     (f_root f) (f_asset f) (f_dir f).

Definition file_content (f : fs) (l : loc) : option string :=
  match f_name f l with Some i => Some (f_data f i) | None => None end.

(** ** State and execution *)
Record state := St {
  st_db : db;
  st_fs : fs;
  st_cache : string -> bool;       (* RepositoryManager.repos, repo.go:70 (volatile) *)
  st_batch : list dbop             (* pending writes of the running Update (volatile) *)
}.

Definition init_db : db := Db mempty (fun _ => mempty) mempty mempty.
Definition init_fs : fs :=
  Fs (fun _ => None) (fun _ => EmptyString) 0 (fun _ _ => None) (fun _ _ => None) (fun _ => false).
Definition init : state := St init_db init_fs (fun _ => false) [].

(** Stopping or crashing the daemon and starting it again (manager.go:38-91,
    repo.go:95-115): cache and batch are gone, database and files stay. *)
Definition restart (s : state) : state := St (st_db s) (st_fs s) (fun _ => false) [].

(** An operation maps a state to: the state after each durable write, the final
    state, and the result. *)
Definition M (A : Type) : Type := state -> list state * state * res A.

Definition ret {A} (a : A) : M A := fun s => ([], s, Ok a).
Definition err {A} : M A := fun s => ([], s, Err).
Definition panic {A} : M A := fun s => ([], s, Panic).
Definition lift {A} (r : res A) : M A := fun s => ([], s, r).
Definition bind {A B} (m : M A) (k : A -> M B) : M B := fun s =>
  match m s with
  | (t1, s1, Ok a) => match k a s1 with (t2, s2, r) => (t1 ++ t2, s2, r) end
  | (t1, s1, Err) => (t1, s1, Err)
  | (t1, s1, Panic) => (t1, s1, Panic)
  end.
Definition gets {A} (f : state -> A) : M A := fun s => ([], s, Ok (f s)).
(* volatile update: no crash point *)
Definition vol (f : state -> state) : M unit := fun s => ([], f s, Ok tt).
(* durable update: one crash point after it *)
Definition durable (f : state -> state) : M unit := fun s => ([f s], f s, Ok tt).
(* run [h] when [m] returns an error, then return the error *)
Definition on_err {A} (m : M A) (h : M unit) : M A := fun s =>
  match m s with
  | (t1, s1, Err) => match h s1 with (t2, s2, _) => (t1 ++ t2, s2, Err) end
  | x => x
  end.

Declare Scope m_scope.
Delimit Scope m_scope with M.
Notation "x <- m ;; k" := (bind m (fun x => k)) (at level 61, m at next level, right associativity) : m_scope.
Notation "m ;;; k" := (bind m (fun _ => k)) (at level 61, right associativity) : m_scope.
Open Scope m_scope.

Fixpoint forM {X} (l : list X) (f : X -> M unit) : M unit :=
  match l with [] => ret tt | x :: l' => f x ;;; forM l' f end.
Fixpoint foldM {X A} (l : list X) (f : A -> X -> M A) (a : A) : M A :=
  match l with [] => ret a | x :: l' => a' <- f a x ;; foldM l' f a' end.

Definition on_db (f : db -> db) (s : state) : state := St (f (st_db s)) (st_fs s) (st_cache s) (st_batch s).
Definition on_fs (f : fs -> fs) (s : state) : state := St (st_db s) (f (st_fs s)) (st_cache s) (st_batch s).
Definition on_cache (f : (string -> bool) -> string -> bool) (s : state) : state :=
  St (st_db s) (st_fs s) (f (st_cache s)) (st_batch s).
Definition on_batch (f : list dbop -> list dbop) (s : state) : state :=
  St (st_db s) (st_fs s) (st_cache s) (f (st_batch s)).

(** PutObject/DeleteObject on a plain handle ([b = false]) or inside Update
    ([b = true]); libdb/leveldb.go:89-116. *)
Definition db_write (b : bool) (o : dbop) : M unit :=
  if reserved (op_key o) then err
  else if b then vol (on_batch (fun q => q ++ [o]))
  else durable (on_db (fun d => apply_op d o)).

(** libdb/leveldb.go:178-193 Update: the batch is written in one step when the
    function succeeds and dropped when it fails. Reads inside see the database
    without the batch. (A panic leaves the batch unwritten.) *)
Definition update_tx (m : M unit) : M unit := fun s =>
  match m (on_batch (fun _ => []) s) with
  | (t, s1, Ok _) =>
      let s2 := St (fold_left apply_op (st_batch s1) (st_db s1)) (st_fs s1) (st_cache s1) [] in
      (t ++ [s2], s2, Ok tt)
  | (t, s1, r) => (t, on_batch (fun _ => []) s1, r)
  end.

(** ** Environment *)

(** The document the XML encoder is given *)
Record doc := Doc {
  doc_dist : option string;     (* content of distribution.xml *)
  doc_pkgs : list meta;
  doc_comps : option (list component);   (* None: no components.xml *)
  doc_groups : option (list group)
}.

Record env := Env {
  E_parse : string -> res meta;          (* Open + ReadMetadata, package.go:57-126 *)
  E_sha1 : string -> string;
  E_sha256 : string -> string;
  E_linkable : tree -> tree -> bool;     (* same filesystem *)
  E_dist : string -> option (list string);   (* NewDistribution: the obsoletes, distribution.go:44-61 *)
  E_comps : string -> option (list component);   (* decoding components.xml, components.go:67-76 *)
  E_csort : list component -> list component;    (* sort.Sort(ComponentSort), components.go:78 *)
  E_groups : string -> option (list group);      (* decoding groups.xml, groups.go:57-66 *)
  E_gsort : list group -> list group;            (* sort.Sort(GroupSort), groups.go:67 *)
  E_xz : string -> string;
  E_zst : string -> string;
  E_render : doc -> string               (* XML encoding through EscapedWriter, repo_index.go:241-281 *)
}.

(** Outcome of everything nondeterministic within one call *)
Record oracle := Oracle {
  o_order : list (string * string) -> list (string * string);  (* map iteration order *)
  o_fail : string -> bool;        (* producing this temporary file fails *)
  o_rfail : string -> bool;       (* renaming this temporary file fails *)
  o_purge : res unit;             (* outcome of purgeCloudflare, see Purge.v *)
  o_sort : list meta -> list meta (* sort.Sort(sort.Reverse(PackageSet)) *)
}.

(** ** core/util.go *)

Section WithEnv.
Variable E : env.

(** os.Link: fails if the source is missing, the target exists, or they are on
    different filesystems. *)
Definition can_link (f : fs) (src dst : loc) : bool :=
  match f_name f src, f_name f dst with
  | Some _, None => E_linkable E (l_tree src) (l_tree dst)
  | _, _ => false
  end.

(** util.go:32-61 CopyFile. A missing source is reported as success (line 40-42).
    The target is truncated before the source is read, hence the copy between
    two names of one inode leaves it empty. *)
Definition copy_file (src dst : loc) : M unit :=
  f <- gets st_fs ;;
  match f_name f src with
  | None => ret tt
  | Some i =>
      match f_name f dst with
      | Some j => durable (on_fs (fun f => fs_write f j EmptyString))
      | None => durable (on_fs (fun f => fs_create f dst EmptyString))
      end ;;;
      durable (on_fs (fun f =>
        match f_name f dst with
        | Some j => fs_write f j (f_data f i)
        | None => f
        end))
  end.

(** util.go:66-74 LinkOrCopyFile (forceCopy is false at every call site) *)
Definition link_or_copy (src dst : loc) : M unit :=
  f <- gets st_fs ;;
  if can_link f src dst
  then durable (on_fs (fun f => fs_set_name f dst (f_name f src)))
  else copy_file src dst.

(** os.Remove of a package file; failing is only logged by all callers *)
Definition remove_file (l : loc) : M unit := durable (on_fs (fun f => fs_set_name f l None)).

(** ** core/pool.go *)

(** pool.go:111-119 GetEntry ([None] = error) *)
Definition pool_get (id : string) : M (option pentry) := gets (fun s => mget (d_pool (st_db s)) id).
(* GetEntry followed by "if err != nil return err" *)
Definition pool_get_or_err (id : string) : M pentry :=
  x <- pool_get id ;; match x with Some p => ret p | None => err end.

(** pool.go:143-147 GetMetaPoolPath *)
Definition pool_loc (comp id : string) : loc := Loc TPool comp id.

(** pool.go:187-236 addPackageInternal. [src] is pkg.Path; pkg.ID is its base
    name; [m] is the parsed metadata. *)
Definition pool_add_internal (src : loc) (m : meta) (delta : option dinfo) : M unit :=
  let id := l_id src in
  x <- pool_get id ;;
  match x with
  | Some p => db_write false (PutPool (set_rc p (p_rc p + 1)))
  | None =>
      f <- gets st_fs ;;
      match file_content f src with
      | None => err                                   (* os.Stat fails *)
      | Some st =>
          comp <- lift (path_component (m_src m)) ;;
          link_or_copy src (pool_loc comp id) ;;;
          f2 <- gets st_fs ;;
          match file_content f2 src with
          | None | Some EmptyString => err            (* FileSha1sum: mmap of an empty file fails *)
          | Some c =>
              let m' := set_index_bits m comp id (E_sha1 E c) (N.of_nat (String.length st)) in
              on_err (db_write false (PutPool (PEntry id 1 m' delta)))
                     (remove_file (pool_loc comp id))
          end
      end
  end.

(** pool.go:161-183 AddDelta *)
Definition pool_add_delta (src : loc) (m : meta) (from to : string) : M unit :=
  x <- pool_get (l_id src) ;;
  match x with
  | Some p => db_write false (PutPool (set_rc p (p_rc p + 1)))
  | None =>
      pf <- pool_get_or_err from ;;
      pt <- pool_get_or_err to ;;
      tr <- lift (get_release (p_meta pt)) ;;
      fr <- lift (get_release (p_meta pf)) ;;
      pool_add_internal src m (Some (DInfo fr from tr to))
  end.

(** pool.go:247-254 RefEntry *)
Definition pool_ref (id : string) : M unit :=
  p <- pool_get_or_err id ;;
  db_write false (PutPool (set_rc p (p_rc p + 1))).

(** uint64 decrement: 0 wraps *)
Definition rc_dec (n : N) : N := if N.eqb n 0 then 18446744073709551615 else N.pred n.

(** pool.go:259-289 UnrefEntry ([b]: inside Update) *)
Definition pool_unref (b : bool) (id : string) : M unit :=
  p <- pool_get_or_err id ;;
  let n := rc_dec (p_rc p) in
  if N.ltb 0 n then db_write b (PutPool (set_rc p n))
  else
    comp <- lift (path_component (m_src (p_meta p))) ;;
    remove_file (pool_loc comp id) ;;;
    db_write b (DelPool id).

(** pool.go:293-310 MarkDeltaFailed *)
Definition mark_delta_failed (id : string) (d : dinfo) : M unit :=
  x <- gets (fun s => mget (d_skip (st_db s)) id) ;;
  match x with
  | Some _ => ret tt
  | None => db_write false (PutSkip (SEntry id d))
  end.
(** pool.go:314-320 GetDeltaFailed *)
Definition get_delta_failed (s : state) (id : string) : bool := mhas (d_skip (st_db s)) id.

(** ** core/repo.go *)

(** repo.go:318-325 GetEntry *)
Definition ent_get (r n : string) : M (option entry) := gets (fun s => mget (d_ents (st_db s) r) n).
(* ForEach over a repository's package bucket: key order *)
Definition ent_list (r : string) : M (list (string * entry)) := gets (fun s => mlist (d_ents (st_db s) r)).

(** repo.go:125-154 bakeRepo: only repo/<id> is represented *)
Definition bake_repo (id : string) : M unit :=
  f <- gets st_fs ;;
  if f_dir f id then ret tt else durable (on_fs (fun f => fs_set_dir f id true)).

(** repo.go:177-198 GetRepo *)
Definition get_repo (id : string) : M unit :=
  c <- gets st_cache ;;
  if c id then ret tt
  else
    d <- gets st_db ;;
    if mhas (d_repos d) id then
      bake_repo id ;;; vol (on_cache (fun c => fupd c id true))
    else err.

(** repo.go:202-235 CreateRepo *)
Definition create_repo (id : string) : M unit :=
  c <- gets st_cache ;;
  d <- gets st_db ;;
  if c id || mhas (d_repos d) id then (get_repo id ;;; err)
  else
    f <- gets st_fs ;;
    if f_dir f id then err
    else
      db_write false (PutRepo id) ;;;
      bake_repo id ;;;
      vol (on_cache (fun c => fupd c id true)).

(** repo.go:454-486 removePackageInternal (and 490-492 removeDeltaInternal).
    Failures to remove files or parents are only logged. *)
Definition remove_internal (b : bool) (r id : string) : M unit :=
  x <- pool_get id ;;
  match x with
  | None => ret tt
  | Some p =>
      comp <- lift (path_component (m_src (p_meta p))) ;;
      remove_file (Loc (TRepo r) comp (p_name p)) ;;;
      pool_unref b id
  end.

(** repo.go:239-315 DeleteRepo *)
Definition delete_repo (id : string) : M unit :=
  get_repo id ;;;
  vol (on_cache (fun c => fupd c id false)) ;;;
  update_tx (
    es <- ent_list id ;;
    forM es (fun ke =>
      forM (e_avail (snd ke)) (remove_internal true id) ;;;
      forM (e_deltas (snd ke)) (remove_internal true id) ;;;
      db_write true (DelEnt id (e_name (snd ke)))) ;;;
    db_write true (DelRepo id)) ;;;
  durable (on_fs (fun f => fs_rm_repo f id)) ;;;
  durable (on_fs (fun f => fs_rm_asset f id)) ;;;
  durable (on_fs (fun f => fs_rm_stage f id)).

(** repo.go:620-668 buildSaneEntry; [None] = already included (nil).
    The new entry has no Deltas (line 624-628, 636-637 copy only Available and
    Published). *)
Definition build_sane_entry (r : string) (m : meta) (id : string) : M (option entry) :=
  x <- ent_get r (m_name m) ;;
  ap <- match x with
        | None => ret ([], id)
        | Some e =>
            y <- pool_get (e_pub e) ;;
            match y with
            | Some p =>
                nr <- lift (get_release m) ;;
                pr <- lift (get_release (p_meta p)) ;;
                ret (e_avail e, if Z.ltb pr nr then id else e_pub e)
            | None => ret (e_avail e, id)
            end
        end ;;
  if sin id (fst ap) then ret None
  else ret (Some (Entry (m_name m) (sort_strings (fst ap ++ [id])) (snd ap) [])).

(** repo.go:671-703 AddLocalPackage *)
Definition add_local_package (r : string) (src : loc) (m : meta) : M unit :=
  comp <- lift (path_component (m_src m)) ;;
  x <- build_sane_entry r m (l_id src) ;;
  match x with
  | None => ret tt
  | Some e =>
      pool_add_internal src m None ;;;
      link_or_copy (pool_loc comp (l_id src)) (Loc (TRepo r) comp (l_id src)) ;;;
      db_write false (PutEnt r e)
  end.

(** libeopkg Open + ReadMetadata of a file *)
Definition open_pkg (src : loc) : M meta :=
  f <- gets st_fs ;;
  match file_content f src with
  | None => err
  | Some c => lift (E_parse E c)
  end.

(** repo.go:707-750 AddPackage *)
Definition add_package (r : string) (src : loc) (strict : bool) : M unit :=
  m <- open_pkg src ;;
  if negb strict then add_local_package r src m
  else
    x <- ent_get r (m_name m) ;;
    match x with
    | None => add_local_package r src m
    | Some e =>
        p <- pool_get_or_err (e_pub e) ;;
        pr <- lift (get_release (p_meta p)) ;;
        nr <- lift (get_release m) ;;
        if Z.ltb nr pr then err
        else if Z.eqb pr nr then err
        else add_local_package r src m
    end.

(** repo.go:580-616 RefPackage *)
Definition ref_package (r id : string) : M unit :=
  p <- pool_get_or_err id ;;
  comp <- lift (path_component (m_src (p_meta p))) ;;
  x <- build_sane_entry r (p_meta p) id ;;
  match x with
  | None => ret tt
  | Some e =>
      pool_ref id ;;;
      link_or_copy (pool_loc comp id) (Loc (TRepo r) comp id) ;;;
      db_write false (PutEnt r e)
  end.

(** repo.go:334-386 RefDelta *)
Definition ref_delta (r id : string) : M unit :=
  p <- pool_get_or_err id ;;
  x <- ent_get r (m_name (p_meta p)) ;;
  match x with
  | None => err
  | Some e =>
      comp <- lift (path_component (m_src (p_meta p))) ;;
      if sin id (e_deltas e) then ret tt
      else
        pool_ref id ;;;
        link_or_copy (pool_loc comp id) (Loc (TRepo r) comp id) ;;;
        db_write false (PutEnt r (Entry (e_name e) (e_avail e) (e_pub e) (sort_strings (e_deltas e ++ [id]))))
  end.

(** repo.go:389-401 AddDelta and 406-451 AddLocalDelta *)
Definition add_delta (r : string) (src : loc) (from to : string) : M unit :=
  m <- open_pkg src ;;
  x <- ent_get r (m_name m) ;;
  match x with
  | None => err
  | Some e =>
      comp <- lift (path_component (m_src m)) ;;
      if sin (l_id src) (e_deltas e) then ret tt
      else
        pool_add_delta src m from to ;;;
        link_or_copy (pool_loc comp (l_id src)) (Loc (TRepo r) comp (l_id src)) ;;;
        db_write false (PutEnt r (Entry (e_name e) (e_avail e) (e_pub e) (sort_strings (e_deltas e ++ [l_id src]))))
  end.

(** repo.go:499-577 UnrefPackage. A nil Delta of a listed delta is dereferenced
    (line 531): panic. *)
Definition unref_deltas (r id : string) (ds : list string) : M (list string) :=
  foldM ds (fun keep d =>
    p <- pool_get_or_err d ;;
    match p_delta p with
    | None => panic
    | Some di =>
        if seqb (d_from di) id || seqb (d_to di) id
        then (remove_internal false r (p_name p) ;;; ret keep)
        else ret (keep ++ [p_name p])
    end) [].

(* repo.go:545-560: (remaining IDs, highest release so far, its ID) *)
Definition unref_avail (id : string) (av : list string) : M (list string * Z * string) :=
  foldM av (fun acc a =>
    if seqb a id then ret acc
    else
      p <- pool_get_or_err a ;;
      rel <- lift (get_release (p_meta p)) ;;
      match acc with
      | (keep, hi, hid) =>
          if Z.ltb hi rel then ret (keep ++ [a], rel, a) else ret (keep ++ [a], hi, hid)
      end) ([], 0%Z, EmptyString).

Definition unref_package (r id : string) : M unit :=
  p <- pool_get_or_err id ;;
  x <- ent_get r (m_name (p_meta p)) ;;
  match x with
  | None => err
  | Some e =>
      remove_internal false r id ;;;
      ds <- unref_deltas r id (e_deltas e) ;;
      av <- unref_avail id (e_avail e) ;;
      match av with
      | (keep, _, hid) =>
          match keep with
          | [] => db_write false (DelEnt r (e_name e))
          | _ => db_write false (PutEnt r (Entry (e_name e) (sort_strings keep) hid (sort_strings ds)))
          end
      end
  end.

(** repo.go:755-772 GetPackageNames *)
Definition get_package_names (r : string) : M (list string) :=
  es <- ent_list r ;; ret (map (fun ke => e_name (snd ke)) es).

(** repo.go:775-792 GetPackages (a missing entry is an error: err is returned) *)
Definition get_packages (r n : string) : M (list meta) :=
  x <- ent_get r n ;;
  match x with
  | None => err
  | Some e => foldM (e_avail e) (fun acc id => p <- pool_get_or_err id ;; ret (acc ++ [p_meta p])) []
  end.

(** repo.go:828-839 HasDelta *)
Definition has_delta (r n id : string) : M bool :=
  x <- ent_get r n ;;
  match x with None => err | Some e => ret (sin id (e_deltas e)) end.

(** repo.go:842-867 pullAssets: CopyFile truncates the target first, so copying
    an asset onto itself empties it. *)
Definition asset_names : list string := ["distribution.xml"; "components.xml"; "groups.xml"].
Definition pull_assets (r src : string) : M unit :=
  forM asset_names (fun a =>
    f <- gets st_fs ;;
    match f_asset f src a with
    | None => ret tt
    | Some _ =>
        durable (on_fs (fun f => fs_set_asset f r a (Some EmptyString))) ;;;
        durable (on_fs (fun f => fs_set_asset f r a (f_asset f src a)))
    end).

(** repo.go:871-924 CloneFrom *)
Definition clone_from (r src : string) (full : bool) : M unit :=
  pull_assets r src ;;;
  es <- ent_list src ;;
  if full then
    forM (flat_map (fun ke => e_avail (snd ke)) es) (ref_package r) ;;;
    forM (flat_map (fun ke => e_deltas (snd ke)) es) (ref_delta r)
  else forM (map (fun ke => e_pub (snd ke)) es) (ref_package r).

(** repo.go:948-1016 PullFrom: first collect (ID to copy, name changed) *)
Definition pull_collect (r : string) (es : list (string * entry)) : M (list (string * string)) :=
  foldM es (fun acc ke =>
    let e := snd ke in
    x <- ent_get r (e_name e) ;;
    match x with
    | None => ret (acc ++ [(e_pub e, e_name e)])
    | Some le =>
        tip <- pool_get_or_err (e_pub e) ;;
        our <- pool_get_or_err (e_pub le) ;;
        tr <- lift (get_release (p_meta tip)) ;;
        orl <- lift (get_release (p_meta our)) ;;
        let acc' := if Z.ltb orl tr then acc ++ [(e_pub e, e_name e)] else acc in
        if Z.ltb tr orl then err else ret acc'
    end) [].
Definition pull_from (r src : string) : M (list string) :=
  pull_assets r src ;;;
  es <- ent_list src ;;
  todo <- pull_collect r es ;;
  forM (map fst todo) (ref_package r) ;;;
  ret (map snd todo).

(** repo.go:1034-1055 and 1091-1112: IDs of a repository whose source and
    release match *)
Definition match_source (r source : string) (release : Z) : M (list string) :=
  es <- ent_list r ;;
  foldM (flat_map (fun ke => e_avail (snd ke)) es) (fun acc id =>
    p <- pool_get_or_err id ;;
    if negb (seqb (m_src (p_meta p)) source) then ret acc
    else if Z.ltb 0 release then
      rel <- lift (get_release (p_meta p)) ;;
      if Z.eqb rel release then ret (acc ++ [id]) else ret acc
    else ret (acc ++ [id])) [].

(** repo.go:1024-1077 RemoveSource *)
Definition remove_source (r source : string) (release : Z) : M unit :=
  ids <- match_source r source release ;;
  match ids with
  | [] => err
  | _ => forM ids (unref_package r)
  end.

(** repo.go:1081-1133 CopySourceFrom *)
Definition copy_source_from (r src source : string) (release : Z) : M unit :=
  ids <- match_source src source release ;;
  match ids with
  | [] => err
  | _ => forM ids (ref_package r)
  end.

(** repo_index.go:35-51 initDistribution; the obsolete list, [None] = no
    distribution.xml. r.dist is set anew by every caller, so it is a value here. *)
Definition init_distribution (r : string) : M (option (list string)) :=
  f <- gets st_fs ;;
  match f_asset f r "distribution.xml" with
  | None => ret None
  | Some c => match E_dist E c with Some o => ret (Some o) | None => err end
  end.
(** distribution.go:65-70 IsObsolete, guarded by "r.dist != nil" *)
Definition is_obsolete (dist : option (list string)) (n : string) : bool :=
  match dist with None => false | Some o => sin n o end.
(** repo.go:1183-1186, repo_index.go:177-180: drop one "-dbginfo" suffix *)
Definition strip_dbginfo (n : string) : string :=
  if has_suffix "-dbginfo" n then stake (String.length n - 8) n else n.

(** repo.go:1142-1214 TrimObsolete. Within an entry the first available package
    whose (stripped) name is obsolete ends the scan of that entry, and it is
    removed only if the stripped name differs from the entry name. *)
Fixpoint trim_obs_scan (dist : option (list string)) (ename : string) (av : list string) : M (list string) :=
  match av with
  | [] => ret []
  | id :: rest =>
      p <- pool_get_or_err id ;;
      let nom := strip_dbginfo (m_name (p_meta p)) in
      if is_obsolete dist nom
      then ret (if seqb nom ename then [] else [id])
      else trim_obs_scan dist ename rest
  end.
Definition trim_obsolete (r : string) : M unit :=
  dist <- init_distribution r ;;
  match dist with
  | None => err
  | Some _ =>
      es <- ent_list r ;;
      ids <- foldM es (fun acc ke =>
               l <- trim_obs_scan dist (e_name (snd ke)) (e_avail (snd ke)) ;; ret (acc ++ l)) [] ;;
      forM ids (unref_package r)
  end.

(** sort.Sort calls Less, hence GetRelease, on at least one pair whenever there
    are two or more elements; a missing history then panics. Simplification:
    panics iff there are >= 2 elements and one has no history. *)
Definition sort_guard (l : list meta) : res unit :=
  if (2 <=? List.length l) && existsb (fun m => match m_hist m with [] => true | _ => false end) l
  then Panic else Ok tt.

(** repo.go:1219-1281 TrimPackages *)
Definition trim_packages (o : oracle) (r : string) (maxkeep : Z) : M unit :=
  if Z.ltb maxkeep 1 then err
  else
    es <- ent_list r ;;
    ids <- foldM es (fun acc ke =>
             let e := snd ke in
             if Z.ltb (Z.of_nat (List.length (e_avail e))) maxkeep then ret acc
             else
               cs <- foldM (e_avail e) (fun l id => p <- pool_get_or_err id ;; ret (l ++ [p_meta p])) [] ;;
               lift (sort_guard cs) ;;;
               let old := skipn (Z.to_nat maxkeep) (o_sort o cs) in
               ret (acc ++ filter (fun id => negb (seqb id (e_pub e))) (map get_id old))) [] ;;
    forM ids (unref_package r).

(** ** core/repo_index.go *)

(** repo_index.go:127-166 pushDeltaPackages: the metadata as emitted. If no delta
    applies, DeltaPackages keeps whatever the pool entry has. *)
Definition push_deltas (r : string) (m : meta) : M meta :=
  x <- ent_get r (m_name m) ;;
  match x with
  | None => err
  | Some e =>
      ds <- foldM (e_deltas e) (fun acc id =>
              p <- pool_get_or_err id ;;
              match p_delta p with
              | None => err
              | Some di =>
                  rel <- lift (get_release m) ;;
                  if Z.eqb (d_trel di) rel
                  then ret (acc ++ [DRec (d_frel di) (m_uri (p_meta p)) (m_size (p_meta p)) (m_hash (p_meta p))])
                  else ret acc
              end) [] ;;
      ret (match ds with [] => m | _ => set_deltas m ds end)
  end.

(** repo_index.go:168-214 emitIndexPackage *)
Definition emit_package (r : string) (dist : option (list string)) (p : pentry) : M (list meta) :=
  if is_obsolete dist (strip_dbginfo (m_name (p_meta p))) then ret []
  else m <- push_deltas r (p_meta p) ;; ret [m].

(** components.go:66-88 NewComponents, groups.go:56-74 NewGroups *)
Definition new_components (c : string) : res (list component) := load_asset (E_comps E) (E_csort E) fix_component c.
Definition new_groups (c : string) : res (list group) := load_asset (E_groups E) (E_gsort E) fix_group c.
(** repo_index.go:66-93 emitComponents and 97-123 emitGroups: asset files that do
    not parse are an error, incomplete ones a panic, missing ones are skipped *)
Definition asset_part {A} (load : string -> res (list A)) (r a : string) : M (option (list A)) :=
  f <- gets st_fs ;;
  match f_asset f r a with
  | None => ret None
  | Some c => l <- lift (load c) ;; ret (Some l)
  end.
(** repo_index.go:218-282 emitIndex (without the file) *)
Definition emit_index (r : string) (dist : option (list string)) : M doc :=
  es <- ent_list r ;;
  let ids := sort_strings (map (fun ke => e_pub (snd ke))
               (filter (fun ke => negb (is_obsolete dist (e_name (snd ke)))) es)) in
  f <- gets st_fs ;;
  pkgs <- foldM ids (fun acc id =>
            p <- pool_get_or_err id ;;
            l <- emit_package r dist p ;;
            ret (acc ++ l)) [] ;;
  comps <- asset_part new_components r "components.xml" ;;
  groups <- asset_part new_groups r "groups.xml" ;;
  ret (Doc (match dist with None => None | Some _ => f_asset f r "distribution.xml" end) pkgs comps groups).

Definition root_get (r file : string) : M (option string) := gets (fun s => f_root (st_fs s) r file).
Definition root_set (r file : string) (v : option string) : M unit :=
  durable (on_fs (fun f => fs_set_root f r file v)).

(** ioutil.WriteFile / os.Create + write: truncated first, then complete; the
    oracle may make it fail in between *)
Definition root_write (o : oracle) (r file content : string) : M unit :=
  root_set r file (Some EmptyString) ;;;
  if o_fail o file then err else root_set r file (Some content).

(** util.go:130-146 WriteSha1sum/WriteSha256sum: mmap of an empty or missing file fails *)
Definition write_sum (o : oracle) (h : string -> string) (r inp out : string) : M unit :=
  c <- root_get r inp ;;
  match c with
  | None | Some EmptyString => err
  | Some c => root_write o r out (h c)
  end.

(** libeopkg/util.go:56-69, 91-104 XzFile/ZstdFile with -k: the tools refuse to
    overwrite an existing output (no -f; zstd asks on a closed stdin) *)
Definition compress (o : oracle) (z : string -> string) (r inp out : string) : M unit :=
  c <- root_get r inp ;;
  x <- root_get r out ;;
  match c, x with
  | Some c, None => root_write o r out (z c)
  | _, _ => err
  end.

Definition remove_all (r : string) (files : list string) : M unit :=
  forM files (fun k => root_set r k None).

(** The production steps of Index in order, each with the mapping registered
    just before it (repo_index.go:308-401) *)
Definition f_index : string := "eopkg-index.xml.new".
Definition index_stages (o : oracle) (r : string) (dist : option (list string))
  : list (string * string * M unit) :=
  [ (f_index, "eopkg-index.xml",
       root_set r f_index (Some EmptyString) ;;;
       d <- emit_index r dist ;;
       if o_fail o f_index then err else root_set r f_index (Some (E_render E d)));
    ("eopkg-index.xml.sha1sum.new", "eopkg-index.xml.sha1sum",
       write_sum o (E_sha1 E) r f_index "eopkg-index.xml.sha1sum.new");
    ("eopkg-index.xml.sha256sum.new", "eopkg-index.xml.sha256sum",
       write_sum o (E_sha256 E) r f_index "eopkg-index.xml.sha256sum.new");
    ("eopkg-index.xml.new.xz", "eopkg-index.xml.xz",
       compress o (E_xz E) r f_index "eopkg-index.xml.new.xz");
    ("eopkg-index.xml.xz.sha1sum.new", "eopkg-index.xml.xz.sha1sum",
       write_sum o (E_sha1 E) r "eopkg-index.xml.new.xz" "eopkg-index.xml.xz.sha1sum.new");
    ("eopkg-index.xml.xz.sha256sum.new", "eopkg-index.xml.xz.sha256sum",
       write_sum o (E_sha256 E) r "eopkg-index.xml.new.xz" "eopkg-index.xml.xz.sha256sum.new");
    ("eopkg-index.xml.new.zst", "eopkg-index.xml.zst",
       compress o (E_zst E) r f_index "eopkg-index.xml.new.zst");
    ("eopkg-index.xml.zst.sha1sum.new", "eopkg-index.xml.zst.sha1sum",
       write_sum o (E_sha1 E) r "eopkg-index.xml.new.zst" "eopkg-index.xml.zst.sha1sum.new");
    ("eopkg-index.xml.zst.sha256sum.new", "eopkg-index.xml.zst.sha256sum",
       write_sum o (E_sha256 E) r "eopkg-index.xml.new.zst" "eopkg-index.xml.zst.sha256sum.new") ].

(* run the stages; on an error remove every temporary file registered so far
   (repo_index.go:296-307) *)
Fixpoint run_stages (r : string) (done : list (string * string)) (st : list (string * string * M unit))
  : M (list (string * string)) :=
  match st with
  | [] => ret done
  | (k, v, m) :: rest =>
      let done' := done ++ [(k, v)] in
      on_err m (remove_all r (map fst done')) ;;;
      run_stages r done' rest
  end.

(** os.Rename inside the repository root *)
Definition rename (o : oracle) (r k v : string) : M unit :=
  c <- root_get r k ;;
  match c with
  | None => err
  | Some _ =>
      if o_rfail o k then err
      else durable (on_fs (fun f => fs_set_root (fs_set_root f r v (f_root f r k)) r k None))
  end.

(** repo_index.go:286-416 Index *)
Definition index (o : oracle) (r : string) : M unit :=
  dist <- init_distribution r ;;
  mapping <- run_stages r [] (index_stages o r dist) ;;
  on_err (forM (o_order o mapping) (fun kv => rename o r (fst kv) (snd kv)) ;;;
          lift (o_purge o))
         (remove_all r (map fst mapping)).

(** ** core/api.go *)

(** api.go:198-205 Index *)
Definition api_index (o : oracle) (r : string) : M unit := get_repo r ;;; index o r.
(** api.go:29-35 CreateRepo *)
Definition api_create (o : oracle) (id : string) : M unit := create_repo id ;;; api_index o id.
(** api.go:166-168 DeleteRepo *)
Definition api_delete (id : string) : M unit := delete_repo id.
(** api.go:42-63 CloneRepo *)
Definition api_clone (o : oracle) (src new : string) (full : bool) : M unit :=
  get_repo src ;;; create_repo new ;;; clone_from new src full ;;; api_index o new.
(** api.go:66-92 PullRepo *)
Definition api_pull (o : oracle) (src tgt : string) : M (list string) :=
  get_repo src ;;; get_repo tgt ;;;
  ch <- pull_from tgt src ;;
  api_index o tgt ;;; ret ch.
(** api.go:96-107 RemoveSource *)
Definition api_remove_source (o : oracle) (r source : string) (rel : Z) : M unit :=
  get_repo r ;;; remove_source r source rel ;;; api_index o r.
(** api.go:110-130 CopySource: the index is rebuilt when skipIndex is TRUE (125-129) *)
Definition api_copy_source (o : oracle) (src tgt source : string) (rel : Z) (skip_index : bool) : M unit :=
  get_repo src ;;; get_repo tgt ;;;
  copy_source_from tgt src source rel ;;;
  if skip_index then api_index o tgt else ret tt.
(** api.go:133-144 TrimObsolete *)
Definition api_trim_obsolete (o : oracle) (r : string) : M unit :=
  get_repo r ;;; trim_obsolete r ;;; api_index o r.
(** api.go:147-158 TrimPackages *)
Definition api_trim_packages (o : oracle) (r : string) (k : Z) : M unit :=
  get_repo r ;;; trim_packages o r k ;;; api_index o r.
(** api.go:182-195 AddPackages *)
Definition api_add_packages (o : oracle) (r : string) (pkgs : list loc) (strict : bool) : M unit :=
  get_repo r ;;; forM pkgs (fun p => add_package r p strict) ;;; api_index o r.
(** api.go:251-258 AddDelta *)
Definition api_add_delta (r : string) (src : loc) (from to : string) : M unit :=
  get_repo r ;;; add_delta r src from to.
(** api.go:261-267 RefDelta *)
Definition api_ref_delta (r id : string) : M unit := get_repo r ;;; ref_delta r id.

(** ** Histories *)

(** One request to the Manager *)
Inductive op :=
| OpCreate (id : string)
| OpDelete (id : string)
| OpClone (src new : string) (full : bool)
| OpPull (src tgt : string)
| OpRemoveSource (r source : string) (rel : Z)
| OpCopySource (src tgt source : string) (rel : Z) (skip_index : bool)
| OpTrimObsolete (r : string)
| OpTrimPackages (r : string) (k : Z)
| OpAdd (r : string) (pkgs : list loc) (strict : bool)
| OpIndex (r : string)
| OpAddDelta (r : string) (src : loc) (from to : string)
| OpRefDelta (r id : string)
| OpMarkFailed (id : string) (d : dinfo).

Definition run_op (o : oracle) (p : op) : M (list string) :=
  match p with
  | OpCreate id => api_create o id ;;; ret []
  | OpDelete id => api_delete id ;;; ret []
  | OpClone src new full => api_clone o src new full ;;; ret []
  | OpPull src tgt => api_pull o src tgt
  | OpRemoveSource r source rel => api_remove_source o r source rel ;;; ret []
  | OpCopySource src tgt source rel sk => api_copy_source o src tgt source rel sk ;;; ret []
  | OpTrimObsolete r => api_trim_obsolete o r ;;; ret []
  | OpTrimPackages r k => api_trim_packages o r k ;;; ret []
  | OpAdd r pkgs strict => api_add_packages o r pkgs strict ;;; ret []
  | OpIndex r => api_index o r ;;; ret []
  | OpAddDelta r src from to => api_add_delta r src from to ;;; ret []
  | OpRefDelta r id => api_ref_delta r id ;;; ret []
  | OpMarkFailed id d => mark_delta_failed id d ;;; ret []
  end.

Definition trace_of {A} (x : list state * state * res A) : list state := fst (fst x).
Definition final_of {A} (x : list state * state * res A) : state := snd (fst x).
Definition result_of {A} (x : list state * state * res A) : res A := snd x.

(** One event of a history. A request may run to its end ([EvOp]; a panic kills
    the daemon, which is then restarted), or the daemon may crash after any of
    its durable writes ([EvCrash]: [n]-th trace state) and be restarted. The
    others are the outside world: files put (as new inodes) into / removed from
    the upload or staging area, asset files edited, a stray directory created. *)
Inductive event :=
| EvOp (o : oracle) (p : op)
| EvCrash (o : oracle) (p : op) (n : nat)
| EvRestart
| EvPut (l : loc) (content : string)
| EvDel (l : loc)
| EvAsset (r a : string) (content : option string)
| EvMkdir (r : string).

Definition ev_step (s : state) (e : event) : state :=
  match e with
  | EvOp o p =>
      let x := run_op o p s in
      match result_of x with Panic => restart (final_of x) | _ => final_of x end
  | EvCrash o p n =>
      restart (nth n (s :: trace_of (run_op o p s)) (final_of (run_op o p s)))
  | EvRestart => restart s
  | EvPut l c =>
      match l_tree l with
      | TExt | TStage _ => on_fs (fun f => fs_create f l c) s
      | _ => s
      end
  | EvDel l =>
      match l_tree l with
      | TExt | TStage _ => on_fs (fun f => fs_set_name f l None) s
      | _ => s
      end
  | EvAsset r a c => on_fs (fun f => fs_set_asset f r a c) s
  | EvMkdir r => on_fs (fun f => fs_set_dir f r true) s
  end.

Definition run_history (h : list event) : state := fold_left ev_step h init.

End WithEnv.
