(** * Conc: several workers of the job processor running at the same time

    Models the database reads and writes, mutex operations and the repository
    cache of src/ferryd/core as atomic steps of concurrently running workers
    (src/ferryd/jobs/worker.go: one sequential worker and several workers for
    delta jobs; every handler calls the manager with the plain database handle,
    api.go:30-300, so each Get/Put/Delete is its own LevelDB operation).

    Simplifications: of package files only the presence of the pool's file is
    kept ([KFile]), because RefEntry/UnrefEntry create and remove it and the
    link into the repository needs it; metadata is reduced to name, release and
    delta mapping; failures of the disk are not modelled; RepoEntry lists and the
    pool counter are values read and written as a whole, as in the code. *)
From Verif Require Import Base.
From Coq Require Import Permutation.
Open Scope string_scope. Open Scope list_scope.

(** ** Shared memory *)
Inductive key :=
| KPool (id : string)            (* pool bucket, pool.go:111-125 *)
| KFile (id : string)            (* the file in the pool directory *)
| KRepo (r name : string)        (* RepoEntry of a package name, repo.go:318-331 *)
| KCache (r : string).           (* RepositoryManager.repos[r], repo.go:177-199 *)

(** PoolEntry (pool.go:60-76), reduced. RefCount is a uint64 in the code; it is at
    least 1 in every stored entry, so [pred] is the code's decrement. *)
Record pent := PEnt { pe_refs : nat; pe_name : string; pe_rel : nat; pe_delta : option (string * string) }.
(** RepoEntry (repo.go:42-56) *)
Record rent := REnt { re_avail : list string; re_pub : string; re_deltas : list string }.
Inductive val := VPool (p : pent) | VRepo (e : rent) | VFile | VObj (o : nat).

Definition key_eqb (a b : key) : bool :=
  match a, b with
  | KPool x, KPool y | KFile x, KFile y | KCache x, KCache y => seqb x y
  | KRepo r n, KRepo r' n' => seqb r r' && seqb n n'
  | _, _ => false
  end.
Definition memory := key -> option val.
Definition upd (m : memory) (k : key) (v : option val) : memory :=
  fun k' => if key_eqb k k' then v else m k'.

(** Mutexes: the insertMut and indexMut of a Repository object (repo.go:80-81,
    132-133) and repoLock (repo.go:65). Objects are numbered. *)
Inductive mutex := MInsert (o : nat) | MIndex (o : nat) | MRepos.
Definition mutex_eqb (a b : mutex) : bool :=
  match a, b with
  | MInsert x, MInsert y | MIndex x, MIndex y => Nat.eqb x y
  | MRepos, MRepos => true
  | _, _ => false
  end.

(** ** Programs of workers *)
Inductive prog :=
| Ret (ok : bool)                             (* return nil / an error *)
| Get (k : key) (f : option val -> prog)
| Put (k : key) (v : option val) (p : prog)   (* [None]: delete *)
| Lock (m : mutex) (p : prog)
| Unlock (m : mutex) (p : prog).

Fixpoint after (p : prog) (k : bool -> prog) : prog :=
  match p with
  | Ret b => k b
  | Get x f => Get x (fun v => after (f v) k)
  | Put x v q => Put x v (after q k)
  | Lock m q => Lock m (after q k)
  | Unlock m q => Unlock m (after q k)
  end.
(** m.Lock(); defer m.Unlock(); body *)
Definition locked (m : mutex) (p : prog) (k : bool -> prog) : prog :=
  Lock m (after p (fun b => Unlock m (k b))).

(** ** Scheduling: each step lets one worker perform its next operation *)
Record config := Config { c_mem : memory; c_held : mutex -> bool; c_threads : list prog }.
Definition set_held (h : mutex -> bool) (m : mutex) (b : bool) : mutex -> bool :=
  fun m' => if mutex_eqb m m' then b else h m'.
Fixpoint set_nth (i : nat) (p : prog) (l : list prog) : list prog :=
  match i, l with
  | _, [] => []
  | O, _ :: l' => p :: l'
  | S i', x :: l' => x :: set_nth i' p l'
  end.
(** the step of worker [i]; [None] if it has finished or must wait for a mutex *)
Definition step_at (i : nat) (c : config) : option config :=
  match nth_error (c_threads c) i with
  | None => None
  | Some p =>
      match p with
      | Ret _ => None
      | Get k f => Some (Config (c_mem c) (c_held c) (set_nth i (f (c_mem c k)) (c_threads c)))
      | Put k v q => Some (Config (upd (c_mem c) k v) (c_held c) (set_nth i q (c_threads c)))
      | Lock m q => if c_held c m then None
                    else Some (Config (c_mem c) (set_held (c_held c) m true) (set_nth i q (c_threads c)))
      | Unlock m q => Some (Config (c_mem c) (set_held (c_held c) m false) (set_nth i q (c_threads c)))
      end
  end.
Fixpoint run_schedule (s : list nat) (c : config) : option config :=
  match s with
  | [] => Some c
  | i :: s' => match step_at i c with Some c' => run_schedule s' c' | None => None end
  end.
Definition reaches (c c' : config) : Prop := exists s, run_schedule s c = Some c'.
Definition finished (p : prog) : bool := match p with Ret _ => true | _ => false end.
Definition no_lock : mutex -> bool := fun _ => false.
Definition start (m : memory) (ps : list prog) : config := Config m no_lock ps.

(** one worker alone *)
Fixpoint alone (p : prog) (m : memory) : memory :=
  match p with
  | Ret _ => m
  | Get k f => alone (f (m k)) m
  | Put k v q => alone q (upd m k v)
  | Lock _ q | Unlock _ q => alone q m
  end.

(** ** The operations *)

(** repo.go:177-199 GetRepo for a repository in the database: look in the cache,
    otherwise make a new Repository object (bakeRepo, 125-157) and cache it.
    [fresh] is the object this call would make. Nothing guards the cache (Go may
    additionally abort the process on a concurrent map write). *)
Definition get_repo (r : string) (fresh : nat) (k : nat -> prog) : prog :=
  Get (KCache r) (fun v =>
    match v with
    | Some (VObj o) => k o
    | _ => Put (KCache r) (Some (VObj fresh)) (k fresh)
    end).

Definition incref (p : pent) : pent := PEnt (S (pe_refs p)) (pe_name p) (pe_rel p) (pe_delta p).
Definition decref (p : pent) : pent := PEnt (pred (pe_refs p)) (pe_name p) (pe_rel p) (pe_delta p).

(** pool.go:247-255 RefEntry *)
Definition ref_entry (id : string) (k : prog) : prog :=
  Get (KPool id) (fun v =>
    match v with
    | Some (VPool p) => Put (KPool id) (Some (VPool (incref p))) k
    | _ => Ret false
    end).
(** pool.go:259-289 UnrefEntry *)
Definition unref_entry (id : string) : prog :=
  Get (KPool id) (fun v =>
    match v with
    | Some (VPool p) =>
        if Nat.ltb 0 (pe_refs (decref p)) then Put (KPool id) (Some (VPool (decref p))) (Ret true)
        else Put (KFile id) None (Put (KPool id) None (Ret true))
    | _ => Ret false
    end).
(** pool.go:187-238 addPackageInternal *)
Definition add_internal (id name : string) (rel : nat) (d : option (string * string)) (k : prog) : prog :=
  Get (KPool id) (fun v =>
    match v with
    | Some (VPool p) => Put (KPool id) (Some (VPool (incref p))) k
    | _ => Put (KFile id) (Some VFile) (Put (KPool id) (Some (VPool (PEnt 1 name rel d))) k)
    end).
(** pool.go:161-184 AddDelta *)
Definition pool_add_delta (id name : string) (rel : nat) (from to : string) (k : prog) : prog :=
  Get (KPool id) (fun v =>
    match v with
    | Some (VPool p) => Put (KPool id) (Some (VPool (incref p))) k
    | _ =>
        Get (KPool from) (fun v1 =>
          match v1 with
          | Some (VPool _) =>
              Get (KPool to) (fun v2 =>
                match v2 with
                | Some (VPool _) => add_internal id name rel (Some (from, to)) k
                | _ => Ret false
                end)
          | _ => Ret false
          end)
    end).
(** LinkOrCopyFile of the pool's file into the repository, then putEntry *)
Definition link_and_put (r name id : string) (e : rent) : prog :=
  Get (KFile id) (fun f =>
    match f with
    | Some _ => Put (KRepo r name) (Some (VRepo e)) (Ret true)
    | None => Ret false
    end).

(** repo.go:334-382 RefDelta, inside insertMut *)
Definition ref_delta (r d : string) : prog :=
  Get (KPool d) (fun v =>
    match v with
    | Some (VPool p) =>
        Get (KRepo r (pe_name p)) (fun w =>
          match w with
          | Some (VRepo e) =>
              if sin d (re_deltas e) then Ret true
              else ref_entry d (link_and_put r (pe_name p) d
                     (REnt (re_avail e) (re_pub e) (sort_strings (re_deltas e ++ [d]))))
          | _ => Ret false
          end)
    | _ => Ret false
    end).
(** repo.go:406-451 AddLocalDelta, inside insertMut *)
Definition add_local_delta (r d name : string) (rel : nat) (from to : string) : prog :=
  Get (KRepo r name) (fun w =>
    match w with
    | Some (VRepo e) =>
        if sin d (re_deltas e) then Ret true
        else pool_add_delta d name rel from to (link_and_put r name d
               (REnt (re_avail e) (re_pub e) (sort_strings (re_deltas e ++ [d]))))
    | _ => Ret false
    end).
(** repo.go:620-668 buildSaneEntry; [k None] when the package is already listed *)
Definition build_sane (r name : string) (rel : nat) (id : string) (k : option rent -> prog) : prog :=
  Get (KRepo r name) (fun w =>
    let go avail pub := if sin id avail then k None
                        else k (Some (REnt (sort_strings (avail ++ [id])) pub [])) in
    match w with
    | Some (VRepo e) =>
        Get (KPool (re_pub e)) (fun v =>
          match v with
          | Some (VPool p) => go (re_avail e) (if Nat.ltb (pe_rel p) rel then id else re_pub e)
          | _ => go (re_avail e) id
          end)
    | _ => go [] id
    end).
(** repo.go:580-613 RefPackage, inside insertMut *)
Definition ref_package (r id : string) : prog :=
  Get (KPool id) (fun v =>
    match v with
    | Some (VPool p) =>
        build_sane r (pe_name p) (pe_rel p) id (fun oe =>
          match oe with
          | None => Ret true
          | Some e => ref_entry id (link_and_put r (pe_name p) id e)
          end)
    | _ => Ret false
    end).
(** repo.go:671-703 AddLocalPackage, inside insertMut *)
Definition add_local_package (r id name : string) (rel : nat) : prog :=
  build_sane r name rel id (fun oe =>
    match oe with
    | None => Ret true
    | Some e => add_internal id name rel None (link_and_put r name id e)
    end).
(** repo.go:454-487 removePackageInternal, inside insertMut *)
Definition remove_internal (id : string) : prog :=
  Get (KPool id) (fun v =>
    match v with
    | Some (VPool _) => unref_entry id
    | _ => Ret true
    end).

(** repo.go:518-538: the deltas that use the package are removed *)
Fixpoint drop_deltas (o : nat) (id : string) (ds remain : list string) (k : list string -> prog) : prog :=
  match ds with
  | [] => k remain
  | d :: ds' =>
      Get (KPool d) (fun v =>
        match v with
        | Some (VPool p) =>
            match pe_delta p with
            | Some (from, to) =>
                if seqb from id || seqb to id
                then locked (MInsert o) (remove_internal d)
                       (fun b => if b then drop_deltas o id ds' remain k else Ret false)
                else drop_deltas o id ds' (remain ++ [d]) k
            | None => Ret false          (* the code would panic: every listed delta has a mapping *)
            end
        | _ => Ret false
        end)
  end.
(** repo.go:540-562: the remaining packages and the highest release among them *)
Fixpoint rest_available (id : string) (av remain : list string) (hi : nat) (hid : string)
    (k : list string -> string -> prog) : prog :=
  match av with
  | [] => k remain hid
  | a :: av' =>
      if seqb a id then rest_available id av' remain hi hid k
      else Get (KPool a) (fun v =>
        match v with
        | Some (VPool p) =>
            if Nat.ltb hi (pe_rel p) then rest_available id av' (remain ++ [a]) (pe_rel p) a k
            else rest_available id av' (remain ++ [a]) hi hid k
        | _ => Ret false
        end)
  end.
(** repo.go:499-577 UnrefPackage: only removePackageInternal holds insertMut;
    the entry is read before and written after without it. *)
Definition unref_package (o : nat) (r id : string) : prog :=
  Get (KPool id) (fun v =>
    match v with
    | Some (VPool p) =>
        Get (KRepo r (pe_name p)) (fun w =>
          match w with
          | Some (VRepo e) =>
              locked (MInsert o) (remove_internal id) (fun b =>
                if b then
                  drop_deltas o id (re_deltas e) [] (fun ds =>
                    rest_available id (re_avail e) [] 0 "" (fun av pub =>
                      match av with
                      | [] => Put (KRepo r (pe_name p)) None (Ret true)
                      | _ => Put (KRepo r (pe_name p)) (Some (VRepo (REnt (sort_strings av) pub (sort_strings ds)))) (Ret true)
                      end))
                else Ret false)
          | _ => Ret false
          end)
    | _ => Ret false
    end).

(** ** Requests as workers issue them (api.go:100-300: GetRepo, then the method) *)
Inductive request :=
| RqRefDelta (r d : string)
| RqAddDelta (r d name : string) (rel : nat) (from to : string)
| RqRefPackage (r id : string)
| RqAddPackage (r id name : string) (rel : nat)
| RqUnref (r id : string).
Definition rq_repo (q : request) : string :=
  match q with
  | RqRefDelta r _ | RqAddDelta r _ _ _ _ _ | RqRefPackage r _ | RqAddPackage r _ _ _ | RqUnref r _ => r
  end.
(** what it does with the Repository object [o] *)
Definition rq_method (q : request) (o : nat) : prog :=
  match q with
  | RqRefDelta r d => locked (MInsert o) (ref_delta r d) Ret
  | RqAddDelta r d name rel from to => locked (MInsert o) (add_local_delta r d name rel from to) Ret
  | RqRefPackage r id => locked (MInsert o) (ref_package r id) Ret
  | RqAddPackage r id name rel => locked (MInsert o) (add_local_package r id name rel) Ret
  | RqUnref r id => unref_package o r id
  end.
Definition worker (q : request) (fresh : nat) : prog := get_repo (rq_repo q) fresh (rq_method q).

(** ** Whole requests of the sequential worker, for their locking. The packages
    and deltas the loops go through are parameters. *)
Fixpoint each (ps : list prog) (k : prog) : prog :=
  match ps with
  | [] => k
  | p :: ps' => after p (fun b => if b then each ps' k else Ret false)
  end.
(** repo_index.go:286-420 Index, between lock and unlock it only reads the database *)
Definition index_repo (o : nat) (reads : list key) : prog :=
  locked (MIndex o) (fold_right (fun k p => Get k (fun _ => p)) (Ret true) reads) Ret.
(** api.go:42-63 CloneRepo / api.go:66-92 PullRepo on objects: repo.go:871-918 CloneFrom and
    repo.go:948-1017 PullFrom hold the source's insertMut while they insert. *)
Definition pull_like (src tgt : nat) (r : string) (ids ds : list string) (reads : list key) : prog :=
  each [locked (MInsert src)
          (each (map (fun id => locked (MInsert tgt) (ref_package r id) Ret) ids ++
                 map (fun d => locked (MInsert tgt) (ref_delta r d) Ret) ds) (Ret true)) Ret]
       (index_repo tgt reads).
(** api.go:96-107 RemoveSource, 147-158 TrimPackages: UnrefPackage for each, then Index *)
Definition remove_like (o : nat) (r : string) (ids : list string) (reads : list key) : prog :=
  each (map (unref_package o r) ids) (index_repo o reads).
(** api.go:133-144 TrimObsolete: repo.go:1142-1215 holds indexMut while it removes *)
Definition trim_obsolete (o : nat) (r : string) (ids : list string) (reads : list key) : prog :=
  each [locked (MIndex o) (each (map (unref_package o r) ids) (Ret true)) Ret] (index_repo o reads).
(** repo.go:239-313 DeleteRepo holds repoLock while it releases the packages.
    (Its database writes go to one batch; for the locking that does not matter.) *)
Definition delete_repo (o : nat) (r : string) (ids names : list string) : prog :=
  locked MRepos
    (after (get_repo r o (fun _ => each (map (fun id => locked (MInsert o) (remove_internal id) Ret) ids) (Ret true)))
       (fun b => if b then fold_right (fun n p => Put (KRepo r n) None p) (Ret true) names else Ret false)) Ret.
(** api.go:29-39 CreateRepo: repo.go:202-235 under repoLock, then Index *)
Definition create_repo (o : nat) (r : string) (reads : list key) : prog :=
  each [locked MRepos (Put (KCache r) (Some (VObj o)) (Ret true)) Ret] (index_repo o reads).
(** AddPackages, api.go:182-195, and CopySource, api.go:110-130: one after the other, then Index *)
Definition add_like (o : nat) (r : string) (adds : list (string * string * nat)) (reads : list key) : prog :=
  each (map (fun a => locked (MInsert o) (add_local_package r (fst (fst a)) (snd (fst a)) (snd a)) Ret) adds) (index_repo o reads).
Definition copy_like (o : nat) (r : string) (ids : list string) (reads : list key) : prog :=
  each (map (fun id => locked (MInsert o) (ref_package r id) Ret) ids) (index_repo o reads).
(** a delta job (jobs/delta.go:72-167): each delta is referenced or added, then
    perhaps Index; [None]: the existing delta is referenced *)
Definition delta_job (o : nat) (r name : string)
    (ds : list (string * option (nat * string * string))) (reads : list key) : prog :=
  each (map (fun d => match snd d with
                      | None => locked (MInsert o) (ref_delta r (fst d)) Ret
                      | Some (rel, from, to) => locked (MInsert o) (add_local_delta r (fst d) name rel from to) Ret
                      end) ds) (index_repo o reads).
