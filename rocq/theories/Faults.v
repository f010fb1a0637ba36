(** * Faults: requests that fail because a write fails (disk full, I/O error)

    Executable model; no proofs. Every write of core/*.go is checked
    (`if err := ...; err != nil { return err }`): the first one that fails ends the
    request, the transaction in progress (libdb/leveldb.go Update) is dropped, and
    the daemon goes on with its cache. Clean-up on the way out is done by
    core/pool.go:228-232 (the pool file just linked, if the record cannot be written)
    and core/repo_index.go:296-307 (the temporary index files).

    Simplifications: a failing os.Remove of a package file (core/pool.go:271,
    core/repo.go:467) or RemoveAll of a repository's directory (core/repo.go:305) is
    only logged by the code and does not end a request; that case is not here. os.Link failing for another reason than in [can_link] makes the code
    copy instead; failing reads of the database, which pool.go and repo.go take for a
    missing record, are not here either. *)
From Verif Require Import Model.
Open Scope string_scope. Open Scope list_scope.

(** The names Index writes before it renames (repo_index.go:308-401). *)
Definition temporary : list string :=
  ["eopkg-index.xml.new"; "eopkg-index.xml.sha1sum.new"; "eopkg-index.xml.sha256sum.new"; "eopkg-index.xml.new.xz";
   "eopkg-index.xml.xz.sha1sum.new"; "eopkg-index.xml.xz.sha256sum.new"; "eopkg-index.xml.new.zst";
   "eopkg-index.xml.zst.sha1sum.new"; "eopkg-index.xml.zst.sha256sum.new"].

(** What the clean-up may remove: pool files that have no record, temporary index
    files. The lists are arbitrary, as the clean-up may itself fail. *)
Definition clean_pool (d : db) (gone : list loc) (f : fs) : fs :=
  fold_left (fun f l => match l_tree l with
                        | TPool => if mhas (d_pool d) (l_id l) then f else fs_set_name f l None
                        | _ => f end) gone f.
Definition clean_root (gone : list (string * string)) (f : fs) : fs :=
  fold_left (fun f rk => if sin (snd rk) temporary then fs_set_root f (fst rk) (snd rk) None else f) gone f.

(** The state after request [p] was given up when [n] of its writes were done. The
    cache holds any of the repositories that exist and have their directory:
    repo.go:176-198 GetRepo and repo.go:202-234 CreateRepo add a repository after its
    record and directories are there, repo.go:238-250 DeleteRepo forgets it before
    its transaction. *)
Definition given_up (E : env) (s : state) (o : oracle) (p : op) (n : nat)
    (cached : string -> bool) (gone : list loc) (tmp : list (string * string)) : state :=
  let t := nth n (s :: trace_of (run_op E o p s)) (final_of (run_op E o p s)) in
  let f := clean_root tmp (clean_pool (st_db t) gone (st_fs t)) in
  St (st_db t) f (fun r => cached r && mhas (d_repos (st_db t)) r && f_dir f r) [].

(** A history in which requests may also fail. *)
Inductive xevent :=
| XEvent (e : event)
| XFail (o : oracle) (p : op) (n : nat) (cached : string -> bool) (gone : list loc) (tmp : list (string * string)).
Definition xstep (E : env) (s : state) (e : xevent) : state :=
  match e with
  | XEvent e => ev_step E s e
  | XFail o p n c g t => given_up E s o p n c g t
  end.
Definition run_faulty (E : env) (h : list xevent) : state := fold_left (xstep E) h init.
