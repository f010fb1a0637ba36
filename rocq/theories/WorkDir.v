(** * WorkDir: producing a delta in its work directory

    Executable model of libeopkg/delta.go (NewDeltaProducer, Close, Commit and
    what they call), libeopkg/package.go:174-198, core/util.go:45-83 and 157-174
    and core/repo.go:805-825, step by step with the files of the work directory
    <base>/deltaBuilds/<repo>/<dir name>; no proofs. DeltaProd.v gives what the
    delta contains and DeltaJob.v takes the production as one step: C104 says how
    far that is right.

    Simplifications: byte formats as in DeltaProd.v (a file is given by what it
    unpacks to, or is torn); writing a file is two steps, created and complete;
    xz and unxz are a create, a fill and a removal of their input, and refuse to
    overwrite their output, as they do without -f. A child process that outlives
    the daemon ends in a state the daemon could have been killed in. The finished
    archive can stay in the work directory as a second name of the staged file
    (killed between link and removal); it is truncated only by a production
    that found no staged file. *)
From Verif Require Import Model.
From Verif Require Import Base Paths LibDb Jobs Dispatch DeltaProd RepoDirs.
Open Scope string_scope. Open Scope list_scope.

Inductive wdata := WTorn | WRaw (bytes : string) | WXz (l : list tentry) | WTar (l : list tentry) | WZip (z : list zentry).

(** The work directory (if it exists: names and contents) and the delta's place
    in the staging area. *)
Record work := Work { w_dir : option (list (string * wdata)); w_stage : option wdata }.
Definition w_files (w : work) : list (string * wdata) := match w_dir w with Some l => l | None => [] end.
Fixpoint lookup (n : string) (l : list (string * wdata)) : option wdata :=
  match l with [] => None | (m, d) :: l' => if seqb n m then Some d else lookup n l' end.
Definition without (n : string) (l : list (string * wdata)) := filter (fun x => negb (seqb n (fst x))) l.
Definition w_get (n : string) (w : work) : option wdata := lookup n (w_files w).
Definition w_put (n : string) (d : wdata) (w : work) : work := Work (Some ((n, d) :: without n (w_files w))) (w_stage w).
Definition w_rm (n : string) (w : work) : work := Work (match w_dir w with Some l => Some (without n l) | None => None end) (w_stage w).
Definition w_stage_set (d : wdata) (w : work) : work := Work (w_dir w) (Some d).

(** A computation: the states after each step (where a kill can leave things),
    the final state and the result. *)
Definition W (A : Type) : Type := work -> list work * work * res A.
Definition wret {A} (a : A) : W A := fun w => ([], w, Ok a).
Definition werr {A} : W A := fun w => ([], w, Err).
Definition wpanic {A} : W A := fun w => ([], w, Panic).
Definition wbind {A B} (m : W A) (k : A -> W B) : W B := fun w =>
  match m w with
  | (t, w1, Ok a) => let '(t2, w2, r) := k a w1 in (t ++ t2, w2, r)
  | (t, w1, Err) => (t, w1, Err)
  | (t, w1, Panic) => (t, w1, Panic)
  end.
Definition wstep (f : work -> work) : W unit := fun w => ([f w], f w, Ok tt).
Definition wget {A} (f : work -> A) : W A := fun w => ([], w, Ok (f w)).
(** a deferred call: whatever the result (also while a panic unwinds) *)
Definition wdefer {A} (m : W A) (d : res A -> W unit) : W A := fun w =>
  let '(t, w1, r) := m w in let '(t2, w2, _) := d r w1 in (t ++ t2, w2, r).
Definition wtrace {A} (x : list work * work * res A) : list work := fst (fst x).
Definition wfinal {A} (x : list work * work * res A) : work := snd (fst x).
Definition wresult {A} (x : list work * work * res A) : res A := snd x.

Declare Scope work_scope.
Notation "x <~ m ; k" := (wbind m (fun x => k)) (at level 61, m at next level, right associativity) : work_scope.
Notation "m ;~ k" := (wbind m (fun _ => k)) (at level 61, right associativity) : work_scope.
Local Open Scope work_scope.

Section WithFaults.
(** Which steps fail (no space, no such program, another file system ...); a
    production takes every step at most once. *)
Variable bad : string -> bool.

Definition may_fail (what : string) : W unit := if bad what then werr else wret tt.
(** os.Create and a complete write *)
Definition write_file (what n : string) (d : wdata) : W unit :=
  may_fail ("create " ++ what)%string ;~ wstep (w_put n WTorn) ;~ may_fail ("write " ++ what)%string ;~ wstep (w_put n d).
(** libeopkg/util.go XzFile and UnxzFile without -k. A failing tool removes its
    half-written output itself. *)
Definition convert (what n out : string) (f : wdata -> option wdata) : W unit :=
  src <~ wget (w_get n) ; old <~ wget (w_get out) ;
  match src, old with
  | Some d, None =>
      match f d with
      | Some d' => may_fail what ;~ wstep (w_put out WTorn) ;~ wstep (w_put out d') ;~ wstep (w_rm n)
      | None => werr
      end
  | _, _ => werr
  end.
Definition compress (d : wdata) : option wdata := match d with WTar l => Some (WXz l) | _ => None end.
Definition expand (d : wdata) : option wdata := match d with WXz l => Some (WTar l) | _ => None end.
Definition member (z : zdata) : wdata := match z with ZRaw b => WRaw b | ZTar l => WXz l end.

Definition f_ball : string := "delta-eopkg.install.tar".
Definition f_ballxz : string := "delta-eopkg.install.tar.xz".
Definition f_new : string := "install.tar".
Definition f_newxz : string := "install.tar.xz".

(** package.go:174-198 ExtractTarball *)
Definition extract_tarball (new : eopkg) : W unit :=
  match find_file new f_newxz with
  | None => werr
  | Some z => write_file "member" f_newxz (member z) ;~ convert "unxz" f_newxz f_new expand
  end.
(** delta.go:199-242 copyInstallPartial, the copy into the open tar file *)
Definition copy_partial (diff : list string) (new : eopkg) : W unit :=
  extract_tarball new ;~
  d <~ wget (w_get f_new) ;
  match d with
  | Some (WTar es) =>
      may_fail "write ball" ;~ wstep (w_put f_ball (WTar (filter (fun t => sin (trim_slash (t_name t)) diff) es)))
  | _ => werr
  end.
Inductive ball := BPointless | BNone | BFile.
(** delta.go:133-194 produceInstallBall *)
Definition produce_ball (old new : eopkg) : W ball :=
  let diff := diff_map old new in
  if Nat.eqb (List.length diff) (List.length (k_files new)) then wret BPointless
  else match diff with
       | [] => wret BNone
       | _ => may_fail "create ball" ;~ wstep (w_put f_ball WTorn) ;~
              copy_partial diff new ;~ convert "xz" f_ball f_ballxz compress ;~ wret BFile
       end.
(** delta.go:275-309 pushInstallBall: what goes into the archive *)
Definition push_ball (b : ball) : W (list zentry) :=
  match b with
  | BFile => d <~ wget (w_get f_ballxz) ;
             match d with Some (WXz l) => wret [ZEntry "install.tar.xz" (ZTar l)] | _ => werr end
  | _ => wret []
  end.
Inductive produced := PDone | PPointless | PMismatched.
(** delta.go:314-352 Commit; [None]: pointless. The compressed tarball is removed
    in any case once it is there, the archive if it could not be finished. The
    archive is written member by member: one step. *)
Definition commit_delta (name : string) (old new : eopkg) : W (option unit) :=
  b <~ produce_ball old new ;
  match b with
  | BPointless => wret None
  | _ =>
      wdefer
        (may_fail "create archive" ;~ wstep (w_put name WTorn) ;~
         wdefer (m <~ push_ball b ; may_fail "write archive" ;~ wstep (w_put name (WZip (copy_zip_partial new ++ m))) ;~ wret (Some tt))
                (fun r => match r with Ok _ => wret tt | _ => wstep (w_rm name) end))
        (fun _ => match b with BFile => wstep (w_rm f_ballxz) | _ => wret tt end)
  end.
(** os.RemoveAll of the work directory: file by file, then the directory; it
    may give up anywhere. *)
Fixpoint remove_files (l : list (string * wdata)) : W unit :=
  match l with [] => wret tt | (n, _) :: l' => may_fail ("remove " ++ n)%string ;~ wstep (w_rm n) ;~ remove_files l' end.
Definition remove_dir : W unit :=
  d <~ wget w_dir ;
  match d with
  | None => wret tt
  | Some l => remove_files l ;~ may_fail "rmdir" ;~ wstep (fun w => Work None (w_stage w))
  end.
(** core/util.go:78-83 LinkOrCopyFile, 45-75 CopyFile *)
Definition link_or_copy (name : string) : W unit :=
  d <~ wget (w_get name) ;
  match d with
  | None => wret tt
  | Some d =>
      if bad "link" then may_fail "create copy" ;~ wstep (w_stage_set WTorn) ;~ may_fail "write copy" ;~ wstep (w_stage_set d)
      else wstep (w_stage_set d)
  end.
(** core/util.go:157-174 ProduceDelta with NewDeltaProducer (delta.go:51-99); the
    packages have been opened and read. Packages that do not match leave before
    the directory is made. *)
Definition produce (name : string) (old new : eopkg) : W produced :=
  match is_delta_possible (k_meta old) (k_meta new) with
  | Ok true =>
      wdefer
        (may_fail "mkdir" ;~ wstep (fun w => Work (Some (w_files w)) (w_stage w)) ;~
         c <~ commit_delta name old new ;
         match c with
         | None => wret PPointless
         | Some _ => wdefer (link_or_copy name ;~ wret PDone) (fun _ => wstep (w_rm name))
         end)
        (fun _ => remove_dir)
  | Ok false => wret PMismatched
  | _ => wpanic
  end.
(** core/repo.go:805-825 CreateDelta once the name is known and the packages match *)
Definition create (name : string) (old new : eopkg) : W produced :=
  s <~ wget w_stage ; match s with Some _ => wret PDone | None => produce name old new end.
End WithFaults.

(** delta.go:84-92: the name of the work directory, and where it is *)
Definition work_name (name version arch : string) (from to : Z) : string :=
  (name ++ "-" ++ version ++ "-" ++ arch ++ "-" ++ print_int from ++ "-" ++ print_int to)%string.
Definition work_path (base repo name version arch : string) (from to : Z) : string :=
  join (repo_dir base KDelta repo) (work_name name version arch from to).
