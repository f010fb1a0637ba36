(** * DeltaProd: which deltas are possible, their names and their contents

    Executable model of libeopkg/util.go:31-50 and libeopkg/delta.go; no proofs.
    Not modelled: the byte formats (zip, tar, xz, XML are trusted to be
    lossless) and file modes. The work directory: WorkDir.v. *)
From Verif Require Import Model.
From Verif Require Import Base LibDb Jobs Dispatch.
Open Scope string_scope. Open Scope list_scope.

(** libeopkg/util.go:31-38 ComputeDeltaName; GetRelease panics on an empty
    history (metadata.go:158-160), the old package is asked first *)
Definition delta_name (name : string) (from to : Z) (drel arch : string) : string :=
  (name ++ "-" ++ print_int from ++ "-" ++ print_int to ++ "-" ++ drel ++ "-" ++ arch ++ ".delta.eopkg")%string.
Definition compute_delta_name (old new : meta) : res string :=
  match get_release old with
  | Ok a => match get_release new with
            | Ok b => Ok (delta_name (m_name new) a b (m_drel new) (m_arch new))
            | _ => Panic end
  | _ => Panic
  end.

(** libeopkg/util.go:45-50 IsDeltaPossible *)
Definition is_delta_possible (old new : meta) : res bool :=
  match get_release old with
  | Ok a => match get_release new with
            | Ok b => Ok ((a <? b)%Z && seqb (m_name old) (m_name new)
                          && seqb (m_drel old) (m_drel new) && seqb (m_arch old) (m_arch new))
            | _ => Panic end
  | _ => Panic
  end.

(** libeopkg/files.go: a record of files.xml (path and hash; the rest is unused here) *)
Record frec := FRec { fr_path : string; fr_hash : string }.
(** archive/tar header: name, kind, and the data of a regular file *)
Inductive tkind := TReg (data : string) | TDir | TSym (target : string) | THard (target : string).
Record tentry := TEntry { t_name : string; t_kind : tkind }.
(** a member of the zip archive; install.tar.xz is given by what it unpacks to *)
Inductive zdata := ZRaw (bytes : string) | ZTar (entries : list tentry).
Record zentry := ZEntry { z_name : string; z_data : zdata }.
(** libeopkg/package.go:45-52 Package, after ReadAll *)
Record eopkg := Eopkg { k_meta : meta; k_files : list frec; k_zip : list zentry }.

Inductive dresult := DDelta (z : list zentry) | DPointless | DMismatched | DFailed | DPanic.

(** strings.TrimSuffix(s, "/") *)
Definition trim_slash (s : string) : string :=
  if has_suffix "/" s then stake (String.length s - 1) s else s.

(** libeopkg/delta.go:119-129 filesToMap, of which only the keys of the old
    package are used (line 148) *)
Definition hashes (p : eopkg) : list string := map fr_hash (k_files p).
(** delta.go:147-154: is this record of the new package put into diffMap? *)
Definition needed (old : eopkg) (f : frec) : bool :=
  negb (sin (fr_hash f) (hashes old) && negb (seqb (fr_hash f) "")).
(** diffMap: a set of paths; the order of a Go map plays no role *)
Definition diff_map (old new : eopkg) : list string :=
  nodup string_dec (map (fun f => trim_slash (fr_path f)) (filter (needed old) (k_files new))).

(** package.go:72-79 FindFile *)
Definition find_file (p : eopkg) (name : string) : option zdata :=
  match find (fun e => seqb (z_name e) name) (k_zip p) with Some e => Some (z_data e) | None => None end.

(** delta.go:199-242 copyInstallPartial with package.go:174-198 ExtractTarball:
    a member that is not an xz file is refused by unxz. *)
Definition copy_install_partial (diff : list string) (new : eopkg) : option (list tentry) :=
  match find_file new "install.tar.xz" with
  | Some (ZTar es) => Some (filter (fun t => sin (trim_slash (t_name t)) diff) es)
  | _ => None
  end.
(** delta.go:246-273 copyZipPartial *)
Definition copy_zip_partial (new : eopkg) : list zentry :=
  filter (fun e => negb (has_prefix "install.tar" (z_name e))) (k_zip new).
(** delta.go:133-194 produceInstallBall, 275-309 pushInstallBall and 314-352
    Commit. The first test is on the number of distinct paths against the number
    of records. *)
Definition commit (old new : eopkg) : dresult :=
  let diff := diff_map old new in
  if Nat.eqb (List.length diff) (List.length (k_files new)) then DPointless
  else match diff with
       | [] => DDelta (copy_zip_partial new)
       | _ => match copy_install_partial diff new with
              | None => DFailed
              | Some ball => DDelta (copy_zip_partial new ++ [ZEntry "install.tar.xz" (ZTar ball)])
              end
       end.
(** delta.go:51-99 NewDeltaProducer on two opened packages, then Commit
    (core/util.go:157-174 ProduceDelta) *)
Definition produce_delta (old new : eopkg) : dresult :=
  match is_delta_possible (k_meta old) (k_meta new) with
  | Ok true => commit old new
  | Ok false => DMismatched
  | _ => DPanic
  end.
