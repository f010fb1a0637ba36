(** * DeltaJob: producing the deltas of one package

    Executable model of jobs/delta.go:74-190 with core/repo.go:794-825
    (CreateDelta) and core/util.go:157-174 (ProduceDelta); no proofs. *)
From Verif Require Import Model.
From Verif Require Import Base LibDb Jobs Dispatch DeltaProd.
Open Scope string_scope. Open Scope list_scope.

(** Open + ReadAll of a package file, and the bytes of a written archive *)
Record denv := DEnv { D_open : string -> res eopkg; D_zip : list zentry -> string }.
(** the oracle of the Index request, and sort.Sort(PackageSet): ascending *)
Record joracle := JOracle { jo_index : oracle; jo_asc : list meta -> list meta }.

(** the directory part of a PackageURI; <repo>/<PackageURI> as a location *)
Definition uri_dir (u : string) : string := join_slash (removelast (split_slash u)).
Definition repo_loc (r uri : string) : loc := Loc (TRepo r) (uri_dir uri) (base uri).
Definition stage_loc (r id : string) : loc := Loc (TStage r) "" id.

Inductive created := CPath (l : loc) | CPointless | CMismatched.

Section WithEnv.
Variable E : env.
Variable D : denv.

Definition open_all (l : loc) : M eopkg :=
  f <- gets st_fs ;;
  match file_content f l with None => err | Some c => lift (D_open D c) end.

(** api.go:230-237 and repo.go:805-825 CreateDelta. The temporary archive is
    written elsewhere, hard-linked into the staging area and unlinked
    (util.go:157-174): one step here (simplification: if the two directories are
    on different file systems it is a copy, which can be torn by a crash; the steps are in
    WorkDir.v, C104). *)
Definition create_delta (r : string) (old new : meta) : M created :=
  get_repo r ;;;
  ok <- lift (is_delta_possible old new) ;;
  if ok then
    name <- lift (compute_delta_name old new) ;;
    f <- gets st_fs ;;
    match f_name f (stage_loc r name) with
    | Some _ => ret (CPath (stage_loc r name))
    | None =>
        po <- open_all (repo_loc r (m_uri old)) ;;
        pn <- open_all (repo_loc r (m_uri new)) ;;
        match produce_delta po pn with
        | DDelta z => durable (on_fs (fun f => fs_create f (stage_loc r name) (D_zip D z))) ;;; ret (CPath (stage_loc r name))
        | DPointless => ret CPointless
        | DMismatched => ret CMismatched
        | DFailed => err
        | DPanic => panic
        end
    end
  else ret CMismatched.

(** jobs/delta.go:154-162 includeDelta; os.Remove of a missing file is an error *)
Definition include_delta (r : string) (l : loc) (from to : string) : M unit :=
  api_add_delta E r l from to ;;;
  f <- gets st_fs ;;
  match f_name f l with None => err | Some _ => remove_file l end.

(** jobs/delta.go:93-147, one older version; [n] = nDeltas *)
Definition delta_step (r pkg : string) (tip : meta) (n : nat) (old : meta) : M nat :=
  id <- lift (compute_delta_name old tip) ;;
  failed <- gets (fun s => get_delta_failed s id) ;;
  if failed then ret n
  else
    has <- (get_repo r ;;; has_delta r pkg id) ;;
    if has then ret n
    else
      (* GetPoolEntry (api.go:286-292) asks for filepath.Base(deltaID) *)
      x <- pool_get (base id) ;;
      match x with
      | Some _ => api_ref_delta E r id ;;; ret n
      | None =>
          c <- create_delta r old tip ;;
          match c with
          | CPath l => include_delta r l (get_id old) (get_id tip) ;;; ret (S n)
          | CPointless =>
              fr <- lift (get_release old) ;;
              tr <- lift (get_release tip) ;;
              mark_delta_failed id (DInfo fr (get_id old) tr (get_id tip)) ;;; ret n
          | CMismatched => ret n
          end
      end.

(** jobs/delta.go:74-150 executeInternal *)
Definition delta_internal (o : joracle) (r pkg : string) : M nat :=
  pkgs <- (get_repo r ;;; get_packages r pkg) ;;
  if Nat.ltb (List.length pkgs) 2 then ret 0
  else
    lift (sort_guard pkgs) ;;;
    let sorted := jo_asc o pkgs in
    match rev sorted with
    | [] => ret 0
    | tip :: _ => foldM (removelast sorted) (delta_step r pkg tip) 0
    end.
(** jobs/delta.go:165-190 Execute *)
Definition delta_job (o : joracle) (r pkg : string) (index_repo : bool) : M unit :=
  n <- delta_internal o r pkg ;;
  if index_repo && Nat.leb 1 n then api_index E (jo_index o) r else ret tt.
End WithEnv.
