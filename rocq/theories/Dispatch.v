(** * Dispatch: requests, the jobs made of them, and the handlers made of those

    Executable model of src/ferryd/handlers.go, monitor.go, jobs/main.go and the
    New*Job / New*JobHandler / Execute / Describe functions of jobs/*.go; no
    proofs. Not modelled: HTTP and JSON decoding, the gob encoding of entries
    (trusted to be lossless on strings and lists), logging. *)
From Verif Require Import Model.
From Verif Require Import Base LibDb Jobs.
Open Scope string_scope. Open Scope list_scope.

(** ** Numbers as text *)
Definition digit (n : N) : ascii := ascii_of_N (48 + n).
Definition is_digit (c : ascii) : bool := (48 <=? N_of_ascii c)%N && (N_of_ascii c <=? 57)%N.
Fixpoint digits (fuel : nat) (n : N) (acc : string) : string :=
  match fuel with
  | O => acc
  | S f => if (n <? 10)%N then String (digit n) acc else digits f (n / 10) (String (digit (n mod 10)) acc)
  end.
Definition print_N (n : N) : string := digits (S (N.to_nat (N.size n))) n "".
(** fmt.Sprintf of %d on an int *)
Definition print_int (z : Z) : string :=
  if (z <? 0)%Z then String "-" (print_N (Z.to_N (- z))) else print_N (Z.to_N z).
(** fmt.Sprintf of %t *)
Definition print_bool (b : bool) : string := if b then "true" else "false".

Fixpoint parse_digits (s : string) (acc : N) : res N :=
  match s with
  | EmptyString => Ok acc
  | String c t => if is_digit c then parse_digits t (acc * 10 + (N_of_ascii c - 48)) else Err
  end.
Definition int32 (z : Z) : bool := (-2147483648 <=? z)%Z && (z <=? 2147483647)%Z.
(** strconv.ParseInt(s, 10, 32): syntax, then range *)
Definition parse_unsigned (s : string) : res N := match s with EmptyString => Err | _ => parse_digits s 0 end.
Definition parse_int32 (s : string) : res Z :=
  let finish (neg : bool) (r : res N) : res Z :=
    match r with
    | Ok n => let z := if neg then (- Z.of_N n)%Z else Z.of_N n in if int32 z then Ok z else Err
    | _ => Err
    end in
  match s with
  | EmptyString => Err
  | String c t =>
      if Ascii.eqb c "+" then finish false (parse_unsigned t)
      else if Ascii.eqb c "-" then finish true (parse_unsigned t)
      else finish false (parse_unsigned s)
  end.
(** strconv.ParseBool *)
Definition parse_bool (s : string) : res bool :=
  if sin s ["1"; "t"; "T"; "true"; "TRUE"; "True"] then Ok true
  else if sin s ["0"; "f"; "F"; "false"; "FALSE"; "False"] then Ok false
  else Err.

(** ** Requests (handlers.go:136-296, monitor.go:78-95). Release numbers and
    counts are Go ints, here unbounded integers. *)
Inductive request :=
| ReqCreate (id : string)
| ReqDelete (id : string)
| ReqDelta (id : string)
| ReqIndex (id : string)
| ReqImport (id : string) (paths : list string)
| ReqClone (id name : string) (copy_all : bool)
| ReqPull (target source : string)
| ReqRemoveSource (id source : string) (release : Z)
| ReqCopySource (id target source : string) (release : Z) (skip_index : bool)
| ReqTrimPackages (id : string) (max_keep : Z)
| ReqTrimObsolete (id : string)
| ReqUpload (path : string).

(** type and parameters of a job entry, and its queue *)
Definition jentry : Type := (queue * string * list string)%type.
(** the New*Job functions: bulk_add.go:34-40, copy_source.go:38-44,
    clone_repo.go:36-46, create_repo.go:35-41, delete_repo.go:34-40,
    delta_repo.go:35-41, index.go:38-44, pull_repo.go:35-41,
    remove_source.go:37-43, trim_packages.go:36-42, trim_obsoletes.go:34-40,
    transit_job.go:36-42 *)
Definition job_of (r : request) : jentry :=
  match r with
  | ReqCreate id => (QSync, "CreateRepo", [id])
  | ReqDelete id => (QSync, "DeleteRepo", [id])
  | ReqDelta id => (QSync, "DeltaRepo", [id])
  | ReqIndex id => (QSync, "IndexRepo", [id])
  | ReqImport id paths => (QSync, "BulkAdd", id :: paths)
  | ReqClone id name all => (QSync, "CloneRepo", [id; name; if all then "full" else "tip"])
  | ReqPull target source => (QSync, "PullRepo", [source; target])
  | ReqRemoveSource id source rel => (QSync, "RemoveSource", [id; source; print_int rel])
  | ReqCopySource id target source rel skip => (QSync, "CopySource", [id; target; source; print_int rel; print_bool skip])
  | ReqTrimPackages id keep => (QSync, "TrimPackages", [id; print_int keep])
  | ReqTrimObsolete id => (QSync, "TrimObsolete", [id])
  | ReqUpload path => (QSync, "TransitProcess", [path])
  end.
(** delta.go:46-52 NewDeltaJob, 56-62 NewDeltaIndexJob (the latter only behind
    deltasEnabled = false, index.go:28) *)
Definition delta_job (repo name : string) : jentry := (QAsync, "Delta", [repo; name]).
Definition delta_index_job (repo name : string) : jentry := (QAsync, "Delta+Index", [repo; name]).

(** ** Handlers *)
Inductive handler :=
| HBulkAdd (repo : string) (paths : list string)
| HCopySource (repo target source : string) (release : Z) (skip : bool)
| HCloneRepo (repo clone mode : string)
| HCreateRepo (repo : string)
| HDeleteRepo (repo : string)
| HDeltaRepo (repo : string)
| HIndexRepo (repo : string)
| HRemoveSource (repo source : string) (release : Z)
| HPullRepo (source target : string)
| HTransit (path : string)
| HTrimObsolete (repo : string)
| HTrimPackages (repo : string) (keep : Z).

Definition one (f : string -> handler) (ps : list string) : res handler :=
  match ps with [a] => Ok (f a) | _ => Err end.
(** jobs/main.go:137-166 NewJobHandler and the New*JobHandler functions *)
Definition new_job_handler (ty : string) (ps : list string) : res handler :=
  if seqb ty "BulkAdd" then match ps with a :: b :: l => Ok (HBulkAdd a (b :: l)) | _ => Err end
  else if seqb ty "CopySource" then
    match ps with
    | [a; b; c; d; e] =>
        match parse_int32 d with
        | Ok rel => match parse_bool e with Ok si => Ok (HCopySource a b c rel si) | _ => Err end
        | _ => Err
        end
    | _ => Err
    end
  else if seqb ty "CloneRepo" then match ps with [a; b; c] => Ok (HCloneRepo a b c) | _ => Err end
  else if seqb ty "CreateRepo" then one HCreateRepo ps
  else if seqb ty "DeleteRepo" then one HDeleteRepo ps
  else if seqb ty "DeltaRepo" then one HDeltaRepo ps
  else if seqb ty "IndexRepo" then one HIndexRepo ps
  else if seqb ty "RemoveSource" then
    match ps with
    | [a; b; c] => match parse_int32 c with Ok rel => Ok (HRemoveSource a b rel) | _ => Err end
    | _ => Err
    end
  else if seqb ty "PullRepo" then match ps with [a; b] => Ok (HPullRepo a b) | _ => Err end
  else if seqb ty "TransitProcess" then one HTransit ps
  else if seqb ty "TrimObsolete" then one HTrimObsolete ps
  else if seqb ty "TrimPackages" then
    match ps with
    | [a; b] => match parse_int32 b with Ok k => Ok (HTrimPackages a k) | _ => Err end
    | _ => Err
    end
  else Err.

(** a path given by a client: what is before the last slash, and the file name *)
Definition loc_of_path (p : string) : loc := Loc TExt (join_slash (removelast (split_slash p))) (base p).

(** What Execute asks of the manager: one manager request; or reading the names
    of a repository and pushing a delta job for each (delta_repo.go:60-80); or
    processing an upload (Transit.v). *)
Inductive todo :=
| Run (p : op)
| PushDeltas (repo : string)
| Upload (path : string).
(** bulk_add.go:54-61, copy_source.go:70-84, clone_repo.go:60-72,
    create_repo.go:55-61, delete_repo.go:53-59, index.go:57-63,
    remove_source.go:62-74, pull_repo.go:55-78, trim_obsoletes.go:53-59,
    trim_packages.go:61-72 *)
Definition execute (h : handler) : todo :=
  match h with
  | HBulkAdd r ps => Run (OpAdd r (map loc_of_path ps) false)
  | HCopySource r t s rel sk => Run (OpCopySource r t s rel sk)
  | HCloneRepo r c m => Run (OpClone r c (seqb m "full"))
  | HCreateRepo r => Run (OpCreate r)
  | HDeleteRepo r => Run (OpDelete r)
  | HDeltaRepo r => PushDeltas r
  | HIndexRepo r => Run (OpIndex r)
  | HRemoveSource r s rel => Run (OpRemoveSource r s rel)
  | HPullRepo s t => Run (OpPull s t)
  | HTransit p => Upload p
  | HTrimObsolete r => Run (OpTrimObsolete r)
  | HTrimPackages r k => Run (OpTrimPackages r k)
  end.
(** delta_repo.go:60-80 on the names the repository has (core/repo.go:755-772) *)
Definition delta_pushes (repo : string) (names : list string) : list jentry := map (delta_job repo) names.

(** the Describe functions *)
Definition quoted (s : string) : string := "'" ++ s ++ "'".
Definition describe (h : handler) : string :=
  match h with
  | HBulkAdd r ps => "Add " ++ print_int (Z.of_nat (List.length ps)) ++ " packages to repository " ++ quoted r
  | HCopySource r t s rel _ => "Copy sources by id " ++ quoted s ++ " (rel: " ++ print_int rel ++ ") in " ++ quoted r ++ " to " ++ quoted t
  | HCloneRepo r c _ => "Clone repository " ++ quoted r ++ " into " ++ quoted c
  | HCreateRepo r => "Create repository " ++ quoted r
  | HDeleteRepo r => "Delete repository " ++ quoted r
  | HDeltaRepo r => "Produce deltas for " ++ quoted r
  | HIndexRepo r => "Index repository " ++ quoted r
  | HRemoveSource r s rel => "Remove sources by id " ++ quoted s ++ " (rel: " ++ print_int rel ++ ") in " ++ quoted r
  | HPullRepo s t => "Pull repository " ++ quoted s ++ " into " ++ quoted t
  | HTransit p => "Process manifest " ++ quoted p
  | HTrimObsolete r => "Trim obsoletes from repository " ++ quoted r
  | HTrimPackages r k => "Trim packages to maximum of " ++ print_int k ++ " in " ++ quoted r
  end.

(** ** Status *)
(** store.go:347-373 cloneCurrentJobs *)
Fixpoint clone_current (js : list job) : res (list string) :=
  match js with
  | [] => Ok []
  | j :: l =>
      match new_job_handler (j_type j) (j_params j) with
      | Ok h => match clone_current l with Ok r => Ok (describe h :: r) | _ => Err end
      | _ => Err
      end
  end.
Record status := Status { t_current : list string; t_failed : list jrec; t_completed : list jrec }.
(** store.go:332-344 ActiveJobs; handlers.go:65-98 GetStatus *)
Definition get_status (s : store) : res status :=
  match clone_current (map snd (mlist (s_sync s))) with
  | Ok a => match clone_current (map snd (mlist (s_async s))) with
            | Ok b => Ok (Status (a ++ b) (past_jobs true s) (past_jobs false s))
            | _ => Err
            end
  | _ => Err
  end.
