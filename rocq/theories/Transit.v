(** * Transit: uploads announced by a manifest

    Executable model of core/transit_manifest.go and jobs/transit_job.go; no
    proofs. Base directory and manifest path are absolute (main.go:65 and
    monitor.go:84 make them so). *)
From Verif Require Import Model Paths Reading.
Open Scope string_scope. Open Scope list_scope.

(** transit_manifest.go:48-79 and 95-104, after decoding *)
Record tfile := TFile { tf_path : string; tf_sha : string }.
Record tram := Tram { tm_version : string; tm_target : string; tm_files : list tfile }.

(** filepath.Dir (Go standard library, Unix) *)
Definition dirname (p : string) : string := clean (join_slash (removelast (split_slash p) ++ [""])).

(** The location a path below the base directory [B] denotes: pool/..., repo/<r>/...
    and deltaStaging/<r>/... (pool.go:84, repo.go:96-99, 128-131) are the managed
    trees, everything else is outside. Simplifications: no symbolic links; a file
    directly in a repository's root is not an index file. *)
Fixpoint strip (B l : list string) : option (list string) :=
  match B, l with
  | [], _ => Some l
  | b :: B', x :: l' => if seqb b x then strip B' l' else None
  | _ :: _, [] => None
  end.
Definition in_tree (t : tree) (l : list string) : loc := Loc t (join_slash (removelast l)) (last l "").
Definition outside (l : list string) : loc := Loc TExt (join_slash ("" :: removelast l)) (last l "").
Definition locate (B : list string) (p : string) : loc :=
  let l := tl (split_slash p) in
  match strip B l with
  | Some (d :: x :: rest) =>
      if seqb d "pool" then in_tree TPool (x :: rest)
      else match rest with
           | [] => outside l
           | _ => if seqb d "repo" then in_tree (TRepo x) rest
                  else if seqb d "deltaStaging" then in_tree (TStage x) rest
                  else outside l
           end
  | _ => outside l
  end.

(** transit_manifest.go:126-128, 141-144: TrimSpace of every field *)
Definition trim_manifest (t : tram) : tram :=
  Tram (trim_space (tm_version t)) (trim_space (tm_target t))
       (map (fun f => TFile (trim_space (tf_path f)) (trim_space (tf_sha f))) (tm_files t)).
(** transit_manifest.go:130-153 *)
Definition check_manifest (t : tram) : bool :=
  seqb (tm_version t) "1.0" && negb (seqb (tm_target t) "") &&
  negb (match tm_files t with [] => true | _ => false end) &&
  forallb (fun f => negb (seqb (tf_path f) "") && negb (seqb (tf_sha f) "") && has_suffix ".eopkg" (tf_path f)) (tm_files t).

(** transit_manifest.go:85-92 GetPaths: Join(dir, Path) *)
Definition payload_paths (dir : string) (t : tram) : list string := map (fun f => join dir (tf_path f)) (tm_files t).
(** PathExists and os.Remove (transit_job.go:86-98); errors are only logged *)
Definition remove_if_there (l : loc) : M unit :=
  f <- gets st_fs ;; match f_name f l with Some _ => remove_file l | None => ret tt end.

Section WithEnv.
Variable E : env.
Variable T : string -> option tram.       (* the TOML decoder *)
Variable B : list string.                 (* components of the base directory *)

(** transit_manifest.go:107-158 NewTransitManifest *)
Definition load_manifest (path : string) : M tram :=
  f <- gets st_fs ;;
  match file_content f (locate B path) with
  | None => err
  | Some c =>
      match T c with
      | None => err
      | Some t => let t' := trim_manifest t in if check_manifest t' then ret t' else err
      end
  end.

(** util.go:119-129 FileSha256sum: the file is mapped; an empty one cannot be *)
Definition file_sha256 (f : fs) (l : loc) : option string :=
  match file_content f l with
  | None => None
  | Some c => if seqb c "" then None else Some (E_sha256 E c)
  end.
(** transit_manifest.go:163-176 ValidatePayload *)
Definition validate_payload (dir : string) (t : tram) : M unit :=
  forM (tm_files t) (fun x =>
    f <- gets st_fs ;;
    match file_sha256 f (locate B (join dir (tf_path x))) with
    | None => err
    | Some h => if seqb h (tf_sha x) then ret tt else err
    end).

(** transit_job.go:55-99 Execute. The rest (100-118) schedules delta jobs and is
    switched off: deltasEnabled is false (index.go:28, never assigned). *)
Definition transit_job (o : oracle) (path : string) : M unit :=
  let p := clean path in
  let dir := dirname p in
  t <- load_manifest p ;;
  validate_payload dir t ;;;
  get_repo (tm_target t) ;;;
  let locs := map (locate B) (payload_paths dir t) in
  api_add_packages E o (tm_target t) locs true ;;;
  forM (locs ++ [locate B p]) remove_if_there.
End WithEnv.
