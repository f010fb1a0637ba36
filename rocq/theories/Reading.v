(** * Reading: from the decoded metadata.xml to package metadata

    Executable model of libeopkg/package.go ReadMetadata after the XML decoder,
    and of strings.TrimSpace. No proofs. *)
From Verif Require Import Base Model.
Open Scope string_scope. Open Scope list_scope.

(** strings.TrimSpace of the Go library, restricted to ASCII white space
    (simplification: U+0085, U+00A0 and other Unicode spaces are kept) *)
Definition is_space (c : ascii) : bool :=
  let n := nat_of_ascii c in (Nat.leb 9 n && Nat.leb n 13) || Nat.eqb n 32.
Fixpoint trim_left (s : string) : string :=
  match s with String c s' => if is_space c then trim_left s' else s | EmptyString => EmptyString end.
Fixpoint all_space (s : string) : bool :=
  match s with EmptyString => true | String c s' => is_space c && all_space s' end.
Fixpoint trim_right (s : string) : string :=
  match s with
  | EmptyString => EmptyString
  | String c s' => if all_space s then EmptyString else String c (trim_right s')
  end.
Definition trim_space (s : string) : string := trim_right (trim_left s).

(** libeopkg/package.go:114-118 and 120-123 *)
Definition trim_fields (l : list lfield) : list lfield := map (fun f => LField (trim_space (lf_value f)) (lf_lang f)) l.

(** what the zip reader and the XML decoder deliver (package.go:57-112): the
    summaries, the descriptions and the rest; [None] = error *)
Record decoded := Decoded { dc_summary : list lfield; dc_descr : list lfield; dc_meta : meta }.
(** libeopkg/package.go:95-126 ReadMetadata. The texts themselves are only
    carried along; [put] stores them (m_rest). *)
Definition read_metadata (put : list lfield -> list lfield -> meta -> meta) (d : option decoded) : res meta :=
  match d with
  | None => Err
  | Some d =>
      match fix_language (trim_fields (dc_summary d)) with
      | Ok su => match fix_language (trim_fields (dc_descr d)) with
                 | Ok de => Ok (put su de (dc_meta d))
                 | Err => Err | Panic => Panic
                 end
      | Err => Err | Panic => Panic
      end
  end.
