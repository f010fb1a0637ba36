(** * FilesXml: reading files.xml (package.go ReadFiles, files.go)

    The decoder is that of Unxml.v. No proofs in this file. *)
From Coq Require Import List NArith ZArith Bool String Ascii.
From Verif Require Import Escape Xml Unxml.
From Verif Require XmlSpec.
Import ListNotations.
Open Scope N_scope. Open Scope list_scope.
Import XmlSpec(item, Ch, El).

(** files.go:36-47 File; Size, Uid and Gid: int64 and int (64 bits, as on amd64); the
    unexported modePrivate is not decoded *)
Record file := File {
  fl_path : text; fl_type : text; fl_size : Z; fl_uid : Z; fl_gid : Z; fl_mode : text; fl_hash : text; fl_permanent : text
}.
Section Tags.
Local Open Scope string_scope.
Definition T_file : ty := TStruct [fe "Path" TStr; fe "Type" TStr; fe "Size" TInt; fe "Uid" TInt; fe "Gid" TInt; fe "Mode" TStr; fe "Hash" TStr; fe "Permanent" TStr].
(** files.go:72-74 Files *)
Definition T_files : ty := TStruct [fe "File" (TSlice (TPtr T_file))].
End Tags.
Definition as_file (v : val) : file :=
  let v := match v with VPtr (Some x) => x | _ => v end in
  File (as_str v.[0]) (as_str v.[1]) (as_int v.[2]) (as_int v.[3]) (as_int v.[4]) (as_str v.[5]) (as_str v.[6]) (as_str v.[7]).

(** files.go:51-53 IsDir *)
Definition is_dir (f : file) : bool := match fl_hash f with [] => true | _ => false end.
(** strconv.ParseUint(s, 8, 32) *)
Fixpoint octal_digits (t : text) (acc : N) : option N :=
  match t with [] => Some acc | c :: u => if within 48 55 c then octal_digits u (acc * 8 + (c - 48)) else None end.
Definition parse_octal (t : text) : option N :=
  match t with
  | [] => None
  | _ => match octal_digits t 0 with Some n => if n <? 4294967296 then Some n else None | None => None end
  end.
(** files.go:55-62 initFileMode for every file, until one fails *)
Fixpoint init_modes (l : list file) : option (list (file * N)) :=
  match l with
  | [] => Some []
  | f :: l' => match parse_octal (fl_mode f) with Some m => option_map (cons (f, m)) (init_modes l') | None => None end
  end.
(** package.go:130-156 ReadFiles, from the decoder on: the files with their FileMode *)
Definition read_files (i : item) : option (list (file * N)) :=
  match unmarshal T_files (zero T_files) i with
  | Some v => init_modes (as_list as_file v.[0])
  | None => None
  end.
