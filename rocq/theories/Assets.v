(** * Assets: components.xml and groups.xml

    Executable model of libeopkg/main.go FixMissingLocalLanguage and of
    libeopkg/components.go and groups.go after the XML decoder. No proofs. *)
From Verif Require Import Base.
Local Open Scope string_scope. Local Open Scope list_scope.

(** libeopkg/main.go:42-45 LocalisedField *)
Record lfield := LField { lf_value : string; lf_lang : string }.
(** libeopkg/main.go:49-57 FixMissingLocalLanguage. The pointer is never nil
    (all callers pass the address of a field), so an empty list is indexed at 0:
    panic. *)
Definition fix_language (l : list lfield) : res (list lfield) :=
  match l with
  | [] => Panic
  | f :: t => Ok ((if seqb (lf_lang f) "" then LField (lf_value f) "en" else f) :: t)
  end.

(** libeopkg/components.go:26-44 Component; [c_rest] holds Group and Maintainer *)
Record component := Component {
  c_name : string;
  c_lname : list lfield;
  c_summary : list lfield;
  c_descr : list lfield;
  c_rest : string
}.
(** libeopkg/groups.go:26-33 Group *)
Record group := Group { g_name : string; g_lname : list lfield; g_icon : string }.

(** components.go:82-85 the body of the loop of NewComponents *)
Definition fix_component (c : component) : res component :=
  match fix_language (c_lname c) with
  | Ok a => match fix_language (c_summary c) with
            | Ok b => match fix_language (c_descr c) with
                      | Ok d => Ok (Component (c_name c) a b d (c_rest c))
                      | Err => Err | Panic => Panic
                      end
            | Err => Err | Panic => Panic
            end
  | Err => Err | Panic => Panic
  end.
(** groups.go:70-71 the body of the loop of NewGroups *)
Definition fix_group (g : group) : res group :=
  match fix_language (g_lname g) with
  | Ok a => Ok (Group (g_name g) a (g_icon g))
  | Err => Err | Panic => Panic
  end.
Fixpoint fix_all {A} (f : A -> res A) (l : list A) : res (list A) :=
  match l with
  | [] => Ok []
  | x :: l' => match f x with
               | Ok y => match fix_all f l' with Ok t => Ok (y :: t) | Err => Err | Panic => Panic end
               | Err => Err | Panic => Panic
               end
  end.

(** components.go:66-88 NewComponents / groups.go:56-74 NewGroups: decode (opening
    the file is part of [decode]), sort by name, fix the languages. [sort] is Go's
    sort.Sort: deterministic, not stable. *)
Definition load_asset {A} (decode : string -> option (list A)) (sort : list A -> list A) (fix1 : A -> res A) (c : string) : res (list A) :=
  match decode c with
  | None => Err
  | Some l => fix_all fix1 (sort l)
  end.
