(** * Unxml: decoding metadata.xml, distribution.xml, components.xml, groups.xml

    encoding/xml's Decode (Decoder.unmarshal and unmarshalPath of its read.go), driven
    by the struct tags of src/libeopkg, and what package.go does afterwards.
    The document is given as a tree of elements (XmlSpec.item): tokenizing is not
    modelled. No proofs in this file. *)
From Coq Require Import List NArith ZArith Bool String Ascii.
From Verif Require Import Escape Xml.
From Verif Require XmlSpec.
Import ListNotations.
Open Scope N_scope. Open Scope list_scope.
Import XmlSpec(item, Ch, El).

(** ** Names (encoding/xml nsname): prefix and local part *)
Fixpoint cut_colon (acc n : text) : option (text * text) :=
  match n with [] => None | c :: t => if c =? 58 then Some (acc, t) else cut_colon (acc ++ [c]) t end.
Definition local (n : text) : text :=
  match cut_colon [] n with Some (_ :: _, c :: l) => c :: l | _ => n end.
(** the prefix xml stands for http://www.w3.org/XML/1998/namespace; simplified: no
    other prefix does *)
Definition xml_space (n : text) : bool :=
  match cut_colon [] n with Some (p, _ :: _) => same_text p (txt "xml") | _ => false end.

(** ** strings.TrimSpace, strconv.ParseInt(s, 10, 64) *)
Definition space (c : N) : bool :=
  within 9 13 c || (c =? 32) || (c =? 133) || (c =? 160) || (c =? 5760) || within 8192 8202 c || (c =? 8232) || (c =? 8233) ||
  (c =? 8239) || (c =? 8287) || (c =? 12288).
Fixpoint trim_left (t : text) : text := match t with [] => [] | c :: u => if space c then trim_left u else t end.
Definition trim (t : text) : text := rev (trim_left (rev (trim_left t))).
Fixpoint parse_digits (t : text) (acc : N) : option N :=
  match t with [] => Some acc | c :: u => if within 48 57 c then parse_digits u (acc * 10 + (c - 48)) else None end.
Definition int64 (z : Z) : bool := (- 9223372036854775808 <=? z)%Z && (z <=? 9223372036854775807)%Z.
Definition parse_int (t : text) : option Z :=
  let value := match t with
    | [] => None
    | c :: u =>
        if c =? 45 then match u with [] => None | _ => option_map (fun n => (- Z.of_N n)%Z) (parse_digits u 0) end
        else if c =? 43 then match u with [] => None | _ => option_map Z.of_N (parse_digits u 0) end
        else option_map Z.of_N (parse_digits t 0)
    end in
  match value with Some z => if int64 z then Some z else None | None => None end.

(** ** Types and values, as reflection sees them *)
(** the place of a field: an element below the given elements, an attribute
    (perhaps only in the xml namespace), the text *)
Inductive place := ByElem | ByAttr (xml : bool) | ByText.
Inductive ty := TStr | TInt | TSlice (t : ty) | TPtr (t : ty) | TStruct (fs : list (list string * string * place * ty)).
Definition field : Type := list string * string * place * ty.
Definition f_parents (f : field) : list string := fst (fst (fst f)).
Definition f_name (f : field) : string := snd (fst (fst f)).
Definition f_place (f : field) : place := snd (fst f).
Definition f_ty (f : field) : ty := snd f.
Inductive val := VStr (v : text) | VInt (z : Z) | VList (l : list val) | VPtr (o : option val) | VStruct (l : list val).
Fixpoint zero (t : ty) : val :=
  match t with
  | TStr => VStr [] | TInt => VInt 0 | TSlice _ => VList [] | TPtr _ => VPtr None | TStruct fs => VStruct (map (fun f => zero (snd f)) fs)
  end.

(** read.go copyValue, for strings and ints *)
Definition of_text (t : ty) (d : text) : option val :=
  match t with
  | TStr => Some (VStr d)
  | TInt => match d with [] => Some (VInt 0) | _ => option_map VInt (parse_int (trim d)) end
  | _ => None
  end.
(** one pass over the fields of a struct, which stops at an error *)
Fixpoint each_field (g : field -> val -> option val) (fs : list field) (vs : list val) : option (list val) :=
  match fs, vs with
  | f :: fs', v :: vs' => match g f v with Some x => option_map (cons x) (each_field g fs' vs') | None => None end
  | _, _ => Some []
  end.
(** read.go unmarshal: Assign attributes *)
Definition set_attr (a : text * text) (f : field) (v : val) : option val :=
  match f_place f with
  | ByAttr x => if same_text (local (fst a)) (txt (f_name f)) && (negb x || xml_space (fst a)) then of_text (f_ty f) (snd a) else Some v
  | _ => Some v
  end.
Fixpoint set_attrs (a : list (text * text)) (fs : list field) (vs : list val) : option (list val) :=
  match a with [] => Some vs | x :: a' => match each_field (set_attr x) fs vs with Some vs' => set_attrs a' fs vs' | None => None end end.
(** the field that takes the text, at the end (no struct here has two) *)
Definition set_text (d : text) (f : field) (v : val) : option val := match f_place f with ByText => of_text (f_ty f) d | _ => Some v end.
Definition text_of (b : list item) : text := flat_map (fun x => match x with Ch c => [c] | El _ _ _ => [] end) b.

(** read.go unmarshalPath: the field for an element [n] found below [parents] *)
Inductive hit := Miss | Perfect (i : nat) (t : ty) | Deeper (q : string).
Fixpoint is_prefix (p l : list string) : bool :=
  match p, l with [], _ => true | a :: p', b :: l' => String.eqb a b && is_prefix p' l' | _, _ => false end.
Fixpoint scan (n : text) (parents : list string) (fs : list field) (i : nat) : hit :=
  match fs with
  | [] => Miss
  | f :: fs' =>
      match f_place f with
      | ByElem =>
          if is_prefix parents (f_parents f) then
            if Nat.eqb (List.length (f_parents f)) (List.length parents) && same_text (txt (f_name f)) n then Perfect i (f_ty f)
            else match nth_error (f_parents f) (List.length parents) with
                 | Some q => if same_text (txt q) n then Deeper q else scan n parents fs' (S i)
                 | None => scan n parents fs' (S i)
                 end
          else scan n parents fs' (S i)
      | _ => scan n parents fs' (S i)
      end
  end.
Fixpoint put (i : nat) (x : val) (l : list val) : list val :=
  match l, i with [], _ => [] | _ :: l', O => x :: l' | y :: l', S i' => y :: put i' x l' end.

(** what can be done with an element: decode it into a value of a type; hand it to
    the fields of a struct ([Some None]: not consumed, it is skipped) *)
Record visitor := Visitor {
  v_into : ty -> val -> option val;
  v_path : list field -> list val -> list string -> option (option (list val))
}.
Definition offer (fs : list field) (parents : list string) (x : option visitor) (vs : list val) : option (list val) :=
  match x with
  | None => Some vs
  | Some w => match v_path w fs vs parents with Some (Some vs') => Some vs' | Some None => Some vs | None => None end
  end.
Fixpoint offers (fs : list field) (parents : list string) (l : list (option visitor)) (vs : list val) : option (list val) :=
  match l with [] => Some vs | x :: l' => match offer fs parents x vs with Some vs' => offers fs parents l' vs' | None => None end end.
(** read.go unmarshal *)
Fixpoint into (a : list (text * text)) (d : text) (inner : list (option visitor)) (t : ty) (v : val) : option val :=
  match t with
  | TPtr t' => option_map (fun x => VPtr (Some x)) (into a d inner t' (match v with VPtr (Some x) => x | _ => zero t' end))
  | TSlice t' => option_map (fun x => VList ((match v with VList l => l | _ => [] end) ++ [x])) (into a d inner t' (zero t'))
  | TStruct fs =>
      let vs := match v with VStruct l => l | _ => [] end in
      match set_attrs a fs vs with
      | Some vs1 => match offers fs [] inner vs1 with Some vs2 => option_map VStruct (each_field (set_text d) fs vs2) | None => None end
      | None => None
      end
  | TStr | TInt => of_text t d
  end.
Definition path (n : text) (inner : list (option visitor)) (un : ty -> val -> option val) (fs : list field) (vs : list val) (parents : list string) :
    option (option (list val)) :=
  match scan (local n) parents fs 0 with
  | Miss => Some None
  | Perfect i t => match nth_error vs i with Some v => option_map (fun x => Some (put i x vs)) (un t v) | None => None end
  | Deeper q => option_map Some (offers fs (parents ++ [q]) inner vs)
  end.
Fixpoint visit (i : item) : option visitor :=
  match i with
  | Ch _ => None
  | El n a b =>
      let inner := map visit b in
      let un := into a (text_of b) inner in
      Some (Visitor un (path n inner un))
  end.
Definition unmarshal (t : ty) (v : val) (i : item) : option val := match visit i with Some w => v_into w t v | None => None end.

(** ** The struct tags *)
Section Tags.
Local Open Scope string_scope.
Definition fe (n : string) (t : ty) : field := ([], n, ByElem, t).
Definition fp (p n : string) (t : ty) : field := ([p], n, ByElem, t).
Definition fa (n : string) (t : ty) : field := ([], n, ByAttr false, t).
Definition ft : field := ([], "", ByText, TStr).
(** main.go:42-45 LocalisedField *)
Definition T_lfield : ty := TStruct [ft; ([], "lang", ByAttr true, TStr)].
(** distribution.go:29-32 *)
Definition T_dfield : ty := TStruct [ft; fa "lang" TStr].
(** metadata.go:27-30, 36-40 *)
Definition T_packager : ty := TStruct [fe "Name" TStr; fe "Email" TStr].
Definition T_source : ty := TStruct [fe "Name" TStr; fe "Homepage" TStr; fe "Packager" T_packager].
(** metadata.go:44-56 Dependency *)
Definition T_dep : ty := TStruct [ft; fa "releaseFrom" TInt; fa "releaseTo" TInt; fa "release" TInt; fa "versionFrom" TStr; fa "versionTo" TStr; fa "version" TStr].
(** metadata.go:60-63 Action *)
Definition T_action : ty := TStruct [ft; fa "package" TStr].
(** metadata.go:67-81 Update *)
Definition T_update : ty := TStruct [fa "release" TInt; fa "type" TStr; fe "Date" TStr; fe "Version" TStr; fe "Comment" (TStruct [ft]); fe "Name" (TStruct [ft]);
  fe "Email" TStr; fp "Requires" "Action" (TPtr (TSlice T_action))].
(** metadata.go:84-94 *)
Definition T_comar : ty := TStruct [ft; fa "script" TStr].
Definition T_provides : ty := TStruct [fe "COMAR" (TSlice T_comar); fe "PkgConfig" (TSlice TStr); fe "PkgConfig32" (TSlice TStr)].
(** metadata.go:102-107 Delta *)
Definition T_delta : ty := TStruct [fa "releaseFrom" TInt; fe "PackageURI" TStr; fe "PackageSize" TInt; fe "PackageHash" TStr].
(** metadata.go:111-148 MetaPackage *)
Definition T_package : ty := TStruct [fe "Name" TStr; fe "Summary" (TSlice T_lfield); fe "Description" (TSlice T_lfield); fe "IsA" TStr; fe "PartOf" TStr;
  fe "License" (TSlice TStr); fp "RuntimeDependencies" "Dependency" (TPtr (TSlice T_dep)); fp "Conflicts" "Package" (TPtr (TSlice TStr));
  fp "Replaces" "Package" (TPtr (TSlice TStr)); fe "Provides" (TPtr T_provides); fp "History" "Update" (TSlice T_update);
  fe "BuildHost" TStr; fe "Distribution" TStr; fe "DistributionRelease" TStr; fe "Architecture" TStr; fe "InstalledSize" TInt; fe "PackageSize" TInt;
  fe "PackageHash" TStr; fe "PackageURI" TStr; fp "DeltaPackages" "Delta" (TPtr (TSlice T_delta)); fe "PackageFormat" TStr; fe "Source" T_source].
(** metadata.go:167-170 Metadata *)
Definition T_metadata : ty := TStruct [fe "Source" T_source; fe "Package" T_package].
(** components.go:26-48 *)
Definition T_component : ty := TStruct [fe "Name" TStr; fe "LocalName" (TSlice T_lfield); fe "Summary" (TSlice T_lfield); fe "Description" (TSlice T_lfield);
  fe "Group" TStr; fe "Maintainer" T_packager].
Definition T_components : ty := TStruct [fp "Components" "Component" (TSlice T_component)].
(** groups.go:26-38 *)
Definition T_group : ty := TStruct [fe "Name" TStr; fe "LocalName" (TSlice T_lfield); fe "Icon" TStr].
Definition T_groups : ty := TStruct [fp "Groups" "Group" (TSlice T_group)].
(** distribution.go:25-41 *)
Definition T_distribution : ty := TStruct [fe "SourceName" TStr; fe "Description" (TSlice T_dfield); fe "Version" TStr; fe "Type" TStr; fe "BinaryName" TStr;
  fp "Obsoletes" "Package" (TSlice TStr)].
End Tags.

(** ** Values as the structures of Xml.v *)
Definition as_str (v : val) : text := match v with VStr t => t | _ => [] end.
Definition as_int (v : val) : Z := match v with VInt z => z | _ => 0%Z end.
Definition as_list {A} (f : val -> A) (v : val) : list A := match v with VList l => map f l | _ => [] end.
Definition as_ptr {A} (f : val -> A) (v : val) : option A := match v with VPtr (Some x) => Some (f x) | _ => None end.
Definition as_field (v : val) (i : nat) : val := match v with VStruct l => nth i l (VStr []) | _ => VStr [] end.
Notation "v '.[' i ]" := (as_field v i) (at level 2, i at level 200, left associativity, format "v .[ i ]").
Definition as_lfield (v : val) : lfield := LField (as_str v.[0]) (as_str v.[1]).
Definition as_source (v : val) : source := Source (as_str v.[0]) (as_str v.[1]) (Packager (as_str v.[2].[0]) (as_str v.[2].[1])).
Definition as_dep (v : val) : dependency := Dep (as_str v.[0]) (as_int v.[1]) (as_int v.[2]) (as_int v.[3]) (as_str v.[4]) (as_str v.[5]) (as_str v.[6]).
Definition as_action (v : val) : action := Action (as_str v.[0]) (as_str v.[1]).
Definition as_update (v : val) : update :=
  Update (as_int v.[0]) (as_str v.[1]) (as_str v.[2]) (as_str v.[3]) (as_str v.[4].[0]) (as_str v.[5].[0]) (as_str v.[6]) (as_ptr (as_list as_action) v.[7]).
Definition as_comar (v : val) : comar := Comar (as_str v.[0]) (as_str v.[1]).
Definition as_provides (v : val) : provides := Provides (as_list as_comar v.[0]) (as_list as_str v.[1]) (as_list as_str v.[2]).
Definition as_delta (v : val) : delta := Delta (as_int v.[0]) (as_str v.[1]) (as_int v.[2]) (as_str v.[3]).
Definition as_package (v : val) : package :=
  Package (as_str v.[0]) (as_list as_lfield v.[1]) (as_list as_lfield v.[2]) (as_str v.[3]) (as_str v.[4]) (as_list as_str v.[5])
    (as_ptr (as_list as_dep) v.[6]) (as_ptr (as_list as_str) v.[7]) (as_ptr (as_list as_str) v.[8]) (as_ptr as_provides v.[9]) (as_list as_update v.[10])
    (as_str v.[11]) (as_str v.[12]) (as_str v.[13]) (as_str v.[14]) (as_int v.[15]) (as_int v.[16]) (as_str v.[17]) (as_str v.[18])
    (as_ptr (as_list as_delta) v.[19]) (as_str v.[20]) (as_source v.[21]).
Definition as_component (v : val) : component :=
  Component (as_str v.[0]) (as_list as_lfield v.[1]) (as_list as_lfield v.[2]) (as_list as_lfield v.[3]) (as_str v.[4]) (as_str v.[5].[0]) (as_str v.[5].[1]).
Definition as_group (v : val) : group := Group (as_str v.[0]) (as_list as_lfield v.[1]) (as_str v.[2]).
Definition as_distribution (v : val) : distribution :=
  Distribution (as_str v.[0]) (as_list as_lfield v.[1]) (as_str v.[2]) (as_str v.[3]) (as_str v.[4]) (as_list as_str v.[5]).

(** ** The readers *)
(** main.go:49-57 FixMissingLocalLanguage: an empty list makes it panic *)
Definition fix_lang (l : list lfield) : option (list lfield) :=
  match l with
  | [] => None
  | f :: t => Some (match f_lang f with [] => LField (f_value f) (txt "en") :: t | _ => l end)
  end.
Definition trim_field (f : lfield) : lfield := LField (trim (f_value f)) (f_lang f).
(** outcome of a reader *)
Inductive outcome (A : Type) := Read (x : A) | Fails | Panics.
Arguments Read {A} x. Arguments Fails {A}. Arguments Panics {A}.
(** package.go:93-126 ReadMetadata, from the decoder on: Meta.Package *)
Definition read_metadata (i : item) : outcome package :=
  match unmarshal T_metadata (zero T_metadata) i with
  | None => Fails
  | Some v =>
      let p := as_package v.[1] in
      match fix_lang (map trim_field (m_summary p)), fix_lang (map trim_field (m_descr p)) with
      | Some s, Some d => Read (Package (m_name p) s d (m_isa p) (m_partof p) (m_license p) (m_deps p) (m_conflicts p) (m_replaces p) (m_provides p) (m_history p)
          (m_host p) (m_distro p) (m_distrel p) (m_arch p) (m_isize p) (m_psize p) (m_hash p) (m_uri p) (m_deltas p) (m_format p) (m_source p))
      | _, _ => Panics
      end
  end.
(** distribution.go:44-61 NewDistribution *)
Definition read_distribution (i : item) : option distribution := option_map as_distribution (unmarshal T_distribution (zero T_distribution) i).
(** components.go:67-88, groups.go:57-74, up to the sorting *)
Definition read_components (i : item) : option (list component) :=
  option_map (fun v => as_list as_component v.[0]) (unmarshal T_components (zero T_components) i).
Definition read_groups (i : item) : option (list group) := option_map (fun v => as_list as_group v.[0]) (unmarshal T_groups (zero T_groups) i).
