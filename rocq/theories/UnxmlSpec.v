(** * UnxmlSpec: what an XML document states about packages and assets

    Questions to a tree of elements, without order of evaluation, types or tags.
    A field takes all elements of its name (any prefix of names is ignored, the
    last one counts where there is one value); absent is empty or zero. *)
From Coq Require Import List NArith ZArith Bool String Ascii.
From Verif Require Import Escape Xml Unxml.
From Verif Require XmlSpec.
Import ListNotations.
Open Scope N_scope. Open Scope list_scope.
Import XmlSpec(item, Ch, El, text_in).
Local Open Scope string_scope.

(** the elements of that name among the children of the given elements *)
Definition inner (n : string) (l : list item) : list item :=
  flat_map (fun i => match i with El _ _ b => filter (fun x => match x with El m _ _ => same_text (local m) (txt n) | Ch _ => false end) b | Ch _ => [] end) l.
(** the last value *)
Definition newest {A} (d : A) (l : list A) : A := last l d.
Definition text_below (n : string) (l : list item) : text := newest [] (map text_in (inner n l)).
(** the values of an attribute: of any prefix, or only of the prefix xml *)
Definition values (xml : bool) (n : string) (l : list item) : list text :=
  flat_map (fun i => match i with
    | El _ a _ => map snd (filter (fun x => same_text (local (fst x)) (txt n) && (negb xml || xml_space (fst x))) a) | Ch _ => [] end) l.
Definition value (xml : bool) (n : string) (l : list item) : text := newest [] (values xml n l).
(** a number: nothing is zero; blanks around it and a plus are allowed; 64 bits *)
Definition int_of (t : text) (z : Z) : Prop := (t = [] /\ z = 0%Z) \/ parse_int (trim t) = Some z.
Definition ints_of (l : list text) (z : Z) : Prop :=
  Forall (fun w => exists y, int_of w y) l /\ match rev l with [] => z = 0%Z | w :: _ => int_of w z end.
Definition int_below (n : string) (l : list item) (z : Z) : Prop := ints_of (map text_in (inner n l)) z.
Definition int_value (n : string) (l : list item) (z : Z) : Prop := ints_of (values false n l) z.
(** a list, or nothing if there is no element *)
Definition some_if {A} (S : item -> A -> Prop) (l : list item) (o : option (list A)) : Prop :=
  match l with [] => o = None | _ => exists x, o = Some x /\ Forall2 S l x end.
Definition is_text (i : item) (t : text) : Prop := t = text_in i.

Definition states_lfield (xml : bool) (i : item) (f : lfield) : Prop := f_value f = text_in i /\ f_lang f = value xml "lang" [i].
Definition states_dep (i : item) (d : dependency) : Prop :=
  d_name d = text_in i /\ int_value "releaseFrom" [i] (d_relfrom d) /\ int_value "releaseTo" [i] (d_relto d) /\ int_value "release" [i] (d_rel d) /\
  d_verfrom d = value false "versionFrom" [i] /\ d_verto d = value false "versionTo" [i] /\ d_ver d = value false "version" [i].
Definition states_action (i : item) (a : action) : Prop := ac_value a = text_in i /\ ac_package a = value false "package" [i].
Definition states_update (i : item) (u : update) : Prop :=
  int_value "release" [i] (u_release u) /\ u_type u = value false "type" [i] /\
  u_date u = text_below "Date" [i] /\ u_version u = text_below "Version" [i] /\ u_comment u = text_below "Comment" [i] /\
  u_name u = text_below "Name" [i] /\ u_email u = text_below "Email" [i] /\ some_if states_action (inner "Action" (inner "Requires" [i])) (u_requires u).
Definition states_comar (i : item) (c : comar) : Prop := co_value c = text_in i /\ co_script c = value false "script" [i].
Definition states_delta (i : item) (d : delta) : Prop :=
  int_value "releaseFrom" [i] (dl_from d) /\ dl_uri d = text_below "PackageURI" [i] /\ int_below "PackageSize" [i] (dl_size d) /\
  dl_hash d = text_below "PackageHash" [i].
Definition states_source (l : list item) (s : source) : Prop :=
  s_name s = text_below "Name" l /\ s_homepage s = text_below "Homepage" l /\
  pk_name (s_packager s) = text_below "Name" (inner "Packager" l) /\ pk_email (s_packager s) = text_below "Email" (inner "Packager" l).
Definition states_provides (l : list item) (o : option provides) : Prop :=
  match l with
  | [] => o = None
  | _ => exists p, o = Some p /\ Forall2 states_comar (inner "COMAR" l) (pr_comar p) /\
           pr_pc p = map text_in (inner "PkgConfig" l) /\ pr_pc32 p = map text_in (inner "PkgConfig32" l)
  end.
(** [l]: the Package elements, of which there should be one *)
Definition states_package (l : list item) (p : package) : Prop :=
  m_name p = text_below "Name" l /\ Forall2 (states_lfield true) (inner "Summary" l) (m_summary p) /\
  Forall2 (states_lfield true) (inner "Description" l) (m_descr p) /\
  m_isa p = text_below "IsA" l /\ m_partof p = text_below "PartOf" l /\ m_license p = map text_in (inner "License" l) /\
  some_if states_dep (inner "Dependency" (inner "RuntimeDependencies" l)) (m_deps p) /\
  some_if is_text (inner "Package" (inner "Conflicts" l)) (m_conflicts p) /\ some_if is_text (inner "Package" (inner "Replaces" l)) (m_replaces p) /\
  states_provides (inner "Provides" l) (m_provides p) /\ Forall2 states_update (inner "Update" (inner "History" l)) (m_history p) /\
  m_host p = text_below "BuildHost" l /\ m_distro p = text_below "Distribution" l /\ m_distrel p = text_below "DistributionRelease" l /\
  m_arch p = text_below "Architecture" l /\ int_below "InstalledSize" l (m_isize p) /\ int_below "PackageSize" l (m_psize p) /\
  m_hash p = text_below "PackageHash" l /\ m_uri p = text_below "PackageURI" l /\
  some_if states_delta (inner "Delta" (inner "DeltaPackages" l)) (m_deltas p) /\ m_format p = text_below "PackageFormat" l /\
  states_source (inner "Source" l) (m_source p).
Definition states_component (i : item) (c : component) : Prop :=
  c_name c = text_below "Name" [i] /\ Forall2 (states_lfield true) (inner "LocalName" [i]) (c_lname c) /\
  Forall2 (states_lfield true) (inner "Summary" [i]) (c_summary c) /\ Forall2 (states_lfield true) (inner "Description" [i]) (c_descr c) /\
  c_group c = text_below "Group" [i] /\ c_mname c = text_below "Name" (inner "Maintainer" [i]) /\ c_mmail c = text_below "Email" (inner "Maintainer" [i]).
Definition states_group (i : item) (g : group) : Prop :=
  g_name g = text_below "Name" [i] /\ Forall2 (states_lfield true) (inner "LocalName" [i]) (g_lname g) /\ g_icon g = text_below "Icon" [i].
(** the language is taken from an attribute lang of any prefix *)
Definition states_distribution (i : item) (x : distribution) : Prop :=
  x_source x = text_below "SourceName" [i] /\ Forall2 (states_lfield false) (inner "Description" [i]) (x_descr x) /\
  x_version x = text_below "Version" [i] /\ x_type x = text_below "Type" [i] /\ x_binary x = text_below "BinaryName" [i] /\
  x_obsoletes x = map text_in (inner "Package" (inner "Obsoletes" [i])).

(** the texts in the place of numbers *)
Definition numbers (l : list item) : list text :=
  (  flat_map (fun d => values false "releaseFrom" [d] ++ values false "releaseTo" [d] ++ values false "release" [d]) (inner "Dependency" (inner "RuntimeDependencies" l)) ++
  flat_map (fun u => values false "release" [u]) (inner "Update" (inner "History" l)) ++
  map text_in (inner "InstalledSize" l) ++ map text_in (inner "PackageSize" l) ++
  flat_map (fun d => values false "releaseFrom" [d] ++ map text_in (inner "PackageSize" [d])) (inner "Delta" (inner "DeltaPackages" l)))%list.
Definition is_number (t : text) : Prop := exists z, int_of t z.
(** translations: blanks around the texts are dropped, the first is English if no
    language is given *)
Definition tidy (l l' : list lfield) : Prop :=
  match l, l' with
  | f :: t, f' :: t' => f_value f' = trim (f_value f) /\ f_lang f' = (match f_lang f with [] => txt "en" | x => x end) /\
      Forall2 (fun a b => f_value b = trim (f_value a) /\ f_lang b = f_lang a) t t'
  | _, _ => False
  end.
(** the package with other translations *)
Definition retext (q : package) (s d : list lfield) : package :=
  Package (m_name q) s d (m_isa q) (m_partof q) (m_license q) (m_deps q) (m_conflicts q) (m_replaces q) (m_provides q) (m_history q)
    (m_host q) (m_distro q) (m_distrel q) (m_arch q) (m_isize q) (m_psize q) (m_hash q) (m_uri q) (m_deltas q) (m_format q) (m_source q).
