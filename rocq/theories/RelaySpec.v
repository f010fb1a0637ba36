(** * RelaySpec: a Package element of the index and the metadata.xml it comes from

    [l]: the Package elements of metadata.xml (there should be one); [e]: the
    element in the index. *)
From Coq Require Import List NArith ZArith Bool String Ascii.
From Verif Require Import Escape Xml Unxml UnxmlSpec.
From Verif Require XmlSpec.
Import ListNotations.
Open Scope N_scope. Open Scope list_scope.
Import XmlSpec(item, children, text_in, attribute, number, attr_number, says_number).
Local Open Scope string_scope.

(** the texts of the children of that name; an attribute, empty if absent *)
Definition texts (n : string) (e : item) : list text := map text_in (children n e).
Definition attr (n : string) (e : item) : text := match attribute n e with Some w => w | None => [] end.
Definition under (a n : string) (e : item) : list item := flat_map (children n) (children a e).

Definition relayed_dep (d k : item) : Prop :=
  text_in k = text_in d /\
  (forall n, In n ["releaseFrom"; "releaseTo"; "release"] -> exists z, int_value n [d] z /\ attr_number k n z) /\
  (forall n, In n ["versionFrom"; "versionTo"; "version"] -> attr n k = value false n [d]).
Definition relayed_action (c k : item) : Prop := text_in k = text_in c /\ attr "package" k = value false "package" [c].
Definition relayed_update (u k : item) : Prop :=
  (exists z w, int_value "release" [u] z /\ attribute "release" k = Some w /\ number w = Some z) /\
  attr "type" k = value false "type" [u] /\
  (forall n, In n ["Date"; "Version"; "Comment"; "Name"; "Email"] -> texts n k = [text_below n [u]]) /\
  Forall2 relayed_action (inner "Action" (inner "Requires" [u])) (under "Requires" "Action" k).
Definition relayed_comar (c k : item) : Prop := text_in k = text_in c /\ attr "script" k = value false "script" [c].
(** translations: without the blanks around; the first without language is English *)
Definition relayed_text (s k : item) : Prop := text_in k = trim (text_in s) /\ attr "xml:lang" k = value true "lang" [s].
Definition relayed_texts (l ks : list item) : Prop :=
  match l, ks with
  | s :: t, k :: kt => text_in k = trim (text_in s) /\
      attr "xml:lang" k = (match value true "lang" [s] with [] => txt "en" | x => x end) /\ Forall2 relayed_text t kt
  | _, _ => False
  end.
Record relayed (l : list item) (e : item) : Prop := {
  re_plain : forall n, In n ["Name"; "BuildHost"; "Distribution"; "DistributionRelease"; "Architecture"; "PackageFormat"] -> texts n e = [text_below n l];
  re_opt : forall n, In n ["IsA"; "PartOf"] -> texts n e = match text_below n l with [] => [] | t => [t] end;
  re_license : texts "License" e = map text_in (inner "License" l);
  re_summary : relayed_texts (inner "Summary" l) (children "Summary" e);
  re_descr : relayed_texts (inner "Description" l) (children "Description" e);
  re_deps : Forall2 relayed_dep (inner "Dependency" (inner "RuntimeDependencies" l)) (under "RuntimeDependencies" "Dependency" e);
  re_conflicts : map text_in (under "Conflicts" "Package" e) = map text_in (inner "Package" (inner "Conflicts" l));
  re_replaces : map text_in (under "Replaces" "Package" e) = map text_in (inner "Package" (inner "Replaces" l));
  re_comar : Forall2 relayed_comar (inner "COMAR" (inner "Provides" l)) (under "Provides" "COMAR" e);
  re_pc : map text_in (under "Provides" "PkgConfig" e) = map text_in (inner "PkgConfig" (inner "Provides" l));
  re_pc32 : map text_in (under "Provides" "PkgConfig32" e) = map text_in (inner "PkgConfig32" (inner "Provides" l));
  re_history : Forall2 relayed_update (inner "Update" (inner "History" l)) (under "History" "Update" e);
  re_isize : exists z, int_below "InstalledSize" l z /\ says_number e "InstalledSize" z;
  re_source : map text_in (under "Source" "Name" e) = [text_below "Name" (inner "Source" l)];
  re_homepage : map text_in (under "Source" "Homepage" e) = match text_below "Homepage" (inner "Source" l) with [] => [] | t => [t] end;
  re_packager : forall n, In n ["Name"; "Email"] ->
    map text_in (flat_map (under "Packager" n) (children "Source" e)) = [text_below n (inner "Packager" (inner "Source" l))]
}.
(** pool.go:216-218 and repo_index.go:161-163: what is set besides *)
Definition indexed (p : package) (hash uri : text) (size : Z) (ds : option (list delta)) : package :=
  Package (m_name p) (m_summary p) (m_descr p) (m_isa p) (m_partof p) (m_license p) (m_deps p) (m_conflicts p) (m_replaces p) (m_provides p) (m_history p)
    (m_host p) (m_distro p) (m_distrel p) (m_arch p) (m_isize p) size hash uri ds (m_format p) (m_source p).
(** the asset files *)
Definition relayed_names (xml : bool) (l ks : list item) : Prop :=
  Forall2 (fun s k => text_in k = text_in s /\ attr (if xml then "xml:lang" else "lang") k = value xml "lang" [s]) l ks.
Definition relayed_distribution (i k : item) : Prop :=
  (forall n, In n ["SourceName"; "Version"; "Type"; "BinaryName"] -> texts n k = [text_below n [i]]) /\
  relayed_names false (inner "Description" [i]) (children "Description" k) /\
  map text_in (under "Obsoletes" "Package" k) = map text_in (inner "Package" (inner "Obsoletes" [i])).
Definition relayed_component (c k : item) : Prop :=
  (forall n, In n ["Name"; "Group"] -> texts n k = [text_below n [c]]) /\
  (forall n, In n ["LocalName"; "Summary"; "Description"] -> relayed_names true (inner n [c]) (children n k)) /\
  (forall n, In n ["Name"; "Email"] -> map text_in (under "Maintainer" n k) = [text_below n (inner "Maintainer" [c])]).
Definition relayed_group (g k : item) : Prop :=
  (forall n, In n ["Name"; "Icon"] -> texts n k = [text_below n [g]]) /\ relayed_names true (inner "LocalName" [g]) (children "LocalName" k).
