(** * Xml: the bytes of eopkg-index.xml

    Executable model of core/repo_index.go:218-282 emitIndex from the structures to
    the bytes in the file: which element every field becomes (struct tags of
    libeopkg/metadata.go, main.go, components.go, groups.go, distribution.go), what
    encoding/xml's Encoder writes for them, how its bufio.Writer cuts that into
    Write calls, and what core/escape.go's writer makes of each call (Escape.v).
    Text is a list of code points: the strings come from encoding/xml's decoder,
    which refuses bytes that are not UTF-8. No proofs. *)
From Coq Require Import List NArith ZArith Bool String Ascii.
From Verif Require Import Escape.
Import ListNotations.
Open Scope N_scope. Open Scope list_scope.

Definition text := list N.
Definition txt (s : string) : text := map N_of_ascii (list_ascii_of_string s).
Fixpoint same_text (a b : text) : bool :=
  match a, b with [], [] => true | c :: a', d :: b' => (c =? d) && same_text a' b' | _, _ => false end.

(** ** The structures *)
(** libeopkg/main.go:42-45 LocalisedField *)
Record lfield := LField { f_value : text; f_lang : text }.
(** metadata.go:27-30 Packager *)
Record packager := Packager { pk_name : text; pk_email : text }.
(** metadata.go:36-40 Source *)
Record source := Source { s_name : text; s_homepage : text; s_packager : packager }.
(** metadata.go:44-56 Dependency *)
Record dependency := Dep {
  d_name : text; d_relfrom : Z; d_relto : Z; d_rel : Z; d_verfrom : text; d_verto : text; d_ver : text
}.
(** metadata.go:60-63 Action *)
Record action := Action { ac_value : text; ac_package : text }.
(** metadata.go:67-81 Update *)
Record update := Update {
  u_release : Z; u_type : text; u_date : text; u_version : text; u_comment : text; u_name : text; u_email : text;
  u_requires : option (list action)
}.
(** metadata.go:84-87 COMAR *)
Record comar := Comar { co_value : text; co_script : text }.
(** metadata.go:90-94 Provides *)
Record provides := Provides { pr_comar : list comar; pr_pc : list text; pr_pc32 : list text }.
(** metadata.go:102-107 Delta *)
Record delta := Delta { dl_from : Z; dl_uri : text; dl_size : Z; dl_hash : text }.
(** metadata.go:111-148 MetaPackage *)
Record package := Package {
  m_name : text; m_summary : list lfield; m_descr : list lfield; m_isa : text; m_partof : text; m_license : list text;
  m_deps : option (list dependency); m_conflicts : option (list text); m_replaces : option (list text);
  m_provides : option provides; m_history : list update;
  m_host : text; m_distro : text; m_distrel : text; m_arch : text; m_isize : Z; m_psize : Z; m_hash : text; m_uri : text;
  m_deltas : option (list delta); m_format : text; m_source : source
}.
(** components.go:26-44 Component *)
Record component := Component {
  c_name : text; c_lname : list lfield; c_summary : list lfield; c_descr : list lfield; c_group : text; c_mname : text; c_mmail : text
}.
(** groups.go:26-33 Group *)
Record group := Group { g_name : text; g_lname : list lfield; g_icon : text }.
(** distribution.go:25-41 Distribution (obsmap is unexported and not encoded) *)
Record distribution := Distribution {
  x_source : text; x_descr : list lfield; x_version : text; x_type : text; x_binary : text; x_obsoletes : list text
}.
(** what emitIndex encodes, in order *)
Record index := Index { i_dist : option distribution; i_packages : list package; i_components : list component; i_groups : list group }.

(** ** encoding/xml: from structures to elements *)
(** an element with text (escaped, or in CDATA sections) or with elements in it *)
Inductive xnode :=
| XLeaf (n : string) (a : list (string * text)) (cdata : bool) (v : text)
| XTree (n : string) (a : list (string * text)) (l : list xnode).

(** strconv.FormatInt *)
Fixpoint dec_digits (fuel : nat) (n : N) (acc : text) : text :=
  match fuel with
  | O => acc
  | S f => if n <? 10 then (48 + n) :: acc else dec_digits f (n / 10) ((48 + n mod 10) :: acc)
  end.
Definition decimal (z : Z) : text :=
  let d n := dec_digits (S (N.to_nat (N.size n))) n [] in
  match z with Z0 => [48] | Zpos p => d (Npos p) | Zneg p => 45 :: d (Npos p) end.

(** a field is a list of elements; a string field, one with omitempty, a slice of
    strings, an int field *)
Definition el (n : string) (v : text) : list xnode := [XLeaf n [] false v].
Definition el_opt (n : string) (v : text) : list xnode := match v with [] => [] | _ => el n v end.
Definition els (n : string) (l : list text) : list xnode := flat_map (el n) l.
Definition el_int (n : string) (z : Z) : list xnode := el n (decimal z).
(** a field with a tag of the form A>B: not nil, it is put into an element A, also
    when it is empty *)
Definition under (a : string) (l : list xnode) : list xnode := [XTree a [] l].
Definition under_opt {A} (a : string) (f : A -> list xnode) (o : option A) : list xnode :=
  match o with None => [] | Some x => under a (f x) end.
(** attributes with omitempty *)
Definition at_opt (n : string) (v : text) : list (string * text) := match v with [] => [] | _ => [(n, v)] end.
Definition at_int (n : string) (z : Z) : list (string * text) := if (z =? 0)%Z then [] else [(n, decimal z)].

Section Marshal.
Local Open Scope string_scope.
(** main.go:42-45; the namespace of XML itself is written with the prefix xml *)
Definition marshal_lfield (n : string) (f : lfield) : xnode := XLeaf n (at_opt "xml:lang" (f_lang f)) true (f_value f).
Definition marshal_lfields (n : string) (l : list lfield) : list xnode := map (marshal_lfield n) l.
(** metadata.go:27-40 *)
Definition marshal_source (s : source) : list xnode :=
  [XTree "Source" [] (el "Name" (s_name s) ++ el_opt "Homepage" (s_homepage s) ++
     [XTree "Packager" [] (el "Name" (pk_name (s_packager s)) ++ el "Email" (pk_email (s_packager s)))])%list].
(** metadata.go:44-56 *)
Definition marshal_dep (d : dependency) : xnode :=
  XLeaf "Dependency" (at_int "releaseFrom" (d_relfrom d) ++ at_int "releaseTo" (d_relto d) ++ at_int "release" (d_rel d) ++
     at_opt "versionFrom" (d_verfrom d) ++ at_opt "versionTo" (d_verto d) ++ at_opt "version" (d_ver d))%list false (d_name d).
(** metadata.go:60-63 *)
Definition marshal_action (a : action) : xnode := XLeaf "Action" (at_opt "package" (ac_package a)) false (ac_value a).
(** metadata.go:67-81 *)
Definition marshal_update (u : update) : xnode :=
  XTree "Update" (("release", decimal (u_release u)) :: at_opt "type" (u_type u))
    (el "Date" (u_date u) ++ el "Version" (u_version u) ++ [XLeaf "Comment" [] true (u_comment u)] ++ [XLeaf "Name" [] true (u_name u)] ++
     el "Email" (u_email u) ++ under_opt "Requires" (map marshal_action) (u_requires u))%list.
(** metadata.go:84-94 *)
Definition marshal_provides (p : provides) : xnode :=
  XTree "Provides" [] (map (fun c => XLeaf "COMAR" (at_opt "script" (co_script c)) false (co_value c)) (pr_comar p) ++
     els "PkgConfig" (pr_pc p) ++ els "PkgConfig32" (pr_pc32 p))%list.
(** metadata.go:102-107 *)
Definition marshal_delta (d : delta) : xnode :=
  XTree "Delta" (at_int "releaseFrom" (dl_from d)) (el "PackageURI" (dl_uri d) ++ el_int "PackageSize" (dl_size d) ++ el "PackageHash" (dl_hash d))%list.
(** metadata.go:111-148, encoded as Package by repo_index.go:171-175 *)
Definition marshal_package (m : package) : xnode :=
  XTree "Package" [] (el "Name" (m_name m) ++ marshal_lfields "Summary" (m_summary m) ++ marshal_lfields "Description" (m_descr m) ++
    el_opt "IsA" (m_isa m) ++ el_opt "PartOf" (m_partof m) ++ els "License" (m_license m) ++
    under_opt "RuntimeDependencies" (map marshal_dep) (m_deps m) ++
    under_opt "Conflicts" (els "Package") (m_conflicts m) ++ under_opt "Replaces" (els "Package") (m_replaces m) ++
    match m_provides m with None => [] | Some p => [marshal_provides p] end ++
    under "History" (map marshal_update (m_history m)) ++
    el "BuildHost" (m_host m) ++ el "Distribution" (m_distro m) ++ el "DistributionRelease" (m_distrel m) ++ el "Architecture" (m_arch m) ++
    el_int "InstalledSize" (m_isize m) ++ el_int "PackageSize" (m_psize m) ++ el "PackageHash" (m_hash m) ++ el "PackageURI" (m_uri m) ++
    under_opt "DeltaPackages" (map marshal_delta) (m_deltas m) ++ el "PackageFormat" (m_format m) ++ marshal_source (m_source m))%list.
(** components.go:26-44, repo_index.go:77-88 *)
Definition marshal_component (c : component) : xnode :=
  XTree "Component" [] (el "Name" (c_name c) ++ marshal_lfields "LocalName" (c_lname c) ++ marshal_lfields "Summary" (c_summary c) ++
    marshal_lfields "Description" (c_descr c) ++ el "Group" (c_group c) ++
    [XTree "Maintainer" [] (el "Name" (c_mname c) ++ el "Email" (c_mmail c))])%list.
(** groups.go:26-33, repo_index.go:108-119 *)
Definition marshal_group (g : group) : xnode :=
  XTree "Group" [] (el "Name" (g_name g) ++ marshal_lfields "LocalName" (g_lname g) ++ el "Icon" (g_icon g))%list.
(** distribution.go:25-41, repo_index.go:54-61; the tag of Lang has no namespace *)
Definition marshal_distribution (x : distribution) : xnode :=
  XTree "Distribution" [] (el "SourceName" (x_source x) ++
    map (fun f => XLeaf "Description" (at_opt "lang" (f_lang f)) true (f_value f)) (x_descr x) ++
    el "Version" (x_version x) ++ el "Type" (x_type x) ++ el "BinaryName" (x_binary x) ++ under "Obsoletes" (els "Package" (x_obsoletes x)))%list.
End Marshal.

(** ** encoding/xml: from elements to calls of the buffered writer *)
(** a call: WriteString or WriteByte (false), or Write (true) *)
Definition call := (bool * text)%type.
(** the characters of XML documents *)
Definition xml_char (c : N) : bool :=
  (c =? 9) || (c =? 10) || (c =? 13) || within 32 55295 c || within 57344 65533 c || within 65536 1114111 c.
(** EscapeText and EscapeString: what is written for a character instead of it *)
Definition escaped (c : N) : option text :=
  if c =? 34 then Some (txt "&#34;") else if c =? 39 then Some (txt "&#39;") else if c =? 38 then Some (txt "&amp;")
  else if c =? 60 then Some (txt "&lt;") else if c =? 62 then Some (txt "&gt;")
  else if c =? 9 then Some (txt "&#x9;") else if c =? 10 then Some (txt "&#xA;") else if c =? 13 then Some (txt "&#xD;")
  else if xml_char c then None else Some [rune_error].
(** their calls: the text up to an escaped character, its escape, and so on *)
Fixpoint escape_calls (acc : text) (v : text) : list call :=
  match v with
  | [] => [(false, acc)]
  | c :: t => match escaped c with
              | Some e => (false, acc) :: (true, e) :: escape_calls [] t
              | None => escape_calls (acc ++ [c]) t
              end
  end.
(** emitCDATA: the end mark inside the text is split over two sections *)
Fixpoint cdata_calls (acc : text) (v : text) : list call :=
  match v with
  | [] => [(true, acc)]
  | c :: t =>
      match t with
      | d :: e :: t' =>
          if (c =? 93) && (d =? 93) && (e =? 62) then (true, acc) :: (true, txt "]]]]><![CDATA[>") :: cdata_calls [] t'
          else cdata_calls (acc ++ [c]) t
      | _ => cdata_calls (acc ++ [c]) t
      end
  end.
Definition emit_cdata (v : text) : list call :=
  match v with [] => [] | _ => (true, txt "<![CDATA[") :: cdata_calls [] v ++ [(true, txt "]]>")] end.
(** strings and attributes are written with EscapeString. Simplification: so are
    the texts of Dependency, Action and COMAR, for which the encoder uses EscapeText,
    whose calls are [Write] instead of [WriteString] *)
Definition emit_text (v : text) : list call := escape_calls [] v.
Definition str (s : string) : call := (false, txt s).
Definition emit_attr (a : string * text) : list call := str " " :: str (fst a) :: str "=""" :: emit_text (snd a) ++ [str """"].
Definition emit_start (n : string) (a : list (string * text)) : list call := str "<" :: str n :: flat_map emit_attr a ++ [str ">"].
Definition emit_end (n : string) : list call := [str "<"; str "/"; str n; str ">"].
(** writeIndent; repo_index.go:244 Indent of four blanks twice: prefix and indent *)
Definition newline (depth : nat) : list call := (false, [10]) :: str "    " :: repeat (str "    ") depth.
Fixpoint emit (depth : nat) (x : xnode) : list call :=
  match x with
  | XLeaf n a cd v => newline depth ++ emit_start n a ++ (if cd : bool then emit_cdata v else emit_text v) ++ emit_end n
  | XTree n a l =>
      newline depth ++ emit_start n a ++ flat_map (emit (S depth)) l ++ match l with [] => [] | _ => newline depth end ++ emit_end n
  end.

(** repo_index.go:243-281 emitIndex: one list of calls per flush; every
    EncodeElement flushes, the PISI start tag is flushed with what comes first *)
Definition elements_of (x : index) : list xnode :=
  map marshal_package (i_packages x) ++ map marshal_component (i_components x) ++ map marshal_group (i_groups x).
Definition head_calls (x : index) : list call :=
  str "    " :: emit_start "PISI" [] ++ match i_dist x with None => [] | Some d => emit 1 (marshal_distribution d) end.
Definition tail_calls (x : index) : list call :=
  match i_dist x, elements_of x with None, [] => [] | _, _ => newline 0 end ++ emit_end "PISI".
Definition flushes (x : index) : list (list call) := head_calls x :: map (emit 1) (elements_of x) ++ [tail_calls x].

(** ** bufio.Writer *)
Definition buffer_size : nat := N.to_nat 4096.
(** Write and WriteString: while the bytes do not fit, a Write finding the buffer
    empty passes them on at once, otherwise the buffer is filled and passed on.
    Result: what is passed on, and the buffer. *)
Fixpoint buffer (fuel : nat) (direct : bool) (buf p : list N) : list (list N) * list N :=
  if (List.length p <=? buffer_size - List.length buf)%nat then ([], buf ++ p)
  else match fuel with
       | O => ([], buf ++ p)
       | S f => match buf, direct with
                | [], true => ([p], [])
                | _, _ =>
                    let k := (buffer_size - List.length buf)%nat in
                    let '(out, b) := buffer f direct [] (skipn k p) in
                    ((buf ++ firstn k p) :: out, b)
                end
       end.
Definition utf8 (v : text) : list N := flat_map encode v.
Fixpoint buffered (buf : list N) (l : list call) : list (list N) :=
  match l with
  | [] => match buf with [] => [] | _ => [buf] end   (* Flush *)
  | (direct, v) :: l' =>
      let '(out, b) := buffer (S (List.length (utf8 v))) direct buf (utf8 v) in
      out ++ buffered b l'
  end.

Section Render.
Variable symbol : N -> bool.
(** the bytes of the file: every call goes through the escaping writer *)
Definition render (x : index) : list N := flat_map (fun l => writes symbol (buffered [] l)) (flushes x).
End Render.
