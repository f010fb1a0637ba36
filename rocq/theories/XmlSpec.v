(** * XmlSpec: what a client finds in the index

    A reader of XML, and what it means that an element of the index describes a
    package, component, group or distribution. Independent of the code. *)
From Coq Require Import List NArith ZArith Bool String Ascii.
From Verif Require Import Escape PropsEscape Xml.
Import ListNotations.
Open Scope N_scope. Open Scope list_scope.

(** ** A reader (XML 1.0, without comments, processing instructions, document
    types and self-closing tags, which make it fail; stricter than XML about [>]) *)
(** content: characters and elements with name, attributes and content *)
Inductive item := Ch (c : N) | El (n : text) (a : list (text * text)) (b : list item).

Definition blank (c : N) : bool := (c =? 32) || (c =? 9) || (c =? 10) || (c =? 13).
Definition name_start (c : N) : bool := within 65 90 c || within 97 122 c || (c =? 95).
Definition name_char (c : N) : bool := name_start c || within 48 58 c || (c =? 45) || (c =? 46).
Definition hex_of (c : N) : option N :=
  if within 48 57 c then Some (c - 48) else if within 65 70 c then Some (c - 55) else if within 97 102 c then Some (c - 87) else None.
Definition dec_of (c : N) : option N := if within 48 57 c then Some (c - 48) else None.
Fixpoint number_in (base : N) (digit : N -> option N) (l : text) (acc : N) : option N :=
  match l with
  | [] => Some acc
  | c :: t => match digit c with Some v => number_in base digit t (acc * base + v) | None => None end
  end.
(** what a reference between ampersand and semicolon stands for *)
Definition meaning (r : text) : option N :=
  let value :=
    if same_text r (txt "amp") then Some 38 else if same_text r (txt "lt") then Some 60 else if same_text r (txt "gt") then Some 62
    else if same_text r (txt "quot") then Some 34 else if same_text r (txt "apos") then Some 39
    else match r with
         | a :: b :: t => if (a =? 35) && (b =? 120) then number_in 16 hex_of t 0
                          else if a =? 35 then number_in 10 dec_of (b :: t) 0 else None
         | _ => None
         end in
  match value with Some v => if xml_char v then Some v else None | None => None end.

(** where the reader is *)
Inductive mode :=
| InText | InRef (r : text) | AfterLt | InMark (k : text) | InCdata (brackets : nat)
| InName (n : text) | InTag (n : text) (a : list (text * text)) | InAttr (n : text) (a : list (text * text)) (an : text)
| AfterEq (n : text) (a : list (text * text)) (an : text) | InVal (n : text) (a : list (text * text)) (an v : text)
| InValRef (n : text) (a : list (text * text)) (an v r : text) | AfterVal (n : text) (a : list (text * text))
| InClose (n : text).
(** mode, content read so far, and the open elements around with what preceded them *)
Record reader := Reader { r_mode : mode; r_here : list item; r_open : list (text * list (text * text) * list item) }.

Definition push (r : reader) (m : mode) (l : list item) : option reader := Some (Reader m (r_here r ++ l) (r_open r)).
Definition goto (r : reader) (m : mode) : option reader := Some (Reader m (r_here r) (r_open r)).
Definition open_tag (r : reader) (n : text) (a : list (text * text)) : option reader :=
  Some (Reader InText [] ((n, a, r_here r) :: r_open r)).
Definition read_char (r : reader) (c : N) : option reader :=
  if negb (xml_char c) then None else
  match r_mode r with
  | InText =>
      if c =? 60 then goto r AfterLt
      else match r_open r with
           | [] => if blank c then push r InText [Ch c] else None
           | _ => if c =? 38 then goto r (InRef []) else if c =? 62 then None else push r InText [Ch c]
           end
  | InRef x => if c =? 59 then match meaning x with Some v => push r InText [Ch v] | None => None end else goto r (InRef (x ++ [c]))
  | AfterLt =>
      if c =? 47 then goto r (InClose [])
      else if c =? 33 then match r_open r with [] => None | _ => goto r (InMark (txt "[CDATA[")) end
      else if name_start c then goto r (InName [c]) else None
  | InMark k =>
      match k with
      | [] => None
      | d :: k' => if c =? d then goto r (match k' with [] => InCdata 0 | _ => InMark k' end) else None
      end
  | InCdata n =>
      if c =? 93 then match n with S (S _) => push r (InCdata 2) [Ch 93] | _ => goto r (InCdata (S n)) end
      else if (c =? 62) && Nat.eqb n 2 then goto r InText
      else push r (InCdata 0) (repeat (Ch 93) n ++ [Ch c])
  | InName n => if name_char c then goto r (InName (n ++ [c])) else if c =? 62 then open_tag r n [] else if blank c then goto r (InTag n []) else None
  | InTag n a => if name_start c then goto r (InAttr n a [c]) else if c =? 62 then open_tag r n a else if blank c then goto r (InTag n a) else None
  | InAttr n a an =>
      if name_char c then goto r (InAttr n a (an ++ [c]))
      else if (c =? 61) && negb (existsb (fun x => same_text (fst x) an) a) then goto r (AfterEq n a an) else None
  | AfterEq n a an => if c =? 34 then goto r (InVal n a an []) else None
  | InVal n a an v =>
      if c =? 34 then goto r (AfterVal n (a ++ [(an, v)]))
      else if c =? 38 then goto r (InValRef n a an v [])
      else if c =? 60 then None
      else goto r (InVal n a an (v ++ [if blank c then 32 else c]))
  | InValRef n a an v x =>
      if c =? 59 then match meaning x with Some w => goto r (InVal n a an (v ++ [w])) | None => None end else goto r (InValRef n a an v (x ++ [c]))
  | AfterVal n a => if c =? 62 then open_tag r n a else if blank c then goto r (InTag n a) else None
  | InClose n =>
      if c =? 62 then
        match r_open r with
        | (n', a, before) :: rest => if same_text n n' then Some (Reader InText (before ++ [El n' a (r_here r)]) rest) else None
        | [] => None
        end
      else goto r (InClose (n ++ [c]))
  end.
Fixpoint read_chars (r : reader) (l : text) : option reader :=
  match l with [] => Some r | c :: t => match read_char r c with Some r' => read_chars r' t | None => None end end.
(** ends of lines are line feeds *)
Fixpoint lines (l : text) : text :=
  match l with
  | [] => []
  | c :: t => if c =? 13 then match t with d :: _ => if d =? 10 then lines t else 10 :: lines t | [] => [10] end else c :: lines t
  end.
(** a document is one element with blanks around it *)
Definition is_element (i : item) : bool := match i with El _ _ _ => true | Ch _ => false end.
Definition read_xml (l : text) : option item :=
  match read_chars (Reader InText [] []) (lines l) with
  | Some (Reader InText here []) => match filter is_element here with [e] => Some e | _ => None end
  | _ => None
  end.

(** ** Questions to an element *)
Definition named (n : string) (i : item) : bool := match i with El m _ _ => same_text m (txt n) | Ch _ => false end.
Definition children (n : string) (i : item) : list item := match i with El _ _ b => filter (named n) b | Ch _ => [] end.
Definition text_in (i : item) : text := match i with El _ _ b => flat_map (fun x => match x with Ch c => [c] | El _ _ _ => [] end) b | Ch c => [c] end.
Definition attribute (n : string) (i : item) : option text :=
  match i with El _ a _ => option_map snd (find (fun x => same_text (fst x) (txt n)) a) | Ch _ => None end.
(** a number in decimal, with a sign if it is negative *)
Definition number (t : text) : option Z :=
  match t with
  | [] => None
  | c :: u => if c =? 45 then match u with [] => None | _ => option_map (fun n => (- Z.of_N n)%Z) (number_in 10 dec_of u 0) end
              else option_map Z.of_N (number_in 10 dec_of t 0)
  end.

(** ** What an element says about a structure
    [P] relates a text to what is read for it where the index has plain text and
    attributes, [C] where it has CDATA sections. *)
Section Describes.
Variable P C : text -> text -> Prop.
Local Open Scope string_scope.

(** the child elements of that name have these texts, in this order *)
Definition says (e : item) (n : string) (l : list text) : Prop := Forall2 (fun v i => P v (text_in i)) l (children n e).
(** a text that is left out when it is empty; a number *)
Definition says_opt (e : item) (n : string) (v : text) : Prop := says e n (match v with [] => [] | _ => [v] end).
Definition says_number (e : item) (n : string) (z : Z) : Prop := exists i, children n e = [i] /\ number (text_in i) = Some z.
(** an attribute that is left out when it is empty, or zero *)
Definition attr_opt (e : item) (n : string) (v : text) : Prop :=
  match v with [] => attribute n e = None | _ => exists w, attribute n e = Some w /\ P v w end.
Definition attr_number (e : item) (n : string) (z : Z) : Prop :=
  if (z =? 0)%Z then attribute n e = None else exists w, attribute n e = Some w /\ number w = Some z.
(** the child elements of that name, one for each value, each as [D] says *)
Definition each {A} (D : A -> item -> Prop) (e : item) (n : string) (l : list A) : Prop := Forall2 D l (children n e).
(** one child element [a], or none, with what is inside *)
Definition inside (e : item) (a : string) (Q : item -> Prop) : Prop := exists i, children a e = [i] /\ Q i.
Definition inside_opt {A} (e : item) (a : string) (o : option A) (Q : A -> item -> Prop) : Prop :=
  match o with None => children a e = [] | Some x => inside e a (Q x) end.

(** translated texts carry the attribute xml:lang (eopkg, PISI's schema) *)
Definition translations (lang : string) (e : item) (n : string) (l : list lfield) : Prop :=
  each (fun f i => C (f_value f) (text_in i) /\ attr_opt i lang (f_lang f)) e n l.
Definition describes_dep (d : dependency) (e : item) : Prop :=
  P (d_name d) (text_in e) /\
  attr_number e "releaseFrom" (d_relfrom d) /\ attr_number e "releaseTo" (d_relto d) /\ attr_number e "release" (d_rel d) /\
  attr_opt e "versionFrom" (d_verfrom d) /\ attr_opt e "versionTo" (d_verto d) /\ attr_opt e "version" (d_ver d).
Definition describes_action (a : action) (e : item) : Prop := P (ac_value a) (text_in e) /\ attr_opt e "package" (ac_package a).
Definition describes_update (u : update) (e : item) : Prop :=
  (exists w, attribute "release" e = Some w /\ number w = Some (u_release u)) /\ attr_opt e "type" (u_type u) /\
  says e "Date" [u_date u] /\ says e "Version" [u_version u] /\ says e "Email" [u_email u] /\
  each (fun v i => C v (text_in i)) e "Comment" [u_comment u] /\ each (fun v i => C v (text_in i)) e "Name" [u_name u] /\
  inside_opt e "Requires" (u_requires u) (fun l i => each describes_action i "Action" l).
Definition describes_provides (p : provides) (e : item) : Prop :=
  each (fun c i => P (co_value c) (text_in i) /\ attr_opt i "script" (co_script c)) e "COMAR" (pr_comar p) /\
  says e "PkgConfig" (pr_pc p) /\ says e "PkgConfig32" (pr_pc32 p).
Definition describes_delta (d : delta) (e : item) : Prop :=
  attr_number e "releaseFrom" (dl_from d) /\ says e "PackageURI" [dl_uri d] /\ says_number e "PackageSize" (dl_size d) /\
  says e "PackageHash" [dl_hash d].
Definition describes_source (s : source) (e : item) : Prop :=
  says e "Name" [s_name s] /\ says_opt e "Homepage" (s_homepage s) /\
  inside e "Packager" (fun i => says i "Name" [pk_name (s_packager s)] /\ says i "Email" [pk_email (s_packager s)]).
Definition describes_package (m : package) (e : item) : Prop :=
  says e "Name" [m_name m] /\ translations "xml:lang" e "Summary" (m_summary m) /\ translations "xml:lang" e "Description" (m_descr m) /\
  says_opt e "IsA" (m_isa m) /\ says_opt e "PartOf" (m_partof m) /\ says e "License" (m_license m) /\
  inside_opt e "RuntimeDependencies" (m_deps m) (fun l i => each describes_dep i "Dependency" l) /\
  inside_opt e "Conflicts" (m_conflicts m) (fun l i => says i "Package" l) /\
  inside_opt e "Replaces" (m_replaces m) (fun l i => says i "Package" l) /\
  match m_provides m with None => children "Provides" e = [] | Some p => inside e "Provides" (describes_provides p) end /\
  inside e "History" (fun i => each describes_update i "Update" (m_history m)) /\
  says e "BuildHost" [m_host m] /\ says e "Distribution" [m_distro m] /\ says e "DistributionRelease" [m_distrel m] /\
  says e "Architecture" [m_arch m] /\ says_number e "InstalledSize" (m_isize m) /\ says_number e "PackageSize" (m_psize m) /\
  says e "PackageHash" [m_hash m] /\ says e "PackageURI" [m_uri m] /\
  inside_opt e "DeltaPackages" (m_deltas m) (fun l i => each describes_delta i "Delta" l) /\
  says e "PackageFormat" [m_format m] /\ inside e "Source" (describes_source (m_source m)).
Definition describes_component (c : component) (e : item) : Prop :=
  says e "Name" [c_name c] /\ translations "xml:lang" e "LocalName" (c_lname c) /\ translations "xml:lang" e "Summary" (c_summary c) /\
  translations "xml:lang" e "Description" (c_descr c) /\ says e "Group" [c_group c] /\
  inside e "Maintainer" (fun i => says i "Name" [c_mname c] /\ says i "Email" [c_mmail c]).
Definition describes_group (g : group) (e : item) : Prop :=
  says e "Name" [g_name g] /\ translations "xml:lang" e "LocalName" (g_lname g) /\ says e "Icon" [g_icon g].
(** [lang]: the attribute that carries the language *)
Definition describes_distribution (lang : string) (x : distribution) (e : item) : Prop :=
  says e "SourceName" [x_source x] /\ translations lang e "Description" (x_descr x) /\ says e "Version" [x_version x] /\
  says e "Type" [x_type x] /\ says e "BinaryName" [x_binary x] /\ inside e "Obsoletes" (fun i => says i "Package" (x_obsoletes x)).
Definition describes_index (lang : string) (x : index) (e : item) : Prop :=
  named "PISI" e = true /\
  each (describes_distribution lang) e "Distribution" (match i_dist x with None => [] | Some d => [d] end) /\
  each describes_package e "Package" (i_packages x) /\ each describes_component e "Component" (i_components x) /\
  each describes_group e "Group" (i_groups x).
End Describes.

(** ** The texts of an index *)
Definition texts_lfields (l : list lfield) : list text := map f_value l.
Definition langs (l : list lfield) : list text := map f_lang l.
Definition opt_list {A} (o : option (list A)) : list A := match o with None => [] | Some l => l end.
(** in CDATA sections *)
Definition free_texts_package (m : package) : list text :=
  texts_lfields (m_summary m) ++ texts_lfields (m_descr m) ++ flat_map (fun u => [u_comment u; u_name u]) (m_history m).
(** elsewhere *)
Definition plain_texts_package (m : package) : list text :=
  [m_name m; m_isa m; m_partof m; m_host m; m_distro m; m_distrel m; m_arch m; m_hash m; m_uri m; m_format m;
   s_name (m_source m); s_homepage (m_source m); pk_name (s_packager (m_source m)); pk_email (s_packager (m_source m))] ++
  langs (m_summary m) ++ langs (m_descr m) ++ m_license m ++
  flat_map (fun d => [d_name d; d_verfrom d; d_verto d; d_ver d]) (opt_list (m_deps m)) ++
  opt_list (m_conflicts m) ++ opt_list (m_replaces m) ++
  match m_provides m with None => [] | Some p => flat_map (fun c => [co_value c; co_script c]) (pr_comar p) ++ pr_pc p ++ pr_pc32 p end ++
  flat_map (fun u => [u_type u; u_date u; u_version u; u_email u] ++ flat_map (fun a => [ac_value a; ac_package a]) (opt_list (u_requires u))) (m_history m) ++
  flat_map (fun d => [dl_uri d; dl_hash d]) (opt_list (m_deltas m)).
Definition free_texts (x : index) : list text :=
  match i_dist x with None => [] | Some d => texts_lfields (x_descr d) end ++ flat_map free_texts_package (i_packages x) ++
  flat_map (fun c => texts_lfields (c_lname c) ++ texts_lfields (c_summary c) ++ texts_lfields (c_descr c)) (i_components x) ++
  flat_map (fun g => texts_lfields (g_lname g)) (i_groups x).
Definition plain_texts (x : index) : list text :=
  match i_dist x with None => [] | Some d => [x_source d; x_version d; x_type d; x_binary d] ++ langs (x_descr d) ++ x_obsoletes d end ++
  flat_map plain_texts_package (i_packages x) ++
  flat_map (fun c => [c_name c; c_group c; c_mname c; c_mmail c] ++ langs (c_lname c) ++ langs (c_summary c) ++ langs (c_descr c)) (i_components x) ++
  flat_map (fun g => [g_name g; g_icon g] ++ langs (g_lname g)) (i_groups x).
(** what a decoder of XML hands over: only characters XML has; a carriage return
    only where the document had a reference to it *)
Definition decoded (x : index) : Prop :=
  Forall (Forall (fun c => xml_char c = true)) (plain_texts x ++ free_texts x) /\ Forall (Forall (fun c => c <> 13)) (free_texts x).

(** ** What becomes of a text
    [cd]: in a CDATA section, where a reference is not one, it is read as it
    stands; [lossy]: every character beyond ASCII may have become replacement
    characters. *)
Inductive garbled (symbol : N -> bool) (lossy cd : bool) : text -> text -> Prop :=
| garbled_end : garbled symbol lossy cd [] []
| garbled_same c v w : cd = false \/ c <= 127 \/ symbol c = false \/ c = rune_error -> garbled symbol lossy cd v w -> garbled symbol lossy cd (c :: v) (c :: w)
| garbled_ref c r v w : cd = true -> 127 < c -> symbol c = true -> c <> rune_error -> meaning r = Some c -> garbled symbol lossy cd v w ->
    garbled symbol lossy cd (c :: v) (38 :: r ++ 59 :: w)
| garbled_lost c k v w : lossy = true -> 127 < c -> (1 <= k)%nat -> garbled symbol lossy cd v w -> garbled symbol lossy cd (c :: v) (repeat rune_error k ++ w).
(** no character that the escaping writer writes as a reference *)
Definition no_symbols (symbol : N -> bool) (v : text) : Prop := Forall (fun c => c <= 127 \/ symbol c = false \/ c = rune_error) v.
Definition ascii_text (v : text) : Prop := Forall (fun c => c < 128) v.
(** the text that the bytes of a file encode, read as XML *)
Definition file_says (f : list N) (e : item) : Prop := exists w, spells f w /\ read_xml w = Some e.
(** an element that is encoded and flushed at once fits the buffer *)
Definition fits (x : index) : Prop := forall l, In l (flushes x) -> (List.length (flat_map (fun c => encode c) (flat_map snd l)) <= N.to_nat 4096)%nat.
