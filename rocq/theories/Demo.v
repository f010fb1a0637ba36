(** * Demo: a concrete environment and histories, used for the non-vacuity
    examples and as witnesses of the [_refuted] theorems. *)
From Verif Require Import Model Spec.
Open Scope string_scope.

Definition mk_meta (name src : string) (rel : Z) : meta :=
  Meta name src [Update rel "1.0"] "1" "x86_64" "" [] 0 "" "".

(** The catalog of the demo: what each file name stands for. *)
Definition demo_cat (id : string) : meta :=
  if seqb id "nano-1.eopkg" then mk_meta "nano" "nano" 1
  else if seqb id "nano-2.eopkg" then mk_meta "nano" "nano" 2
  else if seqb id "nano-3.eopkg" then mk_meta "nano" "nano" 3
  else if seqb id "nano-dbginfo-1.eopkg" then mk_meta "nano-dbginfo" "nano" 1
  else if seqb id "nano-dbginfo-2.eopkg" then mk_meta "nano-dbginfo" "nano" 2
  else if seqb id "libx-1.eopkg" then mk_meta "libx" "libx" 1
  else if seqb id "old-1.eopkg" then mk_meta "old" "old" 1
  else if seqb id "old-dbginfo-1.eopkg" then mk_meta "old-dbginfo" "old" 1
  else if seqb id "old-dbginfo-2.eopkg" then mk_meta "old-dbginfo" "old" 2
  else if seqb id "nano-1-2.delta.eopkg" then mk_meta "nano" "nano" 2
  else if seqb id "nano-1-3.delta.eopkg" then mk_meta "nano" "nano" 3
  else mk_meta "misc" "misc" 1.

(** Package files: the content is a short tag. *)
Definition demo_parse (c : string) : res meta :=
  if seqb c "nano1" then Ok (mk_meta "nano" "nano" 1)
  else if seqb c "nano2" then Ok (mk_meta "nano" "nano" 2)
  else if seqb c "nano3" then Ok (mk_meta "nano" "nano" 3)
  else if seqb c "dbg1" then Ok (mk_meta "nano-dbginfo" "nano" 1)
  else if seqb c "dbg2" then Ok (mk_meta "nano-dbginfo" "nano" 2)
  else if seqb c "libx1" then Ok (mk_meta "libx" "libx" 1)
  else if seqb c "old1" then Ok (mk_meta "old" "old" 1)
  else if seqb c "old-dbg1" then Ok (mk_meta "old-dbginfo" "old" 1)
  else if seqb c "old-dbg2" then Ok (mk_meta "old-dbginfo" "old" 2)
  else if seqb c "nano12" then Ok (mk_meta "nano" "nano" 2)   (* delta 1 -> 2 *)
  else if seqb c "nano13" then Ok (mk_meta "nano" "nano" 3)   (* delta 1 -> 3 *)
  else if seqb c "zero" then Ok (mk_meta "zero" "zero" 0)
  else if seqb c "nohist" then Ok (Meta "nohist" "nohist" [] "1" "x86_64" "" [] 0 "" "")
  else if seqb c "nosrc" then Ok (Meta "nosrc" "" [Update 1 "1"] "1" "x86_64" "" [] 0 "" "")
  else Err.

Definition demo_dist (c : string) : option (list string) :=
  if seqb c "obsolete:old" then Some ["old"] else if seqb c "" then None else Some [].

Fixpoint demo_render_pkgs (l : list meta) : string :=
  match l with [] => "" | m :: l' => (m_uri m ++ ";" ++ demo_render_pkgs l')%string end.

(** insertion sort by name *)
Fixpoint ninsert {A} (name : A -> string) (x : A) (l : list A) : list A :=
  match l with
  | [] => [x]
  | y :: l' => if sltb (name y) (name x) then y :: ninsert name x l' else x :: l
  end.
Definition nsort {A} (name : A -> string) (l : list A) : list A := fold_right (ninsert name) [] l.
(** "bare" is a component without a description, a group without a name *)
Definition demo_comps (c : string) : option (list component) :=
  if seqb c "" then None
  else if seqb c "bare" then Some [Component "system.base" [LField "Base" "en"] [LField "Base" "en"] [] ""]
  else if seqb c "two" then Some [Component "system.utils" [LField "Utils" ""] [LField "U" "en"] [LField "U" "en"] "";
                                  Component "system.base" [LField "Base" "en"] [LField "B" ""] [LField "B" "en"] ""]
  else if seqb c "owt" then Some [Component "system.base" [LField "Base" "en"] [LField "B" ""] [LField "B" "en"] "";
                                  Component "system.utils" [LField "Utils" ""] [LField "U" "en"] [LField "U" "en"] ""]
  else Some [].
Definition demo_groups (c : string) : option (list group) :=
  if seqb c "" then None
  else if seqb c "bare" then Some [Group "multimedia" [] "icon"]
  else if seqb c "two" then Some [Group "system" [LField "System" ""] "s"; Group "games" [LField "Games" "en"; LField "Spiele" "de"] "g"]
  else Some [].
Definition demo_env (linkable : bool) : env :=
  Env demo_parse (fun c => "sha1:" ++ c) (fun c => "sha256:" ++ c) (fun _ _ => linkable)
      demo_dist demo_comps (nsort c_name) demo_groups (nsort g_name)
      (fun c => "xz:" ++ c) (fun c => "zst:" ++ c)
      (fun d => "<PISI>" ++ demo_render_pkgs (doc_pkgs d) ++ "</PISI>").

(** descending insertion sort by release *)
Fixpoint rinsert (m : meta) (l : list meta) : list meta :=
  match l with
  | [] => [m]
  | x :: l' => if Z.leb (rel x) (rel m) then m :: l else x :: rinsert m l'
  end.
Definition rsort (l : list meta) : list meta := fold_right rinsert [] l.

Definition demo_oracle : oracle :=
  Oracle (fun l => l) (fun _ => false) (fun _ => false) (Ok tt) rsort.

Definition ext (id : string) : loc := Loc TExt "/up" id.

Definition h_two : list event :=
  [ EvPut (ext "nano-1.eopkg") "nano1"; EvPut (ext "nano-2.eopkg") "nano2";
    EvPut (ext "libx-1.eopkg") "libx1";
    EvOp demo_oracle (OpCreate "unstable");
    EvOp demo_oracle (OpAdd "unstable" [ext "nano-1.eopkg"; ext "nano-2.eopkg"; ext "libx-1.eopkg"] false);
    EvOp demo_oracle (OpClone "unstable" "stable" true) ].
