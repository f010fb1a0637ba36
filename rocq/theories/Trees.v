(** * Trees: walking and pruning directory trees
    Models the file walk of the client's import command
    (src/ferryctl/cmd/import.go) and RemovePackageParents
    (src/ferryd/core/util.go:76-100).

    Simplifications: no symbolic links, devices or sockets (os.Open follows
    links; a tree has none); the tree does not change while it is walked;
    file descriptors are not exhausted. *)
From Verif Require Import Base Paths.
From Verif Require Import Transit.
Open Scope string_scope. Open Scope list_scope.

(** A file system tree. The flag says whether os.Open, Stat and (for a
    directory) Readdirnames / ReadDir succeed on the node. The entries of a
    directory are in the order the kernel returns them. *)
Inductive node :=
| File (readable : bool)
| Dir (readable : bool) (entries : list (string * node)).

Definition readable (n : node) : bool := match n with File b => b | Dir b _ => b end.

Fixpoint lookup (x : string) (es : list (string * node)) : option node :=
  match es with
  | [] => None
  | (y, n) :: es' => if seqb x y then Some n else lookup x es'
  end.

(** what the kernel finds when it walks the components from a node *)
Fixpoint find (n : node) (l : list string) : option node :=
  match l with
  | [] => Some n
  | x :: l' => match n with
               | File _ => None
               | Dir _ es => match lookup x es with Some m => find m l' | None => None end
               end
  end.

(** import.go:65 and its comment "Not a delta" *)
Definition eopkg_suffix : string := "x86_64.eopkg".

(** src/ferryctl/cmd/import.go:43-75 GetEopkgs on the node the path denotes:
    the files and whether getErr is set. fileInfo.Name() (65) is the base of
    the path. A nested error drops that entry's files and goes on (57-61). *)
Fixpoint get_eopkgs (path : string) (n : node) {struct n} : list string * bool :=
  match n with
  | File false => ([], true)
  | Dir false _ => ([], true)
  | File true => (if has_suffix eopkg_suffix (base path) then [path] else [], false)
  | Dir true es =>
      (fix walk (es : list (string * node)) : list string * bool :=
         match es with
         | [] => ([], false)
         | (x, m) :: es' =>
             let '(fs, e) := get_eopkgs (join path x) m in
             let '(fs', e') := walk es' in
             if e then (fs', true) else (fs ++ fs', e')
         end) es
  end.

(** filepath.Abs (Go standard library, Unix) in working directory [cwd] *)
Definition filepath_abs (cwd p : string) : string :=
  if has_prefix "/" p then clean p else join cwd p.

(** the components the kernel walks for an absolute, cleaned path *)
Definition comps (p : string) : list string :=
  filter (fun x => negb (seqb x "")) (split_slash p).

Definition get_at (root : node) (path : string) : list string * bool :=
  match find root (comps path) with
  | None => ([], true)        (* os.Open fails: no such file *)
  | Some n => get_eopkgs path n
  end.

(** import.go:88-102, the loop over args[1:]: [None] when the command gives up *)
Fixpoint collect (root : node) (cwd : string) (args : list string) : option (list string) :=
  match args with
  | [] => Some []
  | a :: args' =>
      let '(fs, e) := get_at root (filepath_abs cwd a) in
      if e then None
      else match collect root cwd args' with
           | None => None
           | Some l => Some (fs ++ l)
           end
  end.

(** import.go:77-108 importEx: the request the command sends, if any (the
    repository and the paths); [args] is the command line after "import" *)
Definition import_request (root : node) (cwd : string) (args : list string)
  : option (string * list string) :=
  match args with
  | repo :: ((_ :: _) as paths) =>
      match collect root cwd paths with
      | Some l => Some (repo, l)
      | None => None
      end
  | _ => None
  end.

(** ** Removal of empty parents *)

(** remove the entry at the given components (rmdir/unlink in the parent) *)
Fixpoint drop_entry (x : string) (es : list (string * node)) : list (string * node) :=
  match es with
  | [] => []
  | (y, n) :: es' => if seqb x y then es' else (y, n) :: drop_entry x es'
  end.
Fixpoint set_entry (x : string) (m : node) (es : list (string * node)) : list (string * node) :=
  match es with
  | [] => []
  | (y, n) :: es' => if seqb x y then (y, m) :: es' else (y, n) :: set_entry x m es'
  end.
Fixpoint detach (n : node) (l : list string) : node :=
  match l, n with
  | _, File _ => n
  | [], _ => n
  | [x], Dir b es => Dir b (drop_entry x es)
  | x :: l', Dir b es =>
      match lookup x es with
      | Some m => Dir b (set_entry x (detach m l') es)
      | None => n
      end
  end.

(** os.Remove: removes a file or an empty directory; the root directory cannot
    be removed; [deny] says where the kernel refuses (permissions, mount
    points, read-only file systems). Returns the tree and whether it worked. *)
Definition os_remove (deny : string -> bool) (root : node) (p : string) : node * bool :=
  if deny p then (root, false)
  else match comps p with
       | [] => (root, false)
       | l => match find root l with
              | Some (File _) => (detach root l, true)
              | Some (Dir _ []) => (detach root l, true)
              | _ => (root, false)
              end
       end.

(** ioutil.ReadDir: the number of entries, or an error *)
Definition read_dir (root : node) (p : string) : option nat :=
  match find root (comps p) with
  | Some (Dir true es) => Some (List.length es)
  | _ => None
  end.

(** util.go:87-98, one directory: the tree and whether to go on *)
Definition remove_if_empty (deny : string -> bool) (root : node) (p : string) : node * bool :=
  match read_dir root p with
  | None => (root, false)
  | Some (S _) => (root, true)
  | Some 0 => os_remove deny root p
  end.

(** util.go:78-100 RemovePackageParents: the tree and whether it returned nil *)
Definition remove_package_parents (deny : string -> bool) (root : node) (path : string) : node * bool :=
  let sourceDir := dirname path in
  let letterDir := dirname sourceDir in
  let '(root1, ok) := remove_if_empty deny root sourceDir in
  if ok then remove_if_empty deny root1 letterDir else (root1, false).
