(** * Listing: ferryctl list repos, ferryctl list pool

    Executable model; no proofs. The listings are read in one database view, so
    they see one state of the database. *)
From Verif Require Import Model.
Open Scope string_scope. Open Scope list_scope.

(** core/repo.go:156-174 GetRepos, handlers.go:101-119: the ID of every stored
    repository, in key order (a repository is stored under its ID, repo.go:226-232) *)
Definition get_repos (s : state) : list string := mkeys (d_repos (st_db s)).
(** Go's conversion of a uint64 to int (64 bit) *)
Definition go_int (n : N) : Z :=
  let m := (Z.of_N n mod 18446744073709551616)%Z in if (m <? 9223372036854775808)%Z then m else (m - 18446744073709551616)%Z.
(** core/pool.go:92-108 GetPoolItems, handlers.go:121-134: name and count of every
    pool entry, in key order *)
Definition get_pool_items (s : state) : list (string * Z) := map (fun kp => (p_name (snd kp), go_int (p_rc (snd kp)))) (mlist (d_pool (st_db s))).

(** what the commands print. [sort]: Go's sort.Strings.
    ferryctl/cmd/list_repos.go:41-64 *)
Inductive printed (A : Type) := Nothing_yet | Lines (l : list A).
Arguments Nothing_yet {A}.
Arguments Lines {A} l.
Definition list_repos (sort : list string -> list string) (s : state) : printed string :=
  match sort (get_repos s) with [] => Nothing_yet | l => Lines l end.
(** ferryctl/cmd/list_pool.go:39-63 *)
Definition list_pool (s : state) : printed (string * Z) :=
  match get_pool_items s with [] => Nothing_yet | l => Lines l end.
