(** * Paths: path/filepath (Unix) and the package path component *)
From Verif Require Import Base.

Definition slash : ascii := "/"%char.

(** strings.Split(s, "/") *)
Fixpoint split_slash (s : string) : list string :=
  match s with
  | EmptyString => [EmptyString]
  | String c s' =>
      if Ascii.eqb c slash then EmptyString :: split_slash s'
      else match split_slash s' with
           | [] => [String c EmptyString]
           | h :: t => String c h :: t
           end
  end.

Fixpoint join_slash (l : list string) : string :=
  match l with
  | [] => ""
  | [x] => x
  | x :: l' => (x ++ "/" ++ join_slash l')%string
  end.

(** One component of the input of filepath.Clean applied to the (reversed)
    output stack: empty and "." vanish, ".." removes the last real element,
    is kept when there is none in a relative path and dropped at the root. *)
Definition clean_step (rooted : bool) (stack : list string) (c : string) : list string :=
  if seqb c "" || seqb c "." then stack
  else if seqb c ".." then
    match stack with
    | top :: rest => if seqb top ".." then c :: stack else rest
    | [] => if rooted then [] else [c]
    end
  else c :: stack.

(** Go standard library filepath.Clean on Unix *)
Definition clean (s : string) : string :=
  if seqb s "" then "."
  else
    let rooted := has_prefix "/" s in
    let out := rev (fold_left (clean_step rooted) (split_slash s) []) in
    let body := join_slash out in
    if rooted then ("/" ++ body)%string
    else if seqb body "" then "." else body.

(** Go standard library filepath.Join (two elements): empty elements are
    ignored, the rest is joined by "/" and cleaned. *)
Definition join (a b : string) : string :=
  if seqb a "" then (if seqb b "" then "" else clean b)
  else if seqb b "" then clean a
  else clean (a ++ "/" ++ b).

Fixpoint strip_trailing (l : list string) : list string :=
  match l with
  | [] => []
  | x :: l' => if seqb x "" then strip_trailing l' else l
  end.

(** Go standard library filepath.Base: last non-empty component *)
Definition base (s : string) : string :=
  if seqb s "" then "."
  else match strip_trailing (rev (split_slash s)) with
       | [] => "/"
       | x :: _ => x
       end.

(** strings.ToLower restricted to ASCII (simplification: other bytes are kept;
    Go also lowers non-ASCII letters). *)
Definition lower_ascii (c : ascii) : ascii :=
  let n := nat_of_ascii c in
  if (65 <=? n) && (n <=? 90) then ascii_of_nat (n + 32) else c.
Fixpoint to_lower (s : string) : string :=
  match s with EmptyString => EmptyString | String c s' => String (lower_ascii c) (to_lower s') end.

(** libeopkg/metadata.go:190-200 GetPathComponent, as a function of
    Source.Name. [nom[0:1]] panics on the empty string. *)
Definition path_component (source_name : string) : res string :=
  let nom := to_lower source_name in
  if seqb nom "" then Panic
  else if has_prefix "lib" nom && (3 <? String.length nom)
  then Ok (join (stake 4 nom) nom)
  else Ok (join (stake 1 nom) nom).
