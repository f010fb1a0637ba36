(** * Lock: the lock file that keeps a second daemon out

    Executable model of ferryd/lockfile.go and its use in ferryd/server.go:73-90
    (Bind) and 230-250 (Close), for any number of processes whose system calls
    interleave freely; no proofs. A process opens one LockFile. *)
From Verif Require Import Base LibDb Jobs Dispatch.
Open Scope string_scope. Open Scope list_scope.

(** ** The number in the file *)
(** fmt.Fscanf of %d: skips blanks, takes an optional sign and as many digits as
    there are; a newline first, no digit, or a value outside int64 is an error
    (simplification: of the Unicode blanks only space and tab) *)
Fixpoint scan_digits (s : string) (acc : N) : N :=
  match s with
  | String c t => if is_digit c then scan_digits t (acc * 10 + (N_of_ascii c - 48)) else acc
  | EmptyString => acc
  end.
Definition starts_digit (s : string) : bool := match s with String c _ => is_digit c | EmptyString => false end.
Fixpoint skip_blanks (s : string) : string :=
  match s with
  | String c t => if Ascii.eqb c " " || Ascii.eqb c "009" then skip_blanks t else s
  | EmptyString => s
  end.
Definition int64_of (neg : bool) (s : string) : option Z :=
  if starts_digit s then
    let z := (if neg then - Z.of_N (scan_digits s 0) else Z.of_N (scan_digits s 0))%Z in
    if ((- 2 ^ 63 <=? z) && (z <? 2 ^ 63))%Z then Some z else None
  else None.
(** lockfile.go:149-171 readPID: None is ErrDeadLockFile *)
Definition read_pid (content : string) : option Z :=
  match skip_blanks content with
  | EmptyString => None
  | String c t =>
      if Ascii.eqb c "+" then int64_of false t
      else if Ascii.eqb c "-" then int64_of true t
      else int64_of false (String c t)
  end.
(** lockfile.go:174-184 writePID: at offset 0, the file is not truncated *)
Fixpoint drop (n : nat) (s : string) : string :=
  match n, s with
  | O, _ => s
  | S k, String _ t => drop k t
  | S _, EmptyString => EmptyString
  end.
Definition overwrite (old new : string) : string := (new ++ drop (String.length new) old)%string.

(** ** Processes *)
Inductive proc :=
| Absent               (* not running *)
| Opened (ino : nat)   (* NewLockFile returned *)
| Checked (ino : nat)  (* Lock, past the PID check *)
| Flocked (ino : nat)  (* Lock, flock taken, PID not yet written *)
| Owner (ino : nat)    (* Lock returned nil: the daemon runs *)
| Unlocked (ino : nat) (* Close: Unlock returned; still running *)
| Closed               (* Clean closed the descriptor; still running *)
| Cleaned.             (* Clean removed the path; still running: server.go:238-250 stops the workers after that *)

Record lstate := LState {
  l_path : option nat;          (* inode the lock path names *)
  l_text : nat -> string;       (* contents *)
  l_flock : nat -> option N;    (* exclusive flock holder *)
  l_next : nat;                 (* next inode *)
  l_proc : N -> proc;
  l_other : N -> bool           (* unrelated live processes *)
}.
Definition set_proc (s : lstate) (p : N) (x : proc) : lstate :=
  LState (l_path s) (l_text s) (l_flock s) (l_next s) (fun q => if N.eqb q p then x else l_proc s q) (l_other s).
Definition set_flock (s : lstate) (i : nat) (h : option N) : lstate :=
  LState (l_path s) (l_text s) (fun j => if Nat.eqb j i then h else l_flock s j) (l_next s) (l_proc s) (l_other s).
Definition running (s : lstate) (p : N) : bool := match l_proc s p with Absent => false | _ => true end.
Definition alive (s : lstate) (p : N) : bool := l_other s p || running s p.
(** Linux process IDs *)
Definition pid_ok (p : N) : bool := (1 <=? p)%N && (p <=? 4194304)%N.

(** flock goes away with the last descriptor *)
Definition release (s : lstate) (p : N) : lstate :=
  match l_proc s p with Flocked i | Owner i => set_flock s i None | _ => s end.
Definition gone (s : lstate) (p : N) : lstate := set_proc (release s p) p Absent.

Inductive lev :=
| LStart (p : N)               (* a daemon starts: NewLockFile *)
| LCheck (p : N) (sees : bool) (* Lock: readPID and Signal(0); [sees]: the signal is permitted *)
| LFlock (p : N)               (* Lock: flock LOCK_EX|LOCK_NB *)
| LWrite (p : N)               (* Lock: writePID *)
| LUnlock (p : N)              (* Close: Unlock *)
| LClose (p : N)               (* Close: Clean, fd.Close *)
| LRemove (p : N)              (* Close: Clean, os.Remove *)
| LExit (p : N)                (* the process ends or crashes, at any point *)
| LOther (p : N) (up : bool).  (* an unrelated process appears or ends *)

Definition lstep (s : lstate) (e : lev) : lstate :=
  match e with
  | LStart p =>  (* 50-77 *)
      if pid_ok p && negb (alive s p) then
        match l_path s with
        | Some i => set_proc s p (Opened i)
        | None => LState (Some (l_next s)) (fun j => if Nat.eqb j (l_next s) then "" else l_text s j) (l_flock s) (S (l_next s))
                         (fun q => if N.eqb q p then Opened (l_next s) else l_proc s q) (l_other s)
        end
      else s
  | LCheck p sees =>  (* 95-114; an error ends the daemon *)
      match l_proc s p with
      | Opened i =>
          match l_path s with
          | None => gone s p
          | Some j =>
              match read_pid (l_text s j) with
              | Some z => if (0 <? z)%Z && negb (z =? Z.of_N p)%Z && alive s (Z.to_N z) && sees then gone s p else set_proc s p (Checked i)
              | None => set_proc s p (Checked i)
              end
          end
      | _ => s
      end
  | LFlock p =>  (* 116-126 *)
      match l_proc s p with
      | Checked i => match l_flock s i with None => set_proc (set_flock s i (Some p)) p (Flocked i) | Some _ => gone s p end
      | _ => s
      end
  | LWrite p =>  (* 128-133 *)
      match l_proc s p with
      | Flocked i =>
          LState (l_path s) (fun j => if Nat.eqb j i then overwrite (l_text s i) (print_N p) else l_text s j) (l_flock s) (l_next s)
                 (fun q => if N.eqb q p then Owner i else l_proc s q) (l_other s)
      | _ => s
      end
  | LUnlock p =>  (* 137-146 *)
      match l_proc s p with Owner i => set_proc (set_flock s i None) p (Unlocked i) | _ => s end
  | LClose p => match l_proc s p with Unlocked _ => set_proc s p Closed | _ => s end
  | LRemove p =>  (* 194-199 *)
      match l_proc s p with
      | Closed => LState None (l_text s) (l_flock s) (l_next s) (fun q => if N.eqb q p then Cleaned else l_proc s q) (l_other s)
      | _ => s
      end
  | LExit p => gone s p
  | LOther p up => if negb (running s p) then LState (l_path s) (l_text s) (l_flock s) (l_next s) (l_proc s) (fun q => if N.eqb q p then up else l_other s q) else s
  end.
(** before any daemon ran; the lock path may be left over from the past *)
Definition lstart (past : option string) : lstate :=
  LState (match past with Some _ => Some 0 | None => None end) (fun _ => match past with Some c => c | None => "" end)
         (fun _ => None) 1 (fun _ => Absent) (fun _ => false).
Definition lrun (past : option string) (h : list lev) : lstate := fold_left lstep h (lstart past).
