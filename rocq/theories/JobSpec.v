(** * JobSpec: what the job properties talk about

    Small vocabulary for C28-C33 and C53; no proofs. A history is a list of
    events (Jobs.v): store calls of any goroutine, crashes inside a call after
    any number of its writes, restarts. *)
From Verif Require Import Base LibDb Jobs.
Open Scope string_scope. Open Scope list_scope.

(** number, type and parameters of a job: all of it but the claim mark *)
Definition ident (j : job) : nat * string * list string := (j_no j, j_type j, j_params j).

(** jobs accepted into a queue, oldest first *)
Definition accepted_in (q : queue) (A : list (queue * job)) : list job :=
  map snd (filter (fun x => queue_eqb q (fst x)) A).
Definition not_retired (R : list nat) (j : job) : bool := negb (existsb (Nat.eqb (j_no j)) R).
(** those that have not been taken out of the queue *)
Definition pending_in (q : queue) (A : list (queue * job)) (R : list nat) : list job :=
  filter (not_retired R) (accepted_in q A).

(** worker [i] is executing the job numbered [n] of queue [q] *)
Definition executes (y : sys) (i : nat) (q : queue) (n : nat) : Prop :=
  exists k j, nth_error (y_workers y) i = Some (Worker q (Some (k, j))) /\ j_no j = n.
(** the numbers of all jobs being executed *)
Definition held (ws : list worker) : list nat :=
  flat_map (fun w => match w_job w with Some (_, j) => [j_no j] | None => [] end) ws.
(** accepted into [q], not retired, not being executed: oldest first *)
Definition waiting (q : queue) (y : sys) : list job :=
  filter (fun j => negb (existsb (Nat.eqb (j_no j)) (held (y_workers y)))) (pending_in q (y_accepted y) (y_retired y)).
(** the jobs stored in a queue, in key order *)
Definition stored (q : queue) (y : sys) : list job := map snd (mlist (get_queue q (y_store y))).

(** sequence numbers are not exhausted: fewer than 2^62 events *)
Definition bounded (h : list Jobs.event) : Prop := (N.of_nat (List.length h) < 2 ^ 62)%N.

(** the pushes of a history that reached the disk, read off the history alone *)
Fixpoint pushes (up : bool) (h : list Jobs.event) : list (queue * string * list string) :=
  match h with
  | [] => []
  | e :: h' =>
      match e with
      | Do (APush q ty ps) => (if up then [(q, ty, ps)] else []) ++ pushes up h'
      | Crash (APush q ty ps) n => (if up && (1 <=? n)%nat then [(q, ty, ps)] else []) ++ pushes false h'
      | Crash _ _ => pushes false h'
      | Start => pushes true h'
      | _ => pushes up h'
      end
  end.

(** no crash between the two writes of a history record or of a reset *)
Definition quiet (e : Jobs.event) : Prop :=
  match e with
  | Crash (AFinish _ _ _) n => n <> 2
  | Crash (AReset _) n => n <> 1
  | _ => True
  end.
