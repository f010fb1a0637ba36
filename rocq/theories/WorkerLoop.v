(** * WorkerLoop: the goroutines of the job processor, their timers and exit channels

    Executable model of jobs/worker.go:101-170 (Stop, Start, setTime) and
    jobs/processor.go:45-107 (NewProcessor, Close, Begin); no proofs. What a job
    does, and what is in the queue, is Jobs.v and Daemon.v; here a fetch has any
    result. *)
From Verif Require Import Base Jobs.
Open Scope list_scope.

(** The time.Timer of a worker: not made yet; running; expired with its value
    still in the channel; neither running nor a value in the channel (stopped,
    or the value was received). *)
Inductive timer := NoTimer | Running | Expired | Idle.
(** Where the goroutine is: not scheduled yet; in the select (worker.go:115);
    executing or retiring a job (worker.go:137-152); returned. *)
Inductive place := Fresh | Waiting | Working | Gone.
(** What the fetcher returns (worker.go:122): a job, or ErrEmptyQueue or another error *)
Inductive fetch := GotJob | NoJob.

Record worker := Worker {
  w_place : place;
  w_timer : timer;
  w_exit : bool;          (* a value in the exit channel, which has room for one (worker.go:70) *)
  w_fetches : nat         (* ghost: how often the queue was asked *)
}.

(** worker.go:161-168 setTime: NewTimer or Reset; both leave it running. *)
Definition set_time (t : timer) : timer := Running.

(** One step of a worker or of its timer; [None]: not possible now. *)
Inductive wstep := Enter | Tick | TakeExit | TakeTimer (f : fetch) | Finish.
Definition step (w : worker) (e : wstep) : option worker :=
  match e, w_place w with
  | Enter, Fresh =>                       (* worker.go:110-114 *)
      Some (Worker Waiting (set_time (w_timer w)) (w_exit w) (w_fetches w))
  | Tick, _ =>                            (* the runtime *)
      match w_timer w with Running => Some (Worker (w_place w) Expired (w_exit w) (w_fetches w)) | _ => None end
  | TakeExit, Waiting =>                  (* worker.go:116-118 and the deferred wg.Done (109) *)
      if w_exit w then Some (Worker Gone (w_timer w) false (w_fetches w)) else None
  | TakeTimer f, Waiting =>               (* worker.go:120-135 *)
      match w_timer w with
      | Expired =>
          match f with
          | NoJob => Some (Worker Waiting (set_time Idle) (w_exit w) (S (w_fetches w)))
          | GotJob => Some (Worker Working Idle (w_exit w) (S (w_fetches w)))
          end
      | _ => None
      end
  | Finish, Working =>                    (* worker.go:138-155; a failing job and a failing reaper end here, too *)
      Some (Worker Waiting (set_time (w_timer w)) (w_exit w) (w_fetches w))
  | _, _ => None
  end.

(** worker.go:102 the send: blocks while the channel is full *)
Definition send_exit (w : worker) : option worker :=
  if w_exit w then None else Some (Worker (w_place w) (w_timer w) true (w_fetches w)).
(** worker.go:103-105: time.Timer.Stop does not take a value out of the channel *)
Definition stop_timer (w : worker) : worker :=
  Worker (w_place w) (match w_timer w with Running => Idle | t => t end) (w_exit w) (w_fetches w).

(** How far the call of Processor.Close is (processor.go:84-98): the next thing
    is the send to worker k, or the stop of its timer, or wg.Wait. *)
Inductive closing := NotClosing | Sending (k : nat) | Stopping (k : nat) | Joining | Returned.
Record proc := Proc {
  p_workers : list worker;
  p_njobs : Z;
  p_begun : bool;         (* Begin was called: the goroutines exist *)
  p_closed : bool;
  p_close : closing;
  p_wg : Z                (* the counter of the WaitGroup *)
}.

(** processor.go:45-81 NewProcessor: one sequential and njobs other workers
    ([background], Jobs.v: the number of the latter) *)
Definition new_proc (njobs ncpu : Z) : proc :=
  Proc (repeat (Worker Fresh NoTimer false 0) (S (Z.to_nat (background njobs ncpu)))) (background njobs ncpu) false false NotClosing 0.

Fixpoint put_nth {A} (n : nat) (x : A) (l : list A) : list A :=
  match l, n with
  | [], _ => []
  | _ :: l', O => x :: l'
  | y :: l', S n' => y :: put_nth n' x l'
  end.
Definition put (k : nat) (w : worker) (p : proc) : proc :=
  Proc (put_nth k w (p_workers p)) (p_njobs p) (p_begun p) (p_closed p) (p_close p) (p_wg p).

Inductive pevent :=
| PBegin                       (* Serve calls Begin *)
| PClose                       (* somebody calls Close *)
| PGoOn                        (* the call of Close makes its next step, if it is not blocked *)
| PWork (k : nat) (e : wstep). (* worker k or its timer *)

(** The next step of the loop over the workers, then wg.Wait *)
Definition next_send (p : proc) (k : nat) : closing := if Nat.ltb k (List.length (p_workers p)) then Sending k else Joining.
Definition go_on (p : proc) : option proc :=
  match p_close p with
  | Sending k =>                                  (* processor.go:92-93, worker.go:102 *)
      match nth_error (p_workers p) k with
      | Some w =>
          match send_exit w with
          | Some w' => Some (Proc (put_nth k w' (p_workers p)) (p_njobs p) (p_begun p) (p_closed p) (Stopping k) (p_wg p))
          | None => None
          end
      | None => None
      end
  | Stopping k =>                                 (* worker.go:103-105 *)
      match nth_error (p_workers p) k with
      | Some w => Some (Proc (put_nth k (stop_timer w) (p_workers p)) (p_njobs p) (p_begun p) (p_closed p) (next_send p (S k)) (p_wg p))
      | None => None
      end
  | Joining =>                                    (* processor.go:96 *)
      if Z.eqb (p_wg p) 0 then Some (Proc (p_workers p) (p_njobs p) (p_begun p) (p_closed p) Returned (p_wg p)) else None
  | _ => None
  end.

Definition pstep_opt (p : proc) (e : pevent) : option proc :=
  match e with
  | PBegin =>                                     (* processor.go:100-107; called once, by Serve *)
      if p_begun p then None
      else if p_closed p then None
      else Some (Proc (p_workers p) (p_njobs p) true (p_closed p) (p_close p) (p_wg p + (p_njobs p + 1)))
  | PClose =>                                     (* processor.go:85-88; a second call returns at once *)
      if p_closed p then None
      else Some (Proc (p_workers p) (p_njobs p) (p_begun p) true (next_send p 0) (p_wg p))
  | PGoOn => go_on p
  | PWork k e =>
      if p_begun p then
        match nth_error (p_workers p) k with
        | Some w =>
            match step w e with
            | Some w' =>
                let p' := put k w' p in
                Some (match e with                (* worker.go:109 defer wg.Done *)
                      | TakeExit => Proc (p_workers p') (p_njobs p') (p_begun p') (p_closed p') (p_close p') (p_wg p' - 1)
                      | _ => p' end)
            | None => None
            end
        | None => None
        end
      else None
  end.
(** what is not possible now does not happen *)
Definition pstep (p : proc) (e : pevent) : proc := match pstep_opt p e with Some p' => p' | None => p end.
Definition prun (njobs ncpu : Z) (h : list pevent) : proc := fold_left pstep h (new_proc njobs ncpu).
