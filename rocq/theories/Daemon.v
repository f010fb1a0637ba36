(** * Daemon: requests, job queue, workers and repositories put together

    Executable model of the running daemon (server.go, handlers.go,
    jobs/worker.go, jobs/processor.go), composed of the job store and workers
    (Jobs.v), the dispatcher (Dispatch.v), the manager (Model.v) and uploads
    (Transit.v); no proofs.

    Simplifications: the text of an error is not modelled (a failed job is
    recorded with a fixed text); the part of a job that works on the repositories
    is one step (only the sequential worker ever does such work, see C68), while
    the jobs it queues, claims and retirements are separate steps, so that all
    workers and requests interleave there; read-only requests (status, list) are
    not events. *)
From Verif Require Import Model Paths Reading Transit.
From Verif Require Import Base LibDb Jobs Dispatch.
Open Scope string_scope. Open Scope list_scope.

(** Where a worker is with the job it holds (worker.go:138-204): not begun; the
    delta jobs it still has to queue (delta_repo.go:74-77) and its description;
    over, with description and failure. *)
Inductive phase :=
| PFresh
| PQueueing (todo : list jentry) (desc : string)
| POver (desc : string) (failure : option string).

(** How an attempt at a job ended: it ran to its end (successfully or not); the
    daemon died after that many durable writes; it panicked. *)
Inductive ending := Completed (ok : bool) | Died (writes : nat) | Panicked.

(** Ghost: what happened to the repositories, oldest first. [LAttempt n o t e]: an
    attempt at the job numbered [n], asking for [t]. [LTouch r]: the repository was
    looked up. [LDown]: the daemon stopped without being at work on them. *)
Inductive lentry :=
| LAttempt (n : nat) (o : oracle) (t : todo) (e : ending)
| LTouch (r : string)
| LDown
| LWorld (ev : Model.event).

Record daemon := Daemon {
  dm_sys : sys;                    (* job store, workers *)
  dm_core : state;                 (* repositories, pool, files *)
  dm_phase : nat -> phase;         (* of each worker (volatile) *)
  dm_log : list lentry;             (* ghost *)
  dm_jobs : list Jobs.event        (* ghost: the events of the job store *)
}.

Inductive devent :=
| DRequest (r : request)           (* handlers.go:136-296, monitor.go:78-95: a request arrives *)
| DPoll (i : nat)                  (* worker.go:121-135 *)
| DBegin (i : nat) (o : oracle)    (* worker.go:172-204: the worker executes its job *)
| DQueue (i : nat)                 (* delta_repo.go:75-77: queues one more delta job, or is done *)
| DFinish (i : nat)                (* worker.go:141-144: the worker retires its job *)
| DReset (failed : bool)           (* handlers.go:299-310 *)
| DCrashIn (e : devent) (n : nat)  (* the daemon dies after n durable writes of the store call of e *)
| DCrashAt (i : nat) (o : oracle) (n : nat)  (* ... after n durable writes of worker i's job *)
| DStart                           (* server.go:164-174: the store is opened again *)
| DStartCrash (n : nat)
| DWorld (ev : Model.event).       (* files and assets change from outside *)

Section WithEnv.
Variable E : env.
Variable T : string -> option tram.
Variable B : list string.

(** queueing delta jobs involves none of the choices of an oracle *)
Definition no_oracle : oracle := Oracle (fun l => l) (fun _ => false) (fun _ => false) (Ok tt) (fun l => l).

(** the part of Execute that works on the repositories (jobs/*.go Execute) *)
Definition perform (o : oracle) (t : todo) : M (list string) :=
  match t with
  | Run p => run_op E o p
  | Upload path => transit_job E T B o path ;;; ret []
  | PushDeltas r => get_repo r ;;; get_package_names r     (* api.go:208-214 *)
  end.
(** after that many of its durable writes *)
Definition cut (o : oracle) (t : todo) (n : nat) (s : state) : state :=
  nth n (s :: trace_of (perform o t s)) (final_of (perform o t s)).

(** the store call an event makes *)
Definition act_of (d : daemon) (e : devent) : option act :=
  match e with
  | DRequest r => let '(q, ty, ps) := job_of r in Some (APush q ty ps)
  | DPoll i => Some (AClaim i)
  | DQueue i => match dm_phase d i with PQueueing ((q, ty, ps) :: _) _ => Some (APush q ty ps) | _ => None end
  | DFinish i => match dm_phase d i with POver desc f => Some (AFinish i desc f) | _ => None end
  | DReset b => Some (AReset b)
  | _ => None
  end.

Definition set_phase (d : daemon) (i : nat) (p : phase) : nat -> phase := fun j => if Nat.eqb j i then p else dm_phase d j.
Definition all_fresh : nat -> phase := fun _ => PFresh.
Definition feed (d : daemon) (a : Jobs.event) : sys := Jobs.step (dm_sys d) a.
(** a plain stop of the daemon, as the store sees it: no write is under way *)
Definition stop : Jobs.event := Crash (AReset false) 0.

(** worker [i] does the next thing its job asks for *)
Definition held_job (d : daemon) (i : nat) : option job :=
  match nth_error (y_workers (dm_sys d)) i with Some (Worker _ (Some (_, j))) => Some j | _ => None end.
(** worker.go:172-204 processJob *)
Definition begin_job (d : daemon) (i : nat) (o : oracle) (j : job) : daemon :=
  match new_job_handler (j_type j) (j_params j) with
  | Ok h =>
      let t := execute h in
      let x := perform o t (dm_core d) in
      match result_of x with
      | Panic =>
          Daemon (feed d stop) (restart (final_of x)) all_fresh (dm_log d ++ [LAttempt (j_no j) o t Panicked]) (dm_jobs d ++ [stop])
      | Ok names =>
          match t with
          | PushDeltas r =>
              Daemon (dm_sys d) (final_of x) (set_phase d i (PQueueing (delta_pushes r names) (describe h)))
                (dm_log d ++ [LTouch r]) (dm_jobs d)
          | _ =>
              Daemon (dm_sys d) (final_of x) (set_phase d i (POver (describe h) None))
                (dm_log d ++ [LAttempt (j_no j) o t (Completed true)]) (dm_jobs d)
          end
      | Err =>
          Daemon (dm_sys d) (final_of x) (set_phase d i (POver (describe h) (Some "failed")))
            (dm_log d ++ [LAttempt (j_no j) o t (Completed false)]) (dm_jobs d)
      end
  | _ => Daemon (dm_sys d) (dm_core d) (set_phase d i (POver "" (Some "failed"))) (dm_log d) (dm_jobs d)
  end.

(** phase of the worker after the store call of [e] *)
Definition phase_after (d : daemon) (e : devent) : nat -> phase :=
  match e with
  | DQueue i => match dm_phase d i with PQueueing (_ :: l) desc => set_phase d i (PQueueing l desc) | _ => dm_phase d end
  | DFinish i => set_phase d i PFresh
  | _ => dm_phase d
  end.

Definition down (d : daemon) (a : Jobs.event) (s : state) (l : list lentry) : daemon :=
  Daemon (feed d a) (restart s) all_fresh (dm_log d ++ l) (dm_jobs d ++ [a]).

Definition outside_event (ev : Model.event) : bool :=
  match ev with EvPut _ _ | EvDel _ | EvAsset _ _ _ | EvMkdir _ => true | _ => false end.

Definition dstep (d : daemon) (e : devent) : daemon :=
  match e with
  | DWorld ev =>
      if outside_event ev then Daemon (dm_sys d) (ev_step E (dm_core d) ev) (dm_phase d) (dm_log d ++ [LWorld ev]) (dm_jobs d) else d
  | DStart => Daemon (feed d Start) (dm_core d) (dm_phase d) (dm_log d) (dm_jobs d ++ [Start])
  | DStartCrash n => Daemon (feed d (StartCrash n)) (dm_core d) (dm_phase d) (dm_log d) (dm_jobs d ++ [StartCrash n])
  | _ =>
    if negb (y_up (dm_sys d)) then d
    else
      match e with
      | DBegin i o =>
          match held_job d i, dm_phase d i with
          | Some j, PFresh => begin_job d i o j
          | _, _ => d
          end
      | DCrashAt i o n =>
          match held_job d i, dm_phase d i with
          | Some j, PFresh =>
              match new_job_handler (j_type j) (j_params j) with
              | Ok h => down d stop (cut o (execute h) n (dm_core d)) [LAttempt (j_no j) o (execute h) (Died n)]
              | _ => down d stop (dm_core d) [LDown]
              end
          | _, _ => down d stop (dm_core d) [LDown]
          end
      | DCrashIn e' n =>
          down d (match act_of d e' with Some a => Crash a n | None => stop end) (dm_core d) [LDown]
      | _ =>
          match act_of d e with
          | Some a => Daemon (feed d (Do a)) (dm_core d) (phase_after d e) (dm_log d) (dm_jobs d ++ [Do a])
          | None =>
              match e with
              | DQueue i =>
                  match held_job d i, dm_phase d i with
                  | Some j, PQueueing [] desc =>
                      match new_job_handler (j_type j) (j_params j) with
                      | Ok h =>
                          match execute h with
                          | PushDeltas r =>
                              Daemon (dm_sys d) (dm_core d) (set_phase d i (POver desc None))
                                (dm_log d ++ [LAttempt (j_no j) no_oracle (PushDeltas r) (Completed true)]) (dm_jobs d)
                          | _ => d
                          end
                      | _ => d
                      end
                  | _, _ => d
                  end
              | _ => d
              end
          end
      end
  end.

(** a daemon started for the first time with the given kinds of workers *)
Definition dboot (kinds : list bool) : daemon := Daemon (boot kinds) init all_fresh [] [].
Definition drun (kinds : list bool) (h : list devent) : daemon := fold_left dstep h (dboot kinds).
End WithEnv.
