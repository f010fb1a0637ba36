(** * Server: start, serving, watching and stopping

    Executable model of ferryd/server.go:126-245 (Bind, Serve, Close),
    ferryd/monitor.go and the stopping of workers (jobs/processor.go:84-98,
    jobs/worker.go:102-119) around the daemon of Daemon.v; no proofs. The lock file
    is Lock.v. Simplifications: the exit value is sent to all workers in one step
    (processor.go:91-94, each channel is buffered); what HTTP answers to a request
    is a function of the state ([answers]); each of Close's calls is one step. *)
From Verif Require Import Model Paths Reading Transit.
From Verif Require Import Base LibDb Jobs Dispatch Daemon.
Open Scope string_scope. Open Scope list_scope.

(** how far the process is (server.go:219-245 Close, in the order of its calls) *)
Inductive stage :=
| Down           (* no process *)
| Serving        (* Serve *)
| Watchless      (* Close: lock file removed, StopWatching returned *)
| Stopping       (* Close: jproc.Close has sent the exit values and waits *)
| Drained        (* Close: jproc.Close returned *)
| DbClosed       (* Close: inside store.Close (store.go:94-99), database closed, s.db not yet nil *)
| StoreClosed    (* Close: store.Close returned *)
| ManagerClosed  (* Close: manager.Close returned *)
| Shut.          (* Close: srv.Shutdown returned; the listener is closed, which removes the socket file *)

(** what the watcher reports: the path, and whether the operation is an Update
    (monitor.go:54-63); the library reports Update when a written file is closed *)
Record notice := Notice { n_path : string; n_update : bool }.

Record server := Server {
  sv_daemon : daemon;
  sv_stage : stage;
  sv_left : nat -> bool;        (* the goroutine of worker i returned (worker.go:116-119) *)
  sv_notices : list notice;     (* not yet received from the watcher's channel *)
  sv_socket : bool;             (* there is something at the socket path *)
  sv_events : list devent       (* ghost: the events of the daemon *)
}.

Inductive sevent :=
| SRequest (r : request)                       (* a client's request (handlers.go:136-296) *)
| SReset (failed : bool)                       (* handlers.go:299-310 *)
| SUpload (name content : string)              (* a file is written to <base>/incoming and closed *)
| SNotice (n : notice)                         (* any other report of the watcher *)
| SReceive                                     (* monitor.go:53-63: the watching goroutine receives a report *)
| SWork (e : devent)                           (* a worker goes on: DPoll, DBegin, DQueue, DFinish *)
| SLeave (i : nat)                             (* worker.go:116-119: an idle worker receives the exit value *)
| SSignal                                      (* server.go:126-137: SIGINT or SIGTERM *)
| SNext                                        (* Close makes its next call *)
| SKill (e : devent)                           (* the process dies: DCrashIn, DCrashAt *)
| SStart (late : bool)                         (* the process is started; [late]: Bind fails after listening *)
| SStartKill (n : nat)                         (* ... and dies while the job store is opened *)
| SFree                                        (* somebody removes the socket file *)
| SWorld (ev : Model.event).                   (* files and assets change from outside *)

Section WithEnv.
Variable E : env.
Variable T : string -> option tram.
Variable B : list string.           (* components of the base directory *)
Variable systemd : bool.            (* the socket is handed over by systemd (server.go:147-163) *)
Variable kinds : list bool.

(** core/manager.go:51 IncomingPath *)
Definition incoming : string := "/" ++ join_slash (B ++ ["incoming"]).

(** the job store is open *)
Definition store_open (g : stage) : bool :=
  match g with Serving | Watchless | Stopping | Drained => true | _ => false end.
(** What a client's request gets (handlers.go:136-310, PushJob ignores the
    error): no connection, an error (the handler panics on s.db = nil, net/http
    closes the connection), or success. *)
Inductive answer := NoServer | Failure | Success.
Definition answers (g : stage) : answer :=
  match g with
  | Down | Shut => NoServer
  | StoreClosed | ManagerClosed => Failure
  | _ => Success
  end.

(** uploads are announced by the watcher only *)
Definition client_request (r : request) : bool := match r with ReqUpload _ => false | _ => true end.

(** an event of the daemon; if it stops the daemon, the process is gone *)
Definition pass (s : server) (e : devent) : server :=
  let d := dstep E T B (sv_daemon s) e in
  let up := y_up (dm_sys d) in
  Server d (if up then sv_stage s else Down) (if up then sv_left s else fun _ => false) (if up then sv_notices s else []) (sv_socket s) (sv_events s ++ [e]).
Definition with_stage (s : server) (g : stage) : server :=
  Server (sv_daemon s) g (sv_left s) (sv_notices s) (sv_socket s) (sv_events s).
Definition with_notices (s : server) (l : list notice) : server :=
  Server (sv_daemon s) (sv_stage s) (sv_left s) l (sv_socket s) (sv_events s).
Definition with_socket (s : server) (b : bool) : server :=
  Server (sv_daemon s) (sv_stage s) (sv_left s) (sv_notices s) b (sv_events s).
(** files change while the process, if any, goes on *)
Definition world (s : server) (ev : Model.event) : server :=
  Server (dstep E T B (sv_daemon s) (DWorld ev)) (sv_stage s) (sv_left s) (sv_notices s) (sv_socket s) (sv_events s ++ [DWorld ev]).

(** worker i executes no job *)
Definition free_worker (d : daemon) (i : nat) : bool :=
  match held_job d i with Some _ => false | None => true end.
Definition pool_size (s : server) : nat := List.length (y_workers (dm_sys (sv_daemon s))).
(** processor.go:96 wg.Wait returns *)
Definition all_left (s : server) : bool := forallb (sv_left s) (seq 0 (pool_size s)).
Definition worker_of (e : devent) : option nat :=
  match e with DPoll i | DBegin i _ | DQueue i | DFinish i => Some i | _ => None end.
(** a stop of the daemon while nothing is being written *)
Definition quietly : devent := DCrashIn DStart 0.
(** no process, nothing in its memory *)
Definition gone (s : server) : server :=
  Server (sv_daemon s) Down (fun _ => false) [] (sv_socket s) (sv_events s).

(** monitor.go:53-63 and 78-95: what the watching goroutine does with a report *)
Definition full_path (n : notice) : string := join incoming (base (n_path n)).
Definition wanted (d : daemon) (n : notice) : bool :=
  seqb (dirname (n_path n)) incoming && n_update n && has_suffix ".tram" (n_path n) &&
  match f_name (st_fs (dm_core d)) (locate B (full_path n)) with Some _ => true | None => false end.

(** What the process can be doing when it is killed: a client's request may be on
    its way, the watching goroutine may be pushing the report it received, a worker
    that has not left may be at work. Anything else is a kill between two writes. *)
Definition doing (s : server) (e : devent) : bool :=
  match e with
  | DRequest (ReqUpload p) =>
      match sv_stage s, sv_notices s with
      | Serving, n :: _ => wanted (sv_daemon s) n && seqb p (full_path n)
      | _, _ => false
      end
  | _ => match worker_of e with Some i => Nat.ltb i (pool_size s) && negb (sv_left s i) | None => true end
  end.
Definition fatal (s : server) (e : devent) : devent :=
  match e with DCrashIn e' _ => if doing s e' then e else quietly | _ => e end.

Definition sstep (s : server) (e : sevent) : server :=
  match e with
  | SRequest r => if store_open (sv_stage s) && client_request r then pass s (DRequest r) else s
  | SReset b => if store_open (sv_stage s) then pass s (DReset b) else s
  | SUpload name content =>
      let p := join incoming name in
      let s1 := world s (EvPut (locate B p) content) in
      match sv_stage s with Down => s1 | _ => with_notices s1 (sv_notices s1 ++ [Notice p true]) end
  | SNotice n => match sv_stage s with Down => s | _ => with_notices s (sv_notices s ++ [n]) end
  | SReceive =>
      match sv_stage s, sv_notices s with
      | Serving, n :: l =>
          let s1 := with_notices s l in
          if wanted (sv_daemon s) n then pass s1 (DRequest (ReqUpload (full_path n))) else s1
      | _, _ => s
      end
  | SWork e =>
      match worker_of e with
      | Some i => if store_open (sv_stage s) && Nat.ltb i (pool_size s) && negb (sv_left s i) then pass s e else s
      | None => s
      end
  | SLeave i =>
      match sv_stage s with
      | Stopping =>
          if free_worker (sv_daemon s) i
          then Server (sv_daemon s) Stopping (fun k => Nat.eqb k i || sv_left s k) (sv_notices s) (sv_socket s) (sv_events s)
          else s
      | _ => s
      end
  | SSignal => match sv_stage s with Serving => with_stage s Watchless | _ => s end
  | SNext =>
      match sv_stage s with
      | Watchless => with_stage s Stopping
      | Stopping => if all_left s then with_stage s Drained else s
      | Drained =>
          Server (dstep E T B (sv_daemon s) quietly) DbClosed (sv_left s) (sv_notices s) (sv_socket s) (sv_events s ++ [quietly])
      | DbClosed => with_stage s StoreClosed
      | StoreClosed => with_stage s ManagerClosed
      | ManagerClosed => with_socket (with_stage s Shut) (if systemd then sv_socket s else false)
      | Shut => gone s
      | _ => s
      end
  | SKill e =>
      match sv_stage s, e with
      | Down, _ => s
      | g, (DCrashIn _ _ | DCrashAt _ _ _) => if store_open g then gone (pass s (fatal s e)) else gone s
      | _, _ => s
      end
  | SStart late =>  (* 140-198; net.Listen fails if the path exists *)
      match sv_stage s with
      | Down =>
          if negb systemd && sv_socket s then s
          else if late then with_socket s true
          else with_socket (with_stage (pass s DStart) Serving) true
      | _ => s
      end
  | SStartKill n =>
      match sv_stage s with
      | Down => if negb systemd && sv_socket s then s else with_socket (gone (pass s (DStartCrash n))) true
      | _ => s
      end
  | SFree => with_socket s false
  | SWorld ev => world s ev
  end.

(** a host on which the daemon has never run; its store is opened by the first
    start ([dboot] is a daemon that is up, so the first start is already made) *)
Definition sboot : server := Server (dboot kinds) Serving (fun _ => false) [] true [].
Definition srun (h : list sevent) : server := fold_left sstep h sboot.
End WithEnv.
