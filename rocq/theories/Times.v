(** * Times: the time stamps of jobs, and what ferryctl status prints

    Executable model; no proofs. Jobs.v leaves the time stamps out; here they are
    kept beside its store: for every entry of a queue, every job a worker holds in
    its memory and every record of a finished job. *)
From Verif Require Import Model.
From Verif Require Import Base LibDb Jobs Dispatch.
Open Scope string_scope. Open Scope list_scope.

(** libferry/types.go:94-102 TimingInformation; 0 is the zero time.Time, other
    numbers are instants *)
Record timing := Timing { t_queued : N; t_begin : N; t_end : N }.
Definition no_times : timing := Timing 0 0 0.

Record tsys := TSys {
  ts_sys : sys;
  ts_queue : queue -> string -> timing;   (* Timing of the JobEntry under a key *)
  ts_held : nat -> timing;                (* Timing of the JobEntry worker i holds *)
  ts_hist : bool -> string -> timing      (* Timing of the libferry.Job in a slot of a history *)
}.

(** An event with the clock: [te_stamp] is what time.Now gives before the lock is
    taken (store.go:305 Queued, worker.go:141 End), [te_now] what it gives while
    the lock is held (store.go:174 Begin). *)
Record tevent := TEv { te_event : Jobs.event; te_stamp : N; te_now : N }.

Definition put_queue (f : queue -> string -> timing) (q : queue) (k : string) (t : timing) : queue -> string -> timing :=
  fun q' k' => if queue_eqb q q' && seqb k k' then t else f q' k'.
Definition put_held (f : nat -> timing) (i : nat) (t : timing) : nat -> timing := fun i' => if Nat.eqb i i' then t else f i'.
Definition put_hist (f : bool -> string -> timing) (b : bool) (k : string) (t : timing) : bool -> string -> timing :=
  fun b' k' => if Bool.eqb b b' && seqb k k' then t else f b' k'.

(** the stamps after the first [n] writes of an action, which leads to [y'] *)
Definition act_times (x : tsys) (a : act) (n : nat) (stamp now : N) (y' : sys) : tsys :=
  let y := ts_sys x in
  match a with
  | APush q _ _ =>                                     (* store.go:303-320 *)
      TSys y' (if (1 <=? n)%nat then put_queue (ts_queue x) q (next_seq (get_queue q (y_store y))) (Timing stamp 0 0) else ts_queue x)
        (ts_held x) (ts_hist x)
  | AClaim i =>                                        (* store.go:166-190 *)
      match nth_error (y_workers y) i with
      | Some (Worker q None) =>
          match snd (claim q (y_store y)) with
          | Ok (Some (k, _)) =>
              let t := Timing (t_queued (ts_queue x q k)) now (t_end (ts_queue x q k)) in
              if (1 <=? n)%nat then TSys y' (put_queue (ts_queue x) q k t) (put_held (ts_held x) i t) (ts_hist x)
              else TSys y' (ts_queue x) (ts_held x) (ts_hist x)
          | _ => TSys y' (ts_queue x) (ts_held x) (ts_hist x)
          end
      | _ => TSys y' (ts_queue x) (ts_held x) (ts_hist x)
      end
  | AFinish i _ f =>                                   (* worker.go:141-144, store.go:240-268: the third write *)
      let failed := match f with Some _ => true | None => false end in
      let t := Timing (t_queued (ts_held x i)) (t_begin (ts_held x i)) stamp in
      TSys y' (ts_queue x) (ts_held x)
        (if (3 <=? n)%nat then put_hist (ts_hist x) failed (be64 (next_slot (h_ptr (get_hist failed (y_store y))))) t else ts_hist x)
  | AReset _ => TSys y' (ts_queue x) (ts_held x) (ts_hist x)
  end.
(** store.go:114-137 unclaimJobs of the queues for which [b] holds *)
Definition unclaim_times (x : tsys) (b : queue -> bool) : queue -> string -> timing :=
  fun q k =>
    match mget (get_queue q (y_store (ts_sys x))) k with
    | Some j => if b q && j_claimed j then Timing (t_queued (ts_queue x q k)) 0 0 else ts_queue x q k
    | None => ts_queue x q k
    end.
Definition tstep (x : tsys) (e : tevent) : tsys :=
  let y := ts_sys x in
  let y' := step y (te_event e) in
  let same := TSys y' (ts_queue x) (ts_held x) (ts_hist x) in
  match te_event e with
  | Do a => if y_up y then act_times x a (List.length (writes_of y a)) (te_stamp e) (te_now e) y' else same
  | Crash a n => if y_up y then act_times x a (List.length (firstn n (writes_of y a))) (te_stamp e) (te_now e) y' else same
  | Start => if y_up y then same else TSys y' (unclaim_times x (fun _ => true)) (ts_held x) (ts_hist x)
  | StartCrash n =>
      if y_up y then same
      else TSys y' (unclaim_times x (fun q => match q with QSync => (1 <=? n)%nat | QAsync => (2 <=? n)%nat end)) (ts_held x) (ts_hist x)
  end.
Definition tboot (kinds : list bool) : tsys := TSys (boot kinds) (fun _ _ => no_times) (fun _ => no_times) (fun _ _ => no_times).
Definition trun (kinds : list bool) (h : list tevent) : tsys := fold_left tstep h (tboot kinds).

(** ** The status *)
(** libferry/types.go:148-154 Job *)
Record row := Row { w_desc : string; w_err : option string; w_time : timing }.
(** store.go:347-374 cloneCurrentJobs *)
Fixpoint clone_rows (f : string -> timing) (l : list (string * job)) : res (list row) :=
  match l with
  | [] => Ok []
  | (k, j) :: l' =>
      match new_job_handler (j_type j) (j_params j) with
      | Ok h => match clone_rows f l' with Ok r => Ok (Row (describe h) None (f k) :: r) | e => e end
      | _ => Err
      end
  end.
Definition active_rows (q : queue) (x : tsys) : res (list row) := clone_rows (ts_queue x q) (mlist (get_queue q (y_store (ts_sys x)))).
(** store.go:397-412 clonePastJobs *)
Definition past_rows (failed : bool) (x : tsys) : list row :=
  map (fun kr => Row (r_desc (snd kr)) (r_err (snd kr)) (ts_hist x failed (fst kr))) (mlist (h_recs (get_hist failed (y_store (ts_sys x))))).
(** handlers.go:65-98 GetStatus *)
Record report := Report { rp_current : list row; rp_failed : list row; rp_completed : list row }.
Definition get_report (x : tsys) : res report :=
  match active_rows QSync x with
  | Ok a => match active_rows QAsync x with
            | Ok b => Ok (Report (a ++ b) (past_rows true x) (past_rows false x))
            | _ => Err
            end
  | _ => Err
  end.

(** ** ferryctl status (ferryctl/cmd/status.go) *)
(** lines 68-72 *)
Definition shows_running (r : row) : bool := negb (N.eqb (t_begin (w_time r)) 0).
(** libferry/types.go:105-127 QueuedSince at a time, ExecutionTime, TotalTime *)
Definition queued_since (now : N) (r : row) : Z := Z.of_N now - Z.of_N (t_queued (w_time r)).
Definition execution_time (r : row) : Z := Z.of_N (t_end (w_time r)) - Z.of_N (t_begin (w_time r)).
Definition queued_time (r : row) : Z := Z.of_N (t_begin (w_time r)) - Z.of_N (t_queued (w_time r)).
Definition total_time (r : row) : Z := queued_time r + execution_time r.
(** lines 61-66, 99-104, 129-134: ten lines unless -a *)
Definition cut_rows (all : bool) (l : list row) : list row := if all then l else firstn 10 l.
(** lines 147-187. [sort] and [sort_down]: sort.Sort by the time queued, and its
    reverse. A table that would be empty is not printed. *)
Inductive table := TFailed (n : nat) (l : list row) | TCurrent (n : nat) (l : list row) | TCompleted (n : nat) (l : list row).
Definition tables (sort sort_down : list row -> list row) (all : bool) (r : report) : list table :=
  (if Nat.ltb 0 (List.length (rp_failed r)) then [TFailed (List.length (rp_failed r)) (cut_rows all (sort_down (rp_failed r)))] else []) ++
  (if Nat.ltb 0 (List.length (rp_current r)) then [TCurrent (List.length (rp_current r)) (cut_rows all (sort (rp_current r)))] else []) ++
  (if Nat.ltb 0 (List.length (rp_completed r)) then [TCompleted (List.length (rp_completed r)) (cut_rows all (sort_down (rp_completed r)))] else []).
