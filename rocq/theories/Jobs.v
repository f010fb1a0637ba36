(** * Jobs: the job store and the worker pool

    Executable model of src/ferryd/jobs/store.go, worker.go and processor.go;
    no proofs. Buckets are maps keyed by the bytes of the sequence number; that
    the flat key space implements them is LibDb.v (C37, C40). Every store call
    holds modMut throughout, so calls of different goroutines are interleaved
    whole; a crash can stop a call between two durable writes. Time stamps are
    dropped (they are only displayed). *)
From Verif Require Export LibDb.
From Verif Require Import Model.
Open Scope string_scope. Open Scope list_scope.

Inductive queue := QSync | QAsync.
Definition queue_eqb (a b : queue) : bool :=
  match a, b with QSync, QSync | QAsync, QAsync => true | _, _ => false end.

(** jobs/main.go:88-101 JobEntry. [j_no] is a ghost: the number of the accepted
    request (nothing reads it); [sequential] is the queue the entry is in. *)
Record job := Job { j_no : nat; j_type : string; j_params : list string; j_claimed : bool }.
(** the libferry.Job record kept for a finished job (store.go:254-263) *)
Record jrec := JRec { r_desc : string; r_err : option string }.

(** the job database; [h_ptr] is the IndexRecord00 object of the Record bucket *)
Record hist := Hist { h_recs : smap jrec; h_ptr : option N }.
Record store := Store { s_sync : smap job; s_async : smap job; s_ok : hist; s_fail : hist }.
Definition empty_hist : hist := Hist mempty None.
Definition empty_store : store := Store mempty mempty empty_hist empty_hist.

Definition get_queue (q : queue) (s : store) : smap job := match q with QSync => s_sync s | QAsync => s_async s end.
Definition set_queue (q : queue) (s : store) (m : smap job) : store :=
  match q with
  | QSync => Store m (s_async s) (s_ok s) (s_fail s)
  | QAsync => Store (s_sync s) m (s_ok s) (s_fail s)
  end.
Definition get_hist (failed : bool) (s : store) : hist := if failed then s_fail s else s_ok s.
Definition set_hist (failed : bool) (s : store) (h : hist) : store :=
  if failed then Store (s_sync s) (s_async s) (s_ok s) h else Store (s_sync s) (s_async s) h (s_fail s).

(** libdb/leveldb.go:197-220 on one bucket (see next_seq_is_ldb_next) *)
Definition next_seq (m : smap job) : string :=
  match rev (mkeys m) with
  | [] => be64 0
  | k :: _ => if (String.length k =? 8)%nat then be64 (uint64 (be_value k 0 + 1)) else be64 0
  end.

(** A store call: the store after each durable write, and the result. *)
Definition call (A : Type) : Type := (list store * res A)%type.
Definition final (s : store) {A} (c : call A) : store := last (fst c) s.

(** store.go:303-320 pushJobInternal (the sequence number is taken again under
    the lock; the first one is discarded) *)
Definition push (q : queue) (j : job) (s : store) : call string :=
  let m := get_queue q s in
  let k := next_seq m in
  if reserved k then ([], Err)
  else ([set_queue q s (mput m k (Job (j_no j) (j_type j) (j_params j) false))], Ok k).

(** store.go:166-187: the first entry in key order that is not claimed *)
Definition first_unclaimed (l : list (string * job)) : option (string * job) := find (fun kj => negb (j_claimed (snd kj))) l.
Definition set_claimed (b : bool) (j : job) : job := Job (j_no j) (j_type j) (j_params j) b.

(** store.go:156-202 claimJobInternal; [Ok None] = ErrEmptyQueue *)
Definition claim (q : queue) (s : store) : call (option (string * job)) :=
  let m := get_queue q s in
  match first_unclaimed (mlist m) with
  | None => ([], Ok None)
  | Some (k, j) =>
      if reserved k then ([], Err)
      else ([set_queue q s (mput m k (set_claimed true j))], Ok (Some (k, set_claimed true j)))
  end.

(** store.go:215-269 markCompletion: pointer first, then the record. *)
Definition max_jobs : N := 100.
Definition next_slot (p : option N) : N :=
  let i := match p with None => 0%N | Some i => (i + 1)%N end in
  if (max_jobs <=? i)%N then 0%N else i.
Definition mark_completion (failed : bool) (r : jrec) (s : store) : call unit :=
  let h := get_hist failed s in
  let i := next_slot (h_ptr h) in
  let s1 := set_hist failed s (Hist (h_recs h) (Some i)) in
  let s2 := set_hist failed s1 (Hist (mput (h_recs h) (be64 i) r) (Some i)) in
  ([s1; s2], Ok tt).

(** what the worker hands over: worker.go:174-204 sets failure and description *)
Definition outcome_rec (desc : string) (failure : option string) : jrec := JRec desc failure.

(** store.go:272-299 RetireAsyncJob, RetireSequentialJob *)
Definition retire (q : queue) (k desc : string) (failure : option string) (s : store) : call unit :=
  if reserved k then ([], Err)
  else
    let s1 := set_queue q s (mdel (get_queue q s) k) in
    let c := mark_completion (match failure with Some _ => true | None => false end) (outcome_rec desc failure) s1 in
    (s1 :: fst c, snd c).

(** store.go:114-137 unclaimJobs: one batch *)
Definition unclaim_all (m : smap job) : smap job :=
  fold_left (fun acc kj => if j_claimed (snd kj) then mput acc (fst kj) (set_claimed false (snd kj)) else acc) (mlist m) m.
Definition unclaim (q : queue) (s : store) : call unit :=
  ([set_queue q s (unclaim_all (get_queue q s))], Ok tt).
(** store.go:104-109 setup *)
Definition setup (s : store) : call unit :=
  let s1 := final s (unclaim QSync s) in
  ([s1; final s1 (unclaim QAsync s1)], Ok tt).

(** store.go:416-437 resetInternal: pointer, then all records in one batch *)
Definition reset (failed : bool) (s : store) : call unit :=
  let h := get_hist failed s in
  let s1 := set_hist failed s (Hist (h_recs h) None) in
  ((match h_ptr h with Some _ => [s1] | None => [] end) ++ [set_hist failed s1 empty_hist], Ok tt).

(** store.go:397-412 clonePastJobs: what status shows, in slot order *)
Definition past_jobs (failed : bool) (s : store) : list jrec := map snd (mlist (h_recs (get_hist failed s))).

(** ** Workers and processor *)

(** processor.go:42-80 NewProcessor: number of background workers *)
Definition background (njobs ncpu : Z) : Z :=
  let n := if (njobs <? 0)%Z then Z.div ncpu 2 else njobs in
  if (n <? 2)%Z then ncpu else n.
(** the worker pool: [true] = sequential (lines 73-77) *)
Definition pool_of (njobs ncpu : Z) : list bool := true :: repeat false (Z.to_nat (background njobs ncpu)).
(** processor.go:103: wg.Add *)
Definition waits_for (njobs ncpu : Z) : Z := (background njobs ncpu + 1)%Z.

(** worker.go:40-51: a worker and the job it is executing, if any *)
Record worker := Worker { w_queue : queue; w_job : option (string * job) }.
Definition start_workers (kinds : list bool) : list worker :=
  map (fun b => Worker (if b : bool then QSync else QAsync) None) kinds.

(** The running daemon. [y_accepted], [y_retired] and [y_done] are ghosts: the
    requests accepted (durably queued), the numbers of those taken out of the
    queue again, and the completions recorded per outcome since the last reset. *)
Record sys := Sys {
  y_store : store;
  y_workers : list worker;
  y_up : bool;
  y_accepted : list (queue * job);
  y_retired : list nat;
  y_done : bool -> list jrec
}.

(** store calls made by the daemon: requests and jobs push (any goroutine),
    worker [i] polls (worker.go:121-135), worker [i] finished executing its job
    and retires it (worker.go:138-155), a client resets a history. *)
Inductive act :=
| APush (q : queue) (ty : string) (params : list string)
| AClaim (i : nat)
| AFinish (i : nat) (desc : string) (failure : option string)
| AReset (failed : bool).
(** [Crash a n]: the daemon dies in the middle of [a], after [n] of its durable
    writes. [Start] opens the store again; [StartCrash n] dies during that. *)
Inductive event :=
| Do (a : act)
| Crash (a : act) (n : nat)
| Start
| StartCrash (n : nat).

Fixpoint set_nth {A} (n : nat) (x : A) (l : list A) : list A :=
  match n, l with
  | _, [] => []
  | O, _ :: l' => x :: l'
  | S n', y :: l' => y :: set_nth n' x l'
  end.

(** durable states of an action *)
Definition writes_of (y : sys) (a : act) : list store :=
  match a with
  | APush q ty ps => fst (push q (Job (List.length (y_accepted y)) ty ps false) (y_store y))
  | AClaim i =>
      match nth_error (y_workers y) i with
      | Some (Worker q None) => fst (claim q (y_store y))
      | _ => []
      end
  | AFinish i d f =>
      match nth_error (y_workers y) i with
      | Some (Worker q (Some (k, _))) => fst (retire q k d f (y_store y))
      | _ => []
      end
  | AReset b => fst (reset b (y_store y))
  end.

(** the part of the ghost state that changes, given how many writes were done *)
Definition accepted_after (y : sys) (a : act) (n : nat) : list (queue * job) :=
  match a with
  | APush q ty ps => if (1 <=? n)%nat && negb (reserved (next_seq (get_queue q (y_store y))))
                     then y_accepted y ++ [(q, Job (List.length (y_accepted y)) ty ps false)] else y_accepted y
  | _ => y_accepted y
  end.
Definition retired_after (y : sys) (a : act) (n : nat) : list nat :=
  match a with
  | AFinish i _ _ =>
      match nth_error (y_workers y) i with
      | Some (Worker q (Some (k, j))) => if (1 <=? n)%nat && negb (reserved k) then y_retired y ++ [j_no j] else y_retired y
      | _ => y_retired y
      end
  | _ => y_retired y
  end.
Definition done_after (y : sys) (a : act) : bool -> list jrec :=
  match a with
  | AFinish i d f =>
      match nth_error (y_workers y) i with
      | Some (Worker q (Some (k, j))) =>
          if reserved k then y_done y
          else fun b => if Bool.eqb b (match f with Some _ => true | None => false end) then y_done y b ++ [JRec d f] else y_done y b
      | _ => y_done y
      end
  | AReset b => fun b' => if Bool.eqb b b' then [] else y_done y b'
  | _ => y_done y
  end.
Definition workers_after (y : sys) (a : act) : list worker :=
  match a with
  | AClaim i =>
      match nth_error (y_workers y) i with
      | Some (Worker q None) =>
          match snd (claim q (y_store y)) with
          | Ok (Some kj) => set_nth i (Worker q (Some kj)) (y_workers y)
          | _ => y_workers y
          end
      | _ => y_workers y
      end
  | AFinish i _ _ =>
      match nth_error (y_workers y) i with
      | Some (Worker q (Some _)) => set_nth i (Worker q None) (y_workers y)
      | _ => y_workers y
      end
  | _ => y_workers y
  end.
Definition idle (w : worker) : worker := Worker (w_queue w) None.

Definition step (y : sys) (e : event) : sys :=
  match e with
  | Do a =>
      if y_up y then
        let ws := writes_of y a in
        Sys (last ws (y_store y)) (workers_after y a) true
            (accepted_after y a (List.length ws)) (retired_after y a (List.length ws)) (done_after y a)
      else y
  | Crash a n =>
      if y_up y then
        let ws := firstn n (writes_of y a) in
        Sys (last ws (y_store y)) (map idle (y_workers y)) false
            (accepted_after y a (List.length ws)) (retired_after y a (List.length ws))
            (if (n <? List.length (writes_of y a))%nat then y_done y else done_after y a)
      else y
  | Start =>
      if y_up y then y
      else Sys (final (y_store y) (setup (y_store y))) (y_workers y) true (y_accepted y) (y_retired y) (y_done y)
  | StartCrash n =>
      if y_up y then y
      else Sys (last (firstn n (fst (setup (y_store y)))) (y_store y)) (y_workers y) false (y_accepted y) (y_retired y) (y_done y)
  end.
(** a daemon started on an empty store with the given kinds of workers *)
Definition boot (kinds : list bool) : sys := Sys empty_store (start_workers kinds) true [] [] (fun _ => []).
Definition run (kinds : list bool) (h : list event) : sys := fold_left step h (boot kinds).
