(** * PropsJobs: properties C28-C33 and C53 of the job queue (vocabulary in
    JobSpec.v, model in Jobs.v, proofs in JobFacts.v and JobFacts2.v) *)
From Verif Require Import Model.
From Verif Require Import Base LibDb LibDbFacts Jobs JobSpec JobFacts JobFacts2.
Open Scope string_scope. Open Scope list_scope.

(** A daemon with one sequential and two background workers; two jobs accepted,
    one of them being executed, a crash, a restart. *)
Definition demo_kinds : list bool := pool_of 2 8.
Definition demo_jobs : list Jobs.event :=
  [Do (APush QSync "CreateRepo" ["a"]); Do (APush QSync "IndexRepo" ["a"]); Do (APush QAsync "BulkAdd" ["a"; "x.eopkg"]); Do (AClaim 0)].
Definition demo_crash : list Jobs.event := demo_jobs ++ [Do (AClaim 2); Crash (AFinish 0 "create" None) 0; Start].

(** ** C28 *)
(** An idle worker that polls its queue gets the oldest job accepted into it
    that is neither retired nor being executed, with type and parameters as
    accepted, and starts executing it; if there is none it stays idle and nothing
    changes. Whatever happened before: any pushes, claims, completions, crashes
    and restarts. *)
Theorem C28_claims_are_first_in_first_out :
  forall kinds h i q, bounded h ->
    let y := run kinds h in
    let y' := step y (Do (AClaim i)) in
    y_up y = true -> nth_error (y_workers y) i = Some (Worker q None) ->
    match waiting q y with
    | [] => y_workers y' = y_workers y /\ y_store y' = y_store y
    | j :: _ => exists k j', nth_error (y_workers y') i = Some (Worker q (Some (k, j'))) /\ ident j' = ident j
    end.
Proof.
  intros kinds h i q B y y' U Hi. pose proof (run_inv kinds h B) as I. fold y in I.
  pose proof (claim_waiting _ y I B q U) as W.
  unfold y'. cbn [step]. rewrite U. cbn [y_workers y_store writes_of workers_after]. rewrite Hi.
  destruct (waiting q y) as [|j w].
  - rewrite W. split; reflexivity.
  - destruct W as (k & j' & E & Ej). rewrite E. cbn [snd]. exists k, j'. split; [exact (set_nth_eq _ _ _ _ Hi)|exact Ej].
Qed.
Print Assumptions C28_claims_are_first_in_first_out.
(** [waiting] lists them oldest first *)
Theorem C28_waiting_is_in_acceptance_order :
  forall kinds h q, bounded h -> StronglySorted lt (map j_no (waiting q (run kinds h))).
Proof.
  intros kinds h q B. pose proof (run_inv kinds h B) as I.
  pose proof (pending_sorted q _ (y_retired (run kinds h)) 0 (iv_nos _ _ _ _ _ _ I)) as S.
  unfold waiting. revert S. generalize (pending_in q (y_accepted (run kinds h)) (y_retired (run kinds h))).
  intros l S. induction l as [|j l IH]; cbn [filter map]; [constructor|]. cbn [map] in S. inversion S as [|? ? S' F]; subst.
  destruct (negb _); [|exact (IH S')]. cbn [map]. constructor; [exact (IH S')|].
  rewrite Forall_forall in *. intros n Hn. apply F. apply in_map_iff in Hn as (a & <- & Ha). apply filter_In in Ha as [Ha _]. apply in_map. exact Ha.
Qed.
Print Assumptions C28_waiting_is_in_acceptance_order.
Theorem C28_demo :
  let y := run demo_kinds demo_jobs in
  y_up y = true /\ nth_error (y_workers y) 1 = Some (Worker QAsync None) /\
  map ident (waiting QAsync y) = [(2, "BulkAdd", ["a"; "x.eopkg"])] /\ map ident (waiting QSync y) = [(1, "IndexRepo", ["a"])].
Proof. vm_compute. repeat split. Qed.

(** ** C29 *)
(** At every moment two different workers execute different jobs, and no worker
    executes a job that has been retired. *)
Theorem C29_no_job_in_two_hands :
  forall kinds h i i' q q' n, bounded h ->
    let y := run kinds h in
    executes y i q n -> executes y i' q' n -> i = i' /\ q = q'.
Proof.
  intros kinds h i i' q q' n B y (k & j & Hi & E) (k' & j' & Hi' & E').
  pose proof (run_inv kinds h B) as I. fold y in I.
  destruct (held_stored _ y I _ _ _ _ Hi) as [S M]. destruct (held_stored _ y I _ _ _ _ Hi') as [S' M'].
  destruct (stored_apart _ y I q q' j j' S S') as [<- <-]; [congruence|]. split; [|reflexivity].
  assert (k = k') as <-.
  { assert (X : (k, j) = (k', j)); [|congruence].
    apply (NoDup_map_inj (fun x => j_no (snd x)) (mlist (get_queue q (y_store y)))); [|exact M|exact M'|reflexivity].
    pose proof (queue_nodup _ _ _ _ _ _ I q) as N. rewrite map_map in N. exact N. }
  exact (iv_excl _ _ _ _ _ _ I _ _ _ _ _ _ Hi Hi').
Qed.
Print Assumptions C29_no_job_in_two_hands.
Theorem C29_executing_means_accepted_and_not_retired :
  forall kinds h i q n, bounded h ->
    let y := run kinds h in
    executes y i q n -> ~ In n (y_retired y) /\ exists j, In (q, j) (y_accepted y) /\ j_no j = n.
Proof.
  intros kinds h i q n B y (k & j & Hi & E). pose proof (run_inv kinds h B) as I. fold y in I.
  destruct (held_stored _ y I _ _ _ _ Hi) as [S _]. destruct (stored_pending _ y I _ _ S) as (a & Ha & Ea).
  unfold pending_in in Ha. apply filter_In in Ha as [Ha R]. apply in_accepted in Ha.
  apply ident_no in Ea. split.
  - intros X. unfold not_retired in R. apply negb_true_iff in R. rewrite <- E, <- Ea in X.
    enough (existsb (Nat.eqb (j_no a)) (y_retired y) = true) by congruence.
    apply existsb_exists. exists (j_no a). split; [exact X|apply Nat.eqb_refl].
  - exists a. split; [exact Ha|congruence].
Qed.
Print Assumptions C29_executing_means_accepted_and_not_retired.
Theorem C29_demo :
  let y := run demo_kinds (demo_jobs ++ [Do (AClaim 2); Do (AClaim 1)]) in
  executes y 0 QSync 0 /\ executes y 2 QAsync 2 /\ nth_error (y_workers y) 1 = Some (Worker QAsync None).
Proof. vm_compute. repeat split; do 2 eexists; split; reflexivity. Qed.

(** ** C30 *)
(** At every moment, and after a crash at any point, each queue holds exactly the
    jobs accepted into it and not retired, once each, in acceptance order, with
    their types and parameters ... *)
Theorem C30_no_job_is_lost :
  forall kinds h q, bounded h ->
    let y := run kinds h in
    map ident (stored q y) = map ident (pending_in q (y_accepted y) (y_retired y)) /\ NoDup (map j_no (stored q y)).
Proof.
  intros kinds h q B y. pose proof (run_inv kinds h B) as I. split; [exact (stored_idents _ _ I q)|exact (queue_nodup _ _ _ _ _ _ I q)].
Qed.
Print Assumptions C30_no_job_is_lost.
(** ... the accepted jobs are those whose push reached the disk, numbered
    consecutively ... *)
Theorem C30_accepted_are_the_pushes :
  forall kinds h, bounded h ->
    map (fun x => (fst x, j_type (snd x), j_params (snd x))) (y_accepted (run kinds h)) = pushes true h /\
    map (fun x => j_no (snd x)) (y_accepted (run kinds h)) = seq 0 (List.length (y_accepted (run kinds h))).
Proof.
  intros kinds h B. split; [exact (accepted_pushes kinds h B)|exact (iv_nos _ _ _ _ _ _ (run_inv kinds h B))].
Qed.
Print Assumptions C30_accepted_are_the_pushes.
(** ... a job is only ever retired by a worker that was executing it and reported
    its end ... *)
Theorem C30_only_finished_jobs_are_retired :
  forall kinds h e n, bounded h ->
    let y := run kinds h in
    In n (y_retired (step y e)) ->
    In n (y_retired y) \/
    exists i d f, (e = Do (AFinish i d f) \/ exists m, e = Crash (AFinish i d f) m) /\ exists q, executes y i q n.
Proof.
  intros kinds h e n B y. fold y.
  assert (X : forall a m, In n (retired_after y a m) -> In n (y_retired y) \/ exists i d f, a = AFinish i d f /\ exists q, executes y i q n).
  { intros a m. destruct a as [q ty ps|i|i d f|b]; cbn [retired_after]; auto.
    destruct (nth_error (y_workers y) i) as [[q [[k j]|]]|] eqn:Hi; auto.
    destruct (_ && _); auto. intros H. apply in_app_iff in H as [H|[<-|[]]]; auto. right. exists i, d, f. split; [reflexivity|].
    exists q, k, j. auto. }
  destruct e as [a|a m| |m]; cbn [step]; destruct (y_up y); cbn [y_retired]; auto; intros H;
    (destruct (X _ _ H) as [?|(i & d & f & -> & E)]; [left; assumption|right; exists i, d, f; split; [|exact E]]); [left|right; exists m]; reflexivity.
Qed.
Print Assumptions C30_only_finished_jobs_are_retired.
(** ... and when the daemon has started again all of them are free to be
    claimed. *)
Theorem C30_free_after_restart :
  forall kinds h, bounded h -> y_up (run kinds h) = false ->
    let y := run kinds (h ++ [Start]) in
    forall q, waiting q y = pending_in q (y_accepted y) (y_retired y) /\ forall j, In j (stored q y) -> j_claimed j = false.
Proof.
  intros kinds h B U y q. pose proof (run_inv kinds h B) as I.
  unfold y. rewrite run_app. cbn [step]. rewrite U.
  assert (H : held (y_workers (run kinds h)) = []).
  { destruct (held (y_workers (run kinds h))) as [|n l] eqn:E; [reflexivity|exfalso].
    assert (X : In n (held (y_workers (run kinds h)))) by (rewrite E; left; reflexivity).
    apply in_held in X as (i & q' & k & j & Hi & _). pose proof (iv_down _ _ _ _ _ _ I U _ _ Hi). discriminate. }
  split.
  - unfold waiting. cbn [y_workers y_accepted y_retired]. rewrite H. apply filter_all. reflexivity.
  - intros j Hj. unfold stored in Hj. cbn [y_store] in Hj. unfold setup, final, unclaim in Hj. cbn [fst last] in Hj.
    rewrite !get_set_queue in Hj. apply in_map_iff in Hj as ([k j'] & <- & Hj). apply in_mlist in Hj. cbn [snd].
    destruct q; cbn [queue_eqb] in Hj; exact (unclaim_none _ _ _ Hj).
Qed.
Print Assumptions C30_free_after_restart.
Theorem C30_demo :
  let y := run demo_kinds demo_crash in
  y_up (run demo_kinds (removelast demo_crash)) = false /\ y_up y = true /\
  map ident (stored QSync y) = [(0, "CreateRepo", ["a"]); (1, "IndexRepo", ["a"])] /\
  map ident (waiting QAsync y) = [(2, "BulkAdd", ["a"; "x.eopkg"])].
Proof. vm_compute. repeat split. Qed.

(** ** C31 *)
(** With the worker pool the processor builds, at most one sequential job is
    being executed ... *)
Theorem C31_sequential_jobs_never_overlap :
  forall njobs ncpu h i i' n n', bounded h ->
    let y := run (pool_of njobs ncpu) h in
    executes y i QSync n -> executes y i' QSync n' -> i = i' /\ n = n'.
Proof.
  intros njobs ncpu h i i' n n' B y (k & j & Hi & E) (k' & j' & Hi' & E').
  pose proof (one_sync _ _ _ _ _ _ Hi eq_refl) as O. pose proof (one_sync _ _ _ _ _ _ Hi' eq_refl) as O'. subst i i'.
  rewrite Hi in Hi'. injection Hi' as -> ->. split; congruence.
Qed.
Print Assumptions C31_sequential_jobs_never_overlap.
(** ... and while it is, every sequential job accepted before it is over. *)
Theorem C31_sequential_jobs_run_in_order :
  forall njobs ncpu h i n, bounded h ->
    let y := run (pool_of njobs ncpu) h in
    executes y i QSync n ->
    forall j, In (QSync, j) (y_accepted y) -> j_no j < n -> In (j_no j) (y_retired y).
Proof.
  intros njobs ncpu h i n B y (k & j0 & Hi & E) j Hj L.
  destruct (seq_run njobs ncpu h B _ _ _ Hi) as [r Er].
  pose proof (pending_sorted QSync _ (y_retired y) 0 (iv_nos _ _ _ _ _ _ (run_inv (pool_of njobs ncpu) h B))) as S. fold y in S, Er.
  rewrite map_ident_no, Er in S. cbn [map ident fst] in S. inversion S as [|? ? _ F]; subst. rewrite Forall_forall in F.
  destruct (existsb (Nat.eqb (j_no j)) (y_retired y)) eqn:X.
  - apply existsb_exists in X as (m & Hm & Em). apply Nat.eqb_eq in Em. subst m. exact Hm.
  - exfalso. assert (P : In (ident j) (map ident (pending_in QSync (y_accepted y) (y_retired y)))).
    { apply in_map. unfold pending_in. apply filter_In. split; [apply in_accepted; exact Hj|]. unfold not_retired. rewrite X. reflexivity. }
    rewrite Er in P. destruct P as [P|P].
    + apply ident_no in P. lia.
    + specialize (F (j_no j)). assert (j_no j0 < j_no j); [|lia]. apply F. apply in_map_iff. exists (ident j). split; [reflexivity|exact P].
Qed.
Print Assumptions C31_sequential_jobs_run_in_order.
Theorem C31_demo :
  let y := run (pool_of 2 8) (demo_jobs ++ [Do (AClaim 2); Do (AFinish 0 "create" None); Do (AClaim 0)]) in
  executes y 0 QSync 1 /\ y_retired y = [0].
Proof. vm_compute. split; [do 2 eexists; split; reflexivity|reflexivity]. Qed.

(** ** C32 *)
(** [y_done y failed]: the completions of that outcome since the last reset,
    oldest first. What status shows is the last min(n,100) of them, each once, in
    the cyclic order of the slots; for all histories, with any crashes except one
    that hits between the two writes of a record or of a reset. *)
Theorem C32_history_is_the_last_hundred_partial :
  forall kinds h failed, Forall quiet h ->
    let y := run kinds h in
    let log := y_done y failed in
    exists newest_first_slots older,
      past_jobs failed (y_store y) = newest_first_slots ++ older /\
      skipn (List.length log - 100) log = older ++ newest_first_slots.
Proof.
  intros kinds h b Qt y log. pose proof (ring_run kinds h Qt b) as R. fold y in R.
  destruct (ring_past _ _ _ R) as [L H]. destruct (rotation _ _ L H) as (a & b' & E1 & E2). exists b', a. auto.
Qed.
Print Assumptions C32_history_is_the_last_hundred_partial.
(** exactly where each completion is: number [k] in slot [k mod 100] *)
Theorem C32_slots_partial :
  forall kinds h failed, Forall quiet h ->
    let y := run kinds h in
    let log := y_done y failed in
    List.length (past_jobs failed (y_store y)) = Nat.min (List.length log) 100 /\
    forall k, k < List.length log -> List.length log <= k + 100 ->
      nth_error (past_jobs failed (y_store y)) (k mod 100) = nth_error log k.
Proof. intros kinds h b Qt y log. exact (ring_past _ _ _ (ring_run kinds h Qt b)). Qed.
Print Assumptions C32_slots_partial.
(** never more than 100, whatever crashes *)
Theorem C32_at_most_hundred :
  forall kinds h failed, List.length (past_jobs failed (y_store (run kinds h))) <= 100.
Proof. intros kinds h b. apply slots_past. apply slots_run. Qed.
Print Assumptions C32_at_most_hundred.
(** [y_done] is what the workers reported: a completion appends one record to the
    log of its outcome, a reset empties that log, nothing else changes them. *)
Theorem C32_log_is_what_workers_report :
  forall kinds h e, bounded h ->
    let y := run kinds h in
    y_up y = true ->
    match e with
    | Do (AFinish i d f) =>
        (exists q n, executes y i q n) ->
        forall failed, y_done (step y e) failed =
          if Bool.eqb failed (match f with Some _ => true | None => false end) then y_done y failed ++ [JRec d f] else y_done y failed
    | Do (AReset b) => forall failed, y_done (step y e) failed = if Bool.eqb b failed then [] else y_done y failed
    | Do _ => y_done (step y e) = y_done y
    | _ => True
    end.
Proof.
  intros kinds h e B y U. pose proof (run_inv kinds h B) as I. fold y in I.
  destruct e as [[q ty ps|i|i d f|b]| | |]; try exact Logic.I; cbn [step]; rewrite U; cbn [y_done done_after]; try reflexivity.
  intros (q & n & k & j & Hi & _) failed. rewrite Hi.
  destruct (iv_held _ _ _ _ _ _ I _ _ _ _ Hi) as [G _]. rewrite (keys_not_reserved _ _ _ _ _ _ I B q k j G). reflexivity.
Qed.
Print Assumptions C32_log_is_what_workers_report.
(** With a crash between the two writes a slot is skipped: C32 fails for all
    crash points. Here 101 jobs complete, the daemon dies between the pointer and
    the record of the next one, and the one after it reuses slot 2: the record in
    slot 1 is then older than the 100 most recent completions, one of which is
    missing ... it is still 100 records, but not the last 100. *)
Definition one_job : list Jobs.event := [Do (APush QSync "IndexRepo" ["a"]); Do (AClaim 0); Do (AFinish 0 "ok" None)].
Definition hundred_and_one : list Jobs.event :=
  List.concat (map (fun n => [Do (APush QSync "IndexRepo" ["a"]); Do (AClaim 0); Do (AFinish 0 (if Nat.eqb n 1 then "old" else if Nat.eqb n 2 then "kept" else "new") None)]) (seq 0 101)).
Definition skipped_slot : list Jobs.event :=
  hundred_and_one ++ [Do (APush QSync "IndexRepo" ["a"]); Do (AClaim 0); Crash (AFinish 0 "lost" None) 2; Start] ++ one_job.
Theorem C32_every_crash_point_refuted :
  exists h, let y := run [true] h in
    let log := y_done y false in
    List.length log = 102 /\ ~ In (JRec "old" None) (skipn (List.length log - 100) log) /\
    In (JRec "kept" None) (skipn (List.length log - 100) log) /\
    In (JRec "old" None) (past_jobs false (y_store y)) /\ ~ In (JRec "kept" None) (past_jobs false (y_store y)).
Proof.
  exists skipped_slot. cbv zeta.
  assert (E1 : y_done (run [true] skipped_slot) false = [JRec "new" None; JRec "old" None; JRec "kept" None] ++ repeat (JRec "new" None) 98 ++ [JRec "ok" None]) by (vm_compute; reflexivity).
  assert (E2 : past_jobs false (y_store (run [true] skipped_slot)) = [JRec "new" None; JRec "old" None; JRec "ok" None] ++ repeat (JRec "new" None) 97) by (vm_compute; reflexivity).
  rewrite E1, E2. split; [reflexivity|].
  assert (R : forall n x, In x (repeat (JRec "new" None) n) -> x = JRec "new" None) by (intros n x; apply repeat_spec).
  split; [|split; [|split]].
  - cbn [List.length app repeat Nat.sub skipn]. intros H.
    repeat (destruct H as [H|H]; [discriminate H|]). destruct H.
  - cbn [List.length app repeat Nat.sub skipn]. left. reflexivity.
  - right. left. reflexivity.
  - intros H. apply in_app_iff in H as [H|H]; [repeat (destruct H as [H|H]; [discriminate H|]); destruct H|apply R in H; discriminate H].
Qed.
Print Assumptions C32_every_crash_point_refuted.

(** ** C33 *)
(** A completion the daemon survives leaves its record, whatever happened
    before (except the crash excluded in C32). *)
Theorem C33_finished_job_leaves_a_record_partial :
  forall kinds h i d f q n, bounded h -> Forall quiet h ->
    let y := run kinds h in
    y_up y = true -> executes y i q n ->
    let y' := step y (Do (AFinish i d f)) in
    In n (y_retired y') /\ In (JRec d f) (past_jobs (match f with Some _ => true | None => false end) (y_store y')).
Proof.
  intros kinds h i d f q n B Qt y U X y'. pose proof (run_inv kinds h B) as I. fold y in I.
  pose proof X as (k & j & Hi & E).
  destruct (iv_held _ _ _ _ _ _ I _ _ _ _ Hi) as [G _]. pose proof (keys_not_reserved _ _ _ _ _ _ I B q k j G) as NR.
  split.
  - unfold y'. cbn [step]. rewrite U. cbn [y_retired retired_after writes_of]. rewrite Hi. unfold retire, mark_completion. rewrite NR. cbn [fst List.length Nat.leb negb andb].
    apply in_app_iff. right. left. exact E.
  - assert (Q' : Forall quiet (h ++ [Do (AFinish i d f)])) by (apply Forall_app; split; [exact Qt|repeat constructor]).
    destruct (C32_slots_partial kinds _ (match f with Some _ => true | None => false end) Q') as [_ S].
    rewrite run_app in S. fold y in S. fold y' in S.
    pose proof (C32_log_is_what_workers_report kinds h (Do (AFinish i d f)) B U (ex_intro _ q (ex_intro _ n X)) (match f with Some _ => true | None => false end)) as D.
    fold y in D. fold y' in D. rewrite D, eqb_reflx, app_length in S. cbn [List.length] in S.
    set (log := y_done y (match f with Some _ => true | None => false end)) in *.
    specialize (S (List.length log) ltac:(lia) ltac:(lia)). rewrite nth_error_app2, Nat.sub_diag in S by lia. exact (nth_error_In _ _ S).
Qed.
Print Assumptions C33_finished_job_leaves_a_record_partial.
(** C33 fails for a crash: after the entry is deleted and before the record is
    written, the job is in neither queue nor history. *)
Theorem C33_crash_loses_the_record_refuted :
  exists h n, let y := run [true] h in
    In n (y_retired y) /\ y_up y = true /\ (forall q, stored q y = []) /\
    past_jobs false (y_store y) = [] /\ past_jobs true (y_store y) = [].
Proof.
  exists [Do (APush QSync "IndexRepo" ["a"]); Do (AClaim 0); Crash (AFinish 0 "Index repository" None) 1; Start], 0.
  vm_compute. repeat split; [left; reflexivity|intros []; reflexivity].
Qed.
Print Assumptions C33_crash_loses_the_record_refuted.
(** What does hold at every crash point: a job is in its queue until a worker has
    reported its end (C30), so only the record can be missing, never the job. *)
Theorem C33_queued_or_finished :
  forall kinds h q j, bounded h ->
    let y := run kinds h in
    In (q, j) (y_accepted y) -> In (ident j) (map ident (stored q y)) \/ In (j_no j) (y_retired y).
Proof.
  intros kinds h q j B y H. destruct (C30_no_job_is_lost kinds h q B) as [E _]. fold y in E. rewrite E.
  destruct (existsb (Nat.eqb (j_no j)) (y_retired y)) eqn:X.
  - right. apply existsb_exists in X as (m & Hm & Em). apply Nat.eqb_eq in Em. subst m. exact Hm.
  - left. apply in_map. unfold pending_in. apply filter_In. split; [apply in_accepted; exact H|]. unfold not_retired. rewrite X. reflexivity.
Qed.
Print Assumptions C33_queued_or_finished.

(** ** C53 *)
(** For every requested number of jobs and every machine with at least one CPU:
    the first worker is sequential, all others are background workers, there is at
    least one of those, and the processor waits for as many as it starts; a
    request for 2 or more is honoured, anything else becomes half the CPUs
    (negative request, if that is at least 2) or all of them. *)
Theorem C53_worker_pool :
  forall njobs ncpu, (1 <= ncpu)%Z ->
    exists n, (1 <= n)%nat /\ pool_of njobs ncpu = true :: repeat false n /\
      waits_for njobs ncpu = Z.of_nat (List.length (pool_of njobs ncpu)) /\
      ((2 <= njobs)%Z -> Z.of_nat n = njobs) /\
      ((0 <= njobs < 2)%Z -> Z.of_nat n = ncpu) /\
      ((njobs < 0)%Z -> (4 <= ncpu)%Z -> Z.of_nat n = (ncpu / 2)%Z) /\
      ((njobs < 0)%Z -> (ncpu < 4)%Z -> Z.of_nat n = ncpu).
Proof.
  intros njobs ncpu H.
  assert (B : (1 <= background njobs ncpu)%Z).
  { unfold background. destruct (Z.ltb_spec njobs 0); [destruct (Z.ltb_spec (ncpu / 2) 2); lia|destruct (Z.ltb_spec njobs 2); lia]. }
  exists (Z.to_nat (background njobs ncpu)). split; [lia|]. split; [reflexivity|]. split.
  - unfold waits_for, pool_of. cbn [List.length]. rewrite repeat_length. lia.
  - rewrite Z2Nat.id by lia. unfold background. repeat split; intros.
    + destruct (Z.ltb_spec njobs 0); [lia|]. destruct (Z.ltb_spec njobs 2); lia.
    + destruct (Z.ltb_spec njobs 0); [lia|]. destruct (Z.ltb_spec njobs 2); lia.
    + destruct (Z.ltb_spec njobs 0); [|lia]. assert (2 <= ncpu / 2)%Z by (apply Z.div_le_lower_bound; lia). destruct (Z.ltb_spec (ncpu / 2) 2); lia.
    + destruct (Z.ltb_spec njobs 0); [|lia]. assert (ncpu / 2 < 2)%Z by (apply Z.div_lt_upper_bound; lia). destruct (Z.ltb_spec (ncpu / 2) 2); lia.
Qed.
Print Assumptions C53_worker_pool.
Theorem C53_demo : pool_of (-1) 8 = [true; false; false; false; false] /\ pool_of 1 1 = [true; false].
Proof. split; reflexivity. Qed.
