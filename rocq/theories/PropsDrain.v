(** * C72: as long as the daemon is not stopped, every waiting request gets its turn *)
From Verif Require Import Model Spec Demo DemoOk PropsOps.
From Verif Require Import Paths Reading Transit PropsTransit.
From Verif Require Import Base LibDb Jobs JobSpec JobFacts JobFacts2 PropsJobs Dispatch PropsDispatch Daemon DaemonSpec DaemonFacts PropsDaemon PropsProgress.
From Verif Require Import Model Spec.
Open Scope string_scope. Open Scope list_scope.

(** ** Specification *)
(** events that do not stop the daemon *)
Definition calm (e : devent) : Prop := match e with DCrashIn _ _ | DCrashAt _ _ _ => False | _ => True end.
(** the four things the sequential worker (number 0) does, over and over
    (worker.go:104-155): look for a job, execute it, queue what it has to queue,
    retire it *)
Definition turn (e : devent) : option nat :=
  match e with
  | DPoll 0 => Some 0
  | DBegin 0 _ => Some 1
  | DQueue 0 => Some 2
  | DFinish 0 => Some 3
  | _ => None
  end.
(** a stretch of time in which the sequential worker comes by each of them at least
    once; anything else may happen meanwhile, in any order *)
Definition round (w : list devent) : Prop := Forall calm w /\ forall k, k < 4 -> exists e, In e w /\ turn e = Some k.
(** between two moments no attempt panicked *)
Definition no_new_panic (d d' : daemon) : Prop :=
  forall l, dm_log d' = dm_log d ++ l -> forall a, In a (attempts l) -> at_end a <> Panicked.
(** the number of packages of a repository *)
Definition package_count (s : state) (r : string) : nat := List.length (mlist (d_ents (st_db s) r)).

Section Run.
Variable E : env.
Variable T : string -> option tram.
Variable B : list string.
Variables njobs ncpu : Z.
Notation kinds := (pool_of njobs ncpu).
Notation dstep := (Daemon.dstep E T B).
Notation DI := (DI njobs ncpu).

(** a worker that is queueing delta jobs holds a job that asks for it *)
Definition QI (d : daemon) : Prop :=
  forall i l ds, dm_phase d i = PQueueing l ds -> exists j h r, holds (dm_sys d) i = Some j /\ handler_of j = Ok h /\ execute h = PushDeltas r.
Lemma QI_step rs d e : DI rs d -> QI d -> QI (dstep d e).
Proof.
  intros I Q. pose proof (di_run _ _ _ _ I) as R. pose proof (di_bound _ _ _ _ I) as Bd.
  assert (Fr : forall y c l js, QI (Daemon y c all_fresh l js)) by (intros y c l js i l' ds X; discriminate X).
  assert (Same : forall c l js, QI (Daemon (dm_sys d) c (dm_phase d) l js)) by (intros c l js i l' ds X; exact (Q _ _ _ X)).
  assert (Keep : forall y c l js, (forall i j, holds (dm_sys d) i = Some j -> holds y i = Some j) -> QI (Daemon y c (dm_phase d) l js)).
  { intros y c l js H i l' ds X. cbn [dm_phase] in X. destruct (Q _ _ _ X) as (j & h & r & A & C). exists j, h, r. split; [apply H; exact A|exact C]. }
  assert (Over : forall c l js i ds f, QI (Daemon (dm_sys d) c (set_phase d i (POver ds f)) l js)).
  { intros c l js i ds f i' l' ds' X. cbn [dm_phase] in X. unfold set_phase in X. destruct (Nat.eqb i' i); [discriminate|exact (Q _ _ _ X)]. }
  assert (St : forall e, (e = Start \/ exists n, e = StartCrash n) -> forall i j, holds (dm_sys d) i = Some j -> holds (feed d e) i = Some j).
  { intros e0 He i j H. pose proof (start_step kinds (dm_jobs d) e0) as X. rewrite <- R in X. destruct (X He) as (_ & _ & A3). unfold feed. rewrite A3. exact H. }
  destruct e as [rq|i|i o|i|i|b|e n|i o n| |n|ev]; cbn [Daemon.dstep]; try (destruct (y_up (dm_sys d)) eqn:U; cbn [negb]; [|exact Q]).
  - cbn [act_of]. destruct (job_of rq) as [[q ty] ps]. cbn [phase_after]. apply Keep. intros i j H. pose proof (push_step kinds (dm_jobs d) Bd q ty ps) as X. rewrite <- R in X.
    destruct (X U) as (_ & _ & A3 & _). unfold feed. rewrite A3. exact H.
  - cbn [act_of phase_after]. apply Keep. intros i' j H. pose proof (claim_step kinds (dm_jobs d) i) as X. rewrite <- R in X. destruct (X U) as (_ & _ & A3 & _). apply A3, H.
  - rewrite held_is_holds. destruct (holds (dm_sys d) i) as [j|] eqn:H; [|exact Q]. destruct (dm_phase d i) eqn:Ph; try exact Q.
    unfold begin_job. fold (handler_of j). destruct (handler_of j) as [h| |] eqn:Hh; try apply Over. cbv zeta. destruct (result_of _) as [names| |]; [|apply Over|apply Fr].
    destruct (execute h) as [p|r|path] eqn:Et; try apply Over. intros i' l' ds X. cbn [dm_phase dm_sys] in *. unfold set_phase in X.
    destruct (Nat.eqb_spec i' i) as [->|Ni]; [|exact (Q _ _ _ X)]. exists j, h, r. auto.
  - cbn [act_of]. destruct (dm_phase d i) as [|[|[[q ty] ps] l] desc|ds f] eqn:Ph.
    + rewrite held_is_holds. destruct (holds (dm_sys d) i); exact Q.
    + rewrite held_is_holds. destruct (holds (dm_sys d) i) as [j|]; [|exact Q]. destruct (new_job_handler _ _) as [h| |]; try exact Q. destruct (execute h); try exact Q. apply Over.
    + cbn [phase_after]. rewrite Ph. intros i' l' ds X. cbn [dm_phase dm_sys] in *. pose proof (push_step kinds (dm_jobs d) Bd q ty ps) as Y. rewrite <- R in Y.
      destruct (Y U) as (_ & _ & A3 & _). unfold feed. rewrite A3. unfold set_phase in X. destruct (Nat.eqb_spec i' i) as [->|Ni]; [exact (Q _ _ _ Ph)|exact (Q _ _ _ X)].
    + rewrite held_is_holds. destruct (holds (dm_sys d) i); exact Q.
  - cbn [act_of]. destruct (dm_phase d i) as [|l desc|ds f] eqn:Ph; try exact Q. cbn [phase_after].
    intros i' l' ds' X. cbn [dm_phase dm_sys] in *. unfold set_phase in X. destruct (Nat.eqb_spec i' i) as [->|Ni]; [discriminate|].
    destruct (Q _ _ _ X) as (j' & h' & r & A & C). exists j', h', r. split; [|exact C].
    destruct (holds (dm_sys d) i) as [j|] eqn:H; [|pose proof (di_idle _ _ _ _ I i H); congruence].
    pose proof (finish_step kinds (dm_jobs d) Bd i ds f j) as Y. rewrite <- R in Y. destruct (Y U H) as (_ & _ & _ & A4 & _). unfold feed. rewrite A4 by exact Ni. exact A.
  - cbn [act_of phase_after]. apply Keep. intros i' j H. pose proof (reset_step kinds (dm_jobs d) b) as X. rewrite <- R in X. destruct (X U) as (_ & _ & A3 & _). unfold feed. rewrite A3. exact H.
  - unfold down. apply Fr.
  - destruct (held_job d i); [|apply Fr]. destruct (dm_phase d i); try apply Fr. destruct (new_job_handler _ _); apply Fr.
  - apply Keep, St. auto.
  - apply Keep, St. eauto.
  - destruct (outside_event ev); [apply Same|exact Q].
Qed.
Lemma QI_run h : short h -> QI (drun E T B kinds h).
Proof.
  intros Sh. induction h as [|e h IH] using rev_ind; [intros i l ds X; discriminate X|]. rewrite drun_snoc.
  pose proof (short_snoc _ _ Sh) as S0. eapply QI_step; [apply (DI_run E T B njobs ncpu h S0)|apply IH; exact S0].
Qed.

(** ** How far the sequential worker is from retiring job [n] *)
Variable N : nat.
Definition retired_b (d : daemon) (n : nat) : bool := existsb (Nat.eqb n) (y_retired (dm_sys d)).
Lemma retired_b_spec d n : retired_b d n = true <-> In n (y_retired (dm_sys d)).
Proof. unfold retired_b. rewrite existsb_exists. split; [intros (x & H & X); apply Nat.eqb_eq in X; subst; exact H|intros H; exists n; split; [exact H|apply Nat.eqb_refl]]. Qed.
Definition dist (d : daemon) (n : nat) : nat :=
  if retired_b d n then 0
  else match holds (dm_sys d) 0 with
       | None => 4 + N
       | Some _ => match dm_phase d 0 with PFresh => 3 + N | PQueueing l _ => 2 + List.length l | POver _ _ => 1 end
       end.
Definition need (d : daemon) : nat :=
  match holds (dm_sys d) 0 with None => 0 | Some _ => match dm_phase d 0 with PFresh => 1 | PQueueing _ _ => 2 | POver _ _ => 3 end end.

Record Ready (n : nat) (d : daemon) : Prop := {
  rd_di : exists rs, DI rs d;
  rd_qi : QI d;
  rd_up : y_up (dm_sys d) = true;
  rd_acc : exists j, In (QSync, j) (y_accepted (dm_sys d)) /\ j_no j = n;
  rd_before : forall j, In (QSync, j) (y_accepted (dm_sys d)) -> j_no j < n -> In (j_no j) (y_retired (dm_sys d))
}.

Lemma held_is n d j : Ready n d -> holds (dm_sys d) 0 = Some j -> ~ In n (y_retired (dm_sys d)) -> j_no j = n.
Proof.
  intros [(rs & I) _ _ (a & Ha & En) Bef] H Nr. pose proof (di_run _ _ _ _ I) as R. pose proof (di_bound _ _ _ _ I) as Bd.
  apply holds_spec in H as (q & k & H). assert (q = QSync) as ->.
  { rewrite R in H. apply (map_nth_error w_queue) in H. rewrite worker_queues in H. cbn in H. congruence. }
  rewrite R in H. destruct (held_accepted kinds (dm_jobs d) Bd _ _ _ _ H) as (b & Hb & Eb & Nb). rewrite <- R in Hb, Nb. apply ident_no in Eb.
  destruct (lt_eq_lt_dec (j_no j) n) as [[L|L]|L]; [|exact L|].
  - destruct Nb. rewrite <- Eb. apply Bef; [exact Hb|lia].
  - destruct Nr. rewrite <- En. rewrite R. apply (C31_sequential_jobs_run_in_order njobs ncpu (dm_jobs d) 0 (j_no j)); [exact Bd| |rewrite <- R; exact Ha|lia].
    exists k, j. split; [exact H|reflexivity].
Qed.
(** an idle sequential worker finds the job *)
Lemma claim_finds n d : Ready n d -> holds (dm_sys d) 0 = None -> ~ In n (y_retired (dm_sys d)) -> exists j, holds (feed d (Do (AClaim 0))) 0 = Some j.
Proof.
  intros [(rs & I) _ U (a & Ha & En) Bef] H Nr. pose proof (di_run _ _ _ _ I) as R. pose proof (di_bound _ _ _ _ I) as Bd.
  assert (W0 : nth_error (y_workers (dm_sys d)) 0 = Some (Worker QSync None)).
  { unfold holds in H. destruct (nth_error (y_workers (dm_sys d)) 0) as [[q [[k j]|]]|] eqn:X; [discriminate| |].
    - rewrite R in X. apply (map_nth_error w_queue) in X. rewrite worker_queues in X. cbn in X. congruence.
    - apply nth_error_None in X. rewrite R in X. rewrite <- (map_length w_queue), worker_queues in X. cbn in X. lia. }
  pose proof (C28_claims_are_first_in_first_out kinds (dm_jobs d) 0 QSync Bd) as X. cbv zeta in X. rewrite <- R in X. specialize (X U W0).
  assert (Wa : In a (waiting QSync (dm_sys d))).
  { unfold waiting. apply filter_In. split.
    - unfold pending_in. apply filter_In. split; [apply in_accepted; exact Ha|]. unfold not_retired. apply negb_true_iff. destruct (existsb _ _) eqn:Z; [|reflexivity].
      apply existsb_exists in Z as (m & Hm & Em). apply Nat.eqb_eq in Em. destruct Nr. congruence.
    - apply negb_true_iff. destruct (existsb _ _) eqn:Z; [|reflexivity]. apply existsb_exists in Z as (m & Hm & Em). apply Nat.eqb_eq in Em. subst m. exfalso.
      apply in_held in Hm as (i & q & k & j & Hi & Ej). rewrite R in Hi. destruct (held_accepted kinds (dm_jobs d) Bd _ _ _ _ Hi) as (b & Hb & Eb & _). apply ident_no in Eb.
      pose proof Ha as Ha'. rewrite R in Ha'. destruct (accepted_unique kinds (dm_jobs d) Bd _ _ _ _ Ha' Hb ltac:(congruence)) as [<- _].
      assert (i = 0) by (eapply one_sync; [exact Hi|reflexivity]). subst i. rewrite <- R in Hi. congruence. }
  destruct (waiting QSync (dm_sys d)) as [|x w]; [destruct Wa|]. destruct X as (k & j' & Hk & _). exists j'. apply holds_spec. eauto.
Qed.

Lemma names_count o r s names : result_of (perform E T B o (PushDeltas r) s) = Ok names -> List.length names = package_count s r.
Proof.
  cbn [perform]. unfold get_repo, bake_repo, get_package_names, ent_list, bind, gets, ret, err, vol, durable, package_count.
  destruct (st_cache s r); [intros H; injection H as <-; rewrite map_length; reflexivity|].
  destruct (mhas (d_repos (st_db s)) r); [|discriminate]. destruct (f_dir (st_fs s) r); intros H; injection H as <-; rewrite map_length; reflexivity.
Qed.

Lemma step_dist n d e : Ready n d -> calm e -> bounded (dm_jobs d ++ [stop]) ->
  no_new_panic d (dstep d e) -> (forall r, package_count (dm_core d) r <= N) ->
  Ready n (dstep d e) /\
  (In n (y_retired (dm_sys d)) -> In n (y_retired (dm_sys (dstep d e)))) /\
  (~ In n (y_retired (dm_sys d)) -> dist (dstep d e) n < dist d n \/ (dist (dstep d e) n = dist d n /\ need (dstep d e) = need d /\ turn e <> Some (need d))).
Proof.
  intros Rd Ca Bd Np Nn. pose proof Rd as [(rs & I) Q U Ac Bef]. pose proof (di_run _ _ _ _ I) as R. pose proof (di_bound _ _ _ _ I) as Bd0.
  pose proof (DI_step E T B njobs ncpu rs d e I Bd) as I'. destruct (dstep_grows E T B d e) as ((xa & Ea) & (xr & Er)).
  assert (Mono : In n (y_retired (dm_sys d)) -> In n (y_retired (dm_sys (dstep d e)))) by (intros X; rewrite Er; apply in_app_iff; left; exact X).
  enough (Y : y_up (dm_sys (dstep d e)) = true /\
    (~ In n (y_retired (dm_sys d)) -> dist (dstep d e) n < dist d n \/ (dist (dstep d e) n = dist d n /\ need (dstep d e) = need d /\ turn e <> Some (need d)))).
  { destruct Y as [U' Y]. split; [|split; [exact Mono|exact Y]]. constructor; [eauto|eapply QI_step; eauto|exact U'| |].
    - destruct Ac as (a & Ha & En). exists a. split; [rewrite Ea; apply in_app_iff; left; exact Ha|exact En].
    - intros j Hj L. rewrite Er. apply in_app_iff. left. apply Bef; [|exact L]. destruct Ac as (a & Ha & En). eapply accepted_earlier; [exact I|exact I'|exact Ha|exact Hj|lia]. }
  clear I' Ea Er xa xr Ac Bef.
  (* nothing that concerns worker 0 *)
  assert (Same : forall d', holds (dm_sys d') 0 = holds (dm_sys d) 0 -> dm_phase d' 0 = dm_phase d 0 -> turn e <> Some (need d) -> ~ In n (y_retired (dm_sys d)) ->
     dist d' n < dist d n \/ (dist d' n = dist d n /\ need d' = need d /\ turn e <> Some (need d))).
  { intros d' H1 H2 H3 H4. unfold dist, need. rewrite H1, H2. destruct (retired_b d n) eqn:X; [apply retired_b_spec in X; contradiction|].
    destruct (retired_b d' n); [left|right; auto]. destruct (holds (dm_sys d) 0); [destruct (dm_phase d 0)|]; lia. }
  assert (Ph0 : forall i p, i <> 0 -> set_phase d i p 0 = dm_phase d 0) by (intros i p Hi; unfold set_phase; destruct (Nat.eqb_spec 0 i); [congruence|reflexivity]).
  assert (Ph1 : forall p, set_phase d 0 p 0 = p) by reflexivity.
  assert (Rf : ~ In n (y_retired (dm_sys d)) -> retired_b d n = false) by (intros X; destruct (retired_b d n) eqn:Z; [apply retired_b_spec in Z; contradiction|reflexivity]).
  assert (Noop : dstep d e = d -> turn e <> Some (need d) -> y_up (dm_sys (dstep d e)) = true /\
    (~ In n (y_retired (dm_sys d)) -> dist (dstep d e) n < dist d n \/ (dist (dstep d e) n = dist d n /\ need (dstep d e) = need d /\ turn e <> Some (need d)))).
  { intros -> X. split; [exact U|]. intros _. right. auto. }
  assert (T0 : forall i, i <> 0 -> turn (DPoll i) <> Some (need d) /\ (forall o, turn (DBegin i o) <> Some (need d)) /\ turn (DQueue i) <> Some (need d) /\ turn (DFinish i) <> Some (need d)).
  { intros [|i] Hi; [congruence|]. cbn [turn]. repeat split; discriminate. }
  assert (TN : turn e = None -> turn e <> Some (need d)) by (intros ->; discriminate).
  destruct e as [rq|i|i o|i|i|b|e0 m|i o m| |m|ev]; cbn [calm] in Ca; try contradiction; revert Np Same Noop Mono; cbn [Daemon.dstep]; rewrite ?U; cbn [negb]; intros Np Same Noop Mono.
  - cbn [act_of]. destruct (job_of rq) as [[q ty] ps]. pose proof (push_step kinds (dm_jobs d) Bd0 q ty ps) as X. rewrite <- R in X. destruct (X U) as (_ & _ & A3 & A4).
    split; [exact A4|]. intros Nr. apply Same; auto; apply A3.
  - cbn [act_of]. pose proof (claim_step kinds (dm_jobs d) i) as X. rewrite <- R in X. destruct (X U) as (_ & A2 & A3 & A4 & A5). split; [exact A5|]. intros Nr.
    destruct (Nat.eq_dec i 0) as [->|Ni]; [|apply Same; [apply A4; congruence|reflexivity|apply T0; exact Ni|exact Nr]].
    destruct (holds (dm_sys d) 0) as [j|] eqn:H.
    + apply Same; [exact (A3 0 j H)|reflexivity| |exact Nr]. unfold need. rewrite H. destruct (dm_phase d 0); discriminate.
    + left. destruct (claim_finds n d Rd H Nr) as (j & Hj). unfold dist, retired_b. cbn [dm_sys dm_phase phase_after]. rewrite Hj. unfold feed. rewrite A2. fold (retired_b d n). rewrite (Rf Nr), H.
      rewrite (di_idle _ _ _ _ I 0 H). lia.
  - revert Np Same Noop. rewrite held_is_holds. intros Np Same Noop. destruct (holds (dm_sys d) i) as [j|] eqn:H.
    2: { apply Noop; [reflexivity|]. destruct i; [|discriminate]. unfold need. rewrite H. discriminate. }
    destruct (dm_phase d i) as [|l ds|ds f] eqn:Ph.
    2: { apply Noop; [reflexivity|]. destruct i; [|discriminate]. unfold need. rewrite H, Ph. discriminate. }
    2: { apply Noop; [reflexivity|]. destruct i; [|discriminate]. unfold need. rewrite H, Ph. discriminate. }
    assert (G : forall d', dm_sys d' = dm_sys d -> (exists p, dm_phase d' = set_phase d i p /\ match p with PFresh => False | PQueueing l _ => List.length l <= N | POver _ _ => True end) ->
       y_up (dm_sys d') = true /\ (~ In n (y_retired (dm_sys d)) -> dist d' n < dist d n \/ (dist d' n = dist d n /\ need d' = need d /\ turn (DBegin i o) <> Some (need d)))).
    { intros d' Es (p & Ep & Cp). rewrite Es. split; [exact U|]. intros Nr. destruct (Nat.eq_dec i 0) as [->|Ni].
      - left. unfold dist, retired_b. rewrite Es, Ep. fold (retired_b d n). rewrite (Rf Nr), H, Ph, Ph1. destruct p; [contradiction|lia|lia].
      - apply Same; [rewrite Es; reflexivity|rewrite Ep; apply Ph0; exact Ni|apply T0; exact Ni|exact Nr]. }
    apply G; revert Np; unfold begin_job; fold (handler_of j); (destruct (handler_of j) as [hd| |]; [|reflexivity || (intros _; eexists; split; [reflexivity|exact Logic.I])..]); cbv zeta.
    + intros Np. destruct (result_of (perform E T B o (execute hd) (dm_core d))) as [names| |]; [destruct (execute hd); reflexivity|reflexivity|].
      exfalso. apply (Np _ eq_refl (Attempt (j_no j) o (execute hd) Panicked)); [left; reflexivity|reflexivity].
    + intros Np. destruct (result_of (perform E T B o (execute hd) (dm_core d))) as [names| |] eqn:Rs.
      * destruct (execute hd) as [p|r|path]; eexists; (split; [reflexivity|]); try exact Logic.I. unfold delta_pushes. rewrite map_length. rewrite (names_count _ _ _ _ Rs). apply Nn.
      * eexists; split; [reflexivity|exact Logic.I].
      * exfalso. apply (Np _ eq_refl (Attempt (j_no j) o (execute hd) Panicked)); [left; reflexivity|reflexivity].
  - revert Np Same Noop. cbn [act_of]. rewrite held_is_holds. intros Np Same Noop.
    destruct (dm_phase d i) as [|[|[[q ty] ps] l] ds|ds f] eqn:Ph.
    + apply Noop; [destruct (holds (dm_sys d) i); reflexivity|]. destruct i; [|discriminate]. unfold need. rewrite Ph. destruct (holds (dm_sys d) 0); discriminate.
    + destruct (Q _ _ _ Ph) as (j & hd & r & H & Hh & Et). revert Np Same Noop. rewrite H. fold (handler_of j). rewrite Hh, Et. intros Np Same Noop. cbn [dm_sys]. split; [exact U|]. intros Nr.
      destruct (Nat.eq_dec i 0) as [->|Ni].
      * left. unfold dist, retired_b. cbn [dm_sys dm_phase]. fold (retired_b d n). rewrite (Rf Nr), H, Ph, Ph1. cbn [List.length]. lia.
      * apply Same; [reflexivity|cbn [dm_phase]; apply Ph0; exact Ni|apply T0; exact Ni|exact Nr].
    + pose proof (push_step kinds (dm_jobs d) Bd0 q ty ps) as X. rewrite <- R in X. destruct (X U) as (_ & A2 & A3 & A4). split; [exact A4|]. intros Nr.
      destruct (Nat.eq_dec i 0) as [->|Ni].
      * left. destruct (Q _ _ _ Ph) as (j & hd & r & H & _). unfold dist, retired_b. cbn [dm_sys dm_phase phase_after]. unfold feed. rewrite A2, A3. fold (retired_b d n). rewrite (Rf Nr), H, Ph, Ph1. cbn [List.length]. lia.
      * apply Same; [apply A3|cbn [dm_phase phase_after]; rewrite Ph; apply Ph0; exact Ni|apply T0; exact Ni|exact Nr].
    + apply Noop; [destruct (holds (dm_sys d) i); reflexivity|]. destruct i; [|discriminate]. unfold need. rewrite Ph. destruct (holds (dm_sys d) 0); discriminate.
  - revert Np Same Noop Mono. cbn [act_of]. intros Np Same Noop Mono. destruct (dm_phase d i) as [|l ds|ds f] eqn:Ph.
    + apply Noop; [reflexivity|]. destruct i; [|discriminate]. unfold need. rewrite Ph. destruct (holds (dm_sys d) 0); discriminate.
    + apply Noop; [reflexivity|]. destruct i; [|discriminate]. unfold need. rewrite Ph. destruct (holds (dm_sys d) 0); discriminate.
    + destruct (holds (dm_sys d) i) as [j|] eqn:H; [|pose proof (di_idle _ _ _ _ I i H); congruence].
      pose proof (finish_step kinds (dm_jobs d) Bd0 i ds f j) as X. rewrite <- R in X. destruct (X U H) as (_ & A2 & A3 & A4 & A5). split; [exact A5|]. intros Nr.
      destruct (Nat.eq_dec i 0) as [->|Ni].
      * left. pose proof (held_is n d j Rd H Nr) as En. unfold dist at 1. 
        assert (Z : retired_b (Daemon (feed d (Do (AFinish 0 ds f))) (dm_core d) (phase_after d (DFinish 0)) (dm_log d) (dm_jobs d ++ [Do (AFinish 0 ds f)])) n = true).
        { apply retired_b_spec. cbn [dm_sys]. unfold feed. rewrite A2. apply in_app_iff. right. left. exact En. }
        rewrite Z. unfold dist. rewrite (Rf Nr), H, Ph. lia.
      * apply Same; [apply A4; congruence|cbn [dm_phase phase_after]; apply Ph0; exact Ni|apply T0; exact Ni|exact Nr].
  - cbn [act_of]. pose proof (reset_step kinds (dm_jobs d) b) as X. rewrite <- R in X. destruct (X U) as (_ & _ & A3 & A4). split; [exact A4|]. intros Nr. apply Same; auto; apply A3.
  - pose proof (start_step kinds (dm_jobs d) Start) as X. rewrite <- R in X. destruct (X ltac:(left; reflexivity)) as (_ & _ & A3).
    split; [cbn [dm_sys]; unfold feed; cbn [Jobs.step]; rewrite U; exact U|]. intros Nr. apply Same; auto; apply A3.
  - pose proof (start_step kinds (dm_jobs d) (StartCrash m)) as X. rewrite <- R in X. destruct (X ltac:(right; eauto)) as (_ & _ & A3).
    split; [cbn [dm_sys]; unfold feed; cbn [Jobs.step]; rewrite U; exact U|]. intros Nr. apply Same; auto; apply A3.
  - destruct (outside_event ev); (split; [exact U|]); intros Nr; apply Same; auto.
Qed.

Definition QN (d : daemon) : Prop := forall i l ds, dm_phase d i = PQueueing l ds -> List.length l <= N.
Lemma QN_step d e : (forall r, package_count (dm_core d) r <= N) -> QN d -> QN (dstep d e).
Proof.
  intros Nn Q.
  assert (Set_ : forall y c l js i p, match p with PQueueing l' _ => List.length l' <= N | _ => True end -> QN (Daemon y c (set_phase d i p) l js)).
  { intros y c l js i p Hp i' l' ds X. cbn [dm_phase] in X. unfold set_phase in X. destruct (Nat.eqb i' i); [subst p; exact Hp|exact (Q _ _ _ X)]. }
  assert (Fr : forall y c l js, QN (Daemon y c all_fresh l js)) by (intros y c l js i l' ds X; discriminate X).
  assert (Keep : forall y c l js, QN (Daemon y c (dm_phase d) l js)) by (intros y c l js i l' ds X; exact (Q _ _ _ X)).
  destruct e as [rq|i|i o|i|i|b|e n|i o n| |n|ev]; cbn [Daemon.dstep]; try (destruct (negb (y_up (dm_sys d))); [exact Q|]).
  - cbn [act_of]. destruct (job_of rq) as [[q ty] ps]. apply Keep.
  - apply Keep.
  - destruct (held_job d i) as [j|]; [|exact Q]. destruct (dm_phase d i); try exact Q. unfold begin_job. destruct (new_job_handler _ _) as [h| |]; try (apply Set_; exact Logic.I).
    cbv zeta. destruct (result_of (perform E T B o (execute h) (dm_core d))) as [names| |] eqn:Rs; [|apply Set_; exact Logic.I|apply Fr].
    destruct (execute h) as [p|r|path]; try (apply Set_; exact Logic.I). apply Set_. unfold delta_pushes. rewrite map_length, (names_count _ _ _ _ Rs). apply Nn.
  - cbn [act_of]. destruct (dm_phase d i) as [|[|[[q ty] ps] l] desc|ds f] eqn:Ph.
    + destruct (held_job d i); exact Q.
    + destruct (held_job d i) as [j|]; [|exact Q]. destruct (new_job_handler _ _) as [h| |]; try exact Q. destruct (execute h); try exact Q. apply Set_. exact Logic.I.
    + cbn [phase_after]. rewrite Ph. apply Set_. pose proof (Q _ _ _ Ph) as L. cbn [List.length] in L. lia.
    + destruct (held_job d i); exact Q.
  - cbn [act_of]. destruct (dm_phase d i) as [|l desc|ds f] eqn:Ph; try exact Q. cbn [phase_after]. apply Set_. exact Logic.I.
  - apply Keep.
  - apply Fr.
  - destruct (held_job d i); [|apply Fr]. destruct (dm_phase d i); try apply Fr. destruct (new_job_handler _ _); apply Fr.
  - apply Keep.
  - apply Keep.
  - destruct (outside_event ev); [apply Keep|exact Q].
Qed.
Lemma QN_run h : (forall h1 h2, h = h1 ++ h2 -> forall r, package_count (dm_core (drun E T B kinds h1)) r <= N) -> QN (drun E T B kinds h).
Proof.
  induction h as [|e h IH] using rev_ind; intros H; [intros i l ds X; discriminate X|]. rewrite drun_snoc. apply QN_step; [apply (H h [e]); reflexivity|].
  apply IH. intros h1 h2 ->. apply (H h1 (h2 ++ [e])). rewrite app_assoc. reflexivity.
Qed.
Lemma dist_bound d n : QN d -> dist d n <= 4 + N.
Proof.
  intros Q. unfold dist. destruct (retired_b d n); [lia|]. destruct (holds (dm_sys d) 0); [|lia]. destruct (dm_phase d 0) as [|l ds|] eqn:Ph; [lia| |lia]. pose proof (Q _ _ _ Ph). lia.
Qed.

Lemma log_grows d e : exists x, dm_log (dstep d e) = dm_log d ++ x.
Proof.
  destruct e as [rq|i|i o|i|i|b|e n|i o n| |n|ev]; cbn [Daemon.dstep]; try (destruct (negb (y_up (dm_sys d))); [exists []; symmetry; apply app_nil_r|]).
  - destruct (act_of d (DRequest rq)); exists []; symmetry; apply app_nil_r.
  - exists []; symmetry; apply app_nil_r.
  - destruct (held_job d i) as [j|]; [|exists []; symmetry; apply app_nil_r]. destruct (dm_phase d i); try (exists []; symmetry; apply app_nil_r).
    unfold begin_job. destruct (new_job_handler _ _) as [h| |]; try (exists []; symmetry; apply app_nil_r). cbv zeta. destruct (result_of _); [destruct (execute h)|..]; eexists; reflexivity.
  - destruct (act_of d (DQueue i)); [exists []; symmetry; apply app_nil_r|]. destruct (held_job d i) as [j|]; [|exists []; symmetry; apply app_nil_r].
    destruct (dm_phase d i) as [|[|x l] ds|]; try (exists []; symmetry; apply app_nil_r). destruct (new_job_handler _ _) as [h| |]; try (exists []; symmetry; apply app_nil_r).
    destruct (execute h); try (exists []; symmetry; apply app_nil_r). eexists; reflexivity.
  - destruct (act_of d (DFinish i)); exists []; symmetry; apply app_nil_r.
  - exists []; symmetry; apply app_nil_r.
  - eexists; reflexivity.
  - destruct (held_job d i) as [j|]; [|eexists; reflexivity]. destruct (dm_phase d i); try (eexists; reflexivity). destruct (new_job_handler _ _); eexists; reflexivity.
  - exists []; symmetry; apply app_nil_r.
  - exists []; symmetry; apply app_nil_r.
  - destruct (outside_event ev); [eexists; reflexivity|exists []; symmetry; apply app_nil_r].
Qed.
Lemma log_run h h' : exists x, dm_log (drun E T B kinds (h ++ h')) = dm_log (drun E T B kinds h) ++ x.
Proof.
  induction h' as [|e h' (x & IH)] using rev_ind; [exists []; rewrite !app_nil_r; reflexivity|].
  rewrite app_assoc, drun_snoc. destruct (log_grows (drun E T B kinds (h ++ h')) e) as (y & ->). rewrite IH, <- app_assoc. eexists; reflexivity.
Qed.
Lemma no_panic_part h w1 w2 w3 : no_new_panic (drun E T B kinds h) (drun E T B kinds (h ++ w1 ++ w2 ++ w3)) ->
  no_new_panic (drun E T B kinds (h ++ w1)) (drun E T B kinds (h ++ w1 ++ w2)).
Proof.
  intros Np l El a Ha. destruct (log_run h w1) as (x & Ex). destruct (log_run (h ++ w1 ++ w2) w3) as (y & Ey).
  replace ((h ++ w1 ++ w2) ++ w3) with (h ++ w1 ++ w2 ++ w3) in Ey by (rewrite <- !app_assoc; reflexivity).
  apply (Np (x ++ l ++ y)); [rewrite Ey, El, Ex, <- !app_assoc; reflexivity|]. rewrite !attempts_app, !in_app_iff. auto.
Qed.

(** what is assumed of a stretch [w] after [h] *)
Record Stretch (h w : list devent) : Prop := {
  s_short : short (h ++ w);
  s_calm : Forall calm w;
  s_panic : no_new_panic (drun E T B kinds h) (drun E T B kinds (h ++ w));
  s_count : forall h1 h2, h ++ w = h1 ++ h2 -> forall r, package_count (dm_core (drun E T B kinds h1)) r <= N
}.
Lemma stretch_front h w1 w2 : Stretch h (w1 ++ w2) -> Stretch h w1.
Proof.
  intros [A C P S]. constructor.
  - unfold short in *. rewrite !app_length in *. lia.
  - apply Forall_app in C. apply C.
  - intros l El. rewrite <- (app_nil_r h) in P. pose proof (no_panic_part h [] w1 w2) as X. cbn [app] in X. rewrite app_nil_r in X, P. exact (X P l El).
  - intros h1 h2 Eq. apply (S h1 (h2 ++ w2)). rewrite app_assoc, Eq, app_assoc. reflexivity.
Qed.
Lemma stretch_back h w1 w2 : Stretch h (w1 ++ w2) -> Stretch (h ++ w1) w2.
Proof.
  intros [A C P S]. constructor.
  - rewrite <- app_assoc. exact A.
  - apply Forall_app in C. apply C.
  - pose proof (no_panic_part h w1 w2 []) as X. rewrite !app_nil_r in X. rewrite <- app_assoc. exact (X P).
  - intros h1 h2 Eq. rewrite <- app_assoc in Eq. exact (S h1 h2 Eq).
Qed.
Lemma stretch_step n h e : Stretch h [e] -> Ready n (drun E T B kinds h) ->
  let d := drun E T B kinds h in let d' := drun E T B kinds (h ++ [e]) in
  Ready n d' /\ (In n (y_retired (dm_sys d)) -> In n (y_retired (dm_sys d'))) /\
  (~ In n (y_retired (dm_sys d)) -> dist d' n < dist d n \/ (dist d' n = dist d n /\ need d' = need d /\ turn e <> Some (need d))).
Proof.
  intros [A C P S] Rd. cbv zeta. rewrite drun_snoc in *. apply step_dist.
  - exact Rd.
  - inversion C; assumption.
  - pose proof (jobs_len E T B njobs ncpu h) as L. unfold bounded. unfold short in A. rewrite app_length in *. cbn [List.length] in *. lia.
  - exact P.
  - apply (S h [e] eq_refl).
Qed.
Lemma dist0 d n : dist d n = 0 <-> In n (y_retired (dm_sys d)).
Proof.
  rewrite <- retired_b_spec. unfold dist. destruct (retired_b d n); [split; reflexivity|]. split; [|discriminate].
  destruct (holds (dm_sys d) 0); [destruct (dm_phase d 0)|]; discriminate.
Qed.
Lemma stretch_run n w : forall h, Stretch h w -> Ready n (drun E T B kinds h) ->
  let d := drun E T B kinds h in let d' := drun E T B kinds (h ++ w) in
  Ready n d' /\ dist d' n <= dist d n /\
  (dist d n <> 0 -> (exists e, In e w /\ turn e = Some (need d)) -> dist d' n < dist d n).
Proof.
  induction w as [|e w IH]; intros h St Rd d d'.
  - unfold d', d. rewrite app_nil_r. split; [exact Rd|]. split; [lia|]. intros _ (e & [] & _).
  - change (e :: w) with ([e] ++ w) in St. pose proof (stretch_front _ _ _ St) as S1. pose proof (stretch_back _ _ _ St) as S2.
    destruct (stretch_step n h e S1 Rd) as (R1 & M1 & D1). fold d in M1, D1. destruct (IH _ S2 R1) as (R2 & L2 & D2).
    set (d1 := drun E T B kinds (h ++ [e])) in *. unfold d'. replace (h ++ e :: w) with ((h ++ [e]) ++ w) by (rewrite <- app_assoc; reflexivity).
    split; [exact R2|]. destruct (Nat.eq_dec (dist d n) 0) as [Z|Z].
    + assert (Z1 : dist d1 n = 0) by (apply dist0, M1, dist0, Z). split; [lia|]. intros X; contradiction.
    + assert (Nr : ~ In n (y_retired (dm_sys d))) by (rewrite <- dist0; exact Z). destruct (D1 Nr) as [X|(Eq & En & Tn)].
      * split; [lia|]. intros _ _. lia.
      * split; [lia|]. intros _ (x & [<-|Hx] & Tx); [contradiction|]. rewrite Eq in D2. rewrite <- Eq. rewrite Eq. apply D2; [exact Z|]. exists x. split; [exact Hx|]. rewrite En. exact Tx.
Qed.
Lemma need_lt d : need d < 4.
Proof. unfold need. destruct (holds (dm_sys d) 0); [destruct (dm_phase d 0)|]; lia. Qed.
Lemma rounds_run n ws : forall h, Forall round ws -> Stretch h (List.concat ws) -> Ready n (drun E T B kinds h) ->
  Ready n (drun E T B kinds (h ++ List.concat ws)) /\ dist (drun E T B kinds (h ++ List.concat ws)) n <= dist (drun E T B kinds h) n - List.length ws.
Proof.
  induction ws as [|w ws IH]; intros h F St Rd; [cbn [List.concat List.length]; rewrite app_nil_r; split; [exact Rd|lia]|].
  inversion F as [|? ? [Cw Tw] F']; subst. cbn [List.concat] in *. destruct (stretch_run n w h (stretch_front _ _ _ St) Rd) as (R1 & L1 & D1).
  destruct (IH (h ++ w) F' (stretch_back _ _ _ St) R1) as (R2 & L2). rewrite <- app_assoc in R2, L2. split; [exact R2|]. cbn [List.length].
  destruct (Nat.eq_dec (dist (drun E T B kinds h) n) 0) as [Z|Z]; [lia|]. specialize (D1 Z (Tw _ (need_lt _))). lia.
Qed.
End Run.

Lemma accepted_earlier_run E T B njobs ncpu h w j j' : short (h ++ w) ->
  In (QSync, j) (y_accepted (dm_sys (drun E T B (pool_of njobs ncpu) h))) -> In (QSync, j') (y_accepted (dm_sys (drun E T B (pool_of njobs ncpu) (h ++ w)))) ->
  j_no j' <= j_no j -> In (QSync, j') (y_accepted (dm_sys (drun E T B (pool_of njobs ncpu) h))).
Proof.
  intros Sh Hj. induction w as [|e w IH] using rev_ind; intros Hj' L; [rewrite app_nil_r in Hj'; exact Hj'|].
  rewrite app_assoc in *. pose proof (short_snoc _ _ Sh) as S1. apply (IH S1); [|exact L]. clear IH.
  pose proof (DI_run E T B njobs ncpu _ S1) as I. pose proof (DI_run E T B njobs ncpu _ Sh) as I'. rewrite drun_snoc in *.
  eapply accepted_earlier; [exact I|exact I'|apply accepted_mono; exact Hj|exact Hj'|exact L].
Qed.

Lemma nth_firstn {A} (l : list A) k i : i < k -> nth_error (firstn k l) i = nth_error l i.
Proof. revert k i; induction l as [|x l IH]; intros [|k] [|i] L; cbn [firstn nth_error]; try reflexivity; try lia. apply IH. lia. Qed.
Lemma In_firstn {A} k (l : list A) x : In x (firstn k l) -> In x l.
Proof. intros H. rewrite <- (firstn_skipn k l). apply in_app_iff. left. exact H. Qed.

(** ** C72 *)
(** The daemon is up; no job panics; no repository ever has more than [N] packages.
    Then after [m * (N + 4)] rounds of the sequential worker, whatever happens
    meanwhile, the first [m] waiting requests have all been executed to their end and
    taken out of the queue. *)
Theorem C72_waiting_requests_get_their_turn :
  forall E T B njobs ncpu h ws N m,
    let d := drun E T B (pool_of njobs ncpu) h in
    let d' := drun E T B (pool_of njobs ncpu) (h ++ List.concat ws) in
    short (h ++ List.concat ws) -> y_up (dm_sys d) = true -> Forall round ws -> no_new_panic d d' ->
    (forall h1 h2, h ++ List.concat ws = h1 ++ h2 -> forall r, package_count (dm_core (drun E T B (pool_of njobs ncpu) h1)) r <= N) ->
    m * (N + 4) <= List.length ws ->
    forall j, In j (firstn m (stored QSync (dm_sys d))) ->
      In (j_no j) (y_retired (dm_sys d')) /\
      forall r, fits r -> (QSync, j_type j, j_params j) = job_of r ->
        exists a, In a (attempts (dm_log d')) /\ at_job a = j_no j /\ at_todo a = meaning r /\ completed a.
Proof.
  intros E T B njobs ncpu h ws N m d d' Sh U Rs Np Cn Lm.
  assert (Cf : forall l, Forall round l -> Forall calm (List.concat l)).
  { clear. induction l as [|w l IH]; intros F; [constructor|]. inversion F as [|? ? [C _] F']; subst. cbn [List.concat]. apply Forall_app. split; [exact C|apply IH; exact F']. }
  assert (St : Stretch E T B njobs ncpu N h (List.concat ws)) by (constructor; auto).
  assert (Sh0 : short h) by (clear -Sh; unfold short in *; rewrite app_length in Sh; lia).
  pose proof (DI_run E T B njobs ncpu h Sh0) as I. fold d in I.
  pose proof (C30_no_job_is_lost (pool_of njobs ncpu) (dm_jobs d) QSync (di_bound _ _ _ _ I)) as Lost. cbv zeta in Lost. rewrite <- (di_run _ _ _ _ I) in Lost. destruct Lost as [Eq _].
  pose proof (run_inv (pool_of njobs ncpu) (dm_jobs d) (di_bound _ _ _ _ I)) as Iv.
  pose proof (pending_sorted QSync _ (y_retired (dm_sys d)) 0 (iv_nos _ _ _ _ _ _ Iv)) as Srt. rewrite <- (di_run _ _ _ _ I) in Srt.
  set (P := pending_in QSync (y_accepted (dm_sys d)) (y_retired (dm_sys d))) in *.
  assert (NR : forall z, In (QSync, z) (y_accepted (dm_sys d)) -> In (j_no z) (y_retired (dm_sys d)) \/ In z P).
  { intros z Hz. destruct (in_dec Nat.eq_dec (j_no z) (y_retired (dm_sys d))) as [X|X]; [left; exact X|right]. unfold P, pending_in. apply filter_In. split; [apply in_accepted; exact Hz|].
    unfold not_retired. apply negb_true_iff. destruct (existsb _ _) eqn:Y; [|reflexivity]. apply existsb_exists in Y as (x & Hx & Ex). apply Nat.eqb_eq in Ex. subst x. contradiction. }
  assert (PA : forall z, In z P -> In (QSync, z) (y_accepted (dm_sys d))) by (intros z Hz; unfold P, pending_in in Hz; apply filter_In in Hz as [Hz _]; apply in_accepted; exact Hz).
  (* the first k pending jobs are retired after k * (N + 4) rounds *)
  assert (G : forall k l, k <= m -> k <= List.length P -> l = firstn (k * (N + 4)) ws ->
     y_up (dm_sys (drun E T B (pool_of njobs ncpu) (h ++ List.concat l))) = true /\
     forall z, In z (firstn k P) -> In (j_no z) (y_retired (dm_sys (drun E T B (pool_of njobs ncpu) (h ++ List.concat l))))).
  { induction k as [|k IH]; intros l Hk HkP ->.
    - cbn [Nat.mul firstn List.concat]. rewrite app_nil_r. split; [exact U|intros z []].
    - destruct (IH _ ltac:(lia) ltac:(lia) eq_refl) as [Uk Rk]. clear IH.
      set (l0 := firstn (k * (N + 4)) ws) in *. set (l1 := firstn (N + 4) (skipn (k * (N + 4)) ws)).
      assert (El : firstn (S k * (N + 4)) ws = l0 ++ l1).
      { unfold l0, l1. rewrite <- (firstn_skipn (k * (N + 4)) ws) at 1. rewrite firstn_app. rewrite firstn_length_le by nia. f_equal; [apply firstn_all2; rewrite firstn_length_le; nia|].
        f_equal. nia. }
      assert (Ll : List.length l1 = N + 4) by (unfold l1; apply firstn_length_le; rewrite skipn_length; nia).
      assert (Ew : ws = l0 ++ l1 ++ skipn (N + 4) (skipn (k * (N + 4)) ws)) by (unfold l0, l1; rewrite !firstn_skipn; reflexivity).
      rewrite El, concat_app. set (w0 := List.concat l0) in *. set (w1 := List.concat l1) in *. set (w2 := List.concat (skipn (N + 4) (skipn (k * (N + 4)) ws))).
      assert (Ec : List.concat ws = (w0 ++ w1) ++ w2) by (rewrite Ew at 1; rewrite !concat_app; unfold w0, w1, w2; rewrite app_assoc; reflexivity).
      assert (F1 : Forall round l1) by (rewrite Ew in Rs; apply Forall_app in Rs as [_ Rs]; apply Forall_app in Rs; apply Rs).
      rewrite Ec in St. pose proof (stretch_front _ _ _ _ _ _ _ _ _ St) as St1. pose proof (stretch_back _ _ _ _ _ _ _ _ _ St1) as St2.
      destruct (nth_error P k) as [z|] eqn:Hz.
      + assert (HzP : In z P) by (eapply nth_error_In; exact Hz).
        assert (Rd : Ready njobs ncpu (j_no z) (drun E T B (pool_of njobs ncpu) (h ++ w0))).
        { constructor.
          - exists (requests E T B (pool_of njobs ncpu) (h ++ w0)). apply DI_run. apply (s_short _ _ _ _ _ _ _ _ (stretch_front _ _ _ _ _ _ _ _ _ St1)).
          - apply QI_run. apply (s_short _ _ _ _ _ _ _ _ (stretch_front _ _ _ _ _ _ _ _ _ St1)).
          - exact Uk.
          - exists z. split; [apply accepted_mono, PA, HzP|reflexivity].
          - intros x Hx L. assert (Hx0 : In (QSync, x) (y_accepted (dm_sys d))).
            { eapply (accepted_earlier_run E T B njobs ncpu h w0 z x); [apply (s_short _ _ _ _ _ _ _ _ (stretch_front _ _ _ _ _ _ _ _ _ St1))|apply PA; exact HzP|exact Hx|lia]. }
            destruct (NR x Hx0) as [X|X]; [apply retired_mono; exact X|]. apply Rk.
            apply In_nth_error in X as (i & Hi). assert (i < k).
            { destruct (lt_dec i k) as [Y|Y]; [exact Y|exfalso]. assert (k <= i) by lia.
              assert (J : forall a b x y (l : list Jobs.job), StronglySorted lt (map j_no l) -> nth_error l a = Some x -> nth_error l b = Some y -> a <= b -> j_no x <= j_no y).
              { clear. intros a b x y l S. revert a b. induction l as [|c l IH]; intros [|a] [|b] Ha Hb Lab; cbn [nth_error] in *; try discriminate; try lia.
                - injection Ha as ->. injection Hb as ->. lia.
                - injection Ha as ->. cbn [map] in S. apply StronglySorted_inv in S as [_ F]. rewrite Forall_forall in F. apply nth_error_In in Hb. specialize (F _ (in_map j_no _ _ Hb)). lia.
                - cbn [map] in S. apply StronglySorted_inv in S as [S _]. exact (IH S a b Ha Hb ltac:(lia)). }
              pose proof (J k i z x P Srt Hz Hi ltac:(lia)). lia. }
            eapply nth_error_In. rewrite (nth_firstn P k i H). exact Hi. }
        destruct (rounds_run E T B njobs ncpu N (j_no z) l1 (h ++ w0) F1 St2 Rd) as (R2 & D2). fold w1 in R2, D2. rewrite <- app_assoc in R2, D2. split; [exact (rd_up _ _ _ _ R2)|].
        intros x Hx. assert (Fx : In x (firstn k P) \/ x = z).
        { clear -Hx Hz. revert k Hx Hz. induction P as [|c P0 IH]; intros [|k] Hx Hz; cbn [firstn nth_error In] in *; try discriminate; [|].
          - injection Hz as ->. destruct Hx as [X|[]]. right. congruence.
          - destruct Hx as [X|X]; [left; left; exact X|]. destruct (IH k X Hz) as [Y|Y]; [left; right; exact Y|right; exact Y]. }
        destruct Fx as [Fx| ->].
        * rewrite app_assoc. apply retired_mono. apply Rk, Fx.
        * apply (dist0 N). assert (Q : QN N (drun E T B (pool_of njobs ncpu) (h ++ w0))).
          { apply QN_run. intros h1 h2 E1 r0. exact (s_count _ _ _ _ _ _ _ _ (stretch_front _ _ _ _ _ _ _ _ _ St1) h1 h2 E1 r0). }
          pose proof (dist_bound N _ (j_no z) Q). lia.
      + exfalso. apply nth_error_None in Hz. lia. }
  intros j Hj. assert (Hjz : exists z, In z (firstn m P) /\ ident z = ident j).
  { assert (X : In (ident j) (map ident (firstn m (stored QSync (dm_sys d))))) by (apply in_map; exact Hj).
    rewrite <- firstn_map, Eq, firstn_map in X. apply in_map_iff in X as (z & Ez & Hz). eauto. }
  destruct Hjz as (z & Hz & Ez). pose proof (ident_no _ _ Ez) as En.
  destruct (G (Nat.min m (List.length P)) _ ltac:(lia) ltac:(lia) eq_refl) as [_ Rt].
  assert (Hz' : In z (firstn (Nat.min m (List.length P)) P)).
  { rewrite <- (firstn_firstn P m (List.length P)), firstn_all. exact Hz. }
  specialize (Rt z Hz'). set (k := Nat.min m (List.length P)) in *.
  assert (Rt' : In (j_no j) (y_retired (dm_sys d'))).
  { rewrite <- En. unfold d'. rewrite <- (firstn_skipn (k * (N + 4)) ws), concat_app, app_assoc. apply retired_mono. exact Rt. }
  split; [exact Rt'|]. intros r Fr Ej.
  pose proof (DI_run E T B njobs ncpu (h ++ List.concat ws) Sh) as I'. fold d' in I'.
  assert (Az : In (QSync, z) (y_accepted (dm_sys d'))).
  { apply accepted_mono, PA. clear -Hz. apply (In_firstn m). exact Hz. }
  assert (Ejz : (QSync, j_type z, j_params z) = job_of r) by (rewrite <- Ej; unfold ident in Ez; congruence).
  assert (FH : exists hd, handler_of z = Ok hd /\ execute hd = meaning r).
  { destruct (C34_parameters_survive_partial r Fr) as (hd & Hd & Et). exists hd. split; [|exact Et]. unfold handler_of. unfold dispatch in Hd. rewrite <- Ejz in Hd. exact Hd. }
  destruct FH as (hd & Hh & Et).
  rewrite <- En in Rt'. destruct (di_done _ _ _ _ I' z hd Az Hh Rt') as (pre & a & post & Ea & Eaj & Ca & _).
  exists a. assert (Ha : In a (attempts (dm_log d'))) by (rewrite Ea; apply in_app_iff; right; left; reflexivity).
  split; [exact Ha|]. split; [congruence|]. split; [|exact Ca].
  destruct (di_att _ _ _ _ I' a Ha) as (ja & ha & Hja & Eja & Hha & Eta).
  pose proof (accepted_unique (pool_of njobs ncpu) (dm_jobs d') (di_bound _ _ _ _ I') QSync ja QSync z) as Uq. rewrite <- (di_run _ _ _ _ I') in Uq.
  destruct (Uq Hja Az ltac:(congruence)) as [_ ->]. rewrite Hh in Hha. injection Hha as <-. congruence.
Qed.
Print Assumptions C72_waiting_requests_get_their_turn.

(** With well-formed packages and manifests nothing panics (C69), so: *)
Corollary C72_with_good_packages :
  forall E T B cat njobs ncpu h ws N m, good_catalog cat -> good_env E -> good_manifests T ->
    let d := drun E T B (pool_of njobs ncpu) h in
    let d' := drun E T B (pool_of njobs ncpu) (h ++ List.concat ws) in
    short (h ++ List.concat ws) -> Forall (good_devent E cat B) (h ++ List.concat ws) -> removals_complete (dm_log d') ->
    y_up (dm_sys d) = true -> Forall round ws ->
    (forall h1 h2, h ++ List.concat ws = h1 ++ h2 -> forall r, package_count (dm_core (drun E T B (pool_of njobs ncpu) h1)) r <= N) ->
    m * (N + 4) <= List.length ws ->
    forall j, In j (firstn m (stored QSync (dm_sys d))) ->
      In (j_no j) (y_retired (dm_sys d')) /\
      forall r, fits r -> (QSync, j_type j, j_params j) = job_of r ->
        exists a, In a (attempts (dm_log d')) /\ at_job a = j_no j /\ at_todo a = meaning r /\ completed a.
Proof.
  intros E T B cat njobs ncpu h ws N m Hc HE HT d d' Sh F Rc U Rs Cn Lm.
  apply (C72_waiting_requests_get_their_turn E T B njobs ncpu h ws N m Sh U Rs); auto.
  destruct (C69_daemon_keeps_repositories_sound_partial E T B cat njobs ncpu _ Hc HE HT Sh F Rc) as (Np & _). fold d' in Np.
  intros l El a Ha. apply Np. fold d d' in El. rewrite El, attempts_app. apply in_app_iff. right. exact Ha.
Qed.
Print Assumptions C72_with_good_packages.

(** three requests, one of them a delta run, handled while further requests arrive
    and a background worker looks for work *)
Definition h_drain : list devent := [DRequest (ReqCreate "unstable"); DRequest (ReqDelta "unstable"); DRequest (ReqIndex "unstable"); DPoll 0].
Definition one_round : list devent := [DPoll 1; DFinish 0; DRequest (ReqTrimObsolete "unstable"); DQueue 0; DBegin 0 demo_oracle; DPoll 0].
Definition d_drain : daemon := drun (demo_env true) dm_decode tr_base (pool_of 2 4) (h_drain ++ List.concat (repeat one_round 12)).
Example C72_demo :
  short (h_drain ++ List.concat (repeat one_round 12)) /\ y_up (dm_sys (drun (demo_env true) dm_decode tr_base (pool_of 2 4) h_drain)) = true /\
  Forall round (repeat one_round 12) /\ 3 * (0 + 4) <= List.length (repeat one_round 12) /\
  map j_type (firstn 3 (stored QSync (dm_sys (drun (demo_env true) dm_decode tr_base (pool_of 2 4) h_drain)))) = ["CreateRepo"; "DeltaRepo"; "IndexRepo"] /\
  no_new_panic (drun (demo_env true) dm_decode tr_base (pool_of 2 4) h_drain) d_drain /\
  (forall h1 h2, h_drain ++ List.concat (repeat one_round 12) = h1 ++ h2 -> forall r, package_count (dm_core (drun (demo_env true) dm_decode tr_base (pool_of 2 4) h1)) r <= 0) /\
  firstn 3 (y_retired (dm_sys d_drain)) = [0; 1; 2].
Proof.
  split; [here|]. split; [here|]. split.
  { apply Forall_forall. intros w Hw. apply repeat_spec in Hw. subst w. split; [unfold one_round; repeat constructor|]. intros k Hk.
    destruct k as [|[|[|[|k]]]]; [exists (DPoll 0)|exists (DBegin 0 demo_oracle)|exists (DQueue 0)|exists (DFinish 0)|lia]; (split; [unfold one_round; cbn [In]; auto 8|reflexivity]). }
  split; [here|]. split; [here|]. split.
  { intros l El a Ha. assert (X : map at_end (attempts (dm_log d_drain)) = map at_end (attempts (dm_log (drun (demo_env true) dm_decode tr_base (pool_of 2 4) h_drain) ++ l))) by (rewrite El; reflexivity).
    assert (Y : forallb (fun e => match e with Panicked => false | _ => true end) (map at_end (attempts (dm_log d_drain))) = true) by here.
    rewrite X in Y. clear X El. rewrite forallb_forall in Y. intros Ea. specialize (Y (at_end a)). rewrite Ea in Y. discriminate Y.
    rewrite <- Ea. apply in_map. rewrite attempts_app. apply in_app_iff. right. exact Ha. }
  split.
  { intros h1 h2 Eh r. assert (Eh1 : h1 = firstn (List.length h1) (h_drain ++ List.concat (repeat one_round 12))) by (rewrite Eh, firstn_app, Nat.sub_diag, firstn_all; cbn [firstn]; rewrite app_nil_r; reflexivity).
    assert (Lh : List.length h1 < 77).
    { apply (f_equal (@List.length devent)) in Eh. rewrite (app_length h1) in Eh. vm_compute (List.length (h_drain ++ _)) in Eh. lia. }
    rewrite Eh1. clear Eh Eh1. revert Lh. generalize (List.length h1) as k. clear. intros k Lk.
    assert (A : Forall (fun k => package_count (dm_core (drun (demo_env true) dm_decode tr_base (pool_of 2 4) (firstn k (h_drain ++ List.concat (repeat one_round 12))))) r = 0) (seq 0 77)).
    { cbn [seq]. repeat (constructor; [here|]). constructor. }
    rewrite Forall_forall in A. rewrite (A k); [lia|apply in_seq; lia]. }
  here.
Qed.
