(** * PropsServer: C75-C78 (stopping, acknowledging, starting again, uploads) *)
From Verif Require Import Model Spec Transit.
From Verif Require Import PropsTransit.
From Verif Require Import Base LibDb Jobs JobSpec JobFacts JobFacts2 PropsJobs Dispatch PropsDispatch Daemon DaemonSpec DaemonFacts.
From Verif Require Import Paths PathFacts TransitFacts.
From Verif Require Import Server.
Open Scope string_scope. Open Scope list_scope.

Section WithEnv.
Variable E : env.
Variable T : string -> option tram.
Variable B : list string.
Variable systemd : bool.
Variables njobs ncpu : Z.
Notation kinds := (pool_of njobs ncpu).
Notation dstep := (dstep E T B).
Notation sstep := (sstep E T B systemd).
Notation srun := (srun E T B systemd kinds).
Notation pass := (pass E T B).

(** ** Specification *)
Definition jobs_of (s : server) : sys := dm_sys (sv_daemon s).
(** fewer than 2^62 events *)
Definition brief (h : list sevent) : Prop := (N.of_nat (List.length h) < 2 ^ 62)%N.
(** Close has got past the waiting for the workers *)
Definition waited (g : stage) : Prop := g = Drained \/ g = DbClosed \/ g = StoreClosed \/ g = ManagerClosed \/ g = Shut.
(** the process is never killed; it only stops when it is asked to *)
Definition panic_free (s : server) : Prop := forall a, In a (attempts (dm_log (sv_daemon s))) -> at_end a <> Panicked.
Definition unkilled (h : list sevent) : Prop :=
  Forall (fun e => match e with SKill _ | SStartKill _ => False | _ => True end) h.

(** ** The server drives the daemon *)
Lemma srun_app h e : srun (h ++ [e]) = sstep (srun h) e.
Proof. unfold Server.srun. rewrite fold_left_app. reflexivity. Qed.
Lemma srun_apps h h' : srun (h ++ h') = fold_left sstep h' (srun h).
Proof. unfold Server.srun. apply fold_left_app. Qed.
Lemma drun_snoc l e : drun E T B kinds (l ++ [e]) = dstep (drun E T B kinds l) e.
Proof. unfold drun. rewrite fold_left_app. reflexivity. Qed.

Lemma up_world d ev : y_up (dm_sys (dstep d (DWorld ev))) = y_up (dm_sys d).
Proof. cbn [Daemon.dstep]. destruct (outside_event ev); reflexivity. Qed.
Lemma up_start d : y_up (dm_sys (dstep d DStart)) = true.
Proof. cbn [Daemon.dstep dm_sys]. unfold feed. cbn [step]. destruct (y_up (dm_sys d)) eqn:U; [exact U|reflexivity]. Qed.
Lemma up_crash d a n : y_up (feed d (Crash a n)) = false.
Proof. unfold feed. cbn [step]. destruct (y_up (dm_sys d)) eqn:U; [reflexivity|exact U]. Qed.
Lemma up_kill d e : (exists e' n, e = DCrashIn e' n) \/ (exists i o n, e = DCrashAt i o n) -> y_up (dm_sys (dstep d e)) = false.
Proof.
  intros [(e' & n & ->)|(i & o & n & ->)]; cbn [Daemon.dstep]; destruct (y_up (dm_sys d)) eqn:U; cbn [negb]; try exact U.
  - unfold down. cbn [dm_sys]. destruct (act_of d e'); apply up_crash.
  - destruct (held_job d i) as [j|]; [|apply up_crash]. destruct (dm_phase d i); try apply up_crash. destruct (new_job_handler _ _); apply up_crash.
Qed.
Lemma up_stay d : y_up (dm_sys d) = false -> forall e, (forall e', e' = DStart -> e <> e') -> y_up (dm_sys (dstep d e)) = false.
Proof.
  intros U e N. destruct e; cbn [Daemon.dstep]; rewrite ?U; cbn [negb]; try exact U.
  - destruct (N DStart eq_refl eq_refl).
  - unfold feed. cbn [dm_sys step]. rewrite U. reflexivity.
  - destruct (outside_event ev); exact U.
Qed.

Record SI (s : server) : Prop := {
  si_daemon : sv_daemon s = drun E T B kinds (sv_events s);
  si_up : store_open (sv_stage s) = y_up (jobs_of s)
}.
Lemma SI_pass s e : SI s -> store_open (sv_stage s) = true -> SI (pass s e).
Proof.
  intros [D U] O. constructor; cbn [Server.pass sv_daemon sv_events sv_stage]; unfold jobs_of; cbn [sv_daemon].
  - rewrite drun_snoc, <- D. reflexivity.
  - destruct (y_up (dm_sys (dstep (sv_daemon s) e))) eqn:X; [rewrite O|]; symmetry; exact X.
Qed.
Lemma SI_down s e : SI s -> y_up (dm_sys (dstep (sv_daemon s) e)) = false -> SI (gone (pass s e)).
Proof. intros [D U] O. constructor; unfold gone, jobs_of; cbn [Server.pass sv_daemon sv_events sv_stage]; [rewrite drun_snoc, <- D; reflexivity|cbn; symmetry; exact O]. Qed.
Lemma SI_same s s' : SI s -> sv_daemon s' = sv_daemon s -> sv_events s' = sv_events s -> store_open (sv_stage s') = store_open (sv_stage s) -> SI s'.
Proof. intros [D U] A1 A2 A3. constructor; unfold jobs_of in *; congruence. Qed.
Lemma SI_world s ev : SI s -> SI (world E T B s ev).
Proof. intros [D U]. constructor; unfold jobs_of; cbn [world sv_daemon sv_events sv_stage]; [rewrite drun_snoc, <- D; reflexivity|rewrite up_world; exact U]. Qed.
Ltac same I := apply (SI_same _ _ I); [reflexivity|reflexivity|cbn; match goal with G : sv_stage _ = _ |- _ => rewrite ?G; reflexivity | _ => reflexivity end].
Lemma SI_step s e : SI s -> SI (sstep s e).
Proof.
  intros I. destruct e as [r|b|nm c|n| |e|i| | |e|late|n| |ev]; cbn [Server.sstep].
  - destruct (store_open (sv_stage s)) eqn:O; [|exact I]. destruct (client_request r); [apply SI_pass; assumption|exact I].
  - destruct (store_open (sv_stage s)) eqn:O; [apply SI_pass; assumption|exact I].
  - pose proof (SI_world s (EvPut (locate B (join (incoming B) nm)) c) I) as W.
    destruct (sv_stage s) eqn:G; [exact W|..]; same W.
  - destruct (sv_stage s) eqn:G; [exact I|..]; same I.
  - destruct (sv_stage s) eqn:G; try exact I. destruct (sv_notices s) as [|n l]; [exact I|].
    assert (W : SI (with_notices s l)) by (same I).
    destruct (wanted _ _ _); [|exact W]. apply SI_pass; [exact W|]. cbn [with_notices sv_stage]. rewrite G. reflexivity.
  - destruct (worker_of e) as [i|]; [|exact I]. destruct (store_open (sv_stage s)) eqn:O; [|exact I]. destruct (true && Nat.ltb i (pool_size s) && negb (sv_left s i)); [apply SI_pass; assumption|exact I].
  - destruct (sv_stage s) eqn:G; try exact I. destruct (free_worker _ _); [same I|exact I].
  - destruct (sv_stage s) eqn:G; try exact I. same I.
  - destruct (sv_stage s) eqn:G; try exact I; try same I.
    + destruct (all_left s); [same I|exact I].
    + destruct I as [D U]. constructor; unfold jobs_of; cbn [sv_daemon sv_events sv_stage]; [rewrite drun_snoc, <- D; reflexivity|].
      rewrite up_kill; [reflexivity|left; unfold quietly; eauto].
  - destruct (sv_stage s) eqn:G; try exact I; destruct e; try exact I; cbn [store_open]; try same I; (apply SI_down; [exact I|]); apply up_kill; cbn [fatal]; try (match goal with |- context [doing ?a ?b ?c] => destruct (doing a b c) end); unfold quietly; eauto 6.
  - destruct (sv_stage s) eqn:G; try exact I. destruct (negb systemd && sv_socket s); [exact I|]. destruct late; [same I|].
    destruct I as [D U]. constructor; unfold jobs_of; cbn [with_socket with_stage Server.pass sv_daemon sv_events sv_stage]; [rewrite drun_snoc, <- D; reflexivity|rewrite up_start; reflexivity].
  - destruct (sv_stage s) eqn:G; try exact I. destruct (negb systemd && sv_socket s); [exact I|].
    assert (X : SI (gone (pass s (DStartCrash n)))).
    { apply SI_down; [exact I|]. apply up_stay; [pose proof (si_up _ I) as U; rewrite G in U; symmetry; exact U|intros e' ->; discriminate]. }
    same X.
  - same I.
  - apply SI_world, I.
Qed.
Lemma SI_run h : SI (srun h).
Proof.
  induction h as [|e h IH] using rev_ind; [constructor; reflexivity|]. rewrite srun_app. apply SI_step, IH.
Qed.
Lemma events_grow s e : List.length (sv_events (sstep s e)) <= Datatypes.S (List.length (sv_events s)).
Proof.
  assert (G : forall x, List.length (sv_events s ++ [x]) <= Datatypes.S (List.length (sv_events s))) by (intros x; rewrite app_length; cbn; lia).
  destruct e as [r|b|nm c|n| |e|i| | |e|late|n| |ev]; cbn [Server.sstep].
  - destruct (_ && _); cbn [Server.pass sv_events]; auto.
  - destruct (store_open _); cbn [Server.pass sv_events]; auto.
  - destruct (sv_stage s); cbn [world with_notices sv_events]; auto.
  - destruct (sv_stage s); cbn [with_notices sv_events]; auto.
  - destruct (sv_stage s); auto. destruct (sv_notices s); auto. destruct (wanted _ _ _); cbn [Server.pass with_notices sv_events]; auto.
  - destruct (worker_of e); auto. destruct (_ && _); cbn [Server.pass sv_events]; auto.
  - destruct (sv_stage s); auto. destruct (free_worker _ _); cbn [sv_events]; auto.
  - destruct (sv_stage s); cbn [with_stage sv_events]; auto.
  - destruct (sv_stage s); cbn [with_stage with_socket gone sv_events]; auto. destruct (all_left s); cbn [with_stage sv_events]; auto.
  - destruct (sv_stage s); auto; destruct e; cbn [store_open gone Server.pass sv_events]; auto.
  - destruct (sv_stage s); auto. destruct (_ && _); auto. destruct late; cbn [with_socket with_stage Server.pass sv_events]; auto.
  - destruct (sv_stage s); auto. destruct (_ && _); cbn [with_socket gone Server.pass sv_events]; auto.
  - cbn [with_socket sv_events]. auto.
  - cbn [world sv_events]. auto.
Qed.
Lemma brief_short h : brief h -> short (sv_events (srun h)).
Proof.
  intros L. assert (G : List.length (sv_events (srun h)) <= List.length h).
  { clear L. induction h as [|e h IH] using rev_ind; [cbn; lia|]. rewrite srun_app, app_length. cbn [List.length]. pose proof (events_grow (srun h) e). lia. }
  unfold brief, short in *. lia.
Qed.
Lemma brief_app h h' : brief (h ++ h') -> brief h.
Proof. unfold brief. rewrite app_length. lia. Qed.

(** the daemon's invariant, for every history of the server *)
Lemma DI_server h : brief h -> DI njobs ncpu (requests E T B kinds (sv_events (srun h))) (sv_daemon (srun h)).
Proof. intros L. rewrite (si_daemon _ (SI_run h)). apply DI_run, brief_short, L. Qed.
Lemma jobs_len l : List.length (dm_jobs (drun E T B kinds l)) <= List.length l.
Proof. induction l as [|e l IH] using rev_ind; [cbn; lia|]. rewrite drun_snoc, app_length. cbn [List.length]. pose proof (jobs_grow E T B (drun E T B kinds l) e). lia. Qed.
Lemma room h e : brief (h ++ [e]) -> forall x, bounded (dm_jobs (sv_daemon (srun h)) ++ [x]).
Proof.
  intros L x. unfold bounded. rewrite app_length. cbn [List.length]. rewrite (si_daemon _ (SI_run h)). pose proof (jobs_len (sv_events (srun h))) as J.
  assert (G : List.length (sv_events (srun h)) <= List.length h).
  { clear L J. induction h as [|e0 h IH] using rev_ind; [cbn; lia|]. rewrite srun_app, app_length. cbn [List.length]. pose proof (events_grow (srun h) e0). lia. }
  unfold brief in L. rewrite app_length in L. cbn [List.length] in L. lia.
Qed.

(** ** What an event does to the jobs in the workers' hands *)
Lemma dstep_other rs d e i : DI njobs ncpu rs d ->
  (match e with DRequest _ | DReset _ | DWorld _ | DStart => True | _ => exists k, worker_of e = Some k /\ k <> i end) ->
  y_up (dm_sys (dstep d e)) = true -> holds (dm_sys (dstep d e)) i = holds (dm_sys d) i.
Proof.
  intros I K U. pose proof (di_run _ _ _ _ I) as R. pose proof (di_bound _ _ _ _ I) as Bd.
  destruct e as [r|k|k o|k|k|b|e n|k o n| |n|ev]; cbn [worker_of] in K; try (destruct K as (k' & K & N); try discriminate K; injection K as ->);
    cbn [Daemon.dstep] in *; try (destruct (y_up (dm_sys d)) eqn:Up; cbn [negb] in *; [|reflexivity]).
  - cbn [act_of] in *. destruct (job_of r) as [[q ty] ps]. cbn [dm_sys]. unfold feed. pose proof (push_step kinds (dm_jobs d) Bd q ty ps) as X. rewrite <- R in X. apply (X Up).
  - cbn [act_of dm_sys]. unfold feed. pose proof (claim_step kinds (dm_jobs d) k') as X. rewrite <- R in X. apply (X Up). congruence.
  - destruct (held_job d k') as [j|]; [|reflexivity]. destruct (dm_phase d k'); try reflexivity. unfold begin_job in *. destruct (new_job_handler _ _) as [hd| |]; try reflexivity.
    cbv zeta in *. destruct (result_of _); [destruct (execute hd); reflexivity|reflexivity|]. cbn [dm_sys] in U. unfold stop in U. rewrite up_crash in U. discriminate.
  - destruct (act_of d (DQueue k')) as [a|] eqn:Ha.
    + cbn [act_of] in Ha. destruct (dm_phase d k') as [|[|[[q ty] ps] l] desc|] eqn:Ph; try discriminate. injection Ha as <-. cbn [dm_sys]. unfold feed.
      pose proof (push_step kinds (dm_jobs d) Bd q ty ps) as X. rewrite <- R in X. apply (X Up).
    + destruct (held_job d k') as [j|]; [|reflexivity]. destruct (dm_phase d k') as [|[|x l] desc|]; try reflexivity. destruct (new_job_handler _ _) as [hd| |]; try reflexivity. destruct (execute hd); reflexivity.
  - destruct (act_of d (DFinish k')) as [a|] eqn:Ha; [|reflexivity]. cbn [act_of] in Ha. destruct (dm_phase d k') as [| |desc f] eqn:Ph; try discriminate. injection Ha as <-. cbn [dm_sys]. unfold feed.
    destruct (holds (dm_sys d) k') as [j|] eqn:Hk.
    + pose proof (finish_step kinds (dm_jobs d) Bd k' desc f j) as X. rewrite <- R in X. apply (X Up Hk). congruence.
    + rewrite (di_idle _ _ _ _ I k' Hk) in Ph. discriminate.
  - cbn [act_of dm_sys]. unfold feed. pose proof (reset_step kinds (dm_jobs d) b) as X. rewrite <- R in X. apply (X Up).
  - cbn [dm_sys]. unfold feed. pose proof (start_step kinds (dm_jobs d) Start) as X. rewrite <- R in X. apply X. left. reflexivity.
  - destruct (outside_event ev); reflexivity.
Qed.

(** ** C75: a clean stop *)
Definition unclaimed (y : sys) : Prop := forall q k j, mget (get_queue q (y_store y)) k = Some j -> j_claimed j = false.
Record QI (s : server) : Prop := {
  qi_left : forall i, sv_left s i = true -> holds (jobs_of s) i = None;
  qi_waited : waited (sv_stage s) -> (forall i, holds (jobs_of s) i = None) /\ unclaimed (jobs_of s) /\ forall i, i < List.length kinds -> sv_left s i = true
}.
Lemma none_held_unclaimed rs d : DI njobs ncpu rs d -> y_up (dm_sys d) = true -> (forall i, holds (dm_sys d) i = None) -> unclaimed (dm_sys d).
Proof.
  intros I U H q k j G. destruct (j_claimed j) eqn:C; [exfalso|reflexivity].
  pose proof (di_run _ _ _ _ I) as R. pose proof (run_inv kinds (dm_jobs d) (di_bound _ _ _ _ I)) as V. rewrite <- R in V.
  destruct (iv_claimed _ _ _ _ _ _ V U q k j G C) as (i & Hi).
  specialize (H i). unfold holds in H. rewrite Hi in H. discriminate.
Qed.
Lemma workers_len rs d : DI njobs ncpu rs d -> List.length (y_workers (dm_sys d)) = List.length kinds.
Proof. intros I. rewrite (di_run _ _ _ _ I), <- (map_length w_queue), worker_queues, map_length. reflexivity. Qed.
Lemma QI_pass s rs e : QI s -> DI njobs ncpu rs (sv_daemon s) -> DI njobs ncpu (rs ++ taken (sv_daemon s) e) (dstep (sv_daemon s) e) ->
  (match e with DRequest _ | DReset _ => True | _ => exists k, worker_of e = Some k /\ sv_left s k = false end) ->
  (waited (sv_stage s) -> forall k, worker_of e = Some k -> sv_left s k = true) ->
  QI (pass s e).
Proof.
  intros [L W] I I' K K'. constructor; unfold jobs_of, Server.pass; cbn [sv_daemon sv_left sv_stage].
  - intros i Hi. destruct (y_up (dm_sys (dstep (sv_daemon s) e))) eqn:U; [|discriminate].
    assert (X : holds (dm_sys (dstep (sv_daemon s) e)) i = holds (dm_sys (sv_daemon s)) i).
    { apply (dstep_other rs _ _ _ I); [|exact U]. destruct e; try exact Logic.I; destruct K as (k & K1 & K2); try discriminate K1; exists k; split; try exact K1; intros ->; congruence. }
    rewrite X. apply L, Hi.
  - destruct (y_up (dm_sys (dstep (sv_daemon s) e))) eqn:U; [|intros [X|[X|[X|[X|X]]]]; discriminate].
    intros Wd. destruct (W Wd) as (H & _ & A).
    assert (X : forall i, holds (dm_sys (dstep (sv_daemon s) e)) i = None).
    { intros i. rewrite (dstep_other rs _ _ _ I); [apply H| |exact U]. destruct e; try exact Logic.I; destruct K as (k & K1 & K2); try discriminate K1; pose proof (K' Wd _ K1); congruence. }
    split; [exact X|]. split; [exact (none_held_unclaimed _ _ I' U X)|exact A].
Qed.
Lemma quiet_stop d : unclaimed (dm_sys d) -> unclaimed (dm_sys (dstep d quietly)) .
Proof.
  intros H. unfold quietly. cbn [Daemon.dstep]. destruct (y_up (dm_sys d)) eqn:U; cbn [negb]; [|exact H]. unfold down. cbn [dm_sys act_of]. unfold feed, stop. cbn [step]. rewrite U. exact H.
Qed.
Lemma QI_same s s' : QI s -> jobs_of s' = jobs_of s -> (forall i, sv_left s' i = true -> sv_left s i = true) ->
  (waited (sv_stage s') -> waited (sv_stage s) /\ forall i, sv_left s i = true -> sv_left s' i = true) -> QI s'.
Proof.
  intros [L W] J K H. constructor; rewrite J; [intros i Hi; apply L, K, Hi|]. intros X. destruct (H X) as [Y Z]. destruct (W Y) as (A1 & A2 & A3).
  split; [exact A1|]. split; [exact A2|]. intros i Hi. apply Z, A3, Hi.
Qed.
Lemma QI_gone s : QI (gone s).
Proof. constructor; cbn [gone sv_left sv_stage]; [discriminate|]. intros [X|[X|[X|[X|X]]]]; discriminate. Qed.
Lemma QI_gone_pass s e : y_up (dm_sys (dstep (sv_daemon s) e)) = false -> QI (pass s e).
Proof. intros U. constructor; unfold Server.pass; cbn [sv_left sv_stage]; rewrite U; [discriminate|]. intros [X|[X|[X|[X|X]]]]; discriminate. Qed.
Lemma world_jobs s ev : jobs_of (world E T B s ev) = jobs_of s.
Proof. unfold jobs_of. cbn [world sv_daemon Daemon.dstep]. destruct (outside_event ev); reflexivity. Qed.
Ltac nowait := let X := fresh in intros X; exfalso; cbn in X; destruct X as [X|[X|[X|[X|X]]]]; congruence.
Lemma QI_step h e : brief (h ++ [e]) -> QI (srun h) -> QI (sstep (srun h) e).
Proof.
  intros Br Q. pose proof (DI_server h (brief_app _ _ Br)) as I. pose proof (room _ _ Br stop) as Rm. pose proof (SI_run h) as SIh.
  set (s := srun h) in *. set (rs := requests E T B kinds (sv_events s)) in *.
  assert (St : forall x, DI njobs ncpu (rs ++ taken (sv_daemon s) x) (dstep (sv_daemon s) x)) by (intros x; apply DI_step; assumption).
  assert (Pk : forall x, match x with DRequest _ | DReset _ => True | _ => False end -> QI (pass s x)).
  { intros x Hx. apply (QI_pass s rs); [exact Q|exact I|apply St| |]; destruct x; try contradiction; try exact Logic.I; discriminate. }
  destruct e as [r|b|nm c|n| |e|i| | |e|late|n| |ev]; cbn [Server.sstep].
  - destruct (_ && _); [apply Pk; exact Logic.I|exact Q].
  - destruct (store_open _); [apply Pk; exact Logic.I|exact Q].
  - assert (W : QI (world E T B s (EvPut (locate B (join (incoming B) nm)) c))) by (apply (QI_same s); [exact Q|apply world_jobs|auto|auto]).
    destruct (sv_stage s); [exact W|..]; (apply (QI_same _ _ W); [reflexivity|auto|auto]).
  - destruct (sv_stage s) eqn:G; [exact Q|..]; (apply (QI_same _ _ Q); [reflexivity|auto|auto]).
  - destruct (sv_stage s) eqn:G; try exact Q. destruct (sv_notices s) as [|n l]; [exact Q|].
    assert (W : QI (with_notices s l)) by (apply (QI_same _ _ Q); [reflexivity|auto|auto]).
    destruct (wanted _ _ _); [|exact W]. apply (QI_pass (with_notices s l) rs); [exact W|exact I|apply St|exact Logic.I|discriminate].
  - destruct (worker_of e) as [i|] eqn:We; [|exact Q]. destruct (store_open (sv_stage s)); cbn [andb]; [|exact Q]. destruct (Nat.ltb_spec i (pool_size s)) as [Li|Li]; cbn [andb]; [|exact Q]. destruct (sv_left s i) eqn:Lf; cbn [negb]; [exact Q|].
    apply (QI_pass s rs); [exact Q|exact I|apply St| |].
    + destruct e; try exact Logic.I; exists i; split; assumption.
    + intros Wd k Hk. destruct (qi_waited _ Q Wd) as (_ & _ & A). exfalso. unfold pool_size in Li. rewrite (workers_len rs _ I) in Li. rewrite (A i Li) in Lf. discriminate.
  - destruct (sv_stage s) eqn:G; try exact Q. destruct (free_worker (sv_daemon s) i) eqn:F; [|exact Q]. constructor; unfold jobs_of; cbn [sv_left sv_stage sv_daemon].
    + intros k Hk. apply orb_true_iff in Hk as [Hk|Hk]; [|apply (qi_left _ Q), Hk]. apply Nat.eqb_eq in Hk. subst k. unfold free_worker in F. rewrite held_is_holds in F. destruct (holds (dm_sys (sv_daemon s)) i); [discriminate|reflexivity].
    + nowait.
  - destruct (sv_stage s) eqn:G; try exact Q. apply (QI_same _ _ Q); [reflexivity|auto|nowait].
  - destruct (sv_stage s) eqn:G; try exact Q.
    + apply (QI_same _ _ Q); [reflexivity|auto|nowait].
    + destruct (all_left s) eqn:A; [|exact Q].
      assert (Al : forall i, i < List.length kinds -> sv_left s i = true).
      { intros i Hi. unfold all_left, pool_size in A. rewrite (workers_len rs _ I) in A. rewrite forallb_forall in A. apply A, in_seq. lia. }
      assert (No : forall i, holds (jobs_of s) i = None).
      { intros i. destruct (Nat.lt_ge_cases i (List.length kinds)) as [Hi|Hi]; [apply (qi_left _ Q), Al, Hi|].
        unfold holds. rewrite (proj2 (nth_error_None (y_workers (jobs_of s)) i)); [reflexivity|]. unfold jobs_of. rewrite (workers_len rs _ I). exact Hi. }
      constructor; [exact (qi_left _ Q)|]. intros _. split; [exact No|]. split; [|exact Al]. apply (none_held_unclaimed rs _ I); [|exact No]. pose proof (si_up _ SIh) as U. rewrite G in U. symmetry. exact U.
    + destruct (qi_waited _ Q ltac:(left; exact G)) as (N & Uc & A). 
      assert (N' : forall i, holds (dm_sys (dstep (sv_daemon s) quietly)) i = None).
      { intros i. unfold quietly. cbn [Daemon.dstep]. destruct (y_up (dm_sys (sv_daemon s))) eqn:U; cbn [negb]; [|apply N]. unfold down. cbn [dm_sys act_of]. unfold feed.
        pose proof (crash_idle kinds (dm_jobs (sv_daemon s)) (AReset false) 0 i) as X. rewrite <- (di_run _ _ _ _ I) in X. apply (X U). }
      constructor; unfold jobs_of; cbn [sv_left sv_stage sv_daemon]; [intros i _; apply N'|]. intros _. split; [exact N'|]. split; [apply quiet_stop, Uc|exact A].
    + apply (QI_same _ _ Q); [reflexivity|auto|]. intros _. split; [right; left; exact G|auto].
    + apply (QI_same _ _ Q); [reflexivity|auto|]. intros _. split; [right; right; left; exact G|auto].
    + apply (QI_same _ _ Q); [reflexivity|auto|]. intros _. split; [right; right; right; left; exact G|auto].
    + apply QI_gone.
  - destruct (sv_stage s) eqn:G; try exact Q; destruct e; try exact Q; cbn [store_open]; apply QI_gone.
  - destruct (sv_stage s) eqn:G; try exact Q. destruct (_ && _); [exact Q|]. destruct late; [apply (QI_same _ _ Q); [reflexivity|auto|auto]|].
    constructor; unfold jobs_of; cbn [with_socket with_stage Server.pass sv_left sv_stage sv_daemon]; [|nowait].
    intros i Hi. rewrite (dstep_other rs _ DStart i I Logic.I (up_start _)). rewrite up_start in Hi. apply (qi_left _ Q), Hi.
  - destruct (sv_stage s) eqn:G; try exact Q. destruct (_ && _); [exact Q|]. apply (QI_same (gone (pass s (DStartCrash n)))); [apply QI_gone|reflexivity|auto|auto].
  - apply (QI_same _ _ Q); [reflexivity|auto|auto].
  - apply (QI_same s); [exact Q|apply world_jobs|auto|auto].
Qed.
Lemma QI_run h : brief h -> QI (srun h).
Proof.
  induction h as [|e h IH] using rev_ind; intros Br.
  - constructor; [discriminate|]. intros [X|[X|[X|[X|X]]]]; discriminate.
  - rewrite srun_app. apply QI_step; [exact Br|]. apply IH. exact (brief_app _ _ Br).
Qed.

(** When Close is past the waiting, no job is being executed, and every job in
    the store is free: nothing was interrupted. *)
Theorem C75_stop_waits_for_jobs :
  forall h, brief h -> waited (sv_stage (srun h)) ->
    (forall i q n, ~ executes (jobs_of (srun h)) i q n) /\
    (forall q j, In j (stored q (jobs_of (srun h))) -> j_claimed j = false).
Proof.
  intros h Br W. destruct (qi_waited _ (QI_run h Br) W) as (N & U & _). split.
  - intros i q n (k & j & Hi & _). specialize (N i). unfold holds in N. rewrite Hi in N. discriminate.
  - intros q j Hj. unfold stored in Hj. apply in_map_iff in Hj as ([k j'] & <- & Hk). cbn [snd]. apply (U q k j'). apply in_mlist. exact Hk.
Qed.

(** *** Without kills *)
Definition keep (e : lentry) : bool := match e with LDown => false | _ => true end.
Definition calm (d : daemon) : daemon := Daemon (dm_sys d) (dm_core d) (dm_phase d) (filter keep (dm_log d)) (dm_jobs d).
Definition mild (e : devent) : Prop := match e with DCrashIn _ _ | DCrashAt _ _ _ => False | _ => True end.
Lemma calm_step d e : mild e -> calm (dstep d e) = dstep (calm d) e.
Proof.
  intros M. unfold calm.
  destruct e as [r|i|i o|i|i|b|e n|i o n| |n|ev]; try destruct M; cbn [Daemon.dstep dm_sys dm_core dm_phase dm_log dm_jobs]; try reflexivity;
    try (destruct (y_up (dm_sys d)) eqn:U; cbn [negb]; [|reflexivity]).
  - cbn [act_of]. destruct (job_of r) as [[q ty] ps]. reflexivity.
  - reflexivity.
  - unfold held_job. cbn [dm_sys dm_phase]. destruct (nth_error (y_workers (dm_sys d)) i) as [[q [[k j]|]]|]; try reflexivity.
    destruct (dm_phase d i); try reflexivity. unfold begin_job. cbn [dm_sys dm_core dm_phase dm_log dm_jobs]. destruct (new_job_handler _ _) as [hd| |]; try reflexivity.
    cbv zeta. destruct (result_of _); [destruct (execute hd)| |]; cbn [dm_sys dm_core dm_phase dm_log dm_jobs]; rewrite filter_app; reflexivity.
  - cbn [act_of dm_phase]. destruct (dm_phase d i) as [|[|[[q ty] ps] l] desc|] eqn:Ph; unfold held_job; cbn [dm_sys dm_phase];
      try (destruct (nth_error (y_workers (dm_sys d)) i) as [[q0 [[k j]|]]|]; reflexivity).
    destruct (nth_error (y_workers (dm_sys d)) i) as [[q0 [[k j]|]]|]; try reflexivity. destruct (new_job_handler _ _) as [hd| |]; try reflexivity. destruct (execute hd); try reflexivity.
    cbn [dm_sys dm_core dm_phase dm_log dm_jobs]. rewrite filter_app. reflexivity.
  - cbn [act_of dm_phase]. destruct (dm_phase d i) eqn:Ph; try reflexivity.
  - reflexivity.
  - destruct (outside_event ev); [|reflexivity]. cbn [dm_sys dm_core dm_phase dm_log dm_jobs]. rewrite filter_app. reflexivity.
Qed.
Lemma taken_calm d e : taken (calm d) e = taken d e.
Proof. reflexivity. Qed.
Lemma DI_core rs y c c' p l hs : DI njobs ncpu rs (Daemon y c p l hs) -> DI njobs ncpu rs (Daemon y c' p l hs).
Proof. intros [H1 H2 H3 H4 H5 H6 H7 H8 H9 H10 H11 H12]. constructor; cbn [dm_sys dm_core dm_phase dm_log dm_jobs] in *; assumption. Qed.
Lemma calm_quiet rs d : DI njobs ncpu rs (calm d) -> (forall i, holds (dm_sys d) i = None) -> bounded (dm_jobs d ++ [stop]) -> DI njobs ncpu rs (calm (dstep d quietly)).
Proof.
  intros I N Bd. unfold quietly. cbn [Daemon.dstep]. destruct (y_up (dm_sys d)) eqn:U; cbn [negb]; [|exact I].
  cbn [act_of]. unfold down, calm. cbn [dm_sys dm_core dm_phase dm_log dm_jobs]. rewrite filter_app, app_nil_r. apply (DI_core rs _ (dm_core d)).
  assert (P : forall i, dm_phase d i = PFresh) by (intros i; apply (di_idle _ _ _ _ I); apply N).
  apply (DI_neutral njobs ncpu rs (calm d) stop all_fresh I Bd); unfold feed, stop; cbn [calm dm_sys dm_core dm_phase dm_log dm_jobs step].
  - rewrite U. reflexivity.
  - rewrite U. reflexivity.
  - intros i j H. rewrite N in H. discriminate.
  - intros i H. destruct (H (P i)).
  - reflexivity.
Qed.
Lemma unkilled_app h e : unkilled (h ++ [e]) -> unkilled h /\ match e with SKill _ | SStartKill _ => False | _ => True end.
Proof. unfold unkilled. rewrite Forall_app. intros [A1 A2]. split; [exact A1|]. inversion A2. assumption. Qed.
Lemma no_died_step d e : mild e -> (forall a n, In a (attempts (dm_log d)) -> at_end a <> Died n) -> forall a n, In a (attempts (dm_log (dstep d e))) -> at_end a <> Died n.
Proof.
  intros M H. destruct e as [r|i|i o|i|i|b|e n|i o n| |n|ev]; try destruct M; cbn [Daemon.dstep]; try exact H; try (destruct (y_up (dm_sys d)) eqn:U; cbn [negb]; [|exact H]).
  - destruct (act_of d (DRequest r)); exact H.
  - exact H.
  - destruct (held_job d i) as [j|]; [|exact H]. destruct (dm_phase d i); try exact H. unfold begin_job. destruct (new_job_handler _ _) as [hd| |]; try exact H.
    cbv zeta. destruct (result_of _); [destruct (execute hd)| |]; cbn [dm_log]; intros x m Ha; rewrite attempts_app in Ha; apply in_app_iff in Ha as [Ha|Ha];
      try exact (H x m Ha); cbn in Ha; (destruct Ha as [<-|[]]; discriminate) || destruct Ha.
  - destruct (act_of d (DQueue i)); [exact H|]. destruct (held_job d i) as [j|]; [|exact H]. destruct (dm_phase d i) as [|[|x l] desc|]; try exact H. destruct (new_job_handler _ _) as [hd| |]; try exact H.
    destruct (execute hd); try exact H. cbn [dm_log]. intros a n Ha. rewrite attempts_app in Ha. apply in_app_iff in Ha as [Ha|[<-|[]]]; [exact (H a n Ha)|discriminate].
  - destruct (act_of d (DFinish i)); exact H.
  - exact H.
  - destruct (outside_event ev); [|exact H]. cbn [dm_log]. intros a n Ha. rewrite attempts_app in Ha. apply in_app_iff in Ha as [Ha|[]]. exact (H a n Ha).
Qed.
(** the daemon's events of an unkilled history are mild ones and quiet stops while nothing is held *)
Definition CI (s : server) : Prop :=
  DI njobs ncpu (requests E T B kinds (sv_events s)) (calm (sv_daemon s)) /\ forall a n, In a (attempts (dm_log (sv_daemon s))) -> at_end a <> Died n.
Lemma requests_snoc l e : requests E T B kinds (l ++ [e]) = requests E T B kinds l ++ taken (drun E T B kinds l) e.
Proof.
  unfold requests, drun. generalize (dboot kinds) as d. induction l as [|x l IH]; intros d; cbn [app requests_from fold_left]; [rewrite app_nil_r; reflexivity|].
  rewrite IH, app_assoc. reflexivity.
Qed.
Lemma CI_mild h e x : brief (h ++ [e]) -> CI (srun h) -> mild x ->
  DI njobs ncpu (requests E T B kinds (sv_events (srun h) ++ [x])) (calm (dstep (sv_daemon (srun h)) x)) /\
  forall a n, In a (attempts (dm_log (dstep (sv_daemon (srun h)) x))) -> at_end a <> Died n.
Proof.
  intros Br [C D] M. split; [|apply no_died_step; assumption]. rewrite calm_step by exact M. rewrite requests_snoc, <- (si_daemon _ (SI_run h)), <- taken_calm.
  apply DI_step; [exact C|]. exact (room _ _ Br stop).
Qed.
Lemma CI_step h e : brief (h ++ [e]) -> CI (srun h) -> match e with SKill _ | SStartKill _ => False | _ => True end -> CI (sstep (srun h) e).
Proof.
  intros Br C K. pose proof (CI_mild h e) as M. specialize (fun x => M x Br C). pose proof (QI_run h (brief_app _ _ Br)) as Q.
  assert (P : forall x, mild x -> CI (pass (srun h) x)) by (intros x Hx; exact (M x Hx)).
  destruct e as [r|b|nm c|n| |e|i| | |e|late|n| |ev]; try destruct K; cbn [Server.sstep].
  - destruct (_ && _); [apply P; exact Logic.I|exact C].
  - destruct (store_open _); [apply P; exact Logic.I|exact C].
  - destruct (sv_stage (srun h)); exact (M (DWorld _) Logic.I).
  - destruct (sv_stage (srun h)); exact C.
  - destruct (sv_stage (srun h)); try exact C. destruct (sv_notices (srun h)); [exact C|]. destruct (wanted _ _ _); [exact (M (DRequest _) Logic.I)|exact C].
  - destruct (worker_of e) as [i|] eqn:We; [|exact C]. destruct (_ && _); [|exact C]. apply P. destruct e; try discriminate; exact Logic.I.
  - destruct (sv_stage (srun h)); try exact C. destruct (free_worker _ _); exact C.
  - destruct (sv_stage (srun h)); exact C.
  - destruct (sv_stage (srun h)) eqn:G; try exact C; [destruct (all_left _); exact C|].
    destruct C as [C D]. split; cbn [sv_daemon sv_events].
    + rewrite requests_snoc, <- (si_daemon _ (SI_run h)). assert (Tk : taken (sv_daemon (srun h)) quietly = []) by (unfold taken, quietly; destruct (y_up _); reflexivity).
      rewrite Tk, app_nil_r. apply calm_quiet; [exact C| |exact (room _ _ Br stop)]. apply (qi_waited _ Q). left. exact G.
    + intros a n Ha. unfold quietly in Ha. cbn [Daemon.dstep] in Ha. destruct (y_up _); cbn [negb] in Ha; [|exact (D a n Ha)]. unfold down in Ha. cbn [dm_log] in Ha.
      rewrite attempts_app in Ha. apply in_app_iff in Ha as [Ha|[]]. exact (D a n Ha).
  - destruct (sv_stage (srun h)); try exact C. destruct (_ && _); [exact C|]. destruct late; [exact C|]. exact (M DStart Logic.I).
  - exact C.
  - exact (M (DWorld ev) Logic.I).
Qed.
Lemma CI_run h : brief h -> unkilled h -> CI (srun h).
Proof.
  induction h as [|e h IH] using rev_ind; intros Br K.
  - split; [apply DI_boot|intros a n []].
  - rewrite srun_app. destruct (unkilled_app _ _ K) as [K1 K2]. apply CI_step; [exact Br| |exact K2]. apply IH; [exact (brief_app _ _ Br)|exact K1].
Qed.

Lemma attempts_keep l : attempts (filter keep l) = attempts l.
Proof. induction l as [|e l IH]; [reflexivity|]. unfold attempts in *. cbn [filter]. destruct e; cbn [keep flat_map]; rewrite ?IH; reflexivity. Qed.
(** Unless the process is killed, no job dies half-way; unless one panics, each
    request is executed at most once, however often the daemon is stopped and
    started; and one that is not in the queue any more was executed to its end. *)
Theorem C75_clean_stops_repeat_nothing :
  forall h, brief h -> unkilled h ->
    let s := srun h in let y := jobs_of s in let log := attempts (dm_log (sv_daemon s)) in
    (forall a n, In a log -> at_end a <> Died n) /\
    (panic_free s ->
       (forall a, In a log -> completed a) /\ NoDup (map at_job log) /\
       (forall a, In a log -> In (at_job a) (y_retired y) \/ exists i, executes y i QSync (at_job a)) /\
       (waited (sv_stage s) -> forall a, In a log -> In (at_job a) (y_retired y)) /\
       (forall j hd, In (QSync, j) (y_accepted y) -> handler_of j = Ok hd ->
          In (ident j) (map ident (stored QSync y)) \/ exists a, In a log /\ at_job a = j_no j /\ at_todo a = execute hd)).
Proof.
  intros h Br K s y log. destruct (CI_run h Br K) as [C D]. fold s in C, D. split; [exact D|]. intros Pf.
  pose proof (attempts_keep (dm_log (sv_daemon s))) as Al. fold log in Al.
  assert (Cm : forall a, In a log -> completed a).
  { intros a Ha. unfold completed. destruct (at_end a) as [ok|n|] eqn:Ee; [eauto|destruct (D a n Ha Ee)|destruct (Pf a Ha Ee)]. }
  assert (Sd : steady (filter keep (dm_log (sv_daemon s)))).
  { apply Forall_forall. intros e He. apply filter_In in He as [He Ke]. destruct e as [n o t x| | |]; try exact Logic.I; try discriminate.
    assert (Ha : In (Attempt n o t x) log) by (apply in_flat_map; exists (LAttempt n o t x); split; [exact He|left; reflexivity]).
    destruct x as [ok|m|]; [exact Logic.I|destruct (D _ m Ha eq_refl)|destruct (Pf _ Ha eq_refl)]. }
  pose proof (di_calm _ _ _ _ C Sd) as [Cl ND]. cbn [calm dm_log dm_sys] in Cl, ND. rewrite Al in Cl, ND.
  assert (Rt : forall a, In a log -> In (at_job a) (y_retired y) \/ exists i, executes y i QSync (at_job a)).
  { intros a Ha. destruct (Cl a Ha) as [X|(i & j & desc & f & Hi & Ej & _)]; [left; exact X|right].
    apply holds_spec in Hi as (q & k & Hi). exists i, k, j. split; [|exact Ej].
    pose proof (di_att _ _ _ _ C) as At. cbn [calm dm_log dm_sys] in At. rewrite Al in At. destruct (At a Ha) as (ja & hd & Hja & Eja & _).
    pose proof (di_run _ _ _ _ C) as R. cbn [calm dm_sys dm_jobs] in R. pose proof (di_bound _ _ _ _ C) as Bd. cbn [calm dm_jobs] in Bd.
    pose proof Hi as Hi0. rewrite R in Hi0. destruct (held_accepted _ _ Bd _ _ _ _ Hi0) as (x & Hx & Ex & _). rewrite R in Hja. apply ident_no in Ex.
    destruct (accepted_unique _ _ Bd _ _ _ _ Hja Hx ltac:(congruence)) as [<- _]. exact Hi. }
  split; [exact Cm|]. split; [exact ND|]. split; [exact Rt|]. split.
  - intros W a Ha. destruct (Rt a Ha) as [X|(i & X)]; [exact X|]. destruct (proj1 (C75_stop_waits_for_jobs h Br W) _ _ _ X).
  - intros j hd Hj Hh. pose proof (DI_server h Br) as I. fold s in I.
    pose proof (C33_queued_or_finished kinds (dm_jobs (sv_daemon s)) QSync j (di_bound _ _ _ _ I)) as Q. cbv zeta in Q. rewrite <- (di_run _ _ _ _ I) in Q.
    destruct (Q Hj) as [X|X]; [left; exact X|right]. destruct (di_done _ _ _ _ I j hd Hj Hh X) as (pre & a & post & Ea & En & _). exists a.
    split; [unfold log; rewrite Ea; apply in_app_iff; right; left; reflexivity|]. split; [exact En|].
    destruct (di_att _ _ _ _ I a) as (j' & hd' & Hj' & En' & Hh' & <-); [rewrite Ea; apply in_app_iff; right; left; reflexivity|].
    rewrite (di_run _ _ _ _ I) in Hj'. unfold y, jobs_of in Hj. rewrite (di_run _ _ _ _ I) in Hj. destruct (accepted_unique _ _ (di_bound _ _ _ _ I) _ _ _ _ Hj Hj' ltac:(congruence)) as [_ <-]. congruence.
Qed.

(** ** C76: acknowledged requests *)
Lemma accepted_grow y e : exists l, y_accepted (step y e) = y_accepted y ++ l.
Proof.
  assert (Z : exists l, y_accepted y = y_accepted y ++ l) by (exists []; rewrite app_nil_r; reflexivity).
  destruct e as [a|a n| |n]; cbn [step]; destruct (y_up y); cbn [negb y_accepted]; try exact Z;
    destruct a; cbn [accepted_after]; try exact Z; destruct (_ && _); try exact Z; eexists; reflexivity.
Qed.
Lemma sys_step d e : dm_sys (dstep d e) = dm_sys d \/ exists x, dm_sys (dstep d e) = step (dm_sys d) x.
Proof.
  destruct e as [r|i|i o|i|i|b|e n|i o n| |n|ev]; cbn [Daemon.dstep]; try (destruct (negb (y_up (dm_sys d))); [left; reflexivity|]); try (right; eexists; reflexivity).
  - destruct (act_of d (DRequest r)); [right; eexists; reflexivity|left; reflexivity].
  - destruct (held_job d i); [|left; reflexivity]. destruct (dm_phase d i); try (left; reflexivity). unfold begin_job. destruct (new_job_handler _ _) as [h| |]; try (left; reflexivity).
    cbv zeta. destruct (result_of _); [destruct (execute h)| |]; try (left; reflexivity). right. eexists. reflexivity.
  - destruct (act_of d (DQueue i)); [right; eexists; reflexivity|]. destruct (held_job d i) as [j|]; [|left; reflexivity]. destruct (dm_phase d i) as [|[|x l] desc|]; try (left; reflexivity).
    destruct (new_job_handler _ _) as [h| |]; try (left; reflexivity). destruct (execute h); left; reflexivity.
  - destruct (act_of d (DFinish i)); [right; eexists; reflexivity|left; reflexivity].
  - destruct (held_job d i) as [j|]; [|right; eexists; reflexivity]. destruct (dm_phase d i); try (right; eexists; reflexivity). destruct (new_job_handler _ _); right; eexists; reflexivity.
  - destruct (outside_event ev); left; reflexivity.
Qed.
Lemma accepted_dstep d e : exists l, y_accepted (dm_sys (dstep d e)) = y_accepted (dm_sys d) ++ l.
Proof. destruct (sys_step d e) as [->|[x ->]]; [exists []; rewrite app_nil_r; reflexivity|apply accepted_grow]. Qed.
Lemma accepted_drun l l' : exists x, y_accepted (dm_sys (drun E T B kinds (l ++ l'))) = y_accepted (dm_sys (drun E T B kinds l)) ++ x.
Proof.
  induction l' as [|e l' IH] using rev_ind; [exists []; rewrite !app_nil_r; reflexivity|].
  rewrite app_assoc, drun_snoc. destruct (accepted_dstep (drun E T B kinds (l ++ l')) e) as [x ->]. destruct IH as [y ->]. rewrite <- app_assoc. eauto.
Qed.
(** the server's events only grow *)
Lemma events_snoc s e : exists l, sv_events (sstep s e) = sv_events s ++ l.
Proof.
  assert (Z : exists l, sv_events s = sv_events s ++ l) by (exists []; rewrite app_nil_r; reflexivity).
  destruct e as [r|b|nm c|n| |e|i| | |e|late|n| |ev]; cbn [Server.sstep].
  - destruct (_ && _); [eexists; reflexivity|exact Z].
  - destruct (store_open _); [eexists; reflexivity|exact Z].
  - destruct (sv_stage s); eexists; reflexivity.
  - destruct (sv_stage s); exact Z.
  - destruct (sv_stage s); try exact Z. destruct (sv_notices s); [exact Z|]. destruct (wanted _ _ _); [eexists; reflexivity|exact Z].
  - destruct (worker_of e); [|exact Z]. destruct (_ && _); [eexists; reflexivity|exact Z].
  - destruct (sv_stage s); try exact Z. destruct (free_worker _ _); exact Z.
  - destruct (sv_stage s); exact Z.
  - destruct (sv_stage s); try exact Z; [destruct (all_left s); exact Z|eexists; reflexivity].
  - destruct (sv_stage s); try exact Z; destruct e; try exact Z; try (eexists; reflexivity).
  - destruct (sv_stage s); try exact Z. destruct (_ && _); [exact Z|]. destruct late; [exact Z|eexists; reflexivity].
  - destruct (sv_stage s); try exact Z. destruct (_ && _); [exact Z|eexists; reflexivity].
  - exact Z.
  - eexists; reflexivity.
Qed.
Lemma events_apps h h' : exists l, sv_events (srun (h ++ h')) = sv_events (srun h) ++ l.
Proof.
  induction h' as [|e h' IH] using rev_ind; [exists []; rewrite !app_nil_r; reflexivity|].
  rewrite app_assoc, srun_app. destruct (events_snoc (srun (h ++ h')) e) as [x ->]. destruct IH as [y ->]. rewrite <- app_assoc. eauto.
Qed.
Lemma accepted_srun h h' : exists x, y_accepted (jobs_of (srun (h ++ h'))) = y_accepted (jobs_of (srun h)) ++ x.
Proof.
  unfold jobs_of. rewrite !(si_daemon _ (SI_run _)). destruct (events_apps h h') as [l ->]. apply accepted_drun.
Qed.

(** the job is in the queue, or it is over; what had a handler was executed to its end *)
Definition cared_for (s : server) (j : job) : Prop :=
  In (QSync, j) (y_accepted (jobs_of s)) /\
  (In (ident j) (map ident (stored QSync (jobs_of s))) \/
   In (j_no j) (y_retired (jobs_of s)) /\
   forall hd, handler_of j = Ok hd -> exists a, In a (attempts (dm_log (sv_daemon s))) /\ at_job a = j_no j /\ at_todo a = execute hd /\ completed a).
Lemma cared h j : brief h -> In (QSync, j) (y_accepted (jobs_of (srun h))) -> cared_for (srun h) j.
Proof.
  intros Br Hj. split; [exact Hj|]. pose proof (DI_server h Br) as I.
  pose proof (C33_queued_or_finished kinds (dm_jobs (sv_daemon (srun h))) QSync j (di_bound _ _ _ _ I)) as Q. cbv zeta in Q. rewrite <- (di_run _ _ _ _ I) in Q.
  destruct (Q Hj) as [X|X]; [left; exact X|right]. split; [exact X|]. intros hd Hh.
  destruct (di_done _ _ _ _ I j hd Hj Hh X) as (pre & a & post & Ea & En & Ca & _).
  assert (Ha : In a (attempts (dm_log (sv_daemon (srun h))))) by (rewrite Ea; apply in_app_iff; right; left; reflexivity).
  exists a. split; [exact Ha|]. split; [exact En|]. split; [|exact Ca].
  destruct (di_att _ _ _ _ I a Ha) as (j' & hd' & Hj' & En' & Hh' & <-).
  rewrite (di_run _ _ _ _ I) in Hj'. unfold jobs_of in Hj. rewrite (di_run _ _ _ _ I) in Hj. destruct (accepted_unique _ _ (di_bound _ _ _ _ I) _ _ _ _ Hj Hj' ltac:(congruence)) as [_ <-]. congruence.
Qed.

Lemma job_of_sync r : exists ty ps, job_of r = (QSync, ty, ps).
Proof. destruct r; do 2 eexists; reflexivity. Qed.
(** A request that arrives while the job store is open is acknowledged, and from
    then on, whatever happens (crashes and restarts included), it is in the queue
    as what was asked for, or it was executed to its end. *)
Theorem C76_acknowledged_is_queued_partial :
  forall h r h', brief (h ++ SRequest r :: h') -> client_request r = true -> store_open (sv_stage (srun h)) = true ->
    answers (sv_stage (srun h)) = Success /\
    exists j, (QSync, j_type j, j_params j) = job_of r /\ j_no j = List.length (y_accepted (jobs_of (srun h))) /\
      cared_for (srun (h ++ SRequest r :: h')) j.
Proof.
  intros h r h' Br Cr O. split; [destruct (sv_stage (srun h)); try discriminate; reflexivity|].
  destruct (job_of_sync r) as (ty & ps & Ej). exists (Job (List.length (y_accepted (jobs_of (srun h)))) ty ps false).
  split; [symmetry; exact Ej|]. split; [reflexivity|]. apply cared; [exact Br|].
  change (h ++ SRequest r :: h') with (h ++ [SRequest r] ++ h'). rewrite app_assoc. destruct (accepted_srun (h ++ [SRequest r]) h') as [x ->]. apply in_app_iff. left.
  rewrite srun_app. cbn [Server.sstep]. rewrite O, Cr. cbn [andb]. unfold jobs_of, Server.pass. cbn [sv_daemon Daemon.dstep].
  assert (U : y_up (dm_sys (sv_daemon (srun h))) = true) by (rewrite <- O; symmetry; exact (si_up _ (SI_run h))).
  rewrite U. cbn [negb act_of]. rewrite Ej. cbn [dm_sys]. unfold feed.
  pose proof (DI_server h (brief_app _ _ Br)) as I. pose proof (push_step kinds (dm_jobs (sv_daemon (srun h))) (di_bound _ _ _ _ I) QSync ty ps) as P.
  rewrite <- (di_run _ _ _ _ I) in P. destruct (P U) as (-> & _). apply in_app_iff. right. left. reflexivity.
Qed.
(** Exactly one moment is bad: between the closing of the database and the end of
    store.Close. Then the request is acknowledged and nothing happens. *)
Theorem C76_lost_exact :
  forall h r, client_request r = true ->
    (answers (sv_stage (srun h)) = Success /\ store_open (sv_stage (srun h)) = false <-> sv_stage (srun h) = DbClosed) /\
    (sv_stage (srun h) = DbClosed -> srun (h ++ [SRequest r]) = srun h).
Proof.
  intros h r _. split.
  - destruct (sv_stage (srun h)); cbn; split; (intros [A1 A2]; discriminate) || (intros A; discriminate) || (intros _; reflexivity) || (intros _; split; reflexivity).
  - intros G. rewrite srun_app. cbn [Server.sstep]. rewrite G. reflexivity.
Qed.
(** what is refused has no effect *)
Theorem C76_refused_without_effect :
  forall h r, answers (sv_stage (srun h)) <> Success -> srun (h ++ [SRequest r]) = srun h.
Proof. intros h r G. rewrite srun_app. cbn [Server.sstep]. destruct (sv_stage (srun h)); try destruct (G eq_refl); reflexivity. Qed.

(** ** C77: starting again *)
Theorem C77_start_exact :
  forall s, sv_stage s = Down ->
    (sv_stage (sstep s (SStart false)) = Serving <-> systemd = true \/ sv_socket s = false) /\
    (sv_stage (sstep s (SStart false)) <> Serving -> sstep s (SStart false) = s).
Proof.
  intros s G. cbn [Server.sstep]. rewrite G. destruct systemd, (sv_socket s); cbn [negb andb]; cbn [with_socket with_stage Server.pass sv_stage]; rewrite ?G; split;
    try (split; [intros _; auto|reflexivity]); try (intros X; destruct (X eq_refl)); try reflexivity.
  split; [discriminate|intros [X|X]; discriminate].
Qed.
Definition shut_free (s : server) : Prop := sv_stage s = Shut -> systemd = true \/ sv_socket s = false.
Lemma shut_free_run h : shut_free (srun h).
Proof.
  induction h as [|e h IH] using rev_ind; [discriminate|]. rewrite srun_app. unfold shut_free in *.
  destruct e as [r|b|nm c|n| |e|i| | |e|late|n| |ev]; cbn [Server.sstep].
  - destruct (_ && _); [|exact IH]. cbn [Server.pass sv_stage sv_socket]. destruct (y_up _); [exact IH|discriminate].
  - destruct (store_open _); [|exact IH]. cbn [Server.pass sv_stage sv_socket]. destruct (y_up _); [exact IH|discriminate].
  - destruct (sv_stage (srun h)) eqn:G; cbn [world with_notices sv_stage sv_socket]; rewrite G; exact IH.
  - destruct (sv_stage (srun h)) eqn:G; cbn [with_notices sv_stage sv_socket]; rewrite ?G; exact IH.
  - destruct (sv_stage (srun h)) eqn:G; rewrite ?G; try exact IH. destruct (sv_notices (srun h)); rewrite ?G; try exact IH. destruct (wanted _ _ _); cbn [Server.pass with_notices sv_stage sv_socket]; rewrite ?G; [destruct (y_up _)|]; discriminate.
  - destruct (worker_of e); [|exact IH]. destruct (_ && _); [|exact IH]. cbn [Server.pass sv_stage sv_socket]. destruct (y_up _); [exact IH|discriminate].
  - destruct (sv_stage (srun h)) eqn:G; rewrite ?G; try exact IH. destruct (free_worker _ _); cbn [sv_stage]; rewrite ?G; discriminate.
  - destruct (sv_stage (srun h)) eqn:G; rewrite ?G; try exact IH. discriminate.
  - destruct (sv_stage (srun h)) eqn:G; rewrite ?G; try exact IH; try discriminate.
    + destruct (all_left _); cbn [with_stage sv_stage]; rewrite ?G; discriminate.
    + intros _. cbn [with_socket sv_socket]. destruct systemd; auto.
  - destruct (sv_stage (srun h)) eqn:G; rewrite ?G; try discriminate; destruct e; try discriminate; cbn [store_open]; rewrite ?G; try discriminate; exact IH.
  - destruct (sv_stage (srun h)) eqn:G; rewrite ?G; try exact IH. destruct (_ && _); rewrite ?G; [discriminate|]. destruct late; cbn [with_socket with_stage sv_stage]; rewrite ?G; discriminate.
  - destruct (sv_stage (srun h)) eqn:G; rewrite ?G; try exact IH. destruct (_ && _); rewrite ?G; [discriminate|]. discriminate.
  - cbn [with_socket sv_stage sv_socket]. auto.
  - exact IH.
Qed.
(** After a clean stop the next start succeeds and finds the queue as it was. *)
Theorem C77_clean_stop_then_start :
  forall h, brief (h ++ [SNext; SStart false]) -> sv_stage (srun h) = Shut ->
    let s := srun (h ++ [SNext; SStart false]) in
    sv_stage s = Serving /\ y_accepted (jobs_of s) = y_accepted (jobs_of (srun h)) /\ y_retired (jobs_of s) = y_retired (jobs_of (srun h)) /\
    (forall q, map ident (stored q (jobs_of s)) = map ident (stored q (jobs_of (srun h)))) /\
    (forall i q n, ~ executes (jobs_of s) i q n) /\ (forall q j, In j (stored q (jobs_of s)) -> j_claimed j = false).
Proof.
  intros h Br G. pose proof (shut_free_run h G) as F. cbv zeta.
  assert (Br0 : brief h) by exact (brief_app _ _ Br).
  assert (Es : srun (h ++ [SNext; SStart false]) = with_socket (with_stage (pass (gone (srun h)) DStart) Serving) true).
  { change [SNext; SStart false] with ([SNext] ++ [SStart false]). rewrite app_assoc, !srun_app. cbn [Server.sstep]. rewrite G. cbn [gone sv_stage sv_socket].
    destruct F as [->| ->]; [reflexivity|]. rewrite andb_false_r. reflexivity. }
  pose proof (DI_server _ Br) as I'. pose proof (DI_server h Br0) as I.
  assert (Ed : dm_sys (sv_daemon (srun (h ++ [SNext; SStart false]))) = feed (sv_daemon (srun h)) Start) by (rewrite Es; reflexivity).
  pose proof (start_step kinds (dm_jobs (sv_daemon (srun h))) Start (or_introl eq_refl)) as P. rewrite <- (di_run _ _ _ _ I) in P. destruct P as (P1 & P2 & P3).
  unfold jobs_of. split; [rewrite Es; reflexivity|]. split; [rewrite Ed; exact P1|]. split; [rewrite Ed; exact P2|].
  destruct (qi_waited _ (QI_run h Br0) ltac:(right; right; right; right; exact G)) as (N & Uc & _). 
  assert (N' : forall i, holds (dm_sys (sv_daemon (srun (h ++ [SNext; SStart false])))) i = None) by (intros i; rewrite Ed; unfold feed; rewrite P3; apply N).
  split; [|split].
  - intros q. rewrite (di_run _ _ _ _ I'), (di_run _ _ _ _ I).
    rewrite (proj1 (C30_no_job_is_lost kinds _ q (di_bound _ _ _ _ I'))), (proj1 (C30_no_job_is_lost kinds _ q (di_bound _ _ _ _ I))).
    rewrite <- (di_run _ _ _ _ I'), <- (di_run _ _ _ _ I), Ed. unfold feed. rewrite P1, P2. reflexivity.
  - intros i q n (k & j & Hi & _). specialize (N' i). unfold holds in N'. rewrite Hi in N'. discriminate.
  - intros q j Hj. unfold stored in Hj. apply in_map_iff in Hj as ([k j'] & <- & Hk). cbn [snd].
    apply (none_held_unclaimed _ _ I') with (q := q) (k := k); [|exact N'|apply in_mlist; exact Hk].
    transitivity (store_open (sv_stage (srun (h ++ [SNext; SStart false])))); [symmetry; exact (si_up _ (SI_run _))|rewrite Es; reflexivity].
Qed.
(** Without systemd, a process that ended any other way leaves its socket file
    behind: no start succeeds until somebody removes it; nothing that was queued
    is executed. *)
Definition no_free (h : list sevent) : Prop := Forall (fun e => match e with SFree => False | _ => True end) h.
Lemma stuck_step s e : systemd = false -> sv_stage s = Down -> sv_socket s = true -> match e with SFree => False | _ => True end ->
  sv_stage (sstep s e) = Down /\ sv_socket (sstep s e) = true /\ jobs_of (sstep s e) = jobs_of s /\ attempts (dm_log (sv_daemon (sstep s e))) = attempts (dm_log (sv_daemon s)).
Proof.
  intros Sd G K Nf.
  assert (W : forall ev, attempts (dm_log (dstep (sv_daemon s) (DWorld ev))) = attempts (dm_log (sv_daemon s))).
  { intros ev. cbn [Daemon.dstep]. destruct (outside_event ev); [|reflexivity]. cbn [dm_log]. rewrite attempts_app. apply app_nil_r. }
  assert (W' : forall ev, dm_sys (dstep (sv_daemon s) (DWorld ev)) = dm_sys (sv_daemon s)) by (intros ev; cbn [Daemon.dstep]; destruct (outside_event ev); reflexivity).
  destruct e as [r|b|nm c|n| |e|i| | |e|late|n| |ev]; try destruct Nf; cbn [Server.sstep]; rewrite ?G, ?K, ?Sd; cbn [store_open andb negb]; unfold jobs_of; try (repeat split; assumption || reflexivity).
  - cbn [world sv_stage sv_socket sv_daemon]. rewrite W, W'. auto.
  - destruct (worker_of e); repeat split; assumption.
  - cbn [world sv_stage sv_socket sv_daemon]. rewrite W, W'. auto.
Qed.
Theorem C77_unclean_stop_blocks_start :
  systemd = false -> forall h h', sv_stage (srun h) = Down -> sv_socket (srun h) = true -> no_free h' ->
    sv_stage (srun (h ++ h')) = Down /\ jobs_of (srun (h ++ h')) = jobs_of (srun h) /\
    attempts (dm_log (sv_daemon (srun (h ++ h')))) = attempts (dm_log (sv_daemon (srun h))).
Proof.
  intros Sd h h' G K Nf. rewrite srun_apps.
  assert (X : forall s, sv_stage s = Down -> sv_socket s = true -> no_free h' ->
    sv_stage (fold_left sstep h' s) = Down /\ jobs_of (fold_left sstep h' s) = jobs_of s /\ attempts (dm_log (sv_daemon (fold_left sstep h' s))) = attempts (dm_log (sv_daemon s))).
  { clear G K Nf h. induction h' as [|e h' IH]; intros s G K Nf; [cbn [fold_left]; auto|]. apply Forall_cons_iff in Nf as [Ne Nf']. cbn [fold_left].
    destruct (stuck_step s e Sd G K Ne) as (A1 & A2 & A3 & A4). destruct (IH _ A1 A2 Nf') as (C1 & C2 & C3). rewrite C2, C3, A3, A4. auto. }
  apply X; assumption.
Qed.

(** A start that fails after listening, or is killed before serving, leaves the
    socket file behind: no later start succeeds either. *)
Theorem C77_failed_start_blocks_start :
  systemd = false -> forall h e h', sv_stage (srun h) = Down -> e = SStart true \/ (exists n, e = SStartKill n) -> no_free h' ->
    sv_stage (srun (h ++ e :: h')) = Down.
Proof.
  intros Sd h e h' G He Nf. replace (h ++ e :: h') with ((h ++ [e]) ++ h') by (rewrite <- app_assoc; reflexivity).
  apply (C77_unclean_stop_blocks_start Sd (h ++ [e]) h'); [| |exact Nf]; rewrite srun_app; revert G; generalize (srun h); intros s G;
    destruct He as [->|[n ->]]; cbn [Server.sstep]; rewrite G, Sd; cbn [negb andb]; destruct (sv_socket s) eqn:K;
    cbn [with_socket gone Server.pass sv_stage sv_socket]; first [exact G | exact K | reflexivity].
Qed.

(** ** C78: uploads *)
Notation requested s := (requests E T B kinds (sv_events s)).
(** the report the watching goroutine is about to handle *)
Definition at_hand (s : server) (p : string) : Prop :=
  sv_stage s = Serving /\ exists n l, sv_notices s = n :: l /\ wanted B (sv_daemon s) n = true /\ p = full_path B n.
Lemma requested_step s e : SI s -> exists l, requested (sstep s e) = requested s ++ l /\ forall p, In (ReqUpload p) l -> at_hand s p.
Proof.
  intros I. pose proof (si_daemon _ I) as D.
  assert (Z : exists l, requested s = requested s ++ l /\ forall p, In (ReqUpload p) l -> at_hand s p) by (exists []; split; [rewrite app_nil_r; reflexivity|intros p []]).
  assert (P : forall x, (forall p, In (ReqUpload p) (taken (sv_daemon s) x) -> at_hand s p) ->
    exists l, requests E T B kinds (sv_events s ++ [x]) = requested s ++ l /\ forall p, In (ReqUpload p) l -> at_hand s p).
  { intros x Hx. rewrite requests_snoc, <- D. eauto. }
  assert (Q : forall x, taken (sv_daemon s) x = [] -> exists l, requests E T B kinds (sv_events s ++ [x]) = requested s ++ l /\ forall p, In (ReqUpload p) l -> at_hand s p).
  { intros x Hx. apply P. rewrite Hx. intros p []. }
  assert (K : forall x, match x with DRequest _ | DCrashIn (DRequest _) _ => False | _ => True end -> taken (sv_daemon s) x = []).
  { intros x Hx. unfold taken. destruct (y_up _); [|reflexivity]. destruct x as [| | | | | |[]| | | |]; try reflexivity; destruct Hx. }
  destruct e as [r|b|nm c|n| |e|i| | |e|late|n| |ev]; cbn [Server.sstep].
  - destruct (store_open _); [|exact Z]. destruct (client_request r) eqn:Cr; [|exact Z]. apply P. unfold taken. destruct (y_up _); [|intros p []].
    intros p [X|[]]. subst r. discriminate.
  - destruct (store_open _); [|exact Z]. apply Q, K, Logic.I.
  - destruct (sv_stage s); apply Q, K, Logic.I.
  - destruct (sv_stage s); exact Z.
  - destruct (sv_stage s) eqn:G; try exact Z. destruct (sv_notices s) as [|n l] eqn:En; [exact Z|]. destruct (wanted _ _ _) eqn:W; [|exact Z].
    apply P. unfold taken. destruct (y_up _); [|intros p []]. intros p [X|[]]. injection X as <-. split; [exact G|]. exists n, l. auto.
  - destruct (worker_of e) as [i|] eqn:We; [|exact Z]. destruct (_ && _); [|exact Z]. apply Q, K. destruct e; try discriminate; exact Logic.I.
  - destruct (sv_stage s); try exact Z. destruct (free_worker _ _); exact Z.
  - destruct (sv_stage s); exact Z.
  - destruct (sv_stage s); try exact Z; [destruct (all_left s); exact Z|]. apply Q, K, Logic.I.
  - assert (F : forall x, exists l, requests E T B kinds (sv_events s ++ [fatal B s x]) = requested s ++ l /\
      ((exists e' m, x = DCrashIn e' m) \/ (exists a1 a2 a3, x = DCrashAt a1 a2 a3) -> forall p, In (ReqUpload p) l -> at_hand s p)).
    { intros x. rewrite requests_snoc, <- D. eexists. split; [reflexivity|]. intros [(e' & m & ->)|(a1 & a2 & a3 & ->)] p.
      - cbn [fatal]. destruct (doing B s e') eqn:Dg; [|rewrite K by exact Logic.I; intros []]. unfold taken. destruct (y_up _); [|intros []].
        destruct e' as [r| | | | | | | | | |]; try (intros []; fail). destruct (1 <=? m)%nat; [|intros []]. intros [->|[]]. cbn [doing] in Dg.
        destruct (sv_stage s) eqn:G; try discriminate. destruct (sv_notices s) as [|n l] eqn:En; [discriminate|]. apply andb_true_iff in Dg as [Dg1 Dg2]. apply seqb_eq in Dg2.
        split; [exact G|]. exists n, l. auto.
      - cbn [fatal]. rewrite K by exact Logic.I. intros []. }
    destruct (sv_stage s) eqn:G; try exact Z; destruct e; try exact Z; cbn [store_open]; try exact Z;
      match goal with |- context [fatal B s ?x] => destruct (F x) as (l & El & Hl); exists l; split; [exact El|apply Hl; eauto 6] end.
  - destruct (sv_stage s); try exact Z. destruct (_ && _); [exact Z|]. destruct late; [exact Z|]. apply Q, K, Logic.I.
  - destruct (sv_stage s); try exact Z. destruct (_ && _); [exact Z|]. apply Q, K, Logic.I.
  - exact Z.
  - apply Q, K, Logic.I.
Qed.

Lemma tram_normal x : has_slash x = false -> normal (x ++ ".tram").
Proof.
  intros H. repeat split.
  - destruct x; discriminate.
  - destruct x as [|c [|]]; discriminate.
  - destruct x as [|c [|c' [|]]]; discriminate.
  - induction x as [|c x IH]; [reflexivity|]. cbn in *. destruct (Ascii.eqb c slash); [discriminate|]. apply IH, H.
Qed.
Lemma wanted_path d n : Forall normal B -> wanted B d n = true -> exists name, in_incoming B (full_path B n) name /\ has_suffix ".tram" name = true /\ base (n_path n) = name.
Proof.
  intros FB W. unfold wanted in W. rewrite !andb_true_iff in W. destruct W as [[[_ _] Sx] _]. apply has_suffix_spec in Sx as (a & Ea).
  destruct (split_suffix ".tram" eq_refl a) as (pre & x & Sp).
  assert (Hx : has_slash x = false).
  { pose proof (split_no_slash (a ++ ".tram")) as F. rewrite Sp in F. apply Forall_app in F as [_ F]. apply Forall_cons_iff in F as [F _].
    clear - F. induction x as [|c x IH]; [reflexivity|]. cbn in *. destruct (Ascii.eqb c slash); [discriminate|]. apply IH, F. }
  pose proof (tram_normal x Hx) as Nx.
  assert (Eb : base (n_path n) = (x ++ ".tram")%string).
  { unfold base. rewrite Ea, Sp, rev_app_distr. cbn [rev app strip_trailing]. destruct (seqb_spec (a ++ ".tram")%string "") as [X|_]; [destruct a; discriminate|].
    destruct Nx as (N1 & _). apply seqb_neq in N1. rewrite N1. reflexivity. }
  assert (FB' : Forall normal (B ++ ["incoming"; (x ++ ".tram")%string])).
  { apply Forall_app. split; [exact FB|]. constructor; [|constructor; [exact Nx|constructor]]. repeat split; discriminate. }
  exists (x ++ ".tram")%string. split; [|split; [apply has_suffix_app|exact Eb]]. split; [|exact FB'].
  unfold full_path. rewrite Eb. unfold incoming. change ("/" ++ join_slash (B ++ ["incoming"]))%string with (abs (B ++ ["incoming"])).
  assert (Sx : split_slash (x ++ ".tram") = [(x ++ ".tram")%string]) by (apply split_one, Nx).
  rewrite join_inside.
  - rewrite Sx. cbn [filter]. assert (Kx : keepc (x ++ ".tram") = true).
    { destruct Nx as (N1 & N2 & _). unfold keepc. apply seqb_neq in N1, N2. rewrite N1, N2. reflexivity. }
    rewrite Kx, <- app_assoc. reflexivity.
  - destruct B; discriminate.
  - change ["incoming"; (x ++ ".tram")%string] with (["incoming"] ++ [(x ++ ".tram")%string]) in FB'. rewrite app_assoc in FB'. apply Forall_app in FB'. apply FB'.
  - rewrite Sx. intros [X|[]]. destruct Nx as (_ & _ & N3 & _). exact (N3 X).
Qed.

(** The daemon processes as an upload only manifests that lie directly in its
    incoming directory, whatever the watcher reports. *)
Theorem C78_only_manifests_in_incoming :
  Forall normal B -> forall h p, In (ReqUpload p) (requested (srun h)) -> exists name, in_incoming B p name /\ has_suffix ".tram" name = true.
Proof.
  intros FB h p. induction h as [|e h IH] using rev_ind; [intros []|]. rewrite srun_app.
  destruct (requested_step (srun h) e (SI_run h)) as (l & El & Hl). rewrite El, in_app_iff. intros [X|X]; [exact (IH X)|].
  destruct (Hl p X) as (_ & n & l' & _ & W & ->). destruct (wanted_path _ _ FB W) as (name & A1 & A2 & _). eauto.
Qed.

(** the events that make the watcher report the file [name] *)
Definition reports (name : string) (e : sevent) : Prop :=
  match e with
  | SUpload name' _ => base (join (incoming B) name') = name
  | SNotice n => base (n_path n) = name
  | _ => False
  end.
Definition pending_report (s : server) (name : string) : Prop := exists n, In n (sv_notices s) /\ base (n_path n) = name.
Lemma down_silent h : sv_stage (srun h) = Down -> sv_notices (srun h) = [].
Proof.
  induction h as [|e h IH] using rev_ind; [discriminate|]. rewrite srun_app.
  destruct e as [r|b|nm c|n| |e|i| | |e|late|n| |ev]; cbn [Server.sstep].
  - destruct (_ && _); [|exact IH]. cbn [Server.pass sv_stage sv_notices]. destruct (y_up _); [exact IH|reflexivity].
  - destruct (store_open _); [|exact IH]. cbn [Server.pass sv_stage sv_notices]. destruct (y_up _); [exact IH|reflexivity].
  - destruct (sv_stage (srun h)) eqn:G; cbn [world with_notices sv_stage sv_notices]; rewrite G; try discriminate. exact IH.
  - destruct (sv_stage (srun h)) eqn:G; cbn [with_notices sv_stage sv_notices]; rewrite ?G; try discriminate. exact IH.
  - destruct (sv_stage (srun h)) eqn:G; rewrite ?G; try discriminate; [exact IH|]. destruct (sv_notices (srun h)) eqn:En; rewrite ?G; try discriminate.
    destruct (wanted _ _ _); cbn [Server.pass with_notices sv_stage sv_notices]; [|rewrite G; discriminate]. destruct (y_up _); [rewrite G; discriminate|reflexivity].
  - destruct (worker_of e); [|exact IH]. destruct (_ && _); [|exact IH]. cbn [Server.pass sv_stage sv_notices]. destruct (y_up _); [exact IH|reflexivity].
  - destruct (sv_stage (srun h)) eqn:G; rewrite ?G; try discriminate; [exact IH|]. destruct (free_worker _ _); cbn [sv_stage]; rewrite ?G; discriminate.
  - destruct (sv_stage (srun h)) eqn:G; rewrite ?G; try discriminate. exact IH.
  - destruct (sv_stage (srun h)) eqn:G; cbn [with_stage with_socket gone sv_stage sv_notices]; rewrite ?G; try discriminate; try exact IH; try reflexivity.
    destruct (all_left _); cbn [with_stage sv_stage]; rewrite ?G; discriminate.
  - destruct (sv_stage (srun h)) eqn:G; rewrite ?G; try exact IH; destruct e; cbn [store_open gone sv_stage sv_notices]; rewrite ?G; try discriminate; reflexivity.
  - destruct (sv_stage (srun h)) eqn:G; rewrite ?G; try discriminate. destruct (_ && _); [rewrite G; exact IH|]. destruct late; cbn [with_socket with_stage sv_stage sv_notices]; [rewrite G; exact IH|discriminate].
  - destruct (sv_stage (srun h)) eqn:G; rewrite ?G; try discriminate. destruct (_ && _); [rewrite G; exact IH|]. reflexivity.
  - exact IH.
  - exact IH.
Qed.
(** a start begins with no reports; others only come from [reports] *)
Definition deaf (name : string) (s : server) : Prop := sv_stage s = Serving -> ~ pending_report s name.
Lemma deaf_step h e name : deaf name (srun h) -> ~ reports name e -> deaf name (sstep (srun h) e).
Proof.
  intros Df Nr. pose proof (down_silent h) as Ds. unfold deaf, pending_report in *.
  assert (Same : forall s', (sv_stage s' = Serving -> sv_stage (srun h) = Serving) -> (forall n, In n (sv_notices s') -> In n (sv_notices (srun h))) ->
    sv_stage s' = Serving -> ~ exists n, In n (sv_notices s') /\ base (n_path n) = name).
  { intros s' A1 A2 A3 (n & Hn & En). apply (Df (A1 A3)). eauto. }
  assert (Ps : forall x, sv_stage (pass (srun h) x) = Serving -> ~ exists n, In n (sv_notices (pass (srun h) x)) /\ base (n_path n) = name).
  { intros x. apply Same; cbn [Server.pass sv_stage sv_notices]; destruct (y_up _); auto; try discriminate. intros n []. }
  destruct e as [r|b|nm c|n| |e|i| | |e|late|n| |ev]; cbn [Server.sstep].
  - destruct (_ && _); [apply Ps|exact Df].
  - destruct (store_open _); [apply Ps|exact Df].
  - destruct (sv_stage (srun h)) eqn:G; cbn [world with_notices sv_stage sv_notices]; rewrite G; try discriminate.
    intros _ (n & Hn & En). apply in_app_iff in Hn as [Hn|[<-|[]]]; [apply (Df eq_refl); eauto|]. apply Nr. cbn. exact En.
  - destruct (sv_stage (srun h)) eqn:G; cbn [with_notices sv_stage sv_notices]; rewrite ?G; try discriminate.
    intros _ (m & Hm & Em). apply in_app_iff in Hm as [Hm|[<-|[]]]; [apply (Df eq_refl); eauto|]. apply Nr. exact Em.
  - destruct (sv_stage (srun h)) eqn:G; rewrite ?G; try discriminate. destruct (sv_notices (srun h)) as [|n l] eqn:En; [rewrite En; rewrite G; exact Df|].
    assert (Z : ~ exists m, In m l /\ base (n_path m) = name) by (intros (m & Hm & Em); apply (Df eq_refl); exists m; split; [right; exact Hm|exact Em]).
    destruct (wanted _ _ _); cbn [Server.pass with_notices sv_stage sv_notices]; [|intros _; exact Z]. destruct (y_up _); [intros _; exact Z|discriminate].
  - destruct (worker_of e); [|exact Df]. destruct (_ && _); [apply Ps|exact Df].
  - destruct (sv_stage (srun h)) eqn:G; rewrite ?G; try discriminate; [exact Df|]. destruct (free_worker _ _); cbn [sv_stage]; rewrite ?G; discriminate.
  - destruct (sv_stage (srun h)) eqn:G; rewrite ?G; try discriminate.
  - destruct (sv_stage (srun h)) eqn:G; cbn [with_stage with_socket gone sv_stage sv_notices]; rewrite ?G; try discriminate; try exact Df.
    destruct (all_left _); cbn [with_stage sv_stage]; rewrite ?G; discriminate.
  - destruct (sv_stage (srun h)) eqn:G; rewrite ?G; try discriminate; destruct e; cbn [store_open gone sv_stage sv_notices]; rewrite ?G; try discriminate; exact Df.
  - destruct (sv_stage (srun h)) eqn:G; rewrite ?G; try discriminate; [|exact Df]. destruct (_ && _); [rewrite G; discriminate|]. destruct late; cbn [with_socket with_stage Server.pass sv_stage sv_notices]; [rewrite G; discriminate|].
    rewrite (Ds eq_refl). intros _ (n & Hn & _). destruct (y_up _); destruct Hn.
  - destruct (sv_stage (srun h)) eqn:G; rewrite ?G; try discriminate; [|exact Df]. destruct (_ && _); [rewrite G; discriminate|]. discriminate.
  - exact Df.
  - exact Df.
Qed.
(** A manifest that arrives while the daemon is not serving (down, or on its way
    down) is not processed, however often the daemon is started afterwards: only a
    new report about a file of this name makes it look. *)
Theorem C78_missed_uploads :
  Forall normal B -> forall h name content h', sv_stage (srun h) <> Serving -> normal name ->
    (forall e, In e h' -> ~ reports name e) ->
    exists l, requested (srun (h ++ SUpload name content :: h')) = requested (srun h) ++ l /\
              ~ In (ReqUpload (abs (B ++ ["incoming"; name]))) l.
Proof.
  intros FB h name content h' G Nn. revert h'.
  assert (D0 : forall h', (forall e, In e h' -> ~ reports name e) -> deaf name (srun (h ++ SUpload name content :: h')) /\
    exists l, requested (srun (h ++ SUpload name content :: h')) = requested (srun h) ++ l /\ ~ In (ReqUpload (abs (B ++ ["incoming"; name]))) l).
  { induction h' as [|e h' IH] using rev_ind; intros Nr.
    - rewrite srun_app. split.
      + unfold deaf. cbn [Server.sstep]. destruct (sv_stage (srun h)) eqn:Gs; cbn [world with_notices sv_stage]; rewrite ?Gs; try discriminate. destruct (G eq_refl).
      + destruct (requested_step (srun h) (SUpload name content) (SI_run h)) as (l & El & Hl). exists l. split; [exact El|]. intros X. destruct (Hl _ X) as [X' _]. exact (G X').
    - change (h ++ SUpload name content :: h' ++ [e]) with (h ++ (SUpload name content :: h') ++ [e]). rewrite app_assoc, srun_app.
      destruct IH as (Df & l & El & Hl); [intros x Hx; apply Nr, in_app_iff; left; exact Hx|].
      split; [apply deaf_step; [exact Df|apply Nr, in_app_iff; right; left; reflexivity]|].
      destruct (requested_step (srun (h ++ SUpload name content :: h')) e (SI_run _)) as (l' & El' & Hl'). exists (l ++ l'). rewrite El', El, app_assoc. split; [reflexivity|].
      intros X. apply in_app_iff in X as [X|X]; [exact (Hl X)|]. destruct (Hl' _ X) as (Gs & n & rest & En & W & Ep).
      apply (Df Gs). exists n. split; [rewrite En; left; reflexivity|].
      destruct (wanted_path _ _ FB W) as (nm & [Pn Fn] & _ & Eb). rewrite <- Ep in Pn.
      assert (En' : nm = name).
      { apply (f_equal split_slash) in Pn. rewrite !abs_split in Pn; try exact Fn.
        - injection Pn as Pn. apply app_inv_head in Pn. congruence.
        - destruct B; discriminate.
        - destruct B; discriminate.
        - apply Forall_app in Fn as [F1 F2]. apply Forall_cons_iff in F2 as [F2 _]. apply Forall_app. split; [exact F1|]. constructor; [exact F2|]. constructor; [exact Nn|constructor]. }
      congruence. }
  intros h' Nr. exact (proj2 (D0 h' Nr)).
Qed.

Lemma accepted_apps q A A' : accepted_in q (A ++ A') = accepted_in q A ++ accepted_in q A'.
Proof. unfold accepted_in. rewrite filter_app, map_app. reflexivity. Qed.
Lemma app_split {X} (a b c d : list X) : List.length a = List.length c -> a ++ b = c ++ d -> b = d.
Proof. revert c. induction a as [|x a IH]; intros [|y c] L H; try discriminate; [exact H|]. injection L as L. injection H as _ H. exact (IH _ L H). Qed.
(** a job that was not there after [h] *)
Definition new_job (h : list sevent) (j : job) : Prop := List.length (y_accepted (jobs_of (srun h))) <= j_no j.
Lemma new_request h h' l r : brief (h ++ h') -> requested (srun (h ++ h')) = requested (srun h) ++ l -> In r l ->
  exists j, (QSync, j_type j, j_params j) = job_of r /\ In (QSync, j) (y_accepted (jobs_of (srun (h ++ h')))) /\ new_job h j.
Proof.
  intros Br El Hr. pose proof (DI_server _ Br) as I'. pose proof (DI_server h (brief_app _ _ Br)) as I.
  destruct (accepted_srun h h') as [x Ex]. pose proof (di_sync _ _ _ _ I') as S'. pose proof (di_sync _ _ _ _ I) as S0.
  unfold jobs_of in Ex. rewrite Ex, El, accepted_apps, !map_app, S0 in S'. apply app_inv_head in S'.
  apply (in_map job_of) in Hr. rewrite <- S' in Hr. apply in_map_iff in Hr as (j & Ej & Hj). apply in_accepted in Hj. exists j. split; [exact Ej|]. unfold jobs_of.
  split; [rewrite Ex; apply in_app_iff; right; exact Hj|]. unfold new_job, jobs_of.
  pose proof (run_inv kinds (dm_jobs (sv_daemon (srun (h ++ h')))) (di_bound _ _ _ _ I')) as V. rewrite <- (di_run _ _ _ _ I') in V.
  pose proof (iv_nos _ _ _ _ _ _ V) as N. rewrite Ex, map_app, app_length, seq_app in N. apply app_split in N; [|rewrite map_length, seq_length; reflexivity].
  apply (in_map (fun x => j_no (snd x))) in Hj. rewrite N in Hj. apply in_seq in Hj. cbn [snd] in Hj. lia.
Qed.

(** A manifest written while the daemon serves is queued as soon as the watching
    goroutine has worked off its reports, if the daemon serves and the file stays
    there until then; and it is executed to its end, or still in the queue. *)
Theorem C78_uploads_are_queued_partial :
  Forall normal B -> forall h name content h', brief (h ++ SUpload name content :: h') ->
    normal name -> has_suffix ".tram" name = true ->
    let p := abs (B ++ ["incoming"; name]) in
    sv_stage (srun h) = Serving ->
    (forall h1 h2, h' = h1 ++ h2 -> let s := srun (h ++ SUpload name content :: h1) in
       sv_stage s = Serving /\ f_name (st_fs (dm_core (sv_daemon s))) (locate B p) <> None) ->
    sv_notices (srun (h ++ SUpload name content :: h')) = [] ->
    exists j, (QSync, j_type j, j_params j) = job_of (ReqUpload p) /\ new_job h j /\ cared_for (srun (h ++ SUpload name content :: h')) j.
Proof.
  intros FB h name content h' Br Nn Sx p G St Em.
  assert (FB' : Forall normal ((B ++ ["incoming"]) ++ [name])).
  { rewrite <- app_assoc. apply Forall_app. split; [exact FB|]. constructor; [repeat split; discriminate|]. constructor; [exact Nn|constructor]. }
  assert (FB1 : Forall normal (B ++ ["incoming"])) by (apply Forall_app in FB'; apply FB').
  assert (NB : B ++ ["incoming"] <> []) by (destruct B; discriminate).
  assert (Ei : incoming B = abs (B ++ ["incoming"])) by reflexivity.
  assert (Ep : p = abs ((B ++ ["incoming"]) ++ [name])) by (unfold p; rewrite <- app_assoc; reflexivity).
  assert (Jn : join (incoming B) name = p).
  { rewrite Ei, Ep. rewrite join_inside; [|exact NB|exact FB1|].
    - destruct Nn as (N1 & N2 & N3 & N4). rewrite (split_one name N4). cbn [filter]. unfold keepc. apply seqb_neq in N1, N2. rewrite N1, N2. reflexivity.
    - destruct Nn as (N1 & N2 & N3 & N4). rewrite (split_one name N4). intros [X|[]]. exact (N3 X). }
  assert (Wt : forall d, f_name (st_fs (dm_core d)) (locate B p) <> None -> wanted B d (Notice p true) = true /\ full_path B (Notice p true) = p).
  { intros d F.
    assert (Fp : full_path B (Notice p true) = p) by (unfold full_path; cbn [n_path]; rewrite <- Jn at 2; f_equal; rewrite Ep; apply base_abs, Nn).
    split; [|exact Fp]. unfold wanted. rewrite Fp. cbn [n_path n_update].
    rewrite Ep at 1. rewrite dirname_abs by assumption. rewrite Ei, seqb_refl. cbn [andb].
    assert (Sp : has_suffix ".tram" p = true).
    { apply has_suffix_spec in Sx as (a & Ea). apply has_suffix_spec. rewrite Ep. unfold abs. rewrite join_app by (exact NB || discriminate). cbn [join_slash]. rewrite Ea.
      exists ("/" ++ join_slash (B ++ ["incoming"]) ++ "/" ++ a)%string. rewrite !sapp_assoc. reflexivity. }
    rewrite Sp. cbn [andb]. destruct (f_name (st_fs (dm_core d)) (locate B p)); [reflexivity|destruct (F eq_refl)]. }
  assert (Iv : forall h1 h2, h' = h1 ++ h2 -> let s := srun (h ++ SUpload name content :: h1) in
    exists l, requested s = requested (srun h) ++ l /\ (In (Notice p true) (sv_notices s) \/ In (ReqUpload p) l)).
  { induction h1 as [|e h1 IH] using rev_ind; intros h2 Eh; cbv zeta.
    - destruct (requested_step (srun h) (SUpload name content) (SI_run h)) as (l & El & _). rewrite srun_app. exists l. split; [exact El|]. left. cbn [Server.sstep]. rewrite G, Jn. cbn [with_notices world sv_notices]. apply in_app_iff. right. left. reflexivity.
    - change (h ++ SUpload name content :: h1 ++ [e]) with (h ++ (SUpload name content :: h1) ++ [e]). rewrite app_assoc, srun_app.
      rewrite <- app_assoc in Eh. destruct (St _ _ Eh) as [G1 F1]. pose proof (St (h1 ++ [e]) h2 ltac:(rewrite <- app_assoc; exact Eh)) as [G2 _].
      change (h ++ SUpload name content :: h1 ++ [e]) with (h ++ (SUpload name content :: h1) ++ [e]) in G2. rewrite app_assoc, srun_app in G2.
      destruct (requested_step (srun (h ++ SUpload name content :: h1)) e (SI_run _)) as (l' & El' & _).
      destruct (IH _ Eh) as (l & El & X). exists (l ++ l'). split; [rewrite El', El, app_assoc; reflexivity|].
      destruct X as [X|Hl]; [|right; apply in_app_iff; left; exact Hl].
      pose proof (SI_run (h ++ SUpload name content :: h1)) as Is. set (s := srun (h ++ SUpload name content :: h1)) in *. clearbody s.
      destruct e as [r|b|nm c|n| |e|i| | |e|late|n| |ev]; cbn [Server.sstep] in *; rewrite ?G1 in *; cbn [store_open andb] in *.
      + left. destruct (client_request r); [|exact X]. cbn [Server.pass sv_stage sv_notices] in *. destruct (y_up _); [exact X|discriminate].
      + left. cbn [Server.pass sv_stage sv_notices] in *. destruct (y_up _); [exact X|discriminate].
      + left. cbn [with_notices world sv_notices]. apply in_app_iff. left. exact X.
      + left. cbn [with_notices sv_notices]. apply in_app_iff. left. exact X.
      + destruct (sv_notices s) as [|n nl] eqn:En; [destruct X|]. destruct X as [->|X].
        * destruct (Wt (sv_daemon s) F1) as [W Fp]. rewrite W, Fp in *. right. cbn [Server.pass with_notices sv_events sv_daemon] in *.
          rewrite requests_snoc, <- (si_daemon _ Is) in El'. apply app_inv_head in El'. subst l'. apply in_app_iff. right.
          pose proof (si_up _ Is) as U. rewrite G1 in U. unfold jobs_of in U. unfold taken. rewrite <- U. left. reflexivity.
        * left. destruct (wanted _ _ _); cbn [Server.pass with_notices sv_stage sv_notices] in *; [|exact X]. destruct (y_up _); [exact X|discriminate].
      + left. destruct (worker_of e) as [i|]; [|exact X]. destruct (_ && _); [|exact X]. cbn [Server.pass sv_stage sv_notices] in *. destruct (y_up _); [exact X|discriminate].
      + left. exact X.
      + left. exact X.
      + left. exact X.
      + destruct e; cbn [gone sv_stage] in G2; try discriminate; left; exact X.
      + left. exact X.
      + left. exact X.
      + left. exact X.
      + left. exact X. }
  destruct (Iv h' [] (eq_sym (app_nil_r h'))) as (l & El & [X|Hl]); [rewrite Em in X; destruct X|].
  destruct (new_request h _ l _ Br El Hl) as (j & Ej & Hj & Nj). exists j. split; [exact Ej|]. split; [exact Nj|]. apply cared; assumption.
Qed.
End WithEnv.

(** ** Concrete histories *)
From Verif Require Import Demo DemoOk.
Notation run_demo sd := (srun (demo_env true) tr_decode tr_base sd (pool_of 2 4)).
Definition ask (name : string) : sevent := SRequest (ReqCreate name).
(** a stop while worker 0 is at work: Close waits for it *)
Definition h_stop : list sevent :=
  [ask "unstable"; ask "shannon"; SWork (DPoll 0); SSignal; SNext; SLeave 0; SLeave 1; SLeave 2; SNext;
   SWork (DBegin 0 demo_oracle); SWork (DFinish 0); SLeave 0; SNext].
Definition h_shut : list sevent := h_stop ++ [SNext; SNext; SNext; SNext].
Theorem C75_demo :
  let g n := sv_stage (run_demo false (firstn n h_shut)) in
  brief h_shut /\ unkilled h_shut /\ waited (sv_stage (run_demo false h_shut)) /\ panic_free (run_demo false h_shut) /\
  g 9 = Stopping /\ sv_left (run_demo false (firstn 9 h_shut)) 0 = false /\ g 13 = Drained /\ g 17 = Shut /\
  map at_todo (attempts (dm_log (sv_daemon (run_demo false h_shut)))) = [Run (OpCreate "unstable")] /\
  y_retired (jobs_of (run_demo false h_shut)) = [0] /\
  map j_params (stored QSync (jobs_of (run_demo false h_shut))) = [["shannon"]].
Proof.
  cbv zeta. split; [reflexivity|]. split; [unfold unkilled, h_shut, h_stop; repeat constructor|].
  split; [right; right; right; right; vm_compute; reflexivity|].
  split; [intros a Ha; vm_compute in Ha; destruct Ha as [<-|[]]; discriminate|].
  repeat split; vm_compute; reflexivity.
Qed.

(** The full claim "an acknowledged request is queued" fails: during the stop the
    daemon acknowledges a request and drops it. *)
Definition h_dbclosed : list sevent := [SSignal; SNext; SLeave 0; SLeave 1; SLeave 2; SNext; SNext].
Theorem C76_acknowledged_is_queued_refuted :
  exists h r, brief h /\ client_request r = true /\ answers (sv_stage (run_demo false h)) = Success /\
    run_demo false (h ++ [SRequest r]) = run_demo false h /\
    ~ exists j, In (QSync, j) (y_accepted (jobs_of (run_demo false (h ++ [SRequest r])))).
Proof.
  exists h_dbclosed, (ReqCreate "unstable"). split; [reflexivity|]. split; [reflexivity|]. split; [vm_compute; reflexivity|]. split.
  - apply (C76_lost_exact (demo_env true) tr_decode tr_base false 2 4); [reflexivity|vm_compute; reflexivity].
  - intros (j & Hj). vm_compute in Hj. destruct Hj.
Qed.
Theorem C76_demo :
  store_open (sv_stage (run_demo false (firstn 1 h_stop))) = true /\ answers (sv_stage (run_demo false (h_stop ++ [SNext; SNext]))) = Failure /\
  answers (sv_stage (run_demo false (h_shut ++ [SNext]))) = NoServer.
Proof. repeat split; vm_compute; reflexivity. Qed.

(** The full claim "the daemon can be started again after its process ended" fails
    without systemd: killed after accepting a request, it does not come up, and the
    request waits for ever. With systemd, or after a clean stop, it does come up. *)
Theorem C77_starts_again_refuted :
  let h := [ask "unstable"; SKill quietly] in
  (forall h', no_free h' -> sv_stage (run_demo false (h ++ h')) = Down /\ attempts (dm_log (sv_daemon (run_demo false (h ++ h')))) = [] /\
     map j_params (stored QSync (jobs_of (run_demo false (h ++ h')))) = [["unstable"]]) /\
  sv_stage (run_demo false (h ++ [SFree; SStart false])) = Serving /\
  sv_stage (run_demo true (h ++ [SStart false])) = Serving /\
  sv_stage (run_demo false (h_shut ++ [SNext; SStart false])) = Serving /\
  sv_stage (run_demo false (h_shut ++ [SNext; SStart true; SStart false])) = Down.
Proof.
  cbv zeta. split.
  - intros h' Nf. destruct (C77_unclean_stop_blocks_start (demo_env true) tr_decode tr_base false 2 4 eq_refl [ask "unstable"; SKill quietly] h') as (A1 & A2 & A3).
    + vm_compute. reflexivity.
    + vm_compute. reflexivity.
    + exact Nf.
    + split; [exact A1|]. rewrite A2, A3. split; vm_compute; reflexivity.
  - repeat split; vm_compute; reflexivity.
Qed.

(** The full claim "every upload is processed" fails: a manifest written while the
    daemon is down is not looked at after the start; nor is one written while the
    daemon stops. *)
Definition asked_uploads (sd : bool) (h : list sevent) : list request :=
  filter (fun r => negb (client_request r)) (requests (demo_env true) tr_decode tr_base (pool_of 2 4) (sv_events (run_demo sd h))).
Theorem C78_uploads_are_queued_refuted :
  let up := SUpload "up.tram" "one" in
  let served := repeat SReceive 3 in
  asked_uploads false (h_shut ++ [SNext; up; SStart false] ++ served) = [] /\
  asked_uploads false (h_stop ++ [up; SNext; SNext; SNext; SNext; SNext; SStart false] ++ served) = [] /\
  sv_stage (run_demo false (h_shut ++ [SNext; up; SStart false] ++ served)) = Serving /\
  f_name (st_fs (dm_core (sv_daemon (run_demo false (h_shut ++ [SNext; up; SStart false] ++ served))))) (locate tr_base tr_path) <> None /\
  asked_uploads false ([up] ++ served) = [ReqUpload tr_path].
Proof. cbv zeta. repeat split; try (vm_compute; reflexivity). vm_compute. discriminate. Qed.
(** the hypotheses of the positive theorem are met *)
Definition h_rest : list sevent := [SNotice (Notice "/srv/incoming/other.txt" true); SReceive; SReceive].
Theorem C78_demo :
  let h' := h_rest in
  Forall normal tr_base /\ normal "up.tram" /\ has_suffix ".tram" "up.tram" = true /\ sv_stage (run_demo false []) = Serving /\
  (forall h1 h2, h' = h1 ++ h2 -> let s := run_demo false ([] ++ SUpload "up.tram" "one" :: h1) in
     sv_stage s = Serving /\ f_name (st_fs (dm_core (sv_daemon s))) (locate tr_base tr_path) <> None) /\
  sv_notices (run_demo false ([] ++ SUpload "up.tram" "one" :: h')) = [] /\
  asked_uploads false (SUpload "up.tram" "one" :: h') = [ReqUpload tr_path].
Proof.
  cbv zeta. split; [repeat constructor; discriminate|]. split; [repeat split; discriminate|]. split; [reflexivity|]. split; [reflexivity|]. split.
  - intros h1 h2 Eh.
    assert (X : h1 = firstn 0 h_rest \/ h1 = firstn 1 h_rest \/ h1 = firstn 2 h_rest \/ h1 = firstn 3 h_rest).
    { destruct h1 as [|a h1]; [auto|]. injection Eh as <- Eh. destruct h1 as [|a h1]; [auto|]. injection Eh as <- Eh. destruct h1 as [|a h1]; [auto|]. injection Eh as <- Eh.
      destruct h1; [auto|discriminate]. }
    destruct X as [->|[->|[->| ->]]]; (split; [vm_compute; reflexivity|vm_compute; discriminate]).
  - split; vm_compute; reflexivity.
Qed.

Print Assumptions C75_stop_waits_for_jobs.
Print Assumptions C75_clean_stops_repeat_nothing.
Print Assumptions C75_demo.
Print Assumptions C76_acknowledged_is_queued_partial.
Print Assumptions C76_lost_exact.
Print Assumptions C76_refused_without_effect.
Print Assumptions C76_acknowledged_is_queued_refuted.
Print Assumptions C77_start_exact.
Print Assumptions C77_clean_stop_then_start.
Print Assumptions C77_unclean_stop_blocks_start.
Print Assumptions C77_failed_start_blocks_start.
Print Assumptions C77_starts_again_refuted.
Print Assumptions C78_only_manifests_in_incoming.
Print Assumptions C78_missed_uploads.
Print Assumptions C78_uploads_are_queued_partial.
Print Assumptions C78_uploads_are_queued_refuted.
Print Assumptions C78_demo.
