(** * PropsRestart: C79, stopping and starting the daemon leaves no trace *)
From Verif Require Import Model Spec Demo DemoOk DbInv DbOps Wp Sim PropsOps.
From Verif Require Import Paths Reading Transit PropsTransit.
From Verif Require Import Base LibDb Jobs JobSpec Dispatch PropsDispatch Daemon DaemonSpec DaemonFacts PropsDaemon.
Open Scope string_scope. Open Scope list_scope.

(** ** Specification *)
(** the same database and the same files *)
Definition looks_same (s s' : state) : Prop := st_db s = st_db s' /\ st_fs s = st_fs s'.
(** every request ends the same way, with the same effect, and does the same writes *)
Definition behaves_same (E : env) (s s' : state) : Prop :=
  forall o p, outcome E o p s = outcome E o p s' /\ looks_same (after E o p s) (after E o p s') /\
    Forall2 looks_same (crash_points E o p s) (crash_points E o p s').
(** what happened, apart from stops between requests *)
Definition without_restarts (h : list Model.event) : list Model.event :=
  filter (fun e => match e with EvRestart => false | _ => true end) h.
Definition without_downtime (l : list lentry) : list lentry :=
  filter (fun e => match e with LDown => false | _ => true end) l.

Lemma R_join s1 s2 s3 : R nobody false s1 s2 -> R nobody false s3 s2 -> R nobody false s1 s3.
Proof.
  intros ((a & b) & c & d & e & _) ((a' & b') & c' & _ & e' & _). split; [split; congruence|]. split; [congruence|]. split; [exact d|]. split; assumption.
Qed.
Lemma R_init : R nobody false init init.
Proof. split; [split; reflexivity|]. split; [reflexivity|]. split; [apply bok_nil|]. split; intros id X; discriminate. Qed.
Lemma run_strip E h : R nobody false (run_history E h) (run_history E (without_restarts h)).
Proof.
  unfold run_history. cut (forall s1 s2, R nobody false s1 s2 -> R nobody false (fold_left (ev_step E) h s1) (fold_left (ev_step E) (without_restarts h) s2)).
  { intros H. apply H, R_init. }
  induction h as [|e h IH]; intros s1 s2 H; cbn; [exact H|].
  destruct e; cbn [fold_left]; apply IH; try (apply R_event; exact H). apply R_restart_one, H.
Qed.
Lemma R_behaves E s s' : R nobody false s s' -> looks_same s s' /\ behaves_same E s s'.
Proof.
  intros H. split; [apply H|]. intros o p. destruct (y_run E o p s s' H) as (a & b & c). split; [exact c|]. split; [apply b|exact a].
Qed.

(** C79. Histories that differ only in when the daemon was restarted between
    requests - with crashes, panics and arbitrary outside events - end with the
    same database and files, and every further request behaves the same. *)
Theorem C79_restarts_leave_no_trace :
  forall E h h', without_restarts h = without_restarts h' ->
    looks_same (run_history E h) (run_history E h') /\ behaves_same E (run_history E h) (run_history E h').
Proof.
  intros E h h' Eq. apply R_behaves. apply (R_join _ (run_history E (without_restarts h))); [apply run_strip|]. rewrite Eq. apply run_strip.
Qed.
Print Assumptions C79_restarts_leave_no_trace.

Section Log.
Variable E : env.
Variable T : string -> option tram.
Variable B : list string.
Lemma y_transit o path : sim nobody false (transit_job E T B o path).
Proof.
  unfold transit_job, load_manifest, validate_payload, api_add_packages, remove_if_there.
  repeat match goal with
  | |- sim _ _ (bind (get_repo _) _) => apply sim_bind; [apply y_get_repo|intro]
  | |- sim _ _ (bind (api_index _ _ _) _) => apply sim_bind; [apply y_api_index|intro]
  | |- sim _ _ (api_index _ _ _) => apply y_api_index
  | |- sim _ _ (add_package _ _ _ _) => apply y_add_package
  | |- sim _ _ (remove_file _) => apply sim_fs; dsafe
  | |- sim _ _ (bind _ _) => apply sim_bind; [|intro]
  | |- sim _ _ (ret _) => apply sim_ret
  | |- sim _ _ err => apply sim_err
  | |- sim _ _ (gets _) => apply sim_gets; same
  | |- sim _ _ (forM _ _) => apply sim_forM; intro
  | |- sim _ _ (let t := _ in _) => cbv zeta
  | |- sim _ _ (match ?d with _ => _ end) => destruct d
  end.
Qed.
Lemma R_effect e s1 s2 : R nobody false s1 s2 -> R nobody false (effect E T B s1 e) (effect E T B s2 e).
Proof.
  intros H. destruct e as [n o [p|r|path] [ok|k|]|r| |ev]; cbn [effect]; unfold after, crash_points; try exact H.
  - apply (y_run E o p s1 s2 H).
  - destruct (y_run E o p s1 s2 H) as (a & b & _). apply R_restart, nth_same; [constructor; [apply H|exact a]|apply b].
  - apply R_restart, (y_run E o p s1 s2 H).
  - destruct (y_get_repo r s1 s2 H) as (a & b & _). apply R_restart, nth_same; [constructor; [apply H|exact a]|apply b].
  - apply R_restart, H.
  - apply (y_transit o path s1 s2 H).
  - destruct (y_transit o path s1 s2 H) as (a & b & _). apply R_restart, nth_same; [constructor; [apply H|exact a]|apply b].
  - apply R_restart, (y_transit o path s1 s2 H).
  - apply (y_get_repo r s1 s2 H).
  - apply R_restart, H.
  - apply R_event, H.
Qed.
Lemma replay_strip l : R nobody false (replay E T B l) (replay E T B (without_downtime l)).
Proof.
  unfold replay. cut (forall s1 s2, R nobody false s1 s2 -> R nobody false (fold_left (effect E T B) l s1) (fold_left (effect E T B) (without_downtime l) s2)).
  { intros H. apply H, R_init. }
  induction l as [|e l IH]; intros s1 s2 H; cbn; [exact H|].
  destruct e; cbn [fold_left]; apply IH; try (apply R_effect; exact H). apply R_restart_one, H.
Qed.
End Log.

(** C79 for the whole daemon: after any history of requests, stops, kills and
    starts, the repositories are what the attempts in the log, executed one after
    the other without any stop in between, make of them. *)
Theorem C79_daemon_as_if_never_stopped :
  forall E T B kinds h,
    let d := drun E T B kinds h in
    looks_same (dm_core d) (replay E T B (without_downtime (dm_log d))) /\
    behaves_same E (dm_core d) (replay E T B (without_downtime (dm_log d))).
Proof.
  intros E T B kinds h d. apply R_behaves. unfold d. rewrite core_run. apply replay_strip.
Qed.
Print Assumptions C79_daemon_as_if_never_stopped.

(** a concrete case: a restart between requests; the cache differs, nothing else *)
Theorem C79_demo :
  let h := h_retry ++ [EvRestart] in
  without_restarts h = without_restarts h_retry /\
  st_cache (run_history (demo_env true) h) "stable" <> st_cache (run_history (demo_env true) h_retry) "stable" /\
  succeeds (demo_env true) demo_oracle (OpPull "unstable" "stable") (run_history (demo_env true) h).
Proof. split; [reflexivity|]. split; [vm_compute; discriminate|]. eexists. vm_compute. reflexivity. Qed.
