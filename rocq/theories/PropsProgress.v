(** * C71: accepted requests are executed in the end *)
From Verif Require Import Model Spec Demo DemoOk PropsOps.
From Verif Require Import Paths Reading Transit PropsTransit.
From Verif Require Import Base LibDb Jobs JobSpec JobFacts JobFacts2 PropsJobs Dispatch PropsDispatch Daemon DaemonSpec DaemonFacts PropsDaemon.
From Verif Require Import Model Spec.
Open Scope string_scope. Open Scope list_scope.
Ltac here := vm_compute; reflexivity.

(** a package file on which reading or placing panics (C45): a missing text, or no
    source name *)
Definition unreadable (E : env) (c : string) : Prop := E_parse E c = Panic \/ exists m, E_parse E c = Ok m /\ m_src m = "".

(** ** What grows along a run of the job store *)
Lemma step_grows y e : (exists x, y_accepted (Jobs.step y e) = y_accepted y ++ x) /\ (exists x, y_retired (Jobs.step y e) = y_retired y ++ x).
Proof.
  assert (A : forall a n, exists x, accepted_after y a n = y_accepted y ++ x).
  { intros a n. destruct a; cbn [accepted_after]; try (exists []; symmetry; apply app_nil_r). destruct (_ && _); [eexists; reflexivity|exists []; symmetry; apply app_nil_r]. }
  assert (R : forall a n, exists x, retired_after y a n = y_retired y ++ x).
  { intros a n. destruct a; cbn [retired_after]; try (exists []; symmetry; apply app_nil_r). destruct (nth_error (y_workers y) i) as [[q [[k j]|]]|]; try (exists []; symmetry; apply app_nil_r).
    destruct (_ && _); [eexists; reflexivity|exists []; symmetry; apply app_nil_r]. }
  destruct e as [a|a n| |n]; cbn [Jobs.step]; destruct (y_up y); cbn [y_accepted y_retired]; split; auto; exists []; symmetry; apply app_nil_r.
Qed.

Section Run.
Variable E : env.
Variable T : string -> option tram.
Variable B : list string.
Variables njobs ncpu : Z.
Notation kinds := (pool_of njobs ncpu).
Notation dstep := (Daemon.dstep E T B).
Notation DI := (DI njobs ncpu).

Lemma begin_sys d i o j : dm_sys (begin_job E T B d i o j) = dm_sys d \/ exists e, dm_sys (begin_job E T B d i o j) = Jobs.step (dm_sys d) e.
Proof.
  unfold begin_job. destruct (new_job_handler _ _); [|left; reflexivity|left; reflexivity]. cbv zeta.
  destruct (result_of _); [destruct (execute _); left; reflexivity|left; reflexivity|right; exists stop; reflexivity].
Qed.
Lemma dstep_sys d e : dm_sys (dstep d e) = dm_sys d \/ exists x, dm_sys (dstep d e) = Jobs.step (dm_sys d) x.
Proof.
  destruct e as [r|i|i o|i|i|b|e n|i o n| |n|ev]; cbn [Daemon.dstep]; try (destruct (negb (y_up (dm_sys d))); [left; reflexivity|]).
  - destruct (act_of d (DRequest r)) as [a|]; [right; exists (Do a); reflexivity|left; reflexivity].
  - right. eexists. reflexivity.
  - destruct (held_job d i); [|left; reflexivity]. destruct (dm_phase d i); try (left; reflexivity). apply begin_sys.
  - destruct (act_of d (DQueue i)) as [a|]; [right; exists (Do a); reflexivity|]. left. destruct (held_job d i) as [j|]; [|reflexivity].
    destruct (dm_phase d i) as [|[|x l] desc|]; try reflexivity. destruct (new_job_handler _ _) as [h| |]; try reflexivity. destruct (execute h); reflexivity.
  - destruct (act_of d (DFinish i)) as [a|]; [right; exists (Do a); reflexivity|left; reflexivity].
  - right. eexists. reflexivity.
  - right. eexists. reflexivity.
  - right. exists stop. destruct (held_job d i) as [j|]; [|reflexivity]. destruct (dm_phase d i); try reflexivity. destruct (new_job_handler _ _); reflexivity.
  - right. eexists. reflexivity.
  - right. eexists. reflexivity.
  - left. destruct (outside_event ev); reflexivity.
Qed.
Lemma dstep_grows d e : (exists x, y_accepted (dm_sys (dstep d e)) = y_accepted (dm_sys d) ++ x) /\ (exists x, y_retired (dm_sys (dstep d e)) = y_retired (dm_sys d) ++ x).
Proof.
  destruct (dstep_sys d e) as [->|(x & ->)]; [split; exists []; symmetry; apply app_nil_r|]. apply step_grows.
Qed.
Lemma drun_snoc h e : drun E T B kinds (h ++ [e]) = dstep (drun E T B kinds h) e.
Proof. unfold drun. rewrite fold_left_app. reflexivity. Qed.
Lemma short_snoc h e : short (h ++ [e]) -> short h.
Proof. unfold short. rewrite app_length. cbn [List.length]. lia. Qed.
Lemma jobs_len h : List.length (dm_jobs (drun E T B kinds h)) <= List.length h.
Proof.
  induction h as [|e h IH] using rev_ind; [cbn; lia|]. rewrite drun_snoc, app_length. cbn [List.length].
  pose proof (jobs_grow E T B (drun E T B kinds h) e). lia.
Qed.
Lemma retired_mono h h' n : In n (y_retired (dm_sys (drun E T B kinds h))) -> In n (y_retired (dm_sys (drun E T B kinds (h ++ h')))).
Proof.
  intros H. induction h' as [|e h' IH] using rev_ind; [rewrite app_nil_r; exact H|].
  rewrite app_assoc, drun_snoc. destruct (dstep_grows (drun E T B kinds (h ++ h')) e) as (_ & x & ->). apply in_app_iff. left. exact IH.
Qed.
Lemma accepted_mono h h' x : In x (y_accepted (dm_sys (drun E T B kinds h))) -> In x (y_accepted (dm_sys (drun E T B kinds (h ++ h')))).
Proof.
  intros H. induction h' as [|e h' IH] using rev_ind; [rewrite app_nil_r; exact H|].
  rewrite app_assoc, drun_snoc. destruct (dstep_grows (drun E T B kinds (h ++ h')) e) as ((y & ->) & _). apply in_app_iff. left. exact IH.
Qed.
(** a job accepted later has a greater number *)
Lemma accepted_earlier rs d e rs' q j j' : DI rs d -> DI rs' (dstep d e) ->
  In (q, j) (y_accepted (dm_sys d)) -> In (QSync, j') (y_accepted (dm_sys (dstep d e))) -> j_no j' <= j_no j -> In (QSync, j') (y_accepted (dm_sys d)).
Proof.
  intros I I' Hj Hj' L. pose proof (accepted_number kinds (dm_jobs d) (di_bound _ _ _ _ I) q j) as N. rewrite <- (di_run _ _ _ _ I) in N. specialize (N Hj).
  destruct (dstep_grows d e) as ((x & Ex) & _). rewrite Ex in Hj'. apply in_app_iff in Hj' as [X|X]; [exact X|exfalso].
  pose proof (iv_nos _ _ _ _ _ _ (run_inv kinds (dm_jobs (dstep d e)) (di_bound _ _ _ _ I'))) as Ns. rewrite <- (di_run _ _ _ _ I') in Ns. rewrite Ex in Ns.
  rewrite map_app, app_length, seq_app in Ns.
  assert (Y : map (fun z => j_no (snd z)) x = seq (List.length (y_accepted (dm_sys d))) (List.length x)).
  { apply (f_equal (skipn (List.length (y_accepted (dm_sys d))))) in Ns. rewrite skipn_app, skipn_all2 in Ns by (rewrite map_length; lia). rewrite map_length, Nat.sub_diag in Ns. cbn [skipn app] in Ns.
    rewrite skipn_app, skipn_all2 in Ns by (rewrite seq_length; lia). rewrite seq_length, Nat.sub_diag in Ns. exact Ns. }
  apply (in_map (fun z => j_no (snd z))) in X. rewrite Y in X. apply in_seq in X. cbn [snd] in X. lia.
Qed.

(** ** A request that panics *)
Section Poison.
Variables (r p : string) (ps : list string) (c : string) (j : Jobs.job) (D : db).
Hypothesis Hj : (QSync, j_type j, j_params j) = job_of (ReqImport r (p :: ps)).
Hypothesis Bad : unreadable E c.
Definition K (s : state) : Prop := st_db s = D /\ mhas (d_repos D) r = true /\ file_content (st_fs s) (loc_of_path p) = Some c.
Lemma K_restart s : K s -> K (restart s).
Proof. intros (A & F & G). split; [exact A|split; [exact F|exact G]]. Qed.
Lemma poison_perform o s : K s ->
  let x := perform E T B o (Run (OpAdd r (map loc_of_path (p :: ps)) false)) s in
  result_of x = Panic /\ K (final_of x) /\ Forall K (trace_of x).
Proof.
  intros (Hd & Hr & Hf). cbn [perform run_op map]. unfold api_add_packages. cbn [forM].
  assert (O : forall s', K s' -> add_package E r (loc_of_path p) false s' = ([], s', Panic)).
  { intros s' (_ & _ & Hf'). unfold add_package, open_pkg, bind, gets, lift. rewrite Hf'. destruct Bad as [X|(m & X & Y)]; rewrite X; [reflexivity|].
    cbn [negb]. unfold add_local_package, bind, lift. rewrite Y. reflexivity. }
  assert (G : exists t s1, get_repo r s = (t, s1, Ok tt) /\ K s1 /\ Forall K t).
  { unfold get_repo, bake_repo, bind, gets, ret, vol, durable. destruct (st_cache s r).
    - exists [], s. split; [reflexivity|]. split; [split; [exact Hd|split; assumption]|constructor].
    - rewrite Hd, Hr. destruct (f_dir (st_fs s) r).
      + eexists _, _. split; [reflexivity|]. split; [split; [exact Hd|split; [exact Hr|exact Hf]]|constructor].
      + eexists _, _. split; [reflexivity|]. split; [split; [exact Hd|split; [exact Hr|exact Hf]]|]. repeat constructor; [exact Hd|exact Hr|exact Hf]. }
  destruct G as (t & s1 & G & K1 & F1). unfold bind. rewrite G. rewrite (O s1 K1). cbn [result_of final_of trace_of fst snd]. rewrite ?app_nil_r. auto.
Qed.
Lemma poison_cut o s n : K s -> K (cut E T B o (Run (OpAdd r (map loc_of_path (p :: ps)) false)) n s).
Proof.
  intros Hs. destruct (poison_perform o s Hs) as (_ & F & Tr). unfold cut.
  set (x := perform E T B o (Run (OpAdd r (map loc_of_path (p :: ps)) false)) s) in *.
  destruct (nth_in_or_default n (s :: trace_of x) (final_of x)) as [H|H]; [|rewrite H; exact F].
  destruct H as [<-|H]; [exact Hs|]. rewrite Forall_forall in Tr. apply Tr, H.
Qed.
Lemma the_handler : handler_of j = Ok (HBulkAdd r (p :: ps)).
Proof. unfold handler_of. cbn [job_of] in Hj. injection Hj as E1 E2. rewrite E1, E2. reflexivity. Qed.

Record PI rs d : Prop := {
  pi_di : DI rs d;
  pi_acc : In (QSync, j) (y_accepted (dm_sys d));
  pi_before : forall j', In (QSync, j') (y_accepted (dm_sys d)) -> j_no j' < j_no j -> In (j_no j') (y_retired (dm_sys d));
  pi_none : forall a, In a (attempts (dm_log d)) -> at_job a = j_no j -> ~ completed a;
  pi_core : K (dm_core d)
}.
Lemma not_retired_yet rs d : DI rs d -> In (QSync, j) (y_accepted (dm_sys d)) -> (forall a, In a (attempts (dm_log d)) -> at_job a = j_no j -> ~ completed a) ->
  ~ In (j_no j) (y_retired (dm_sys d)).
Proof.
  intros I A N X. destruct (di_done _ _ _ _ I j _ A the_handler X) as (pre & a & post & Ea & Ej & C & _).
  apply (N a); [rewrite Ea; apply in_app_iff; right; left; reflexivity|exact Ej|exact C].
Qed.
(** whatever dispatchable job is being held is this one *)
Lemma the_job rs d i jj hj : PI rs d -> holds (dm_sys d) i = Some jj -> handler_of jj = Ok hj ->
  j_no jj = j_no j /\ execute hj = Run (OpAdd r (map loc_of_path (p :: ps)) false).
Proof.
  intros I H Hh. destruct (held_sync _ _ _ _ _ _ _ (pi_di _ _ I) H Hh) as (_ & a & Ha & Ea & Hha & Nr & Bef).
  pose proof (not_retired_yet rs d (pi_di _ _ I) (pi_acc _ _ I) (pi_none _ _ I)) as N.
  assert (Ej : j_no a = j_no j).
  { destruct (lt_eq_lt_dec (j_no a) (j_no j)) as [[L|L]|L]; [exfalso; apply Nr; rewrite <- Ea; exact (pi_before _ _ I a Ha L)|exact L|exfalso; apply N; apply (Bef j (pi_acc _ _ I)); lia]. }
  split; [congruence|].
  pose proof (accepted_unique kinds (dm_jobs d) (di_bound _ _ _ _ (pi_di _ _ I)) QSync a QSync j) as U. rewrite <- (di_run _ _ _ _ (pi_di _ _ I)) in U.
  destruct (U Ha (pi_acc _ _ I) Ej) as [_ ->]. rewrite the_handler in Hha. injection Hha as <-. reflexivity.
Qed.
Definition no_world (e : devent) : Prop := match e with DWorld _ => False | _ => True end.
(** a step from there makes attempts at this job only, none of which completes *)
Lemma poison_log rs d e : PI rs d -> no_world e ->
  K (dm_core (dstep d e)) /\ exists new, attempts (dm_log (dstep d e)) = attempts (dm_log d) ++ new /\ Forall (fun a => at_job a = j_no j /\ ~ completed a) new.
Proof.
  intros I W. pose proof (pi_core _ _ I) as Kd.
  assert (Z : forall x, x = d \/ (dm_core x = dm_core d /\ dm_log x = dm_log d) -> K (dm_core x) /\ exists new, attempts (dm_log x) = attempts (dm_log d) ++ new /\ Forall (fun a => at_job a = j_no j /\ ~ completed a) new).
  { intros x [->|[E1 E2]]; [|rewrite E1, E2]; (split; [exact Kd|]); exists []; rewrite app_nil_r; auto. }
  assert (Dn : forall y, K (restart (dm_core d)) /\ exists new, attempts (dm_log (down d y (dm_core d) [LDown])) = attempts (dm_log d) ++ new /\ Forall (fun a => at_job a = j_no j /\ ~ completed a) new).
  { intros y. split; [exact (K_restart _ Kd)|]. exists []. unfold down. cbn [dm_log]. rewrite attempts_app. cbn [attempts flat_map]. split; [reflexivity|constructor]. }
  destruct e as [rq|i|i o|i|i|b|e n|i o n| |n|ev]; cbn [Daemon.dstep]; try (destruct (negb (y_up (dm_sys d))); [apply Z; left; reflexivity|]).
  - destruct (act_of d (DRequest rq)); apply Z; [right; split; reflexivity|left; reflexivity].
  - apply Z. right. split; reflexivity.
  - rewrite held_is_holds. destruct (holds (dm_sys d) i) as [jj|] eqn:H; [|apply Z; left; reflexivity]. destruct (dm_phase d i); try (apply Z; left; reflexivity).
    unfold begin_job. fold (handler_of jj). destruct (handler_of jj) as [hj| |] eqn:Hh; [|apply Z; right; split; reflexivity|apply Z; right; split; reflexivity].
    destruct (the_job _ _ _ _ _ I H Hh) as [En Et]. cbv zeta. rewrite Et. destruct (poison_perform o _ Kd) as (Rp & Kf & _). rewrite Rp. cbn [dm_core dm_log].
    split; [exact (K_restart _ Kf)|]. rewrite attempts_app. eexists. split; [reflexivity|]. constructor; [|constructor]. cbn. split; [exact En|]. intros [ok X]. discriminate.
  - destruct (act_of d (DQueue i)); [apply Z; right; split; reflexivity|]. rewrite held_is_holds. destruct (holds (dm_sys d) i) as [jj|] eqn:H; [|apply Z; left; reflexivity].
    destruct (dm_phase d i) as [|[|x l] desc|]; try (apply Z; left; reflexivity). fold (handler_of jj). destruct (handler_of jj) as [hj| |] eqn:Hh; try (apply Z; left; reflexivity).
    destruct (the_job _ _ _ _ _ I H Hh) as [_ Et]. rewrite Et. apply Z. left. reflexivity.
  - destruct (act_of d (DFinish i)); apply Z; [right; split; reflexivity|left; reflexivity].
  - apply Z. right. split; reflexivity.
  - apply Dn.
  - rewrite held_is_holds. destruct (holds (dm_sys d) i) as [jj|] eqn:H; [|apply Dn]. destruct (dm_phase d i); try apply Dn.
    fold (handler_of jj). destruct (handler_of jj) as [hj| |] eqn:Hh; try apply Dn. destruct (the_job _ _ _ _ _ I H Hh) as [En Et]. rewrite Et. unfold down. cbn [dm_core dm_log].
    split; [apply K_restart, poison_cut, Kd|]. rewrite attempts_app. eexists. split; [reflexivity|]. constructor; [|constructor]. cbn. split; [exact En|]. intros [ok X]. discriminate.
  - apply Z. right. split; reflexivity.
  - apply Z. right. split; reflexivity.
  - destruct W.
Qed.
Lemma poison_step rs d e : PI rs d -> bounded (dm_jobs d ++ [stop]) -> no_world e -> PI (rs ++ taken d e) (dstep d e).
Proof.
  intros I Bd W. destruct (poison_log rs d e I W) as (Kd & new & En & F). pose proof (DI_step E T B njobs ncpu rs d e (pi_di _ _ I) Bd) as I'.
  destruct (dstep_grows d e) as ((x & Ex) & (z & Ez)). constructor; [exact I'| | | |exact Kd].
  - rewrite Ex. apply in_app_iff. left. exact (pi_acc _ _ I).
  - intros j' H' L. rewrite Ez. apply in_app_iff. left. apply (pi_before _ _ I); [|exact L].
    apply (accepted_earlier rs d e _ QSync j j' (pi_di _ _ I) I' (pi_acc _ _ I) H'). lia.
  - intros a Ha Ea. rewrite En in Ha. apply in_app_iff in Ha as [Ha|Ha]; [exact (pi_none _ _ I a Ha Ea)|]. rewrite Forall_forall in F. apply F, Ha.
Qed.
End Poison.
End Run.

(** the first job of the queue is the oldest one that was not retired *)
Lemma head_is_oldest kinds h j rest : bounded h -> let y := Jobs.run kinds h in stored QSync y = j :: rest ->
  exists a, In (QSync, a) (y_accepted y) /\ ident a = ident j /\ ~ In (j_no a) (y_retired y) /\
    forall j', In (QSync, j') (y_accepted y) -> j_no j' < j_no a -> In (j_no j') (y_retired y).
Proof.
  intros Bd y Hs. destruct (C30_no_job_is_lost kinds h QSync Bd) as [Eq _]. fold y in Eq. rewrite Hs in Eq.
  pose proof (run_inv kinds h Bd) as I. pose proof (pending_sorted QSync _ (y_retired y) 0 (iv_nos _ _ _ _ _ _ I)) as S. fold y in S.
  destruct (pending_in QSync (y_accepted y) (y_retired y)) as [|a l] eqn:Ep; [discriminate|]. cbn [map] in Eq. assert (Ea : ident a = ident j) by (apply (f_equal (hd (ident a))) in Eq; symmetry; exact Eq).
  assert (Ha : In a (pending_in QSync (y_accepted y) (y_retired y))) by (rewrite Ep; left; reflexivity).
  assert (NR : forall z, In z (accepted_in QSync (y_accepted y)) -> (In z (pending_in QSync (y_accepted y) (y_retired y)) <-> ~ In (j_no z) (y_retired y))).
  { intros z Hz. unfold pending_in. rewrite filter_In. unfold not_retired. rewrite negb_true_iff. split.
    - intros [_ X] Y. enough (existsb (Nat.eqb (j_no z)) (y_retired y) = true) by congruence. apply existsb_exists. exists (j_no z). split; [exact Y|apply Nat.eqb_refl].
    - intros N. split; [exact Hz|]. destruct (existsb (Nat.eqb (j_no z)) (y_retired y)) eqn:X; [|reflexivity]. apply existsb_exists in X as (m & Hm & Em). apply Nat.eqb_eq in Em. subst m. contradiction. }
  assert (Ha' : In a (accepted_in QSync (y_accepted y))) by (unfold pending_in in Ha; apply filter_In in Ha; apply Ha).
  exists a. split; [apply in_accepted; exact Ha'|]. split; [exact Ea|]. split; [apply NR; assumption|].
  intros j' Hj' L. destruct (in_dec Nat.eq_dec (j_no j') (y_retired y)) as [X|X]; [exact X|exfalso].
  apply in_accepted in Hj'. apply (NR j' Hj') in X. rewrite Ep in X. destruct X as [<-|X]; [lia|].
  cbn [map] in S. apply StronglySorted_inv in S as [_ F]. rewrite Forall_forall in F. specialize (F _ (in_map j_no _ _ X)). lia.
Qed.

(** ** C71 *)
(** If the first waiting request is an import whose first file makes the reader
    panic, then however often the daemon is restarted and whatever else is asked, as
    long as nobody touches the files: the database never changes again, the only
    attempts made are attempts at this request, none of them completes, and the
    request stays in the queue. *)
Theorem C71_panicking_request_blocks_all :
  forall E T B njobs ncpu h h' r p ps c j rest, short (h ++ h') -> Forall no_world h' ->
    let d := drun E T B (pool_of njobs ncpu) h in
    let d' := drun E T B (pool_of njobs ncpu) (h ++ h') in
    stored QSync (dm_sys d) = j :: rest -> (QSync, j_type j, j_params j) = job_of (ReqImport r (p :: ps)) ->
    (forall a, In a (attempts (dm_log d)) -> at_job a <> j_no j) ->
    repo_exists (dm_core d) r = true -> file_content (st_fs (dm_core d)) (loc_of_path p) = Some c -> unreadable E c ->
    st_db (dm_core d') = st_db (dm_core d) /\
    (exists new, attempts (dm_log d') = attempts (dm_log d) ++ new /\ Forall (fun a => at_job a = j_no j /\ ~ completed a) new) /\
    ~ In (j_no j) (y_retired (dm_sys d')).
Proof.
  intros E T B njobs ncpu h h' r p ps c j rest Sh W d d' Hs Hj Na Hr Hf Bad.
  assert (Sh0 : short h) by (clear -Sh; unfold short in *; rewrite app_length in Sh; lia).
  pose proof (DI_run E T B njobs ncpu h Sh0) as I. fold d in I.
  pose proof (head_is_oldest (pool_of njobs ncpu) (dm_jobs d) j rest (di_bound _ _ _ _ I)) as HO. rewrite <- (di_run _ _ _ _ I) in HO.
  destruct (HO Hs) as (a & Ha & Ea & _ & Bef). clear HO. assert (En : j_no a = j_no j) by (apply ident_no; exact Ea).
  assert (Hja : (QSync, j_type a, j_params a) = job_of (ReqImport r (p :: ps))) by (rewrite <- Hj; unfold ident in Ea; congruence).
  assert (I0 : PI njobs ncpu r p c a (st_db (dm_core d)) (requests E T B (pool_of njobs ncpu) h) d).
  { constructor; auto. intros x Hx Ex. destruct (Na x Hx). congruence. split; [reflexivity|split; [exact Hr|exact Hf]]. }
  assert (G : PI njobs ncpu r p c a (st_db (dm_core d)) (requests E T B (pool_of njobs ncpu) (h ++ h')) d' /\
     exists new, attempts (dm_log d') = attempts (dm_log d) ++ new /\ Forall (fun x => at_job x = j_no j /\ ~ completed x) new).
  { unfold d'. clear d'. revert Sh W. induction h' as [|e h' IH] using rev_ind; intros Sh W.
    - rewrite app_nil_r. split; [exact I0|]. exists []. rewrite app_nil_r. split; [reflexivity|constructor].
    - apply Forall_app in W as [W We]. inversion We as [|? ? We' _]; subst. rewrite app_assoc in *.
      pose proof (short_snoc _ _ Sh) as Sh1. destruct (IH Sh1 W) as (P & new & En' & Fn).
      rewrite drun_snoc. set (d1 := drun E T B (pool_of njobs ncpu) (h ++ h')) in *.
      pose proof (DI_run E T B njobs ncpu ((h ++ h') ++ [e]) Sh) as I1. 
      destruct (poison_log E T B njobs ncpu r p ps c a _ Hja Bad _ _ e P We') as (_ & new' & En2 & Fn2). split.
      + assert (Q : PI njobs ncpu r p c a (st_db (dm_core d)) (requests E T B (pool_of njobs ncpu) (h ++ h') ++ taken d1 e) (Daemon.dstep E T B d1 e)).
        { eapply poison_step; eauto. pose proof (jobs_len E T B njobs ncpu (h ++ h')) as JL. unfold bounded. rewrite app_length. cbn [List.length]. unfold short in Sh. rewrite app_length in Sh. cbn [List.length] in Sh. fold d1 in JL. lia. }
        constructor; [rewrite drun_snoc in I1; exact I1|exact (pi_acc _ _ _ _ _ _ _ _ _ Q)|exact (pi_before _ _ _ _ _ _ _ _ _ Q)|exact (pi_none _ _ _ _ _ _ _ _ _ Q)|exact (pi_core _ _ _ _ _ _ _ _ _ Q)].
      + exists (new ++ new'). rewrite En2, En', app_assoc. split; [reflexivity|]. apply Forall_app. split; [exact Fn|]. rewrite <- En. exact Fn2. }
  destruct G as (P & G). split; [|split; [exact G|]].
  - apply (pi_core _ _ _ _ _ _ _ _ _ P).
  - rewrite <- En. eapply not_retired_yet; [exact Hja|apply (pi_di _ _ _ _ _ _ _ _ _ P)|apply (pi_acc _ _ _ _ _ _ _ _ _ P)|apply (pi_none _ _ _ _ _ _ _ _ _ P)].
Qed.
Print Assumptions C71_panicking_request_blocks_all.

(** C71 is false: one file without a source name, and a repository that was asked for
    afterwards is never created, whatever the administrator does short of removing the
    file by hand. *)
Definition h_poison : list devent :=
  [ DWorld (EvPut (ext "nosrc.eopkg") "nosrc"); DRequest (ReqCreate "unstable") ] ++ job ++
  [ DRequest (ReqImport "unstable" ["/up/nosrc.eopkg"]); DRequest (ReqCreate "stable") ].
Theorem C71_one_bad_file_stops_everything_refuted :
  exists E T B h, good_env E /\ short h /\
    requests E T B (pool_of 2 4) h = [ReqCreate "unstable"; ReqImport "unstable" ["/up/nosrc.eopkg"]; ReqCreate "stable"] /\
    forall h', short (h ++ h') -> Forall no_world h' ->
      let d := drun E T B (pool_of 2 4) (h ++ h') in
      repo_exists (dm_core d) "stable" = false /\
      forall a, In a (attempts (dm_log d)) -> at_todo a <> meaning (ReqCreate "stable").
Proof.
  exists (demo_env true), dm_decode, tr_base, h_poison. split; [apply demo_env_good|]. split; [here|]. split; [here|].
  intros h' Sh W. set (hp := h_poison) in *. set (d0 := drun (demo_env true) dm_decode tr_base (pool_of 2 4) hp).
  set (d := drun (demo_env true) dm_decode tr_base (pool_of 2 4) (hp ++ h')). cbv zeta.
  assert (X : exists j rest, stored QSync (dm_sys d0) = j :: rest /\
     (QSync, j_type j, j_params j) = job_of (ReqImport "unstable" ["/up/nosrc.eopkg"]) /\ j_no j = 1).
  { exists (Job 1 "BulkAdd" ["unstable"; "/up/nosrc.eopkg"] false), [Job 2 "CreateRepo" ["stable"] false]. split; [here|]. split; reflexivity. }
  destruct X as (j & rest & Hs & Hj & En).
  assert (A0 : map (fun a => (at_job a, at_todo a)) (attempts (dm_log d0)) = [(0, Run (OpCreate "unstable"))]) by here.
  assert (R0 : repo_exists (dm_core d0) "stable" = false) by here.
  assert (R1 : repo_exists (dm_core d0) "unstable" = true) by here.
  assert (F0 : file_content (st_fs (dm_core d0)) (loc_of_path "/up/nosrc.eopkg") = Some "nosrc") by here.
  assert (Y0 : In (QSync, Job 1 "BulkAdd" ["unstable"; "/up/nosrc.eopkg"] false) (y_accepted (dm_sys d0))) by (vm_compute; right; left; reflexivity).
  pose proof (accepted_mono (demo_env true) dm_decode tr_base 2 4 hp h' _ Y0) as Hacc. fold d in Hacc.
  pose proof (DI_run (demo_env true) dm_decode tr_base 2 4 (hp ++ h') Sh) as I. fold d in I.
  assert (N0 : forall a, In a (attempts (dm_log d0)) -> at_job a = 0 /\ at_todo a = Run (OpCreate "unstable")).
  { intros a Ha. apply (in_map (fun a => (at_job a, at_todo a))) in Ha. rewrite A0 in Ha. destruct Ha as [Ha|[]]. injection Ha as <- <-. auto. }
  assert (Un : unreadable (demo_env true) "nosrc") by (right; eexists; split; reflexivity).
  assert (N1 : forall a, In a (attempts (dm_log d0)) -> at_job a <> j_no j) by (intros a Ha; destruct (N0 a Ha); rewrite En; lia).
  destruct (C71_panicking_request_blocks_all (demo_env true) dm_decode tr_base 2 4 hp h' "unstable" "/up/nosrc.eopkg" [] "nosrc" j rest Sh W Hs Hj N1 R1 F0 Un) as (Db & (new & En' & Fn) & _).
  fold d d0 in Db, En'. clearbody d d0. clear Y0 F0 Hs Sh. split; [unfold repo_exists in *; rewrite Db; exact R0|].
  intros a Ha. pose proof Ha as Hin. rewrite En' in Ha. apply in_app_iff in Ha as [Ha|Ha].
  - destruct (N0 a Ha) as [_ ->]. discriminate.
  - rewrite Forall_forall in Fn. destruct (Fn a Ha) as [Ea _].
    destruct (di_att _ _ _ _ I a Hin) as (ja & ha & Hja & Eja & Hha & Et). rewrite <- Et.
    pose proof (accepted_unique (pool_of 2 4) (dm_jobs d) (di_bound _ _ _ _ I) QSync ja QSync (Job 1 "BulkAdd" ["unstable"; "/up/nosrc.eopkg"] false)) as U. rewrite <- (di_run _ _ _ _ I) in U.
    destruct (U Hja Hacc) as [_ ->]; [rewrite Eja, Ea; exact En|]. vm_compute in Hha. injection Hha as <-. discriminate.
Qed.
Print Assumptions C71_one_bad_file_stops_everything_refuted.
