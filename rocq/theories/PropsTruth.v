(** * PropsTruth: C81, the record of a finished job says what happened *)
From Verif Require Import Model Spec Demo DemoOk Transit.
From Verif Require Import Base LibDb Jobs JobSpec JobFacts JobFacts2 PropsJobs Dispatch PropsDispatch Daemon DaemonSpec DaemonFacts Sim PropsRestart.
Open Scope string_scope. Open Scope list_scope.

(** ** Specification *)
(** the last attempt at job [n] *)
Definition last_attempt (n : nat) (l : list attempt) : option attempt := find (fun a => Nat.eqb (at_job a) n) (rev l).
(** the record written last, as status shows it *)
Definition newest (failed : bool) (y : sys) : option jrec :=
  match h_ptr (get_hist failed (y_store y)) with
  | Some i => mget (h_recs (get_hist failed (y_store y))) (be64 i)
  | None => None
  end.
(** the attempts of the log that ran to their end are marked with their outcome *)
Definition honest (E : env) (T : string -> option tram) (B : list string) (l : list lentry) : Prop :=
  forall l1 l2 n o t ok, l = l1 ++ LAttempt n o t (Completed ok) :: l2 ->
    let s := replay E T B l1 in
    match t with
    | Run p => if ok then succeeds E o p s else outcome E o p s = Err
    | Upload path => result_of (transit_job E T B o path s) = if ok then Ok tt else Err
    | PushDeltas r => repo_exists s r = ok
    end.

Lemma last_snoc n l a : last_attempt n (l ++ [a]) = if Nat.eqb (at_job a) n then Some a else last_attempt n l.
Proof. unfold last_attempt. rewrite rev_app_distr. reflexivity. Qed.

Section Truth.
Variable E : env.
Variable T : string -> option tram.
Variable B : list string.
Variables njobs ncpu : Z.
Notation kinds := (pool_of njobs ncpu).
Notation dstep := (dstep E T B).

(** the worker's phase agrees with the log *)
Definition told (d : daemon) (j : job) (desc : string) (f : option string) : Prop :=
  match handler_of j with
  | Ok h => desc = describe h /\ exists a ok, last_attempt (j_no j) (attempts (dm_log d)) = Some a /\ at_end a = Completed ok /\ f = if ok then None else Some "failed"
  | _ => desc = "" /\ f = Some "failed"
  end.
Definition PI (d : daemon) : Prop := forall i,
  match dm_phase d i with
  | PFresh => True
  | PQueueing _ desc => exists j h r, holds (dm_sys d) i = Some j /\ handler_of j = Ok h /\ execute h = PushDeltas r /\ desc = describe h /\ repo_exists (dm_core d) r = true
  | POver desc f => exists j, holds (dm_sys d) i = Some j /\ told d j desc f
  end.

Lemma PI_fresh y c l hs : PI (Daemon y c all_fresh l hs).
Proof. intros i. exact I. Qed.
(* the store changes, holders stay *)
Lemma PI_sys d y hs : PI d -> (forall i j, holds (dm_sys d) i = Some j -> holds y i = Some j) -> PI (Daemon y (dm_core d) (dm_phase d) (dm_log d) hs).
Proof.
  intros P H i. specialize (P i). cbn [dm_phase dm_sys dm_core dm_log]. destruct (dm_phase d i); [exact I| |].
  - destruct P as (j & h & r & A & X). exists j, h, r. auto.
  - destruct P as (j & A & X). exists j. auto.
Qed.
Lemma cache_core h : cache_ok nobody (dm_core (drun E T B kinds h)).
Proof. rewrite core_run. apply (replay_strip E T B). Qed.
Lemma get_repo_spec r s : cache_ok nobody s -> st_db (final_of (get_repo r s)) = st_db s /\ result_of (get_repo r s) = if repo_exists s r then Ok tt else Err.
Proof.
  intros C. unfold get_repo, repo_exists, bake_repo. destruct (st_cache s r) eqn:Ca.
  - destruct (C r Ca) as (_ & H & _). rewrite H. unfold bind, gets. cbn. rewrite Ca. auto.
  - unfold bind, gets. cbn. rewrite Ca. destruct (mhas (d_repos (st_db s)) r) eqn:H; cbn; auto. destruct (f_dir (st_fs s) r); cbn; auto.
Qed.

Lemma told_same d d' j ds f : attempts (dm_log d') = attempts (dm_log d) -> told d j ds f -> told d' j ds f.
Proof. intros A. unfold told. rewrite A. auto. Qed.

(* worker [i], at work on the repositories, moves; the others are not *)
Lemma PI_one rs d i j hd core p lg :
  DI njobs ncpu rs d -> PI d -> holds (dm_sys d) i = Some j -> handler_of j = Ok hd ->
  match p with
  | PFresh => True
  | PQueueing _ desc => exists r, execute hd = PushDeltas r /\ desc = describe hd /\ repo_exists core r = true
  | POver desc f => desc = describe hd /\ exists a ok, last_attempt (j_no j) (attempts lg) = Some a /\ at_end a = Completed ok /\ f = if ok then None else Some "failed"
  end -> PI (Daemon (dm_sys d) core (set_phase d i p) lg (dm_jobs d)).
Proof.
  intros DI_ P H Hh Hp i'. cbn [dm_phase dm_sys dm_core dm_log]. unfold set_phase. destruct (Nat.eqb_spec i' i) as [->|N].
  - destruct p as [|l desc|desc f]; [exact I| |].
    + destruct Hp as (r & A & X). exists j, hd, r. auto.
    + exists j. split; [exact H|]. unfold told. rewrite Hh. exact Hp.
  - specialize (P i'). destruct (held_sync njobs ncpu rs d i j hd DI_ H Hh) as [Z _].
    destruct (dm_phase d i') as [|l desc|desc f]; [exact I| |].
    + destruct P as (j' & h' & r & A & A' & _). destruct (held_sync njobs ncpu rs d i' j' h' DI_ A A') as [Z' _]. congruence.
    + destruct P as (j' & A & X). exists j'. split; [exact A|]. unfold told in *. destruct (handler_of j') as [h'| |] eqn:A'; auto.
      destruct (held_sync njobs ncpu rs d i' j' h' DI_ A A') as [Z' _]. congruence.
Qed.
Lemma last_now j l o t e : last_attempt j (attempts (l ++ [LAttempt j o t e])) = Some (Attempt j o t e).
Proof. rewrite attempts_app. cbn [attempts flat_map app]. rewrite last_snoc. cbn. rewrite Nat.eqb_refl. reflexivity. Qed.

Lemma PI_begin rs d i o j : DI njobs ncpu rs d -> PI d -> cache_ok nobody (dm_core d) -> holds (dm_sys d) i = Some j -> PI (begin_job E T B d i o j).
Proof.
  intros DI_ P C H. unfold begin_job. destruct (new_job_handler (j_type j) (j_params j)) as [h| |] eqn:Eh; fold (handler_of j) in Eh.
  - cbv zeta. destruct (result_of (perform E T B o (execute h) (dm_core d))) as [names| |] eqn:Rs.
    + destruct (execute h) as [p|r|path] eqn:Et.
      * eapply PI_one; eauto. split; [reflexivity|]. rewrite last_now. eexists _, true. repeat split.
      * eapply PI_one; eauto. exists r. split; [exact Et|]. split; [reflexivity|]. cbn [perform] in *. destruct (get_repo_spec r _ C) as [G1 G2].
        revert Rs. unfold bind, get_package_names, ent_list, gets, bind, ret. unfold final_of, result_of in *. destruct (get_repo r (dm_core d)) as [[t u] [[]| |]]; cbn in *; try discriminate.
        intros _. unfold repo_exists in *. rewrite G1. destruct (mhas (d_repos (st_db (dm_core d))) r); congruence.
      * eapply PI_one; eauto. split; [reflexivity|]. rewrite last_now. eexists _, true. repeat split.
    + eapply PI_one; eauto. split; [reflexivity|]. rewrite last_now. eexists _, false. repeat split.
    + apply PI_fresh.
  - intros i'. cbn [dm_phase dm_sys dm_core dm_log]. unfold set_phase. destruct (Nat.eqb_spec i' i) as [->|N]; [|exact (P i')].
    exists j. split; [exact H|]. unfold told. rewrite Eh. auto.
  - intros i'. cbn [dm_phase dm_sys dm_core dm_log]. unfold set_phase. destruct (Nat.eqb_spec i' i) as [->|N]; [|exact (P i')].
    exists j. split; [exact H|]. unfold told. rewrite Eh. auto.
Qed.

Lemma PI_step rs d e : DI njobs ncpu rs d -> PI d -> cache_ok nobody (dm_core d) -> PI (dstep d e).
Proof.
  intros DI_ P C. pose proof (di_run _ _ _ _ DI_) as R. pose proof (di_bound _ _ _ _ DI_) as Bd.
  assert (Act : forall a, y_up (dm_sys d) = true -> act_of d e = Some a ->
     PI (Daemon (feed d (Do a)) (dm_core d) (phase_after d e) (dm_log d) (dm_jobs d ++ [Do a]))).
  { intros a U Ha. destruct e; try discriminate; cbn [act_of phase_after] in *.
    - destruct (job_of r) as [[q ty] ps]. injection Ha as <-. apply PI_sys; [exact P|]. pose proof (push_step kinds (dm_jobs d) Bd q ty ps) as X. rewrite <- R in X.
      destruct (X U) as (_ & _ & A & _). intros i j Hj. unfold feed. rewrite A. exact Hj.
    - injection Ha as <-. apply PI_sys; [exact P|]. pose proof (claim_step kinds (dm_jobs d) i) as X. rewrite <- R in X. destruct (X U) as (_ & _ & A & _). exact A.
    - destruct (dm_phase d i) as [|[|[[q ty] ps] l] desc|] eqn:Ph; try discriminate. injection Ha as <-.
      pose proof (push_step kinds (dm_jobs d) Bd q ty ps) as X. rewrite <- R in X. destruct (X U) as (_ & _ & A & _).
      pose proof (PI_sys d (feed d (Do (APush q ty ps))) (dm_jobs d ++ [Do (APush q ty ps)]) P) as Q.
      assert (Q' := Q ltac:(intros i' j' Hj; unfold feed; rewrite A; exact Hj)). clear Q.
      intros i'. specialize (Q' i'). cbn [dm_phase dm_sys dm_core dm_log] in *. unfold set_phase. destruct (Nat.eqb_spec i' i) as [->|N]; [|exact Q'].
      rewrite Ph in Q'. exact Q'.
    - destruct (dm_phase d i) as [| |desc f] eqn:Ph; try discriminate. injection Ha as <-.
      pose proof (P i) as Pi. rewrite Ph in Pi. destruct Pi as (j & Hj & _).
      pose proof (finish_step kinds (dm_jobs d) Bd i desc f j) as X. rewrite <- R in X. destruct (X U Hj) as (_ & _ & _ & A & _).
      intros i'. cbn [dm_phase dm_sys dm_core dm_log]. unfold set_phase. destruct (Nat.eqb_spec i' i) as [->|N]; [exact I|].
      specialize (P i'). destruct (dm_phase d i'); [exact I| |].
      + destruct P as (j' & h' & r' & Y & Z). exists j', h', r'. unfold feed. rewrite (A i' N). auto.
      + destruct P as (j' & Y & Z). exists j'. unfold feed. rewrite (A i' N). auto.
    - injection Ha as <-. apply PI_sys; [exact P|]. pose proof (reset_step kinds (dm_jobs d) failed) as X. rewrite <- R in X. destruct (X U) as (_ & _ & A & _).
      intros i j Hj. unfold feed. rewrite A. exact Hj. }
  destruct e as [r|i|i o|i|i|b|e n|i o n| |n|ev]; cbn [Daemon.dstep].
  - destruct (y_up (dm_sys d)) eqn:U; cbn [negb]; [|exact P]. cbn [act_of] in *. destruct (job_of r) as [[q ty] ps]. apply Act; reflexivity.
  - destruct (y_up (dm_sys d)) eqn:U; cbn [negb]; [|exact P]. apply Act; reflexivity.
  - destruct (y_up (dm_sys d)) eqn:U; cbn [negb]; [|exact P]. rewrite held_is_holds. destruct (holds (dm_sys d) i) as [j|] eqn:H; [|exact P].
    destruct (dm_phase d i) eqn:Ph; try exact P. eapply PI_begin; eassumption.
  - destruct (y_up (dm_sys d)) eqn:U; cbn [negb]; [|exact P]. destruct (act_of d (DQueue i)) as [a|] eqn:Ha; [apply Act; reflexivity|].
    rewrite held_is_holds. destruct (holds (dm_sys d) i) as [j|] eqn:H; [|exact P]. destruct (dm_phase d i) as [|[|e l] desc|] eqn:Ph; try exact P.
    destruct (new_job_handler (j_type j) (j_params j)) as [h| |] eqn:Eh; try exact P. destruct (execute h) as [p|r|path] eqn:Et; try exact P.
    eapply PI_one; eauto. pose proof (P i) as Pi. rewrite Ph in Pi. destruct Pi as (j' & h' & r' & X1 & X2 & _ & X3 & _).
    assert (j' = j) by congruence. subst j'. assert (h' = h) by (unfold handler_of in X2; congruence). subst h'. split; [exact X3|].
    rewrite last_now. eexists _, true. repeat split.
  - destruct (y_up (dm_sys d)) eqn:U; cbn [negb]; [|exact P]. destruct (act_of d (DFinish i)) as [a|] eqn:Ha; [apply Act; reflexivity|exact P].
  - destruct (y_up (dm_sys d)) eqn:U; cbn [negb]; [|exact P]. apply Act; reflexivity.
  - destruct (y_up (dm_sys d)) eqn:U; cbn [negb]; [|exact P]. apply PI_fresh.
  - destruct (y_up (dm_sys d)) eqn:U; cbn [negb]; [|exact P]. destruct (held_job d i); [|apply PI_fresh]. destruct (dm_phase d i); try apply PI_fresh.
    destruct (new_job_handler _ _); apply PI_fresh.
  - apply PI_sys; [exact P|]. pose proof (start_step kinds (dm_jobs d) Start) as X. rewrite <- R in X. destruct (X ltac:(left; reflexivity)) as (A1 & A2 & A3).
    intros i j Hj. unfold feed. rewrite A3. exact Hj.
  - apply PI_sys; [exact P|]. pose proof (start_step kinds (dm_jobs d) (StartCrash n)) as X. rewrite <- R in X. destruct (X ltac:(right; eauto)) as (A1 & A2 & A3).
    intros i j Hj. unfold feed. rewrite A3. exact Hj.
  - destruct (outside_event ev) eqn:Oe; [|exact P]. intros i. specialize (P i). cbn [dm_phase dm_sys dm_core dm_log]. destruct (dm_phase d i) as [|l desc|desc f]; [exact I| |].
    + destruct P as (j & h & r & A1 & A2 & A3 & A4 & A5). exists j, h, r. repeat (split; [assumption|]). revert A5. clear -Oe. unfold repo_exists.
      destruct ev as [o p|o p m| |l c|l|r' a c|r']; try discriminate Oe; cbn [ev_step]; try destruct (l_tree l); auto.
    + destruct P as (j & A & X). exists j. split; [exact A|]. eapply told_same; [|exact X]. cbn [dm_log]. rewrite attempts_app. cbn. apply app_nil_r.
Qed.
Lemma drun_snoc h e : drun E T B kinds (h ++ [e]) = dstep (drun E T B kinds h) e.
Proof. unfold drun. rewrite fold_left_app. reflexivity. Qed.
Lemma short_pre h e : short (h ++ [e]) -> short h.
Proof. unfold short. rewrite app_length. cbn. lia. Qed.
Lemma PI_run h : short h -> PI (drun E T B kinds h).
Proof.
  induction h as [|e h IH] using rev_ind; intros S; [apply PI_fresh|]. rewrite drun_snoc. pose proof (short_pre _ _ S) as S'.
  eapply PI_step; [exact (DI_run E T B njobs ncpu h S')|exact (IH S')|apply cache_core].
Qed.

(** *** the log is honest *)
Lemma honest_nil : honest E T B [].
Proof. intros l1 l2 n o t ok H. destruct l1; discriminate. Qed.
Lemma honest_snoc l e : honest E T B l ->
  match e with
  | LAttempt n o t (Completed ok) =>
      let s := replay E T B l in
      match t with
      | Run p => if ok then succeeds E o p s else outcome E o p s = Err
      | Upload path => result_of (transit_job E T B o path s) = if ok then Ok tt else Err
      | PushDeltas r => repo_exists s r = ok
      end
  | _ => True
  end -> honest E T B (l ++ [e]).
Proof.
  intros H He l1 l2 n o t ok X. destruct l2 as [|e2 l2] using rev_ind.
  - apply app_inj_tail in X as [-> ->]. exact He.
  - change (LAttempt n o t (Completed ok) :: l2 ++ [e2]) with ((LAttempt n o t (Completed ok) :: l2) ++ [e2]) in X. rewrite app_assoc in X.
    apply app_inj_tail in X as [-> _]. exact (H l1 l2 n o t ok eq_refl).
Qed.
Lemma upload_res o path s : result_of (perform E T B o (Upload path) s) = match result_of (transit_job E T B o path s) with Ok _ => Ok [] | Err => Err | Panic => Panic end.
Proof. cbn [perform]. unfold bind, result_of. destruct (transit_job E T B o path s) as [[t u] [a| |]]; reflexivity. Qed.
Lemma push_res o r s : cache_ok nobody s -> (exists l, result_of (perform E T B o (PushDeltas r) s) = Ok l) /\ repo_exists s r = true \/
  result_of (perform E T B o (PushDeltas r) s) = Err /\ repo_exists s r = false.
Proof.
  intros C. destruct (get_repo_spec r s C) as [_ G]. cbn [perform]. unfold bind, get_package_names, ent_list, gets, bind, ret. unfold result_of in *.
  destruct (get_repo r s) as [[t u] [[]| |]]; cbn in *; destruct (repo_exists s r); try discriminate; eauto.
Qed.
Lemma honest_begin d i o j : honest E T B (dm_log d) -> dm_core d = replay E T B (dm_log d) -> cache_ok nobody (dm_core d) -> honest E T B (dm_log (begin_job E T B d i o j)).
Proof.
  intros H Ec C. unfold begin_job. destruct (new_job_handler (j_type j) (j_params j)) as [h| |]; [|exact H|exact H]. cbv zeta.
  destruct (result_of (perform E T B o (execute h) (dm_core d))) as [names| |] eqn:Rs.
  - destruct (execute h) as [p|r|path]; cbn [dm_log]; apply honest_snoc; auto; cbv zeta; rewrite <- Ec.
    + exists names. exact Rs.
    + rewrite upload_res in Rs. destruct (result_of (transit_job E T B o path (dm_core d))) as [[]| |]; try discriminate; reflexivity.
  - cbn [dm_log]. apply honest_snoc; auto. cbv zeta. rewrite <- Ec. destruct (execute h) as [p|r|path].
    + exact Rs.
    + destruct (push_res o r _ C) as [[[l X] _]|[_ X]]; [congruence|exact X].
    + rewrite upload_res in Rs. destruct (result_of (transit_job E T B o path (dm_core d))); try discriminate; reflexivity.
  - cbn [dm_log]. apply honest_snoc; auto. 
Qed.
Lemma honest_step d e : PI d -> honest E T B (dm_log d) -> dm_core d = replay E T B (dm_log d) -> cache_ok nobody (dm_core d) -> honest E T B (dm_log (dstep d e)).
Proof.
  intros P H Ec C. destruct e as [r|i|i o|i|i|b|e n|i o n| |n|ev]; cbn [Daemon.dstep].
  - destruct (negb (y_up (dm_sys d))); [exact H|]. destruct (act_of d (DRequest r)); exact H.
  - destruct (negb (y_up (dm_sys d))); exact H.
  - destruct (negb (y_up (dm_sys d))); [exact H|]. destruct (held_job d i) as [j|]; [|exact H]. destruct (dm_phase d i); try exact H. apply honest_begin; assumption.
  - destruct (negb (y_up (dm_sys d))); [exact H|]. destruct (act_of d (DQueue i)); [exact H|]. rewrite held_is_holds. destruct (holds (dm_sys d) i) as [j|] eqn:Hj; [|exact H].
    destruct (dm_phase d i) as [|[|x l] desc|] eqn:Ph; try exact H. destruct (new_job_handler (j_type j) (j_params j)) as [h| |] eqn:Eh; try exact H.
    destruct (execute h) as [p|r|path] eqn:Et; try exact H. cbn [dm_log]. apply honest_snoc; [exact H|]. cbv zeta. rewrite <- Ec.
    specialize (P i). rewrite Ph in P. destruct P as (j' & h' & r' & X1 & X2 & X3 & _ & X4). assert (j' = j) by congruence. subst j'.
    assert (h' = h) by (unfold handler_of in X2; congruence). subst h'. assert (r' = r) by congruence. subst r'. exact X4.
  - destruct (negb (y_up (dm_sys d))); [exact H|]. destruct (act_of d (DFinish i)); exact H.
  - destruct (negb (y_up (dm_sys d))); exact H.
  - destruct (negb (y_up (dm_sys d))); [exact H|]. cbn [down dm_log]. apply honest_snoc; [exact H|exact I].
  - destruct (negb (y_up (dm_sys d))); [exact H|]. destruct (held_job d i) as [j|]; [|apply honest_snoc; [exact H|exact I]].
    destruct (dm_phase d i); try (apply honest_snoc; [exact H|exact I]). destruct (new_job_handler _ _); apply honest_snoc; solve [exact H|exact I].
  - exact H.
  - exact H.
  - destruct (outside_event ev); [|exact H]. apply honest_snoc; [exact H|exact I].
Qed.
End Truth.

(** ** The store *)
Lemma get_hist_queue b q s m : get_hist b (set_queue q s m) = get_hist b s.
Proof. destruct b, q; reflexivity. Qed.
Lemma get_set_hist b b' s h : get_hist b (set_hist b' s h) = if Bool.eqb b b' then h else get_hist b s.
Proof. destruct b, b'; reflexivity. Qed.
Lemma app_neq {A} (l : list A) x : l ++ [x] <> l.
Proof. intros H. apply (f_equal (@List.length A)) in H. rewrite app_length in H. cbn in H. lia. Qed.

Section Store.
Variables (kinds : list bool) (h : list Jobs.event).
Hypothesis Bd : bounded h.
Let y := run kinds h.
Lemma finish_record i desc f j : y_up y = true -> holds y i = Some j ->
  let y' := step y (Do (AFinish i desc f)) in
  let failed := match f with Some _ => true | None => false end in
  newest failed y' = Some (JRec desc f) /\ get_hist (negb failed) (y_store y') = get_hist (negb failed) (y_store y).
Proof.
  intros U H y' failed. pose proof H as H0. apply holds_spec in H as (q & k & Hi). unfold y', newest. cbn [step]. rewrite U. cbn [y_store writes_of]. rewrite Hi.
  unfold retire. rewrite (held_key_free kinds h Bd _ _ _ _ Hi). unfold mark_completion. fold failed. cbn [fst snd last]. rewrite !get_set_hist, !get_hist_queue.
  rewrite Bool.eqb_reflx. cbn [h_ptr h_recs]. rewrite mget_put_eq. split; [reflexivity|]. destruct failed; reflexivity.
Qed.
Lemma quiet_hist ev b : (forall c, ev <> Do (AReset c)) -> (forall c n, ev <> Crash (AReset c) (Datatypes.S n)) -> y_retired (step y ev) = y_retired y ->
  get_hist b (y_store (step y ev)) = get_hist b (y_store y).
Proof.
  intros N1 N2 Hr. destruct ev as [a|a n| |n]; cbn [step] in *; destruct (y_up y) eqn:U; try reflexivity; cbn [y_store y_retired] in *.
  - destruct a as [q ty ps|i|i ds f|c]; cbn [writes_of retired_after] in *.
    + unfold push. destruct (reserved _); cbn; [reflexivity|apply get_hist_queue].
    + destruct (nth_error (y_workers y) i) as [[q [kj|]]|]; try reflexivity. unfold claim. destruct (first_unclaimed _) as [[k j]|]; [|reflexivity].
      destruct (reserved k); cbn; [reflexivity|apply get_hist_queue].
    + destruct (nth_error (y_workers y) i) as [[q [[k j]|]]|] eqn:Hi; try reflexivity. unfold retire in *. destruct (reserved k) eqn:Rk; [reflexivity|]. cbn in Hr. destruct (app_neq _ _ Hr).
    + destruct (N1 c eq_refl).
  - destruct n as [|n]; [reflexivity|]. destruct a as [q ty ps|i|i ds f|c]; cbn [writes_of retired_after] in *.
    + unfold push. destruct (reserved _); cbn; [reflexivity|]. destruct n; apply get_hist_queue.
    + destruct (nth_error (y_workers y) i) as [[q [kj|]]|]; try reflexivity. unfold claim. destruct (first_unclaimed _) as [[k j]|]; [|reflexivity].
      destruct (reserved k); cbn; [reflexivity|]. destruct n; apply get_hist_queue.
    + destruct (nth_error (y_workers y) i) as [[q [[k j]|]]|] eqn:Hi; try reflexivity. unfold retire in *. destruct (reserved k) eqn:Rk; [reflexivity|]. cbn in Hr. destruct (app_neq _ _ Hr).
    + destruct (N2 c n eq_refl).
  - unfold setup, final, unclaim. destruct n as [|[|n]]; cbn [fst last firstn]; rewrite ?get_hist_queue; try reflexivity. destruct n; cbn [fst last firstn]; rewrite ?get_hist_queue; reflexivity.
Qed.
End Store.

(** ** C81 *)
(** When a job leaves the queue while the daemon runs on, status shows one new
    record: in the list of completed jobs if the last attempt at the job
    succeeded, in the list of failed jobs if it failed, with the description of
    the request. (A job nobody can execute counts as failed, without
    description.) The other list is unchanged. *)
Theorem C81_record_matches_outcome :
  forall E T B njobs ncpu h e n, short h ->
    let d := drun E T B (pool_of njobs ncpu) h in
    let d' := dstep E T B d e in
    ~ In n (y_retired (dm_sys d)) -> In n (y_retired (dm_sys d')) -> y_up (dm_sys d') = true ->
    exists q j, In (q, j) (y_accepted (dm_sys d)) /\ j_no j = n /\
      match new_job_handler (j_type j) (j_params j) with
      | Ok hd => exists a ok, last_attempt n (attempts (dm_log d)) = Some a /\ at_end a = Completed ok /\
          newest (negb ok) (dm_sys d') = Some (JRec (describe hd) (if ok then None else Some "failed")) /\
          get_hist ok (y_store (dm_sys d')) = get_hist ok (y_store (dm_sys d))
      | _ => newest true (dm_sys d') = Some (JRec "" (Some "failed")) /\
          get_hist false (y_store (dm_sys d')) = get_hist false (y_store (dm_sys d))
      end.
Proof.
  intros E T B njobs ncpu h e n S d d' Nr Hr Up.
  pose proof (DI_run E T B njobs ncpu h S) as DI_. pose proof (PI_run E T B njobs ncpu h S) as P. fold d in DI_, P.
  pose proof (di_run _ _ _ _ DI_) as R. pose proof (di_bound _ _ _ _ DI_) as Bd.
  (* the only event that retires a job without the daemon stopping is DFinish *)
  assert (Fin : exists i desc f j, e = DFinish i /\ y_up (dm_sys d) = true /\ dm_phase d i = POver desc f /\ holds (dm_sys d) i = Some j /\ told d j desc f /\
    dm_sys d' = feed d (Do (AFinish i desc f))).
  { assert (Same : y_retired (dm_sys d') = y_retired (dm_sys d) -> False) by (intros X; rewrite X in Hr; contradiction).
    assert (Seq : dm_sys d' = dm_sys d -> False) by (intros X; apply Same; rewrite X; reflexivity).
    unfold d' in *. destruct (y_up (dm_sys d)) eqn:U.
    2:{ exfalso. destruct e; cbn [Daemon.dstep] in *; rewrite ?U in *; cbn [negb] in *; try (apply Seq; reflexivity).
        - apply Same. cbn [dm_sys feed Jobs.step]. unfold feed. cbn [Jobs.step]. rewrite U. reflexivity.
        - apply Same. cbn [dm_sys feed Jobs.step]. unfold feed. cbn [Jobs.step]. rewrite U. reflexivity.
        - apply Seq. destruct (outside_event ev); reflexivity. }
    destruct e as [r|i|i o|i|i|b|e m|i o m| |m|ev]; cbn [Daemon.dstep] in *; rewrite ?U in *; cbn [negb] in *.
    - exfalso. cbn [act_of] in *. destruct (job_of r) as [[q ty] ps]. apply Same. unfold feed. cbn [dm_sys Jobs.step]. rewrite U. reflexivity.
    - exfalso. apply Same. unfold feed. cbn [act_of dm_sys Jobs.step]. rewrite U. reflexivity.
    - exfalso. destruct (held_job d i) as [j|]; [|apply Seq; reflexivity]. destruct (dm_phase d i); try (apply Seq; reflexivity).
      unfold begin_job in *. destruct (new_job_handler _ _) as [hd| |]; try (apply Seq; reflexivity). cbv zeta in *.
      destruct (result_of _) as [ns| |]; [destruct (execute hd); apply Seq; reflexivity|apply Seq; reflexivity|].
      apply Same. unfold feed, stop. cbn [dm_sys Jobs.step]. rewrite U. reflexivity.
    - exfalso. cbn [act_of] in *. destruct (dm_phase d i) as [|[|[[q ty] ps] l] desc|desc f] eqn:Ph; cbn [act_of] in *.
      + destruct (held_job d i); apply Seq; reflexivity.
      + destruct (held_job d i) as [j|]; [|apply Seq; reflexivity]. destruct (new_job_handler _ _) as [hd| |]; try (apply Seq; reflexivity). destruct (execute hd); apply Seq; reflexivity.
      + apply Same. unfold feed. cbn [dm_sys Jobs.step]. rewrite U. reflexivity.
      + destruct (held_job d i); apply Seq; reflexivity.
    - cbn [act_of] in *. pose proof (P i) as Pi. destruct (dm_phase d i) as [|l desc|desc f] eqn:Ph; try (exfalso; apply Seq; reflexivity).
      destruct Pi as (j & Hj & Tj). exists i, desc, f, j. repeat (split; [reflexivity || assumption|]). reflexivity.
    - exfalso. apply Same. unfold feed. cbn [act_of dm_sys Jobs.step]. rewrite U. reflexivity.
    - exfalso. unfold down, feed in *. cbn [dm_sys] in *. assert (X : forall a k, y_up (Jobs.step (dm_sys d) (Crash a k)) = false) by (intros a k; cbn [Jobs.step]; rewrite U; reflexivity).
      destruct (act_of d e); unfold stop in *; rewrite X in Up; discriminate.
    - exfalso. unfold down, feed, stop in *. assert (X : forall a k, y_up (Jobs.step (dm_sys d) (Crash a k)) = false) by (intros a k; cbn [Jobs.step]; rewrite U; reflexivity).
      destruct (held_job d i); [destruct (dm_phase d i); [destruct (new_job_handler _ _)| |]|]; cbn [dm_sys] in *; rewrite X in Up; discriminate.
    - exfalso. apply Same. unfold feed. cbn [dm_sys Jobs.step]. rewrite U. reflexivity.
    - exfalso. apply Same. unfold feed. cbn [dm_sys Jobs.step]. rewrite U. reflexivity.
    - exfalso. destruct (outside_event ev); apply Seq; reflexivity. }
  destruct Fin as (i & desc & f & j & -> & U & Ph & Hj & Tj & Ed).
  pose proof (finish_step (pool_of njobs ncpu) (dm_jobs d) Bd i desc f j) as X. rewrite <- R in X. destruct (X U Hj) as (_ & Xr & _). clear X.
  pose proof (finish_record (pool_of njobs ncpu) (dm_jobs d) Bd i desc f j) as X. rewrite <- R in X. specialize (X U Hj). cbv zeta in X. unfold feed in Ed. rewrite <- Ed in X, Xr.
  rewrite Xr in Hr. apply in_app_iff in Hr as [Hr|[<-|[]]]; [contradiction|].
  pose proof Hj as Hq. rewrite R in Hq. apply holds_spec in Hq as (q & k & Hq). destruct (held_accepted _ _ Bd _ _ _ _ Hq) as (a & Ha & Ea & _). rewrite <- R in Ha.
  exists q, a. split; [exact Ha|]. split; [apply ident_no; exact Ea|].
  assert (Eh : new_job_handler (j_type a) (j_params a) = handler_of j) by (unfold handler_of; unfold ident in Ea; congruence). rewrite Eh.
  unfold told in Tj. destruct (handler_of j) as [hd| |].
  - destruct Tj as (-> & at_ & ok & L & En & ->). exists at_, ok. split; [exact L|]. split; [exact En|]. destruct ok; exact X.
  - destruct Tj as (-> & ->). exact X.
  - destruct Tj as (-> & ->). exact X.
Qed.
Print Assumptions C81_record_matches_outcome.

(** The outcome an attempt is marked with is the one it had. *)
Theorem C81_outcomes_are_real :
  forall E T B njobs ncpu h, short h -> honest E T B (dm_log (drun E T B (pool_of njobs ncpu) h)).
Proof.
  intros E T B njobs ncpu h. induction h as [|e h IH] using rev_ind; intros S; [apply honest_nil|]. pose proof (short_pre _ _ S) as S'.
  rewrite drun_snoc. apply honest_step; [apply PI_run; exact S'|exact (IH S')|apply core_run|apply cache_core].
Qed.
Print Assumptions C81_outcomes_are_real.

(** Nothing else writes to the two lists: when no job leaves the queue and nobody
    asks for a reset, both stay as they are. *)
Theorem C81_no_other_records :
  forall E T B njobs ncpu h e b, short h -> (forall c, e <> DReset c) -> (forall c n, e <> DCrashIn (DReset c) n) ->
    let d := drun E T B (pool_of njobs ncpu) h in
    let d' := dstep E T B d e in
    y_retired (dm_sys d') = y_retired (dm_sys d) -> get_hist b (y_store (dm_sys d')) = get_hist b (y_store (dm_sys d)).
Proof.
  intros E T B njobs ncpu h e b S N1 N2 d d'. pose proof (DI_run E T B njobs ncpu h S) as DI_. fold d in DI_.
  pose proof (di_run _ _ _ _ DI_) as R. pose proof (di_bound _ _ _ _ DI_) as Bd.
  assert (Q : forall ev, (forall c, ev <> Do (AReset c)) -> (forall c n, ev <> Crash (AReset c) (Datatypes.S n)) -> y_retired (feed d ev) = y_retired (dm_sys d) -> get_hist b (y_store (feed d ev)) = get_hist b (y_store (dm_sys d))).
  { unfold feed. rewrite R. intros ev. apply quiet_hist. }
  assert (Qs : y_retired (feed d stop) = y_retired (dm_sys d) -> get_hist b (y_store (feed d stop)) = get_hist b (y_store (dm_sys d))) by (apply Q; discriminate).
  assert (NR : forall a, act_of d e = Some a -> forall c, a <> AReset c).
  { intros a Ha c ->. destruct e; cbn [act_of] in Ha; try discriminate.
    - destruct (job_of r) as [[q ty] ps]. discriminate.
    - destruct (dm_phase d i) as [|[|[[q ty] ps] l] ds|]; discriminate.
    - destruct (dm_phase d i); discriminate.
    - injection Ha as ->. exact (N1 c eq_refl). }
  assert (Qa : forall a, act_of d e = Some a -> y_retired (feed d (Do a)) = y_retired (dm_sys d) -> get_hist b (y_store (feed d (Do a))) = get_hist b (y_store (dm_sys d))).
  { intros a Ha. apply Q; [intros c X; injection X as ->; exact (NR _ Ha c eq_refl)|discriminate]. }
  unfold d'. destruct e as [r|i|i o|i|i|c|e m|i o m| |m|ev]; cbn [Daemon.dstep].
  - destruct (negb (y_up (dm_sys d))); [reflexivity|]. destruct (act_of d (DRequest r)) as [a|] eqn:Ha; [exact (Qa a eq_refl)|reflexivity].
  - destruct (negb (y_up (dm_sys d))); [reflexivity|]. exact (Qa _ eq_refl).
  - destruct (negb (y_up (dm_sys d))); [reflexivity|]. destruct (held_job d i) as [j|]; [|reflexivity]. destruct (dm_phase d i); try reflexivity.
    unfold begin_job. destruct (new_job_handler _ _) as [hd| |]; try reflexivity. cbv zeta. destruct (result_of _) as [ns| |]; [destruct (execute hd); reflexivity|reflexivity|exact Qs].
  - destruct (negb (y_up (dm_sys d))); [reflexivity|]. destruct (act_of d (DQueue i)) as [a|] eqn:Ha; [exact (Qa a eq_refl)|].
    destruct (held_job d i) as [j|]; [|reflexivity]. destruct (dm_phase d i) as [|[|x l] ds|]; try reflexivity. destruct (new_job_handler _ _) as [hd| |]; try reflexivity. destruct (execute hd); reflexivity.
  - destruct (negb (y_up (dm_sys d))); [reflexivity|]. destruct (act_of d (DFinish i)) as [a|] eqn:Ha; [exact (Qa a eq_refl)|reflexivity].
  - destruct (N1 c eq_refl).
  - destruct (negb (y_up (dm_sys d))); [reflexivity|]. unfold down. cbn [dm_sys]. destruct (act_of d e) as [a|] eqn:Ha; [|exact Qs].
    apply Q; [discriminate|]. intros c k X. injection X as -> ->. destruct e; cbn [act_of] in Ha; try discriminate.
    + destruct (job_of r) as [[q ty] ps]. discriminate.
    + destruct (dm_phase d i) as [|[|[[q ty] ps] l] ds|]; discriminate.
    + destruct (dm_phase d i); discriminate.
    + injection Ha as ->. exact (N2 c (Datatypes.S k) eq_refl).
  - destruct (negb (y_up (dm_sys d))); [reflexivity|]. unfold down. destruct (held_job d i); [destruct (dm_phase d i); [destruct (new_job_handler _ _)| |]|]; exact Qs.
  - apply Q; discriminate.
  - apply Q; discriminate.
  - destruct (outside_event ev); reflexivity.
Qed.
Print Assumptions C81_no_other_records.

(** a concrete case: a repository is created twice; the second job is retired *)
Definition h_twice : list devent :=
  [ DRequest (ReqCreate "unstable"); DRequest (ReqCreate "unstable"); DPoll 0; DBegin 0 demo_oracle; DFinish 0; DPoll 0; DBegin 0 demo_oracle ].
Definition d_twice : daemon := drun (demo_env true) (fun _ => None) ["srv"] (pool_of 2 4) h_twice.
Definition d_twice' : daemon := dstep (demo_env true) (fun _ => None) ["srv"] d_twice (DFinish 0).
Theorem C81_demo :
  short h_twice /\ ~ In 1 (y_retired (dm_sys d_twice)) /\ In 1 (y_retired (dm_sys d_twice')) /\ y_up (dm_sys d_twice') = true /\
  past_jobs false (y_store (dm_sys d_twice')) = [JRec "Create repository 'unstable'" None] /\
  past_jobs true (y_store (dm_sys d_twice)) = [] /\
  past_jobs true (y_store (dm_sys d_twice')) = [JRec "Create repository 'unstable'" (Some "failed")].
Proof.
  split; [vm_compute; reflexivity|]. split; [vm_compute; intuition discriminate|]. split; [vm_compute; tauto|]. repeat (split; [vm_compute; reflexivity|]). vm_compute. reflexivity.
Qed.
