(** * DaemonFacts: invariants of the composed daemon *)
From Verif Require Import Model Spec Transit.
From Verif Require Import Base LibDb Jobs JobSpec JobFacts JobFacts2 PropsJobs Dispatch PropsDispatch Daemon DaemonSpec.
Open Scope string_scope. Open Scope list_scope.

(** ** What one step of the job store does to the ghosts and the workers *)
Definition holds (y : sys) (i : nat) : option job :=
  match nth_error (y_workers y) i with Some (Worker _ (Some (_, j))) => Some j | _ => None end.
Lemma holds_spec y i j : holds y i = Some j <-> exists q k, nth_error (y_workers y) i = Some (Worker q (Some (k, j))).
Proof.
  unfold holds. destruct (nth_error (y_workers y) i) as [[q [[k j']|]]|]; split; try discriminate.
  - intros H. injection H as ->. eauto.
  - intros (q' & k' & H). congruence.
  - intros (q' & k' & H). congruence.
  - intros (q' & k' & H). congruence.
Qed.
Lemma nth_set_nth {A} (l : list A) i j x : nth_error (set_nth i x l) j = if Nat.eqb j i then (match nth_error l i with Some _ => Some x | None => None end) else nth_error l j.
Proof.
  revert i j; induction l as [|y l IH]; intros [|i] [|j]; cbn [set_nth nth_error Nat.eqb]; try reflexivity.
  - destruct (Nat.eqb j i); reflexivity.
  - apply IH.
Qed.

Section Jobs.
Variables (kinds : list bool) (h : list Jobs.event).
Hypothesis B : bounded h.
Let y := run kinds h.

Lemma run_sys : sysInv (N.of_nat (List.length h)) y.
Proof. exact (run_inv kinds h B). Qed.
Lemma next_free q : reserved (next_seq (get_queue q (y_store y))) = false.
Proof.
  destruct (next_seq_facts (N.of_nat (List.length h)) _ _ _ _ _ run_sys B q) as (n & -> & _ & X & _). exact X.
Qed.
Lemma held_key_free i q k j : nth_error (y_workers y) i = Some (Worker q (Some (k, j))) -> reserved k = false.
Proof.
  intros H. destruct (iv_held _ _ _ _ _ _ run_sys _ _ _ _ H) as [G _]. exact (keys_not_reserved _ _ _ _ _ _ run_sys B q k j G).
Qed.
Lemma held_accepted i q k j : nth_error (y_workers y) i = Some (Worker q (Some (k, j))) ->
  exists a, In (q, a) (y_accepted y) /\ ident a = ident j /\ ~ In (j_no j) (y_retired y).
Proof.
  intros H. destruct (held_stored _ y run_sys _ _ _ _ H) as [S _]. destruct (stored_pending _ y run_sys _ _ S) as (a & Ha & Ea).
  unfold pending_in in Ha. apply filter_In in Ha as [Ha N]. exists a. split; [apply in_accepted; exact Ha|]. split; [exact Ea|].
  unfold not_retired in N. apply negb_true_iff in N. apply ident_no in Ea. rewrite <- Ea. intros X.
  assert (existsb (Nat.eqb (j_no a)) (y_retired y) = true); [|congruence]. apply existsb_exists. exists (j_no a). split; [exact X|apply Nat.eqb_refl].
Qed.
Lemma held_once i i' j j' : holds y i = Some j -> holds y i' = Some j' -> j_no j = j_no j' -> i = i'.
Proof.
  intros H H' E. apply holds_spec in H as (q & k & H). apply holds_spec in H' as (q' & k' & H').
  destruct (held_stored _ y run_sys _ _ _ _ H) as [S M]. destruct (held_stored _ y run_sys _ _ _ _ H') as [S' M'].
  destruct (stored_apart _ y run_sys _ _ _ _ S S' E) as [Eq Ej]. subst q' j'.
  assert (K : k = k').
  { pose proof (queue_nodup _ _ _ _ _ _ run_sys q) as N. cbn beta in N.
    revert M M' N. clear. generalize (mlist (get_queue q (y_store y))) as l. intros l M M' N.
    induction l as [|[k0 j0] l IH]; [destruct M|]. cbn [map snd] in N. apply NoDup_cons_iff in N as [X N'].
    destruct M as [M|M], M' as [M'|M'].
    - congruence.
    - injection M as -> ->. exfalso. apply X. apply in_map_iff. exists j. split; [reflexivity|]. apply in_map_iff. exists (k', j). auto.
    - injection M' as -> ->. exfalso. apply X. apply in_map_iff. exists j. split; [reflexivity|]. apply in_map_iff. exists (k, j). auto.
    - auto. }
  subst k'. exact (iv_excl _ _ _ _ _ _ run_sys _ _ _ _ _ _ H H').
Qed.
Lemma accepted_number q j : In (q, j) (y_accepted y) -> j_no j < List.length (y_accepted y).
Proof.
  intros H. apply (in_map (fun x => j_no (snd x))) in H. rewrite (iv_nos _ _ _ _ _ _ run_sys) in H. apply in_seq in H. cbn [snd] in H. lia.
Qed.
Lemma accepted_unique q j q' j' : In (q, j) (y_accepted y) -> In (q', j') (y_accepted y) -> j_no j = j_no j' -> q = q' /\ j = j'.
Proof.
  pose proof (iv_nos _ _ _ _ _ _ run_sys) as N. assert (ND : NoDup (map (fun x => j_no (snd x)) (y_accepted y))) by (rewrite N; apply seq_NoDup).
  revert ND. generalize (y_accepted y) as l. clear. intros l ND H H' E.
  induction l as [|[q0 j0] l IH]; [destruct H|]. cbn [map snd] in ND. apply NoDup_cons_iff in ND as [X N'].
  destruct H as [H|H], H' as [H'|H'].
  - injection H as -> ->. injection H' as -> ->. auto.
  - injection H as -> ->. exfalso. apply X. rewrite E. exact (in_map (fun x => j_no (snd x)) _ _ H').
  - injection H' as -> ->. exfalso. apply X. rewrite <- E. exact (in_map (fun x => j_no (snd x)) _ _ H).
  - auto.
Qed.

Lemma push_step q ty ps : y_up y = true ->
  let y' := step y (Do (APush q ty ps)) in
  y_accepted y' = y_accepted y ++ [(q, Job (List.length (y_accepted y)) ty ps false)] /\ y_retired y' = y_retired y /\
  (forall i, holds y' i = holds y i) /\ y_up y' = true.
Proof.
  intros U y'. unfold y'. cbn [step]. rewrite U. cbn [y_accepted y_retired y_up writes_of accepted_after retired_after]. unfold push. rewrite next_free.
  cbn [fst List.length Nat.leb andb negb]. repeat split.
Qed.
Lemma push_crash q ty ps n : y_up y = true ->
  let y' := step y (Crash (APush q ty ps) n) in
  y_accepted y' = (if (1 <=? n)%nat then y_accepted y ++ [(q, Job (List.length (y_accepted y)) ty ps false)] else y_accepted y) /\ y_retired y' = y_retired y.
Proof.
  intros U y'. unfold y'. cbn [step]. rewrite U. cbn [y_accepted y_retired y_up writes_of accepted_after retired_after]. unfold push. rewrite next_free.
  cbn [fst negb]. destruct n as [|n]; cbn [firstn List.length Nat.leb andb]; split; try reflexivity; destruct n; reflexivity.
Qed.
Lemma claim_step i : y_up y = true ->
  let y' := step y (Do (AClaim i)) in
  y_accepted y' = y_accepted y /\ y_retired y' = y_retired y /\
  (forall i' j, holds y i' = Some j -> holds y' i' = Some j) /\ (forall i', i' <> i -> holds y' i' = holds y i') /\ y_up y' = true.
Proof.
  intros U y'. unfold y'. cbn [step]. rewrite U. cbn [y_accepted y_retired y_up accepted_after retired_after]. split; [reflexivity|]. split; [reflexivity|].
  unfold holds. cbn [y_workers workers_after].
  destruct (nth_error (y_workers y) i) as [[q [kj|]]|] eqn:Hi; try (repeat split; auto; fail).
  destruct (snd (claim q (y_store y))) as [[kj|]| |]; try (repeat split; auto; fail). split; [|split; [|reflexivity]].
  - intros i' j. rewrite nth_set_nth, Hi. destruct (Nat.eqb_spec i' i) as [->|N]; [rewrite Hi; discriminate|auto].
  - intros i' N. rewrite nth_set_nth. apply Nat.eqb_neq in N. rewrite N. reflexivity.
Qed.
Lemma finish_step i d f j : y_up y = true -> holds y i = Some j ->
  let y' := step y (Do (AFinish i d f)) in
  y_accepted y' = y_accepted y /\ y_retired y' = y_retired y ++ [j_no j] /\
  holds y' i = None /\ (forall i', i' <> i -> holds y' i' = holds y i') /\ y_up y' = true.
Proof.
  intros U H y'. apply holds_spec in H as (q & k & Hi). unfold y'. cbn [step]. rewrite U. cbn [y_accepted y_retired y_up accepted_after retired_after writes_of]. split; [reflexivity|].
  rewrite Hi. unfold retire. rewrite (held_key_free _ _ _ _ Hi). unfold mark_completion. cbn [fst List.length Nat.leb andb negb]. split; [reflexivity|].
  unfold holds. cbn [y_workers workers_after]. rewrite Hi. split; [|split; [|reflexivity]].
  - rewrite nth_set_nth, Nat.eqb_refl, Hi. reflexivity.
  - intros i' N. rewrite nth_set_nth. apply Nat.eqb_neq in N. rewrite N. reflexivity.
Qed.
Lemma reset_step b : y_up y = true ->
  let y' := step y (Do (AReset b)) in
  y_accepted y' = y_accepted y /\ y_retired y' = y_retired y /\ (forall i, holds y' i = holds y i) /\ y_up y' = true.
Proof. intros U y'. unfold y'. cbn [step]. rewrite U. cbn. repeat split. Qed.
Lemma crash_step a n : y_up y = true ->
  let y' := step y (Crash a n) in
  (forall q ty ps, a <> APush q ty ps) ->
  y_accepted y' = y_accepted y /\
  (y_retired y' = y_retired y \/ exists i d f j, a = AFinish i d f /\ holds y i = Some j /\ y_retired y' = y_retired y ++ [j_no j]).
Proof.
  intros U y' N. unfold y'. cbn [step]. rewrite U. cbn [y_accepted y_retired]. split; [destruct a; try reflexivity; destruct (N q ty params eq_refl)|].
  destruct a as [q ty ps|i|i d f|b]; try (left; reflexivity). cbn [retired_after]. destruct (nth_error (y_workers y) i) as [[q [[k j]|]]|] eqn:Hi; try (left; reflexivity).
  destruct (_ && _); [right|left; reflexivity]. exists i, d, f, j. split; [reflexivity|]. split; [apply holds_spec; eauto|reflexivity].
Qed.
Lemma crash_idle a n i : y_up y = true -> let y' := step y (Crash a n) in holds y' i = None /\ y_up y' = false.
Proof.
  intros U y'. unfold y'. cbn [step]. rewrite U. split; [|reflexivity]. unfold holds. cbn [y_workers]. rewrite nth_error_map. destruct (nth_error (y_workers y) i) as [[q j]|]; reflexivity.
Qed.
Lemma start_step e : (e = Start \/ exists n, e = StartCrash n) ->
  let y' := step y e in y_accepted y' = y_accepted y /\ y_retired y' = y_retired y /\ (forall i, holds y' i = holds y i).
Proof. intros [->|[n ->]] y'; unfold y'; cbn [step]; destruct (y_up y); repeat split. Qed.
Lemma down_idle i : y_up y = false -> holds y i = None.
Proof.
  intros U. unfold holds. destruct (nth_error (y_workers y) i) as [[q [[k j]|]]|] eqn:Hi; try reflexivity.
  pose proof (iv_down _ _ _ _ _ _ run_sys U _ _ Hi). discriminate.
Qed.
End Jobs.

(** ** The invariant of the daemon *)
Lemma attempts_app l l' : attempts (l ++ l') = attempts l ++ attempts l'.
Proof. unfold attempts. apply flat_map_app. Qed.
Lemma steady_app l l' : steady (l ++ l') <-> steady l /\ steady l'.
Proof. unfold steady. apply Forall_app. Qed.
Definition finished (n : nat) (l : list attempt) : Prop :=
  exists pre a post, l = pre ++ a :: post /\ at_job a = n /\ completed a /\ ~ In n (map at_job post).
Lemma finished_more n l a : finished n l -> at_job a <> n -> finished n (l ++ [a]).
Proof.
  intros (pre & x & post & -> & E & C & N) D. exists pre, x, (post ++ [a]). rewrite <- app_assoc. split; [reflexivity|]. split; [exact E|]. split; [exact C|].
  rewrite map_app, in_app_iff. intros [X|[X|[]]]; [exact (N X)|congruence].
Qed.
Lemma finished_now n l a : at_job a = n -> completed a -> finished n (l ++ [a]).
Proof. intros E C. exists l, a, []. repeat split; auto. Qed.

Lemma nodup_snoc {A} (l : list A) x : NoDup l -> ~ In x l -> NoDup (l ++ [x]).
Proof. intros N H. apply NoDup_rev in N. rewrite <- (rev_involutive (l ++ [x])). apply NoDup_rev. rewrite rev_app_distr. constructor; [rewrite <- in_rev; exact H|exact N]. Qed.

Definition handler_of (j : job) : res handler := new_job_handler (j_type j) (j_params j).
Definition is_delta_job (e : jentry) : Prop := exists r n, e = delta_job r n.
Lemma delta_no_handler j : is_delta_job (QAsync, j_type j, j_params j) -> handler_of j = Err.
Proof. intros (r & n & X). unfold delta_job in X. injection X as E1 E2. unfold handler_of. rewrite E1, E2. reflexivity. Qed.

Section Inv.
Variable E : env.
Variable T : string -> option tram.
Variable B : list string.
Variables njobs ncpu : Z.
Notation kinds := (pool_of njobs ncpu).
Notation dstep := (dstep E T B).

Record DI (rs : list request) (d : daemon) : Prop := {
  di_run : dm_sys d = Jobs.run kinds (dm_jobs d);
  di_bound : bounded (dm_jobs d);
  di_sync : map (fun j => (QSync, j_type j, j_params j)) (accepted_in QSync (y_accepted (dm_sys d))) = map job_of rs;
  di_async : forall j, In (QAsync, j) (y_accepted (dm_sys d)) -> is_delta_job (QAsync, j_type j, j_params j);
  di_idle : forall i, holds (dm_sys d) i = None -> dm_phase d i = PFresh;
  di_queueing : forall i l desc, dm_phase d i = PQueueing l desc -> Forall is_delta_job l;
  di_att : forall a, In a (attempts (dm_log d)) ->
    exists j h, In (QSync, j) (y_accepted (dm_sys d)) /\ j_no j = at_job a /\ handler_of j = Ok h /\ execute h = at_todo a;
  di_before : forall a j, In a (attempts (dm_log d)) -> In (QSync, j) (y_accepted (dm_sys d)) -> j_no j < at_job a -> In (j_no j) (y_retired (dm_sys d));
  di_sorted : StronglySorted le (map at_job (attempts (dm_log d)));
  di_done : forall j h, In (QSync, j) (y_accepted (dm_sys d)) -> handler_of j = Ok h -> In (j_no j) (y_retired (dm_sys d)) ->
    finished (j_no j) (attempts (dm_log d));
  di_over : forall i j h desc f, holds (dm_sys d) i = Some j -> dm_phase d i = POver desc f -> handler_of j = Ok h ->
    finished (j_no j) (attempts (dm_log d));
  di_calm : steady (dm_log d) ->
    (forall a, In a (attempts (dm_log d)) -> In (at_job a) (y_retired (dm_sys d)) \/
       exists i j desc f, holds (dm_sys d) i = Some j /\ j_no j = at_job a /\ dm_phase d i = POver desc f) /\
    NoDup (map at_job (attempts (dm_log d)))
}.

Lemma held_sync rs d i j h : DI rs d -> holds (dm_sys d) i = Some j -> handler_of j = Ok h ->
  i = 0 /\ exists a, In (QSync, a) (y_accepted (dm_sys d)) /\ j_no a = j_no j /\ handler_of a = Ok h /\ ~ In (j_no j) (y_retired (dm_sys d)) /\
    forall j', In (QSync, j') (y_accepted (dm_sys d)) -> j_no j' < j_no j -> In (j_no j') (y_retired (dm_sys d)).
Proof.
  intros I H Hh. apply holds_spec in H as (q & k & H). pose proof (di_run _ _ I) as R. pose proof (di_bound _ _ I) as Bd.
  pose proof H as H0. rewrite R in H.
  destruct (held_accepted kinds (dm_jobs d) Bd _ _ _ _ H) as (a & Ha & Ea & Nr). rewrite <- R in Ha, Nr.
  assert (Hj : handler_of a = handler_of j) by (unfold handler_of; unfold ident in Ea; congruence).
  assert (q = QSync).
  { destruct q; [reflexivity|]. pose proof (delta_no_handler _ (di_async _ _ I _ Ha)). congruence. }
  subst q. split; [eapply one_sync; [exact H|reflexivity]|]. exists a. split; [exact Ha|]. split; [apply ident_no; exact Ea|]. split; [congruence|].
  split; [exact Nr|]. intros j' Hj' L. rewrite R. apply (C31_sequential_jobs_run_in_order njobs ncpu (dm_jobs d) i (j_no j)).
  - exact Bd.
  - exists k, j. split; [exact H|reflexivity].
  - rewrite <- R. exact Hj'.
  - exact L.
Qed.

(** attempts already made have numbers up to that of the job being held *)
Lemma att_le rs d i j h a : DI rs d -> holds (dm_sys d) i = Some j -> handler_of j = Ok h -> In a (attempts (dm_log d)) -> at_job a <= j_no j.
Proof.
  intros I H Hh Ha. destruct (held_sync rs d i j h I H Hh) as (_ & b & Hb & Eb & _ & Nr & _).
  destruct (le_lt_dec (at_job a) (j_no j)) as [L|L]; [exact L|exfalso]. apply Nr. rewrite <- Eb. apply (di_before _ _ I a b Ha Hb). lia.
Qed.

(** *** A step that appends an attempt of the job held by worker [i] *)
Lemma sorted_snoc l n : StronglySorted le l -> (forall x, In x l -> x <= n) -> StronglySorted le (l ++ [n]).
Proof.
  induction 1 as [|x l S IH F]; intros H; cbn [app]; [repeat constructor|].
  constructor; [apply IH; intros y Hy; apply H; right; exact Hy|]. apply Forall_app. split; [exact F|]. constructor; [apply H; left; reflexivity|constructor].
Qed.
Lemma add_attempt rs d i j h o e :
  DI rs d -> holds (dm_sys d) i = Some j -> handler_of j = Ok h -> (forall desc f, dm_phase d i <> POver desc f) ->
  let l := attempts (dm_log d) ++ [Attempt (j_no j) o (execute h) e] in
  (forall a, In a l -> exists j' h', In (QSync, j') (y_accepted (dm_sys d)) /\ j_no j' = at_job a /\ handler_of j' = Ok h' /\ execute h' = at_todo a) /\
  (forall a j', In a l -> In (QSync, j') (y_accepted (dm_sys d)) -> j_no j' < at_job a -> In (j_no j') (y_retired (dm_sys d))) /\
  StronglySorted le (map at_job l) /\
  (forall j' h', In (QSync, j') (y_accepted (dm_sys d)) -> handler_of j' = Ok h' -> In (j_no j') (y_retired (dm_sys d)) -> finished (j_no j') l) /\
  (steady (dm_log d) -> NoDup (map at_job l) /\
     (forall a, In a (attempts (dm_log d)) -> In (at_job a) (y_retired (dm_sys d)))).
Proof.
  intros I H Hh NP l. destruct (held_sync rs d i j h I H Hh) as (Ei & b & Hb & Eb & Hbh & Nr & Bef). subst i.
  split; [|split; [|split; [|split]]].
  - intros a Ha. apply in_app_iff in Ha as [Ha|[<-|[]]]; [exact (di_att _ _ I a Ha)|]. exists b, h. cbn. auto.
  - intros a j' Ha Hj'. apply in_app_iff in Ha as [Ha|[<-|[]]]; [exact (di_before _ _ I a j' Ha Hj')|]. cbn. apply Bef. exact Hj'.
  - unfold l. rewrite map_app. apply sorted_snoc; [exact (di_sorted _ _ I)|]. intros x Hx. apply in_map_iff in Hx as (a & <- & Ha). exact (att_le rs d 0 j h a I H Hh Ha).
  - intros j' h' Hj' Hh' R. apply finished_more; [exact (di_done _ _ I j' h' Hj' Hh' R)|]. cbn. intros X. apply Nr. rewrite X. exact R.
  - intros S. destruct (di_calm _ _ I S) as [C ND].
    assert (All : forall a, In a (attempts (dm_log d)) -> In (at_job a) (y_retired (dm_sys d))).
    { intros a Ha. destruct (C a Ha) as [X|(i' & j' & desc & f & H' & E' & P')]; [exact X|exfalso].
      destruct (di_att _ _ I a Ha) as (ja & ha & Hja & Eja & Hha & _).
      pose proof H' as H0. rewrite (di_run _ _ I) in H'. apply holds_spec in H' as (q' & k' & H').
      destruct (held_accepted kinds (dm_jobs d) (di_bound _ _ I) _ _ _ _ H') as (x & Hx & Ex & Nx). rewrite <- (di_run _ _ I) in Hx.
      assert (Q : q' = QSync).
      { rewrite (di_run _ _ I) in Hx, Hja. apply ident_no in Ex.
        destruct (accepted_unique kinds (dm_jobs d) (di_bound _ _ I) _ _ _ _ Hja Hx ltac:(congruence)) as [-> _]. reflexivity. }
      subst q'. assert (i' = 0) by (eapply one_sync; [exact H'|reflexivity]). subst i'. destruct (NP _ _ P'). }
    split; [|exact All]. unfold l. rewrite map_app. cbn [map]. apply nodup_snoc; [exact ND|]. cbn. intros X. apply in_map_iff in X as (a & Ea & Ha). apply Nr.
    rewrite <- Ea. apply All. exact Ha.
Qed.

Lemma accepted_in_app q A A' : accepted_in q (A ++ A') = accepted_in q A ++ accepted_in q A'.
Proof. unfold accepted_in. rewrite filter_app, map_app. reflexivity. Qed.

Lemma bounded_next (d : daemon) x y : bounded (dm_jobs d ++ [x]) -> bounded (dm_jobs d ++ [y]).
Proof. unfold bounded. rewrite !app_length. cbn [List.length]. auto. Qed.

(** a store call that neither accepts nor retires a job *)
Lemma DI_neutral rs d e' ph :
  DI rs d -> bounded (dm_jobs d ++ [e']) ->
  let y' := feed d e' in
  y_accepted y' = y_accepted (dm_sys d) -> y_retired y' = y_retired (dm_sys d) ->
  (forall i j, holds (dm_sys d) i = Some j -> holds y' i = Some j) ->
  (forall i, dm_phase d i <> PFresh -> ph i = dm_phase d i) -> (forall i, dm_phase d i = PFresh -> ph i = PFresh) ->
  DI rs (Daemon y' (dm_core d) ph (dm_log d) (dm_jobs d ++ [e'])).
Proof.
  intros I Bd y' EA ER Hh P1 P2.
  assert (P : forall i, ph i = dm_phase d i).
  { intros i. destruct (dm_phase d i) eqn:X; [apply P2; exact X|rewrite <- X; apply P1; congruence|rewrite <- X; apply P1; congruence]. }
  constructor; cbn [dm_sys dm_core dm_phase dm_log dm_jobs].
  - unfold y', feed. rewrite run_app, <- (di_run _ _ I). reflexivity.
  - exact Bd.
  - rewrite EA. exact (di_sync _ _ I).
  - rewrite EA. exact (di_async _ _ I).
  - intros i N. rewrite P. apply (di_idle _ _ I). destruct (holds (dm_sys d) i) eqn:X; [rewrite (Hh _ _ X) in N; discriminate|reflexivity].
  - intros i l desc X. rewrite P in X. exact (di_queueing _ _ I i l desc X).
  - rewrite EA. exact (di_att _ _ I).
  - rewrite EA, ER. exact (di_before _ _ I).
  - exact (di_sorted _ _ I).
  - rewrite EA, ER. exact (di_done _ _ I).
  - intros i j h desc f H X. rewrite P in X. assert (H0 : holds (dm_sys d) i = Some j).
    { destruct (holds (dm_sys d) i) as [j0|] eqn:Y; [pose proof (Hh _ _ Y); congruence|]. rewrite (di_idle _ _ I i Y) in X. discriminate. }
    exact (di_over _ _ I i j h desc f H0 X).
  - intros S. rewrite ER. destruct (di_calm _ _ I S) as [C N]. split; [|exact N]. intros a Ha. destruct (C a Ha) as [X|(i & j & desc & f & H & F & X)]; [left; exact X|].
    right. exists i, j, desc, f. rewrite P. split; [exact (Hh _ _ H)|auto].
Qed.

(** accepting a job *)
Lemma DI_push rs rs' d q ty ps ph :
  DI rs d -> y_up (dm_sys d) = true -> bounded (dm_jobs d ++ [Do (APush q ty ps)]) ->
  ((q = QSync /\ exists r, rs' = rs ++ [r] /\ job_of r = (q, ty, ps)) \/ (rs' = rs /\ is_delta_job (q, ty, ps))) ->
  (forall i, dm_phase d i = PFresh -> ph i = PFresh) ->
  (forall i l desc, ph i = PQueueing l desc -> Forall is_delta_job l) ->
  (forall i desc f, ph i = POver desc f <-> dm_phase d i = POver desc f) ->
  DI rs' (Daemon (feed d (Do (APush q ty ps))) (dm_core d) ph (dm_log d) (dm_jobs d ++ [Do (APush q ty ps)])).
Proof.
  intros I U Bd K P1 P2 P3. pose proof (di_run _ _ I) as R. pose proof (di_bound _ _ I) as Bd0.
  pose proof (push_step kinds (dm_jobs d) Bd0 q ty ps) as X. rewrite <- R in X. destruct (X U) as (EA & ER & Hh & _). clear X.
  constructor; cbn [dm_sys dm_core dm_phase dm_log dm_jobs]; unfold feed.
  - rewrite run_app, <- R. reflexivity.
  - exact Bd.
  - rewrite EA, accepted_in_app, map_app, (di_sync _ _ I). destruct K as [(-> & r & -> & F)|(-> & r & n & F)].
    + rewrite map_app. cbn [accepted_in filter fst queue_eqb map snd]. cbn. rewrite F. reflexivity.
    + unfold delta_job in F. injection F as -> _ _. cbn. rewrite app_nil_r. reflexivity.
  - rewrite EA. intros j Hj. apply in_app_iff in Hj as [Hj|[Hj|[]]]; [exact (di_async _ _ I j Hj)|]. injection Hj as -> <-. cbn.
    destruct K as [(F & _)|(_ & F)]; [discriminate|exact F].
  - intros i N. rewrite Hh in N. apply P1, (di_idle _ _ I), N.
  - exact P2.
  - intros a Ha. destruct (di_att _ _ I a Ha) as (j & h & Hj & Z). exists j, h. split; [rewrite EA; apply in_app_iff; left; exact Hj|exact Z].
  - intros a j Ha Hj L. rewrite ER. rewrite EA in Hj. apply in_app_iff in Hj as [Hj|[Hj|[]]]; [exact (di_before _ _ I a j Ha Hj L)|exfalso].
    injection Hj as -> <-. cbn [j_no] in L. destruct (di_att _ _ I a Ha) as (j & h & Hj & Z & _). rewrite R in Hj, L. pose proof (accepted_number _ _ Bd0 _ _ Hj). lia.
  - exact (di_sorted _ _ I).
  - intros j h Hj Hh' Hr. rewrite ER in Hr. rewrite EA in Hj. apply in_app_iff in Hj as [Hj|[Hj|[]]]; [exact (di_done _ _ I j h Hj Hh' Hr)|exfalso].
    injection Hj as -> <-. cbn [j_no] in Hr. rewrite R in Hr. pose proof (iv_ret _ _ _ _ _ _ (run_inv kinds (dm_jobs d) Bd0) _ Hr). lia.
  - intros i j h desc f H F. rewrite Hh in H. apply P3 in F. exact (di_over _ _ I i j h desc f H F).
  - intros S. rewrite ER. destruct (di_calm _ _ I S) as [C N]. split; [|exact N]. intros a Ha. destruct (C a Ha) as [Y|(i & j & desc & f & H & F & Y)]; [left; exact Y|].
    right. exists i, j, desc, f. rewrite Hh. split; [exact H|]. split; [exact F|]. apply P3. exact Y.
Qed.

(** retiring a job *)
Lemma DI_finish rs d i desc f :
  DI rs d -> y_up (dm_sys d) = true -> bounded (dm_jobs d ++ [Do (AFinish i desc f)]) -> dm_phase d i = POver desc f ->
  DI rs (Daemon (feed d (Do (AFinish i desc f))) (dm_core d) (set_phase d i PFresh) (dm_log d) (dm_jobs d ++ [Do (AFinish i desc f)])).
Proof.
  intros I U Bd Ph. pose proof (di_run _ _ I) as R. pose proof (di_bound _ _ I) as Bd0.
  assert (H : exists j, holds (dm_sys d) i = Some j).
  { destruct (holds (dm_sys d) i) eqn:X; [eauto|]. rewrite (di_idle _ _ I i X) in Ph. discriminate. }
  destruct H as [j H]. pose proof (finish_step kinds (dm_jobs d) Bd0 i desc f j) as X. rewrite <- R in X. destruct (X U H) as (EA & ER & Hi & Ho & _). clear X.
  constructor; cbn [dm_sys dm_core dm_phase dm_log dm_jobs]; unfold feed.
  - rewrite run_app, <- R. reflexivity.
  - exact Bd.
  - rewrite EA. exact (di_sync _ _ I).
  - rewrite EA. exact (di_async _ _ I).
  - intros i' N. unfold set_phase. destruct (Nat.eqb_spec i' i) as [->|D]; [reflexivity|]. rewrite (Ho _ D) in N. exact (di_idle _ _ I _ N).
  - intros i' l ds X. unfold set_phase in X. destruct (Nat.eqb i' i); [discriminate|exact (di_queueing _ _ I _ _ _ X)].
  - rewrite EA. exact (di_att _ _ I).
  - rewrite EA, ER. intros a j' Ha Hj L. apply in_app_iff. left. exact (di_before _ _ I a j' Ha Hj L).
  - exact (di_sorted _ _ I).
  - rewrite EA, ER. intros j' h Hj Hh Hr. apply in_app_iff in Hr as [Hr|[Hr|[]]]; [exact (di_done _ _ I j' h Hj Hh Hr)|].
    assert (Eh : handler_of j = Ok h).
    { pose proof H as H0. apply holds_spec in H0 as (q & k & H0). rewrite R in H0. destruct (held_accepted _ _ Bd0 _ _ _ _ H0) as (a & Ha & Ea & _).
      rewrite R in Hj. destruct (accepted_unique _ _ Bd0 _ _ _ _ Ha Hj) as [_ ->]; [rewrite (ident_no _ _ Ea); exact Hr|].
      unfold handler_of in *. unfold ident in Ea. congruence. }
    rewrite <- Hr. exact (di_over _ _ I i j h desc f H Ph Eh).
  - intros i' j' h ds f' H' F. unfold set_phase in F. destruct (Nat.eqb_spec i' i) as [->|D]; [discriminate|]. rewrite (Ho _ D) in H'. exact (di_over _ _ I i' j' h ds f' H' F).
  - intros S. rewrite ER. destruct (di_calm _ _ I S) as [C N]. split; [|exact N]. intros a Ha. destruct (C a Ha) as [Y|(i' & j' & ds & f' & H' & F & Y)].
    + left. apply in_app_iff. left. exact Y.
    + destruct (Nat.eq_dec i' i) as [->|D].
      * left. apply in_app_iff. right. left. congruence.
      * right. exists i', j', ds, f'. unfold set_phase. pose proof D as D'. apply Nat.eqb_neq in D'. rewrite D', (Ho _ D). auto.
Qed.

(** the daemon goes down, possibly after an attempt *)
Lemma DI_down rs rs' d a n core lg :
  DI rs d -> y_up (dm_sys d) = true -> bounded (dm_jobs d ++ [Crash a n]) ->
  (match a with
   | APush q ty ps => if (1 <=? n)%nat then (q = QSync /\ exists r, rs' = rs ++ [r] /\ job_of r = (q, ty, ps)) \/ (rs' = rs /\ is_delta_job (q, ty, ps)) else rs' = rs
   | AFinish i desc f => rs' = rs /\ dm_phase d i = POver desc f
   | _ => rs' = rs
   end) ->
  (lg = [LDown] \/ exists i j h o e, a = AReset false /\ n = 0 /\ holds (dm_sys d) i = Some j /\ handler_of j = Ok h /\ dm_phase d i = PFresh /\ lg = [LAttempt (j_no j) o (execute h) e] /\ ~ steady lg) ->
  DI rs' (Daemon (feed d (Crash a n)) core all_fresh (dm_log d ++ lg) (dm_jobs d ++ [Crash a n])).
Proof.
  intros I U Bd K L. pose proof (di_run _ _ I) as R. pose proof (di_bound _ _ I) as Bd0.
  assert (EA : exists new, y_accepted (feed d (Crash a n)) = y_accepted (dm_sys d) ++ new /\
     map (fun j => (QSync, j_type j, j_params j)) (accepted_in QSync (y_accepted (dm_sys d) ++ new)) = map job_of rs' /\
     (forall j, In (QAsync, j) new -> is_delta_job (QAsync, j_type j, j_params j)) /\
     (forall q j, In (q, j) new -> j_no j = List.length (y_accepted (dm_sys d)))).
  { unfold feed. destruct a as [q ty ps|i|i desc f|b].
    - pose proof (push_crash kinds (dm_jobs d) Bd0 q ty ps n) as X. rewrite <- R in X. destruct (X U) as (-> & _). clear X.
      destruct (1 <=? n)%nat.
      + eexists. split; [reflexivity|]. split; [|split].
        * rewrite accepted_in_app, map_app, (di_sync _ _ I). destruct K as [(-> & r & -> & F)|(-> & r & m & F)].
          -- rewrite map_app. cbn. rewrite F. reflexivity.
          -- unfold delta_job in F. injection F as -> _ _. cbn. rewrite app_nil_r. reflexivity.
        * intros j [Hj|[]]. injection Hj as -> <-. cbn. destruct K as [(F & _)|(_ & F)]; [discriminate|exact F].
        * intros q' j [Hj|[]]. injection Hj as _ <-. reflexivity.
      + exists []. rewrite app_nil_r. subst rs'. split; [reflexivity|]. split; [exact (di_sync _ _ I)|]. split; [intros j []|intros q' j []].
    - exists []. subst rs'. rewrite app_nil_r. pose proof (crash_step kinds (dm_jobs d) (AClaim i) n) as X. rewrite <- R in X. destruct (X U ltac:(discriminate)) as (-> & _).
      split; [reflexivity|]. split; [exact (di_sync _ _ I)|]. split; [intros j []|intros q' j []].
    - exists []. destruct K as [-> K]. rewrite app_nil_r. pose proof (crash_step kinds (dm_jobs d) (AFinish i desc f) n) as X. rewrite <- R in X. destruct (X U ltac:(discriminate)) as (-> & _).
      split; [reflexivity|]. split; [exact (di_sync _ _ I)|]. split; [intros j []|intros q' j []].
    - exists []. subst rs'. rewrite app_nil_r. pose proof (crash_step kinds (dm_jobs d) (AReset b) n) as X. rewrite <- R in X. destruct (X U ltac:(discriminate)) as (-> & _).
      split; [reflexivity|]. split; [exact (di_sync _ _ I)|]. split; [intros j []|intros q' j []]. }
  assert (ER : exists fin, y_retired (feed d (Crash a n)) = y_retired (dm_sys d) ++ fin /\
     forall m, In m fin -> exists i j desc f, holds (dm_sys d) i = Some j /\ j_no j = m /\ dm_phase d i = POver desc f /\ lg = [LDown]).
  { unfold feed. assert (D : (exists q ty ps, a = APush q ty ps) \/ forall q ty ps, a <> APush q ty ps) by (destruct a; [left; eauto|right; discriminate|right; discriminate|right; discriminate]).
    destruct D as [(q & ty & ps & ->)|D].
    - pose proof (push_crash kinds (dm_jobs d) Bd0 q ty ps n) as X. rewrite <- R in X. destruct (X U) as (_ & ->). exists []. rewrite app_nil_r. split; [reflexivity|intros m []].
    - pose proof (crash_step kinds (dm_jobs d) a n) as X. rewrite <- R in X. destruct (X U D) as (_ & [->|(i & desc & f & j & -> & H & ->)]).
      + exists []. rewrite app_nil_r. split; [reflexivity|intros m []].
      + exists [j_no j]. split; [reflexivity|]. intros m [<-|[]]. exists i, j, desc, f. split; [exact H|]. split; [reflexivity|]. split; [apply K|].
        destruct L as [L|(i' & j' & h & o & e & F & _)]; [exact L|discriminate]. }
  destruct EA as (new & EA & ES & EB & EN), ER as (fin & ER & EF).
  assert (Idle : forall i, holds (feed d (Crash a n)) i = None).
  { intros i. unfold feed. pose proof (crash_idle kinds (dm_jobs d) a n i) as X. rewrite <- R in X. apply (X U). }
  assert (Lg : attempts lg = [] \/ exists i j h o e, holds (dm_sys d) i = Some j /\ handler_of j = Ok h /\ dm_phase d i = PFresh /\ attempts lg = [Attempt (j_no j) o (execute h) e] /\ fin = []).
  { destruct L as [->|(i & j & h & o & e & -> & -> & H & Hh & Ph & -> & _)]; [left; reflexivity|right]. exists i, j, h, o, e. do 4 (split; [assumption || reflexivity|]).
    destruct fin as [|m fin]; [reflexivity|exfalso]. destruct (EF m (or_introl eq_refl)) as (i' & j' & desc & f & _ & _ & _ & F). discriminate. }
  assert (NotSteady : ~ steady (dm_log d ++ lg)).
  { intros S. apply steady_app in S as [_ S]. destruct L as [->|(i & j & h & o & e & _ & _ & _ & _ & _ & _ & F)]; [inversion S as [|? ? F _]; exact F|exact (F S)]. }
  assert (Num : forall q j, In (q, j) (y_accepted (dm_sys d)) -> j_no j < List.length (y_accepted (dm_sys d))).
  { intros q j Hj. rewrite R in *. exact (accepted_number _ _ Bd0 _ _ Hj). }
  assert (FinA : forall m, In m fin -> exists q j, In (q, j) (y_accepted (dm_sys d)) /\ j_no j = m).
  { intros m Hm. destruct (EF m Hm) as (i & j & desc & f & H & E0 & _). apply holds_spec in H as (q & k & H). rewrite R in H. destruct (held_accepted _ _ Bd0 _ _ _ _ H) as (x & Hx & Ex & _).
    exists q, x. rewrite R. split; [exact Hx|]. rewrite (ident_no _ _ Ex). exact E0. }
  assert (Main : (forall x, In x (attempts (dm_log d ++ lg)) -> exists j' h', In (QSync, j') (y_accepted (dm_sys d)) /\ j_no j' = at_job x /\ handler_of j' = Ok h' /\ execute h' = at_todo x) /\
    (forall x j', In x (attempts (dm_log d ++ lg)) -> In (QSync, j') (y_accepted (dm_sys d)) -> j_no j' < at_job x -> In (j_no j') (y_retired (dm_sys d))) /\
    StronglySorted le (map at_job (attempts (dm_log d ++ lg))) /\
    (forall j' h', In (QSync, j') (y_accepted (dm_sys d)) -> handler_of j' = Ok h' -> In (j_no j') (y_retired (dm_sys d)) -> finished (j_no j') (attempts (dm_log d ++ lg)))).
  { rewrite attempts_app. destruct Lg as [->|(i & j & h & o & e & H & Hh & Ph & -> & _)].
    - rewrite app_nil_r. split; [exact (di_att _ _ I)|]. split; [exact (di_before _ _ I)|]. split; [exact (di_sorted _ _ I)|exact (di_done _ _ I)].
    - destruct (add_attempt rs d i j h o e I H Hh ltac:(rewrite Ph; discriminate)) as (X1 & X2 & X3 & X4 & _). auto. }
  destruct Main as (M1 & M2 & M3 & M4).
  constructor; cbn [dm_sys dm_core dm_phase dm_log dm_jobs].
  - unfold feed. rewrite run_app, <- R. reflexivity.
  - exact Bd.
  - rewrite EA. exact ES.
  - rewrite EA. intros j Hj. apply in_app_iff in Hj as [Hj|Hj]; [exact (di_async _ _ I j Hj)|exact (EB j Hj)].
  - reflexivity.
  - discriminate.
  - intros x Hx. destruct (M1 x Hx) as (j & h & Hj & Z). exists j, h. split; [rewrite EA; apply in_app_iff; left; exact Hj|exact Z].
  - intros x j Hx Hj L'. rewrite ER. apply in_app_iff. left. rewrite EA in Hj. apply in_app_iff in Hj as [Hj|Hj]; [exact (M2 x j Hx Hj L')|exfalso].
    apply EN in Hj. destruct (M1 x Hx) as (j' & h' & Hj' & Z & _). apply Num in Hj'. lia.
  - exact M3.
  - intros j h Hj Hh Hr. rewrite EA in Hj. rewrite ER in Hr. apply in_app_iff in Hj as [Hj|Hj].
    + apply in_app_iff in Hr as [Hr|Hr]; [exact (M4 j h Hj Hh Hr)|].
      destruct (EF _ Hr) as (i & j' & desc & f & H & E0 & Ph & ->).
      assert (Eh : handler_of j' = Ok h).
      { pose proof H as H0. apply holds_spec in H0 as (q & k & H0). rewrite R in H0. destruct (held_accepted _ _ Bd0 _ _ _ _ H0) as (x & Hx & Ex & _).
        rewrite R in Hj. destruct (accepted_unique _ _ Bd0 _ _ _ _ Hx Hj) as [_ ->]; [rewrite (ident_no _ _ Ex); exact E0|].
        unfold handler_of in *. unfold ident in Ex. congruence. }
      rewrite attempts_app. cbn [attempts flat_map app]. rewrite app_nil_r. rewrite <- E0. exact (di_over _ _ I i j' h desc f H Ph Eh).
    + exfalso. apply EN in Hj. apply in_app_iff in Hr as [Hr|Hr].
      * rewrite R in Hr, Hj. pose proof (iv_ret _ _ _ _ _ _ (run_inv kinds (dm_jobs d) Bd0) _ Hr). lia.
      * destruct (FinA _ Hr) as (q & x & Hx & Ex). apply Num in Hx. lia.
  - intros i j h desc f H. rewrite Idle in H. discriminate.
  - intros S. destruct (NotSteady S).
Qed.

(** the worker takes a step of its job that leaves no attempt behind *)
Lemma DI_local rs d core i p lg :
  DI rs d -> attempts lg = [] -> steady lg ->
  (p = dm_phase d i \/ (exists j, holds (dm_sys d) i = Some j /\ (forall desc f, dm_phase d i <> POver desc f) /\
     ((exists l desc, p = PQueueing l desc /\ Forall is_delta_job l) \/ (exists desc f, p = POver desc f /\ forall h, handler_of j <> Ok h)))) ->
  DI rs (Daemon (dm_sys d) core (set_phase d i p) (dm_log d ++ lg) (dm_jobs d)).
Proof.
  intros I La Ls P.
  assert (K : forall i', set_phase d i p i' = dm_phase d i' \/ (i' = i /\ exists j, holds (dm_sys d) i = Some j /\ (forall desc f, dm_phase d i <> POver desc f) /\ set_phase d i p i' = p /\
     ((exists l desc, p = PQueueing l desc /\ Forall is_delta_job l) \/ (exists desc f, p = POver desc f /\ forall h, handler_of j <> Ok h)))).
  { intros i'. unfold set_phase. destruct (Nat.eqb_spec i' i) as [->|N]; [|left; reflexivity]. destruct P as [P|(j & H & Np & P)]; [left; exact P|right]. split; [reflexivity|]. exists j. auto. }
  constructor; cbn [dm_sys dm_core dm_phase dm_log dm_jobs]; rewrite ?attempts_app, ?La, ?app_nil_r.
  - exact (di_run _ _ I).
  - exact (di_bound _ _ I).
  - exact (di_sync _ _ I).
  - exact (di_async _ _ I).
  - intros i' N. destruct (K i') as [->|(-> & j & H & _)]; [exact (di_idle _ _ I i' N)|congruence].
  - intros i' l desc X. destruct (K i') as [Y|(-> & j & H & _ & Y & [(l' & ds & F & G)|(ds & f & F & _)])]; rewrite Y in X.
    + exact (di_queueing _ _ I _ _ _ X).
    + congruence.
    + congruence.
  - exact (di_att _ _ I).
  - exact (di_before _ _ I).
  - exact (di_sorted _ _ I).
  - exact (di_done _ _ I).
  - intros i' j h desc f H X Hh. destruct (K i') as [Y|(-> & j' & H' & _ & Y & [(l' & ds & F & G)|(ds & f' & F & G)])]; rewrite Y in X.
    + exact (di_over _ _ I _ _ _ _ _ H X Hh).
    + congruence.
    + exfalso. apply (G h). congruence.
  - intros S. apply steady_app in S as [S _]. destruct (di_calm _ _ I S) as [C N]. split; [|exact N]. intros a Ha.
    destruct (C a Ha) as [X|(i' & j & desc & f & H & F & X)]; [left; exact X|]. right. exists i', j, desc, f. split; [exact H|]. split; [exact F|].
    destruct (K i') as [->|(-> & j' & H' & Np & _)]; [exact X|destruct (Np _ _ X)].
Qed.

(** the worker is done with its job *)
Lemma DI_done_now rs d core i j h o ok desc f :
  DI rs d -> holds (dm_sys d) i = Some j -> handler_of j = Ok h -> (forall ds f', dm_phase d i <> POver ds f') ->
  DI rs (Daemon (dm_sys d) core (set_phase d i (POver desc f)) (dm_log d ++ [LAttempt (j_no j) o (execute h) (Completed ok)]) (dm_jobs d)).
Proof.
  intros I H Hh Np. destruct (add_attempt rs d i j h o (Completed ok) I H Hh Np) as (M1 & M2 & M3 & M4 & M5).
  constructor; cbn [dm_sys dm_core dm_phase dm_log dm_jobs]; rewrite ?attempts_app; cbn [attempts flat_map app].
  - exact (di_run _ _ I).
  - exact (di_bound _ _ I).
  - exact (di_sync _ _ I).
  - exact (di_async _ _ I).
  - intros i' N. unfold set_phase. destruct (Nat.eqb_spec i' i) as [->|D]; [congruence|exact (di_idle _ _ I _ N)].
  - intros i' l ds X. unfold set_phase in X. destruct (Nat.eqb_spec i' i) as [->|D]; [discriminate|exact (di_queueing _ _ I _ _ _ X)].
  - exact M1.
  - exact M2.
  - exact M3.
  - exact M4.
  - intros i' j' h' ds f' H' X Hh'. unfold set_phase in X. destruct (Nat.eqb_spec i' i) as [->|D].
    + assert (j' = j) by congruence. subst j'. apply finished_now; [reflexivity|]. exists ok. reflexivity.
    + apply finished_more; [exact (di_over _ _ I _ _ _ _ _ H' X Hh')|]. cbn. intros F. apply D.
      rewrite (di_run _ _ I) in H', H. symmetry. exact (held_once _ _ (di_bound _ _ I) _ _ _ _ H H' F).
  - intros S. apply steady_app in S as [S _]. destruct (M5 S) as [N R]. split; [|exact N]. intros a Ha. apply in_app_iff in Ha as [Ha|[<-|[]]]; [left; exact (R a Ha)|].
    right. exists i, j, desc, f. split; [exact H|]. split; [reflexivity|]. unfold set_phase. rewrite Nat.eqb_refl. reflexivity.
Qed.

Lemma set_phase_same d i p : dm_phase d i = p -> forall k, set_phase d i p k = dm_phase d k.
Proof. intros <- k. unfold set_phase. destruct (Nat.eqb_spec k i) as [->|N]; reflexivity. Qed.
Lemma DI_ext rs y c p p' l hs : (forall i, p i = p' i) -> DI rs (Daemon y c p l hs) -> DI rs (Daemon y c p' l hs).
Proof.
  intros X [H1 H2 H3 H4 H5 H6 H7 H8 H9 H10 H11 H12]. cbn [dm_sys dm_core dm_phase dm_log dm_jobs] in *. constructor; cbn [dm_sys dm_core dm_phase dm_log dm_jobs]; auto.
  - intros i N. rewrite <- X. auto.
  - intros i q ds F. rewrite <- X in F. exact (H6 _ _ _ F).
  - intros i j h ds f Hi F. rewrite <- X in F. exact (H11 _ _ _ _ _ Hi F).
  - intros S. destruct (H12 S) as [C N]. split; [|exact N]. intros a Ha. destruct (C a Ha) as [Y|(i & j & ds & f & P1 & P2 & P3)]; [left; exact Y|]. right. exists i, j, ds, f. rewrite <- X. auto.
Qed.

Lemma held_is_holds d i : held_job d i = holds (dm_sys d) i.
Proof. reflexivity. Qed.

Lemma delta_pushes_delta r names : Forall is_delta_job (delta_pushes r names).
Proof. unfold delta_pushes. apply Forall_forall. intros e He. apply in_map_iff in He as (n & <- & _). exists r, n. reflexivity. Qed.

Lemma DI_begin rs d i o j :
  DI rs d -> y_up (dm_sys d) = true -> bounded (dm_jobs d ++ [stop]) -> holds (dm_sys d) i = Some j -> dm_phase d i = PFresh ->
  DI rs (begin_job E T B d i o j).
Proof.
  intros I U Bd H Ph. unfold begin_job. assert (Np : forall ds f, dm_phase d i <> POver ds f) by (rewrite Ph; discriminate).
  destruct (new_job_handler (j_type j) (j_params j)) as [h| |] eqn:Eh; fold (handler_of j) in Eh.
  - cbv zeta. set (x := perform E T B o (execute h) (dm_core d)).
    destruct (result_of x) as [names| |].
    + destruct (execute h) as [p|r|path] eqn:Et.
      * rewrite <- Et. apply DI_done_now; assumption.
      * apply DI_local; [exact I|reflexivity|repeat constructor|]. right. exists j. split; [exact H|]. split; [exact Np|]. left. eexists _, _. split; [reflexivity|apply delta_pushes_delta].
      * rewrite <- Et. apply DI_done_now; assumption.
    + apply DI_done_now; assumption.
    + apply (DI_down rs rs d (AReset false) 0); [exact I|exact U|exact Bd|reflexivity|]. right. exists i, j, h, o, Panicked. repeat (split; [assumption || reflexivity|]).
      intros S. inversion S as [|? ? F _]. exact F.
  - rewrite <- (app_nil_r (dm_log d)). apply DI_local; [exact I|reflexivity|constructor|]. right. exists j. split; [exact H|]. split; [exact Np|]. right. eexists _, _. split; [reflexivity|]. congruence.
  - rewrite <- (app_nil_r (dm_log d)). apply DI_local; [exact I|reflexivity|constructor|]. right. exists j. split; [exact H|]. split; [exact Np|]. right. eexists _, _. split; [reflexivity|]. congruence.
Qed.

Lemma DI_step rs d e : DI rs d -> bounded (dm_jobs d ++ [stop]) -> DI (rs ++ taken d e) (dstep d e).
Proof.
  intros I Bd. pose proof (di_run _ _ I) as R. pose proof (di_bound _ _ I) as Bd0.
  assert (Bx : forall x, bounded (dm_jobs d ++ [x])) by (intros x; exact (bounded_next d _ _ Bd)).
  unfold taken.
  assert (Act : forall a, y_up (dm_sys d) = true -> act_of d e = Some a ->
     DI (rs ++ match e with DRequest r => [r] | DCrashIn (DRequest r) n => if (1 <=? n)%nat then [r] else [] | _ => [] end)
        (Daemon (feed d (Do a)) (dm_core d) (phase_after d e) (dm_log d) (dm_jobs d ++ [Do a]))).
  { intros a U Ha. destruct e; try discriminate; cbn [act_of phase_after] in *; rewrite ?app_nil_r.
    - destruct (job_of r) as [[q ty] ps] eqn:Ej. injection Ha as <-. apply (DI_push rs); auto.
      + left. split; [destruct r; cbn in Ej; congruence|]. exists r. auto.
      + exact (di_queueing _ _ I).
      + intros; reflexivity.
    - injection Ha as <-. pose proof (claim_step kinds (dm_jobs d) i) as X. rewrite <- R in X. destruct (X U) as (A1 & A2 & A3 & _).
      apply DI_neutral; auto.
    - destruct (dm_phase d i) as [|[|[[q ty] ps] l] desc|] eqn:Ph; try discriminate. injection Ha as <-. pose proof (di_queueing _ _ I _ _ _ Ph) as F. inversion F as [|? ? F1 F2]; subst.
      apply (DI_push rs); auto.
      + intros i' N. unfold set_phase. destruct (Nat.eqb_spec i' i) as [->|D]; [congruence|exact N].
      + intros i' l' ds N. unfold set_phase in N. destruct (Nat.eqb_spec i' i) as [->|D]; [congruence|exact (di_queueing _ _ I _ _ _ N)].
      + intros i' ds f. unfold set_phase. destruct (Nat.eqb_spec i' i) as [->|D]; [rewrite Ph; split; discriminate|reflexivity].
    - destruct (dm_phase d i) as [| |desc f] eqn:Ph; try discriminate. injection Ha as <-. apply DI_finish; auto.
    - injection Ha as <-. pose proof (reset_step kinds (dm_jobs d) failed) as X. rewrite <- R in X. destruct (X U) as (A1 & A2 & A3 & _).
      apply DI_neutral; auto. intros i j Hj. unfold feed. rewrite A3. exact Hj. }
  assert (Id : forall rs', rs' = rs -> DI rs' d) by (intros rs' ->; exact I).
  destruct e as [r|i|i o|i|i|b|e n|i o n| |n|ev]; cbn [Daemon.dstep].
  - destruct (y_up (dm_sys d)) eqn:U; cbn [negb]; [|apply Id, app_nil_r]. cbn [act_of] in *. destruct (job_of r) as [[q ty] ps]. apply Act; reflexivity.
  - destruct (y_up (dm_sys d)) eqn:U; cbn [negb]; [|apply Id, app_nil_r]. apply Act; reflexivity.
  - destruct (y_up (dm_sys d)) eqn:U; cbn [negb]; rewrite app_nil_r; [|exact I]. rewrite held_is_holds. destruct (holds (dm_sys d) i) as [j|] eqn:H; [|exact I].
    destruct (dm_phase d i) eqn:Ph; try exact I. apply DI_begin; assumption.
  - destruct (y_up (dm_sys d)) eqn:U; cbn [negb]; [|apply Id, app_nil_r]. destruct (act_of d (DQueue i)) as [a|] eqn:Ha; [apply Act; reflexivity|].
    rewrite app_nil_r. rewrite held_is_holds. destruct (holds (dm_sys d) i) as [j|] eqn:H; [|exact I]. destruct (dm_phase d i) as [|[|e l] desc|] eqn:Ph; try exact I.
    destruct (new_job_handler (j_type j) (j_params j)) as [h| |] eqn:Eh; try exact I. destruct (execute h) as [p|r|path] eqn:Et; try exact I. rewrite <- Et. apply DI_done_now; [exact I|exact H|exact Eh|rewrite Ph; discriminate].
  - destruct (y_up (dm_sys d)) eqn:U; cbn [negb]; [|apply Id, app_nil_r]. destruct (act_of d (DFinish i)) as [a|] eqn:Ha; [apply Act; reflexivity|apply Id, app_nil_r].
  - destruct (y_up (dm_sys d)) eqn:U; cbn [negb]; [|apply Id, app_nil_r]. apply Act; reflexivity.
  - destruct (y_up (dm_sys d)) eqn:U; cbn [negb]; [|apply Id, app_nil_r]. unfold down.
    assert (Plain : forall rs', rs' = rs -> DI rs' (Daemon (feed d stop) (restart (dm_core d)) all_fresh (dm_log d ++ [LDown]) (dm_jobs d ++ [stop]))).
    { intros rs' ->. apply (DI_down rs rs d (AReset false) 0); auto. }
    destruct e as [r|i|i o|i|i|b|e m|i o m| |m|ev]; cbn [act_of]; try (apply Plain, app_nil_r).
    + destruct (job_of r) as [[q ty] ps] eqn:Ej. apply (DI_down rs _ d (APush q ty ps) n); auto. destruct (1 <=? n)%nat; [|apply app_nil_r].
      left. split; [destruct r; cbn in Ej; congruence|]. exists r. auto.
    + apply (DI_down rs _ d (AClaim i) n); auto. apply app_nil_r.
    + destruct (dm_phase d i) as [|[|[[q ty] ps] l] desc|] eqn:Ph; try (apply Plain, app_nil_r). pose proof (di_queueing _ _ I _ _ _ Ph) as F. inversion F as [|? ? F1 F2]; subst.
      apply (DI_down rs _ d (APush q ty ps) n); auto. destruct (1 <=? n)%nat; [right; split; [apply app_nil_r|exact F1]|apply app_nil_r].
    + destruct (dm_phase d i) as [|l desc|desc f] eqn:Ph; try (apply Plain, app_nil_r). apply (DI_down rs _ d (AFinish i desc f) n); auto. split; [apply app_nil_r|exact Ph].
    + apply (DI_down rs _ d (AReset b) n); auto. apply app_nil_r.
  - destruct (y_up (dm_sys d)) eqn:U; cbn [negb]; rewrite app_nil_r; [|exact I].
    assert (Plain : DI rs (Daemon (feed d stop) (restart (dm_core d)) all_fresh (dm_log d ++ [LDown]) (dm_jobs d ++ [stop]))).
    { apply (DI_down rs rs d (AReset false) 0); auto. }
    rewrite held_is_holds. destruct (holds (dm_sys d) i) as [j|] eqn:H; [|exact Plain]. destruct (dm_phase d i) as [|l desc|desc f] eqn:Ph; try exact Plain.
    destruct (new_job_handler (j_type j) (j_params j)) as [h| |] eqn:Eh; try exact Plain. unfold down.
    apply (DI_down rs rs d (AReset false) 0); auto. right. exists i, j, h, o, (Died n). repeat (split; [assumption || reflexivity|]). intros S. inversion S as [|? ? F _]. exact F.
  - assert (X : DI rs (Daemon (feed d Start) (dm_core d) (dm_phase d) (dm_log d) (dm_jobs d ++ [Start]))).
    { pose proof (start_step kinds (dm_jobs d) Start) as X. rewrite <- R in X. destruct (X ltac:(left; reflexivity)) as (A1 & A2 & A3).
      apply DI_neutral; auto. intros i j Hj. unfold feed. rewrite A3. exact Hj. }
    destruct (y_up (dm_sys d)); rewrite app_nil_r; exact X.
  - assert (X : DI rs (Daemon (feed d (StartCrash n)) (dm_core d) (dm_phase d) (dm_log d) (dm_jobs d ++ [StartCrash n]))).
    { pose proof (start_step kinds (dm_jobs d) (StartCrash n)) as X. rewrite <- R in X. destruct (X ltac:(right; eauto)) as (A1 & A2 & A3).
      apply DI_neutral; auto. intros i j Hj. unfold feed. rewrite A3. exact Hj. }
    destruct (y_up (dm_sys d)); rewrite app_nil_r; exact X.
  - assert (X : DI rs (if outside_event ev then Daemon (dm_sys d) (ev_step E (dm_core d) ev) (dm_phase d) (dm_log d ++ [LWorld ev]) (dm_jobs d) else d)).
    { destruct (outside_event ev); [|exact I]. eapply DI_ext; [|apply (DI_local rs d _ 0 (dm_phase d 0)); [exact I|reflexivity|repeat constructor|left; reflexivity]]. apply set_phase_same. reflexivity. }
    destruct (y_up (dm_sys d)); rewrite app_nil_r; exact X.
Qed.

Lemma jobs_grow d e : List.length (dm_jobs (dstep d e)) <= S (List.length (dm_jobs d)).
Proof.
  assert (G : forall x, List.length (dm_jobs d ++ [x]) <= S (List.length (dm_jobs d))) by (intros x; rewrite app_length; cbn; lia).
  destruct e as [r|i|i o|i|i|b|e n|i o n| |n|ev]; cbn [Daemon.dstep]; try (destruct (negb (y_up (dm_sys d))); [lia|]).
  - destruct (act_of d (DRequest r)); [apply G|lia].
  - apply G.
  - destruct (held_job d i); [|lia]. destruct (dm_phase d i); try lia. unfold begin_job. destruct (new_job_handler _ _) as [h| |]; cbn [dm_jobs]; try lia.
    destruct (result_of _); cbn [dm_jobs]; [|lia|apply G]. destruct (execute h); cbn [dm_jobs]; lia.
  - destruct (act_of d (DQueue i)); [apply G|]. destruct (held_job d i) as [j|]; [|lia]. destruct (dm_phase d i) as [|[|x l] desc|]; try lia. destruct (new_job_handler _ _) as [h| |]; try lia. destruct (execute h); cbn [dm_jobs]; lia.
  - destruct (act_of d (DFinish i)); [apply G|lia].
  - apply G.
  - apply G.
  - destruct (held_job d i) as [j|]; [|apply G]. destruct (dm_phase d i); try apply G. destruct (new_job_handler _ _); apply G.
  - apply G.
  - apply G.
  - destruct (outside_event ev); cbn [dm_jobs]; lia.
Qed.
Lemma DI_boot : DI [] (dboot kinds).
Proof.
  assert (N : forall i, holds (boot kinds) i = None).
  { intros i. unfold holds. cbn [y_workers boot]. unfold start_workers. rewrite nth_error_map. destruct (nth_error kinds i); reflexivity. }
  constructor; cbn [dm_sys dboot dm_jobs dm_log dm_phase].
  - reflexivity.
  - unfold bounded. cbn. lia.
  - reflexivity.
  - intros j [].
  - reflexivity.
  - discriminate.
  - intros a [].
  - intros a j [].
  - constructor.
  - intros j h [].
  - intros i j h desc f H. rewrite N in H. discriminate.
  - intros _. split; [intros a []|constructor].
Qed.
Definition short (h : list devent) : Prop := (N.of_nat (List.length h) < 2 ^ 62)%N.
Lemma DI_fold h : forall rs d, DI rs d -> (N.of_nat (List.length (dm_jobs d) + List.length h) < 2 ^ 62)%N ->
  DI (rs ++ requests_from E T B d h) (fold_left dstep h d).
Proof.
  induction h as [|e h IH]; intros rs d I L; cbn [requests_from fold_left]; [rewrite app_nil_r; exact I|].
  rewrite app_assoc. apply IH.
  - apply DI_step; [exact I|]. unfold bounded. rewrite app_length. cbn [List.length] in *. lia.
  - pose proof (jobs_grow d e). cbn [List.length] in L. lia.
Qed.
Lemma DI_run h : short h -> DI (requests E T B kinds h) (drun E T B kinds h).
Proof. intros S. apply (DI_fold h [] (dboot kinds) DI_boot). exact S. Qed.
End Inv.

(** ** The repositories are what the log says *)
Section Replay.
Variable E : env.
Variable T : string -> option tram.
Variable B : list string.

Lemma upload_perform o path s : trace_of (perform E T B o (Upload path) s) = trace_of (transit_job E T B o path s) /\
  final_of (perform E T B o (Upload path) s) = final_of (transit_job E T B o path s).
Proof.
  cbn [perform]. unfold bind. destruct (transit_job E T B o path s) as [[t s1] [a| |]]; cbn; rewrite ?app_nil_r; auto.
Qed.
Lemma names_perform o r s : trace_of (perform E T B o (PushDeltas r) s) = trace_of (get_repo r s) /\
  final_of (perform E T B o (PushDeltas r) s) = final_of (get_repo r s) /\
  (result_of (perform E T B o (PushDeltas r) s) = Err -> final_of (get_repo r s) = s) /\
  result_of (perform E T B o (PushDeltas r) s) <> Panic.
Proof.
  cbn [perform]. unfold get_package_names, bind. assert (G : result_of (get_repo r s) = Err -> final_of (get_repo r s) = s).
  { unfold get_repo, bake_repo, bind, gets, ret, err, vol, durable. destruct (st_cache s r); [discriminate|]. destruct (mhas (d_repos (st_db s)) r); [|reflexivity].
    destruct (f_dir (st_fs s) r); discriminate. }
  assert (P : result_of (get_repo r s) <> Panic).
  { unfold get_repo, bake_repo, bind, gets, ret, err, vol, durable. destruct (st_cache s r); [discriminate|]. destruct (mhas (d_repos (st_db s)) r); [|discriminate].
    destruct (f_dir (st_fs s) r); discriminate. }
  destruct (get_repo r s) as [[t s1] [[]| |]]; cbn in *; rewrite ?app_nil_r; repeat split; auto; try discriminate.
Qed.
Lemma replay_app l l' : replay E T B (l ++ l') = fold_left (effect E T B) l' (replay E T B l).
Proof. unfold replay. apply fold_left_app. Qed.
Lemma begin_core d i o j : dm_core d = replay E T B (dm_log d) -> dm_core (begin_job E T B d i o j) = replay E T B (dm_log (begin_job E T B d i o j)).
Proof.
  intros R. unfold begin_job. destruct (new_job_handler (j_type j) (j_params j)) as [h| |]; [|exact R|exact R].
  cbv zeta. destruct (execute h) as [p|r|path].
  - cbn [perform]. destruct (result_of (run_op E o p (dm_core d))); cbn [dm_core dm_log]; rewrite replay_app; cbn [fold_left effect]; rewrite <- R; reflexivity.
  - destruct (names_perform o r (dm_core d)) as (_ & F & G & Np).
    destruct (result_of (perform E T B o (PushDeltas r) (dm_core d))); cbn [dm_core dm_log]; rewrite replay_app; cbn [fold_left effect]; rewrite <- R.
    + exact F.
    + rewrite F. apply G. reflexivity.
    + congruence.
  - destruct (upload_perform o path (dm_core d)) as [_ F].
    destruct (result_of (perform E T B o (Upload path) (dm_core d))); cbn [dm_core dm_log]; rewrite replay_app; cbn [fold_left effect]; rewrite <- R; rewrite F; reflexivity.
Qed.
Lemma core_step d e : dm_core d = replay E T B (dm_log d) -> dm_core (dstep E T B d e) = replay E T B (dm_log (dstep E T B d e)).
Proof.
  intros R. assert (Dn : forall a, dm_core (down d a (dm_core d) [LDown]) = replay E T B (dm_log (down d a (dm_core d) [LDown]))).
  { intros a. unfold down. cbn [dm_core dm_log]. rewrite replay_app. cbn [fold_left effect]. rewrite R. reflexivity. }
  destruct e as [r|i|i o|i|i|b|e n|i o n| |n|ev]; cbn [dstep]; try exact R; try (destruct (negb (y_up (dm_sys d))); [exact R|]).
  - destruct (act_of d (DRequest r)); exact R.
  - exact R.
  - destruct (held_job d i); [|exact R]. destruct (dm_phase d i); try exact R. apply begin_core. exact R.
  - destruct (act_of d (DQueue i)); [exact R|]. destruct (held_job d i) as [j|]; [|exact R]. destruct (dm_phase d i) as [|[|x l] desc|] eqn:Ph; try exact R. 
    destruct (new_job_handler (j_type j) (j_params j)) as [h| |]; try exact R. destruct (execute h) as [p|r|path]; try exact R.
    cbn [dm_core dm_log]. rewrite replay_app. exact R.
  - destruct (act_of d (DFinish i)); exact R.
  - exact R.
  - apply Dn.
  - destruct (held_job d i) as [j|]; [|apply Dn]. destruct (dm_phase d i); try apply Dn. destruct (new_job_handler (j_type j) (j_params j)) as [h| |]; try apply Dn.
    unfold down. cbn [dm_core dm_log]. rewrite replay_app. cbn [fold_left]. rewrite <- R. unfold cut. destruct (execute h) as [p|r|path].
    + reflexivity.
    + destruct (names_perform o r (dm_core d)) as (-> & -> & _). reflexivity.
    + destruct (upload_perform o path (dm_core d)) as (-> & ->). reflexivity.
  - destruct (outside_event ev); [|exact R]. cbn [dm_core dm_log]. rewrite replay_app. cbn [fold_left effect]. rewrite R. reflexivity.
Qed.
Lemma core_run kinds h : dm_core (drun E T B kinds h) = replay E T B (dm_log (drun E T B kinds h)).
Proof.
  unfold drun. assert (G : forall h d, dm_core d = replay E T B (dm_log d) -> dm_core (fold_left (dstep E T B) h d) = replay E T B (dm_log (fold_left (dstep E T B) h d))).
  { intros h0. induction h0 as [|e h0 IH]; intros d R; [exact R|]. cbn [fold_left]. apply IH, core_step, R. }
  apply G. reflexivity.
Qed.
End Replay.
