(** * PropsTimes: properties C83-C85 (what the status says about jobs and times) *)
From Verif Require Import Model.
From Verif Require Import Base LibDb Jobs JobSpec JobFacts JobFacts2 Dispatch Times.
From Coq Require Import Sorted Permutation.
Open Scope string_scope. Open Scope list_scope.

(** ** Specification *)
Definition events (h : list tevent) : list Jobs.event := map te_event h.
(** [e] comes before [e'] in the history *)
Definition follows (h : list tevent) (e e' : tevent) : Prop := exists a b c, h = a ++ e :: b ++ e' :: c.
(** what an event is about; the daemon may die in its course *)
Definition concerns (e : tevent) (a : act) : Prop := te_event e = Do a \/ exists n, te_event e = Crash a n.
Definition is_push (e : tevent) : Prop := exists q ty ps, concerns e (APush q ty ps).
Definition is_claim (e : tevent) (i : nat) : Prop := concerns e (AClaim i).
Definition is_finish (e : tevent) (i : nat) (failed : bool) : Prop :=
  exists d f, concerns e (AFinish i d f) /\ failed = match f with Some _ => true | None => false end.
(** A clock that does not go back. A worker reads it for the end of a job after
    all its earlier claims. *)
Record steady_clock (h : list tevent) : Prop := {
  sc_read : forall e, In e h -> (0 < te_stamp e <= te_now e)%N;
  sc_lock : forall e e', follows h e e' -> (te_now e <= te_now e')%N;
  sc_worker : forall e e' i b, follows h e e' -> is_claim e i -> is_finish e' i b -> (te_now e <= te_stamp e')%N
}.
Definition positive_clock (h : list tevent) : Prop := forall e, In e h -> (0 < te_now e)%N.

(** ** The stamps of a history *)
Lemma trun_app kinds h e : trun kinds (h ++ [e]) = tstep (trun kinds h) e.
Proof. unfold trun. rewrite fold_left_app. reflexivity. Qed.
Lemma tstep_sys x e : ts_sys (tstep x e) = step (ts_sys x) (te_event e).
Proof.
  unfold tstep. destruct (te_event e) as [a|a n| |n]; destruct (y_up (ts_sys x)); try reflexivity;
    destruct a as [q ty ps|i|i d f|b]; cbn [act_times]; try reflexivity;
    destruct (nth_error (y_workers (ts_sys x)) i) as [[q [kj|]]|]; try reflexivity;
    destruct (snd (claim q (y_store (ts_sys x)))) as [[[k j]|]| |]; try reflexivity; destruct (_ <=? _)%nat; reflexivity.
Qed.
Lemma trun_sys kinds h : ts_sys (trun kinds h) = run kinds (events h).
Proof.
  induction h as [|e h IH] using rev_ind; [reflexivity|]. rewrite trun_app, tstep_sys, IH. unfold events. rewrite map_app. cbn [map].
  rewrite run_app. reflexivity.
Qed.
Lemma follows_more h e a b : follows h a b -> follows (h ++ [e]) a b.
Proof. intros (x & y & z & ->). exists x, y, (z ++ [e]). rewrite <- !app_assoc. cbn [app]. rewrite <- app_assoc. reflexivity. Qed.
Lemma follows_last h e a : In a h -> follows (h ++ [e]) a e.
Proof. intros H. apply in_split in H as (x & y & ->). exists x, y, []. rewrite <- app_assoc. reflexivity. Qed.
Lemma follows_in h a b : follows h a b -> In a h /\ In b h.
Proof. intros (x & y & z & ->). split; apply in_app_iff; right; [left; reflexivity|]. right. apply in_app_iff. right. left. reflexivity. Qed.

(** where the stamps of an entry of a queue come from *)
Definition queue_stamps (h : list tevent) (claimed : bool) (t : timing) : Prop :=
  t_end t = 0%N /\
  if claimed then exists e0 e1 i, follows h e0 e1 /\ is_push e0 /\ is_claim e1 i /\ t_queued t = te_stamp e0 /\ t_begin t = te_now e1
  else t_begin t = 0%N /\ exists e0, In e0 h /\ is_push e0 /\ t_queued t = te_stamp e0.
Definition held_stamps (h : list tevent) (i : nat) (t : timing) : Prop :=
  exists e0 e1, follows h e0 e1 /\ is_push e0 /\ is_claim e1 i /\ t_queued t = te_stamp e0 /\ t_begin t = te_now e1.
Definition record_stamps (h : list tevent) (failed : bool) (t : timing) : Prop :=
  exists e0 e1 e2 i, follows h e0 e1 /\ follows h e1 e2 /\ is_push e0 /\ is_claim e1 i /\ is_finish e2 i failed /\
    t_queued t = te_stamp e0 /\ t_begin t = te_now e1 /\ t_end t = te_stamp e2.
Lemma queue_stamps_more h e c t : queue_stamps h c t -> queue_stamps (h ++ [e]) c t.
Proof.
  intros [A B]. split; [exact A|]. destruct c.
  - destruct B as (e0 & e1 & i & F & B). exists e0, e1, i. split; [exact (follows_more _ _ _ _ F)|exact B].
  - destruct B as (B & e0 & I0 & B2). split; [exact B|]. exists e0. split; [apply in_app_iff; left; exact I0|exact B2].
Qed.
Lemma held_stamps_more h e i t : held_stamps h i t -> held_stamps (h ++ [e]) i t.
Proof. intros (e0 & e1 & F & B). exists e0, e1. split; [exact (follows_more _ _ _ _ F)|exact B]. Qed.
Lemma record_stamps_more h e b t : record_stamps h b t -> record_stamps (h ++ [e]) b t.
Proof. intros (e0 & e1 & e2 & i & F & F2 & B). exists e0, e1, e2, i. split; [exact (follows_more _ _ _ _ F)|]. split; [exact (follows_more _ _ _ _ F2)|exact B]. Qed.

Record TI (h : list tevent) (Q : queue -> smap job) (W : list worker) (H : bool -> hist)
  (tq : queue -> string -> timing) (tw : nat -> timing) (th : bool -> string -> timing) : Prop := {
  ti_queue : forall q k j, mget (Q q) k = Some j -> queue_stamps h (j_claimed j) (tq q k);
  ti_held : forall i q k j, nth_error W i = Some (Worker q (Some (k, j))) -> held_stamps h i (tw i);
  ti_hist : forall b k r, mget (h_recs (H b)) k = Some r -> record_stamps h b (th b k)
}.
Definition timeInv (h : list tevent) (x : tsys) : Prop :=
  TI h (fun q => get_queue q (y_store (ts_sys x))) (y_workers (ts_sys x)) (fun b => get_hist b (y_store (ts_sys x))) (ts_queue x) (ts_held x) (ts_hist x).

Lemma TI_more h e Q W H tq tw th : TI h Q W H tq tw th -> TI (h ++ [e]) Q W H tq tw th.
Proof.
  intros [A B C]. constructor; intros.
  - apply queue_stamps_more. eauto.
  - apply held_stamps_more. eauto.
  - apply record_stamps_more. eauto.
Qed.

(** the histories after a prefix of the writes of an action *)
Lemma writes_hists y a n b k r :
  mget (h_recs (get_hist b (last (firstn n (writes_of y a)) (y_store y)))) k = Some r ->
  mget (h_recs (get_hist b (y_store y))) k = Some r \/
  exists i d f q k0 j, a = AFinish i d f /\ nth_error (y_workers y) i = Some (Worker q (Some (k0, j))) /\ (3 <= List.length (firstn n (writes_of y a)))%nat /\
    b = (match f with Some _ => true | None => false end) /\ k = be64 (next_slot (h_ptr (get_hist b (y_store y)))).
Proof.
  intros G. destruct a as [q ty ps|i|i d f|b0]; cbn [writes_of] in *.
  - left. unfold push in G. destruct (reserved _); cbn [fst] in G; [destruct n; exact G|].
    destruct n as [|n]; [exact G|]. cbn [firstn] in G. destruct n; cbn [firstn last] in G; rewrite hist_set_queue in G; exact G.
  - left. destruct (nth_error (y_workers y) i) as [[q [kj|]]|]; try (destruct n; exact G).
    unfold claim in G. destruct (first_unclaimed _) as [[k1 j]|]; cbn [fst] in G; [|destruct n; exact G].
    destruct (reserved k1); cbn [fst] in G; [destruct n; exact G|].
    destruct n as [|n]; [exact G|]. cbn [firstn] in G. destruct n; cbn [firstn last] in G; rewrite hist_set_queue in G; exact G.
  - destruct (nth_error (y_workers y) i) as [[q [[k1 j]|]]|] eqn:Hi; try (left; destruct n; exact G).
    unfold retire in *. destruct (reserved k1); cbn [fst] in *; [left; destruct n; exact G|].
    unfold mark_completion in *. cbn [fst snd] in *.
    set (fb := match f with Some _ => true | None => false end) in *.
    destruct n as [|[|[|n]]]; cbn [firstn last] in G.
    + left. exact G.
    + left. rewrite hist_set_queue in G. exact G.
    + left. rewrite !hist_set_queue, get_set_hist', hist_set_queue in G. destruct (Bool.eqb fb b) eqn:E; [|exact G].
      apply eqb_prop in E. subst b. exact G.
    + rewrite firstn_nil in G. cbn match in G. rewrite !hist_set_queue, !get_set_hist', hist_set_queue in G. destruct (Bool.eqb fb b) eqn:E; [|left; exact G].
      apply eqb_prop in E. subst b. cbn [h_recs] in G. rewrite mget_put in G.
      destruct (seqb_spec k (be64 (next_slot (h_ptr (get_hist fb (y_store y)))))) as [->|N].
      * right. exists i, d, f, q, k1, j. repeat split; auto. cbn [firstn List.length]. lia.
      * left. exact G.
  - left. unfold reset in G. cbn [fst] in G.
    destruct (h_ptr (get_hist b0 (y_store y))) as [p|] eqn:Ep; cbn [app] in G; destruct n as [|[|n]]; cbn [firstn last] in G; rewrite ?firstn_nil in G; cbn match in G;
      rewrite ?get_set_hist' in G; try exact G; destruct (Bool.eqb b0 b) eqn:E; try exact G; apply eqb_prop in E; subst b; try exact G;
      exfalso; destruct k; discriminate G.
Qed.
Lemma put_queue_at f q k t q' k' : put_queue f q k t q' k' = if queue_eqb q q' && seqb k k' then t else f q' k'.
Proof. reflexivity. Qed.

Section ActStep.
Variables (h : list tevent) (x : tsys) (e : tevent) (a : act) (n : nat) (y' : sys).
Notation y := (ts_sys x).
Notation ws := (firstn n (writes_of y a)).
Notation x' := (act_times x a (List.length ws) (te_stamp e) (te_now e) y').
Hypothesis T : timeInv h x.
Hypothesis Ce : concerns e a.

Lemma act_queue q k j : mget (get_queue q (last ws (y_store y))) k = Some j -> queue_stamps (h ++ [e]) (j_claimed j) (ts_queue x' q k).
Proof.
  intros G.
  assert (Old : forall q k j, mget (get_queue q (y_store y)) k = Some j -> queue_stamps (h ++ [e]) (j_claimed j) (ts_queue x q k)).
  { intros q0 k0 j0 G0. apply queue_stamps_more. exact (ti_queue _ _ _ _ _ _ _ T q0 k0 j0 G0). }
  destruct ws as [|w l] eqn:Ew.
  - cbn [last List.length] in *. assert (E : ts_queue (act_times x a 0 (te_stamp e) (te_now e) y') q k = ts_queue x q k).
    { destruct a as [q0 ty ps|i|i d f|b]; cbn [act_times]; try reflexivity.
      destruct (nth_error (y_workers y) i) as [[q0 [kj|]]|]; try reflexivity. destruct (snd (claim q0 (y_store y))) as [[[k0 j0]|]| |]; reflexivity. }
    rewrite E. exact (Old _ _ _ G).
  - assert (NE : ws <> []) by (rewrite Ew; discriminate). rewrite <- Ew in G. rewrite (writes_queues y a n NE) in G. clear Ew.
    cbn [List.length]. destruct a as [q0 ty ps|i|i d f|b]; cbn [act_times queues_after] in *.
    + change (1 <=? S (List.length l))%nat with true. cbn match. cbn [ts_queue]. rewrite put_queue_at. destruct (queue_eqb q0 q) eqn:Eq; [|exact (Old _ _ _ G)].
      apply queue_eqb_eq in Eq. subst q0. rewrite mget_put in G. cbn [andb].
      destruct (seqb_spec k (next_seq (get_queue q (y_store y)))) as [->|Nk].
      * injection G as <-. rewrite seqb_refl. cbn [j_claimed]. split; [reflexivity|]. split; [reflexivity|]. exists e. split; [apply in_app_iff; right; left; reflexivity|].
        split; [exists q, ty, ps; exact Ce|reflexivity].
      * destruct (seqb_spec (next_seq (get_queue q (y_store y))) k) as [E|_]; [congruence|]. exact (Old _ _ _ G).
    + cbn [writes_of] in NE. destruct (nth_error (y_workers y) i) as [[q0 [kj|]]|] eqn:Hi; try exact (Old _ _ _ G).
      unfold claim in *. destruct (first_unclaimed (mlist (get_queue q0 (y_store y)))) as [[k0 j0]|] eqn:Hf; [|exact (Old _ _ _ G)].
      destruct (first_unclaimed_get _ _ _ Hf) as [G0 U0].
      destruct (reserved k0); [cbn [fst] in NE; destruct n; destruct (NE eq_refl)|].
      cbn [snd]. change (1 <=? S (List.length l))%nat with true. cbn match. cbn [ts_queue]. rewrite put_queue_at.
      destruct (queue_eqb q0 q) eqn:Eq; [|exact (Old _ _ _ G)]. apply queue_eqb_eq in Eq. subst q0. rewrite mget_put in G. cbn [andb].
      destruct (seqb_spec k k0) as [->|Nk].
      * injection G as <-. rewrite seqb_refl. pose proof (ti_queue _ _ _ _ _ _ _ T q k0 j0 G0) as [Z0 P]. rewrite U0 in P. destruct P as (B0 & e0 & I0 & P0 & Q0).
        split; [exact Z0|]. cbn [set_claimed j_claimed]. exists e0, e, i. split; [exact (follows_last h e e0 I0)|]. split; [exact P0|]. split; [exact Ce|]. split; [exact Q0|reflexivity].
      * destruct (seqb_spec k0 k) as [E|_]; [congruence|]. exact (Old _ _ _ G).
    + destruct (nth_error (y_workers y) i) as [[q0 [[k0 j0]|]]|]; try exact (Old _ _ _ G).
      cbn [ts_queue]. destruct (queue_eqb q0 q) eqn:Eq; [|exact (Old _ _ _ G)]. apply queue_eqb_eq in Eq. subst q0. rewrite mget_del in G.
      destruct (seqb k k0); [discriminate|]. exact (Old _ _ _ G).
    + exact (Old _ _ _ G).
Qed.
Lemma act_hist b k r : mget (h_recs (get_hist b (last ws (y_store y)))) k = Some r -> record_stamps (h ++ [e]) b (ts_hist x' b k).
Proof.
  intros G.
  assert (Old : forall b k r, mget (h_recs (get_hist b (y_store y))) k = Some r -> record_stamps (h ++ [e]) b (ts_hist x b k)).
  { intros b0 k0 r0 G0. apply record_stamps_more. exact (ti_hist _ _ _ _ _ _ _ T b0 k0 r0 G0). }
  assert (Fin : forall i d f, a = AFinish i d f -> forall q k0 j, nth_error (y_workers y) i = Some (Worker q (Some (k0, j))) ->
    record_stamps (h ++ [e]) (match f with Some _ => true | None => false end) (Timing (t_queued (ts_held x i)) (t_begin (ts_held x i)) (te_stamp e))).
  { intros i d f Ea q k0 j Hi. destruct (ti_held _ _ _ _ _ _ _ T _ _ _ _ Hi) as (e0 & e1 & F & P0 & C1 & Q0 & B1).
    exists e0, e1, e, i. split; [exact (follows_more _ _ _ _ F)|]. split; [exact (follows_last h e e1 (proj2 (follows_in _ _ _ F)))|].
    split; [exact P0|]. split; [exact C1|]. split; [exists d, f; rewrite <- Ea; split; [exact Ce|reflexivity]|]. auto. }
  destruct (writes_hists y a n b k r G) as [G0|(i & d & f & q & k0 & j & Ea & Hi & L & Eb & Ek)].
  - revert Fin. pose proof (Old _ _ _ G0) as O. destruct a as [q0 ty ps|i|i d f|b0]; cbn [act_times]; intros Fin.
    + exact O.
    + destruct (nth_error (y_workers y) i) as [[q0 [kj|]]|]; try exact O. destruct (snd (claim q0 (y_store y))) as [[[k0 j0]|]| |]; try exact O.
      destruct (1 <=? _)%nat; exact O.
    + cbn [ts_hist]. destruct (3 <=? _)%nat eqn:L; [|exact O]. unfold put_hist.
      destruct (Bool.eqb _ b && seqb _ k) eqn:Eb; [|exact O]. apply andb_true_iff in Eb as [Eb Ek]. apply eqb_prop in Eb. subst b.
      destruct (nth_error (y_workers y) i) as [[q0 [[k0 j0]|]]|] eqn:Hi; [exact (Fin i d f eq_refl _ _ _ Hi)| |];
        exfalso; cbn [writes_of] in L; rewrite Hi in L; destruct n; discriminate L.
    + exact O.
  - subst b k. cbn [ts_hist]. pose proof (Fin i d f Ea q k0 j Hi) as R. rewrite Ea. cbn [act_times ts_hist]. apply Nat.leb_le in L. rewrite <- Ea, L. unfold put_hist.
    rewrite eqb_reflx, seqb_refl. exact R.
Qed.
Lemma act_held i q k j : ws = writes_of y a -> nth_error (workers_after y a) i = Some (Worker q (Some (k, j))) -> held_stamps (h ++ [e]) i (ts_held x' i).
Proof.
  intros Full Hi.
  assert (Old : forall i q k j, nth_error (y_workers y) i = Some (Worker q (Some (k, j))) -> held_stamps (h ++ [e]) i (ts_held x i)).
  { intros i0 q0 k0 j0 H0. apply held_stamps_more. exact (ti_held _ _ _ _ _ _ _ T _ _ _ _ H0). }
  destruct a as [q0 ty ps|i0|i0 d f|b]; cbn [act_times workers_after] in *.
  - cbn [ts_held]. exact (Old _ _ _ _ Hi).
  - destruct (nth_error (y_workers y) i0) as [[q0 [kj|]]|] eqn:H0; try exact (Old _ _ _ _ Hi).
    destruct (snd (claim q0 (y_store y))) as [[[k0 j0]|]| |] eqn:Ec; try exact (Old _ _ _ _ Hi).
    assert (Ef : exists j1, mget (get_queue q0 (y_store y)) k0 = Some j1 /\ j_claimed j1 = false /\ (1 <=? List.length (firstn n (writes_of y (AClaim i0))))%nat = true).
    { rewrite Full. cbn [writes_of]. rewrite H0. unfold claim in *. destruct (first_unclaimed (mlist (get_queue q0 (y_store y)))) as [[k1 j1]|] eqn:Hf; [|discriminate].
      destruct (reserved k1); [discriminate|]. injection Ec as <- <-. exists j1. destruct (first_unclaimed_get _ _ _ Hf). auto. }
    destruct Ef as (j1 & G1 & U1 & L). rewrite L. cbn [ts_held]. unfold put_held.
    destruct (Nat.eqb_spec i0 i) as [->|Ni].
    + pose proof (ti_queue _ _ _ _ _ _ _ T q0 k0 j1 G1) as [Z0 P]. rewrite U1 in P. destruct P as (B0 & e0 & I0 & P0 & Q0).
      exists e0, e. split; [exact (follows_last h e e0 I0)|]. split; [exact P0|]. split; [exact Ce|]. split; [exact Q0|reflexivity].
    + rewrite set_nth_ne in Hi by congruence. exact (Old _ _ _ _ Hi).
  - cbn [ts_held]. destruct (nth_error (y_workers y) i0) as [[q0 [kj|]]|] eqn:H0; try exact (Old _ _ _ _ Hi).
    destruct (Nat.eq_dec i0 i) as [->|Ni]; [rewrite (set_nth_eq _ _ _ _ H0) in Hi; discriminate|]. rewrite set_nth_ne in Hi by congruence. exact (Old _ _ _ _ Hi).
  - exact (Old _ _ _ _ Hi).
Qed.
End ActStep.

Lemma time_step h x e : timeInv h x -> timeInv (h ++ [e]) (tstep x e).
Proof.
  intros T. pose proof (TI_more h e _ _ _ _ _ _ T) as Same.
  assert (Un : forall b st, y_up (ts_sys x) = false ->
    (forall q, get_queue q st = if b q : bool then unclaim_all (get_queue q (y_store (ts_sys x))) else get_queue q (y_store (ts_sys x))) ->
    (forall bb, get_hist bb st = get_hist bb (y_store (ts_sys x))) ->
    TI (h ++ [e]) (fun q => get_queue q st) (y_workers (ts_sys x)) (fun bb => get_hist bb st) (unclaim_times x b) (ts_held x) (ts_hist x)).
  { intros b st U Hq Hh. constructor.
    - intros q k j G. rewrite Hq in G. unfold unclaim_times. destruct (b q).
      + cbn [andb]. apply in_mlist in G. rewrite unclaim_list in G. apply in_map_iff in G as ([k0 j0] & E & G0). cbn [fst snd] in E. injection E as -> <-. apply in_mlist in G0. rewrite G0.
        cbn [set_claimed j_claimed]. pose proof (ti_queue _ _ _ _ _ _ _ Same q k j0 G0) as S0. destruct (j_claimed j0); [|exact S0].
        destruct S0 as (Z0 & e0 & e1 & i & F & P0 & _ & Q0 & _). split; [reflexivity|]. split; [reflexivity|]. exists e0. split; [exact (proj1 (follows_in _ _ _ F))|auto].
      + rewrite G. cbn [andb]. exact (ti_queue _ _ _ _ _ _ _ Same q k j G).
    - exact (ti_held _ _ _ _ _ _ _ Same).
    - intros bb k r G. rewrite Hh in G. exact (ti_hist _ _ _ _ _ _ _ Same bb k r G). }
  unfold timeInv. rewrite tstep_sys. unfold tstep. destruct (te_event e) as [a|a n| |n] eqn:Ee; cbn [step].
  - destruct (y_up (ts_sys x)) eqn:U; [|exact Same]. cbn [y_store y_workers].
    assert (F : writes_of (ts_sys x) a = firstn (List.length (writes_of (ts_sys x) a)) (writes_of (ts_sys x) a)) by (symmetry; apply firstn_all).
    pose proof (act_queue h x e a (List.length (writes_of (ts_sys x) a))) as A1. pose proof (act_hist h x e a (List.length (writes_of (ts_sys x) a))) as A2.
    pose proof (act_held h x e a (List.length (writes_of (ts_sys x) a))) as A3. rewrite <- F in A1, A2, A3.
    assert (Ce : concerns e a) by (left; exact Ee).
    constructor; intros.
    + eapply A1; eassumption.
    + eapply A3; [eassumption|exact Ce|reflexivity|eassumption].
    + eapply A2; eassumption.
  - destruct (y_up (ts_sys x)) eqn:U; [|exact Same]. cbn [y_store y_workers].
    assert (Ce : concerns e a) by (right; exists n; exact Ee).
    constructor; intros.
    + eapply act_queue; eassumption.
    + exfalso. rewrite nth_error_map in H. destruct (nth_error (y_workers (ts_sys x)) i); discriminate H.
    + eapply act_hist; eassumption.
  - destruct (y_up (ts_sys x)) eqn:U; [exact Same|]. cbn [y_store y_workers ts_queue ts_held ts_hist]. apply (Un (fun _ => true)); [reflexivity| |].
    + intros q. unfold setup, final, unclaim. cbn [fst last]. rewrite !get_set_queue. destruct q; reflexivity.
    + intros bb. pose proof (setup_hist (y_store (ts_sys x)) 2 bb) as X. exact X.
  - destruct (y_up (ts_sys x)) eqn:U; [exact Same|]. cbn [y_store y_workers ts_queue ts_held ts_hist].
    apply (Un (fun q => match q with QSync => (1 <=? n)%nat | QAsync => (2 <=? n)%nat end)); [reflexivity| |].
    + intros q. unfold setup, final, unclaim. cbn [fst last].
      destruct n as [|[|n]]; [|cbn [firstn last]; rewrite get_set_queue; destruct q; reflexivity|cbn [firstn last]; destruct n; rewrite !get_set_queue; destruct q; reflexivity].
      destruct q; reflexivity.
    + intros bb. apply setup_hist.
Qed.
Lemma time_run kinds h : timeInv h (trun kinds h).
Proof.
  induction h as [|e h IH] using rev_ind.
  - constructor.
    + intros q k j G. destruct q; discriminate G.
    + intros i q k j H. cbn [trun fold_left tboot ts_sys boot y_workers] in H. unfold start_workers in H. rewrite nth_error_map in H. destruct (nth_error kinds i); discriminate H.
    + intros b k r G. destruct b; discriminate G.
  - rewrite trun_app. apply time_step. exact IH.
Qed.

(** ** C83: what is shown as running *)
Definition row_of (f : string -> timing) (r : row) (kj : string * job) : Prop :=
  w_time r = f (fst kj) /\ w_err r = None /\ exists hd, new_job_handler (j_type (snd kj)) (j_params (snd kj)) = Ok hd /\ w_desc r = describe hd.
Lemma clone_rows_of f l rows : clone_rows f l = Ok rows -> Forall2 (row_of f) rows l.
Proof.
  revert rows. induction l as [|[k j] l IH]; intros rows E; cbn [clone_rows] in E; [injection E as <-; constructor|].
  destruct (new_job_handler (j_type j) (j_params j)) as [hd| |] eqn:Eh; try discriminate.
  destruct (clone_rows f l) as [rs| |] eqn:Er; try discriminate. injection E as <-. constructor; [|apply IH; reflexivity].
  split; [reflexivity|]. split; [reflexivity|]. exists hd. auto.
Qed.
Lemma Forall2_nth {A B} (R : A -> B -> Prop) l l' p a b : Forall2 R l l' -> nth_error l p = Some a -> nth_error l' p = Some b -> R a b.
Proof.
  intros F. revert p. induction F as [|x y l l' Hx F IH]; intros [|p] E1 E2; cbn in *; try discriminate; [congruence|exact (IH p E1 E2)].
Qed.
Lemma Forall2_len {A B} (R : A -> B -> Prop) l l' : Forall2 R l l' -> List.length l = List.length l'.
Proof. induction 1; cbn; congruence. Qed.

(** Each line of the status is about one stored job; it says running exactly if a
    worker of the daemon is executing that job. *)
Theorem C83_running_iff_executing :
  forall kinds h, bounded (events h) -> positive_clock h ->
  forall q rows, active_rows q (trun kinds h) = Ok rows -> y_up (run kinds (events h)) = true ->
    List.length rows = List.length (stored q (run kinds (events h))) /\
    forall p r j, nth_error rows p = Some r -> nth_error (stored q (run kinds (events h))) p = Some j ->
      (exists hd, new_job_handler (j_type j) (j_params j) = Ok hd /\ w_desc r = describe hd) /\
      (shows_running r = true <-> exists i, executes (run kinds (events h)) i q (j_no j)).
Proof.
  intros kinds h B Pc q rows E U. apply clone_rows_of in E. rewrite trun_sys in E. unfold stored. split; [rewrite map_length; exact (Forall2_len _ _ _ E)|].
  intros p r j Hr Hj. rewrite nth_error_map in Hj. destruct (nth_error (mlist (get_queue q (y_store (run kinds (events h))))) p) as [[k j']|] eqn:Hp; [|discriminate].
  injection Hj as ->. destruct (Forall2_nth _ _ _ _ _ _ E Hr Hp) as (Tr & _ & Hd). cbn [fst snd] in *. split; [exact Hd|].
  pose proof (time_run kinds h) as T. unfold timeInv in T. rewrite trun_sys in T.
  apply nth_error_In in Hp. pose proof Hp as G. apply in_mlist in G. destruct (ti_queue _ _ _ _ _ _ _ T q k j G) as [_ Q].
  pose proof (run_inv kinds (events h) B) as I. pose proof (claimed_held _ _ I q k j U Hp) as C.
  assert (R : shows_running r = j_claimed j).
  { unfold shows_running. rewrite Tr. destruct (j_claimed j).
    - destruct Q as (e0 & e1 & i & F & _ & _ & _ & ->). pose proof (Pc e1 (proj2 (follows_in _ _ _ F))) as P. apply negb_true_iff. apply N.eqb_neq. lia.
    - destruct Q as [-> _]. reflexivity. }
  rewrite R. destruct (j_claimed j) eqn:Cl.
  - split; [intros _|reflexivity]. destruct (iv_claimed _ _ _ _ _ _ I U q k j G Cl) as [i Hi]. exists i, k, j. auto.
  - split; [discriminate|]. intros (i & k' & j' & Hi & En). exfalso.
    symmetry in C. apply not_true_iff_false in C. apply C. apply existsb_exists. exists (j_no j). split; [|apply Nat.eqb_refl].
    apply in_held. exists i, q, k', j'. auto.
Qed.

(** ** C84: times *)
(** The record of a finished job carries the time of a request, that of a later
    claim by a worker and that of the end of that worker's execution. *)
Theorem C84_times_are_real :
  forall kinds h failed r, In r (past_rows failed (trun kinds h)) ->
    exists e0 e1 e2 i, follows h e0 e1 /\ follows h e1 e2 /\ is_push e0 /\ is_claim e1 i /\ is_finish e2 i failed /\
      t_queued (w_time r) = te_stamp e0 /\ t_begin (w_time r) = te_now e1 /\ t_end (w_time r) = te_stamp e2.
Proof.
  intros kinds h failed r Hr. unfold past_rows in Hr. apply in_map_iff in Hr as ([k rc] & <- & Hk). cbn [fst snd w_time].
  apply in_mlist in Hk. exact (ti_hist _ _ _ _ _ _ _ (time_run kinds h) failed k rc Hk).
Qed.
(** With a clock that does not go back no duration is negative. *)
Theorem C84_durations :
  forall kinds h, steady_clock h ->
    (forall failed r, In r (past_rows failed (trun kinds h)) ->
       (0 <= queued_time r)%Z /\ (0 <= execution_time r)%Z /\ (0 <= total_time r)%Z /\
       total_time r = (Z.of_N (t_end (w_time r)) - Z.of_N (t_queued (w_time r)))%Z) /\
    (forall q rows r now, active_rows q (trun kinds h) = Ok rows -> In r rows -> (forall e, In e h -> (te_now e <= now)%N) ->
       (0 <= queued_since now r)%Z /\ (shows_running r = true -> (0 <= queued_time r)%Z)).
Proof.
  intros kinds h [S1 S2 S3]. split.
  - intros failed r Hr. destruct (C84_times_are_real kinds h failed r Hr) as (e0 & e1 & e2 & i & F1 & F2 & _ & C1 & C2 & Q & Bg & En).
    pose proof (S1 e0 (proj1 (follows_in _ _ _ F1))). pose proof (S2 _ _ F1). pose proof (S3 _ _ i failed F2 C1 C2).
    unfold total_time, queued_time, execution_time. rewrite Q, Bg, En. lia.
  - intros q rows r now E Hr L. apply clone_rows_of in E. apply In_nth_error in Hr as [p Hp].
    assert (exists kj, nth_error (mlist (get_queue q (y_store (ts_sys (trun kinds h))))) p = Some kj) as [[k j] Hk].
    { destruct (nth_error (mlist _) p) eqn:X; [eauto|]. apply nth_error_None in X. rewrite <- (Forall2_len _ _ _ E) in X. apply nth_error_None in X. congruence. }
    destruct (Forall2_nth _ _ _ _ _ _ E Hp Hk) as (Tr & _ & _). cbn [fst] in Tr. apply nth_error_In in Hk. apply in_mlist in Hk.
    destruct (ti_queue _ _ _ _ _ _ _ (time_run kinds h) q k j Hk) as [_ Q]. unfold queued_since, queued_time, shows_running. rewrite Tr. destruct (j_claimed j).
    + destruct Q as (e0 & e1 & i & F & _ & _ & -> & ->). pose proof (follows_in _ _ _ F) as [I0 I1]. pose proof (S1 e0 I0). pose proof (L e0 I0). pose proof (S2 _ _ F). split; [|intros _]; lia.
    + destruct Q as (B0 & e0 & I0 & _ & ->). pose proof (S1 e0 I0). pose proof (L e0 I0). split; [lia|]. rewrite B0. discriminate.
Qed.

(** ** C85: the order of the list, and what is printed of it *)
(** the times of the requests that reached the disk, in the order in which they were queued *)
Fixpoint push_stamps (up : bool) (h : list tevent) : list N :=
  match h with
  | [] => []
  | e :: h' =>
      match te_event e with
      | Do (APush _ _ _) => (if up then [te_stamp e] else []) ++ push_stamps up h'
      | Crash (APush _ _ _) n => (if up && (1 <=? n)%nat then [te_stamp e] else []) ++ push_stamps false h'
      | Crash _ _ => push_stamps false h'
      | Start => push_stamps true h'
      | _ => push_stamps up h'
      end
  end.
Lemma push_stamps_app up h e : push_stamps up (h ++ [e]) = push_stamps up h ++ push_stamps (fold_left up_next (events h) up) [e].
Proof.
  revert up; induction h as [|x h IH]; intros up; [reflexivity|].
  cbn [app]. unfold events. cbn [map fold_left]. fold (events h). destruct x as [x s n0]. cbn [te_event].
  destruct x as [[q ty ps|i|i d f|b]|[q ty ps|i|i d f|b] n| |n]; cbn [push_stamps te_event te_stamp up_next]; rewrite IH, ?app_assoc; reflexivity.
Qed.
Lemma push_stamps_length h up : List.length (push_stamps up h) = List.length (pushes up (events h)).
Proof.
  revert up; induction h as [|[x s n0] h IH]; intros up; [reflexivity|]. unfold events. cbn [map te_event]. fold (events h).
  destruct x as [[q ty ps|i|i d f|b]|[q ty ps|i|i d f|b] n| |n]; cbn [push_stamps te_event te_stamp pushes]; rewrite ?app_length, ?IH; try reflexivity.
  - destruct up; reflexivity.
  - destruct (up && _); reflexivity.
Qed.
Lemma stamps_accepted kinds h : bounded (events h) -> List.length (push_stamps true h) = List.length (y_accepted (run kinds (events h))).
Proof. intros B. rewrite push_stamps_length, <- (accepted_pushes kinds _ B), map_length. reflexivity. Qed.

Definition numbered (S : list N) (x : tsys) : Prop :=
  forall q k j, mget (get_queue q (y_store (ts_sys x))) k = Some j -> nth_error S (j_no j) = Some (t_queued (ts_queue x q k)).
Lemma act_numbered S x a n stamp now y' S' :
  numbered S x -> y_up (ts_sys x) = true -> (forall q, reserved (next_seq (get_queue q (y_store (ts_sys x)))) = false) ->
  (forall i v, nth_error S i = Some v -> nth_error S' i = Some v) ->
  (forall q ty ps, a = APush q ty ps -> (1 <= List.length (firstn n (writes_of (ts_sys x) a)))%nat -> nth_error S' (List.length (y_accepted (ts_sys x))) = Some stamp) ->
  forall q k j, mget (get_queue q (last (firstn n (writes_of (ts_sys x) a)) (y_store (ts_sys x)))) k = Some j ->
    nth_error S' (j_no j) = Some (t_queued (ts_queue (act_times x a (List.length (firstn n (writes_of (ts_sys x) a))) stamp now y') q k)).
Proof.
  intros Hn U NR Ext New q k j G. set (y := ts_sys x) in *.
  assert (Old : forall q k j, mget (get_queue q (y_store y)) k = Some j -> nth_error S' (j_no j) = Some (t_queued (ts_queue x q k))).
  { intros q0 k0 j0 G0. apply Ext. exact (Hn q0 k0 j0 G0). }
  destruct (firstn n (writes_of y a)) as [|w l] eqn:Ew.
  - cbn [last List.length] in *. assert (E : ts_queue (act_times x a 0 stamp now y') q k = ts_queue x q k).
    { destruct a as [q0 ty ps|i|i d f|b]; cbn [act_times]; try reflexivity.
      destruct (nth_error (y_workers (ts_sys x)) i) as [[q0 [kj|]]|]; try reflexivity. destruct (snd (claim q0 (y_store (ts_sys x)))) as [[[k0 j0]|]| |]; reflexivity. }
    rewrite E. exact (Old _ _ _ G).
  - assert (NE : firstn n (writes_of y a) <> []) by (rewrite Ew; discriminate). rewrite <- Ew in G. rewrite (writes_queues y a n NE) in G. clear Ew.
    cbn [List.length]. destruct a as [q0 ty ps|i|i d f|b]; cbn [act_times queues_after] in *; fold y.
    + change (1 <=? Datatypes.S (List.length l))%nat with true. cbn match. cbn [ts_queue]. rewrite put_queue_at. destruct (queue_eqb q0 q) eqn:Eq; [|exact (Old _ _ _ G)].
      apply queue_eqb_eq in Eq. subst q0. rewrite mget_put in G. cbn [andb].
      destruct (seqb_spec k (next_seq (get_queue q (y_store y)))) as [->|Nk].
      * injection G as <-. rewrite seqb_refl. cbn [j_no t_queued]. apply (New q ty ps eq_refl). cbn [List.length]. lia.
      * destruct (seqb_spec (next_seq (get_queue q (y_store y))) k) as [E|_]; [congruence|]. exact (Old _ _ _ G).
    + cbn [writes_of] in NE. destruct (nth_error (y_workers y) i) as [[q0 [kj|]]|] eqn:Hi; try exact (Old _ _ _ G).
      unfold claim in *. destruct (first_unclaimed (mlist (get_queue q0 (y_store y)))) as [[k0 j0]|] eqn:Hf; [|exact (Old _ _ _ G)].
      destruct (first_unclaimed_get _ _ _ Hf) as [G0 U0].
      destruct (reserved k0); [cbn [fst] in NE; destruct n; destruct (NE eq_refl)|].
      cbn [snd]. change (1 <=? Datatypes.S (List.length l))%nat with true. cbn match. cbn [ts_queue]. rewrite put_queue_at.
      destruct (queue_eqb q0 q) eqn:Eq; [|exact (Old _ _ _ G)]. apply queue_eqb_eq in Eq. subst q0. rewrite mget_put in G. cbn [andb].
      destruct (seqb_spec k k0) as [->|Nk].
      * injection G as <-. rewrite seqb_refl. cbn [t_queued set_claimed j_no]. exact (Old _ _ _ G0).
      * destruct (seqb_spec k0 k) as [E|_]; [congruence|]. exact (Old _ _ _ G).
    + destruct (nth_error (y_workers y) i) as [[q0 [[k0 j0]|]]|]; try exact (Old _ _ _ G).
      cbn [ts_queue]. destruct (queue_eqb q0 q) eqn:Eq; [|exact (Old _ _ _ G)]. apply queue_eqb_eq in Eq. subst q0. rewrite mget_del in G.
      destruct (seqb k k0); [discriminate|]. exact (Old _ _ _ G).
    + exact (Old _ _ _ G).
Qed.
Lemma numbered_run kinds h : bounded (events h) -> numbered (push_stamps true h) (trun kinds h).
Proof.
  induction h as [|e h IH] using rev_ind; intros B.
  - intros q k j G. destruct q; discriminate G.
  - assert (B0 : bounded (events h)). { unfold events in B. rewrite map_app in B. exact (bounded_app _ _ B). }
    specialize (IH B0). pose proof (stamps_accepted kinds h B0) as Len. pose proof (up_run kinds (events h)) as Up.
    pose proof (run_inv kinds (events h) B0) as I. assert (Hc : (N.of_nat (List.length (events h)) < 2 ^ 62)%N) by exact B0.
    assert (NR : forall q, reserved (next_seq (get_queue q (y_store (run kinds (events h))))) = false).
    { intros q. destruct (next_seq_facts _ _ _ _ _ _ I Hc q) as (n & En & _ & Rn & _). cbn beta in En. congruence. }
    rewrite <- (trun_sys kinds h) in Len, Up, NR. rewrite trun_app, push_stamps_app, <- Up. set (x := trun kinds h) in *. clearbody x. clear I Hc B B0 Up.
    set (S := push_stamps true h) in *. clearbody S.
    assert (Ext : forall T i v, nth_error S i = Some v -> nth_error (S ++ T) i = Some v).
    { intros T i v Hi. rewrite nth_error_app1; [exact Hi|]. apply nth_error_Some. congruence. }
    assert (Un : forall b st T, (forall q, get_queue q st = if b q : bool then unclaim_all (get_queue q (y_store (ts_sys x))) else get_queue q (y_store (ts_sys x))) ->
      forall q k j, mget (get_queue q st) k = Some j -> nth_error (S ++ T) (j_no j) = Some (t_queued (unclaim_times x b q k))).
    { intros b st T Hq q k j G. rewrite Hq in G. unfold unclaim_times. destruct (b q).
      - cbn [andb]. apply in_mlist in G. rewrite unclaim_list in G. apply in_map_iff in G as ([k0 j0] & E & G0). cbn [fst snd] in E. injection E as -> <-. apply in_mlist in G0. rewrite G0.
        cbn [set_claimed j_no]. pose proof (Ext T _ _ (IH q k j0 G0)) as X. destruct (j_claimed j0); exact X.
      - rewrite G. cbn [andb]. exact (Ext T _ _ (IH q k j G)). }
    intros q k j. rewrite tstep_sys. destruct e as [ev st nw]. unfold tstep. cbn [te_event te_stamp te_now].
    assert (Same : mget (get_queue q (y_store (ts_sys x))) k = Some j -> forall T, nth_error (S ++ T) (j_no j) = Some (t_queued (ts_queue x q k))).
    { intros G T. apply Ext. exact (IH q k j G). }
    assert (Here : forall T, nth_error (S ++ st :: T) (List.length (y_accepted (ts_sys x))) = Some st).
    { intros T. rewrite <- Len, nth_error_app2, Nat.sub_diag by lia. reflexivity. }
    destruct ev as [a|a n| |n]; cbn [step]; destruct (y_up (ts_sys x)) eqn:U; cbn [y_store ts_queue]; intros G; try (apply Same; exact G).
    + assert (F : writes_of (ts_sys x) a = firstn (List.length (writes_of (ts_sys x) a)) (writes_of (ts_sys x) a)) by (symmetry; apply firstn_all).
      rewrite F in G. rewrite F. eapply act_numbered; try eassumption; [intros i v; apply Ext|].
      intros q0 ty ps -> _. cbn [push_stamps te_event te_stamp]. cbn [app]. apply Here.
    + eapply act_numbered; try eassumption; [intros i v; apply Ext|].
      intros q0 ty ps -> L. cbn [push_stamps te_event te_stamp andb]. destruct n as [|n]; [cbn [firstn List.length] in L; lia|]. cbn [Nat.leb app]. apply Here.
    + apply (Un (fun _ => true) (final (y_store (ts_sys x)) (setup (y_store (ts_sys x))))); [|exact G].
      intros q0. unfold setup, final, unclaim. cbn [fst last]. rewrite !get_set_queue. destruct q0; reflexivity.
    + apply (Un (fun q => match q with QSync => (1 <=? n)%nat | QAsync => (2 <=? n)%nat end) (last (firstn n (fst (setup (y_store (ts_sys x))))) (y_store (ts_sys x)))); [|exact G].
      intros q0. unfold setup, final, unclaim. cbn [fst last].
      destruct n as [|[|n]]; [|cbn [firstn last]; rewrite get_set_queue; destruct q0; reflexivity|cbn [firstn last]; destruct n; rewrite !get_set_queue; destruct q0; reflexivity].
      destruct q0; reflexivity.
Qed.

(** what sorting by the time of the request gives (sort.Sort is not stable) *)
Definition earlier (r r' : row) : Prop := (t_queued (w_time r) <= t_queued (w_time r'))%N.
Definition later (r r' : row) : Prop := (t_queued (w_time r') <= t_queued (w_time r))%N.
Definition sorts (le : row -> row -> Prop) (s : list row -> list row) : Prop := forall l, Permutation (s l) l /\ StronglySorted le (s l).
(** the lines printed of a list: all of them, or ten than which no other comes first *)
Definition excerpt (le : row -> row -> Prop) (all : bool) (full l : list row) : Prop :=
  exists rest, Permutation (l ++ rest) full /\ StronglySorted le l /\ (forall r r', In r l -> In r' rest -> le r r') /\
    (if all then rest = [] else List.length l = Nat.min 10 (List.length full)).
Lemma cut_excerpt le s all full : sorts le s -> excerpt le all full (cut_rows all (s full)).
Proof.
  intros Hs. destruct (Hs full) as [P O]. destruct all; cbn [cut_rows].
  - exists []. rewrite app_nil_r. repeat split; auto. intros r r' _ [].
  - exists (skipn 10 (s full)). rewrite firstn_skipn. split; [exact P|].
    assert (X : forall n (l : list row), StronglySorted le l -> StronglySorted le (firstn n l) /\ forall r r', In r (firstn n l) -> In r' (skipn n l) -> le r r').
    { clear. induction n as [|n IH]; intros l S; [split; [constructor|intros r r' []]|]. destruct S as [|a l S F]; [split; [constructor|intros r r' []]|].
      destruct (IH l S) as [H1 H2]. cbn [firstn skipn]. rewrite Forall_forall in F. split.
      - constructor; [exact H1|]. apply Forall_forall. intros r Hr. apply F. rewrite <- (firstn_skipn n l). apply in_app_iff. left. exact Hr.
      - intros r r' [<-|Hr] Hr'; [|exact (H2 _ _ Hr Hr')]. apply F. rewrite <- (firstn_skipn n l). apply in_app_iff. right. exact Hr'. }
    destruct (X 10%nat (s full) O) as [H1 H2]. split; [exact H1|]. split; [exact H2|]. rewrite firstn_length, (Permutation_length P). reflexivity.
Qed.
(** Every table is an excerpt of the whole list: the oldest requests of the current
    jobs, the newest of the failed and of the completed ones; it is printed unless
    there is nothing to print, with the number of all lines. *)
Theorem C85_tables_exact :
  forall sort sort_down all rp, sorts earlier sort -> sorts later sort_down ->
    (forall t, In t (tables sort sort_down all rp) ->
       match t with
       | TCurrent n l => n = List.length (rp_current rp) /\ n <> 0 /\ excerpt earlier all (rp_current rp) l
       | TFailed n l => n = List.length (rp_failed rp) /\ n <> 0 /\ excerpt later all (rp_failed rp) l
       | TCompleted n l => n = List.length (rp_completed rp) /\ n <> 0 /\ excerpt later all (rp_completed rp) l
       end) /\
    (rp_current rp <> [] -> exists n l, In (TCurrent n l) (tables sort sort_down all rp)) /\
    (rp_failed rp <> [] -> exists n l, In (TFailed n l) (tables sort sort_down all rp)) /\
    (rp_completed rp <> [] -> exists n l, In (TCompleted n l) (tables sort sort_down all rp)).
Proof.
  intros s sd all rp Hs Hd. unfold tables. split.
  - intros t Ht. apply in_app_iff in Ht as [Ht|Ht]; [|apply in_app_iff in Ht as [Ht|Ht]].
    + destruct (Nat.ltb_spec 0 (List.length (rp_failed rp))); [|destruct Ht]. destruct Ht as [<-|[]]. split; [reflexivity|]. split; [lia|apply cut_excerpt; exact Hd].
    + destruct (Nat.ltb_spec 0 (List.length (rp_current rp))); [|destruct Ht]. destruct Ht as [<-|[]]. split; [reflexivity|]. split; [lia|apply cut_excerpt; exact Hs].
    + destruct (Nat.ltb_spec 0 (List.length (rp_completed rp))); [|destruct Ht]. destruct Ht as [<-|[]]. split; [reflexivity|]. split; [lia|apply cut_excerpt; exact Hd].
  - assert (X : forall l : list row, l <> [] -> Nat.ltb 0 (List.length l) = true) by (intros [|r l] H; [congruence|reflexivity]).
    split; [|split]; intros N; apply X in N; rewrite N; do 2 eexists; rewrite !in_app_iff; cbn [In]; auto.
Qed.

(** Requests that were made one after the other are listed in the order in which
    they were made. *)
Lemma rows_numbered kinds h rp : bounded (events h) -> get_report (trun kinds h) = Ok rp ->
  Forall2 (fun r j => nth_error (push_stamps true h) (j_no j) = Some (t_queued (w_time r)) /\
                      exists hd, new_job_handler (j_type j) (j_params j) = Ok hd /\ w_desc r = describe hd)
    (rp_current rp) (stored QSync (run kinds (events h)) ++ stored QAsync (run kinds (events h))).
Proof.
  intros B E. unfold get_report in E. destruct (active_rows QSync (trun kinds h)) as [a| |] eqn:Ea; try discriminate.
  destruct (active_rows QAsync (trun kinds h)) as [b| |] eqn:Eb; try discriminate. injection E as <-. cbn [rp_current].
  pose proof (numbered_run kinds h B) as Nm.
  assert (X : forall q rows, active_rows q (trun kinds h) = Ok rows ->
    Forall2 (fun r j => nth_error (push_stamps true h) (j_no j) = Some (t_queued (w_time r)) /\ exists hd, new_job_handler (j_type j) (j_params j) = Ok hd /\ w_desc r = describe hd)
      rows (stored q (run kinds (events h)))).
  { intros q rows Er. apply clone_rows_of in Er. unfold stored. rewrite <- (trun_sys kinds h).
    assert (In_ : forall kj, In kj (mlist (get_queue q (y_store (ts_sys (trun kinds h))))) -> nth_error (push_stamps true h) (j_no (snd kj)) = Some (t_queued (ts_queue (trun kinds h) q (fst kj)))).
    { intros [k j] Hk. apply in_mlist in Hk. exact (Nm q k j Hk). }
    induction Er as [|r kj rows l (T1 & _ & T2) F IH]; cbn [map]; [constructor|]. constructor; [|apply IH; intros kj' H'; apply In_; right; exact H'].
    split; [|exact T2]. rewrite T1. apply In_. left. reflexivity. }
  apply Forall2_app; apply X; assumption.
Qed.
Lemma nodup_app {X} (l1 l2 : list X) : NoDup l1 -> NoDup l2 -> (forall x, In x l1 -> ~ In x l2) -> NoDup (l1 ++ l2).
Proof.
  induction 1 as [|a l1 Na N1 IH]; intros N2 D; [exact N2|]. cbn [app]. constructor.
  - intros H. apply in_app_iff in H as [H|H]; [exact (Na H)|]. exact (D a (or_introl eq_refl) H).
  - apply IH; [exact N2|]. intros x Hx. apply D. right. exact Hx.
Qed.
Theorem C85_order_partial :
  forall kinds h rp sort, bounded (events h) -> StronglySorted N.lt (push_stamps true h) -> sorts earlier sort ->
    get_report (trun kinds h) = Ok rp ->
    exists js, Permutation js (stored QSync (run kinds (events h)) ++ stored QAsync (run kinds (events h))) /\
      StronglySorted (fun a b => j_no a < j_no b)%nat js /\
      Forall2 (fun r j => exists hd, new_job_handler (j_type j) (j_params j) = Ok hd /\ w_desc r = describe hd) (sort (rp_current rp)) js.
Proof.
  intros kinds h rp sort B So Hs E. pose proof (rows_numbered kinds h rp B E) as F. destruct (Hs (rp_current rp)) as [P O].
  destruct (Permutation_Forall2 (Permutation_sym P) F) as (js & Pj & Fj). exists js. split; [apply Permutation_sym; exact Pj|].
  assert (Nd : NoDup (map j_no js)).
  { apply (Permutation_NoDup (Permutation_map j_no Pj)). pose proof (run_inv kinds (events h) B) as I. rewrite map_app. apply nodup_app.
    - exact (queue_nodup _ _ _ _ _ _ I QSync).
    - exact (queue_nodup _ _ _ _ _ _ I QAsync).
    - intros n H1 H2. apply in_map_iff in H1 as (j1 & E1 & H1). apply in_map_iff in H2 as (j2 & E2 & H2).
      destruct (stored_apart _ _ I QSync QAsync j1 j2 H1 H2) as [X _]; [congruence|discriminate X]. }
  assert (Mono : forall i i' v v', nth_error (push_stamps true h) i = Some v -> nth_error (push_stamps true h) i' = Some v' -> (v <= v')%N -> i <= i').
  { clear -So. induction So as [|x l S IH F]; intros i i' v v' H H' L; [destruct i; discriminate|].
    destruct i as [|i]; [lia|]. destruct i' as [|i'].
    - exfalso. cbn in H, H'. injection H' as ->. rewrite Forall_forall in F. pose proof (F _ (nth_error_In _ _ H)). lia.
    - cbn in H, H'. pose proof (IH _ _ _ _ H H' L). lia. }
  clear -Fj O Nd Mono. revert Nd. induction Fj as [|r j rows js [N1 D1] F IH]; intros Nd; [split; constructor|].
  inversion O as [|? ? O1 O2]; subst. inversion Nd as [|? ? Nd1 Nd2]; subst. destruct (IH O1 Nd2) as [IH1 IH2].
  split; [|constructor; assumption]. constructor; [exact IH1|]. apply Forall_forall. intros j' Hj'.
  assert (exists r', In r' rows /\ nth_error (push_stamps true h) (j_no j') = Some (t_queued (w_time r'))) as (r' & Hr' & N').
  { clear -F Hj'. induction F as [|a b l l' [N _] F IH]; [destruct Hj'|]. destruct Hj' as [<-|Hj']; [exists a; split; [left; reflexivity|exact N]|].
    destruct (IH Hj') as (r' & X & Y). exists r'. split; [right; exact X|exact Y]. }
  rewrite Forall_forall in O2. pose proof (Mono _ _ _ _ N1 N' (O2 _ Hr')) as L.
  assert (j_no j <> j_no j'); [|lia]. intros Eq. apply Nd1. rewrite Eq. apply in_map. exact Hj'.
Qed.

(** ** Witnesses *)
Definition create_job (r : string) : act := APush QSync "CreateRepo" [r].
(** two requests at the same time: the second to ask is the first in the queue *)
Definition h_swapped : list tevent := [TEv (Do (create_job "a")) 5 10; TEv (Do (create_job "b")) 4 11].
Lemma two_follow a b e e' : follows [a; b] e e' -> e = a /\ e' = b.
Proof.
  intros (x & y & z & E). destruct x as [|x1 x]; cbn in E.
  - injection E as -> E. destruct y as [|y1 y]; cbn in E; [injection E as -> _; auto|]. injection E as _ E. destruct y; discriminate.
  - injection E as _ E. destruct x as [|x2 x]; cbn in E; [injection E as _ E; destruct y; discriminate|]. injection E as _ E. destruct x; discriminate.
Qed.
Lemma swapped_steady : steady_clock h_swapped.
Proof.
  constructor.
  - intros e [<-|[<-|[]]]; cbn; lia.
  - intros e e' F. apply two_follow in F as [-> ->]. cbn. lia.
  - intros e e' i b F C. apply two_follow in F as [-> ->]. destruct C as [C|[n C]]; discriminate C.
Qed.
(** The claim that the list is in the order in which the jobs will be executed is
    false: here "b" is listed first, whatever the sorting, and "a" is executed first. *)
Theorem C85_order_refuted :
  steady_clock h_swapped /\ bounded (events h_swapped) /\
  (forall sort, sorts earlier sort -> exists rp, get_report (trun [true; false] h_swapped) = Ok rp /\
     map w_desc (sort (rp_current rp)) = [describe (HCreateRepo "b"); describe (HCreateRepo "a")]) /\
  exists k j, nth_error (y_workers (run [true; false] (events h_swapped ++ [Do (AClaim 0)]))) 0 = Some (Worker QSync (Some (k, j))) /\ j_params j = ["a"].
Proof.
  split; [exact swapped_steady|]. split; [vm_compute; reflexivity|]. split.
  - intros sort Hs. eexists. split; [vm_compute; reflexivity|]. cbn [rp_current].
    match goal with |- context [sort ?l] => destruct (Hs l) as [P O] end.
    match type of P with Permutation _ [?x; ?y] => apply Permutation_sym, Permutation_length_2_inv in P; destruct P as [P|P]; rewrite P in *; [exfalso|reflexivity] end.
    inversion O as [|? ? _ F]; subst. inversion F as [|? ? L _]; subst. unfold earlier in L. cbn in L. lia.
  - do 2 eexists. split; vm_compute; reflexivity.
Qed.

(** a crash while a job is executed, a restart, and the job finished at last *)
Definition h_times : list tevent :=
  [TEv (Do (create_job "a")) 1 2; TEv (Do (create_job "b")) 3 4; TEv (Do (AClaim 0)) 5 5; TEv (Crash (AReset true) 0) 6 6;
   TEv Start 7 7; TEv (Do (AClaim 0)) 8 8; TEv (Do (AFinish 0 "made a" None)) 9 10; TEv (Do (AClaim 0)) 11 11].
Theorem C83_demo :
  bounded (events h_times) /\ positive_clock h_times /\ y_up (run [true; false] (events h_times)) = true /\
  active_rows QSync (trun [true; false] h_times) = Ok [Row (describe (HCreateRepo "b")) None (Timing 3 11 0)] /\
  past_rows false (trun [true; false] h_times) = [Row "made a" None (Timing 1 8 9)] /\
  active_rows QSync (trun [true; false] (firstn 5 h_times)) =
    Ok [Row (describe (HCreateRepo "a")) None (Timing 1 0 0); Row (describe (HCreateRepo "b")) None (Timing 3 0 0)] /\
  StronglySorted N.lt (push_stamps true h_times).
Proof.
  split; [vm_compute; reflexivity|]. split; [intros e He; cbn in He; repeat (destruct He as [<-|He]; [reflexivity|]); destruct He|].
  split; [vm_compute; reflexivity|]. split; [vm_compute; reflexivity|]. split; [vm_compute; reflexivity|]. split; [vm_compute; reflexivity|].
  cbn. repeat constructor.
Qed.
Lemma sorted_follows (R : tevent -> tevent -> Prop) h e e' : StronglySorted R h -> follows h e e' -> R e e'.
Proof.
  intros S (x & y & z & ->). induction x as [|a x IH]; cbn [app] in S; inversion S as [|? ? S1 S2]; subst; [|exact (IH S1)].
  rewrite Forall_forall in S2. apply S2. apply in_app_iff. right. left. reflexivity.
Qed.
Theorem C84_demo : steady_clock h_times /\ exists r, past_rows false (trun [true; false] h_times) = [r] /\ total_time r = 8%Z /\ execution_time r = 1%Z.
Proof.
  assert (S : StronglySorted (fun e e' => te_now e <= te_stamp e' /\ te_now e <= te_now e')%N h_times) by (unfold h_times; repeat constructor; cbn; discriminate).
  split.
  - constructor.
    + intros e He; cbn in He; repeat (destruct He as [<-|He]; [cbn; split; [reflexivity|discriminate]|]); destruct He.
    + intros e e' F. apply (sorted_follows _ _ _ _ S F).
    + intros e e' i b F _ _. apply (sorted_follows _ _ _ _ S F).
  - eexists. split; [vm_compute; reflexivity|]. split; reflexivity.
Qed.
(** the lines are those of the status of C36, with their times *)
Theorem C83_same_status : forall x rp, get_report x = Ok rp ->
  get_status (y_store (ts_sys x)) = Ok (Status (map w_desc (rp_current rp))
    (map (fun r => JRec (w_desc r) (w_err r)) (rp_failed rp)) (map (fun r => JRec (w_desc r) (w_err r)) (rp_completed rp))).
Proof.
  intros x rp. unfold get_report, get_status, active_rows.
  assert (C : forall f l, clone_current (map snd l) = match clone_rows f l with Ok r => Ok (map w_desc r) | _ => Err end).
  { intros f l. induction l as [|[k j] l IH]; [reflexivity|]. cbn [map snd clone_current clone_rows]. rewrite IH.
    destruct (new_job_handler (j_type j) (j_params j)); try reflexivity. destruct (clone_rows f l); reflexivity. }
  assert (P : forall b, past_jobs b (y_store (ts_sys x)) = map (fun r => JRec (w_desc r) (w_err r)) (past_rows b x)).
  { intros b. unfold past_jobs, past_rows. rewrite map_map. apply map_ext. intros [k [d e]]. reflexivity. }
  rewrite (C (ts_queue x QSync)), (C (ts_queue x QAsync)), !P. cbn [get_queue].
  destruct (clone_rows (ts_queue x QSync) _) as [a| |]; try discriminate. destruct (clone_rows (ts_queue x QAsync) _) as [b| |]; try discriminate.
  intros E. injection E as <-. cbn [rp_current rp_failed rp_completed]. rewrite map_app. reflexivity.
Qed.
Print Assumptions C84_demo.
Print Assumptions C83_same_status.
Print Assumptions C83_running_iff_executing.
Print Assumptions C84_times_are_real.
Print Assumptions C84_durations.
Print Assumptions C85_tables_exact.
Print Assumptions C85_order_partial.
Print Assumptions C85_order_refuted.
Print Assumptions C83_demo.
