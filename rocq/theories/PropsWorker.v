(** * PropsWorker: C99, workers neither fall asleep nor outlive a stop *)
From Verif Require Import Base Jobs WorkerLoop.
Open Scope list_scope.

(** ** Specification *)
(** worker k of the pool *)
Definition worker_at (p : proc) (k : nat) (w : worker) : Prop := nth_error (p_workers p) k = Some w.
(** something the worker itself can do now, without waiting for its timer *)
Definition can_act (w : worker) : Prop := exists e, e <> Tick /\ step w e <> None.
(** the timer will wake the worker up, or has already *)
Definition will_wake (w : worker) : Prop := w_timer w = Running \/ w_timer w = Expired.
(** Close has been called (and, in case, has returned) *)
Definition close_called (p : proc) : Prop := p_closed p = true.
Definition possible (p : proc) (e : pevent) : Prop := pstep_opt p e <> None.
Definition fetches (p : proc) (k : nat) : nat := match nth_error (p_workers p) k with Some w => w_fetches w | None => 0 end.
Definition after (p : proc) (h : list pevent) : proc := fold_left pstep h p.
(** The goroutine of worker k gets to its select before a timer of two seconds
    expires: no tick while an exit value waits for it. *)
Definition prompt (k : nat) (p : proc) (h : list pevent) : Prop :=
  forall h1 h2 w, h = h1 ++ PWork k Tick :: h2 -> worker_at (after p h1) k w -> w_exit w = false.
(** every event of h happens *)
Definition effective (p : proc) (h : list pevent) : Prop :=
  forall h1 e h2, h = h1 ++ e :: h2 -> possible (after p h1) e.

(** ** The invariant *)
Definition sent (c : closing) (k : nat) : Prop :=
  match c with NotClosing => False | Sending j => k < j | Stopping j => k <= j | Joining | Returned => True end.
Definition wok (begun : bool) (s : Prop) (w : worker) : Prop :=
  (s -> w_exit w = true \/ w_place w = Gone) /\
  (~ s -> w_exit w = false /\ w_place w <> Gone /\ (w_place w = Waiting -> will_wake w)) /\
  (begun = false -> w_place w = Fresh) /\
  (w_place w = Gone -> w_exit w = false).
Definition alive (w : worker) : bool := match w_place w with Gone => false | _ => true end.
Definition count (l : list worker) : Z := Z.of_nat (List.length (filter alive l)).
Record Inv (n : nat) (p : proc) : Prop := {
  i_len : List.length (p_workers p) = S n;
  i_nj : p_njobs p = Z.of_nat n;
  i_w : forall k w, worker_at p k w -> wok (p_begun p) (sent (p_close p) k) w;
  i_wg : p_wg p = if p_begun p then count (p_workers p) else 0%Z;
  i_closed : p_closed p = true <-> p_close p <> NotClosing;
  i_pos : forall k, p_close p = Sending k \/ p_close p = Stopping k -> k < S n;
  i_ret : p_close p = Returned -> p_wg p = 0%Z
}.

Lemma put_len {A} n (x : A) l : List.length (put_nth n x l) = List.length l.
Proof. revert n; induction l as [|y l IH]; intros [|n]; cbn [put_nth List.length]; auto. Qed.
Lemma put_same {A} n (x y : A) l : nth_error l n = Some y -> nth_error (put_nth n x l) n = Some x.
Proof. revert n; induction l as [|z l IH]; intros [|n]; cbn [put_nth nth_error]; auto; discriminate. Qed.
Lemma put_other {A} n m (x : A) l : n <> m -> nth_error (put_nth n x l) m = nth_error l m.
Proof. revert n m; induction l as [|z l IH]; intros [|n] [|m] H; cbn [put_nth nth_error]; auto; congruence. Qed.
Lemma put_count n w w' l : nth_error l n = Some w ->
  count (put_nth n w' l) = (count l + (if alive w' then 1 else 0) - (if alive w then 1 else 0))%Z.
Proof.
  unfold count. revert n; induction l as [|z l IH]; intros [|n]; cbn [put_nth nth_error]; try discriminate.
  - intros H. injection H as ->. cbn [filter]. destruct (alive w), (alive w'); cbn [List.length]; lia.
  - intros H. specialize (IH _ H). cbn [filter]. destruct (alive z); cbn [List.length]; lia.
Qed.
Lemma put_cases {A} n m (x z : A) l y : nth_error l n = Some y -> nth_error (put_nth n x l) m = Some z ->
  (m = n /\ z = x) \/ (m <> n /\ nth_error l m = Some z).
Proof.
  intros H Hz. destruct (Nat.eq_dec m n) as [->|D].
  - left. rewrite (put_same _ x _ _ H) in Hz. split; congruence.
  - right. rewrite put_other in Hz by congruence. auto.
Qed.

Lemma new_inv njobs ncpu : (1 <= ncpu)%Z -> Inv (Z.to_nat (background njobs ncpu)) (new_proc njobs ncpu).
Proof.
  intros H. assert (B : (1 <= background njobs ncpu)%Z).
  { unfold background. destruct (Z.ltb_spec njobs 0); destruct (Z.ltb_spec (if true then ncpu / 2 else njobs) 2);
      destruct (Z.ltb_spec (ncpu / 2) 2); destruct (Z.ltb_spec njobs 2); lia. }
  constructor; cbn [new_proc p_workers p_njobs p_begun p_closed p_close p_wg].
  - apply repeat_length.
  - lia.
  - intros k w Hk. apply nth_error_In, repeat_spec in Hk. subst w. split; [intros []|]. split; [|split; [reflexivity|discriminate]].
    intros _. split; [reflexivity|split; [discriminate|]]. discriminate.
  - reflexivity.
  - split; [discriminate|congruence].
  - intros k [X|X]; discriminate.
  - discriminate.
Qed.

Lemma step_ok s w e w' : step w e = Some w' -> wok true s w -> wok true s w'.
Proof.
  intros St (A & B & _ & D). unfold step in St.
  destruct e as [| | |f|]; destruct w as [pl t x n]; cbn [w_place w_timer w_exit w_fetches] in *.
  - destruct pl; try discriminate. injection St as <-. unfold wok, will_wake. cbn. intuition congruence.
  - assert (T : t = Running) by (destruct t; congruence). subst t. assert (E : w' = Worker pl Expired x n) by (destruct pl; congruence). subst w'.
    unfold wok, will_wake in *. cbn in *. intuition congruence.
  - destruct pl; try discriminate. destruct x; [|discriminate]. injection St as <-. unfold wok, will_wake in *. cbn in *. intuition congruence.
  - destruct pl; try discriminate. destruct t; try discriminate. destruct f; injection St as <-; unfold wok, will_wake in *; cbn in *; intuition congruence.
  - destruct pl; try discriminate. injection St as <-. unfold wok, will_wake in *. cbn in *. intuition congruence.
Qed.
Lemma step_alive w e w' : step w e = Some w' -> alive w = true \/ e = Tick.
Proof. destruct e, w as [[] t x n]; cbn; auto; discriminate. Qed.
Lemma step_alive' w e w' : step w e = Some w' -> ((if alive w' then 1 else 0) = (if alive w then 1 else 0) - match e with TakeExit => 1 | _ => 0 end)%Z.
Proof.
  destruct e as [| | |f|], w as [[] t x n]; cbn; try discriminate.
  all: try (intros H; injection H as <-; reflexivity).
  all: try (destruct t; try discriminate; try (destruct f; try discriminate); intros H; injection H as <-; reflexivity).
  destruct x; [|discriminate]. intros H. injection H as <-. reflexivity.
Qed.

Lemma pstep_inv n p e p' : Inv n p -> pstep_opt p e = Some p' -> Inv n p'.
Proof.
  intros [L NJ W G C P R] St. destruct e as [| | |k e]; cbn [pstep_opt] in St.
  - destruct (p_begun p) eqn:Bg; [discriminate|]. destruct (p_closed p) eqn:Cl; [discriminate|]. injection St as <-.
    constructor; cbn [p_workers p_njobs p_begun p_closed p_close p_wg]; auto.
    + intros k w Hk. destruct (W k w Hk) as (A & B & D & F). split; [exact A|split; [exact B|split; [discriminate|exact F]]].
    + rewrite G, NJ. assert (K : forall l, (forall w, In w l -> alive w = true) -> count l = Z.of_nat (List.length l)).
      { intros l H. unfold count. f_equal. f_equal. induction l as [|x l IH]; [reflexivity|]. cbn [filter]. rewrite H by (left; reflexivity). rewrite IH; [reflexivity|].
        intros w Hw. apply H. right. exact Hw. }
      rewrite K; [rewrite L; lia|]. intros w Hw. apply In_nth_error in Hw as (k & Hk). destruct (W k w Hk) as (_ & _ & D & _). unfold alive. rewrite (D eq_refl). reflexivity.
    + intros X. exfalso. assert (p_close p = NotClosing) by (destruct (p_close p) eqn:Y; auto; exfalso; assert (false = true) by (apply C; congruence); discriminate). congruence.
  - destruct (p_closed p) eqn:Cl; [discriminate|]. injection St as <-.
    assert (Y : p_close p = NotClosing) by (destruct (p_close p) eqn:Y; auto; exfalso; assert (false = true) by (apply C; congruence); discriminate).
    assert (NS : next_send p 0 = Sending 0) by (unfold next_send; rewrite L; reflexivity). rewrite NS.
    constructor; cbn [p_workers p_njobs p_begun p_closed p_close p_wg]; auto.
    + intros k w Hk. pose proof (W k w Hk) as K. rewrite Y in K. cbn [sent] in *. destruct K as (A & B & D & F).
      split; [lia|]. split; [|split; assumption]. intros _. apply B. auto.
    + split; auto. discriminate.
    + intros k [X|X]; [injection X as <-; lia|discriminate].
    + discriminate.
  - unfold go_on in St. destruct (p_close p) as [|j|j| |] eqn:Cp; try discriminate.
    + destruct (nth_error (p_workers p) j) as [w|] eqn:Hj; [|discriminate]. unfold send_exit in St. destruct (w_exit w) eqn:X; [discriminate|]. injection St as <-.
      constructor; cbn [p_workers p_njobs p_begun p_closed p_close p_wg]; auto.
      * rewrite put_len. exact L.
      * intros k z Hz. unfold worker_at in Hz. cbn [p_workers] in Hz. destruct (put_cases _ _ _ _ _ _ Hj Hz) as [[-> ->]|[D Hk]].
        { destruct (W j w Hj) as (A & B & D & F). cbn [sent] in *. destruct B as (_ & B2 & _); [lia|].
          unfold wok. cbn [w_exit w_place w_timer]. split; [auto|split; [lia|split; [exact D|intros; contradiction]]]. }
        { pose proof (W k z Hk) as (A & B & D' & F). cbn [sent] in *. split; [intros; apply A; lia|]. split; [intros; apply B; lia|split; assumption]. }
      * rewrite G. destruct (p_begun p); [|reflexivity]. rewrite (put_count _ _ _ _ Hj). unfold alive. cbn [w_place]. lia.
      * rewrite C. split; intros; discriminate.
      * intros k [Z|Z]; [discriminate|injection Z as <-]. apply P. auto.
      * discriminate.
    + destruct (nth_error (p_workers p) j) as [w|] eqn:Hj; [|discriminate]. injection St as <-.
      assert (Sn : forall k, sent (next_send p (S j)) k <-> k <= j \/ next_send p (S j) = Joining).
      { intros k. unfold next_send. destruct (Nat.ltb_spec (S j) (List.length (p_workers p))); cbn [sent]; intuition (try lia; try discriminate). }
      assert (Sk : forall k z, worker_at p k z -> (sent (next_send p (S j)) k <-> k <= j)).
      { intros k z Hk. rewrite Sn. assert (k < List.length (p_workers p)) by (apply nth_error_Some; unfold worker_at in Hk; congruence).
        unfold next_send. destruct (Nat.ltb_spec (S j) (List.length (p_workers p))); intuition (try discriminate). lia. }
      constructor; cbn [p_workers p_njobs p_begun p_closed p_close p_wg]; auto.
      * rewrite put_len. exact L.
      * intros k z Hz. unfold worker_at in Hz. cbn [p_workers] in Hz. destruct (put_cases _ _ _ _ _ _ Hj Hz) as [[-> ->]|[D Hk]].
        { destruct (W j w Hj) as (A & B & D & F). cbn [sent] in *. unfold wok, stop_timer. cbn [w_exit w_place w_timer]. rewrite (Sk j w Hj).
          split; [exact A|split; [lia|split; [exact D|exact F]]]. }
        { pose proof (W k z Hk) as (A & B & D' & F). cbn [sent] in *. unfold wok. rewrite (Sk k z Hk). auto. }
      * rewrite G. destruct (p_begun p); [|reflexivity]. rewrite (put_count _ _ _ _ Hj). unfold alive, stop_timer. cbn [w_place]. lia.
      * rewrite C. unfold next_send. destruct (Nat.ltb (S j) (List.length (p_workers p))); split; intros; discriminate.
      * unfold next_send. destruct (Nat.ltb_spec (S j) (List.length (p_workers p))); intros k [X|X]; try discriminate. injection X as <-. lia.
      * unfold next_send. destruct (Nat.ltb (S j) (List.length (p_workers p))); discriminate.
    + destruct (Z.eqb_spec (p_wg p) 0) as [Z0|]; [|discriminate]. injection St as <-.
      constructor; cbn [p_workers p_njobs p_begun p_closed p_close p_wg]; auto.
      * rewrite C. split; intros; discriminate.
      * intros k [X|X]; discriminate.
  - destruct (p_begun p) eqn:Bg; [|discriminate]. destruct (nth_error (p_workers p) k) as [w|] eqn:Hk; [|discriminate].
    destruct (step w e) as [w'|] eqn:Se; [|discriminate]. injection St as <-.
    assert (K : Inv n (Proc (put_nth k w' (p_workers p)) (p_njobs p) (p_begun p) (p_closed p) (p_close p)
                  (p_wg p - match e with TakeExit => 1 | _ => 0 end)%Z)).
    { constructor; cbn [p_workers p_njobs p_begun p_closed p_close p_wg]; auto.
      - rewrite put_len. exact L.
      - intros j z Hz. unfold worker_at in Hz. cbn [p_workers] in Hz. destruct (put_cases _ _ _ _ _ _ Hk Hz) as [[-> ->]|[D Hj]].
        + rewrite Bg. apply (step_ok _ w e); [exact Se|]. pose proof (W k w Hk) as X. try rewrite Bg in X. exact X.
        + pose proof (W j z Hj) as X. rewrite Bg. exact X.
      - rewrite Bg, G, (put_count _ _ _ _ Hk), (step_alive' _ _ _ Se). lia.
      - intros X. specialize (R X). rewrite R. destruct e; try reflexivity. exfalso.
        assert (Al : alive w = true) by (destruct (step_alive _ _ _ Se); [assumption|discriminate]).
        assert (In w (filter alive (p_workers p))) by (apply filter_In; split; [eapply nth_error_In; exact Hk|exact Al]).
        unfold count in G. destruct (filter alive (p_workers p)); [contradiction|]. cbn [List.length] in G. lia. }
    destruct e; try rewrite Z.sub_0_r in K; unfold put; cbn [p_workers p_njobs p_begun p_closed p_close p_wg] in *; exact K.
Qed.
Lemma pstep_inv' n p e : Inv n p -> Inv n (pstep p e).
Proof. intros I. unfold pstep. destruct (pstep_opt p e) eqn:E; [exact (pstep_inv n p e _ I E)|exact I]. Qed.
Lemma after_inv n p h : Inv n p -> Inv n (after p h).
Proof. revert p; induction h as [|e h IH]; intros p I; [exact I|]. cbn. apply IH, pstep_inv', I. Qed.
Lemma run_inv njobs ncpu h : (1 <= ncpu)%Z -> Inv (Z.to_nat (background njobs ncpu)) (prun njobs ncpu h).
Proof. intros H. apply (after_inv _ (new_proc njobs ncpu)), new_inv, H. Qed.

Lemma own_step k q w e w' : p_begun q = true -> worker_at q k w -> step w e = Some w' -> e <> TakeExit ->
  p_begun (pstep q (PWork k e)) = true /\ worker_at (pstep q (PWork k e)) k w'.
Proof.
  intros B1 B2 B3 B4. unfold pstep, pstep_opt. rewrite B1. unfold worker_at in B2. rewrite B2, B3. unfold worker_at.
  destruct e; try congruence; cbn [put p_begun p_workers]; (split; [exact B1|]); eapply put_same; exact B2.
Qed.

(** ** Theorems *)
(** Until a stop is requested, every worker at every moment either can go on or
    will be woken up by its timer. *)
Theorem C99_workers_never_fall_asleep : forall njobs ncpu h k w, (1 <= ncpu)%Z ->
  let p := prun njobs ncpu h in
  p_begun p = true -> ~ close_called p -> worker_at p k w ->
  w_place w <> Gone /\ (can_act w \/ w_place w = Waiting /\ will_wake w).
Proof.
  intros njobs ncpu h k w H p Bg Cl Hk. destruct (run_inv njobs ncpu h H) as [L NJ W G C P R]. fold p in L, NJ, W, G, C, P, R.
  assert (Y : p_close p = NotClosing) by (destruct (p_close p) eqn:Y; auto; exfalso; apply Cl; apply C; congruence).
  destruct (W k w Hk) as (_ & B & _ & _). rewrite Y in B. destruct B as (X & NG & Wk); [auto|]. split; [exact NG|].
  destruct w as [[] t x n]; cbn [w_place] in *; try contradiction.
  - left. exists Enter. split; [discriminate|cbn; discriminate].
  - right. split; [reflexivity|apply Wk; reflexivity].
  - left. exists Finish. split; [discriminate|cbn; discriminate].
Qed.
(** Hence it asks the queue again after at most four steps of its own. *)
Theorem C99_next_poll : forall njobs ncpu h k w f, (1 <= ncpu)%Z ->
  let p := prun njobs ncpu h in
  p_begun p = true -> ~ close_called p -> worker_at p k w ->
  fetches (after p (map (PWork k) [Enter; Finish; Tick; TakeTimer f])) k = S (fetches p k).
Proof.
  intros njobs ncpu h k w f H p Bg Cl Hk. destruct (C99_workers_never_fall_asleep njobs ncpu h k w H Bg Cl Hk) as (NG & Q). fold p in Bg, Cl, Hk.
  pose proof (own_step k) as One.
  assert (Nop : forall q w e, p_begun q = true -> worker_at q k w -> step w e = None -> pstep q (PWork k e) = q).
  { intros q v e B1 B2 B3. unfold pstep, pstep_opt. rewrite B1. unfold worker_at in B2. rewrite B2, B3. reflexivity. }
  cbn [map]. unfold after. cbn [fold_left]. unfold fetches at 2. unfold worker_at in Hk. rewrite Hk. fold (worker_at p k w) in Hk.
  assert (End : forall q t x n, p_begun q = true -> worker_at q k (Worker Waiting t x n) -> t = Running \/ t = Expired ->
     fetches (pstep (pstep q (PWork k Tick)) (PWork k (TakeTimer f))) k = S n).
  { intros q t x n B1 B2 T. assert (Q2 : p_begun (pstep q (PWork k Tick)) = true /\ worker_at (pstep q (PWork k Tick)) k (Worker Waiting Expired x n)).
    { destruct T as [->| ->]; [apply (One q (Worker Waiting Running x n)); auto; discriminate|]. rewrite (Nop q _ Tick B1 B2 eq_refl). auto. }
    destruct Q2 as [Q3 Q4]. destruct f.
    - destruct (One _ _ (TakeTimer GotJob) _ Q3 Q4 eq_refl) as [_ Q5]; [discriminate|]. unfold fetches. unfold worker_at in Q5. rewrite Q5. reflexivity.
    - destruct (One _ _ (TakeTimer NoJob) _ Q3 Q4 eq_refl) as [_ Q5]; [discriminate|]. unfold fetches. unfold worker_at in Q5. rewrite Q5. reflexivity. }
  destruct w as [[] t x n]; cbn [w_fetches w_place] in *; try contradiction.
  - destruct (One p _ Enter _ Bg Hk eq_refl) as [B1 B2]; [discriminate|]. rewrite (Nop _ _ Finish B1 B2 eq_refl). apply (End _ _ x n B1 B2). auto.
  - rewrite (Nop p _ Enter Bg Hk eq_refl), (Nop p _ Finish Bg Hk eq_refl). apply (End _ t x n Bg Hk). destruct Q as [(e & Ne & Se)|[_ T]]; [|exact T].
    destruct e; cbn in Se; try congruence. destruct x; [|congruence].
    { destruct (run_inv njobs ncpu h H) as [_ _ W _ C _ _]. fold p in W, C. destruct (W k _ Hk) as (_ & B & _ & _).
      assert (Y : p_close p = NotClosing) by (destruct (p_close p) eqn:Y; auto; exfalso; apply Cl; apply C; congruence).
      rewrite Y in B. destruct B as (X & _ & _); [auto|]. discriminate. }
    destruct t; cbn in Se; try congruence; auto.
  - rewrite (Nop p _ Enter Bg Hk eq_refl). destruct (One p _ Finish _ Bg Hk eq_refl) as [B1 B2]; [discriminate|]. apply (End _ _ x n B1 B2). auto.
Qed.

(** The call of Close returns only when no goroutine is left, and the counter
    of the WaitGroup is never negative (which would panic). *)
Theorem C99_close_waits_for_all : forall njobs ncpu h, (1 <= ncpu)%Z ->
  let p := prun njobs ncpu h in
  (0 <= p_wg p)%Z /\
  (p_begun p = true -> p_close p = Returned -> forall k w, worker_at p k w -> w_place w = Gone).
Proof.
  intros njobs ncpu h H p. destruct (run_inv njobs ncpu h H) as [L NJ W G C P R]. fold p in L, NJ, W, G, C, P, R. split.
  - rewrite G. unfold count. destruct (p_begun p); lia.
  - intros Bg Rt k w Hk. specialize (R Rt). rewrite G, Bg in R. destruct (w_place w) eqn:E; try reflexivity; exfalso.
    all: assert (X : In w (filter alive (p_workers p))) by (apply filter_In; split; [eapply nth_error_In; exact Hk|unfold alive; rewrite E; reflexivity]).
    all: unfold count in R; destruct (filter alive (p_workers p)); [contradiction|discriminate].
Qed.

(** Sending the exit values never blocks. *)
Theorem C99_stop_is_never_blocked : forall njobs ncpu h k, (1 <= ncpu)%Z ->
  let p := prun njobs ncpu h in
  p_close p = Sending k \/ p_close p = Stopping k -> possible p PGoOn.
Proof.
  intros njobs ncpu h k H p Hk. destruct (run_inv njobs ncpu h H) as [L NJ W G C P R]. fold p in L, NJ, W, G, C, P, R.
  pose proof (P k Hk) as Lt. assert (exists w, nth_error (p_workers p) k = Some w) as (w & Hw).
  { destruct (nth_error (p_workers p) k) eqn:E; [eauto|]. apply nth_error_None in E. lia. }
  unfold possible, pstep_opt, go_on. destruct Hk as [E|E]; rewrite E, Hw; [|discriminate].
  destruct (W k w Hw) as (_ & B & _ & _). rewrite E in B. cbn [sent] in B. destruct B as (X & _ & _); [lia|]. unfold send_exit. rewrite X. discriminate.
Qed.
(** It is over after two steps per worker. *)
Theorem C99_exit_values_sent : forall njobs ncpu h, (1 <= ncpu)%Z ->
  let p := prun njobs ncpu h in
  close_called p -> p_close (after p (repeat PGoOn (2 * List.length (p_workers p)))) = Joining \/ p_close (after p (repeat PGoOn (2 * List.length (p_workers p)))) = Returned.
Proof.
  intros njobs ncpu h H p Cl. pose proof (run_inv njobs ncpu h H) as I. fold p in I. set (n := Z.to_nat (background njobs ncpu)) in *.
  rewrite (i_len _ _ I). clearbody p.
  set (dist := fun q => match p_close q with NotClosing => 0 | Sending k => 2 * (S n - k) | Stopping k => 2 * (S n - k) - 1 | Joining | Returned => 0 end).
  assert (K : forall m q, Inv n q -> p_closed q = true -> dist q <= m ->
     p_close (after q (repeat PGoOn m)) = Joining \/ p_close (after q (repeat PGoOn m)) = Returned).
  { induction m as [|m IH]; intros q Iq Cq D.
    - cbn. destruct (p_close q) eqn:E; auto; exfalso.
      + apply (i_closed _ _ Iq) in Cq. congruence.
      + pose proof (i_pos _ _ Iq k (or_introl E)). unfold dist in D. rewrite E in D. lia.
      + pose proof (i_pos _ _ Iq k (or_intror E)). unfold dist in D. rewrite E in D. lia.
    - cbn [repeat]. unfold after. cbn [fold_left]. fold (after (pstep q PGoOn) (repeat PGoOn m)). apply IH.
      + apply pstep_inv', Iq.
      + unfold pstep, pstep_opt, go_on. destruct (p_close q) as [|k|k| |]; try exact Cq.
        * destruct (nth_error (p_workers q) k) as [w|]; [|exact Cq]. destruct (send_exit w); exact Cq.
        * destruct (nth_error (p_workers q) k) as [w|]; exact Cq.
        * destruct (Z.eqb (p_wg q) 0); exact Cq.
      + assert (X : forall k, p_close q = Sending k \/ p_close q = Stopping k -> exists w, nth_error (p_workers q) k = Some w /\ k < S n).
        { intros k Hk. pose proof (i_pos _ _ Iq k Hk) as Lt. destruct (nth_error (p_workers q) k) eqn:E; [eauto|]. apply nth_error_None in E. rewrite (i_len _ _ Iq) in E. lia. }
        unfold pstep, pstep_opt, go_on. unfold dist in *. destruct (p_close q) as [|k|k| |] eqn:E.
        * rewrite E. lia.
        * destruct (X k (or_introl eq_refl)) as (w & Hw & Lt). rewrite Hw. destruct (i_w _ _ Iq k w Hw) as (_ & B & _ & _). rewrite E in B. cbn [sent] in B.
          destruct B as (Ex & _ & _); [lia|]. unfold send_exit. rewrite Ex. cbn [p_close]. lia.
        * destruct (X k (or_intror eq_refl)) as (w & Hw & Lt). rewrite Hw. cbn [p_close]. unfold next_send. destruct (Nat.ltb (S k) (List.length (p_workers q))); lia.
        * destruct (Z.eqb (p_wg q) 0); cbn [p_close]; [lia|rewrite E; lia].
        * rewrite E. lia. }
  apply K; [exact I|exact Cl|]. unfold dist. destruct (p_close p) as [|k|k| |]; lia.
Qed.

(** Then, while Close waits, either it can return or some worker can act: no deadlock. *)
Theorem C99_waiting_is_no_deadlock : forall njobs ncpu h, (1 <= ncpu)%Z ->
  let p := prun njobs ncpu h in
  p_begun p = true -> p_close p = Joining ->
  possible p PGoOn \/ exists k e, e <> Tick /\ possible p (PWork k e).
Proof.
  intros njobs ncpu h H p Bg Jn. destruct (run_inv njobs ncpu h H) as [L NJ W G C P R]. fold p in L, NJ, W, G, C, P, R.
  destruct (Z.eq_dec (p_wg p) 0) as [Z0|NZ].
  - left. unfold possible, pstep_opt, go_on. rewrite Jn, Z0. discriminate.
  - right. rewrite G, Bg in NZ. unfold count in NZ. destruct (filter alive (p_workers p)) as [|w l] eqn:F; [cbn in NZ; congruence|].
    assert (X : In w (filter alive (p_workers p))) by (rewrite F; left; reflexivity). apply filter_In in X as [Hw Al]. apply In_nth_error in Hw as (k & Hk).
    assert (Y : exists e, e <> Tick /\ step w e <> None).
    { destruct (W k w Hk) as (A & _). rewrite Jn in A. destruct w as [[] t x m]; cbn in Al; try discriminate.
      - exists Enter. split; [discriminate|cbn; discriminate].
      - exists TakeExit. split; [discriminate|]. destruct A as [A|A]; [exact Logic.I| |discriminate]. cbn in A. subst x. cbn. discriminate.
      - exists Finish. split; [discriminate|cbn; discriminate]. }
    destruct Y as (e & Ne & Se). exists k, e. split; [exact Ne|]. unfold possible, pstep_opt. rewrite Bg, Hk. destruct (step w e); [|congruence]. discriminate.
Qed.

(** ** What a worker still does once its exit value is sent *)
(** steps a worker still has to make until it has left, with the value waiting *)
Definition todo (w : worker) : nat :=
  match w_place w with
  | Gone => 0
  | Waiting => match w_timer w with Expired => 4 | _ => 1 end
  | Working => match w_timer w with Expired => 5 | _ => 2 end
  | Fresh => match w_timer w with Expired => 6 | _ => 2 end
  end.
Definition left_to_fetch (w : worker) : nat :=
  match w_place w, w_timer w with Gone, _ => 0 | _, Expired => 1 | _, _ => 0 end.
Lemma step_exit w e w' : w_exit w = true -> e <> Tick -> step w e = Some w' ->
  (w_exit w' = true \/ w_place w' = Gone) /\ todo w' < todo w /\ w_fetches w' + left_to_fetch w' <= w_fetches w + left_to_fetch w.
Proof.
  intros X Ne. destruct w as [pl t x n]. cbn in X. subst x. destruct e as [| | |f|]; try congruence; destruct pl; cbn; try discriminate.
  - intros S. injection S as <-. cbn. unfold left_to_fetch. destruct t; cbn; auto with arith.
  - intros S. injection S as <-. cbn. destruct t; cbn; auto with arith.
  - destruct t; try discriminate. destruct f; intros S; injection S as <-; cbn; auto with arith; repeat split; auto; lia.
  - intros S. injection S as <-. cbn. destruct t; cbn; repeat split; auto; lia.
Qed.

Lemma step_gone w e w' : w_place w = Gone -> step w e = Some w' -> w_place w' = Gone /\ w_fetches w' = w_fetches w.
Proof. destruct w as [pl t x n]. cbn. intros ->. destruct e; cbn; try discriminate. destruct t; try discriminate. intros S. injection S as <-. auto. Qed.

(** worker k seen through any event of the processor *)
Lemma other_event p e k w : worker_at p k w -> (forall e', e <> PWork k e') -> w_exit w = true \/ w_place w = Gone ->
  exists w', worker_at (pstep p e) k w' /\ (w_exit w' = true \/ w_place w' = Gone) /\ todo w' <= todo w /\ w_fetches w' = w_fetches w /\ left_to_fetch w' <= left_to_fetch w /\ (w_place w = Gone -> w_place w' = Gone).
Proof.
  intros Hk Ne X. unfold pstep. destruct (pstep_opt p e) as [p'|] eqn:St; [|exists w; auto 10].
  assert (Same : worker_at p' k w -> exists w', worker_at p' k w' /\ (w_exit w' = true \/ w_place w' = Gone) /\ todo w' <= todo w /\ w_fetches w' = w_fetches w /\ left_to_fetch w' <= left_to_fetch w /\ (w_place w = Gone -> w_place w' = Gone)) by (intros Y; exists w; auto 10).
  unfold worker_at in *. destruct e as [| | |j e]; cbn [pstep_opt] in St.
  - destruct (p_begun p); [discriminate|]. destruct (p_closed p); [discriminate|]. injection St as <-. apply Same, Hk.
  - destruct (p_closed p); [discriminate|]. injection St as <-. apply Same, Hk.
  - unfold go_on in St. destruct (p_close p) as [|j|j| |]; try discriminate.
    + destruct (nth_error (p_workers p) j) as [v|] eqn:Hj; [|discriminate]. unfold send_exit in St. destruct (w_exit v) eqn:V; [discriminate|]. injection St as <-. cbn [p_workers] in *.
      destruct (Nat.eq_dec j k) as [->|D]; [|apply Same; rewrite put_other by exact D; exact Hk].
      assert (v = w) by congruence. subst v. destruct X as [X|X]; [congruence|]. eexists. split; [eapply put_same; exact Hk|]. cbn. unfold todo, left_to_fetch. cbn. rewrite X. auto 10.
    + destruct (nth_error (p_workers p) j) as [v|] eqn:Hj; [|discriminate]. injection St as <-. cbn [p_workers] in *.
      destruct (Nat.eq_dec j k) as [->|D]; [|apply Same; rewrite put_other by exact D; exact Hk].
      assert (v = w) by congruence. subst v. eexists. split; [eapply put_same; exact Hk|]. destruct w as [[] [] x n]; cbn in *; auto 10.
    + destruct (Z.eqb (p_wg p) 0); [|discriminate]. injection St as <-. apply Same, Hk.
  - destruct (p_begun p); [|discriminate]. destruct (nth_error (p_workers p) j) as [v|] eqn:Hj; [|discriminate]. destruct (step v e); [|discriminate]. injection St as <-.
    assert (D : j <> k) by (intros ->; apply (Ne e); reflexivity). apply Same. destruct e; cbn [put p_workers]; rewrite put_other by exact D; exact Hk.
Qed.
Lemma own_event p e k w : worker_at p k w -> exists w', worker_at (pstep p (PWork k e)) k w' /\ (w' = w \/ step w e = Some w').
Proof.
  intros Hk. unfold pstep, pstep_opt. destruct (p_begun p); [|eauto]. unfold worker_at in *. rewrite Hk. destruct (step w e) as [w'|] eqn:S; [|eauto].
  exists w'. split; [|auto]. destruct e; cbn [put p_workers]; eapply put_same; exact Hk.
Qed.

(** If its goroutine is prompt, a worker to which the exit value was sent asks
    the queue at most once more, so it starts at most one more job. *)
Theorem C99_at_most_one_more_job : forall p k w h,
  worker_at p k w -> w_exit w = true -> prompt k p h -> fetches (after p h) k <= S (fetches p k).
Proof.
  intros p k w h Hk X Pr.
  assert (K : forall h p w, worker_at p k w -> w_exit w = true \/ w_place w = Gone ->
     (forall h1 h2 v, h = h1 ++ PWork k Tick :: h2 -> worker_at (after p h1) k v -> w_exit v = false) ->
     fetches (after p h) k <= w_fetches w + left_to_fetch w).
  { clear. induction h as [|e h IH]; intros p w Hk X Pr.
    - cbn. unfold fetches. unfold worker_at in Hk. rewrite Hk. lia.
    - unfold after. cbn [fold_left]. fold (after (pstep p e) h).
      assert (Pr' : forall h1 h2 v, h = h1 ++ PWork k Tick :: h2 -> worker_at (after (pstep p e) h1) k v -> w_exit v = false).
      { intros h1 h2 v E Hv. apply (Pr (e :: h1) h2 v); [rewrite E; reflexivity|exact Hv]. }
      assert (D : (exists e', e = PWork k e') \/ forall e', e <> PWork k e').
      { destruct e as [| | |j e]; try (right; discriminate). destruct (Nat.eq_dec j k) as [->|D]; [left; eauto|right; congruence]. }
      destruct D as [(e' & ->)|D].
      + destruct (own_event p e' k w Hk) as (w' & Hw' & Q). destruct Q as [->|St]; [apply (IH _ w Hw' X Pr')|].
        assert (Cs : w_place w = Gone \/ (w_exit w = true /\ e' <> Tick)).
        { destruct X as [X|X]; [|auto]. right. split; [exact X|]. intros ->. rewrite (Pr [] h w eq_refl Hk) in X. discriminate. }
        destruct Cs as [Gn|[Xt Nt]].
        * destruct (step_gone _ _ _ Gn St) as [Gn' F]. pose proof (IH _ w' Hw' (or_intror Gn') Pr') as Q. unfold left_to_fetch in *. rewrite Gn, Gn' in *. lia.
        * destruct (step_exit _ _ _ Xt Nt St) as (X' & _ & F). pose proof (IH _ w' Hw' X' Pr'). lia.
      + destruct (other_event p e k w Hk D X) as (w' & Hw' & X' & _ & F & Lf & _). pose proof (IH _ w' Hw' X' Pr'). lia. }
  pose proof (K h p w Hk (or_introl X) Pr) as Q. unfold fetches at 2. unfold worker_at in Hk. rewrite Hk.
  assert (left_to_fetch w <= 1) by (unfold left_to_fetch; destruct (w_place w), (w_timer w); lia). lia.
Qed.

(** If all goroutines are prompt, at most six steps per worker remain once Close
    waits, and with C99_waiting_is_no_deadlock the stop comes to its end. *)
Theorem C99_stop_ends : forall njobs ncpu h h', (1 <= ncpu)%Z ->
  let p := prun njobs ncpu h in
  p_close p = Joining -> (forall k e, In (PWork k e) h' -> e <> Tick) -> effective p h' ->
  List.length h' <= 6 * List.length (p_workers p) + 2.
Proof.
  intros njobs ncpu h h' H p Jn NT Ef. pose proof (run_inv njobs ncpu h H) as I. fold p in I. set (n := Z.to_nat (background njobs ncpu)) in *. clearbody p n.
  set (sum := fun l => fold_right (fun w a => todo w + a) 0 l).
  set (mu := fun q => sum (p_workers q) + match p_close q with Returned => 0 | _ => 1 end + (if p_begun q then 0 else 1)).
  assert (Sput : forall l k w w', nth_error l k = Some w -> sum (put_nth k w' l) + todo w = sum l + todo w').
  { induction l as [|x l IH]; intros [|k] w w'; cbn [nth_error put_nth]; try discriminate.
    - intros E. injection E as ->. cbn. lia.
    - intros E. specialize (IH _ _ w' E). cbn. fold sum. unfold sum in *. cbn in *. lia. }
  assert (Bound : forall l, sum l <= 6 * List.length l).
  { induction l as [|x l IH]; cbn; [lia|]. fold (sum l). assert (todo x <= 6) by (unfold todo; destruct (w_place x), (w_timer x); lia). unfold sum in *. lia. }
  assert (K : forall h' q, Inv n q -> p_closed q = true -> p_close q = Joining \/ p_close q = Returned -> (forall k e, In (PWork k e) h' -> e <> Tick) -> effective q h' -> List.length h' <= mu q).
  { clear h' NT Ef. induction h' as [|e h' IH]; intros q Iq Cl Cq NT Ef; [cbn; lia|].
    assert (Pe : possible q e) by (apply (Ef [] e h' eq_refl)).
    unfold possible in Pe. destruct (pstep_opt q e) as [q'|] eqn:St; [|congruence]. clear Pe.
    assert (Eq : pstep q e = q') by (unfold pstep; rewrite St; reflexivity).
    assert (Iq' : Inv n q') by (exact (pstep_inv n q e q' Iq St)).
    assert (Ef' : effective q' h'). { intros h1 e1 h2 E. rewrite <- Eq. apply (Ef (e :: h1) e1 h2). rewrite E. reflexivity. }
    assert (D : mu q' < mu q /\ (p_close q' = Joining \/ p_close q' = Returned) /\ p_closed q' = true).
    { destruct e as [| | |k e]; cbn [pstep_opt] in St.
      - rewrite Cl in St. destruct (p_begun q); discriminate.
      - rewrite Cl in St. discriminate.
      - unfold go_on in St. destruct Cq as [Cq|Cq]; rewrite Cq in St; [|discriminate]. destruct (Z.eqb (p_wg q) 0); [|discriminate]. injection St as <-.
        unfold mu. cbn [p_workers p_close p_begun p_closed]. rewrite Cq. split; [lia|auto].
      - destruct (p_begun q) eqn:Bg; [|discriminate]. destruct (nth_error (p_workers q) k) as [w|] eqn:Hk; [|discriminate]. destruct (step w e) as [w'|] eqn:Se; [|discriminate].
        injection St as <-. assert (Ne : e <> Tick) by (apply (NT k); left; reflexivity).
        assert (T : todo w' < todo w).
        { destruct (i_w _ _ Iq k w Hk) as (A & _). assert (Sn : sent (p_close q) k) by (destruct Cq as [-> | ->]; exact Logic.I). destruct (A Sn) as [X|Gn].
          - apply (step_exit w e w' X Ne Se).
          - exfalso. destruct w as [pl t x m]. cbn in Gn. subst pl. destruct e; cbn in Se; try discriminate. apply Ne. reflexivity. }
        pose proof (Sput _ _ _ w' Hk) as Sp. unfold mu. destruct e; cbn [put p_workers p_close p_begun p_closed]; rewrite Bg; (split; [lia|auto]). }
    destruct D as (D1 & D2 & D3). pose proof (IH q' Iq' D3 D2 (fun k e' Hi => NT k e' (or_intror Hi)) Ef') as Q. cbn [List.length]. lia. }
  assert (Cl : p_closed p = true) by (apply (i_closed _ _ I); rewrite Jn; discriminate).
  pose proof (K h' p I Cl (or_introl Jn) NT Ef) as Q. pose proof (Bound (p_workers p)) as Bd. unfold mu in Q. rewrite Jn in Q. destruct (p_begun p); lia.
Qed.

(** Without promptness it is false: the runtime may let the timer expire each
    time before the goroutine runs, and select may prefer the timer each time. *)
Theorem C99_unlimited_jobs_refuted : forall m, exists p k w h,
  worker_at p k w /\ w_exit w = true /\ fetches (after p h) k = fetches p k + m.
Proof.
  intros m.
  set (h0 := [PBegin; PWork 0 Enter; PWork 0 Tick; PClose; PGoOn; PWork 0 (TakeTimer GotJob); PWork 0 Finish]).
  exists (prun 2 4 h0), 0, (Worker Waiting Running true 1).
  assert (K : forall m q n, p_begun q = true -> worker_at q 0 (Worker Waiting Running true n) ->
     exists h, fetches (after q h) 0 = n + m).
  { clear. induction m as [|m IH]; intros q n Bg Hq.
    - exists []. unfold after, fetches. cbn [fold_left]. unfold worker_at in Hq. rewrite Hq. cbn. lia.
    - destruct (own_step 0 q _ Tick _ Bg Hq eq_refl) as [B1 H1]; [discriminate|].
      destruct (own_step 0 _ _ (TakeTimer NoJob) _ B1 H1 eq_refl) as [B2 H2]; [discriminate|].
      destruct (IH _ _ B2 H2) as (h & Hh). exists (PWork 0 Tick :: PWork 0 (TakeTimer NoJob) :: h). unfold after in *. cbn [fold_left]. rewrite Hh. cbn. lia. }
  destruct (K m (prun 2 4 h0) 1 eq_refl eq_refl) as (h & Hh). exists h. split; [reflexivity|]. split; [reflexivity|]. rewrite Hh. reflexivity.
Qed.

(** Non-vacuity: three workers, one is executing a job when the stop is
    requested; the call of Close ends after everybody has left. *)
Definition demo : list pevent :=
  [PBegin; PWork 0 Enter; PWork 1 Enter; PWork 0 Tick; PWork 0 (TakeTimer GotJob); PWork 1 Tick; PClose].
Definition demo_end : list pevent :=
  repeat PGoOn 6 ++ [PGoOn; PWork 1 (TakeTimer NoJob); PWork 1 TakeExit; PWork 2 Enter; PWork 2 TakeExit; PWork 0 Finish; PGoOn; PWork 0 TakeExit; PGoOn].
Example C99_demo :
  let p := prun 2 4 demo in
  (p_begun (prun 2 4 (removelast demo)) = true /\ ~ close_called (prun 2 4 (removelast demo)))
  /\ map w_place (p_workers p) = [Working; Waiting; Fresh] /\ close_called p
  /\ p_close (prun 2 4 (demo ++ firstn 6 demo_end)) = Joining
  /\ effective (prun 2 4 (demo ++ firstn 6 demo_end)) [PWork 1 (TakeTimer NoJob); PWork 1 TakeExit]
  /\ p_close (prun 2 4 (demo ++ removelast demo_end)) = Joining
  /\ p_close (prun 2 4 (demo ++ demo_end)) = Returned /\ map w_place (p_workers (prun 2 4 (demo ++ demo_end))) = [Gone; Gone; Gone].
Proof.
  split; [split; [reflexivity|discriminate]|]. split; [reflexivity|]. split; [reflexivity|]. split; [reflexivity|]. split; [|split; [reflexivity|split; reflexivity]].
  intros h1 e h2 E. destruct h1 as [|a [|b [|c h1]]]; cbn in E; try discriminate; injection E; intros; subst; vm_compute; discriminate.
Qed.

Print Assumptions C99_workers_never_fall_asleep.
Print Assumptions C99_next_poll.
Print Assumptions C99_close_waits_for_all.
Print Assumptions C99_stop_is_never_blocked.
Print Assumptions C99_exit_values_sent.
Print Assumptions C99_waiting_is_no_deadlock.
Print Assumptions C99_at_most_one_more_job.
Print Assumptions C99_stop_ends.
Print Assumptions C99_unlimited_jobs_refuted.
