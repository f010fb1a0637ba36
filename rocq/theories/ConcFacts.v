(** * ConcFacts: serial order of concurrent workers, absence of deadlock (proof artifact) *)
From Verif Require Import Base Conc.
From Coq Require Import Permutation.
Open Scope string_scope. Open Scope list_scope.

Lemma key_eqb_spec a b : reflect (a = b) (key_eqb a b).
Proof.
  destruct a, b; cbn [key_eqb]; try (constructor; congruence);
    repeat match goal with |- context [seqb ?x ?y] => destruct (seqb_spec x y) end; cbn [andb]; constructor; congruence.
Qed.
Lemma mutex_eqb_spec a b : reflect (a = b) (mutex_eqb a b).
Proof.
  destruct a, b; cbn [mutex_eqb]; try (constructor; congruence);
    match goal with |- context [Nat.eqb ?x ?y] => destruct (Nat.eqb_spec x y) end; constructor; congruence.
Qed.
Lemma upd_same m k v : upd m k v k = v.
Proof. unfold upd. destruct (key_eqb_spec k k); [reflexivity|congruence]. Qed.
Lemma upd_other m k v k' : k <> k' -> upd m k v k' = m k'.
Proof. unfold upd. intros N. destruct (key_eqb_spec k k'); [congruence|reflexivity]. Qed.
Lemma nth_set_same i p l : i < List.length l -> nth_error (set_nth i p l) i = Some p.
Proof. revert l. induction i as [|i IH]; intros [|x l] H; cbn in *; try lia; [reflexivity|]. apply IH. lia. Qed.
Lemma nth_set_other i i' p l : i <> i' -> nth_error (set_nth i p l) i' = nth_error l i'.
Proof. revert i' l. induction i as [|i IH]; intros [|i'] [|x l] H; cbn; try reflexivity; try congruence. apply IH. congruence. Qed.
Lemma length_set i p l : List.length (set_nth i p l) = List.length l.
Proof. revert l. induction i as [|i IH]; intros [|x l]; cbn; auto. Qed.

Definition mutex_dec (a b : mutex) : {a = b} + {a <> b}.
Proof. destruct (mutex_eqb a b) eqn:E; destruct (mutex_eqb_spec a b); try congruence; [left|right]; assumption. Defined.

(** ** disciplined use of mutexes: nothing is acquired twice, only what is held is
    released, and everything is released at the end *)
Fixpoint nests (L : list mutex) (p : prog) : Prop :=
  match p with
  | Ret _ => L = []
  | Get _ f => forall v, nests L (f v)
  | Put _ _ q => nests L q
  | Lock m q => ~ In m L /\ nests (m :: L) q
  | Unlock m q => In m L /\ nests (remove mutex_dec m L) q
  end.

Lemma some_inj {A} (a b : A) : Some a = Some b -> a = b.
Proof. congruence. Qed.

Section Serial.
  (** the package name an identifier belongs to *)
  Variable nm : string -> string.
  Definition kname (k : key) : option string :=
    match k with
    | KPool id | KFile id => Some (nm id)
    | KRepo _ n => Some n
    | KCache _ => None
    end.
  Definition okv (k : key) (v : option val) : Prop :=
    match k, v with
    | KPool id, Some (VPool p) => pe_name p = nm id /\ 0 < pe_rel p
    | KRepo _ n, Some (VRepo e) => (forall id, In id (re_avail e) \/ In id (re_deltas e) -> nm id = n) /\ nm (re_pub e) = n
    | _, _ => True
    end.
  Definition okm (m : memory) : Prop := forall k, okv k (m k).

  Fixpoint within (n : string) (p : prog) : Prop :=
    match p with
    | Ret _ => True
    | Get k f => kname k = Some n /\ forall v, okv k v -> within n (f v)
    | Put k v q => kname k = Some n /\ okv k v /\ within n q
    | Lock _ q | Unlock _ q => within n q
    end.

  Lemma okm_upd m k v : okm m -> okv k v -> okm (upd m k v).
  Proof. intros M V k'. unfold upd. destruct (key_eqb_spec k k') as [<-|]; [exact V|apply M]. Qed.
  Lemma alone_ok p : forall n m, within n p -> okm m -> okm (alone p m).
  Proof.
    induction p as [b|k f IH|k v q IH|x q IH|x q IH]; intros n m W M; cbn [alone within] in *; [exact M| | | |].
    - destruct W as [_ W]. apply (IH _ n); [apply W, M|exact M].
    - destruct W as (_ & V & W). apply (IH n); [exact W|apply okm_upd; assumption].
    - apply (IH n); assumption.
    - apply (IH n); assumption.
  Qed.
  Lemma alone_frame p : forall n m k, within n p -> okm m -> kname k <> Some n -> alone p m k = m k.
  Proof.
    induction p as [b|k f IH|k v q IH|x q IH|x q IH]; intros n m k0 W M K; cbn [alone within] in *; [reflexivity| | | |].
    - destruct W as [_ W]. apply (IH _ n); auto.
    - destruct W as (Kn & V & W). rewrite (IH n) by (auto using okm_upd). apply upd_other. congruence.
    - apply (IH n); assumption.
    - apply (IH n); assumption.
  Qed.
  Lemma alone_agree p : forall n m1 m2, within n p -> okm m1 -> (forall k, kname k = Some n -> m1 k = m2 k) ->
    forall k, kname k = Some n -> alone p m1 k = alone p m2 k.
  Proof.
    induction p as [b|k f IH|k v q IH|x q IH|x q IH]; intros n m1 m2 W M A k0 K0; cbn [alone within] in *; [apply A, K0| | | |].
    - destruct W as [Kn W]. rewrite <- (A k Kn). apply (IH _ n); auto.
    - destruct W as (Kn & V & W). apply (IH n); auto using okm_upd.
      intros k' Kk'. unfold upd. destruct (key_eqb k k'); [reflexivity|apply A, Kk'].
    - apply (IH n); assumption.
    - apply (IH n); assumption.
  Qed.

  Record job := Job { j_repo : string; j_fresh : nat; j_obj : nat; j_main : option mutex; j_body : prog; j_name : string;
                      j_meth : nat -> prog }.
  Definition closing (o : option mutex) (b : bool) : prog :=
    match o with Some m => Unlock m (Ret b) | None => Ret b end.
  Definition wrap (o : option mutex) (p : prog) : prog :=
    match o with Some m => after p (fun b => Unlock m (Ret b)) | None => p end.
  Definition method (o : option mutex) (p : prog) : prog :=
    match o with Some m => Lock m (wrap o p) | None => p end.
  Lemma wrap_ret o b : wrap o (Ret b) = closing o b.
  Proof. destruct o; reflexivity. Qed.
  Lemma wrap_get o k f : wrap o (Get k f) = Get k (fun v => wrap o (f v)).
  Proof. destruct o; reflexivity. Qed.
  Lemma wrap_put o k v q : wrap o (Put k v q) = Put k v (wrap o q).
  Proof. destruct o; reflexivity. Qed.
  Lemma wrap_lock o m q : wrap o (Lock m q) = Lock m (wrap o q).
  Proof. destruct o; reflexivity. Qed.
  Lemma wrap_unlock o m q : wrap o (Unlock m q) = Unlock m (wrap o q).
  Proof. destruct o; reflexivity. Qed.
  Definition good_job (m0 : memory) (j : job) : Prop :=
    m0 (KCache (j_repo j)) = Some (VObj (j_obj j))
    /\ j_meth j (j_obj j) = method (j_main j) (j_body j)
    /\ within (j_name j) (j_body j) /\ nests [] (j_body j).
  Definition thread (j : job) : prog := get_repo (j_repo j) (j_fresh j) (j_meth j).
  Definition compat (a b : job) : Prop := j_name a <> j_name b \/ (j_main a = j_main b /\ j_main a <> None).

  Variable m0 : memory.
  Variable js : list job.
  Hypothesis Hm0 : okm m0.
  Hypothesis Hjs : forall j, In j js -> good_job m0 j.
  Hypothesis Hcompat : forall i i' a b, i <> i' -> nth_error js i = Some a -> nth_error js i' = Some b -> compat a b.

  Definition body_at (i : nat) (m : memory) : memory :=
    match nth_error js i with Some j => alone (j_body j) m | None => m end.
  Definition serial (fin : list nat) : memory := fold_left (fun m i => body_at i m) fin m0.

  Lemma serial_snoc fin i : serial (fin ++ [i]) = body_at i (serial fin).
  Proof. unfold serial. rewrite fold_left_app. reflexivity. Qed.
  Lemma body_ok i m : okm m -> okm (body_at i m).
  Proof.
    intros M. unfold body_at. destruct (nth_error js i) as [j|] eqn:E; [|exact M].
    apply nth_error_In in E. destruct (Hjs j E) as (_ & _ & W & _). apply (alone_ok _ (j_name j)); assumption.
  Qed.
  Lemma serial_ok fin : okm (serial fin).
  Proof. induction fin as [|i fin IH] using rev_ind; [exact Hm0|]. rewrite serial_snoc. apply body_ok, IH. Qed.
  Lemma serial_cache fin r : serial fin (KCache r) = m0 (KCache r).
  Proof.
    induction fin as [|i fin IH] using rev_ind; [reflexivity|]. rewrite serial_snoc, <- IH. unfold body_at.
    destruct (nth_error js i) as [j|] eqn:E; [|reflexivity]. apply nth_error_In in E. destruct (Hjs j E) as (_ & _ & W & _).
    apply (alone_frame _ (j_name j)); [exact W|apply serial_ok|discriminate].
  Qed.

  Inductive phase := P0 | P1 | PR (q : prog) (L : list mutex) | PF (b : bool).
  Definition code (j : job) (p : phase) : prog :=
    match p with
    | P0 => thread j
    | P1 => method (j_main j) (j_body j)
    | PR q _ => wrap (j_main j) q
    | PF b => Ret b
    end.
  Definition main_list (j : job) : list mutex := match j_main j with Some m => [m] | None => [] end.
  Definition owned (j : job) (p : phase) : list mutex :=
    match p with PR _ L => main_list j ++ L | _ => [] end.
  Definition running (p : phase) : Prop := exists q L, p = PR q L.

  Record inv (fin : list nat) (ph : nat -> phase) (c : config) : Prop := {
    i_len : List.length (c_threads c) = List.length js;
    i_code : forall i j, nth_error js i = Some j -> nth_error (c_threads c) i = Some (code j (ph i));
    i_fin : forall i, In i fin <-> (i < List.length js /\ exists b, ph i = PF b);
    i_nodup : NoDup fin;
    i_held : forall i j m, nth_error js i = Some j -> In m (owned j (ph i)) -> c_held c m = true;
    i_excl : forall i i' j j' m, i <> i' -> nth_error js i = Some j -> nth_error js i' = Some j' ->
               In m (owned j (ph i)) -> In m (owned j' (ph i')) -> False;
    i_own : forall i j, nth_error js i = Some j -> NoDup (owned j (ph i));
    i_run : forall i j q L, nth_error js i = Some j -> ph i = PR q L ->
               within (j_name j) q /\ nests L q
               /\ (forall k, kname k = Some (j_name j) -> alone q (c_mem c) k = alone (j_body j) (serial fin) k);
    i_p1 : forall i j, nth_error js i = Some j -> ph i = P1 -> j_main j <> None;
    i_rest : forall k, (forall i j, nth_error js i = Some j -> running (ph i) -> kname k <> Some (j_name j)) ->
               c_mem c k = serial fin k;
    i_ok : okm (c_mem c)
  }.

  Definition setp (ph : nat -> phase) (i : nat) (p : phase) : nat -> phase :=
    fun i' => if Nat.eqb i i' then p else ph i'.
  Lemma setp_same ph i p : setp ph i p i = p.
  Proof. unfold setp. rewrite Nat.eqb_refl. reflexivity. Qed.
  Lemma setp_other ph i p i' : i <> i' -> setp ph i p i' = ph i'.
  Proof. unfold setp. intros N. destruct (Nat.eqb_spec i i'); [congruence|reflexivity]. Qed.

  Lemma names_differ fin ph c i i' j j' : inv fin ph c -> i <> i' -> nth_error js i = Some j -> nth_error js i' = Some j' ->
    running (ph i) -> running (ph i') -> j_name j <> j_name j'.
  Proof.
    intros I N E E' (q & L & R) (q' & L' & R'). destruct (Hcompat i i' j j' N E E') as [D|[M X]]; [exact D|].
    exfalso. destruct (j_main j) as [m|] eqn:Mj; [|congruence].
    apply (i_excl _ _ _ I i i' j j' m N E E'); rewrite ?R, ?R'; unfold owned, main_list; rewrite ?Mj, <- ?M; apply in_or_app; left; left; reflexivity.
  Qed.

  (** generic: thread [i] moves to a new phase with the same [fin] *)
  Lemma inv_move fin ph c i j p' mem' held' :
    inv fin ph c -> nth_error js i = Some j ->
    (forall b, ph i <> PF b) -> (forall b, p' <> PF b) ->
    (p' = P1 -> j_main j <> None) ->
    okm mem' ->
    (* memory changes only inside the name of j, and only if it keeps running *)
    (forall k, kname k <> Some (j_name j) -> mem' k = c_mem c k) ->
    (running p' \/ forall k, mem' k = c_mem c k) ->
    (running (ph i) -> running p') ->
    (forall q L, p' = PR q L -> within (j_name j) q /\ nests L q
        /\ forall k, kname k = Some (j_name j) -> alone q mem' k = alone (j_body j) (serial fin) k) ->
    NoDup (owned j p') ->
    (forall m, In m (owned j p') -> held' m = true) ->
    (forall m, ~ In m (owned j (ph i)) -> c_held c m = true -> held' m = true) ->
    (forall m i' j', i <> i' -> nth_error js i' = Some j' -> In m (owned j' (ph i')) -> ~ In m (owned j p')) ->
    (running (ph i) \/ forall i' j', i <> i' -> nth_error js i' = Some j' -> running (ph i') -> running p' -> j_name j' <> j_name j) ->
    inv fin (setp ph i p') (Config mem' held' (set_nth i (code j p') (c_threads c))).
  Proof.
    intros I E NF NF' HP1 OK MC MR RR RUN ND OH HH EX NM.
    assert (Li : i < List.length (c_threads c)) by (rewrite (i_len _ _ _ I); apply nth_error_Some; congruence).
    assert (MC' : forall i' j' k, i <> i' -> nth_error js i' = Some j' -> running (ph i') -> kname k = Some (j_name j') -> mem' k = c_mem c k).
    { intros i' j' k N E' R K. destruct MR as [R2|Same]; [|apply Same].
      apply MC. rewrite K. intros [= Q]. destruct NM as [R1|NM].
      - exact (names_differ fin ph c i i' j j' I N E E' R1 R (eq_sym Q)).
      - exact (NM i' j' N E' R R2 Q). }
    constructor; cbn [c_mem c_held c_threads].
    - rewrite length_set. apply (i_len _ _ _ I).
    - intros i' j' E'. destruct (Nat.eq_dec i i') as [<-|N].
      + rewrite setp_same, nth_set_same by exact Li. congruence.
      + rewrite setp_other, nth_set_other by exact N. apply (i_code _ _ _ I), E'.
    - intros i'. rewrite (i_fin _ _ _ I). destruct (Nat.eq_dec i i') as [<-|N]; [|rewrite setp_other by exact N; reflexivity].
      rewrite setp_same. split; intros [_ [b B]]; exfalso; [exact (NF b B)|exact (NF' b B)].
    - apply (i_nodup _ _ _ I).
    - intros i' j' m E' O. destruct (Nat.eq_dec i i') as [<-|N].
      + rewrite setp_same in O. assert (j' = j) by congruence. subst j'. apply OH, O.
      + rewrite setp_other in O by exact N. apply HH; [|apply (i_held _ _ _ I i' j' m E' O)].
        intros O'. exact (i_excl _ _ _ I i i' j j' m N E E' O' O).
    - intros i1 i2 j1 j2 m N E1 E2 O1 O2. destruct (Nat.eq_dec i i1) as [<-|N1], (Nat.eq_dec i i2) as [<-|N2]; try congruence.
      + rewrite setp_same in O1. rewrite setp_other in O2 by exact N2. assert (j1 = j) by congruence. subst j1. exact (EX m i2 j2 N2 E2 O2 O1).
      + rewrite setp_same in O2. rewrite setp_other in O1 by exact N1. assert (j2 = j) by congruence. subst j2. exact (EX m i1 j1 N1 E1 O1 O2).
      + rewrite setp_other in O1, O2 by assumption. exact (i_excl _ _ _ I i1 i2 j1 j2 m N E1 E2 O1 O2).
    - intros i' j' E'. destruct (Nat.eq_dec i i') as [<-|N].
      + rewrite setp_same. assert (j' = j) by congruence. subst j'. exact ND.
      + rewrite setp_other by exact N. apply (i_own _ _ _ I i' j' E').
    - intros i' j' q L E' P. destruct (Nat.eq_dec i i') as [<-|N].
      + rewrite setp_same in P. assert (j' = j) by congruence. subst j'. apply RUN, P.
      + rewrite setp_other in P by exact N. destruct (i_run _ _ _ I i' j' q L E' P) as (W & Ns & A). split; [exact W|]. split; [exact Ns|].
        intros k K. rewrite <- (A k K). apply (alone_agree q (j_name j')); [exact W|exact OK| |exact K].
        intros k' K'. apply (MC' i' j'); auto. exists q, L. exact P.
    - intros i' j' E' P. destruct (Nat.eq_dec i i') as [<-|N].
      + rewrite setp_same in P. assert (j' = j) by congruence. subst j'. apply HP1, P.
      + rewrite setp_other in P by exact N. apply (i_p1 _ _ _ I i' j' E' P).
    - intros k K. assert (Kj : running p' -> kname k <> Some (j_name j)).
      { intros R. apply (K i j E). rewrite setp_same. exact R. }
      assert (Mk : mem' k = c_mem c k) by (destruct MR as [R|Same]; [apply MC, Kj, R|apply Same]).
      rewrite Mk. apply (i_rest _ _ _ I). intros i' j' E' R. destruct (Nat.eq_dec i i') as [<-|N].
      + assert (j' = j) by congruence. subst j'. apply Kj, RR, R.
      + apply (K i' j' E'). rewrite setp_other by exact N. exact R.
    - exact OK.
  Qed.

  (** a running worker that has nothing left to do is put at the end of the order *)
  Lemma inv_commit fin ph c i j b held' :
    inv fin ph c -> nth_error js i = Some j -> ph i = PR (Ret b) [] ->
    (forall m, ~ In m (main_list j) -> c_held c m = true -> held' m = true) ->
    inv (fin ++ [i]) (setp ph i (PF b)) (Config (c_mem c) held' (set_nth i (Ret b) (c_threads c))).
  Proof.
    intros I E P HH.
    assert (Li : i < List.length (c_threads c)) by (rewrite (i_len _ _ _ I); apply nth_error_Some; congruence).
    pose proof (nth_error_In _ _ E) as Ij. destruct (Hjs j Ij) as (_ & _ & Wj & _).
    destruct (i_run _ _ _ I i j (Ret b) [] E P) as (_ & _ & A). cbn [alone] in A.
    assert (S1 : forall k, kname k = Some (j_name j) -> serial (fin ++ [i]) k = c_mem c k).
    { intros k K. rewrite serial_snoc. unfold body_at. rewrite E. symmetry. apply A, K. }
    assert (S2 : forall k, kname k <> Some (j_name j) -> serial (fin ++ [i]) k = serial fin k).
    { intros k K. rewrite serial_snoc. unfold body_at. rewrite E. apply (alone_frame _ (j_name j)); [exact Wj|apply serial_ok|exact K]. }
    assert (Ri : running (ph i)) by (exists (Ret b), []; exact P).
    constructor; cbn [c_mem c_held c_threads].
    - rewrite length_set. apply (i_len _ _ _ I).
    - intros i' j' E'. destruct (Nat.eq_dec i i') as [<-|N].
      + rewrite setp_same, nth_set_same by exact Li. reflexivity.
      + rewrite setp_other, nth_set_other by exact N. apply (i_code _ _ _ I), E'.
    - intros i'. rewrite in_app_iff, (i_fin _ _ _ I). destruct (Nat.eq_dec i i') as [<-|N].
      + rewrite setp_same. split; [|intros _; right; left; reflexivity]. intros _. split; [apply nth_error_Some; congruence|eauto].
      + rewrite setp_other by exact N. split; [intros [H|[H|[]]]; [exact H|congruence]|intros H; left; exact H].
    - pose proof (i_nodup _ _ _ I) as Nd. apply NoDup_rev in Nd. rewrite <- (rev_involutive (fin ++ [i])). apply NoDup_rev. rewrite rev_app_distr. cbn [rev app].
      constructor; [|exact Nd]. rewrite <- in_rev, (i_fin _ _ _ I). rewrite P. intros [_ [b' H]]. discriminate.
    - intros i' j' m E' O. destruct (Nat.eq_dec i i') as [<-|N]; [rewrite setp_same in O; destruct O|].
      rewrite setp_other in O by exact N. apply HH; [|apply (i_held _ _ _ I i' j' m E' O)].
      intros O'. apply (i_excl _ _ _ I i i' j j' m N E E'); [|exact O]. rewrite P. cbn [owned]. rewrite app_nil_r. exact O'.
    - intros i1 i2 j1 j2 m N E1 E2 O1 O2. destruct (Nat.eq_dec i i1) as [<-|N1]; [rewrite setp_same in O1; destruct O1|].
      destruct (Nat.eq_dec i i2) as [<-|N2]; [rewrite setp_same in O2; destruct O2|].
      rewrite setp_other in O1, O2 by assumption. exact (i_excl _ _ _ I i1 i2 j1 j2 m N E1 E2 O1 O2).
    - intros i' j' E'. destruct (Nat.eq_dec i i') as [<-|N]; [rewrite setp_same; constructor|]. rewrite setp_other by exact N. apply (i_own _ _ _ I i' j' E').
    - intros i' j' q L E' P'. destruct (Nat.eq_dec i i') as [<-|N]; [rewrite setp_same in P'; discriminate|]. rewrite setp_other in P' by exact N.
      destruct (i_run _ _ _ I i' j' q L E' P') as (W & Ns & A'). split; [exact W|]. split; [exact Ns|]. intros k K. rewrite (A' k K).
      pose proof (nth_error_In _ _ E') as Ij'. destruct (Hjs j' Ij') as (_ & _ & Wj' & _).
      apply (alone_agree _ (j_name j')); [exact Wj'|apply serial_ok| |exact K]. intros k' K'. symmetry. apply S2. rewrite K'. intros [= Q].
      assert (R' : running (ph i')) by (exists q, L; exact P'). exact (names_differ fin ph c i i' j j' I N E E' Ri R' (eq_sym Q)).
    - intros i' j' E' P'. destruct (Nat.eq_dec i i') as [<-|N]; [rewrite setp_same in P'; discriminate|]. rewrite setp_other in P' by exact N.
      apply (i_p1 _ _ _ I i' j' E' P').
    - intros k K. assert (D : kname k = Some (j_name j) \/ kname k <> Some (j_name j)).
      { destruct (kname k) as [x|]; [|right; discriminate]. destruct (seqb_spec x (j_name j)) as [->|]; [left; reflexivity|right; congruence]. }
      destruct D as [D|D]; [symmetry; apply S1, D|]. rewrite (S2 k D). apply (i_rest _ _ _ I).
      intros i' j' E' R. destruct (Nat.eq_dec i i') as [<-|N]; [congruence|]. apply (K i' j' E'). rewrite setp_other by exact N. exact R.
    - apply (i_ok _ _ _ I).
  Qed.

  (** the memory a starting worker sees is that of the order so far *)
  Lemma sees_serial fin ph c i j : inv fin ph c -> nth_error js i = Some j ->
    (forall i' j', i <> i' -> nth_error js i' = Some j' -> running (ph i') -> j_name j' <> j_name j) ->
    ~ running (ph i) ->
    forall k, kname k = Some (j_name j) -> c_mem c k = serial fin k.
  Proof.
    intros I E H NR k K. apply (i_rest _ _ _ I). intros i' j' E' R Q. destruct (Nat.eq_dec i i') as [<-|N]; [contradiction|].
    apply (H i' j' N E' R). congruence.
  Qed.

  Lemma inv_step fin ph c i c' : inv fin ph c -> step_at i c = Some c' -> exists fin' ph', inv fin' ph' c'.
  Proof.
    intros I. unfold step_at. destruct (nth_error (c_threads c) i) as [t|] eqn:T; [|discriminate].
    assert (Li : i < List.length js) by (rewrite <- (i_len _ _ _ I); apply nth_error_Some; congruence).
    destruct (nth_error js i) as [j|] eqn:E; [|apply nth_error_None in E; lia].
    pose proof (i_code _ _ _ I i j E) as C. rewrite T in C. injection C as ->.
    pose proof (Hjs j (nth_error_In _ _ E)) as (Gc & Gm & Gw & Gn).
    destruct (ph i) as [| |q L|b] eqn:P.
    - (* looks up the repository *)
      cbn [code thread get_repo]. intros [= <-].
      assert (Mc : c_mem c (KCache (j_repo j)) = Some (VObj (j_obj j))).
      { rewrite (i_rest _ _ _ I) by (intros; discriminate). rewrite serial_cache. exact Gc. }
      rewrite Mc, Gm. destruct (j_main j) as [m|] eqn:M.
      + exists fin, (setp ph i P1). rewrite <- M.
        change (method (j_main j) (j_body j)) with (code j P1).
        apply inv_move; try assumption; try (intros; discriminate); try (rewrite P; intros; discriminate).
        * congruence.
        * apply (i_ok _ _ _ I).
        * reflexivity.
        * right. reflexivity.
        * rewrite P. intros (? & ? & ?). discriminate.
        * constructor.
        * intros m' [].
        * rewrite P. auto.
        * intros m' i' j' _ _ _ [].
        * right. intros i' j' _ _ _ (? & ? & ?). discriminate.
      + exists fin, (setp ph i (PR (j_body j) [])).
        assert (Nm : forall i' j', i <> i' -> nth_error js i' = Some j' -> running (ph i') -> j_name j' <> j_name j).
        { intros i' j' N E' _ Q. destruct (Hcompat i i' j j' N E E') as [D|[_ D]]; congruence. }
        change (method None (j_body j)) with (wrap None (j_body j)). rewrite <- M.
        change (wrap (j_main j) (j_body j)) with (code j (PR (j_body j) [])).
        apply inv_move; try assumption; try (intros; discriminate); try (rewrite P; intros; discriminate).
        * apply (i_ok _ _ _ I).
        * reflexivity.
        * right. reflexivity.
        * intros _. do 2 eexists. reflexivity.
        * intros q L [= <- <-]. split; [exact Gw|]. split; [exact Gn|]. intros k K.
          apply (alone_agree _ (j_name j)); [exact Gw|apply (i_ok _ _ _ I)| |exact K].
          apply (sees_serial fin ph c i j I E Nm). rewrite P. intros (? & ? & ?). discriminate.
        * cbn [owned]. unfold main_list. rewrite M. constructor.
        * cbn [owned]. unfold main_list. rewrite M. intros m' [].
        * rewrite P. auto.
        * cbn [owned]. unfold main_list. rewrite M. intros m' i' j' _ _ _ [].
        * right. intros i' j' N E' R _. exact (Nm i' j' N E' R).
    - (* acquires insertMut *)
      pose proof (i_p1 _ _ _ I i j E P) as Hm. cbn [code]. destruct (j_main j) as [m|] eqn:M; [|congruence]. cbn [method].
      destruct (c_held c m) eqn:H; [discriminate|]. intros X. apply some_inj in X. subst c'. exists fin, (setp ph i (PR (j_body j) [])).
      assert (Nm : forall i' j', i <> i' -> nth_error js i' = Some j' -> running (ph i') -> j_name j' <> j_name j).
      { intros i' j' N E' (q & L & R) Q. destruct (Hcompat i i' j j' N E E') as [D|[D _]]; [congruence|].
        assert (c_held c m = true); [|congruence]. apply (i_held _ _ _ I i' j' m E'). rewrite R. cbn [owned]. unfold main_list. rewrite <- D, M. left. reflexivity. }
      rewrite <- M. change (wrap (j_main j) (j_body j)) with (code j (PR (j_body j) [])).
      apply inv_move; try assumption; try (intros; discriminate); try (rewrite P; intros; discriminate).
      + apply (i_ok _ _ _ I).
      + reflexivity.
      + right. reflexivity.
      + intros _. do 2 eexists. reflexivity.
      + intros q L [= <- <-]. split; [exact Gw|]. split; [exact Gn|]. intros k K.
        apply (alone_agree _ (j_name j)); [exact Gw|apply (i_ok _ _ _ I)| |exact K].
        apply (sees_serial fin ph c i j I E Nm). rewrite P. intros (? & ? & ?). discriminate.
      + cbn [owned]. unfold main_list. rewrite M. repeat constructor; intros [].
      + cbn [owned]. unfold main_list. rewrite M. intros m' [<-|[]]. unfold set_held. destruct (mutex_eqb_spec m m); congruence.
      + intros m' _ H'. unfold set_held. destruct (mutex_eqb m m'); [reflexivity|exact H'].
      + intros m' i' j' N E' O. cbn [owned]. unfold main_list. rewrite M. intros [<-|[]].
        pose proof (i_held _ _ _ I i' j' m E' O). congruence.
      + right. intros i' j' N E' R _. exact (Nm i' j' N E' R).
    - (* runs *)
      destruct (i_run _ _ _ I i j q L E P) as (W & Ns & A). cbn [code].
      pose proof (i_own _ _ _ I i j E) as Nd. rewrite P in Nd. cbn [owned] in Nd.
      destruct q as [b|k f|k v q|m q|m q]; rewrite ?wrap_ret, ?wrap_get, ?wrap_put, ?wrap_lock, ?wrap_unlock; cbn [within nests alone] in *.
      + subst L. destruct (j_main j) as [m|] eqn:M; cbn [closing]; [|discriminate]. intros [= <-].
        exists (fin ++ [i]), (setp ph i (PF b)). apply (inv_commit fin ph c i j b); try assumption.
        intros m' N' H'. unfold set_held. unfold main_list in N'. rewrite M in N'. destruct (mutex_eqb_spec m m') as [<-|]; [destruct N'; left; reflexivity|exact H'].
      + intros [= <-]. destruct W as [Kn W]. exists fin, (setp ph i (PR (f (c_mem c k)) L)).
        change (wrap (j_main j) (f (c_mem c k))) with (code j (PR (f (c_mem c k)) L)).
        apply inv_move; try assumption; try (intros; discriminate); try (rewrite P; intros; discriminate).
        * apply (i_ok _ _ _ I).
        * reflexivity.
        * right. reflexivity.
        * intros _. do 2 eexists. reflexivity.
        * intros q' L' [= <- <-]. split; [apply W, (i_ok _ _ _ I)|]. split; [apply Ns|exact A].
        * intros m' O. apply (i_held _ _ _ I i j m' E). rewrite P. exact O.
        * auto.
        * intros m' i' j' N E' O' O. apply (i_excl _ _ _ I i i' j j' m' N E E'); [rewrite P; exact O|exact O'].
        * left. rewrite P. do 2 eexists. reflexivity.
      + intros [= <-]. destruct W as (Kn & V & W). exists fin, (setp ph i (PR q L)).
        change (wrap (j_main j) q) with (code j (PR q L)).
        apply inv_move; try assumption; try (intros; discriminate); try (rewrite P; intros; discriminate).
        * apply okm_upd; [apply (i_ok _ _ _ I)|exact V].
        * intros k' K'. apply upd_other. congruence.
        * left. do 2 eexists. reflexivity.
        * intros _. do 2 eexists. reflexivity.
        * intros q' L' [= <- <-]. split; [exact W|]. split; [exact Ns|exact A].
        * intros m' O. apply (i_held _ _ _ I i j m' E). rewrite P. exact O.
        * auto.
        * intros m' i' j' N E' O' O. apply (i_excl _ _ _ I i i' j j' m' N E E'); [rewrite P; exact O|exact O'].
        * left. rewrite P. do 2 eexists. reflexivity.
      + destruct (c_held c m) eqn:H; [discriminate|]. intros [= <-]. destruct Ns as [Nm Ns]. exists fin, (setp ph i (PR q (m :: L))).
        assert (Nf : forall i' j', nth_error js i' = Some j' -> ~ In m (owned j' (ph i'))).
        { intros i' j' E' O. pose proof (i_held _ _ _ I i' j' m E' O). congruence. }
        change (wrap (j_main j) q) with (code j (PR q (m :: L))).
        apply inv_move; try assumption; try (intros; discriminate); try (rewrite P; intros; discriminate).
        * apply (i_ok _ _ _ I).
        * reflexivity.
        * right. reflexivity.
        * intros _. do 2 eexists. reflexivity.
        * intros q' L' [= <- <-]. split; [exact W|]. split; [exact Ns|exact A].
        * cbn [owned]. apply NoDup_Add with (a := m) (l := main_list j ++ L); [apply Add_app|]. split; [exact Nd|].
          specialize (Nf i j E). rewrite P in Nf. exact Nf.
        * cbn [owned]. intros m' O. unfold set_held. destruct (mutex_eqb_spec m m') as [|D]; [reflexivity|].
          apply (i_held _ _ _ I i j m' E). rewrite P. cbn [owned]. apply in_app_iff in O as [O|[O|O]]; [|congruence|]; apply in_or_app; auto.
        * intros m' _ H'. unfold set_held. destruct (mutex_eqb m m'); [reflexivity|exact H'].
        * intros m' i' j' N E' O' O. cbn [owned] in O. apply in_app_iff in O as [O|[<-|O]].
          -- apply (i_excl _ _ _ I i i' j j' m' N E E'); [rewrite P; apply in_or_app; left; exact O|exact O'].
          -- exact (Nf i' j' E' O').
          -- apply (i_excl _ _ _ I i i' j j' m' N E E'); [rewrite P; apply in_or_app; right; exact O|exact O'].
        * left. rewrite P. do 2 eexists. reflexivity.
      + intros [= <-]. destruct Ns as [Im Ns]. exists fin, (setp ph i (PR q (remove mutex_dec m L))).
        assert (Sub : forall m', In m' (main_list j ++ remove mutex_dec m L) -> In m' (main_list j ++ L) /\ m' <> m).
        { intros m' O. apply in_app_iff in O as [O|O].
          - split; [apply in_or_app; left; exact O|]. intros ->. revert Nd O Im. clear. unfold main_list. destruct (j_main j) as [z|]; [|intros _ []].
            cbn [app]. intros Nd [->|[]] Im. inversion Nd; contradiction.
          - apply in_remove in O as [O D]. split; [apply in_or_app; right; exact O|exact D]. }
        change (wrap (j_main j) q) with (code j (PR q (remove mutex_dec m L))).
        apply inv_move; try assumption; try (intros; discriminate); try (rewrite P; intros; discriminate).
        * apply (i_ok _ _ _ I).
        * reflexivity.
        * right. reflexivity.
        * intros _. do 2 eexists. reflexivity.
        * intros q' L' [= <- <-]. split; [exact W|]. split; [exact Ns|exact A].
        * cbn [owned]. assert (NL : NoDup (remove mutex_dec m L)).
          { assert (NL : NoDup L) by (revert Nd; unfold main_list; destruct (j_main j); cbn [app]; [intros Nd; inversion Nd; assumption|auto]).
            clear - NL. induction NL as [|x l Nx NL IH]; cbn [remove]; [constructor|]. destruct (mutex_dec m x); [exact IH|].
            constructor; [|exact IH]. intros O. apply in_remove in O as [O _]. contradiction. }
          revert Nd Sub. unfold main_list. destruct (j_main j) as [z|]; [|intros; exact NL]. cbn [app]. intros Nd _. constructor; [|exact NL].
          inversion Nd as [|? ? Nz _]; subst. intros O. apply in_remove in O as [O _]. contradiction.
        * cbn [owned]. intros m' O. apply Sub in O as [O D]. unfold set_held. destruct (mutex_eqb_spec m m'); [congruence|].
          apply (i_held _ _ _ I i j m' E). rewrite P. exact O.
        * rewrite P. cbn [owned]. intros m' O H'. unfold set_held. destruct (mutex_eqb_spec m m') as [<-|]; [|exact H'].
          destruct O. apply in_or_app. right. exact Im.
        * intros m' i' j' N E' O' O. cbn [owned] in O. apply Sub in O as [O _].
          apply (i_excl _ _ _ I i i' j j' m' N E E'); [rewrite P; exact O|exact O'].
        * left. rewrite P. do 2 eexists. reflexivity.
    - cbn [code]. discriminate.
  Qed.

  Lemma inv_init : inv [] (fun _ => P0) (start m0 (map thread js)).
  Proof.
    constructor; cbn [start c_mem c_held c_threads].
    - apply map_length.
    - intros i j E. rewrite (map_nth_error thread i js E). reflexivity.
    - intros i. split; [intros []|intros [_ [b B]]; discriminate].
    - constructor.
    - intros i j m _ [].
    - intros i i' j j' m _ _ _ [].
    - constructor.
    - discriminate.
    - discriminate.
    - reflexivity.
    - exact Hm0.
  Qed.
  Lemma inv_run s : forall fin ph c c', inv fin ph c -> run_schedule s c = Some c' -> exists fin' ph', inv fin' ph' c'.
  Proof.
    induction s as [|i s IH]; intros fin ph c c' I R; cbn [run_schedule] in R; [injection R as <-; eauto|].
    destruct (step_at i c) as [c1|] eqn:S; [|discriminate]. destruct (inv_step fin ph c i c1 I S) as (fin1 & ph1 & I1). exact (IH _ _ _ _ I1 R).
  Qed.

  (** when all have finished, the memory is that of an order of all workers *)
  Lemma inv_end rest : forall fin ph c, inv fin ph c -> Forall (fun p => finished p = true) (c_threads c) ->
    (forall i, i < List.length js -> In i fin \/ In i rest) ->
    exists fin', NoDup fin' /\ (forall i, In i fin' <-> i < List.length js) /\ forall k, c_mem c k = serial fin' k.
  Proof.
    induction rest as [|i rest IH]; intros fin ph c I F Cov.
    - exists fin. split; [apply (i_nodup _ _ _ I)|]. split.
      + intros i. split; [rewrite (i_fin _ _ _ I); tauto|]. intros H. destruct (Cov i H) as [C|[]]. exact C.
      + intros k. apply (i_rest _ _ _ I). intros i j E (q & L & R). exfalso.
        destruct (Cov i) as [C|[]]; [apply nth_error_Some; congruence|]. apply (i_fin _ _ _ I) in C as [_ [b B]]. congruence.
    - destruct (in_dec Nat.eq_dec i fin) as [Fi|Nf].
      { apply (IH fin ph c I F). intros i' H. destruct (Cov i' H) as [C|[->|C]]; auto. }
      destruct (nth_error js i) as [j|] eqn:E.
      2:{ apply (IH fin ph c I F). intros i' H. destruct (Cov i' H) as [C|[->|C]]; auto. exfalso. apply nth_error_None in E. lia. }
      pose proof (i_code _ _ _ I i j E) as C. assert (Fc : finished (code j (ph i)) = true).
      { rewrite Forall_forall in F. apply F. exact (nth_error_In _ _ C). }
      destruct (ph i) as [| |q L|b] eqn:P; [discriminate| | |].
      + exfalso. pose proof (i_p1 _ _ _ I i j E P). cbn [code] in Fc. destruct (j_main j); [discriminate|congruence].
      + destruct (i_run _ _ _ I i j q L E P) as (_ & Ns & _). cbn [code] in Fc, C. destruct q as [b| | | |]; rewrite ?wrap_ret, ?wrap_get, ?wrap_put, ?wrap_lock, ?wrap_unlock in *; try discriminate. cbn [nests] in Ns. subst L. destruct (j_main j) as [m|] eqn:M; [discriminate|]. cbn [closing] in C.
        pose proof (inv_commit fin ph c i j b (c_held c) I E P (fun m _ H => H)) as I'.
        assert (Sn : set_nth i (Ret b) (c_threads c) = c_threads c).
        { revert C. generalize (c_threads c). clear. induction i as [|i IHi]; intros [|x l] C; cbn in *; try congruence. f_equal. apply IHi, C. }
        rewrite Sn in I'. destruct c as [mm hh tt]. cbn [c_mem c_held c_threads] in *.
        apply (IH (fin ++ [i]) _ _ I' F). intros i' H. rewrite in_app_iff. destruct (Cov i' H) as [C'|[->|C']]; auto. left. right. left. reflexivity.
      + exfalso. apply Nf. apply (i_fin _ _ _ I). split; [apply nth_error_Some; congruence|eauto].
  Qed.

  Lemma serialisable c' : reaches (start m0 (map thread js)) c' -> Forall (fun p => finished p = true) (c_threads c') ->
    exists order, Permutation order js /\ forall k, c_mem c' k = fold_left (fun m j => alone (j_body j) m) order m0 k.
  Proof.
    intros [s R] F. destruct (inv_run s _ _ _ _ inv_init R) as (fin & ph & I).
    destruct (inv_end (seq 0 (List.length js)) fin ph c' I F) as (ord & Nd & All & M).
    { intros i H. right. apply in_seq. lia. }
    assert (Pm : Permutation ord (seq 0 (List.length js))).
    { apply NoDup_Permutation; [exact Nd|apply seq_NoDup|]. intros i. rewrite All, in_seq. lia. }
    assert (G : forall l, (forall i, In i l -> i < List.length js) -> forall m,
       fold_left (fun m i => body_at i m) l m = fold_left (fun m j => alone (j_body j) m) (flat_map (fun i => match nth_error js i with Some j => [j] | None => [] end) l) m).
    { induction l as [|i l IHl]; intros H m; [reflexivity|]. cbn [fold_left flat_map]. rewrite IHl by (intros; apply H; right; assumption).
      unfold body_at. destruct (nth_error js i) as [j|] eqn:E; [reflexivity|]. exfalso. apply nth_error_None in E. specialize (H i (or_introl eq_refl)). lia. }
    exists (flat_map (fun i => match nth_error js i with Some j => [j] | None => [] end) ord). split.
    - transitivity (flat_map (fun i => match nth_error js i with Some j => [j] | None => [] end) (seq 0 (List.length js))); [apply Permutation_flat_map, Pm|].
      clear. assert (H : forall pre, flat_map (fun i => match nth_error (pre ++ js) i with Some j => [j] | None => [] end) (seq (List.length pre) (List.length js)) = js).
      { induction js as [|j l IHl]; intros pre; [reflexivity|]. cbn [List.length seq flat_map]. rewrite nth_error_app2 by lia. rewrite Nat.sub_diag. cbn [nth_error app]. f_equal.
        specialize (IHl (pre ++ [j])). rewrite <- app_assoc in IHl. cbn [app] in IHl. rewrite app_length in IHl. cbn [List.length] in IHl. rewrite Nat.add_1_r in IHl. exact IHl. }
      specialize (H []). cbn [app List.length] in H. rewrite H. reflexivity.
    - intros k. rewrite M. unfold serial. rewrite G by (intros i H; apply All, H). reflexivity.
  Qed.
End Serial.
