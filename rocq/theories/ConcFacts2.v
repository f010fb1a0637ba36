(** * ConcFacts2: the operations of ferryd as concurrent workers (proof artifact) *)
From Verif Require Import Base Conc ConcFacts.
From Coq Require Import Permutation.
Open Scope string_scope. Open Scope list_scope.

(** ** programs without mutexes *)
Fixpoint lockfree (p : prog) : Prop :=
  match p with
  | Ret _ => True
  | Get _ f => forall v, lockfree (f v)
  | Put _ _ q => lockfree q
  | Lock _ _ | Unlock _ _ => False
  end.
Ltac lf := repeat first
  [ exact I
  | progress cbn [lockfree ref_entry unref_entry add_internal pool_add_delta link_and_put ref_delta add_local_delta ref_package add_local_package remove_internal]
  | match goal with
    | |- forall _, _ => intro
    | |- lockfree (match ?x with _ => _ end) => destruct x
    | |- lockfree (if ?x then _ else _) => destruct x
    end ].
Lemma lf_remove id : lockfree (remove_internal id).
Proof. lf. Qed.
Lemma lf_ref_delta r d : lockfree (ref_delta r d).
Proof. lf. Qed.
Lemma lf_add_local_delta r d n rel f t : lockfree (add_local_delta r d n rel f t).
Proof. lf. Qed.
Lemma lf_build r n rel id k : (forall x, lockfree (k x)) -> lockfree (build_sane r n rel id k).
Proof. intros H. unfold build_sane. cbn [lockfree]. intros v. destruct v as [[]|]; try (destruct (sin _ _); apply H). cbn [lockfree]. intros v. destruct v as [[]|]; try (destruct (sin _ _); apply H). Qed.
Lemma lf_ref_package r id : lockfree (ref_package r id).
Proof. unfold ref_package. cbn [lockfree]. intros v. destruct v as [[]|]; try exact I. apply lf_build. lf. Qed.
Lemma lf_add_local_package r id n rel : lockfree (add_local_package r id n rel).
Proof. apply lf_build. lf. Qed.

(** ** mutex discipline with something held outside *)
Fixpoint bal (E L : list mutex) (p : prog) : Prop :=
  match p with
  | Ret _ => L = E
  | Get _ f => forall v, bal E L (f v)
  | Put _ _ q => bal E L q
  | Lock m q => ~ In m L /\ bal E (m :: L) q
  | Unlock m q => In m L /\ bal E (remove mutex_dec m L) q
  end.
Lemma bal_nests p : forall L, bal [] L p -> nests L p.
Proof.
  induction p as [b|k f IH|k v q IH|m q IH|m q IH]; intros L; cbn [bal nests]; auto.
  - intros [A B]. auto.
  - intros [A B]. auto.
Qed.
Lemma bal_after p : forall E F L k, bal E L p -> (forall b, bal F E (k b)) -> bal F L (after p k).
Proof.
  induction p as [b|x f IH|x v q IH|m q IH|m q IH]; intros E F L k B K; cbn [bal after] in *.
  - subst L. apply K.
  - intros v. apply (IH v E F L k (B v) K).
  - apply (IH E F L k B K).
  - destruct B as [A B]. split; [exact A|]. apply (IH E F _ k B K).
  - destruct B as [A B]. split; [exact A|]. apply (IH E F _ k B K).
Qed.
Lemma bal_free p : forall E, lockfree p -> bal E E p.
Proof. induction p as [b|k f IH|k v q IH|m q IH|m q IH]; intros E H; cbn [bal lockfree] in *; auto; contradiction. Qed.
Lemma bal_locked m p E F k : bal (m :: E) (m :: E) p -> ~ In m E -> (forall b, bal F E (k b)) -> bal F E (locked m p k).
Proof.
  intros B N K. unfold locked. cbn [bal]. split; [exact N|]. apply (bal_after p (m :: E) F (m :: E)); [exact B|].
  intros b. cbn [bal]. split; [left; reflexivity|]. cbn [remove]. destruct (mutex_dec m m); [|congruence].
  rewrite notin_remove by exact N. apply K.
Qed.
Lemma bal_each ps k E F : Forall (bal E E) ps -> bal F E k -> bal F E (Ret false) -> bal F E (each ps k).
Proof.
  intros H K R. induction H as [|p ps P H IH]; cbn [each]; [exact K|]. apply (bal_after p E F E); [exact P|]. intros [|]; assumption.
Qed.
Lemma bal_drop o id ds : forall E F remain k, ~ In (MInsert o) E -> (forall l, bal F E (k l)) -> bal F E (Ret false) ->
  bal F E (drop_deltas o id ds remain k).
Proof.
  induction ds as [|d ds IH]; intros E F remain k N K R; cbn [drop_deltas]; [apply K|]. intros v. destruct v as [[p| | |]|]; try exact R.
  destruct (pe_delta p) as [[f t]|]; [|exact R]. destruct (seqb f id || seqb t id); [|apply IH; assumption].
  apply bal_locked; [apply bal_free, lf_remove|exact N|]. intros [|]; [apply IH; assumption|exact R].
Qed.
Lemma bal_rest id av : forall E F remain hi hid k, (forall l p, bal F E (k l p)) -> bal F E (Ret false) ->
  bal F E (rest_available id av remain hi hid k).
Proof.
  induction av as [|a av IH]; intros E F remain hi hid k K R; cbn [rest_available]; [apply K|].
  destruct (seqb a id); [apply IH; assumption|]. intros v. destruct v as [[p| | |]|]; try exact R. destruct (Nat.ltb hi (pe_rel p)); apply IH; assumption.
Qed.
Lemma bal_unref o r id E : ~ In (MInsert o) E -> bal E E (unref_package o r id).
Proof.
  intros N. unfold unref_package. cbn [bal]. intros v. destruct v as [[p| | |]|]; try reflexivity. cbn [bal]. intros w. destruct w as [[|e| |]|]; try reflexivity.
  apply bal_locked; [apply bal_free, lf_remove|exact N|]. intros [|]; [|reflexivity].
  apply bal_drop; [exact N| |reflexivity]. intros l. apply bal_rest; [|reflexivity]. intros l' pub. destruct l'; reflexivity.
Qed.

(** ** the package name a request is about; accesses stay within it *)
Section Names.
  Variable nm : string -> string.
  Definition rq_name (q : request) : string :=
    match q with
    | RqRefDelta _ d => nm d
    | RqAddDelta _ d _ _ _ _ => nm d
    | RqRefPackage _ id => nm id
    | RqAddPackage _ id _ _ => nm id
    | RqUnref _ id => nm id
    end.
  (** the file's metadata has the name its identifier belongs to, and a positive release *)
  Definition good_request (q : request) : Prop :=
    match q with
    | RqAddDelta _ d name rel from to => name = nm d /\ nm from = nm d /\ nm to = nm d /\ 0 < rel
    | RqAddPackage _ id name rel => name = nm id /\ 0 < rel
    | _ => True
    end.
  Definition in_section (q : request) : bool := match q with RqUnref _ _ => false | _ => true end.
  Definition rq_body (q : request) (o : nat) : prog :=
    match q with
    | RqRefDelta r d => ref_delta r d
    | RqAddDelta r d name rel from to => add_local_delta r d name rel from to
    | RqRefPackage r id => ref_package r id
    | RqAddPackage r id name rel => add_local_package r id name rel
    | RqUnref r id => unref_package o r id
    end.

  Lemma w_link r n id e : nm id = n -> okv nm (KRepo r n) (Some (VRepo e)) -> within nm n (link_and_put r n id e).
  Proof.
    intros N O. unfold link_and_put. cbn [within kname]. split; [congruence|]. intros v _. destruct v; cbn [within kname]; auto.
  Qed.
  Lemma w_refentry n id k : nm id = n -> within nm n k -> within nm n (ref_entry id k).
  Proof.
    intros N W. unfold ref_entry. cbn [within kname]. split; [congruence|]. intros v O. destruct v as [[p| | |]|]; cbn [within]; auto.
    cbn [kname]. split; [congruence|]. split; [exact O|exact W].
  Qed.
  Lemma w_addint n id rel d k : nm id = n -> 0 < rel -> within nm n k -> within nm n (add_internal id n rel d k).
  Proof.
    intros N R W. unfold add_internal. cbn [within kname]. split; [congruence|]. intros v O.
    assert (X : within nm n (Put (KFile id) (Some VFile) (Put (KPool id) (Some (VPool (PEnt 1 n rel d))) k))).
    { cbn [within kname]. split; [congruence|]. split; [exact Logic.I|]. split; [congruence|]. split; [|exact W]. cbn. auto. }
    destruct v as [[p| | |]|]; try exact X. cbn [within kname]. split; [congruence|]. split; [exact O|exact W].
  Qed.
  Lemma w_adddelta n id rel f t k : nm id = n -> nm f = n -> nm t = n -> 0 < rel -> within nm n k -> within nm n (pool_add_delta id n rel f t k).
  Proof.
    intros N F T R W. unfold pool_add_delta. cbn [within kname]. split; [congruence|]. intros v O.
    assert (X : within nm n (Get (KPool f) (fun v1 => match v1 with Some (VPool _) => Get (KPool t) (fun v2 => match v2 with Some (VPool _) => add_internal id n rel (Some (f, t)) k | _ => Ret false end) | _ => Ret false end))).
    { cbn [within kname]. split; [congruence|]. intros v1 _. destruct v1 as [[p| | |]|]; try exact Logic.I. cbn [within kname]. split; [congruence|].
      intros v2 _. destruct v2 as [[p2| | |]|]; try exact Logic.I. apply w_addint; assumption. }
    destruct v as [[p| | |]|]; try exact X. cbn [within kname]. split; [congruence|]. split; [exact O|exact W].
  Qed.
  Lemma okv_grown r n e d : nm d = n -> okv nm (KRepo r n) (Some (VRepo e)) ->
    okv nm (KRepo r n) (Some (VRepo (REnt (re_avail e) (re_pub e) (sort_strings (re_deltas e ++ [d]))))).
  Proof.
    intros N [A P]. cbn. split; [|exact P]. intros id [H|H]; [apply A; left; exact H|]. apply (proj1 (sort_strings_In id _)) in H. apply in_app_iff in H as [H|[<-|[]]]; [apply A; right; exact H|exact N].
  Qed.
  Lemma w_ref_delta r d : within nm (nm d) (ref_delta r d).
  Proof.
    unfold ref_delta. cbn [within kname]. split; [reflexivity|]. intros v O. destruct v as [[p| | |]|]; try exact Logic.I.
    destruct O as [O1 O2]. rewrite O1. cbn [within kname]. split; [reflexivity|]. intros w Ow. destruct w as [[|e| |]|]; try exact Logic.I.
    destruct (sin d (re_deltas e)); [exact Logic.I|]. apply w_refentry; [reflexivity|]. apply w_link; [reflexivity|]. apply okv_grown; [reflexivity|exact Ow].
  Qed.
  Lemma w_add_local_delta r d rel f t : nm f = nm d -> nm t = nm d -> 0 < rel -> within nm (nm d) (add_local_delta r d (nm d) rel f t).
  Proof.
    intros F T R. unfold add_local_delta. cbn [within kname]. split; [reflexivity|]. intros w Ow. destruct w as [[|e| |]|]; try exact Logic.I.
    destruct (sin d (re_deltas e)); [exact Logic.I|]. apply w_adddelta; auto. apply w_link; [reflexivity|]. apply okv_grown; [reflexivity|exact Ow].
  Qed.
  Lemma w_build r n rel id k : nm id = n ->
    (forall oe, (forall e, oe = Some e -> okv nm (KRepo r n) (Some (VRepo e))) -> within nm n (k oe)) ->
    within nm n (build_sane r n rel id k).
  Proof.
    intros N K. unfold build_sane. cbn [within kname]. split; [reflexivity|]. intros w Ow.
    assert (G : forall avail pub, (forall x, In x avail -> nm x = n) -> nm pub = n ->
      within nm n (if sin id avail then k None else k (Some (REnt (sort_strings (avail ++ [id])) pub [])))).
    { intros avail pub A P. destruct (sin id avail); [apply K; discriminate|]. apply K. intros e [= <-]. cbn. split; [|exact P].
      intros x [H|[]]. apply (proj1 (sort_strings_In x _)) in H. apply in_app_iff in H as [H|[<-|[]]]; auto. }
    destruct w as [[|e| |]|]; try (apply G; [intros x []|exact N]). destruct Ow as [A P]. cbn [within kname]. split; [congruence|].
    intros v Ov. destruct v as [[p| | |]|]; (apply G; [intros x H; apply A; left; exact H|]); try exact N. destruct (Nat.ltb (pe_rel p) rel); assumption.
  Qed.
  Lemma w_ref_package r id : within nm (nm id) (ref_package r id).
  Proof.
    unfold ref_package. cbn [within kname]. split; [reflexivity|]. intros v O. destruct v as [[p| | |]|]; try exact Logic.I. destruct O as [O1 O2]. rewrite O1.
    apply w_build; [reflexivity|]. intros [e|] H; [|exact Logic.I]. apply w_refentry; [reflexivity|]. apply w_link; [reflexivity|]. apply H. reflexivity.
  Qed.
  Lemma w_add_local_package r id rel : 0 < rel -> within nm (nm id) (add_local_package r id (nm id) rel).
  Proof.
    intros R. unfold add_local_package. apply w_build; [reflexivity|]. intros [e|] H; [|exact Logic.I].
    apply w_addint; [reflexivity|exact R|]. apply w_link; [reflexivity|]. apply H. reflexivity.
  Qed.
  Lemma w_remove id : within nm (nm id) (remove_internal id).
  Proof.
    unfold remove_internal. cbn [within kname]. split; [reflexivity|]. intros v _. destruct v as [[p0| | |]|]; try exact Logic.I.
    unfold unref_entry. cbn [within kname]. split; [reflexivity|]. intros w O. destruct w as [[p| | |]|]; try exact Logic.I.
    destruct (Nat.ltb 0 (pe_refs (decref p))).
    - cbn [within kname]. split; [reflexivity|]. split; [exact O|exact Logic.I].
    - repeat split.
  Qed.
  Lemma w_after n p k : within nm n p -> (forall b, within nm n (k b)) -> within nm n (after p k).
  Proof.
    intros W K. induction p as [b|x f IH|x v q IH|m q IH|m q IH]; cbn [after within] in *; auto.
    - destruct W as [A W]. split; [exact A|]. intros v O. apply IH, W, O.
    - destruct W as (A & B & W). auto.
  Qed.
  Lemma w_locked n m p k : within nm n p -> (forall b, within nm n (k b)) -> within nm n (locked m p k).
  Proof. intros W K. unfold locked. cbn [within]. apply w_after; [exact W|]. intros b. exact (K b). Qed.
  Lemma w_drop n o id ds : forall remain k, (forall d, In d ds -> nm d = n) -> (forall d, In d remain -> nm d = n) ->
    (forall l, (forall d, In d l -> nm d = n) -> within nm n (k l)) -> within nm n (drop_deltas o id ds remain k).
  Proof.
    induction ds as [|d ds IH]; intros remain k D R K; cbn [drop_deltas]; [apply K, R|]. assert (Nd : nm d = n) by (apply D; left; reflexivity).
    cbn [within kname]. split; [congruence|]. intros v _. destruct v as [[p| | |]|]; try exact Logic.I. destruct (pe_delta p) as [[f t]|]; [|exact Logic.I].
    assert (D' : forall x, In x ds -> nm x = n) by (intros x H; apply D; right; exact H).
    destruct (seqb f id || seqb t id).
    - apply w_locked; [rewrite <- Nd; apply w_remove|]. intros [|]; [apply IH; assumption|exact Logic.I].
    - apply IH; [exact D'| |exact K]. intros x H. apply in_app_iff in H as [H|[<-|[]]]; auto.
  Qed.
  Lemma w_rest n id av : forall remain hi hid k, (forall a, In a av -> nm a = n) -> (forall a, In a remain -> nm a = n) ->
    (remain = [] /\ hi = 0 \/ nm hid = n) ->
    (forall l pub, (forall a, In a l -> nm a = n) -> (l = [] \/ nm pub = n) -> within nm n (k l pub)) ->
    within nm n (rest_available id av remain hi hid k).
  Proof.
    induction av as [|a av IH]; intros remain hi hid k A R H K; cbn [rest_available].
    - apply K; [exact R|]. tauto.
    - assert (Na : nm a = n) by (apply A; left; reflexivity). assert (A' : forall x, In x av -> nm x = n) by (intros x Hx; apply A; right; exact Hx).
      destruct (seqb a id); [apply IH; assumption|]. cbn [within kname]. split; [congruence|]. intros v O. destruct v as [[p| | |]|]; try exact Logic.I.
      destruct O as [_ O]. assert (R' : forall x, In x (remain ++ [a]) -> nm x = n) by (intros x Hx; apply in_app_iff in Hx as [Hx|[<-|[]]]; auto).
      destruct (Nat.ltb_spec hi (pe_rel p)); (apply IH; [exact A'|exact R'| |exact K]); right; [exact Na|]. destruct H as [[_ ->]|H]; [lia|exact H].
  Qed.
  Lemma w_unref o r id : within nm (nm id) (unref_package o r id).
  Proof.
    unfold unref_package. cbn [within kname]. split; [reflexivity|]. intros v O. destruct v as [[p| | |]|]; try exact Logic.I. destruct O as [O1 O2]. rewrite O1.
    cbn [within kname]. split; [reflexivity|]. intros w Ow. destruct w as [[|e| |]|]; try exact Logic.I. destruct Ow as [A P].
    apply w_locked; [apply w_remove|]. intros [|]; [|exact Logic.I]. apply w_drop; [intros d H; apply A; right; exact H|intros d []|].
    intros l Hl. apply w_rest; [intros a H; apply A; left; exact H|intros a []|left; auto|]. intros l' pub Hl' Hp.
    destruct l' as [|a l']; [repeat split|]. cbn [within kname]. split; [reflexivity|]. split; [|exact Logic.I]. cbn. split; [|destruct Hp; [discriminate|assumption]].
    intros x [H|H]; [change (In x (sort_strings (a :: l'))) in H|]; apply (proj1 (sort_strings_In x _)) in H; [apply Hl', H|apply Hl, H].
  Qed.

  (** ** workers are jobs *)
  Definition as_job (obj : string -> nat) (w : request * nat) : job :=
    let '(q, fresh) := w in let o := obj (rq_repo q) in
    Job (rq_repo q) fresh o (if in_section q then Some (MInsert o) else None) (rq_body q o) (rq_name q) (rq_method q).
  Lemma as_job_good obj m0 w : good_request (fst w) -> m0 (KCache (rq_repo (fst w))) = Some (VObj (obj (rq_repo (fst w)))) ->
    good_job nm m0 (as_job obj w).
  Proof.
    destruct w as [q fresh]. cbn [fst]. intros G C. unfold good_job, as_job. cbn [j_repo j_obj j_meth j_main j_body j_name]. split; [exact C|].
    split; [destruct q; reflexivity|].
    split.
    - destruct q; cbn [good_request rq_body rq_name] in *.
        * apply w_ref_delta.
        * destruct G as (-> & F & T & R). apply w_add_local_delta; assumption.
        * apply w_ref_package.
        * destruct G as (-> & R). apply w_add_local_package; assumption.
        * apply w_unref.
    - apply bal_nests. destruct q; cbn [rq_body].
      + apply bal_free, lf_ref_delta.
      + apply bal_free, lf_add_local_delta.
      + apply bal_free, lf_ref_package.
      + apply bal_free, lf_add_local_package.
      + apply bal_unref. intros [].
  Qed.

  Lemma alone_after p : forall k m, exists b, alone (after p k) m = alone (k b) (alone p m).
  Proof.
    induction p as [b|x f IH|x v q IH|x q IH|x q IH]; intros k m; cbn [after alone].
    - exists b. reflexivity.
    - apply IH.
    - apply IH.
    - apply IH.
    - apply IH.
  Qed.
  Lemma alone_worker w o m : m (KCache (rq_repo (fst w))) = Some (VObj o) ->
    alone (worker (fst w) (snd w)) m = alone (rq_body (fst w) o) m.
  Proof.
    destruct w as [q fresh]. cbn [fst snd]. intros C. unfold worker, get_repo. cbn [alone]. rewrite C.
    destruct q; cbn [rq_method rq_body]; try reflexivity; unfold locked; cbn [alone];
      match goal with |- alone (after ?p ?k) m = _ => destruct (alone_after p k m) as [b E]; rewrite E; reflexivity end.
  Qed.

  Definition one_by_one (ws : list (request * nat)) (m : memory) : memory :=
    fold_left (fun m w => alone (worker (fst w) (snd w)) m) ws m.

  Lemma workers_serial obj m0 ws c' :
    okm nm m0 ->
    (forall w, In w ws -> good_request (fst w) /\ m0 (KCache (rq_repo (fst w))) = Some (VObj (obj (rq_repo (fst w))))) ->
    (forall i i' a b, i <> i' -> nth_error ws i = Some a -> nth_error ws i' = Some b ->
       rq_name (fst a) <> rq_name (fst b)
       \/ (rq_repo (fst a) = rq_repo (fst b) /\ in_section (fst a) = true /\ in_section (fst b) = true)) ->
    reaches (start m0 (map (fun w => worker (fst w) (snd w)) ws)) c' ->
    Forall (fun p => finished p = true) (c_threads c') ->
    exists order, Permutation order ws /\ forall k, c_mem c' k = one_by_one order m0 k.
  Proof.
    intros M G Cf R F.
    assert (Hj : forall j, In j (map (as_job obj) ws) -> good_job nm m0 j).
    { intros j H. apply in_map_iff in H as (w & <- & H). destruct (G w H). apply as_job_good; assumption. }
    destruct (serialisable nm m0 (map (as_job obj) ws) M Hj) with (c' := c') as (ord & P & E).
    - intros i i' a b N Ea Eb. rewrite nth_error_map in Ea, Eb.
      destruct (nth_error ws i) as [[q1 f1]|] eqn:E1; [|discriminate]. destruct (nth_error ws i') as [[q2 f2]|] eqn:E2; [|discriminate].
      injection Ea as <-. injection Eb as <-. destruct (Cf i i' _ _ N E1 E2) as [D|(D & S1 & S2)]; unfold compat; cbn [as_job j_name j_main fst] in *; [left; exact D|].
      right. rewrite S1, S2, D. split; congruence.
    - rewrite map_map. replace (map (fun x => thread (as_job obj x)) ws) with (map (fun w => worker (fst w) (snd w)) ws); [exact R|].
      apply map_ext. intros [q f]. reflexivity.
    - exact F.
    - apply Permutation_map_inv in P as (ws' & -> & P). exists ws'. split; [symmetry; exact P|].
      intros k. rewrite E. clear E R F Cf.
      assert (G' : forall w, In w ws' -> good_request (fst w) /\ m0 (KCache (rq_repo (fst w))) = Some (VObj (obj (rq_repo (fst w))))).
      { intros w H. apply G. apply Permutation_in with ws'; [symmetry; exact P|exact H]. }
      assert (X : forall m, okm nm m -> (forall r, m (KCache r) = m0 (KCache r)) ->
        fold_left (fun m j => alone (j_body j) m) (map (as_job obj) ws') m = one_by_one ws' m).
      { clear - G' . induction ws' as [|w ws' IH]; intros m Ok C; [reflexivity|]. cbn [map fold_left one_by_one].
        destruct (G' w (or_introl eq_refl)) as [Gw Cw].
        assert (Ew : alone (worker (fst w) (snd w)) m = alone (j_body (as_job obj w)) m).
        { destruct w as [q f]. apply (alone_worker (q, f)). cbn [fst] in *. rewrite C. exact Cw. }
        pose proof (as_job_good obj m0 w Gw Cw) as (_ & _ & W & _).
        change (one_by_one (w :: ws') m) with (one_by_one ws' (alone (worker (fst w) (snd w)) m)). rewrite Ew.
        apply IH; [intros w' H; apply G'; right; exact H|apply (alone_ok nm _ (j_name (as_job obj w))); assumption|].
        intros r. rewrite (alone_frame nm _ (j_name (as_job obj w))); [apply C|exact W|exact Ok|discriminate]. }
      rewrite X; auto.
  Qed.
End Names.

(** ** no deadlock *)
(** a worker that never asks for a mutex while it holds one *)
Fixpoint flat (h : option mutex) (p : prog) : Prop :=
  match p with
  | Ret _ => h = None
  | Get _ f => forall v, flat h (f v)
  | Put _ _ q => flat h q
  | Lock m q => h = None /\ flat (Some m) q
  | Unlock m q => h = Some m /\ flat None q
  end.
Lemma flat_after p : forall h k, lockfree p -> (forall b, flat h (k b)) -> flat h (after p k).
Proof.
  induction p as [b|x f IH|x v q IH|m q IH|m q IH]; intros h k L K; cbn [lockfree after flat] in *; auto; contradiction.
Qed.
Lemma flat_seq p : forall h k, flat h p -> (forall b, flat None (k b)) -> flat h (after p k).
Proof.
  induction p as [b|x f IH|x v q IH|m q IH|m q IH]; intros h k L K; cbn [after flat] in *; auto.
  - subst h. apply K.
  - destruct L as [A B]. split; [exact A|]. apply IH; assumption.
  - destruct L as [A B]. split; [exact A|]. apply IH; assumption.
Qed.
Lemma flat_locked m p k : lockfree p -> (forall b, flat None (k b)) -> flat None (locked m p k).
Proof. intros L K. unfold locked. cbn [flat]. split; [reflexivity|]. apply flat_after; [exact L|]. intros b. cbn [flat]. split; [reflexivity|apply K]. Qed.
Lemma flat_each ps k : Forall (flat None) ps -> flat None k -> flat None (each ps k).
Proof. intros H K. induction H as [|p ps P H IH]; cbn [each]; [exact K|]. apply flat_seq; [exact P|]. intros [|]; [exact IH|reflexivity]. Qed.

Section Deadlock.
  Variable s : nat.
  Record dinv (L : list mutex) (h : nat -> option mutex) (c : config) : Prop := {
    d_seq : forall p, nth_error (c_threads c) s = Some p -> nests L p;
    d_other : forall i p, i <> s -> nth_error (c_threads c) i = Some p -> flat (h i) p;
    d_held : forall m, c_held c m = true -> (In m L /\ s < List.length (c_threads c)) \/ exists i, i <> s /\ i < List.length (c_threads c) /\ h i = Some m
  }.
  Lemma dinv_step L h c i c' : dinv L h c -> step_at i c = Some c' -> exists L' h', dinv L' h' c'.
  Proof.
    intros [S O H]. unfold step_at. destruct (nth_error (c_threads c) i) as [p|] eqn:E; [|discriminate].
    assert (Li : i < List.length (c_threads c)) by (apply nth_error_Some; congruence).
    assert (Keep : forall q mem, (i = s -> nests L q) -> (i <> s -> flat (h i) q) ->
      dinv L h (Config mem (c_held c) (set_nth i q (c_threads c)))).
    { intros q mem K1 K2. constructor; cbn [c_threads c_held].
      - intros p' N. destruct (Nat.eq_dec i s) as [->|D]; [rewrite nth_set_same in N by exact Li; injection N as <-; auto|].
        rewrite nth_set_other in N by exact D. apply S, N.
      - intros i' p' Ns N. destruct (Nat.eq_dec i i') as [<-|D]; [rewrite nth_set_same in N by exact Li; injection N as <-; auto|].
        rewrite nth_set_other in N by exact D. apply (O i' p' Ns N).
      - rewrite length_set. exact H. }
    destruct p as [b|k f|k v q|m q|m q]; try discriminate.
    - intros [= <-]. exists L, h. apply Keep; [intros ->; apply (S _ E)|intros D; apply (O i _ D E)].
    - intros [= <-]. exists L, h. apply Keep; [intros ->; apply (S _ E)|intros D; apply (O i _ D E)].
    - destruct (c_held c m) eqn:Hm; [discriminate|]. intros [= <-]. destruct (Nat.eq_dec i s) as [->|D].
      + destruct (S _ E) as [Nm Nq]. exists (m :: L), h. constructor; cbn [c_threads c_held].
        * intros p' N. rewrite nth_set_same in N by exact Li. injection N as <-. exact Nq.
        * intros i' p' Ns N. rewrite nth_set_other in N by congruence. apply (O i' p' Ns N).
        * intros m'. rewrite length_set. unfold set_held. destruct (mutex_eqb_spec m m') as [<-|Dm]; [intros _; left; split; [left; reflexivity|exact Li]|].
          intros Hm'. destruct (H m' Hm') as [[A B]|A]; [left; split; [right; exact A|exact B]|right; exact A].
      + destruct (O i _ D E) as [Nh Nq]. exists L, (fun i' => if Nat.eqb i i' then Some m else h i'). constructor; cbn [c_threads c_held].
        * intros p' N. rewrite nth_set_other in N by exact D. apply S, N.
        * intros i' p' Ns N. destruct (Nat.eqb_spec i i') as [<-|D']; [rewrite nth_set_same in N by exact Li; injection N as <-; exact Nq|].
          rewrite nth_set_other in N by exact D'. apply (O i' p' Ns N).
        * intros m'. rewrite length_set. unfold set_held. destruct (mutex_eqb_spec m m') as [<-|Dm].
          { intros _. right. exists i. rewrite Nat.eqb_refl. auto. }
          intros Hm'. destruct (H m' Hm') as [A|(i' & A & B & C)]; [left; exact A|]. right. exists i'. destruct (Nat.eqb_spec i i') as [<-|]; [congruence|auto].
    - intros [= <-]. destruct (Nat.eq_dec i s) as [->|D].
      + destruct (S _ E) as [Nm Nq]. exists (remove mutex_dec m L), h. constructor; cbn [c_threads c_held].
        * intros p' N. rewrite nth_set_same in N by exact Li. injection N as <-. exact Nq.
        * intros i' p' Ns N. rewrite nth_set_other in N by congruence. apply (O i' p' Ns N).
        * intros m'. rewrite length_set. unfold set_held. destruct (mutex_eqb_spec m m') as [<-|Dm]; [discriminate|].
          intros Hm'. destruct (H m' Hm') as [[A B]|A]; [left; split; [apply in_in_remove; [congruence|exact A]|exact B]|right; exact A].
      + destruct (O i _ D E) as [Nh Nq]. exists L, (fun i' => if Nat.eqb i i' then None else h i'). constructor; cbn [c_threads c_held].
        * intros p' N. rewrite nth_set_other in N by exact D. apply S, N.
        * intros i' p' Ns N. destruct (Nat.eqb_spec i i') as [<-|D']; [rewrite nth_set_same in N by exact Li; injection N as <-; exact Nq|].
          rewrite nth_set_other in N by exact D'. apply (O i' p' Ns N).
        * intros m'. rewrite length_set. unfold set_held. destruct (mutex_eqb_spec m m') as [<-|Dm]; [discriminate|].
          intros Hm'. destruct (H m' Hm') as [A|(i' & A & B & C)]; [left; exact A|]. right. exists i'. destruct (Nat.eqb_spec i i') as [<-|]; [congruence|auto].
  Qed.
  Lemma dinv_run sch : forall L h c c', dinv L h c -> run_schedule sch c = Some c' -> exists L' h', dinv L' h' c'.
  Proof.
    induction sch as [|i sch IH]; intros L h c c' D R; cbn [run_schedule] in R; [injection R as <-; eauto|].
    destruct (step_at i c) as [c1|] eqn:St; [|discriminate]. destruct (dinv_step L h c i c1 D St) as (L1 & h1 & D1). exact (IH _ _ _ _ D1 R).
  Qed.
  Lemma dinv_init m ps : (forall p, nth_error ps s = Some p -> nests [] p) -> (forall i p, i <> s -> nth_error ps i = Some p -> flat None p) ->
    dinv [] (fun _ => None) (start m ps).
  Proof. intros A B. constructor; cbn [start c_threads c_held]; auto. discriminate. Qed.

  Lemma dinv_progress L h c : dinv L h c -> (forall i, step_at i c = None) -> Forall (fun p => finished p = true) (c_threads c).
  Proof.
    intros [S O H] Stuck.
    assert (Free : forall i, i <> s -> forall m, i < List.length (c_threads c) -> h i = Some m -> False).
    { intros i D m Li Hi. destruct (nth_error (c_threads c) i) as [p|] eqn:E; [|apply nth_error_None in E; lia].
      pose proof (O i p D E) as F. rewrite Hi in F. specialize (Stuck i). unfold step_at in Stuck. rewrite E in Stuck.
      destruct p; cbn [flat] in F; try discriminate. destruct F; discriminate. }
    assert (Hs : forall m, c_held c m = true -> In m L /\ s < List.length (c_threads c)).
    { intros m Hm. destruct (H m Hm) as [A|(i & A & B & C)]; [exact A|]. exfalso. exact (Free i A m B C). }
    assert (Es : forall p, nth_error (c_threads c) s = Some p -> finished p = true /\ L = []).
    { intros p E. pose proof (S p E) as N. pose proof (Stuck s) as St. unfold step_at in St. rewrite E in St. destruct p; try discriminate; [split; [reflexivity|exact N]|].
      destruct (c_held c m) eqn:Hm; [|discriminate]. exfalso. destruct N as [N _]. apply N, (Hs m Hm). }
    apply Forall_forall. intros p Ip. apply In_nth_error in Ip as [i E]. destruct (Nat.eq_dec i s) as [->|D]; [apply (Es p E)|].
    pose proof (O i p D E) as F. pose proof (Stuck i) as St. unfold step_at in St. rewrite E in St. destruct p; try discriminate; [reflexivity|].
    destruct (c_held c m) eqn:Hm; [|discriminate]. exfalso. destruct (Hs m Hm) as [Im Ls].
    destruct (nth_error (c_threads c) s) as [ps|] eqn:Eps; [|apply nth_error_None in Eps; lia].
    destruct (Es ps eq_refl) as [_ ->]. destruct Im.
  Qed.
End Deadlock.

(** ** every execution ends *)
Inductive next_prog : prog -> prog -> Prop :=
| NGet k f v : next_prog (f v) (Get k f)
| NPut k v q : next_prog q (Put k v q)
| NLock m q : next_prog q (Lock m q)
| NUnlock m q : next_prog q (Unlock m q).
Lemma next_wf : well_founded next_prog.
Proof. intros p. induction p as [b|k f IH|k v q IH|m q IH|m q IH]; constructor; intros y H; inversion H; subst; auto. Qed.
Definition next_list (l' l : list prog) : Prop := exists i p q, nth_error l i = Some p /\ next_prog q p /\ l' = set_nth i q l.
Lemma next_list_wf : well_founded next_list.
Proof.
  intros l. induction l as [|p l IH].
  - constructor. intros y (i & p & q & E & _). destruct i; discriminate.
  - revert l IH. induction (next_wf p) as [p _ IHp]. intros l IH. induction IH as [l Hl IHl].
    constructor. intros y (i & p' & q & E & Nx & ->). destruct i as [|i]; cbn [nth_error set_nth] in *.
    + injection E as <-. apply IHp; [exact Nx|]. constructor. exact Hl.
    + apply IHl. exists i, p', q. auto.
Qed.
Definition steps_to (c' c : config) : Prop := exists i, step_at i c = Some c'.
Lemma steps_wf : well_founded steps_to.
Proof.
  assert (H : forall l c, l = c_threads c -> Acc steps_to c).
  { intros l. induction (next_list_wf l) as [l _ IH]. intros c ->. constructor. intros c' [i S]. apply (IH (c_threads c')); [|reflexivity].
    unfold step_at in S. destruct (nth_error (c_threads c) i) as [p|] eqn:E; [|discriminate]. exists i, p.
    destruct p as [b|k f|k v q|m q|m q]; try discriminate.
    - injection S as <-. eexists. split; [exact E|]. split; [apply NGet|reflexivity].
    - injection S as <-. eexists. split; [exact E|]. split; [apply NPut|reflexivity].
    - destruct (c_held c m); [discriminate|]. injection S as <-. eexists. split; [exact E|]. split; [apply NLock|reflexivity].
    - injection S as <-. eexists. split; [exact E|]. split; [apply NUnlock|reflexivity]. }
  intros c. apply (H (c_threads c) c eq_refl).
Qed.
Lemma can_step_dec c : (exists i c', step_at i c = Some c') \/ forall i, step_at i c = None.
Proof.
  assert (H : forall n, (exists i c', step_at i c = Some c') \/ forall i, i < n -> step_at i c = None).
  { induction n as [|n [IH|IH]]; [right; intros; lia|left; exact IH|]. destruct (step_at n c) as [c'|] eqn:E; [left; eauto|].
    right. intros i Hi. destruct (Nat.eq_dec i n) as [->|]; [exact E|apply IH; lia]. }
  destruct (H (List.length (c_threads c))) as [A|A]; [left; exact A|]. right. intros i. destruct (le_lt_dec (List.length (c_threads c)) i) as [L|L]; [|apply A, L].
  unfold step_at. apply nth_error_None in L. rewrite L. reflexivity.
Qed.
Lemma run_app s1 s2 c : run_schedule (s1 ++ s2) c = match run_schedule s1 c with Some c' => run_schedule s2 c' | None => None end.
Proof. revert c. induction s1 as [|i s1 IH]; intros c; [reflexivity|]. cbn [app run_schedule]. destruct (step_at i c); [apply IH|reflexivity]. Qed.
Lemma maximal_run c : exists s c', run_schedule s c = Some c' /\ forall i, step_at i c' = None.
Proof.
  induction (steps_wf c) as [c _ IH]. destruct (can_step_dec c) as [(i & c1 & S)|N]; [|exists [], c; auto].
  destruct (IH c1 (ex_intro _ i S)) as (s & c' & R & N). exists (i :: s), c'. cbn [run_schedule]. rewrite S. auto.
Qed.
