(** * PropsConc: C55, C65, C66 (concurrent workers and the database), C67 (no
    deadlock) *)
From Verif Require Import Base Conc ConcFacts ConcFacts2.
From Coq Require Import Permutation.
Open Scope string_scope. Open Scope list_scope.

(** Vocabulary (Conc.v): [start m ps] is the state in which workers with the
    programs [ps] begin on database [m]; [reaches] lets them take steps in any
    interleaving; [worker q fresh] is the program of request [q] (looking up the
    Repository object first); [one_by_one ws m] runs the requests one after the
    other. [nm id] is the package name an identifier belongs to; [okm nm m]: the
    database is consistent with that (entries of a name list identifiers of that
    name, metadata has that name and a positive release). *)

(** ** C55 *)
(** The part that holds: if any two of the requests concern different packages,
    or are both references or additions to the same repository, then every
    interleaving ends as if they had run in some order. *)
Theorem C55_serial_partial :
  forall (nm : string -> string) (obj : string -> nat) m ws c',
    okm nm m ->
    (forall w, In w ws -> good_request nm (fst w)) ->
    (forall w, In w ws -> m (KCache (rq_repo (fst w))) = Some (VObj (obj (rq_repo (fst w))))) ->
    (forall i i' a b, i <> i' -> nth_error ws i = Some a -> nth_error ws i' = Some b ->
       rq_name nm (fst a) <> rq_name nm (fst b)
       \/ (rq_repo (fst a) = rq_repo (fst b) /\ in_section (fst a) = true /\ in_section (fst b) = true)) ->
    reaches (start m (map (fun w => worker (fst w) (snd w)) ws)) c' ->
    Forall (fun p => finished p = true) (c_threads c') ->
    exists order, Permutation order ws /\ forall k, c_mem c' k = one_by_one order m k.
Proof. intros nm obj m ws c' M G C. apply workers_serial with (obj := obj); auto. Qed.

Definition memory_of (l : list (key * val)) : memory :=
  fun k => match find (fun p => key_eqb (fst p) k) l with Some (_, v) => Some v | None => None end.
Definition refs (m : memory) (id : string) : option nat :=
  match m (KPool id) with Some (VPool p) => Some (pe_refs p) | _ => None end.
Definition deltas_in (m : memory) (r n : string) : list string :=
  match m (KRepo r n) with Some (VRepo e) => re_deltas e | _ => [] end.
Definition packages_in (m : memory) (r n : string) : list string :=
  match m (KRepo r n) with Some (VRepo e) => re_avail e | _ => [] end.

(** three repositories with releases 1 and 2 of a package; one also has the delta *)
Definition entry (ds : list string) : val := VRepo (REnt ["p1"; "p2"] "p2" ds).
Definition three : memory := memory_of
  [(KCache "a", VObj 1); (KCache "b", VObj 2); (KCache "c", VObj 3);
   (KPool "p1", VPool (PEnt 3 "p" 1 None)); (KFile "p1", VFile);
   (KPool "p2", VPool (PEnt 3 "p" 2 None)); (KFile "p2", VFile);
   (KPool "d", VPool (PEnt 1 "p" 2 (Some ("p1", "p2")))); (KFile "d", VFile);
   (KRepo "a" "p", entry []); (KRepo "b" "p", entry []); (KRepo "c" "p", entry ["d"])].
Definition two_refs : list (request * nat) := [(RqRefDelta "a" "d", 0); (RqRefDelta "b" "d", 0)].

(** Refuted: two delta jobs reference the same delta from two repositories at
    the same time. Both succeed and both repositories list it, but one reference
    is lost (in every order there would be three); when two of the three
    repositories drop it the file is deleted although the third lists it. *)
Definition after_refs : list nat := [0;1;0;1;0;1;0;1;0;1;0;1;0;1;0;1;0;1].
Theorem C55_lost_reference_refuted :
  exists c',
    reaches (start three (map (fun w => worker (fst w) (snd w)) two_refs)) c'
    /\ c_threads c' = [Ret true; Ret true]
    /\ deltas_in (c_mem c') "a" "p" = ["d"] /\ deltas_in (c_mem c') "b" "p" = ["d"] /\ deltas_in (c_mem c') "c" "p" = ["d"]
    /\ refs (c_mem c') "d" = Some 2
    /\ (forall order, Permutation order two_refs -> refs (one_by_one order three) "d" = Some 3)
    /\ let later := one_by_one [(RqUnref "c" "p2", 0); (RqUnref "a" "p2", 0)] (c_mem c') in
       later (KFile "d") = None /\ later (KPool "d") = None /\ deltas_in later "b" "p" = ["d"].
Proof.
  destruct (run_schedule after_refs (start three (map (fun w => worker (fst w) (snd w)) two_refs))) as [c'|] eqn:R; [|vm_compute in R; discriminate].
  exists c'. split; [exists after_refs; exact R|].
  vm_compute in R. injection R as <-. split; [reflexivity|]. split; [vm_compute; reflexivity|]. split; [vm_compute; reflexivity|]. split; [vm_compute; reflexivity|].
  split; [vm_compute; reflexivity|]. split; [|vm_compute; auto].
  intros order P. symmetry in P. apply Permutation_length_2_inv in P as [->| ->]; vm_compute; reflexivity.
Qed.

(** ** C65 *)
(** Refuted, first way: a delta job adds a delta to a repository while a removal
    of another release of the package is under way there. Both succeed; the
    removal writes back the entry it read before, so the delta is in no listing
    while its reference stays for ever. *)
Definition shared : memory := memory_of
  [(KCache "a", VObj 1); (KCache "b", VObj 2);
   (KPool "p1", VPool (PEnt 1 "p" 1 None)); (KFile "p1", VFile);
   (KPool "p2", VPool (PEnt 1 "p" 2 None)); (KFile "p2", VFile);
   (KPool "p3", VPool (PEnt 2 "p" 3 None)); (KFile "p3", VFile);
   (KPool "d", VPool (PEnt 1 "p" 3 (Some ("p2", "p3")))); (KFile "d", VFile);
   (KRepo "a" "p", VRepo (REnt ["p1"; "p2"; "p3"] "p3" [])); (KRepo "b" "p", VRepo (REnt ["p3"] "p3" ["d"]))].
Definition remove_and_ref : list (request * nat) := [(RqUnref "a" "p1", 0); (RqRefDelta "a" "d", 0)].
Definition lose_delta : list nat := [0;0;0] ++ [1;1;1;1;1;1;1;1;1] ++ repeat 0 9.
Theorem C65_delta_lost_refuted :
  exists c',
    reaches (start shared (map (fun w => worker (fst w) (snd w)) remove_and_ref)) c'
    /\ c_threads c' = [Ret true; Ret true]
    /\ deltas_in (c_mem c') "a" "p" = [] /\ refs (c_mem c') "d" = Some 2
    /\ forall order, Permutation order remove_and_ref ->
         deltas_in (one_by_one order shared) "a" "p" = ["d"].
Proof.
  destruct (run_schedule lose_delta (start shared (map (fun w => worker (fst w) (snd w)) remove_and_ref))) as [c'|] eqn:R; [|vm_compute in R; discriminate].
  exists c'. split; [exists lose_delta; exact R|]. vm_compute in R. injection R as <-. split; [reflexivity|]. split; [vm_compute; reflexivity|]. split; [vm_compute; reflexivity|].
  intros order P. symmetry in P. apply Permutation_length_2_inv in P as [->| ->]; vm_compute; reflexivity.
Qed.

(** Refuted, second way: the delta job writes back the entry it read before the
    removal finished: the removed package is listed again although its pool
    entry and file are gone. *)
Definition back_again : list nat := repeat 0 10 ++ [1;1;1;1] ++ repeat 0 2 ++ repeat 1 5.
Theorem C65_removed_package_back_refuted :
  exists c',
    reaches (start shared (map (fun w => worker (fst w) (snd w)) remove_and_ref)) c'
    /\ c_threads c' = [Ret true; Ret true]
    /\ packages_in (c_mem c') "a" "p" = ["p1"; "p2"; "p3"]
    /\ c_mem c' (KPool "p1") = None /\ c_mem c' (KFile "p1") = None
    /\ forall order, Permutation order remove_and_ref ->
         packages_in (one_by_one order shared) "a" "p" = ["p2"; "p3"].
Proof.
  destruct (run_schedule back_again (start shared (map (fun w => worker (fst w) (snd w)) remove_and_ref))) as [c'|] eqn:R; [|vm_compute in R; discriminate].
  exists c'. split; [exists back_again; exact R|]. vm_compute in R. injection R as <-. split; [reflexivity|]. split; [vm_compute; reflexivity|]. split; [vm_compute; reflexivity|]. split; [vm_compute; reflexivity|].
  intros order P. symmetry in P. apply Permutation_length_2_inv in P as [->| ->]; vm_compute; reflexivity.
Qed.

(** What holds: a removal that runs beside requests for other packages, in
    whatever repositories (these requests among themselves as in C55). *)
Theorem C65_other_packages_partial :
  forall (nm : string -> string) (obj : string -> nat) m r id fresh others c',
    okm nm m ->
    (forall w, In w others -> good_request nm (fst w) /\ in_section (fst w) = true /\ rq_name nm (fst w) <> nm id) ->
    (forall i i' a b, i <> i' -> nth_error others i = Some a -> nth_error others i' = Some b ->
       rq_name nm (fst a) <> rq_name nm (fst b) \/ rq_repo (fst a) = rq_repo (fst b)) ->
    (forall w, In w ((RqUnref r id, fresh) :: others) -> m (KCache (rq_repo (fst w))) = Some (VObj (obj (rq_repo (fst w))))) ->
    reaches (start m (map (fun w => worker (fst w) (snd w)) ((RqUnref r id, fresh) :: others))) c' ->
    Forall (fun p => finished p = true) (c_threads c') ->
    exists order, Permutation order ((RqUnref r id, fresh) :: others) /\ forall k, c_mem c' k = one_by_one order m k.
Proof.
  intros nm obj m r id fresh others c' M G Cf C R F. apply (C55_serial_partial nm obj m _ c' M); auto.
  - intros w [<-|H]; [exact Logic.I|apply (G w H)].
  - intros i i' a b N Ea Eb. destruct i as [|i], i' as [|i']; cbn [nth_error] in *; [congruence| | |].
    + injection Ea as <-. left. apply nth_error_In in Eb. destruct (G b Eb) as (_ & _ & D). cbn [rq_name fst]. congruence.
    + injection Eb as <-. left. apply nth_error_In in Ea. destruct (G a Ea) as (_ & _ & D). exact D.
    + destruct (Cf i i' a b ltac:(congruence) Ea Eb) as [D|D]; [left; exact D|right]. apply nth_error_In in Ea, Eb.
      destruct (G a Ea) as (_ & Sa & _), (G b Eb) as (_ & Sb & _). auto.
Qed.

(** ** C66 *)
(** What holds: once a repository has been used (its object is in the cache), any
    number of references and additions to it, of whatever packages, take effect
    one after the other. *)
Theorem C66_used_repository_partial :
  forall (nm : string -> string) m r o ws c',
    okm nm m -> m (KCache r) = Some (VObj o) ->
    (forall w, In w ws -> good_request nm (fst w) /\ rq_repo (fst w) = r /\ in_section (fst w) = true) ->
    reaches (start m (map (fun w => worker (fst w) (snd w)) ws)) c' ->
    Forall (fun p => finished p = true) (c_threads c') ->
    exists order, Permutation order ws /\ forall k, c_mem c' k = one_by_one order m k.
Proof.
  intros nm m r o ws c' M C G R F. apply (C55_serial_partial nm (fun _ => o) m ws c' M); auto.
  - intros w H. apply (G w H).
  - intros w H. destruct (G w H) as (_ & E & _). rewrite E. exact C.
  - intros i i' a b _ Ea Eb. apply nth_error_In in Ea, Eb. destruct (G a Ea) as (_ & E1 & S1), (G b Eb) as (_ & E2 & S2). right. split; [congruence|auto].
Qed.

(** Refuted without that: after a start of the daemon two delta jobs for one
    repository can each make their own Repository object with its own mutex; both
    are inside the critical section and one delta is lost from the listing. *)
Definition unused : memory := memory_of
  [(KPool "p1", VPool (PEnt 1 "p" 1 None)); (KFile "p1", VFile);
   (KPool "p2", VPool (PEnt 1 "p" 2 None)); (KFile "p2", VFile);
   (KPool "p3", VPool (PEnt 1 "p" 3 None)); (KFile "p3", VFile);
   (KRepo "a" "p", VRepo (REnt ["p1"; "p2"; "p3"] "p3" []))].
Definition two_deltas : list (request * nat) :=
  [(RqAddDelta "a" "d13" "p" 3 "p1" "p3", 1); (RqAddDelta "a" "d23" "p" 3 "p2" "p3", 2)].
Definition both_inside : list nat := [0;1;0;1;0;1;0;1] ++ repeat 0 9 ++ repeat 1 9.
Theorem C66_first_use_refuted :
  exists c',
    reaches (start unused (map (fun w => worker (fst w) (snd w)) two_deltas)) c'
    /\ c_threads c' = [Ret true; Ret true]
    /\ deltas_in (c_mem c') "a" "p" = ["d23"]
    /\ refs (c_mem c') "d13" = Some 1
    /\ forall order, Permutation order two_deltas ->
         deltas_in (one_by_one order unused) "a" "p" = ["d13"; "d23"].
Proof.
  destruct (run_schedule both_inside (start unused (map (fun w => worker (fst w) (snd w)) two_deltas))) as [c'|] eqn:R; [|vm_compute in R; discriminate].
  exists c'. split; [exists both_inside; exact R|]. vm_compute in R. injection R as <-. split; [reflexivity|]. split; [vm_compute; reflexivity|]. split; [vm_compute; reflexivity|].
  intros order P. symmetry in P. apply Permutation_length_2_inv in P as [->| ->]; vm_compute; reflexivity.
Qed.

(** Example: the hypotheses of C55 and C66 are met: the same two additions once the
    repository has been used, in an interleaving where the second waits. *)
Definition used : memory := upd unused (KCache "a") (Some (VObj 7)).
Definition name_of (id : string) : string := if sin id ["p1"; "p2"; "p3"; "d13"; "d23"] then "p" else id.
Definition one_waits : list nat := [0;1] ++ repeat 0 11 ++ repeat 1 11.
Example C66_case :
  okm name_of used /\ used (KCache "a") = Some (VObj 7)
  /\ (forall w, In w two_deltas -> good_request name_of (fst w) /\ rq_repo (fst w) = "a" /\ in_section (fst w) = true)
  /\ exists c', run_schedule one_waits (start used (map (fun w => worker (fst w) (snd w)) two_deltas)) = Some c'
       /\ c_threads c' = [Ret true; Ret true] /\ deltas_in (c_mem c') "a" "p" = ["d13"; "d23"].
Proof.
  split.
  - assert (A : forall l, (forall k v, In (k, v) l -> okv name_of k (Some v)) -> okm name_of (memory_of l)).
    { intros l H k. unfold memory_of. destruct (find _ l) as [[k' v]|] eqn:Fd; [|destruct k; exact Logic.I].
      apply find_some in Fd as [I E]. cbn [fst] in E. destruct (key_eqb_spec k' k) as [<-|]; [apply H, I|discriminate]. }
    unfold used. apply okm_upd; [|exact Logic.I]. apply A. intros k v I. unfold unused in I. cbn [In] in I.
    repeat match goal with H : _ \/ _ |- _ => destruct H as [H|H] end; try contradiction; injection I as <- <-; cbn; auto.
    split; [|reflexivity]. intros id [H|[]]. repeat match goal with H : _ \/ _ |- _ => destruct H as [H|H] end; try contradiction; subst; reflexivity.
  - split; [reflexivity|]. split.
    + intros w [<-|[<-|[]]]; cbn; repeat split; lia.
    + destruct (run_schedule one_waits (start used (map (fun w => worker (fst w) (snd w)) two_deltas))) as [c'|] eqn:R; [|vm_compute in R; discriminate].
      exists c'. split; [reflexivity|]. vm_compute in R. injection R as <-. split; [reflexivity|vm_compute; reflexivity].
Qed.

(** ** C67 *)
(** The jobs of the sequential worker, after their Repository objects are looked
    up (by C66 one object per repository; [src] and [tgt] of a pull or clone are
    different repositories; a pull of a repository into itself inserts nothing). *)
Inductive seq_job :=
| SqCreate (o : nat) (r : string) (reads : list key)
| SqDelete (o : nat) (r : string) (ids names : list string)
| SqPull (src tgt : nat) (r : string) (ids ds : list string) (reads : list key)
| SqSelfPull (o : nat) (reads : list key)
| SqRemove (o : nat) (r : string) (ids : list string) (reads : list key)
| SqTrimObsolete (o : nat) (r : string) (ids : list string) (reads : list key)
| SqAdd (o : nat) (r : string) (adds : list (string * string * nat)) (reads : list key)
| SqCopy (o : nat) (r : string) (ids : list string) (reads : list key)
| SqIndex (o : nat) (reads : list key).
Definition seq_program (j : seq_job) : prog :=
  match j with
  | SqCreate o r reads => create_repo o r reads
  | SqDelete o r ids names => delete_repo o r ids names
  | SqPull src tgt r ids ds reads => pull_like src tgt r ids ds reads
  | SqSelfPull o reads => each [locked (MInsert o) (Ret true) Ret] (index_repo o reads)
  | SqRemove o r ids reads => remove_like o r ids reads
  | SqTrimObsolete o r ids reads => trim_obsolete o r ids reads
  | SqAdd o r adds reads => add_like o r adds reads
  | SqCopy o r ids reads => copy_like o r ids reads
  | SqIndex o reads => index_repo o reads
  end.
Definition distinct_repositories (j : seq_job) : Prop :=
  match j with SqPull src tgt _ _ _ _ => src <> tgt | _ => True end.
Record d_job := DJob { dj_obj : nat; dj_repo : string; dj_name : string;
                       dj_deltas : list (string * option (nat * string * string)); dj_reads : list key }.
Definition d_program (j : d_job) : prog := delta_job (dj_obj j) (dj_repo j) (dj_name j) (dj_deltas j) (dj_reads j).
(** a worker takes its jobs one after the other, whether they fail or not *)
Definition in_sequence (ps : list prog) : prog := fold_right (fun p k => after p (fun _ => k)) (Ret true) ps.

Lemma bal_index o reads E : ~ In (MIndex o) E -> bal E E (index_repo o reads).
Proof.
  intros N. apply bal_locked; [|exact N|reflexivity]. apply bal_free. induction reads as [|k l IH]; cbn [fold_right lockfree]; auto.
Qed.
Lemma bal_section m p E : lockfree p -> ~ In m E -> bal E E (locked m p Ret).
Proof. intros L N. apply bal_locked; [apply bal_free, L|exact N|reflexivity]. Qed.
Lemma seq_nests j : distinct_repositories j -> bal [] [] (seq_program j).
Proof.
  destruct j as [o r reads|o r ids names|src tgt r ids ds reads|o reads|o r ids reads|o r ids reads|o r adds reads|o r ids reads|o reads]; cbn [distinct_repositories seq_program]; intros D.
  - apply bal_each; [|apply bal_index; intros []|reflexivity]. constructor; [apply bal_section; [exact Logic.I|intros []]|constructor].
  - unfold delete_repo. apply bal_locked; [|intros []|reflexivity].
    apply (bal_after _ [MRepos]).
    + unfold get_repo. assert (X : bal [MRepos] [MRepos] (each (map (fun id => locked (MInsert o) (remove_internal id) Ret) ids) (Ret true))).
      { apply bal_each; [|reflexivity|reflexivity]. apply Forall_forall. intros p H. apply in_map_iff in H as (id & <- & _).
        apply bal_section; [apply lf_remove|]. intros [H|[]]; discriminate. }
      cbn [bal]. intros v. destruct v as [[]|]; exact X.
    + intros [|]; [|reflexivity]. apply bal_free. induction names as [|n l IH]; cbn [fold_right lockfree]; auto.
  - unfold pull_like. apply bal_each; [|apply bal_index; intros []|reflexivity]. constructor; [|constructor].
    apply bal_locked; [|intros []|reflexivity]. apply bal_each; [|reflexivity|reflexivity]. apply Forall_forall. intros p H.
    assert (Nt : ~ In (MInsert tgt) [MInsert src]) by (intros [[= ->]|[]]; congruence).
    apply in_app_iff in H as [H|H]; apply in_map_iff in H as (x & <- & _); apply bal_section; auto using lf_ref_package, lf_ref_delta.
  - apply bal_each; [|apply bal_index; intros []|reflexivity]. constructor; [apply bal_section; [exact Logic.I|intros []]|constructor].
  - unfold remove_like. apply bal_each; [|apply bal_index; intros []|reflexivity]. apply Forall_forall. intros p H. apply in_map_iff in H as (x & <- & _). apply bal_unref. intros [].
  - unfold trim_obsolete. apply bal_each; [|apply bal_index; intros []|reflexivity]. constructor; [|constructor].
    apply bal_locked; [|intros []|reflexivity]. apply bal_each; [|reflexivity|reflexivity]. apply Forall_forall. intros p H. apply in_map_iff in H as (x & <- & _).
    apply bal_unref. intros [H|[]]; discriminate.
  - unfold add_like. apply bal_each; [|apply bal_index; intros []|reflexivity]. apply Forall_forall. intros p H. apply in_map_iff in H as (x & <- & _).
    apply bal_section; [apply lf_add_local_package|intros []].
  - unfold copy_like. apply bal_each; [|apply bal_index; intros []|reflexivity]. apply Forall_forall. intros p H. apply in_map_iff in H as (x & <- & _).
    apply bal_section; [apply lf_ref_package|intros []].
  - apply bal_index. intros [].
Qed.
Lemma d_flat j : flat None (d_program j).
Proof.
  unfold d_program, delta_job. apply flat_each.
  - apply Forall_forall. intros p H. apply in_map_iff in H as ([d [[[rel f] t]|]] & <- & _); apply flat_locked; auto using lf_ref_delta, lf_add_local_delta; reflexivity.
  - apply flat_locked; [|reflexivity]. induction (dj_reads j) as [|k l IH]; cbn [fold_right lockfree]; auto.
Qed.
Lemma seq_bal ps : Forall (bal [] []) ps -> bal [] [] (in_sequence ps).
Proof. induction 1 as [|p ps P _ IH]; cbn [in_sequence fold_right]; [reflexivity|]. apply (bal_after p [] [] []); [exact P|]. intros _. exact IH. Qed.
Lemma seq_flat ps : Forall (flat None) ps -> flat None (in_sequence ps).
Proof. induction 1 as [|p ps P _ IH]; cbn [in_sequence fold_right]; [reflexivity|]. apply flat_seq; [exact P|]. intros _. exact IH. Qed.

Definition daemon (sq : list seq_job) (ds : list (list d_job)) : list prog :=
  in_sequence (map seq_program sq) :: map (fun l => in_sequence (map d_program l)) ds.

Lemma daemon_dinv m sq ds c : (forall j, In j sq -> distinct_repositories j) -> reaches (start m (daemon sq ds)) c -> exists L h, dinv 0 L h c.
Proof.
  intros D [s R]. apply (dinv_run 0 s [] (fun _ => None) (start m (daemon sq ds)) c); [|exact R]. apply dinv_init.
  - intros p [= <-]. apply bal_nests, seq_bal. apply Forall_forall. intros p H. apply in_map_iff in H as (j & <- & H). apply seq_nests, D, H.
  - intros [|i] p N E; [congruence|]. cbn [daemon nth_error] in E. apply nth_error_In, in_map_iff in E as (l & <- & _).
    apply seq_flat. apply Forall_forall. intros q H. apply in_map_iff in H as (j & <- & _). apply d_flat.
Qed.

(** For every database, any jobs of the sequential worker and any delta jobs of any
    number of other workers: in every reachable state either all have finished or
    some worker can go on; no execution goes on for ever; and so every execution
    that is continued as long as possible ends with all jobs done. *)
Theorem C67_no_deadlock :
  forall m sq ds c,
    (forall j, In j sq -> distinct_repositories j) ->
    reaches (start m (daemon sq ds)) c ->
    Forall (fun p => finished p = true) (c_threads c) \/ exists i c', step_at i c = Some c'.
Proof.
  intros m sq ds c D R. destruct (can_step_dec c) as [S|N]; [right; exact S|left]. destruct (daemon_dinv m sq ds c D R) as (L & h & I).
  exact (dinv_progress 0 L h c I N).
Qed.
Theorem C67_no_infinite_run :
  forall f : nat -> config, ~ (forall n, exists i, step_at i (f n) = Some (f (S n))).
Proof.
  intros f H. assert (X : forall c, (exists n, f n = c) -> False).
  { intros c. induction (steps_wf c) as [c _ IH]. intros [n <-]. apply (IH (f (S n))); [|eauto]. exact (H n). }
  apply (X (f 0)). eauto.
Qed.
Theorem C67_all_jobs_end :
  forall m sq ds c,
    (forall j, In j sq -> distinct_repositories j) ->
    reaches (start m (daemon sq ds)) c ->
    exists c', reaches c c' /\ Forall (fun p => finished p = true) (c_threads c').
Proof.
  intros m sq ds c D [s R]. destruct (maximal_run c) as (s' & c' & R' & N). exists c'. split; [exists s'; exact R'|].
  destruct (C67_no_deadlock m sq ds c' D) as [F|(i & c2 & S)]; [|exact F|rewrite N in S; discriminate].
  exists (s ++ s'). rewrite run_app, R. exact R'.
Qed.

(** Example: a pull from b into a beside a delta job on b; and why the single
    sequential worker matters: two opposite pulls at the same time would block
    each other for ever. *)
Definition pull_ab : prog := pull_like 2 1 "a" ["p3"] [] [].
Definition pull_ba : prog := pull_like 1 2 "b" ["p1"] [] [].
Example C67_case :
  distinct_repositories (SqPull 2 1 "a" ["p3"] [] [])
  /\ (exists c, reaches (start shared (daemon [SqPull 2 1 "a" ["p3"] [] []] [[DJob 2 "b" "p" [("d", None)] []]])) c
        /\ c_held c (MInsert 2) = true /\ step_at 1 c = None /\ exists c', step_at 0 c = Some c')
  /\ exists c, run_schedule [0;1] (start shared [pull_ab; pull_ba]) = Some c /\ step_at 0 c = None /\ step_at 1 c = None.
Proof.
  split; [cbn; lia|]. split.
  - destruct (run_schedule [0;0] (start shared (daemon [SqPull 2 1 "a" ["p3"] [] []] [[DJob 2 "b" "p" [("d", None)] []]]))) as [c|] eqn:R; [|vm_compute in R; discriminate].
    exists c. split; [exists [0;0]; exact R|]. vm_compute in R. injection R as <-. split; [reflexivity|]. split; [reflexivity|]. eexists. reflexivity.
  - eexists. split; [reflexivity|]. split; reflexivity.
Qed.

Print Assumptions C55_serial_partial.
Print Assumptions C55_lost_reference_refuted.
Print Assumptions C65_delta_lost_refuted.
Print Assumptions C65_removed_package_back_refuted.
Print Assumptions C65_other_packages_partial.
Print Assumptions C66_used_repository_partial.
Print Assumptions C66_first_use_refuted.
Print Assumptions C67_no_deadlock.
Print Assumptions C67_no_infinite_run.
Print Assumptions C67_all_jobs_end.
