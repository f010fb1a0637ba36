(** * PropsRemove: property C87 - an interrupted removal
    (theorems; proofs in RemoveRetry.v) *)
From Verif Require Import Model Spec Demo DemoOk DbInv DbOps Wp Sim RemoveRetry PropsOps PropsRestart.
From Verif Require PropsDelete.
Open Scope string_scope. Open Scope list_scope.

(** ** Specification *)
(** killed at the [n]-th durable write of the request [p], and started again *)
Definition killed_in (E : env) (o : oracle) (p : op) (n : nat) (s : state) : state := ev_step E s (EvCrash o p n).

Lemma get_repo_missing r s : st_cache s r = false -> mhas (d_repos (st_db s)) r = false -> get_repo r s = ([], s, Err).
Proof. intros C R. unfold get_repo. rewrite bg, C, bg, R. reflexivity. Qed.
Lemma get_repo_found r s : st_cache s r = false -> mhas (d_repos (st_db s)) r = true ->
  exists tr u, get_repo r s = (tr, u, Ok tt) /\ st_db u = st_db s /\ st_batch u = st_batch s /\ (forall x, st_cache u x = st_cache s x || seqb x r) /\
    f_name (st_fs u) = f_name (st_fs s) /\ f_data (st_fs u) = f_data (st_fs s) /\ f_root (st_fs u) = f_root (st_fs s) /\ f_asset (st_fs u) = f_asset (st_fs s) /\
    (forall x, f_dir (st_fs u) x = f_dir (st_fs s) x || seqb x r).
Proof.
  intros C R. unfold get_repo. rewrite bg, C, bg, R. unfold bake_repo, bind, gets, durable, vol, ret.
  destruct (f_dir (st_fs s) r) eqn:Dr; do 2 eexists; (split; [reflexivity|]); cbn; repeat (split; [try reflexivity|]).
  - intros x. unfold fupd. destruct (seqb_spec x r) as [->|N]; [rewrite orb_true_r; reflexivity|rewrite orb_false_r; reflexivity].
  - intros x. destruct (seqb_spec x r) as [->|N]; [rewrite Dr; reflexivity|rewrite orb_false_r; reflexivity].
  - intros x. unfold fupd. destruct (seqb_spec x r) as [->|N]; [rewrite orb_true_r; reflexivity|rewrite orb_false_r; reflexivity].
  - intros x. unfold fupd. destruct (seqb_spec x r) as [->|N]; [rewrite orb_true_r; reflexivity|rewrite orb_false_r; reflexivity].
Qed.

Lemma rerun0 E o p r s0 n : (forall x, st_cache s0 x = false) -> st_batch s0 = [] -> removes_packages p = true -> target p = Some r ->
  let c := killed_in E o p n s0 in
  st_db c = st_db s0 -> (forall x f, index_file c x f = index_file s0 x f) ->
  outcome E o p c = outcome E o p s0 /\ PropsDelete.same_disk (after E o p s0) (after E o p c).
Proof.
  intros Ca Ba Rm Tg c Ed Er. destruct (removal_split r E o p Rm Tg) as (Y & Sp & RY & MY).
  assert (Hc : c = restart (nth n (s0 :: trace_of (run_op E o p s0)) (final_of (run_op E o p s0)))) by reflexivity.
  set (c0 := nth n (s0 :: trace_of (run_op E o p s0)) (final_of (run_op E o p s0))) in *.
  assert (MR : mono r (run_op E o p)).
  { intros s. rewrite (Sp s). apply mo_bind; [apply o_get_repo|intros _; exact MY]. }
  destruct (MR s0) as [M1 M2].
  assert (Sh : shrinks r (st_fs s0) (st_fs c0) /\ shrinks r (st_fs c0) (st_fs (final_of (run_op E o p s0)))).
  { unfold c0. destruct n as [|n]; [split; [apply shrinks_refl|exact M1]|]. cbn [nth].
    rewrite Forall_forall in M2. destruct (nth_in_or_default n (trace_of (run_op E o p s0)) (final_of (run_op E o p s0))) as [X|X]; [apply M2, X|rewrite X; split; [exact M1|apply shrinks_refl]]. }
  destruct Sh as [(S1 & S2 & S3 & S4 & S5) (S1' & S2' & S3' & S4' & S5')].
  unfold outcome, after. destruct (mhas (d_repos (st_db s0)) r) eqn:Hr.
  2:{ assert (X : run_op E o p s0 = ([], s0, Err)).
      { rewrite Sp. unfold bind. rewrite (get_repo_missing r s0 (Ca r) Hr). reflexivity. }
      assert (Xc : c = restart s0).
      { rewrite Hc. unfold c0. rewrite X. destruct n as [|[|n]]; reflexivity. }
      assert (Y' : run_op E o p c = ([], c, Err)).
      { rewrite Sp. unfold bind. rewrite (get_repo_missing r c); [reflexivity|rewrite Hc; reflexivity|rewrite Ed; exact Hr]. }
      fold c. rewrite X, Y'. split; [reflexivity|]. unfold final_of. cbn [fst snd]. rewrite Xc. repeat split; reflexivity. }
  destruct (get_repo_found r s0 (Ca r) Hr) as (tr & u & Gu & U1 & U2 & U3 & U4 & U5 & U6 & U7 & U8).
  destruct (get_repo_found r c) as (tr' & v & Gv & V1 & V2 & V3 & V4 & V5 & V6 & V7 & V8); [rewrite Hc; reflexivity|rewrite Ed; exact Hr|].
  assert (Fc : st_fs c = st_fs c0) by (rewrite Hc; reflexivity).
  set (G := fun l => f_name (st_fs c0) l = None).
  assert (Lx : L G u v).
  { split; [congruence|]. split; [rewrite V2, U2, Ba, Hc; reflexivity|]. split; [intros x; rewrite V3, U3, Ca, Hc; reflexivity|]. split.
    - constructor; rewrite ?V5, ?U5, ?V6, ?U6, ?V7, ?U7, ?Fc; auto.
      intros x. rewrite V8, U8, Fc. destruct (seqb_spec x r) as [->|N]; [rewrite !orb_true_r; reflexivity|rewrite (S4 x N); reflexivity].
    - intros l. rewrite V4, U4, Fc. destruct (S2 l) as [X|X]; [left; exact X|right; auto]. }
  destruct (RY G u v Lx) as [Res (D1 & D2 & D3 & [D4 D5 D6 D7] & D8)].
  assert (Q1 : result_of (run_op E o p s0) = result_of (Y u) /\ final_of (run_op E o p s0) = final_of (Y u)).
  { rewrite Sp. unfold bind. rewrite Gu. unfold result_of, final_of. destruct (Y u) as [[t1 u1] r1]. auto. }
  assert (Q2 : result_of (run_op E o p c) = result_of (Y v) /\ final_of (run_op E o p c) = final_of (Y v)).
  { rewrite Sp. unfold bind. rewrite Gv. unfold result_of, final_of. destruct (Y v) as [[t1 u1] r1]. auto. }
  fold c. destruct Q1 as [Q1 Q1'], Q2 as [Q2 Q2']. rewrite Q1, Q2, Q1', Q2'. split; [exact Res|].
  split; [exact D1|]. split; [|split; [exact D5|split; [exact D6|exact D7]]].
  intros l. unfold file_content. rewrite D4.
  assert (X : f_name (st_fs (final_of (Y v))) l = f_name (st_fs (final_of (Y u))) l).
  { destruct (D8 l) as [X|[X Gl]]; [exact X|]. rewrite X. rewrite <- Q1'. destruct (S2' l) as [Z|Z]; rewrite Z; [symmetry; exact Gl|reflexivity]. }
  rewrite X. reflexivity.
Qed.

(** C87 (part). If the daemon is killed while a removal has only removed files -
    nothing was written to the database yet, and the index files are untouched -
    the request, which the daemon runs again after its start (C30), has the
    outcome it would have had, and leaves exactly the disk it would have left. *)
Theorem C87_rerun_before_record_partial :
  forall E h o p r n, removes_packages p = true -> target p = Some r ->
    let s := run_history E h in
    let c := killed_in E o p n s in
    st_db c = st_db s -> (forall x f, index_file c x f = index_file s x f) ->
    outcome E o p c = outcome E o p s /\ PropsDelete.same_disk (after E o p s) (after E o p c).
Proof.
  intros E h o p r n Rm Tg s c Ed Er.
  assert (Rs : R nobody false (restart s) s).
  { apply R_restart_one. apply (R_join _ (run_history E (without_restarts h))); apply run_strip. }
  destruct (y_run E o p _ _ Rs) as (F2 & Rf & Ro).
  assert (Cc : killed_in E o p n (restart s) = c).
  { unfold c, killed_in. cbn [ev_step]. assert (X : Sim.same_disk (nth n (restart s :: trace_of (run_op E o p (restart s))) (final_of (run_op E o p (restart s))))
       (nth n (s :: trace_of (run_op E o p s)) (final_of (run_op E o p s)))).
    { apply nth_same; [constructor; [split; reflexivity|exact F2]|apply Rf]. }
    assert (K : forall a b, Sim.same_disk a b -> restart a = restart b) by (intros a b [K1 K2]; unfold restart; rewrite K1, K2; reflexivity).
    apply K, X. }
  destruct (rerun0 E o p r (restart s) n) as [O1 D1]; auto; rewrite ?Cc; auto.
  rewrite Cc in *. split.
  - rewrite O1. unfold outcome. exact Ro.
  - destruct D1 as (A1 & A2 & A3 & A4 & A5). destruct Rf as [[B1 B2] _]. unfold after in *. unfold index_file, asset_file, dir_exists in *.
    rewrite B1, B2 in *. repeat split; auto.
Qed.
Print Assumptions C87_rerun_before_record_partial.

(** C87 is false after that point. The request runs again (C30), and ... *)
Definition kill_remove (n : nat) : state := killed_in (demo_env true) demo_oracle (OpRemoveSource "unstable" "libx" 1) n (run_history (demo_env true) h_two).
Definition rerun_remove (n : nat) : state := after (demo_env true) demo_oracle (OpRemoveSource "unstable" "libx" 1) (kill_remove n).

(** ... killed between the pool's count and the repository's record, it counts
    down a second time: the package that another repository still lists and needs
    is thrown out of the pool, and that repository can no longer be indexed *)
Theorem C87_counts_twice_refuted :
  succeeds (demo_env true) demo_oracle (OpRemoveSource "unstable" "libx" 1) (run_history (demo_env true) h_two) /\
  succeeds (demo_env true) demo_oracle (OpRemoveSource "unstable" "libx" 1) (kill_remove 2) /\
  pool_at (after (demo_env true) demo_oracle (OpRemoveSource "unstable" "libx" 1) (run_history (demo_env true) h_two)) "libx-1.eopkg" <> None /\
  outcome (demo_env true) demo_oracle (OpIndex "stable") (after (demo_env true) demo_oracle (OpRemoveSource "unstable" "libx" 1) (run_history (demo_env true) h_two)) = Ok [] /\
  available (rerun_remove 2) "stable" "libx-1.eopkg" /\
  pool_at (rerun_remove 2) "libx-1.eopkg" = None /\
  outcome (demo_env true) demo_oracle (OpIndex "stable") (rerun_remove 2) = Err.
Proof.
  split; [eexists; vm_compute; reflexivity|]. split; [eexists; vm_compute; reflexivity|]. split; [vm_compute; discriminate|].
  split; [vm_compute; reflexivity|]. split; [|split; vm_compute; reflexivity].
  exists "libx". eexists. split; [vm_compute; reflexivity|]. cbn. auto.
Qed.
Print Assumptions C87_counts_twice_refuted.

(** ... killed after the record and before the new index, it finds nothing to
    remove, fails, and leaves the old index, which offers a package whose file is
    gone - at every point up to the index's own replacement *)
Theorem C87_index_stays_refuted :
  let E := demo_env true in
  let s := run_history E h_two in
  forall n, In n [3; 4; 5; 10; 20] ->
    outcome E demo_oracle (OpRemoveSource "unstable" "libx" 1) (kill_remove n) = Err /\
    (forall e, entry_at (kill_remove n) "unstable" "libx" = Some e -> False) /\
    index_file (rerun_remove n) "unstable" "eopkg-index.xml" = index_file s "unstable" "eopkg-index.xml" /\
    repo_file (rerun_remove n) "unstable" "libx/libx" "libx-1.eopkg" = None /\
    index_file (after E demo_oracle (OpRemoveSource "unstable" "libx" 1) s) "unstable" "eopkg-index.xml" <> index_file s "unstable" "eopkg-index.xml".
Proof.
  intros E s n Hn. repeat (destruct Hn as [<-|Hn]; [split; [vm_compute; reflexivity|]; split; [intros e X; vm_compute in X; discriminate|]; split; [vm_compute; reflexivity|]; split; [vm_compute; reflexivity|vm_compute; discriminate]|]).
  destruct Hn.
Qed.
Print Assumptions C87_index_stays_refuted.

(** a concrete case of the proved part: killed when the file is gone *)
Theorem C87_demo :
  let E := demo_env true in
  let s := run_history E h_two in
  st_db (kill_remove 1) = st_db s /\ (forall x f, index_file (kill_remove 1) x f = index_file s x f) /\
  repo_file s "unstable" "libx/libx" "libx-1.eopkg" <> None /\ repo_file (kill_remove 1) "unstable" "libx/libx" "libx-1.eopkg" = None /\
  succeeds E demo_oracle (OpRemoveSource "unstable" "libx" 1) (kill_remove 1).
Proof.
  split; [vm_compute; reflexivity|]. split; [assert (X : f_root (st_fs (kill_remove 1)) = f_root (st_fs (run_history (demo_env true) h_two))) by (vm_compute; reflexivity); intros x f; unfold index_file; rewrite X; reflexivity|]. split; [vm_compute; discriminate|]. split; [vm_compute; reflexivity|]. eexists. vm_compute. reflexivity.
Qed.
