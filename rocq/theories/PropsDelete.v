(** * PropsDelete: property C86 - an interrupted deletion
    (theorems; proofs in DeleteRetry.v) *)
From Verif Require Import Model Spec Demo DemoOk DbInv Wp FsInv DeleteOps DeleteRetry History PoolFacts OpFacts OpFacts2 IndexFacts Frame OpFacts3 PropsPool PropsIndex PropsOps.
Open Scope string_scope. Open Scope list_scope.

(** ** Specification *)
(** everything on disk is the same: the database, the package files of every tree
    (pool, repositories, staging), the index files, the assets, the directories *)
Definition same_disk (s t : state) : Prop :=
  st_db t = st_db s /\ (forall l, file_content (st_fs t) l = file_content (st_fs s) l) /\
  (forall x f, index_file t x f = index_file s x f) /\ (forall x f, asset_file t x f = asset_file s x f) /\
  (forall x, dir_exists t x = dir_exists s x).
(** the daemon was killed at the [n]-th durable write of a deletion and has been
    started again *)
Definition killed (E : env) (o : oracle) (r : string) (n : nat) (s : state) : state := ev_step E s (EvCrash o (OpDelete r) n).

(** ** Theorems *)
Lemma delete_run E o r s : run_op E o (OpDelete r) s = (delete_repo r ;;; ret []) s.
Proof. reflexivity. Qed.
Lemma delete_trace E o r s : crash_points E o (OpDelete r) s = trace_of (delete_repo r s).
Proof.
  unfold crash_points. rewrite delete_run. unfold bind, trace_of, ret. destruct (delete_repo r s) as [[t f] [[]| |]]; cbn; rewrite ?app_nil_r; reflexivity.
Qed.
Lemma delete_final E o r s : after E o (OpDelete r) s = final_of (delete_repo r s).
Proof. unfold after. rewrite delete_run. unfold bind, final_of, ret. destruct (delete_repo r s) as [[t f] [[]| |]]; reflexivity. Qed.
Lemma delete_instants E cat ex fz o r s : good_catalog cat -> Inv E cat ex fz [] s -> repo_exists s r = true ->
  (forall n, mid cat r s (killed E o r n s)) /\ gone_for_good cat r s (after E o (OpDelete r) s) /\ outcome E o (OpDelete r) s = Ok [].
Proof.
  intros Hc I R. destruct (wp_delete_instants E cat Hc ex fz r s I R) as [W1 [W2 W3]].
  split; [|split].
  - intros n. unfold killed. cbn [ev_step]. fold (crash_points E o (OpDelete r) s) (after E o (OpDelete r) s).
    assert (M : forall t, mid cat r s t -> mid cat r s (restart t)).
    { intros t [[A B]|(A & B & C)]; [left; split; [exact A|refine (near_fs _ _ _ _ _ _ B); reflexivity]|].
      right. split; [exact A|]. split; [refine (near_fs _ _ _ _ _ _ B); reflexivity|exact C]. }
    apply M. rewrite delete_trace, delete_final. clear M.
    assert (F : mid cat r s (final_of (delete_repo r s))) by (right; split; [apply W3|split; apply W3]).
    destruct n as [|n]; [left; split; [reflexivity|apply near_refl]|]. cbn [nth].
    rewrite Forall_forall in W1. destruct (nth_in_or_default n (trace_of (delete_repo r s)) (final_of (delete_repo r s))) as [X|X]; [apply W1, X|rewrite X; exact F].
  - rewrite delete_final. exact W3.
  - unfold outcome. rewrite delete_run. unfold bind, result_of, ret. unfold result_of in W2. destruct (delete_repo r s) as [[t f] [[]| |]]; cbn in *; congruence.
Qed.

(** C86 (part). If the daemon is killed before the transaction of a deletion is
    written - the repository is then still there -, running the request again,
    which the daemon does after its start (C30), leaves the disk exactly as if
    nothing had happened. *)
Theorem C86_rerun_before_commit_partial :
  forall E cat s o o' r n, good_catalog cat -> good_env E -> reachable E cat s -> good_oracle o -> repo_exists s r = true ->
    let c := killed E o r n s in
    repo_exists c r = true ->
    succeeds E o' (OpDelete r) c /\ same_disk (after E o (OpDelete r) s) (after E o' (OpDelete r) c).
Proof.
  intros E cat s o o' r n Hc HE (h & Hh & ->) Ho R c Rc. set (s := run_history E h) in *.
  pose proof (hist_inv E cat Hc HE h Hh) as I. fold s in I.
  destruct (delete_instants E cat false false o r s Hc I R) as (M & G & _).
  assert (I' : Inv E cat false false [] c).
  { assert (Hh' : good_history E cat (h ++ [EvCrash o (OpDelete r) n])).
    { apply Forall_app. split; [exact Hh|]. constructor; [|constructor]. split; [exact Ho|]. split; [exact Logic.I|reflexivity]. }
    pose proof (hist_inv E cat Hc HE _ Hh') as X. unfold run_history in X. rewrite fold_left_app in X. exact X. }
  destruct (delete_instants E cat false false o' r c Hc I' Rc) as (_ & G' & O').
  split; [exists []; exact O'|].
  specialize (M n). fold c in M. destruct M as [[D N]|(D & _)].
  - apply (same_end cat r s c); auto.
  - exfalso. unfold repo_exists in Rc. rewrite D in Rc. destruct (C12_delete E cat s o r Hc HE) as (_ & _ & X); [exists h; auto|].
    destruct (X R) as (X1 & _). unfold repo_exists in X1. rewrite (gg_db _ _ _ _ G) in X1. congruence.
Qed.
Print Assumptions C86_rerun_before_commit_partial.

(** Otherwise the transaction has been written: nothing of the repository is listed
    any more and the pool is as it should be; what may remain are files of the
    repository's own directories. *)
Theorem C86_killed_after_commit :
  forall E cat s o r n, good_catalog cat -> good_env E -> reachable E cat s -> repo_exists s r = true ->
    let c := killed E o r n s in
    let a := after E o (OpDelete r) s in
    repo_exists c r = false ->
    st_db c = st_db a /\
    (forall l, l_tree l <> TRepo r -> l_tree l <> TStage r -> file_content (st_fs c) l = file_content (st_fs a) l) /\
    (forall x f, x <> r -> index_file c x f = index_file a x f /\ asset_file c x f = asset_file a x f).
Proof.
  intros E cat s o r n Hc HE (h & Hh & ->) R c a Rc. set (s := run_history E h) in *.
  pose proof (hist_inv E cat Hc HE h Hh) as I. fold s in I.
  destruct (delete_instants E cat false false o r s Hc I R) as (M & G & _). fold a in G.
  specialize (M n). fold c in M. destruct M as [[D N]|(D & N & P)].
  { exfalso. unfold repo_exists in *. rewrite D in Rc. congruence. }
  pose proof (gg_near _ _ _ _ G) as NA.
  split; [rewrite D, (gg_db _ _ _ _ G); reflexivity|]. split.
  - intros l T1 T2. unfold file_content. rewrite (nr_data _ _ _ _ N), (nr_data _ _ _ _ NA).
    assert (No : ~ own r l) by (intros [X|X]; contradiction).
    assert (Z : unlinked cat (st_db s) r l -> f_name (st_fs c) l = None /\ f_name (st_fs a) l = None).
    { intros U. pose proof U as (x & Hx & [->|[-> _]]); [destruct (T1 eq_refl)|]. split; [apply P|apply (gg_pool _ _ _ _ G)]; auto. }
    assert (X : f_name (st_fs c) l = f_name (st_fs a) l); [|rewrite X; reflexivity].
    destruct (nr_name _ _ _ _ N l) as [X|[X [Y|Y]]]; [|destruct (Z Y); congruence|contradiction].
    destruct (nr_name _ _ _ _ NA l) as [X'|[X' [Y|Y]]]; [congruence|destruct (Z Y); congruence|contradiction].
  - intros x f Nx. unfold index_file, asset_file. rewrite (nr_root _ _ _ _ N _ Nx), (nr_root _ _ _ _ NA _ Nx), (nr_asset _ _ _ _ N _ Nx), (nr_asset _ _ _ _ NA _ Nx). split; reflexivity.
Qed.
Print Assumptions C86_killed_after_commit.

(** Whatever the instant, the other repositories go on serving what they list. *)
Theorem C86_others_still_served :
  forall E cat s o r n x id, good_catalog cat -> good_env E -> reachable_completed E cat s -> good_oracle o -> repo_exists s r = true ->
    x <> r -> available s x id ->
    let c := killed E o r n s in
    available c x id /\ served E c x id.
Proof.
  intros E cat s o r n x id Hc HE (h & Hh & Hf & ->) Ho R Nx A c. set (s := run_history E h) in *.
  pose proof (hist_inv E cat Hc HE h Hh) as I. fold s in I.
  assert (Re : reachable E cat s) by (exists h; auto).
  assert (Rc : reachable_completed E cat s) by (exists h; auto).
  destruct (delete_instants E cat false false o r s Hc I R) as (M & G & _). specialize (M n). fold c in M.
  destruct (repo_exists c r) eqn:Rr.
  - destruct M as [[D N]|(D & N & P)].
    2:{ exfalso. pose proof (C12_delete E cat s o r Hc HE Re) as (_ & _ & X). destruct (X R) as (X1 & _). unfold repo_exists in *.
        rewrite (gg_db _ _ _ _ G) in X1. rewrite D in Rr. congruence. }
    split.
    + destruct A as (k & e & G1 & L). exists k, e. split; [unfold entry_at in *; rewrite D; exact G1|exact L].
    + destruct (C05_listed_is_served E cat s x id Hc HE Rc A) as (p & comp & ct & P1 & P2 & P3 & P4 & P5).
      exists p, comp, ct. split; [unfold pool_at in *; rewrite D; exact P1|]. split; [exact P2|]. split; [|auto].
      rewrite <- P3. unfold repo_file, file_content. rewrite (nr_data _ _ _ _ N).
      destruct (nr_name _ _ _ _ N (Loc (TRepo x) comp id)) as [->|[_ (y & _ & [Y|[Y _]])]]; [reflexivity| |]; congruence.
  - destruct (C86_killed_after_commit E cat s o r n Hc HE Re R Rr) as (D & F & _). fold c in D, F.
    destruct (C11_others_still_served E cat s o (OpDelete r) x id Hc HE Rc Ho Logic.I ltac:(cbn; congruence) A) as (Sv & _).
    destruct (C12_delete E cat s o r Hc HE Re) as (_ & _ & X). destruct (X R) as (_ & _ & _ & _ & _ & _ & X7 & _). destruct (X7 x Nx) as [_ X7'].
    split.
    + destruct A as (k & e & G1 & L). exists k, e. split; [|exact L]. rewrite <- G1, <- X7'. unfold entry_at. rewrite D. reflexivity.
    + destruct Sv as (p & comp & ct & P1 & P2 & P3 & P4 & P5).
      exists p, comp, ct. split; [unfold pool_at in *; rewrite D; exact P1|]. split; [exact P2|]. split; [|auto].
      rewrite <- P3. unfold repo_file. apply F; cbn; congruence.
Qed.
Print Assumptions C86_others_still_served.

(** C86 is false as stated: killed after the transaction and before the directory is
    removed, the daemon finds no such repository when it runs the request again, so
    the directory stays, with the old index in it; and because it is there the name
    cannot be used any more. *)
Theorem C86_interrupted_deletion_refuted :
  exists E cat s o r n, good_catalog cat /\ good_env E /\ reachable_completed E cat s /\ good_oracle o /\ repo_exists s r = true /\
    let c := killed E o r n s in
    outcome E o (OpDelete r) c = Err /\ outcome E o (OpCreate r) c = Err /\ outcome E o (OpClone "unstable" r true) c = Err /\
    dir_exists c r = true /\ (exists f v, index_file (after E o (OpDelete r) c) r f = Some v) /\
    dir_exists (after E o (OpDelete r) s) r = false.
Proof.
  set (n := List.length (crash_points (demo_env true) demo_oracle (OpDelete "stable") (run_history (demo_env true) h_two)) - 3).
  exists (demo_env true), demo_cat, (run_history (demo_env true) h_two), demo_oracle, "stable", n.
  split; [apply demo_cat_good|]. split; [apply demo_env_good|]. split; [exists h_two; split; [apply h_two_good|split; [apply h_two_crash_free|reflexivity]]|].
  split; [apply demo_oracle_good|]. split; [here|].
  cbv zeta. split; [here|]. split; [here|]. split; [here|]. split; [here|]. split; [|here].
  exists "eopkg-index.xml". vm_compute. eexists. reflexivity.
Qed.
Print Assumptions C86_interrupted_deletion_refuted.
(** The hypotheses are met: three packages, ten instants before the transaction is written. *)
Example C86_demo : let s := run_history (demo_env true) h_two in
  repo_exists s "unstable" = true /\ available s "stable" "nano-1.eopkg" /\
  repo_exists (killed (demo_env true) demo_oracle "unstable" 3 s) "unstable" = true /\
  repo_file (killed (demo_env true) demo_oracle "unstable" 3 s) "unstable" "n/nano" "nano-1.eopkg" = None /\
  repo_exists (killed (demo_env true) demo_oracle "unstable" 7 s) "unstable" = false.
Proof.
  cbv zeta. split; [here|]. split; [exists "nano"; eexists; split; [here|left; reflexivity]|]. split; [here|]. split; here.
Qed.
