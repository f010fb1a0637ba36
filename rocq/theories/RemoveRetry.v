(** * RemoveRetry: a removal that starts with some of its files already gone (proof artifact) *)
From Verif Require Import Model Spec DbInv DbOps Wp Sim.
Open Scope string_scope. Open Scope list_scope.

(** ** Two runs whose files differ in names that are gone in the second *)
Record alike (f g : fs) : Prop := {
  al_data : f_data g = f_data f;
  al_root : forall x k, f_root g x k = f_root f x k;
  al_asset : forall x k, f_asset g x k = f_asset f x k;
  al_dir : forall x, f_dir g x = f_dir f x
}.
Section Gone.
Variable G : loc -> Prop.
Definition L (s t : state) : Prop :=
  st_db t = st_db s /\ st_batch t = st_batch s /\ (forall x, st_cache t x = st_cache s x) /\ alike (st_fs s) (st_fs t) /\
  forall l, f_name (st_fs t) l = f_name (st_fs s) l \/ (f_name (st_fs t) l = None /\ G l).
Definition rel2 {A} (m1 m2 : M A) : Prop :=
  forall s t, L s t -> result_of (m2 t) = result_of (m1 s) /\ L (final_of (m1 s)) (final_of (m2 t)).
Definition rr {A} (m : M A) : Prop := rel2 m m.

Lemma r2_bind {A B} (m1 m2 : M A) (k1 k2 : A -> M B) : rel2 m1 m2 -> (forall a, rel2 (k1 a) (k2 a)) -> rel2 (bind m1 k1) (bind m2 k2).
Proof.
  intros Hm Hk s t H. specialize (Hm s t H). unfold bind, final_of, result_of in *.
  destruct (m1 s) as [[t1 u1] r1], (m2 t) as [[t2 u2] r2]. cbn in Hm. destruct Hm as (-> & HR).
  destruct r1 as [a| |]; cbn; auto.
  specialize (Hk a u1 u2 HR). destruct (k1 a u1) as [[t1' u1'] r1'], (k2 a u2) as [[t2' u2'] r2']. cbn in *. exact Hk.
Qed.
Lemma rr_ret {A} (a : A) : rr (ret a). Proof. intros s t H. split; [reflexivity|exact H]. Qed.
Lemma rr_err {A} : rr (@err A). Proof. intros s t H. split; [reflexivity|exact H]. Qed.
Lemma rr_panic {A} : rr (@panic A). Proof. intros s t H. split; [reflexivity|exact H]. Qed.
Lemma rr_lift {A} (x : res A) : rr (lift x). Proof. intros s t H. split; [reflexivity|exact H]. Qed.
Lemma rr_gets {A} (f : state -> A) : (forall s t, L s t -> f t = f s) -> rr (gets f).
Proof. intros F s t H. split; [cbn; f_equal; apply F, H|exact H]. Qed.
Lemma rr_bind {A B} (m : M A) (k : A -> M B) : rr m -> (forall a, rr (k a)) -> rr (bind m k).
Proof. intros. apply r2_bind; auto. Qed.
(** the file system is looked at *)
Lemma rr_bind_fs {B} (k : fs -> M B) : (forall f g, alike f g -> rel2 (k f) (k g)) -> rr (bind (gets st_fs) k).
Proof. intros K s t H. rewrite 2 bg. apply K; [apply H|exact H]. Qed.
Lemma rr_on_err {A} (m : M A) h : rr m -> rr h -> rr (on_err m h).
Proof.
  intros Hm Hk s t H. specialize (Hm s t H). unfold on_err, final_of, result_of in *.
  destruct (m s) as [[t1 u1] r1], (m t) as [[t2 u2] r2]. cbn in Hm. destruct Hm as (-> & HR).
  destruct r1 as [a| |]; cbn; auto.
  specialize (Hk u1 u2 HR). destruct (h u1) as [[t1' u1'] r1'], (h u2) as [[t2' u2'] r2']. cbn in *. split; [reflexivity|apply Hk].
Qed.
Lemma rr_forM {X} (f : X -> M unit) l : (forall x, rr (f x)) -> rr (forM l f).
Proof. intros H. induction l; cbn [forM]; [apply rr_ret|apply rr_bind; auto]. Qed.
Lemma rr_foldM {X A} (f : A -> X -> M A) l : (forall a x, rr (f a x)) -> forall a, rr (foldM l f a).
Proof. intros H. induction l; intros a0; cbn [foldM]; [apply rr_ret|apply rr_bind; auto]. Qed.
Lemma rr_root r file v : rr (root_set r file v).
Proof.
  intros s t (a & b & c & [d1 d2 d3 d4] & e). split; [reflexivity|]. split; [exact a|]. split; [exact b|]. split; [exact c|]. split; [|exact e].
  constructor; cbn; auto. intros x k. unfold fupd. destruct (seqb x r); [|apply d2]. destruct (seqb k file); [reflexivity|apply d2].
Qed.
Lemma rr_rename r k v : rr (durable (on_fs (fun f => fs_set_root (fs_set_root f r v (f_root f r k)) r k None))).
Proof.
  intros s t (a & b & c & [d1 d2 d3 d4] & e). split; [reflexivity|]. split; [exact a|]. split; [exact b|]. split; [exact c|]. split; [|exact e].
  constructor; cbn; auto. intros x k'. unfold fupd. destruct (seqb x r); [|apply d2]. destruct (seqb k' k); [reflexivity|].
  rewrite seqb_refl. destruct (seqb k' v); apply d2.
Qed.
Lemma rr_rm l : rr (remove_file l).
Proof.
  intros s t (a & b & c & [d1 d2 d3 d4] & e). split; [reflexivity|]. split; [exact a|]. split; [exact b|]. split; [exact c|]. split; [constructor; auto|].
  intros x. cbn. unfold nupd. destruct (loc_eqb x l); [left; reflexivity|apply e].
Qed.
Lemma rr_write o : rr (db_write false o).
Proof.
  unfold db_write. destruct (reserved (op_key o)); [apply rr_err|].
  intros s t (a & b & c & d & e). split; [reflexivity|]. split; [cbn; rewrite a; reflexivity|]. auto.
Qed.
Lemma rr_get_repo r : rr (get_repo r).
Proof.
  unfold get_repo, bake_repo. intros s t H. rewrite 2 bg. pose proof H as (_ & _ & Hc & _). rewrite (Hc r). destruct (st_cache s r); [apply rr_ret, H|].
  revert s t H Hc. intros s0 t0 H0 _. revert s0 t0 H0. change (rr (d <- gets st_db ;; if mhas (d_repos d) r then bake_repo r ;;; vol (on_cache (fun c => fupd c r true)) else err)). unfold bake_repo.
  apply rr_bind; [apply rr_gets; intros s t H; apply H|]. intros d. destruct (mhas (d_repos d) r); [|apply rr_err].
  apply rr_bind.
  - apply rr_bind_fs. intros f g A. rewrite (al_dir _ _ A). destruct (f_dir f r); [apply rr_ret|].
    intros s t (a & b & c' & [d1 d2 d3 d4] & e). split; [reflexivity|]. split; [exact a|]. split; [exact b|]. split; [exact c'|]. split; [|exact e].
    constructor; cbn; auto. intros x. unfold fupd. destruct (seqb x r); [reflexivity|apply d4].
  - intros _. intros s t (a & b & c' & d' & e). split; [reflexivity|]. split; [exact a|]. split; [exact b|]. split; [intros x; cbn; unfold fupd; rewrite c'; reflexivity|]. auto.
Qed.
End Gone.

Ltac rsame := let s := fresh in let t := fresh in let a := fresh in
  intros s t a; cbn; first [rewrite (proj1 a); reflexivity | apply a].

Section Ops.
Variable E : env.
Variable G : loc -> Prop.
Ltac rp := repeat match goal with
  | |- rr _ (db_write false _) => apply rr_write
  | |- rr _ (remove_file _) => apply rr_rm
  | |- rr _ (root_set _ _ _) => apply rr_root
  | |- rr _ (bind _ _) => apply rr_bind; [|intro]
  | |- rr _ (ret _) => apply rr_ret
  | |- rr _ err => apply rr_err
  | |- rr _ panic => apply rr_panic
  | |- rr _ (lift _) => apply rr_lift
  | |- rr _ (gets _) => apply rr_gets; rsame
  | |- rr _ (on_err _ _) => apply rr_on_err
  | |- rr _ (forM _ _) => apply rr_forM; intro
  | |- rr _ (foldM _ _ _) => apply rr_foldM; intros ? ?
  | |- rr _ (match ?d with _ => _ end) => destruct d
  end.
Ltac ru := unfold pool_get_or_err, ent_get, ent_list, pool_get in *; rp.
Lemma q_remove_internal r id : rr G (remove_internal false r id).
Proof. unfold remove_internal, pool_unref. ru. Qed.
Lemma q_unref r id : rr G (unref_package r id).
Proof. unfold unref_package, unref_deltas, unref_avail. ru; apply q_remove_internal. Qed.
Lemma q_match rp source rl : rr G (match_source rp source rl).
Proof. unfold match_source. ru. Qed.
Lemma q_remove_source r source rl : rr G (remove_source r source rl).
Proof. unfold remove_source. ru; first [apply q_match | apply q_unref]. Qed.
Lemma q_init r : rr G (init_distribution E r).
Proof. apply rr_bind_fs. intros f g A. rewrite (al_asset _ _ A). destruct (f_asset f r _); [|apply rr_ret]. destruct (E_dist E s); [apply rr_ret|apply rr_err]. Qed.
Lemma q_scan dist n av : rr G (trim_obs_scan dist n av).
Proof. induction av; cbn [trim_obs_scan]; ru; auto. Qed.
Lemma q_trim_obs r : rr G (trim_obsolete E r).
Proof. unfold trim_obsolete. ru; first [apply q_init | apply q_scan | apply q_unref]. Qed.
Lemma q_trim_packages o r k : rr G (trim_packages o r k).
Proof. unfold trim_packages. ru; apply q_unref. Qed.
Lemma q_asset_part {A} (load : string -> res (list A)) r a : rr G (asset_part load r a).
Proof. apply rr_bind_fs. intros f g Al. rewrite (al_asset _ _ Al). destruct (f_asset f r a); [|apply rr_ret]. apply rr_bind; [apply rr_lift|]. intros l. apply rr_ret. Qed.
Lemma q_emit r dist : rr G (emit_index E r dist).
Proof.
  unfold emit_index. apply rr_bind; [unfold ent_list; ru|]. intros es. cbv zeta.
  apply rr_bind_fs. intros f g A. rewrite (al_asset _ _ A).
  apply rr_bind; [unfold emit_package, push_deltas; ru|]. intros pk. apply rr_bind; [apply q_asset_part|]. intros c. apply rr_bind; [apply q_asset_part|]. intros gr. apply rr_ret.
Qed.
Lemma q_root_get r f : rr G (root_get r f).
Proof. apply rr_gets. intros s t H. apply H. Qed.
Lemma q_stages r st : Forall (fun y => rr G (snd y)) st -> forall done, rr G (run_stages r done st).
Proof.
  induction 1 as [|[[k v] m] st Hm _ IH]; intros done; cbn [run_stages]; [apply rr_ret|]. cbv zeta.
  apply rr_bind; [|intros _; apply IH]. apply rr_on_err; [exact Hm|]. unfold remove_all. ru.
Qed.
Lemma q_index o r : rr G (index E o r).
Proof.
  unfold index. apply rr_bind; [apply q_init|]. intros dist.
  apply rr_bind.
  - apply q_stages. unfold index_stages, write_sum, compress, root_write.
    repeat (apply Forall_cons; [cbn [snd]; ru; try apply q_emit; try apply q_root_get|]). apply Forall_nil.
  - intros mp. unfold remove_all, rename. ru; first [apply q_root_get|apply rr_rename].
Qed.
Lemma q_run o p : removes_packages p = true -> rr G (run_op E o p).
Proof.
  destruct p; try discriminate; intros _; cbn [run_op]; unfold api_remove_source, api_trim_obsolete, api_trim_packages, api_index;
  ru; first [apply rr_get_repo | apply q_remove_source | apply q_trim_obs | apply q_trim_packages | apply q_index].
Qed.
End Ops.

(** ** Names only disappear, and data and assets stay *)
Section Shrink.
Variable rep : string.
Definition shrinks (f g : fs) : Prop :=
  f_data g = f_data f /\ (forall l, f_name g l = f_name f l \/ f_name g l = None) /\ (forall x k, f_asset g x k = f_asset f x k) /\
  (forall x, x <> rep -> f_dir g x = f_dir f x) /\ (f_dir f rep = true -> f_dir g rep = true).
Lemma shrinks_refl f : shrinks f f.
Proof. split; [reflexivity|]. repeat split; auto. Qed.
Lemma shrinks_trans f g h : shrinks f g -> shrinks g h -> shrinks f h.
Proof.
  intros (a & b & c & d & e) (a' & b' & c' & d' & e'). split; [congruence|].
  split; [intros l; destruct (b' l) as [->|X]; auto|]. split; [intros; congruence|]. split; [intros x N; rewrite d', d; auto|auto].
Qed.
Definition mono {A} (m : M A) : Prop :=
  forall s, shrinks (st_fs s) (st_fs (final_of (m s))) /\
    Forall (fun c => shrinks (st_fs s) (st_fs c) /\ shrinks (st_fs c) (st_fs (final_of (m s)))) (trace_of (m s)).
Lemma mo_bind {A B} (m : M A) (k : A -> M B) : mono m -> (forall a, mono (k a)) -> mono (bind m k).
Proof.
  intros Hm Hk s. specialize (Hm s). unfold bind, final_of, trace_of in *.
  destruct (m s) as [[t1 u1] r1]. cbn in Hm. destruct Hm as (F & T). destruct r1 as [a| |]; cbn; auto.
  specialize (Hk a u1). destruct (k a u1) as [[t2 u2] r2]. cbn in *. destruct Hk as [F' T'].
  split; [exact (shrinks_trans _ _ _ F F')|]. apply Forall_app. split.
  - eapply Forall_impl; [|exact T]. intros c [X Y]. split; [exact X|exact (shrinks_trans _ _ _ Y F')].
  - eapply Forall_impl; [|exact T']. intros c [X Y]. split; [exact (shrinks_trans _ _ _ F X)|exact Y].
Qed.
Lemma mo_on_err {A} (m : M A) h : mono m -> mono h -> mono (on_err m h).
Proof.
  intros Hm Hk s. specialize (Hm s). unfold on_err, final_of, trace_of in *.
  destruct (m s) as [[t1 u1] r1]. cbn in Hm. destruct Hm as (F & T). destruct r1 as [a| |]; cbn; auto.
  specialize (Hk u1). destruct (h u1) as [[t2 u2] r2]. cbn in *. destruct Hk as [F' T'].
  split; [exact (shrinks_trans _ _ _ F F')|]. apply Forall_app. split.
  - eapply Forall_impl; [|exact T]. intros c [X Y]. split; [exact X|exact (shrinks_trans _ _ _ Y F')].
  - eapply Forall_impl; [|exact T']. intros c [X Y]. split; [exact (shrinks_trans _ _ _ F X)|exact Y].
Qed.
Lemma mo_read {A} (m : M A) : (forall s, exists x, m s = ([], s, x)) -> mono m.
Proof. intros H s. destruct (H s) as [x ->]. cbn. split; [apply shrinks_refl|constructor]. Qed.
Lemma mo_vol f : (forall s, st_fs (f s) = st_fs s) -> mono (vol f).
Proof. intros H s. cbn. rewrite H. split; [apply shrinks_refl|constructor]. Qed.
Lemma mo_durable f : (forall s, shrinks (st_fs s) (st_fs (f s))) -> mono (durable f).
Proof. intros H s. cbn. split; [apply H|]. constructor; [split; [apply H|apply shrinks_refl]|constructor]. Qed.
Lemma mo_write o : mono (db_write false o).
Proof. unfold db_write. destruct (reserved _); [apply mo_read; intros s; eexists; reflexivity|]. apply mo_durable. intros s. apply shrinks_refl. Qed.
Lemma mo_forM {X} (f : X -> M unit) l : (forall x, mono (f x)) -> mono (forM l f).
Proof. intros H. induction l; cbn [forM]; [apply mo_read; intros s; eexists; reflexivity|apply mo_bind; auto]. Qed.
Lemma mo_foldM {X A} (f : A -> X -> M A) l : (forall a x, mono (f a x)) -> forall a, mono (foldM l f a).
Proof. intros H. induction l; intros a0; cbn [foldM]; [apply mo_read; intros s; eexists; reflexivity|apply mo_bind; auto]. Qed.
Lemma mo_rm l : mono (remove_file l).
Proof. apply mo_durable. intros s. split; [reflexivity|]. split; [intros x; cbn; unfold nupd; destruct (loc_eqb x l); auto|]. repeat split; auto. Qed.
Lemma mo_root r f v : mono (root_set r f v).
Proof. apply mo_durable. intros s. repeat split; auto. Qed.
Variable E : env.
Ltac mp := repeat match goal with
  | |- mono (db_write false _) => apply mo_write
  | |- mono (remove_file _) => apply mo_rm
  | |- mono (root_set _ _ _) => apply mo_root
  | |- mono (durable _) => apply mo_durable; intros ?; repeat split; auto
  | |- mono (vol _) => apply mo_vol; reflexivity
  | |- mono (bind _ _) => apply mo_bind; [|intro]
  | |- mono (ret _) => apply mo_read; intros ?; eexists; reflexivity
  | |- mono err => apply mo_read; intros ?; eexists; reflexivity
  | |- mono panic => apply mo_read; intros ?; eexists; reflexivity
  | |- mono (lift _) => apply mo_read; intros ?; eexists; reflexivity
  | |- mono (gets _) => apply mo_read; intros ?; eexists; reflexivity
  | |- mono (on_err _ _) => apply mo_on_err
  | |- mono (forM _ _) => apply mo_forM; intro
  | |- mono (foldM _ _ _) => apply mo_foldM; intros ? ?
  | |- mono (match ?d with _ => _ end) => destruct d
  end.
Ltac mu := unfold pool_get_or_err, ent_get, ent_list, pool_get, root_get in *; mp.
Lemma o_unref r id : mono (unref_package r id).
Proof. unfold unref_package, unref_deltas, unref_avail, remove_internal, pool_unref. mu. Qed.
Lemma o_stages r st : Forall (fun y => mono (snd y)) st -> forall done, mono (run_stages r done st).
Proof.
  induction 1 as [|[[k v] m] st Hm _ IH]; intros done; cbn [run_stages]; [mu|]. cbv zeta.
  apply mo_bind; [|intros _; apply IH]. apply mo_on_err; [exact Hm|]. unfold remove_all. mu.
Qed.
Lemma o_scan dist n av : mono (trim_obs_scan dist n av).
Proof. induction av; cbn [trim_obs_scan]; mu; auto. Qed.
Lemma o_index o r : mono (index E o r).
Proof.
  unfold index, init_distribution. apply mo_bind; [mu|]. intros dist. apply mo_bind.
  - apply o_stages. unfold index_stages, write_sum, compress, root_write, emit_index, emit_package, push_deltas, asset_part.
    repeat (apply Forall_cons; [cbn [snd]; cbv zeta; mu|]). apply Forall_nil.
  - intros mp. unfold remove_all, rename. mu.
Qed.
Lemma o_get_repo : mono (get_repo rep).
Proof.
  unfold get_repo, bake_repo. apply mo_bind; [mu|]. intros c. destruct (c rep); [mu|]. apply mo_bind; [mu|]. intros d. destruct (mhas _ _); [|mu].
  apply mo_bind; [|intros _; mu]. apply mo_bind; [mu|]. intros f. destruct (f_dir f rep); [mu|]. apply mo_durable. intros s. repeat split; auto; cbn; unfold fupd.
  - intros x N. destruct (seqb_spec x rep); [contradiction|reflexivity].
  - intros _. rewrite seqb_refl. reflexivity.
Qed.
(** a removal: find the repository, and then ... *)
Lemma removal_split o p : removes_packages p = true -> target p = Some rep ->
  exists Y, (forall s, run_op E o p s = (get_repo rep ;;; Y) s) /\ (forall G, rr G Y) /\ mono Y.
Proof.
  assert (K : forall X : M unit, (forall G, rr G X) -> mono X ->
     exists Y, (forall s, ((get_repo rep ;;; (X ;;; api_index E o rep)) ;;; ret (@nil string)) s = (get_repo rep ;;; Y) s) /\ (forall G, rr G Y) /\ mono Y).
  { intros X Rx Mx. exists ((X ;;; api_index E o rep) ;;; ret []). split; [intros s; apply bind_assoc|]. split.
    - intros G. apply rr_bind; [|intros _; apply rr_ret]. apply rr_bind; [apply Rx|intros _]. apply rr_bind; [apply rr_get_repo|intros _; apply q_index].
    - apply mo_bind; [|intros _; mu]. apply mo_bind; [exact Mx|intros _]. apply mo_bind; [apply o_get_repo|intros _; apply o_index]. }
  destruct p; try discriminate; cbn [target]; intros _ X; injection X as ->; apply K.
  - intros G. apply q_remove_source.
  - unfold remove_source, match_source. mu; apply o_unref.
  - intros G. apply q_trim_obs.
  - unfold trim_obsolete, init_distribution. mu; first [apply o_unref|apply o_scan].
  - intros G. apply q_trim_packages.
  - unfold trim_packages. cbv zeta. mu; apply o_unref.
Qed.
End Shrink.
