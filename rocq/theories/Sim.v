(** * Sim: two runs that differ only in the repository cache (proof artifact) *)
From Verif Require Import Model Spec DbInv DbOps Wp.
Open Scope string_scope. Open Scope list_scope.

(** same database, same files *)
Definition same_disk (s1 s2 : state) : Prop := st_db s1 = st_db s2 /\ st_fs s1 = st_fs s2.
(** a cached repository exists, has its directory and is not about to be deleted *)
Definition cache_ok (D : string -> Prop) (s : state) : Prop :=
  forall id, st_cache s id = true -> ~ D id /\ mhas (d_repos (st_db s)) id = true /\ f_dir (st_fs s) id = true.
Definition op_safe (D : string -> Prop) (o : dbop) : Prop := match o with DelRepo r => D r | _ => True end.
(* [t]: inside a transaction *)
Definition batch_ok (D : string -> Prop) (t : bool) (l : list dbop) : Prop := Forall (op_safe D) l /\ (t = false -> l = []).
Definition R (D : string -> Prop) (t : bool) (s1 s2 : state) : Prop :=
  same_disk s1 s2 /\ st_batch s1 = st_batch s2 /\ batch_ok D t (st_batch s1) /\ cache_ok D s1 /\ cache_ok D s2.
Definition sim {A} (D : string -> Prop) (t : bool) (m : M A) : Prop :=
  forall s1 s2, R D t s1 s2 ->
    Forall2 same_disk (trace_of (m s1)) (trace_of (m s2)) /\ R D t (final_of (m s1)) (final_of (m s2)) /\
    result_of (m s1) = result_of (m s2).

Lemma same_disk_refl s : same_disk s s.
Proof. split; reflexivity. Qed.

Section Fixed.
Variable D : string -> Prop.
Variable t : bool.
Lemma sim_ret {A} (a : A) : sim D t (ret a).
Proof. intros s1 s2 H. split; [constructor|]. split; [exact H|reflexivity]. Qed.
Lemma sim_err {A} : sim D t (@err A).
Proof. intros s1 s2 H. split; [constructor|]. split; [exact H|reflexivity]. Qed.
Lemma sim_panic {A} : sim D t (@panic A).
Proof. intros s1 s2 H. split; [constructor|]. split; [exact H|reflexivity]. Qed.
Lemma sim_lift {A} (r : res A) : sim D t (lift r).
Proof. intros s1 s2 H. split; [constructor|]. split; [exact H|reflexivity]. Qed.
Lemma sim_gets {A} (f : state -> A) : (forall s1 s2, same_disk s1 s2 -> f s1 = f s2) -> sim D t (gets f).
Proof. intros F s1 s2 H. split; [constructor|]. split; [exact H|]. cbn. f_equal. apply F, H. Qed.
Lemma sim_bind {A B} (m : M A) (k : A -> M B) : sim D t m -> (forall a, sim D t (k a)) -> sim D t (bind m k).
Proof.
  intros Hm Hk s1 s2 H. specialize (Hm s1 s2 H). unfold bind, trace_of, final_of, result_of in *.
  destruct (m s1) as [[t1 u1] r1], (m s2) as [[t2 u2] r2]. cbn in Hm. destruct Hm as (T & HR & <-).
  destruct r1 as [a| |]; cbn; auto.
  specialize (Hk a u1 u2 HR). destruct (k a u1) as [[t1' u1'] r1'], (k a u2) as [[t2' u2'] r2']. cbn in *.
  destruct Hk as (T' & HR' & E). split; [apply Forall2_app; assumption|]. split; assumption.
Qed.
Lemma sim_on_err {A} (m : M A) h : sim D t m -> sim D t h -> sim D t (on_err m h).
Proof.
  intros Hm Hk s1 s2 H. specialize (Hm s1 s2 H). unfold on_err, trace_of, final_of, result_of in *.
  destruct (m s1) as [[t1 u1] r1], (m s2) as [[t2 u2] r2]. cbn in Hm. destruct Hm as (T & HR & <-).
  destruct r1 as [a| |]; cbn; auto.
  specialize (Hk u1 u2 HR). destruct (h u1) as [[t1' u1'] r1'], (h u2) as [[t2' u2'] r2']. cbn in *.
  destruct Hk as (T' & HR' & E). split; [apply Forall2_app; assumption|]. split; [assumption|reflexivity].
Qed.
Lemma sim_forM {X} (f : X -> M unit) l : (forall x, sim D t (f x)) -> sim D t (forM l f).
Proof. intros H. induction l; simpl; [apply sim_ret|apply sim_bind; auto]. Qed.
Lemma sim_foldM {X A} (f : A -> X -> M A) l : (forall a x, sim D t (f a x)) -> forall a, sim D t (foldM l f a).
Proof. intros H. induction l; intros a0; simpl; [apply sim_ret|apply sim_bind; auto]. Qed.

Definition dir_safe (g : fs -> fs) : Prop := forall f id, ~ D id -> f_dir f id = true -> f_dir (g f) id = true.
Lemma R_fs g s1 s2 : dir_safe g -> R D t s1 s2 -> R D t (on_fs g s1) (on_fs g s2).
Proof.
  intros G ((Ed & Ef) & Eb & Fb & C1 & C2). split; [split; cbn; congruence|]. split; [exact Eb|]. split; [exact Fb|].
  split; intros id Hid; [destruct (C1 id Hid) as (a & b & c)|destruct (C2 id Hid) as (a & b & c)]; cbn; auto.
Qed.
Lemma sim_fs g : dir_safe g -> sim D t (durable (on_fs g)).
Proof.
  intros G s1 s2 H. pose proof (R_fs g s1 s2 G H) as H'. split; [constructor; [apply H'|constructor]|]. split; [exact H'|reflexivity].
Qed.
Lemma mhas_mput {A} (m : smap A) k v x : mhas m x = true -> mhas (mput m k v) x = true.
Proof.
  unfold mhas. destruct (string_dec x k) as [->|N]; [rewrite mget_put_eq; reflexivity|rewrite mget_put_ne by congruence; auto].
Qed.
Lemma op_safe_repos d o id : op_safe D o -> ~ D id -> mhas (d_repos d) id = true -> mhas (d_repos (apply_op d o)) id = true.
Proof.
  intros S N H. destruct o; cbn in *; auto.
  - apply mhas_mput, H.
  - unfold mhas in *. rewrite mget_del_ne; [exact H|]. intros ->. tauto.
Qed.
Lemma sim_write b o : op_safe D o -> (b = true -> t = true) -> sim D t (db_write b o).
Proof.
  intros S Hb. unfold db_write. destruct (reserved (op_key o)); [apply sim_err|]. destruct b.
  - intros s1 s2 ((Ed & Ef) & Eb & Fb & C1 & C2). split; [constructor|]. split; [|reflexivity].
    split; [split; assumption|]. split; [cbn; congruence|]. split; [split; [cbn; apply Forall_app; split; [apply Fb|constructor; [exact S|constructor]]|intros X; rewrite (Hb eq_refl) in X; discriminate]|].
    split; assumption.
  - intros s1 s2 ((Ed & Ef) & Eb & Fb & C1 & C2).
    assert (H' : R D t (on_db (fun d => apply_op d o) s1) (on_db (fun d => apply_op d o) s2)).
    { split; [split; cbn; congruence|]. split; [exact Eb|]. split; [exact Fb|].
      split; intros id Hid; [destruct (C1 id Hid) as (a & c & d)|destruct (C2 id Hid) as (a & c & d)];
        (split; [exact a|split; [apply op_safe_repos; assumption|exact d]]). }
    split; [constructor; [apply H'|constructor]|]. split; [exact H'|reflexivity].
Qed.
Lemma repos_fold l : Forall (op_safe D) l -> forall d id, ~ D id -> mhas (d_repos d) id = true -> mhas (d_repos (fold_left apply_op l d)) id = true.
Proof. induction 1 as [|o l S _ IH]; intros d id N H; simpl; auto. apply IH; [exact N|]. apply op_safe_repos; assumption. Qed.
End Fixed.
Lemma bok_nil D t : batch_ok D t [].
Proof. split; [constructor|reflexivity]. Qed.
Lemma sim_tx D t m : sim D true m -> sim D t (update_tx m).
Proof.
  intros Hm s1 s2 ((Ed & Ef) & Eb & Fb & C1 & C2). unfold update_tx.
  assert (H0 : R D true (on_batch (fun _ => []) s1) (on_batch (fun _ => []) s2)).
  { split; [split; assumption|]. split; [reflexivity|]. split; [apply bok_nil|]. split; assumption. }
  specialize (Hm _ _ H0). unfold trace_of, final_of, result_of in *.
  destruct (m (on_batch (fun _ => []) s1)) as [[t1 u1] r1], (m (on_batch (fun _ => []) s2)) as [[t2 u2] r2].
  cbn in Hm. destruct Hm as (T & ((Ed' & Ef') & Eb' & Fb' & C1' & C2') & <-).
  destruct r1; cbn.
  - match goal with |- Forall2 _ (_ ++ [?a]) (_ ++ [?b]) /\ _ => assert (H' : R D t a b) end.
    { split; [split; cbn; congruence|]. split; [reflexivity|]. split; [apply bok_nil|].
      split; intros id Hid; cbn in Hid.
      - destruct (C1' id Hid) as (x & y & z). split; [exact x|split; [apply (repos_fold D); [apply Fb'|assumption|assumption]|exact z]].
      - destruct (C2' id Hid) as (x & y & z). split; [exact x|split; [apply (repos_fold D); [rewrite <- Eb'; apply Fb'|assumption|assumption]|exact z]]. }
    split; [apply Forall2_app; [exact T|constructor; [apply H'|constructor]]|]. split; [exact H'|reflexivity].
  - split; [exact T|]. split; [|reflexivity]. split; [split; assumption|]. split; [reflexivity|]. split; [apply bok_nil|]. split; assumption.
  - split; [exact T|]. split; [|reflexivity]. split; [split; assumption|]. split; [reflexivity|]. split; [apply bok_nil|]. split; assumption.
Qed.


Ltac dsafe := let ff := fresh "ff" in let idd := fresh "idd" in intros ff idd _ ?; cbn; try assumption;
  try (unfold fupd; match goal with |- (if ?b then _ else _) = true => destruct b; [reflexivity|assumption] end).
Ltac same := let s1 := fresh in let s2 := fresh in let a := fresh in let b := fresh in
  intros s1 s2 [a b]; cbn; rewrite ?a, ?b; reflexivity.

Section Ops.
Variable E : env.
Variable D : string -> Prop.
Variable t : bool.
Ltac sp := repeat match goal with
  | |- sim _ _ (db_write _ _) => apply sim_write; [exact I|first [discriminate|assumption|reflexivity]]
  | |- sim _ _ (durable (on_fs _)) => apply sim_fs; dsafe
  | |- sim _ _ (bind _ _) => apply sim_bind; [|intro]
  | |- sim _ _ (ret _) => apply sim_ret
  | |- sim _ _ err => apply sim_err
  | |- sim _ _ panic => apply sim_panic
  | |- sim _ _ (lift _) => apply sim_lift
  | |- sim _ _ (gets _) => apply sim_gets; same
  | |- sim _ _ (on_err _ _) => apply sim_on_err
  | |- sim _ _ (forM _ _) => apply sim_forM; intro
  | |- sim _ _ (foldM _ _ _) => apply sim_foldM; intros ? ?
    | |- sim _ _ (match ?d with _ => _ end) => destruct d
  end.
Ltac su := unfold pool_get_or_err, ent_get, ent_list, pool_get, root_get, root_set, remove_file in *; sp.

Lemma y_link src dst : sim D t (link_or_copy E src dst).
Proof. unfold link_or_copy, copy_file. su; destruct (f_name ff dst); assumption. Qed.
Lemma y_pool_add src m d : sim D t (pool_add_internal E src m d).
Proof. unfold pool_add_internal. su; apply y_link. Qed.
Lemma y_pool_unref b id : (b = true -> t = true) -> sim D t (pool_unref b id).
Proof. intros Hb. unfold pool_unref. su. Qed.
Lemma y_remove_internal b r id : (b = true -> t = true) -> sim D t (remove_internal b r id).
Proof. intros Hb. unfold remove_internal. su; apply y_pool_unref, Hb. Qed.
Lemma y_sane r m id : sim D t (build_sane_entry r m id).
Proof. unfold build_sane_entry. su. Qed.
Lemma y_add_local r src m : sim D t (add_local_package E r src m).
Proof. unfold add_local_package. su; first [apply y_sane|apply y_pool_add|apply y_link]. Qed.
Lemma y_add_package r src st : sim D t (add_package E r src st).
Proof. unfold add_package, open_pkg. su; apply y_add_local. Qed.
Lemma y_ref_package r id : sim D t (ref_package E r id).
Proof. unfold ref_package, pool_ref. su; first [apply y_sane|apply y_link]. Qed.
Lemma y_ref_delta r id : sim D t (ref_delta E r id).
Proof. unfold ref_delta, pool_ref. su; apply y_link. Qed.
Lemma y_add_delta r src a b : sim D t (add_delta E r src a b).
Proof. unfold add_delta, open_pkg, pool_add_delta. su; first [apply y_pool_add|apply y_link]. Qed.
Lemma y_unref r id : sim D t (unref_package r id).
Proof. unfold unref_package, unref_deltas, unref_avail. su; apply y_remove_internal; discriminate. Qed.
Lemma y_assets r src : sim D t (pull_assets r src).
Proof. unfold pull_assets. su. Qed.
Lemma y_clone_from r src full : sim D t (clone_from E r src full).
Proof. unfold clone_from. su; first [apply y_assets | apply y_ref_package | apply y_ref_delta]. Qed.
Lemma y_pull_from r src : sim D t (pull_from E r src).
Proof. unfold pull_from, pull_collect. su; first [apply y_assets | apply y_ref_package]. Qed.
Lemma y_match rr source rl : sim D t (match_source rr source rl).
Proof. unfold match_source. su. Qed.
Lemma y_remove_source r source rl : sim D t (remove_source r source rl).
Proof. unfold remove_source. su; first [apply y_match | apply y_unref]. Qed.
Lemma y_copy_source r src source rl : sim D t (copy_source_from E r src source rl).
Proof. unfold copy_source_from. su; first [apply y_match | apply y_ref_package]. Qed.
Lemma y_init r : sim D t (init_distribution E r).
Proof. unfold init_distribution. su. Qed.
Lemma y_scan dist n av : sim D t (trim_obs_scan dist n av).
Proof. induction av; simpl; su; auto. Qed.
Lemma y_trim_obs r : sim D t (trim_obsolete E r).
Proof. unfold trim_obsolete. su; first [apply y_init | apply y_scan | apply y_unref]. Qed.
Lemma y_trim_packages o r k : sim D t (trim_packages o r k).
Proof. unfold trim_packages. su; apply y_unref. Qed.
Lemma y_emit r dist : sim D t (emit_index E r dist).
Proof. unfold emit_index, emit_package, push_deltas, asset_part. su. Qed.
Lemma y_stages r st : Forall (fun y => sim D t (snd y)) st -> forall done, sim D t (run_stages r done st).
Proof.
  induction 1 as [|[[k v] m] st Hm _ IH]; intros done; simpl; [apply sim_ret|].
  apply sim_bind; [|intros _; apply IH]. apply sim_on_err; [exact Hm|]. unfold remove_all. su.
Qed.
Lemma y_index o r : sim D t (index E o r).
Proof.
  unfold index. apply sim_bind; [apply y_init|]. intros dist.
  apply sim_bind.
  - apply y_stages. unfold index_stages, write_sum, compress, root_write.
    repeat (apply Forall_cons; [cbn [snd]; su; try apply y_emit|]). apply Forall_nil.
  - intros mp. unfold remove_all, rename. su.
Qed.
Lemma y_mark id d : sim D t (mark_delta_failed id d).
Proof. unfold mark_delta_failed. su. Qed.
End Ops.

(** ** The functions that use the cache *)
Definition nobody (_ : string) : Prop := False.

Lemma y_get_repo r : sim nobody false (get_repo r).
Proof.
  intros s1 s2 H. pose proof H as ((Ed & Ef) & Eb & Fb & C1 & C2). unfold get_repo, bake_repo, bind, gets, vol, ret, err, durable, trace_of, final_of, result_of. cbn.
  destruct (st_cache s1 r) eqn:K1, (st_cache s2 r) eqn:K2; cbn.
  - split; [constructor|]. split; [exact H|reflexivity].
  - destruct (C1 r K1) as (_ & Hr & Hd). rewrite <- Ed, Hr. cbn. rewrite <- Ef, Hd. cbn. split; [constructor|]. split; [|reflexivity].
    split; [split; assumption|]. split; [exact Eb|]. split; [exact Fb|]. split; [exact C1|].
    intros id. cbn. unfold fupd. destruct (seqb_spec id r) as [->|N]; [intros _; rewrite <- Ed, <- Ef; auto|]. intros X. exact (C2 id X).
  - destruct (C2 r K2) as (_ & Hr & Hd). rewrite Ed, Hr. cbn. rewrite Ef, Hd. cbn. split; [constructor|]. split; [|reflexivity].
    split; [split; assumption|]. split; [exact Eb|]. split; [exact Fb|]. split; [|exact C2].
    intros id. cbn. unfold fupd. destruct (seqb_spec id r) as [->|N]; [intros _; rewrite Ed, Ef; auto|]. intros X. exact (C1 id X).
  - rewrite <- Ed. destruct (mhas (d_repos (st_db s1)) r) eqn:Hr; cbn; [|split; [constructor|split; [exact H|reflexivity]]].
    rewrite <- Ef. destruct (f_dir (st_fs s1) r) eqn:Hd; cbn.
    + split; [constructor|]. split; [|reflexivity]. split; [split; assumption|]. split; [exact Eb|]. split; [exact Fb|].
      split; intros id; cbn; unfold fupd; (destruct (seqb_spec id r) as [->|N]; [intros _; rewrite <- ?Ed, <- ?Ef; auto|]); intros X; [exact (C1 id X)|exact (C2 id X)].
    + split; [constructor; [split; cbn; congruence|constructor]|]. split; [|reflexivity]. split; [split; cbn; congruence|]. split; [exact Eb|]. split; [exact Fb|].
      split; intros id; cbn; unfold fupd; (destruct (seqb_spec id r) as [->|N]; [intros _; rewrite <- ?Ed; auto|]); intros X; [exact (C1 id X)|exact (C2 id X)].
Qed.

Lemma cache_mhas D s r : cache_ok D s -> st_cache s r || mhas (d_repos (st_db s)) r = mhas (d_repos (st_db s)) r.
Proof. intros C. destruct (st_cache s r) eqn:K; [|reflexivity]. destruct (C r K) as (_ & -> & _). reflexivity. Qed.

Lemma bg {A B} (f : state -> A) (k : A -> M B) s : bind (gets f) k s = k (f s) s.
Proof. unfold bind, gets. destruct (k (f s) s) as [[? ?] ?]. reflexivity. Qed.

(** the part of create_repo after the checks *)
Definition create_tail (id : string) : M unit := db_write false (PutRepo id) ;;; bake_repo id ;;; vol (on_cache (fun c => fupd c id true)).
Lemma y_create r : sim nobody false (create_repo r).
Proof.
  assert (T : sim nobody false (create_tail r)).
  { intros s1 s2 H. pose proof H as ((Ed & Ef) & Eb & Fb & C1 & C2). unfold create_tail, db_write. cbn [op_key].
    destruct (reserved r); [cbn; split; [constructor|split; [exact H|reflexivity]]|].
    unfold bake_repo, bind, durable, gets, vol, ret, trace_of, final_of, result_of. cbn. rewrite <- Ef.
    assert (P : forall d, mhas (mput (d_repos d) r tt) r = true) by (intros d; unfold mhas; rewrite mget_put_eq; reflexivity).
    destruct (f_dir (st_fs s1) r) eqn:Hd; cbn.
    - split; [constructor; [split; cbn; congruence|constructor]|]. split; [|reflexivity]. split; [split; cbn; congruence|]. split; [exact Eb|]. split; [exact Fb|].
      split; intros id; cbn; unfold fupd; (destruct (seqb_spec id r) as [->|N]; [intros _; split; [intros []|split; [apply P|congruence]]|]);
        intros X; [destruct (C1 id X) as (a & b & c)|destruct (C2 id X) as (a & b & c)]; (split; [exact a|split; [apply mhas_mput, b|exact c]]).
    - split; [constructor; [split; cbn; congruence|constructor; [split; cbn; congruence|constructor]]|]. split; [|reflexivity]. split; [split; cbn; congruence|]. split; [exact Eb|]. split; [exact Fb|].
      split; intros id; cbn; unfold fupd; (destruct (seqb_spec id r) as [->|N]; [intros _; split; [intros []|split; [apply P|reflexivity]]|]);
        intros X; [destruct (C1 id X) as (a & b & c)|destruct (C2 id X) as (a & b & c)]; (split; [exact a|split; [apply mhas_mput, b|exact c]]). }
  intros s1 s2 H. pose proof H as ((Ed & Ef) & _ & _ & C1 & C2).
  assert (Q : forall s, cache_ok nobody s -> create_repo r s = (if mhas (d_repos (st_db s)) r then get_repo r ;;; err else f <- gets st_fs ;; if f_dir f r then err else create_tail r) s).
  { intros s C. unfold create_repo. rewrite 2 bg. rewrite (cache_mhas _ _ _ C).
    destruct (mhas (d_repos (st_db s)) r); reflexivity. }
  rewrite (Q s1 C1), (Q s2 C2). rewrite <- Ed. destruct (mhas (d_repos (st_db s1)) r).
  - revert H. apply (sim_bind nobody false); [apply y_get_repo|intros; apply sim_err].
  - revert H. apply (sim_bind nobody false); [apply sim_gets; same|intros f]. destruct (f_dir f r); [apply sim_err|exact T].
Qed.

Lemma R_weaken D s1 s2 : R D false s1 s2 -> R nobody false s1 s2.
Proof.
  intros (Sd & Eb & (_ & B) & C1 & C2). split; [exact Sd|]. split; [exact Eb|]. split; [rewrite (B eq_refl); apply bok_nil|].
  split; intros id X; [destruct (C1 id X) as (_ & a & b)|destruct (C2 id X) as (_ & a & b)]; split; auto; intros [].
Qed.
Definition delete_tx (id : string) : M unit :=
  update_tx (
    es <- ent_list id ;;
    forM es (fun ke =>
      forM (e_avail (snd ke)) (remove_internal true id) ;;;
      forM (e_deltas (snd ke)) (remove_internal true id) ;;;
      db_write true (DelEnt id (e_name (snd ke)))) ;;;
    db_write true (DelRepo id)).
Definition delete_tail (id : string) : M unit :=
  durable (on_fs (fun f => fs_rm_repo f id)) ;;;
  durable (on_fs (fun f => fs_rm_asset f id)) ;;;
  durable (on_fs (fun f => fs_rm_stage f id)).
Lemma y_delete r : sim nobody false (delete_repo r).
Proof.
  unfold delete_repo. apply sim_bind; [apply y_get_repo|intros _].
  change (sim nobody false (vol (on_cache (fun c => fupd c r false)) ;;; (delete_tx r ;;; delete_tail r))).
  assert (T : sim (eq r) false (delete_tx r ;;; delete_tail r)).
  { apply sim_bind; [|intros _].
    - apply sim_tx. apply sim_bind; [apply sim_gets; same|intros es]. apply sim_bind; [|intros _; apply sim_write; reflexivity].
      apply sim_forM; intros ke. repeat (apply sim_bind; [apply sim_forM; intros; apply y_remove_internal; reflexivity|intros _]). apply sim_write; [exact I|reflexivity].
    - unfold delete_tail. apply sim_bind; [|intros _; apply sim_bind; [|intros _]]; apply sim_fs; intros f id N Hd; cbn; auto.
      unfold fupd. destruct (seqb_spec id r) as [->|]; [destruct (N eq_refl)|exact Hd]. }
  intros s1 s2 H. 
  assert (B0 : forall s, (vol (on_cache (fun c => fupd c r false)) ;;; (delete_tx r ;;; delete_tail r)) s = (delete_tx r ;;; delete_tail r) (on_cache (fun c => fupd c r false) s)).
  { intros s. unfold bind at 1, vol. destruct ((delete_tx r ;;; delete_tail r) (on_cache (fun c => fupd c r false) s)) as [[? ?] ?]. reflexivity. }
  rewrite 2 B0. 
  assert (H' : R (eq r) false (on_cache (fun c => fupd c r false) s1) (on_cache (fun c => fupd c r false) s2)).
  { destruct H as ((Ed & Ef) & Eb & Fb & C1 & C2). split; [split; assumption|]. split; [exact Eb|].
    destruct Fb as [_ Fb]. split; [cbn; rewrite (Fb eq_refl); apply bok_nil|].
    split; intros id; cbn; unfold fupd; (destruct (seqb_spec id r) as [->|N]; [discriminate|]); intros X;
      [destruct (C1 id X) as (a & b & c)|destruct (C2 id X) as (a & b & c)]; auto. }
  destruct (T _ _ H') as (T1 & T2 & T3). split; [exact T1|]. split; [exact (R_weaken _ _ _ T2)|exact T3].
Qed.

Section Histories.
Variable E : env.
Lemma y_api_index o r : sim nobody false (api_index E o r).
Proof. apply sim_bind; [apply y_get_repo|intros _; apply y_index]. Qed.
Lemma y_run o p : sim nobody false (run_op E o p).
Proof.
  destruct p; cbn [run_op];
  unfold api_create, api_delete, api_clone, api_pull, api_remove_source, api_copy_source, api_trim_obsolete, api_trim_packages,
    api_add_packages, api_add_delta, api_ref_delta;
  repeat match goal with |- sim _ _ (bind _ _) => apply sim_bind; [|intro] end;
  repeat match goal with |- sim _ _ (if ?b then _ else _) => destruct b end;
  first [ apply y_get_repo | apply y_api_index | apply y_create | apply y_delete | apply y_clone_from | apply y_pull_from | apply y_remove_source
    | apply y_copy_source | apply y_trim_obs | apply y_trim_packages | apply y_add_delta | apply y_ref_delta | apply y_mark | apply sim_ret
    | apply sim_forM; intro; apply y_add_package ].
Qed.
Lemma R_restart s1 s2 : same_disk s1 s2 -> R nobody false (restart s1) (restart s2).
Proof. intros [a b]. split; [split; assumption|]. split; [reflexivity|]. split; [apply bok_nil|]. split; intros id X; discriminate. Qed.
Lemma R_restart_one s1 s2 : R nobody false s1 s2 -> R nobody false (restart s1) s2.
Proof.
  intros (Sd & Eb & (_ & B) & C1 & C2). split; [exact Sd|]. split; [cbn; rewrite <- Eb, (B eq_refl); reflexivity|]. split; [apply bok_nil|]. split; [intros id X; discriminate|exact C2].
Qed.
Lemma nth_same n l1 l2 d1 d2 : Forall2 same_disk l1 l2 -> same_disk d1 d2 -> same_disk (nth n l1 d1) (nth n l2 d2).
Proof. intros F Hd. revert n. induction F; intros [|n]; cbn; auto. Qed.
Lemma R_event e s1 s2 : R nobody false s1 s2 -> R nobody false (ev_step E s1 e) (ev_step E s2 e).
Proof.
  intros H. destruct e as [o p|o p n| |l c|l|r a c|r]; cbn [ev_step].
  - destruct (y_run o p s1 s2 H) as (_ & HF & <-). destruct (result_of (run_op E o p s1)); [exact HF|exact HF|apply R_restart, HF].
  - destruct (y_run o p s1 s2 H) as (HT & HF & _). apply R_restart. apply nth_same; [|apply HF]. constructor; [apply H|exact HT].
  - apply R_restart, H.
  - destruct (l_tree l); auto; apply R_fs; auto; dsafe.
  - destruct (l_tree l); auto; apply R_fs; auto; dsafe.
  - apply R_fs; auto; dsafe.
  - apply R_fs; auto; dsafe.
Qed.
End Histories.
