(** * Keep: a state predicate closed under the primitive steps is kept by every
    request and every history, at every instant (proof artifact) *)
From Verif Require Import Model Spec DbInv DbOps Wp FsInv.
Open Scope string_scope. Open Scope list_scope.

Definition managed (t : tree) : bool := match t with TPool | TRepo _ => true | _ => false end.
(** file steps that only drop names or touch index files, assets, directories *)
Definition drops (g : fs -> fs) : Prop :=
  forall f, f_data (g f) = f_data f /\ f_next (g f) = f_next f /\
    forall l, f_name (g f) l = f_name f l \/ f_name (g f) l = None.
Definition not_skip (o : dbop) : Prop := match o with PutSkip _ => False | _ => True end.

Section Keep.
Variable E : env.
Variable P : state -> Prop.
Hypothesis H_write : forall b o, not_skip o -> keeps P (db_write b o).
Hypothesis H_tx : forall m, keeps P m -> keeps P (update_tx m).
Hypothesis H_skip : forall id d, keeps P (mark_delta_failed id d).
Hypothesis H_link : forall src dst, managed (l_tree dst) = true -> upload_tree (l_tree src) = true \/ l_tree src = TPool ->
  keeps P (link_or_copy E src dst).
Hypothesis H_fs : forall g, drops g -> keeps P (durable (on_fs g)).
Hypothesis H_cache : forall g, keeps P (vol (on_cache g)).

Ltac dr := let ff := fresh "ff" in intros ff; cbn; split; [reflexivity|split; [reflexivity|]]; let ll := fresh "ll" in intros ll; unfold nupd; auto;
  try match goal with |- context [if ?b then _ else _] => destruct b; auto end.
Lemma z_remove l : keeps P (remove_file l).
Proof. apply H_fs. dr. Qed.
Lemma z_dir r b : keeps P (durable (on_fs (fun f => fs_set_dir f r b))).
Proof. apply H_fs. dr. Qed.
Lemma z_root r k v : keeps P (root_set r k v).
Proof. apply H_fs. dr. Qed.
Lemma z_asset r k (v : fs -> option string) : keeps P (durable (on_fs (fun f => fs_set_asset f r k (v f)))).
Proof. apply H_fs. dr. Qed.
Lemma z_rm_repo r : keeps P (durable (on_fs (fun f => fs_rm_repo f r))).
Proof. apply H_fs. dr. Qed.
Lemma z_rm_asset r : keeps P (durable (on_fs (fun f => fs_rm_asset f r))).
Proof. apply H_fs. dr. Qed.
Lemma z_rm_stage r : keeps P (durable (on_fs (fun f => fs_rm_stage f r))).
Proof. apply H_fs. dr. Qed.

Ltac zp := repeat match goal with
  | |- keeps _ (db_write _ _) => apply H_write; exact I
  | |- keeps _ (remove_file _) => apply z_remove
  | |- keeps _ (link_or_copy _ _ _) => apply H_link; [reflexivity|first [right; reflexivity | left; assumption]]
  | |- keeps _ (vol (on_cache _)) => apply H_cache
  | |- keeps _ (durable (on_fs (fun f => fs_set_dir _ _ _))) => apply z_dir
  | |- keeps _ (durable (on_fs (fun f => fs_rm_repo _ _))) => apply z_rm_repo
  | |- keeps _ (durable (on_fs (fun f => fs_rm_asset _ _))) => apply z_rm_asset
  | |- keeps _ (durable (on_fs (fun f => fs_rm_stage _ _))) => apply z_rm_stage
  | |- keeps _ (root_set _ _ _) => apply z_root
  | |- keeps _ (bind _ _) => apply keeps_bind; [|intro]
  | |- keeps _ (ret _) => apply keeps_ret
  | |- keeps _ err => apply keeps_err
  | |- keeps _ panic => apply keeps_panic
  | |- keeps _ (lift _) => apply keeps_lift
  | |- keeps _ (gets _) => apply keeps_gets
  | |- keeps _ (on_err _ _) => apply keeps_on_err
  | |- keeps _ (forM _ _) => apply keeps_forM; intro
  | |- keeps _ (foldM _ _ _) => apply keeps_foldM; intros ? ?
  | |- keeps _ (update_tx _) => apply H_tx
  | |- keeps _ (match ?d with _ => _ end) => destruct d
  end.
Ltac zu := unfold pool_get_or_err, ent_get, ent_list, pool_get, root_get in *; zp.

Lemma z_pool_add src m d : upload_tree (l_tree src) = true -> keeps P (pool_add_internal E src m d).
Proof. intros U. unfold pool_add_internal. zu. Qed.
Lemma z_pool_unref b id : keeps P (pool_unref b id).
Proof. unfold pool_unref. zu. Qed.
Lemma z_get_repo r : keeps P (get_repo r).
Proof. unfold get_repo, bake_repo. zu. Qed.
Lemma z_create r : keeps P (create_repo r).
Proof. unfold create_repo, bake_repo. zu; apply z_get_repo. Qed.
Lemma z_remove_internal b r id : keeps P (remove_internal b r id).
Proof. unfold remove_internal. zu; apply z_pool_unref. Qed.
Lemma z_delete r : keeps P (delete_repo r).
Proof. unfold delete_repo. zu; first [apply z_get_repo | apply z_remove_internal]. Qed.
Lemma z_sane r m id : keeps P (build_sane_entry r m id).
Proof. unfold build_sane_entry. zu. Qed.
Lemma z_add_local r src m : upload_tree (l_tree src) = true -> keeps P (add_local_package E r src m).
Proof. intros U. unfold add_local_package. zu; [apply z_sane|apply z_pool_add, U]. Qed.
Lemma z_add_package r src st : upload_tree (l_tree src) = true -> keeps P (add_package E r src st).
Proof. intros U. unfold add_package, open_pkg. zu; apply z_add_local, U. Qed.
Lemma z_ref_package r id : keeps P (ref_package E r id).
Proof. unfold ref_package, pool_ref. zu; apply z_sane. Qed.
Lemma z_ref_delta r id : keeps P (ref_delta E r id).
Proof. unfold ref_delta, pool_ref. zu. Qed.
Lemma z_add_delta r src a b : upload_tree (l_tree src) = true -> keeps P (add_delta E r src a b).
Proof. intros U. unfold add_delta, open_pkg, pool_add_delta. zu; apply z_pool_add, U. Qed.
Lemma z_unref r id : keeps P (unref_package r id).
Proof. unfold unref_package, unref_deltas, unref_avail. zu; apply z_remove_internal. Qed.
Lemma z_assets r src : keeps P (pull_assets r src).
Proof.
  unfold pull_assets. zu; [apply (z_asset _ _ (fun _ => Some EmptyString))|apply (z_asset _ _ (fun g => f_asset g src x))].
Qed.
Lemma z_clone_from r src full : keeps P (clone_from E r src full).
Proof. unfold clone_from. zu; first [apply z_assets | apply z_ref_package | apply z_ref_delta]. Qed.
Lemma z_pull_from r src : keeps P (pull_from E r src).
Proof. unfold pull_from, pull_collect. zu; first [apply z_assets | apply z_ref_package]. Qed.
Lemma z_match rr source rl : keeps P (match_source rr source rl).
Proof. unfold match_source. zu. Qed.
Lemma z_remove_source r source rl : keeps P (remove_source r source rl).
Proof. unfold remove_source. zu; first [apply z_match | apply z_unref]. Qed.
Lemma z_copy_source r src source rl : keeps P (copy_source_from E r src source rl).
Proof. unfold copy_source_from. zu; first [apply z_match | apply z_ref_package]. Qed.
Lemma z_init r : keeps P (init_distribution E r).
Proof. unfold init_distribution. zu. Qed.
Lemma z_scan dist n av : keeps P (trim_obs_scan dist n av).
Proof. induction av; simpl; zu; auto. Qed.
Lemma z_trim_obs r : keeps P (trim_obsolete E r).
Proof. unfold trim_obsolete. zu; first [apply z_init | apply z_scan | apply z_unref]. Qed.
Lemma z_trim_packages o r k : keeps P (trim_packages o r k).
Proof. unfold trim_packages. zu; apply z_unref. Qed.
Lemma z_emit r dist : keeps P (emit_index E r dist).
Proof. unfold emit_index, emit_package, push_deltas, asset_part. zu. Qed.
Lemma z_stages r st : Forall (fun y => keeps P (snd y)) st -> forall done, keeps P (run_stages r done st).
Proof.
  induction 1 as [|[[k v] m] st Hm _ IH]; intros done; simpl; [apply keeps_ret|].
  apply keeps_bind; [|intros _; apply IH]. apply keeps_on_err; [exact Hm|]. unfold remove_all. zu.
Qed.
Lemma z_rename o r k v : keeps P (rename o r k v).
Proof. unfold rename. zu. apply H_fs. dr. Qed.
Lemma z_index o r : keeps P (api_index E o r).
Proof.
  unfold api_index, index. apply keeps_bind; [apply z_get_repo|intros _]. apply keeps_bind; [apply z_init|]. intros dist.
  apply keeps_bind.
  - apply z_stages. unfold index_stages, write_sum, compress, root_write.
    repeat (apply Forall_cons; [cbn [snd]; zu; try apply z_emit|]). apply Forall_nil.
  - intros mp. unfold remove_all. zu. apply z_rename.
Qed.

Lemma z_forM_in {X} (f : X -> M unit) l : Forall (fun x => keeps P (f x)) l -> keeps P (forM l f).
Proof. induction 1; simpl; [apply keeps_ret|apply keeps_bind; auto]. Qed.

Lemma z_run o p : good_op p -> keeps P (run_op E o p).
Proof.
  intros G. destruct p; cbn [run_op good_op] in *;
  unfold api_create, api_delete, api_clone, api_pull, api_remove_source, api_copy_source, api_trim_obsolete, api_trim_packages,
    api_add_packages, api_add_delta, api_ref_delta.
  9:{ apply keeps_bind; [|intros; apply keeps_ret]. apply keeps_bind; [apply z_get_repo|intros _]. apply keeps_bind; [|intros; apply z_index].
      apply z_forM_in. eapply Forall_impl; [|exact G]. intros l [U _]. apply z_add_package, U. }
  all: zp; first [ apply z_get_repo | apply z_index | apply z_create | apply z_delete
    | apply z_clone_from | apply z_pull_from | apply z_remove_source
    | apply z_copy_source | apply z_trim_obs | apply z_trim_packages
    | apply z_add_delta; tauto | apply z_ref_delta | apply H_skip ].
Qed.

Hypothesis P_restart : forall s, P s -> P (restart s).
Hypothesis P_put : forall s l c, upload_tree (l_tree l) = true -> P s -> P (on_fs (fun f => fs_create f l c) s).
Lemma P_fs g s : drops g -> P s -> P (on_fs g s).
Proof. intros D H. pose proof (H_fs g D s H) as [F _]. inversion F; assumption. Qed.
Definition op_of (e : event) : option op := match e with EvOp _ p | EvCrash _ p _ => Some p | _ => None end.
Lemma z_event e s : (forall p, op_of e = Some p -> good_op p) -> P s -> P (ev_step E s e).
Proof.
  intros G H. destruct e as [o p|o p n| |l c|l|r a c|r]; cbn [ev_step].
  - destruct (z_run o p (G p eq_refl) s H) as [_ F]. destruct (result_of (run_op E o p s)); auto.
  - destruct (z_run o p (G p eq_refl) s H) as [F L]. apply P_restart.
    destruct (nth_in_or_default n (s :: trace_of (run_op E o p s)) (final_of (run_op E o p s))) as [Hin|Hd].
    + destruct Hin as [<-|Hin]; [exact H|]. rewrite Forall_forall in F. exact (F _ Hin).
    + rewrite Hd. exact L.
  - apply P_restart, H.
  - destruct (l_tree l) eqn:Et; try exact H; apply P_put; auto; rewrite Et; reflexivity.
  - assert (D : drops (fun f => fs_set_name f l None)) by dr.
    destruct (l_tree l) eqn:Et; try exact H; apply (P_fs _ _ D H).
  - apply P_fs; [dr|exact H].
  - apply P_fs; [dr|exact H].
Qed.
Lemma z_history h : forall s, Forall (fun e => forall p, op_of e = Some p -> good_op p) h -> P s -> P (fold_left (ev_step E) h s).
Proof. induction h as [|e h IH]; intros s F H; simpl; [exact H|]. inversion F; subst. apply IH; auto. apply z_event; auto. Qed.
End Keep.
Lemma good_ops E cat h : good_history E cat h -> Forall (fun e => forall p, op_of e = Some p -> good_op p) h.
Proof.
  intros G. eapply Forall_impl; [|exact G]. intros e Ge p Hp. destruct e; cbn in *; try discriminate; injection Hp as <-; tauto.
Qed.
