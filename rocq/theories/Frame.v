(** * Frame: what one request can touch, at every instant (proof artifact) *)
From Verif Require Import Model Spec DbInv DbOps Wp FsInv.
Open Scope string_scope. Open Scope list_scope.

(** the repository a database write works on *)
Definition op_repo (o : dbop) : option string :=
  match o with PutRepo id | DelRepo id => Some id | PutEnt r _ | DelEnt r _ => Some r | _ => None end.

Section Frame.
Variable E : env.
Variable x : string.      (* the other repository *)
Variable s0 : state.

Record framed (t : state) : Prop := {
  fr_repo : mhas (d_repos (st_db t)) x = mhas (d_repos (st_db s0)) x;
  fr_ents : d_ents (st_db t) x = d_ents (st_db s0) x;
  fr_files : forall l, l_tree l = TRepo x -> f_name (st_fs t) l = f_name (st_fs s0) l;
  fr_root : f_root (st_fs t) x = f_root (st_fs s0) x;
  fr_asset : f_asset (st_fs t) x = f_asset (st_fs s0) x;
  fr_batch : Forall (fun o => op_repo o <> Some x) (st_batch t);
  fr_dir : mhas (d_repos (st_db s0)) x = false -> f_dir (st_fs t) x = f_dir (st_fs s0) x
}.

Lemma apply_frame d o : op_repo o <> Some x ->
  mhas (d_repos (apply_op d o)) x = mhas (d_repos d) x /\ d_ents (apply_op d o) x = d_ents d x.
Proof.
  intros N. destruct o; simpl in *; split; try reflexivity.
  - unfold mhas. rewrite mget_put. destruct (seqb_spec x id); [congruence|reflexivity].
  - unfold mhas. rewrite mget_del. destruct (seqb_spec x id); [congruence|reflexivity].
  - unfold fupd. destruct (seqb_spec x r); [congruence|reflexivity].
  - unfold fupd. destruct (seqb_spec x r); [congruence|reflexivity].
Qed.
Lemma fold_frame q : forall d, Forall (fun o => op_repo o <> Some x) q ->
  mhas (d_repos (fold_left apply_op q d)) x = mhas (d_repos d) x /\ d_ents (fold_left apply_op q d) x = d_ents d x.
Proof.
  induction q as [|o q IH]; intros d F; [split; reflexivity|]. inversion F; subst. simpl.
  destruct (IH (apply_op d o) H2) as [A B]. destruct (apply_frame d o H1) as [C D]. split; congruence.
Qed.

Lemma k_write b o : op_repo o <> Some x -> keeps framed (db_write b o).
Proof.
  intros N. unfold db_write. destruct (reserved (op_key o)); [apply keeps_err|]. destruct b.
  - apply keeps_vol. intros s [A1 A2 A3 A4 A5 A6 A7]. constructor; auto. simpl. apply Forall_app; auto.
  - apply keeps_durable. intros s [A1 A2 A3 A4 A5 A6 A7]. destruct (apply_frame (st_db s) o N) as [B C].
    constructor; simpl; auto; congruence.
Qed.
Lemma k_tx m : keeps framed m -> keeps framed (update_tx m).
Proof.
  intros H s F.
  assert (F0 : framed (on_batch (fun _ => []) s)) by (destruct F; constructor; simpl; auto).
  specialize (H _ F0). unfold wp, update_tx in *.
  destruct (m (on_batch (fun _ => []) s)) as [[t s1] [a| |]]; cbn [trace_of final_of result_of fst snd] in *;
    destruct H as [H1 H2].
  - assert (F2 : framed (St (fold_left apply_op (st_batch s1) (st_db s1)) (st_fs s1) (st_cache s1) [])).
    { destruct H2 as [A1 A2 A3 A4 A5 A6 A7]. destruct (fold_frame (st_batch s1) (st_db s1) A6) as [B C].
      constructor; simpl; auto; congruence. }
    split; [apply Forall_app; split; [exact H1|repeat constructor; apply F2]|exact F2].
  - split; [exact H1|]. destruct H2; constructor; simpl; auto.
  - split; [exact H1|]. destruct H2; constructor; simpl; auto.
Qed.

Lemma set_name_frame s l v : l_tree l <> TRepo x -> framed s -> framed (on_fs (fun f => fs_set_name f l v) s).
Proof.
  intros N [A1 A2 A3 A4 A5 A6 A7]. constructor; auto. simpl. intros y Hy. rewrite nupd_ne by congruence. auto.
Qed.
Lemma k_remove l : l_tree l <> TRepo x -> keeps framed (remove_file l).
Proof. intros N. apply keeps_durable. intros s. apply set_name_frame, N. Qed.
Lemma k_copy src dst : l_tree dst <> TRepo x -> keeps framed (copy_file src dst).
Proof.
  intros N. unfold copy_file. apply keeps_bind; [apply keeps_gets|]. intros f.
  destruct (f_name f src); [|apply keeps_ret]. apply keeps_bind; [|intros _].
  - destruct (f_name f dst); apply keeps_durable; intros s [A1 A2 A3 A4 A5 A6 A7]; constructor; auto.
    simpl. intros y Hy. rewrite nupd_ne by congruence. auto.
  - apply keeps_durable. intros s [A1 A2 A3 A4 A5 A6 A7]. constructor; auto; simpl; destruct (f_name (st_fs s) dst); auto.
Qed.
Lemma k_link src dst : l_tree dst <> TRepo x -> keeps framed (link_or_copy E src dst).
Proof.
  intros N. unfold link_or_copy. apply keeps_bind; [apply keeps_gets|]. intros f.
  destruct (can_link E f src dst); [|apply k_copy, N]. apply keeps_durable. intros s F.
  change (framed (on_fs (fun f0 => fs_set_name f0 dst (f_name (st_fs s) src)) s)). apply set_name_frame; auto.
Qed.
Lemma k_cache f : keeps framed (vol (on_cache f)).
Proof. apply keeps_vol. intros s [A1 A2 A3 A4 A5 A6 A7]. constructor; auto. Qed.
Lemma k_dir r b : r <> x \/ mhas (d_repos (st_db s0)) x = true -> keeps framed (durable (on_fs (fun f => fs_set_dir f r b))).
Proof.
  intros N. apply keeps_durable. intros s [A1 A2 A3 A4 A5 A6 A7]. constructor; auto. simpl. intros Hx. unfold fupd.
  destruct (seqb_spec x r); [|auto]. destruct N; congruence.
Qed.
Lemma k_root r f v : r <> x -> keeps framed (root_set r f v).
Proof.
  intros N. apply keeps_durable. intros s [A1 A2 A3 A4 A5 A6 A7]. constructor; auto. simpl.
  unfold fupd at 1. destruct (seqb_spec x r); [congruence|exact A4].
Qed.
Lemma k_asset r f (v : fs -> option string) : r <> x -> keeps framed (durable (on_fs (fun g => fs_set_asset g r f (v g)))).
Proof.
  intros N. apply keeps_durable. intros s [A1 A2 A3 A4 A5 A6 A7]. constructor; auto. simpl.
  unfold fupd at 1. destruct (seqb_spec x r); [congruence|exact A5].
Qed.

Ltac kp := repeat match goal with
  | |- keeps _ (db_write _ _) => apply k_write; simpl; congruence
  | |- keeps _ (remove_file _) => apply k_remove; simpl; congruence
  | |- keeps _ (link_or_copy _ _ _) => apply k_link; simpl; congruence
  | |- keeps _ (vol (on_cache _)) => apply k_cache
  | |- keeps _ (root_set _ _ _) => apply k_root; assumption
  | |- keeps _ (bind _ _) => apply keeps_bind; [|intro]
  | |- keeps _ (ret _) => apply keeps_ret
  | |- keeps _ err => apply keeps_err
  | |- keeps _ panic => apply keeps_panic
  | |- keeps _ (lift _) => apply keeps_lift
  | |- keeps _ (gets _) => apply keeps_gets
  | |- keeps _ (on_err _ _) => apply keeps_on_err
  | |- keeps _ (forM _ _) => apply keeps_forM; intro
  | |- keeps _ (foldM _ _ _) => apply keeps_foldM; intros ? ?
  | |- keeps _ (update_tx _) => apply k_tx
  | |- keeps _ (match ?d with _ => _ end) => destruct d
  end.

Lemma k_pool_get id : keeps framed (pool_get id).  Proof. apply keeps_gets. Qed.
Lemma k_pool_get_or_err id : keeps framed (pool_get_or_err id). Proof. unfold pool_get_or_err, pool_get. kp. Qed.
Lemma k_pool_add src m d : keeps framed (pool_add_internal E src m d).
Proof. unfold pool_add_internal, pool_get. kp. Qed.
Lemma k_pool_ref id : keeps framed (pool_ref id). Proof. unfold pool_ref, pool_get_or_err, pool_get. kp. Qed.
Lemma k_pool_unref b id : keeps framed (pool_unref b id). Proof. unfold pool_unref, pool_get_or_err, pool_get. kp. Qed.
Lemma k_pool_add_delta src m a b : keeps framed (pool_add_delta E src m a b).
Proof. unfold pool_add_delta. kp; try apply k_pool_get; try apply k_pool_get_or_err; try apply k_pool_add. Qed.
Lemma k_bake r : r <> x \/ mhas (d_repos (st_db s0)) x = true -> keeps framed (bake_repo r).
Proof. intros N. unfold bake_repo. kp. apply k_dir, N. Qed.
Lemma k_get_repo r : keeps framed (get_repo r).
Proof.
  destruct (string_dec r x) as [->|N]; [|unfold get_repo; kp; apply k_bake; left; exact N].
  destruct (mhas (d_repos (st_db s0)) x) eqn:Hx; [unfold get_repo; kp; apply k_bake; right; exact Hx|].
  intros s F. unfold get_repo. apply wp_bind_gets. destruct (st_cache s x); [apply wp_ret, F|].
  apply wp_bind_gets. rewrite (fr_repo _ F), Hx. apply wp_err, F.
Qed.
Lemma k_sane r m id : keeps framed (build_sane_entry r m id).
Proof. unfold build_sane_entry, ent_get, pool_get. kp. Qed.
Lemma k_open l : keeps framed (open_pkg E l). Proof. unfold open_pkg. kp. Qed.
Lemma k_init r : keeps framed (init_distribution E r). Proof. unfold init_distribution. kp. Qed.

Section Target.
Variable r : string.
Hypothesis N : r <> x.
Ltac kq := unfold ent_get, ent_list, pool_get, root_get in *; repeat first [progress kp | apply k_pool_get_or_err | apply k_pool_add | apply k_pool_ref | apply k_pool_unref
   | apply k_pool_add_delta | (apply k_bake; left; assumption) | apply k_get_repo | apply k_sane | apply k_open | apply k_init].
Lemma k_create : keeps framed (create_repo r).
Proof. unfold create_repo. kq. Qed.
Lemma k_remove_internal b id : keeps framed (remove_internal b r id).
Proof. unfold remove_internal. kq. Qed.
Lemma k_rm (g : fs -> fs) : (forall f, (forall l, l_tree l = TRepo x -> f_name (g f) l = f_name f l) /\ f_root (g f) x = f_root f x /\ f_asset (g f) x = f_asset f x /\ f_dir (g f) x = f_dir f x) ->
  keeps framed (durable (on_fs g)).
Proof.
  intros H. apply keeps_durable. intros s [A1 A2 A3 A4 A5 A6 A7]. destruct (H (st_fs s)) as (B1 & B2 & B3 & B4).
  constructor; simpl; auto; try congruence; [intros l Hl; rewrite B1; auto|intros Hx; rewrite B4; auto].
Qed.
Lemma k_delete : keeps framed (delete_repo r).
Proof.
  unfold delete_repo. kq; try apply k_remove_internal; apply k_rm; intros f; simpl.
  - split; [|split; [|split]].
    + intros l ->. simpl. destruct (seqb_spec x r); congruence.
    + unfold fupd. destruct (seqb_spec x r); congruence.
    + reflexivity.
    + unfold fupd. destruct (seqb_spec x r); congruence.
  - split; [auto|]. split; [reflexivity|]. split; [|reflexivity]. unfold fupd. destruct (seqb_spec x r); congruence.
  - split; [|repeat split; reflexivity]. intros l ->. reflexivity.
Qed.
Lemma k_add_local src m : keeps framed (add_local_package E r src m).
Proof. unfold add_local_package. kq. Qed.
Lemma k_add_package src st : keeps framed (add_package E r src st).
Proof. unfold add_package. kq; apply k_add_local. Qed.
Lemma k_ref_package id : keeps framed (ref_package E r id).
Proof. unfold ref_package. kq. Qed.
Lemma k_ref_delta id : keeps framed (ref_delta E r id).
Proof. unfold ref_delta. kq. Qed.
Lemma k_add_delta src a b : keeps framed (add_delta E r src a b).
Proof. unfold add_delta. kq. Qed.
Lemma k_unref id : keeps framed (unref_package r id).
Proof. unfold unref_package, unref_deltas, unref_avail. kq; apply k_remove_internal. Qed.
Lemma k_assets src : keeps framed (pull_assets r src).
Proof.
  unfold pull_assets. apply keeps_forM. intros a. apply keeps_bind; [apply keeps_gets|]. intros f.
  destruct (f_asset f src a); [|apply keeps_ret]. apply keeps_bind; [|intros _].
  - apply (k_asset r a (fun _ => Some EmptyString) N).
  - apply (k_asset r a (fun g => f_asset g src a) N).
Qed.
Lemma k_clone_from src full : keeps framed (clone_from E r src full).
Proof. unfold clone_from. kq; first [apply k_assets | apply k_ref_package | apply k_ref_delta]. Qed.
Lemma k_pull_from src : keeps framed (pull_from E r src).
Proof. unfold pull_from, pull_collect. kq; first [apply k_assets | apply k_ref_package]. Qed.
Lemma k_match rr source rl : keeps framed (match_source rr source rl).
Proof. unfold match_source. kq. Qed.
Lemma k_remove_source source rl : keeps framed (remove_source r source rl).
Proof. unfold remove_source. kq; first [apply k_match | apply k_unref]. Qed.
Lemma k_copy_source src source rl : keeps framed (copy_source_from E r src source rl).
Proof. unfold copy_source_from. kq; first [apply k_match | apply k_ref_package]. Qed.
Lemma k_scan dist n av : keeps framed (trim_obs_scan dist n av).
Proof. induction av; simpl; kq; auto. Qed.
Lemma k_trim_obs : keeps framed (trim_obsolete E r).
Proof. unfold trim_obsolete. kq; first [apply k_scan | apply k_unref]. Qed.
Lemma k_trim_packages o k : keeps framed (trim_packages o r k).
Proof. unfold trim_packages. kq; apply k_unref. Qed.
Lemma k_emit dist : keeps framed (emit_index E r dist).
Proof. unfold emit_index, emit_package, push_deltas, asset_part. kq. Qed.
Lemma k_stages st : Forall (fun y => keeps framed (snd y)) st -> forall done, keeps framed (run_stages r done st).
Proof.
  induction 1 as [|[[k v] m] st Hm _ IH]; intros done; simpl; [apply keeps_ret|].
  apply keeps_bind; [|intros _; apply IH]. apply keeps_on_err; [exact Hm|]. unfold remove_all. kq.
Qed.
Lemma k_rename o k v : keeps framed (rename o r k v).
Proof.
  unfold rename. kq. apply k_rm. intros f. simpl. split; [auto|]. split; [|split; reflexivity].
  unfold fupd at 1. destruct (seqb_spec x r); [congruence|]. unfold fupd at 1. destruct (seqb_spec x r); congruence.
Qed.
Lemma k_index o : keeps framed (api_index E o r).
Proof.
  unfold api_index, index. apply keeps_bind; [apply k_get_repo|intros _]. apply keeps_bind; [apply k_init|]. intros dist.
  apply keeps_bind.
  - apply k_stages. unfold index_stages, write_sum, compress, root_write.
    repeat (apply Forall_cons; [cbn [snd]; kq; try apply k_emit|]). apply Forall_nil.
  - intros mp. unfold remove_all. kq. apply k_rename.
Qed.
End Target.

Lemma k_run o p : target p <> Some x -> keeps framed (run_op E o p).
Proof.
  intros N. destruct p; cbn [run_op target] in *; try (match type of N with Some ?q <> _ => assert (N' : q <> x) by congruence end); clear N;
  unfold api_create, api_delete, api_clone, api_pull, api_remove_source, api_copy_source, api_trim_obsolete, api_trim_packages,
    api_add_packages, api_add_delta, api_ref_delta, mark_delta_failed;
  kp; first [ apply k_get_repo | apply k_index; assumption | apply k_create; assumption | apply k_delete; assumption
    | apply k_clone_from; assumption | apply k_pull_from; assumption | apply k_remove_source; assumption
    | apply k_copy_source; assumption | apply k_trim_obs; assumption | apply k_trim_packages; assumption
    | apply k_add_package; assumption | apply k_add_delta; assumption | apply k_ref_delta; assumption ].
Qed.
End Frame.

(** ** pool records: requests other than removals keep them all, removals change none *)
Definition same_item (p p' : pentry) : Prop := p_meta p' = p_meta p /\ p_delta p' = p_delta p.
Definition pool_named (d : db) : Prop := forall id p, mget (d_pool d) id = Some p -> p_name p = id.

Section Grow.
Variable E : env.
Variable s0 : state.
Record grow (t : state) : Prop := {
  gw_named : pool_named (st_db t);
  gw_kept : forall id p, mget (d_pool (st_db s0)) id = Some p -> exists p', mget (d_pool (st_db t)) id = Some p' /\ same_item p p'
}.
Lemma g_db s t : st_db t = st_db s -> grow s -> grow t.
Proof. intros Ed [A B]. constructor; rewrite Ed; assumption. Qed.
Lemma g_write o : (match o with PutPool _ | DelPool _ => False | _ => True end) -> keeps grow (db_write false o).
Proof.
  intros Ho. unfold db_write. destruct (reserved (op_key o)); [apply keeps_err|].
  apply keeps_durable. intros s [A B]. constructor; destruct o; simpl; try contradiction; assumption.
Qed.
Lemma g_put_kept p q : forall s, grow s -> mget (d_pool (st_db s)) (p_name q) = Some p -> same_item p q ->
  wp (db_write false (PutPool q)) grow (fun s' _ => grow s') s.
Proof.
  intros s [A B] G S. unfold db_write. destruct (reserved (op_key (PutPool q))); [apply wp_err; constructor; assumption|].
  assert (grow (on_db (fun d => apply_op d (PutPool q)) s)).
  { constructor; simpl.
    - intros id p' Hp'. simpl in Hp'. rewrite mget_put in Hp'. destruct (seqb_spec id (p_name q)) as [->|]; [injection Hp' as <-; reflexivity|].
      apply A, Hp'.
    - intros id p0 G0. rewrite mget_put. destruct (seqb_spec id (p_name q)) as [->|]; [|apply B, G0].
      exists q. split; [reflexivity|]. destruct (B _ _ G0) as (p1 & G1 & S1). rewrite G in G1. injection G1 as <-.
      destruct S, S1. split; congruence. }
  apply wp_durable; assumption.
Qed.
Lemma g_put_new q : forall s, grow s -> mget (d_pool (st_db s)) (p_name q) = None ->
  wp (db_write false (PutPool q)) grow (fun s' _ => grow s') s.
Proof.
  intros s [A B] G. unfold db_write. destruct (reserved (op_key (PutPool q))); [apply wp_err; constructor; assumption|].
  assert (grow (on_db (fun d => apply_op d (PutPool q)) s)).
  { constructor; simpl.
    - intros id p' Hp'. simpl in Hp'. rewrite mget_put in Hp'. destruct (seqb_spec id (p_name q)) as [->|]; [injection Hp' as <-; reflexivity|].
      apply A, Hp'.
    - intros id p0 G0. destruct (B _ _ G0) as (p1 & G1 & S1). rewrite mget_put. destruct (seqb_spec id (p_name q)) as [->|]; [congruence|].
      exists p1. auto. }
  apply wp_durable; assumption.
Qed.
Lemma g_quiet f : (forall s, st_db (f s) = st_db s) -> keeps grow (durable f).
Proof. intros H. apply keeps_durable. intros s. apply g_db, H. Qed.
Lemma g_copy src dst : keeps grow (copy_file src dst).
Proof.
  unfold copy_file. apply keeps_bind; [apply keeps_gets|]. intros f. destruct (f_name f src); [|apply keeps_ret].
  apply keeps_bind; [destruct (f_name f dst)|intros _]; apply g_quiet; reflexivity.
Qed.
Lemma g_link src dst : keeps grow (link_or_copy E src dst).
Proof.
  unfold link_or_copy. apply keeps_bind; [apply keeps_gets|]. intros f. destruct (can_link E f src dst); [apply g_quiet; reflexivity|apply g_copy].
Qed.
(* the database is not touched by file operations *)
Lemma kd_copy D src dst : keeps (fun t => st_db t = D) (copy_file src dst).
Proof.
  unfold copy_file. apply keeps_bind; [apply keeps_gets|]. intros f. destruct (f_name f src); [|apply keeps_ret].
  apply keeps_bind; [destruct (f_name f dst)|intros _]; apply keeps_durable; intros s <-; reflexivity.
Qed.
Lemma kd_link D src dst : keeps (fun t => st_db t = D) (link_or_copy E src dst).
Proof.
  unfold link_or_copy. apply keeps_bind; [apply keeps_gets|]. intros f.
  destruct (can_link E f src dst); [apply keeps_durable; intros s <-; reflexivity|apply kd_copy].
Qed.
Lemma wp_on_err {A} (m : M A) h P s : wp m P (fun s' _ => P s') s -> keeps P h -> wp (on_err m h) P (fun s' _ => P s') s.
Proof.
  intros Hm Hh. unfold wp, on_err in *.
  destruct (m s) as [[t1 s1] [a| |]]; auto. destruct Hm as [H1 H2].
  specialize (Hh s1 H2). unfold wp in Hh. simpl in *.
  destruct (h s1) as [[t2 s2] r2]; simpl in *. destruct Hh. split; [apply Forall_app; auto|auto].
Qed.
Lemma g_pool_ref id : keeps grow (pool_ref id).
Proof.
  intros s H. unfold pool_ref, pool_get_or_err, pool_get. apply wp_bind_assoc, wp_bind_gets.
  destruct (mget (d_pool (st_db s)) id) as [p|] eqn:G; [|apply wp_bind, wp_err; exact H].
  apply wp_bind_ret. apply (g_put_kept p); auto; [simpl; rewrite (gw_named _ H _ _ G); exact G|split; reflexivity].
Qed.
Lemma g_pool_add src m d : keeps grow (pool_add_internal E src m d).
Proof.
  intros s H. unfold pool_add_internal, pool_get. apply wp_bind_gets.
  destruct (mget (d_pool (st_db s)) (l_id src)) as [p|] eqn:G.
  { apply (g_put_kept p); auto; [simpl; rewrite (gw_named _ H _ _ G); exact G|split; reflexivity]. }
  apply wp_bind_gets. destruct (file_content (st_fs s) src) as [st|]; [|apply wp_err, H].
  apply wp_bind, wp_lift. destruct (path_component (m_src m)) as [comp| |]; [|exact H|exact H].
  apply wp_bind. eapply wp_mono; [apply (wp_and _ _ _ _ _ _ (g_link src (pool_loc comp (l_id src)) s H) (kd_link (st_db s) src (pool_loc comp (l_id src)) s eq_refl))| |].
  { intros t [A _]. exact A. }
  intros s1 [[]| |] [H1 Ed]; [|exact H1|exact H1]. apply wp_bind_gets.
  destruct (file_content (st_fs s1) src) as [[|]|]; [apply wp_err, H1| |apply wp_err, H1].
  apply wp_on_err; [|apply g_quiet; reflexivity]. apply g_put_new; [exact H1|simpl; congruence].
Qed.
Ltac kg := repeat match goal with
  | |- keeps _ (db_write false _) => apply g_write; exact I
  | |- keeps _ (remove_file _) => apply g_quiet; reflexivity
  | |- keeps _ (link_or_copy _ _ _) => apply g_link
  | |- keeps _ (vol (on_cache _)) => apply keeps_vol; intros ?; apply g_db; reflexivity
  | |- keeps _ (durable _) => apply g_quiet; reflexivity
  | |- keeps _ (root_set _ _ _) => apply g_quiet; reflexivity
  | |- keeps _ (pool_ref _) => apply g_pool_ref
  | |- keeps _ (pool_add_internal _ _ _ _) => apply g_pool_add
  | |- keeps _ (bind _ _) => apply keeps_bind; [|intro]
  | |- keeps _ (ret _) => apply keeps_ret
  | |- keeps _ err => apply keeps_err
  | |- keeps _ panic => apply keeps_panic
  | |- keeps _ (lift _) => apply keeps_lift
  | |- keeps _ (gets _) => apply keeps_gets
  | |- keeps _ (on_err _ _) => apply keeps_on_err
  | |- keeps _ (forM _ _) => apply keeps_forM; intro
  | |- keeps _ (foldM _ _ _) => apply keeps_foldM; intros ? ?
  | |- keeps _ (match ?d with _ => _ end) => destruct d
  end.
Lemma g_pool_add_delta src m a b : keeps grow (pool_add_delta E src m a b).
Proof.
  intros s H. unfold pool_add_delta, pool_get_or_err, pool_get. apply wp_bind_gets.
  destruct (mget (d_pool (st_db s)) (l_id src)) as [p|] eqn:G.
  - apply (g_put_kept p); auto; [simpl; rewrite (gw_named _ H _ _ G); exact G|split; reflexivity].
  - revert s H G. assert (K : keeps grow (pf <- pool_get_or_err a ;; pt <- pool_get_or_err b ;; tr <- lift (get_release (p_meta pt)) ;;
      fr <- lift (get_release (p_meta pf)) ;; pool_add_internal E src m (Some (DInfo fr a tr b)))).
    { unfold pool_get_or_err, pool_get. kg. }
    intros s H G. exact (K s H).
Qed.
Ltac kgu := unfold get_repo, bake_repo, create_repo, add_package, add_local_package, ref_package, ref_delta, add_delta,
  build_sane_entry, open_pkg, pull_assets, clone_from, pull_from, pull_collect, match_source, copy_source_from, init_distribution,
  emit_index, emit_package, push_deltas, asset_part, pool_get_or_err, pool_get, ent_get, ent_list, root_get.
Lemma g_stages r st : Forall (fun y => keeps grow (snd y)) st -> forall done, keeps grow (run_stages r done st).
Proof.
  induction 1 as [|[[k v] m] st Hm _ IH]; intros done; simpl; [apply keeps_ret|].
  apply keeps_bind; [|intros _; apply IH]. apply keeps_on_err; [exact Hm|]. unfold remove_all. kg.
Qed.
Lemma g_index o r : keeps grow (api_index E o r).
Proof.
  unfold api_index, index. kgu. kg.
  - apply g_stages. unfold index_stages, write_sum, compress, root_write. kgu.
    repeat (apply Forall_cons; [cbn [snd]; kgu; kg|]). apply Forall_nil.
  - unfold rename, remove_all. kgu. kg.
  - unfold remove_all. kg.
Qed.
Lemma g_run o p : removes_packages p = false -> (forall r, p <> OpDelete r) -> keeps grow (run_op E o p).
Proof.
  intros Hr Hd. destruct p; cbn [run_op removes_packages] in *; try discriminate; try (exfalso; eapply Hd; reflexivity);
  unfold api_create, api_clone, api_pull, api_copy_source, api_add_packages, api_add_delta, api_ref_delta, mark_delta_failed;
  repeat match goal with
  | |- keeps _ (bind _ _) => apply keeps_bind; [|intro]
  | |- keeps _ (ret _) => apply keeps_ret
  | |- keeps _ (api_index _ _ _) => apply g_index
  | |- keeps _ (if _ then _ else _) => destruct skip_index
  end; kgu; kgu; kg; apply g_pool_add_delta.
Qed.
End Grow.

Section Shrink.
Variable s0 : state.
Definition old_item (q : pentry) : Prop := exists p, mget (d_pool (st_db s0)) (p_name q) = Some p /\ same_item p q.
Record shrink (t : state) : Prop := {
  sh_named : pool_named (st_db t);
  sh_old : forall id q, mget (d_pool (st_db t)) id = Some q -> old_item q;
  sh_batch : Forall (fun o => match o with PutPool q => old_item q | _ => True end) (st_batch t)
}.
Lemma h_db s t : st_db t = st_db s -> st_batch t = st_batch s -> shrink s -> shrink t.
Proof. intros Ed Eb [A B C]. constructor; rewrite ?Ed, ?Eb; assumption. Qed.
Definition dbs (d : db) : Prop := pool_named d /\ forall id q, mget (d_pool d) id = Some q -> old_item q.
Lemma dbs_apply d o : dbs d -> match o with PutPool q => old_item q | _ => True end -> dbs (apply_op d o).
Proof.
  intros [A B] Ho. destruct o; try (split; assumption).
  - split; intros id q; simpl; rewrite mget_put; destruct (seqb_spec id (p_name p)) as [->|]; intros X; try (injection X as <-); auto. eapply B, X.
  - split; intros i q; simpl; rewrite mget_del; destruct (seqb_spec i id) as [->|]; intros X; try discriminate; [apply A, X|eapply B, X].
Qed.
Lemma dbs_fold l : forall d, dbs d -> Forall (fun o => match o with PutPool q => old_item q | _ => True end) l -> dbs (fold_left apply_op l d).
Proof. induction l as [|o l IH]; intros d D F; [exact D|]. inversion F; subst. simpl. apply IH; auto. apply dbs_apply; auto. Qed.
Lemma h_write b o : (match o with PutPool q => old_item q | _ => True end) -> keeps shrink (db_write b o).
Proof.
  intros Ho. unfold db_write. destruct (reserved (op_key o)); [apply keeps_err|]. destruct b.
  - apply keeps_vol. intros s [A B C]. constructor; simpl; auto. apply Forall_app; auto.
  - apply keeps_durable. intros s [A B C]. destruct (dbs_apply (st_db s) o (conj A B) Ho). constructor; auto.
Qed.
Lemma h_tx m : keeps shrink m -> keeps shrink (update_tx m).
Proof.
  intros H s F.
  assert (F0 : shrink (on_batch (fun _ => []) s)) by (destruct F; constructor; simpl; auto).
  specialize (H _ F0). unfold wp, update_tx in *.
  destruct (m (on_batch (fun _ => []) s)) as [[t s1] [a| |]]; cbn [trace_of final_of result_of fst snd] in *; destruct H as [H1 H2].
  - assert (F2 : shrink (St (fold_left apply_op (st_batch s1) (st_db s1)) (st_fs s1) (st_cache s1) [])).
    { destruct H2 as [A B C]. destruct (dbs_fold (st_batch s1) (st_db s1) (conj A B) C) as [D1 D2]. constructor; simpl; auto. }
    split; [apply Forall_app; split; [exact H1|repeat constructor; apply F2]|exact F2].
  - split; [exact H1|]. destruct H2; constructor; simpl; auto.
  - split; [exact H1|]. destruct H2; constructor; simpl; auto.
Qed.
Lemma h_quiet f : (forall s, st_db (f s) = st_db s) -> (forall s, st_batch (f s) = st_batch s) -> keeps shrink (durable f).
Proof. intros H1 H2. apply keeps_durable. intros s. apply h_db; auto. Qed.
Lemma h_pool_unref b id : keeps shrink (pool_unref b id).
Proof.
  intros s H. unfold pool_unref, pool_get_or_err, pool_get. apply wp_bind_assoc, wp_bind_gets.
  destruct (mget (d_pool (st_db s)) id) as [p|] eqn:G; [|apply wp_bind, wp_err; exact H].
  apply wp_bind_ret. destruct (N.ltb 0 (rc_dec (p_rc p))).
  - apply h_write; [|exact H]. destruct (sh_old _ H _ _ G) as (p0 & G0 & S0). exists p0. split; [exact G0|exact S0].
  - revert s H G. enough (K : keeps shrink (comp <- lift (path_component (m_src (p_meta p))) ;; remove_file (pool_loc comp id) ;;; db_write b (DelPool id)))
      by (intros s H _; apply K, H).
    apply keeps_bind; [apply keeps_lift|intro]. apply keeps_bind; [apply h_quiet; reflexivity|intro]. apply h_write. exact I.
Qed.
Ltac kh := repeat match goal with
  | |- keeps _ (db_write _ _) => apply h_write; exact I
  | |- keeps _ (pool_unref _ _) => apply h_pool_unref
  | |- keeps _ (remove_file _) => apply h_quiet; reflexivity
  | |- keeps _ (vol (on_cache _)) => apply keeps_vol; intros ?; apply h_db; reflexivity
  | |- keeps _ (durable _) => apply h_quiet; reflexivity
  | |- keeps _ (root_set _ _ _) => apply h_quiet; reflexivity
  | |- keeps _ (update_tx _) => apply h_tx
  | |- keeps _ (bind _ _) => apply keeps_bind; [|intro]
  | |- keeps _ (ret _) => apply keeps_ret
  | |- keeps _ err => apply keeps_err
  | |- keeps _ panic => apply keeps_panic
  | |- keeps _ (lift _) => apply keeps_lift
  | |- keeps _ (gets _) => apply keeps_gets
  | |- keeps _ (on_err _ _) => apply keeps_on_err
  | |- keeps _ (forM _ _) => apply keeps_forM; intro
  | |- keeps _ (foldM _ _ _) => apply keeps_foldM; intros ? ?
  | |- keeps _ (match ?d with _ => _ end) => destruct d
  end.
Ltac khu := unfold get_repo, bake_repo, delete_repo, remove_source, match_source, unref_package, unref_deltas, unref_avail, remove_internal,
  init_distribution, trim_obsolete, trim_packages,
  emit_index, emit_package, push_deltas, asset_part, pool_get_or_err, pool_get, ent_get, ent_list, root_get.
Lemma h_stages r st : Forall (fun y => keeps shrink (snd y)) st -> forall done, keeps shrink (run_stages r done st).
Proof.
  induction 1 as [|[[k v] m] st Hm _ IH]; intros done; simpl; [apply keeps_ret|].
  apply keeps_bind; [|intros _; apply IH]. apply keeps_on_err; [exact Hm|]. unfold remove_all. kh.
Qed.
Lemma h_index E o r : keeps shrink (api_index E o r).
Proof.
  unfold api_index, index. khu. kh.
  - apply h_stages. unfold index_stages, write_sum, compress, root_write. khu.
    repeat (apply Forall_cons; [cbn [snd]; khu; kh|]). apply Forall_nil.
  - unfold rename, remove_all. khu. kh.
  - unfold remove_all. kh.
Qed.
Lemma h_scan dist n av : keeps shrink (trim_obs_scan dist n av).
Proof. induction av; simpl; khu; kh; auto. Qed.
Lemma h_run E o p : removes_packages p = true \/ (exists r, p = OpDelete r) -> keeps shrink (run_op E o p).
Proof.
  intros Hr. destruct p; cbn [run_op removes_packages] in *; try (destruct Hr as [Hr|(q & Hr)]; discriminate);
  unfold api_delete, api_remove_source, api_trim_obsolete, api_trim_packages;
  repeat match goal with
  | |- keeps _ (bind _ _) => apply keeps_bind; [|intro]
  | |- keeps _ (ret _) => apply keeps_ret
  | |- keeps _ (api_index _ _ _) => apply h_index
  end; khu; khu; kh; apply h_scan.
Qed.
End Shrink.

(** what is in the pool both before and after is the same item *)
Lemma item_kept E o p s id a b : pool_named (st_db s) -> st_batch s = [] ->
  pool_at s id = Some a -> pool_at (after E o p s) id = Some b -> same_item a b.
Proof.
  intros Hn Hb Ga Gb.
  assert (D : (removes_packages p = true \/ (exists r, p = OpDelete r)) \/ (removes_packages p = false /\ forall r, p <> OpDelete r)).
  { destruct p; cbn [removes_packages]; try (right; split; [reflexivity|discriminate]); left; auto; right; eexists; reflexivity. }
  destruct D as [D|[D1 D2]].
  - assert (Z : shrink s s).
    { constructor; auto; [|rewrite Hb; constructor]. intros i q G. exists q. rewrite (Hn _ _ G). split; [exact G|split; reflexivity]. }
    destruct (h_run s E o p D s Z) as [_ [A B _]]. fold (after E o p s) in A, B.
    destruct (B _ _ Gb) as (q & Gq & S). rewrite (A _ _ Gb) in Gq. unfold pool_at in Ga. congruence.
  - assert (Z : grow s s).
    { constructor; auto. intros i q G. exists q. split; [exact G|split; reflexivity]. }
    destruct (g_run E s o p D1 D2 s Z) as [_ [A B]]. fold (after E o p s) in A, B.
    destruct (B _ _ Ga) as (q & Gq & S). unfold pool_at in Gb. congruence.
Qed.
