(** * PropsStale: C80, what an index promised stays true while the package is listed *)
From Verif Require Import Model Spec Demo DemoOk DbInv DbOps Wp FsInv Keep PropsPool PropsIndex PropsOps Sim PropsRestart.
Open Scope string_scope. Open Scope list_scope.

(** ** Specification *)
(** same package: name, metadata (hash, size, path, ...) and delta data *)
Definition same_record (p q : pentry) : Prop := p_name p = p_name q /\ p_meta p = p_meta q /\ p_delta p = p_delta q.
(** the daemon had [id] in its pool all the time while [h2] happened after [h1] *)
Definition kept (E : env) (h1 h2 : list event) (id : string) : Prop :=
  forall a b, h2 = a ++ b -> pool_at (run_history E (h1 ++ a)) id <> None.

(** ** One request *)
(* nothing of [d0] is lost or changed *)
Definition grows (d0 d : db) : Prop := forall id p, mget (d_pool d0) id = Some p -> exists q, mget (d_pool d) id = Some q /\ same_record p q.
(* nothing appears *)
Definition shrinks (d0 d : db) : Prop := forall id q, mget (d_pool d) id = Some q -> exists p, mget (d_pool d0) id = Some p /\ same_record p q.
Lemma same_refl p : same_record p p.
Proof. repeat split. Qed.
Lemma same_trans p q r : same_record p q -> same_record q r -> same_record p r.
Proof. unfold same_record. intuition congruence. Qed.
Lemma same_rc p n : same_record p (set_rc p n).
Proof. destruct p; repeat split. Qed.
Definition no_pool (o : dbop) : Prop := match o with PutPool _ | DelPool _ => False | _ => True end.

Section Pass.
Variable E : env.
Variable P : state -> Prop.
Hypothesis H_write : forall b o, no_pool o -> keeps P (db_write b o).
Hypothesis H_fs : forall g, keeps P (durable (on_fs g)).
Hypothesis H_cache : forall g, keeps P (vol (on_cache g)).
Ltac ip := repeat match goal with
  | |- keeps _ (db_write _ _) => apply H_write; exact I
  | |- keeps _ (durable (on_fs _)) => apply H_fs
  | |- keeps _ (vol (on_cache _)) => apply H_cache
  | |- keeps _ (bind _ _) => apply keeps_bind; [|intro]
  | |- keeps _ (ret _) => apply keeps_ret
  | |- keeps _ err => apply keeps_err
  | |- keeps _ panic => apply keeps_panic
  | |- keeps _ (lift _) => apply keeps_lift
  | |- keeps _ (gets _) => apply keeps_gets
  | |- keeps _ (on_err _ _) => apply keeps_on_err
  | |- keeps _ (forM _ _) => apply keeps_forM; intro
  | |- keeps _ (foldM _ _ _) => apply keeps_foldM; intros ? ?
  | |- keeps _ (match ?d with _ => _ end) => destruct d
  end.
Ltac iu := unfold pool_get_or_err, ent_get, ent_list, pool_get, root_get, root_set, remove_file in *; ip.
Lemma i_link src dst : keeps P (link_or_copy E src dst).
Proof. unfold link_or_copy, copy_file. iu. Qed.
Lemma i_get_repo r : keeps P (get_repo r).
Proof. unfold get_repo, bake_repo. iu. Qed.
Lemma i_create r : keeps P (create_repo r).
Proof. unfold create_repo, bake_repo. iu; apply i_get_repo. Qed.
Lemma i_sane r m id : keeps P (build_sane_entry r m id).
Proof. unfold build_sane_entry. iu. Qed.
Lemma i_assets r src : keeps P (pull_assets r src).
Proof. unfold pull_assets. iu. Qed.
Lemma i_match rr source rl : keeps P (match_source rr source rl).
Proof. unfold match_source. iu. Qed.
Lemma i_init r : keeps P (init_distribution E r).
Proof. unfold init_distribution. iu. Qed.
Lemma i_scan dist n av : keeps P (trim_obs_scan dist n av).
Proof. induction av; simpl; iu; auto. Qed.
Lemma i_emit r dist : keeps P (emit_index E r dist).
Proof. unfold emit_index, emit_package, push_deltas, asset_part. iu. Qed.
Lemma i_stages r st : Forall (fun y => keeps P (snd y)) st -> forall done, keeps P (run_stages r done st).
Proof.
  induction 1 as [|[[k v] m] st Hm _ IH]; intros done; simpl; [apply keeps_ret|].
  apply keeps_bind; [|intros _; apply IH]. apply keeps_on_err; [exact Hm|]. unfold remove_all. iu.
Qed.
Lemma i_index o r : keeps P (api_index E o r).
Proof.
  unfold api_index, index. apply keeps_bind; [apply i_get_repo|intros _]. apply keeps_bind; [apply i_init|]. intros dist.
  apply keeps_bind.
  - apply i_stages. unfold index_stages, write_sum, compress, root_write.
    repeat (apply Forall_cons; [cbn [snd]; iu; try apply i_emit|]). apply Forall_nil.
  - intros mp. unfold remove_all, rename. iu.
Qed.
Lemma i_mark id d : keeps P (mark_delta_failed id d).
Proof. unfold mark_delta_failed. iu. Qed.

(** requests that add *)
Section Add.
Hypothesis H_add : forall src m d, keeps P (pool_add_internal E src m d).
Hypothesis H_ref : forall id, keeps P (pool_ref id).
Hypothesis H_add_delta : forall src m a b, keeps P (pool_add_delta E src m a b).
Lemma i_add_local r src m : keeps P (add_local_package E r src m).
Proof. unfold add_local_package. iu; first [apply i_sane|apply H_add|apply i_link]. Qed.
Lemma i_add_package r src st : keeps P (add_package E r src st).
Proof. unfold add_package, open_pkg. iu; apply i_add_local. Qed.
Lemma i_ref_package r id : keeps P (ref_package E r id).
Proof. unfold ref_package. iu; first [apply H_ref|apply i_sane|apply i_link]. Qed.
Lemma i_ref_delta r id : keeps P (ref_delta E r id).
Proof. unfold ref_delta. iu; first [apply H_ref|apply i_link]. Qed.
Lemma i_add_delta r src a b : keeps P (add_delta E r src a b).
Proof. unfold add_delta, open_pkg. iu; first [apply H_add_delta|apply i_link]. Qed.
Lemma i_clone_from r src full : keeps P (clone_from E r src full).
Proof. unfold clone_from. iu; first [apply i_assets | apply i_ref_package | apply i_ref_delta]. Qed.
Lemma i_pull_from r src : keeps P (pull_from E r src).
Proof. unfold pull_from, pull_collect. iu; first [apply i_assets | apply i_ref_package]. Qed.
Lemma i_copy_source r src source rl : keeps P (copy_source_from E r src source rl).
Proof. unfold copy_source_from. iu; first [apply i_match | apply i_ref_package]. Qed.
Definition adding (p : op) : bool :=
  match p with OpDelete _ | OpRemoveSource _ _ _ | OpTrimObsolete _ | OpTrimPackages _ _ => false | _ => true end.
Lemma i_run_add o p : adding p = true -> keeps P (run_op E o p).
Proof.
  intros A. destruct p; try discriminate A; cbn [run_op];
  unfold api_create, api_clone, api_pull, api_copy_source, api_add_packages, api_add_delta, api_ref_delta;
  ip; first [ apply i_get_repo | apply i_index | apply i_create | apply i_clone_from | apply i_pull_from
    | apply i_copy_source | apply i_add_delta | apply i_ref_delta | apply i_mark | apply i_add_package ].
Qed.
End Add.
(** requests that remove *)
Section Del.
Hypothesis H_unref : forall b id, keeps P (pool_unref b id).
Hypothesis H_tx : forall m, keeps P m -> keeps P (update_tx m).
Lemma i_remove_internal b r id : keeps P (remove_internal b r id).
Proof. unfold remove_internal. iu; apply H_unref. Qed.
Lemma i_unref r id : keeps P (unref_package r id).
Proof. unfold unref_package, unref_deltas, unref_avail. iu; apply i_remove_internal. Qed.
Lemma i_remove_source r source rl : keeps P (remove_source r source rl).
Proof. unfold remove_source. iu; first [apply i_match | apply i_unref]. Qed.
Lemma i_trim_obs r : keeps P (trim_obsolete E r).
Proof. unfold trim_obsolete. iu; first [apply i_init | apply i_scan | apply i_unref]. Qed.
Lemma i_trim_packages o r k : keeps P (trim_packages o r k).
Proof. unfold trim_packages. iu; apply i_unref. Qed.
Lemma i_delete r : keeps P (delete_repo r).
Proof. unfold delete_repo. iu; try apply i_get_repo. apply H_tx. iu; apply i_remove_internal. Qed.
Lemma i_run_del o p : adding p = false -> keeps P (run_op E o p).
Proof.
  intros A. destruct p; try discriminate A; cbn [run_op];
  unfold api_delete, api_remove_source, api_trim_obsolete, api_trim_packages;
  ip; first [ apply i_get_repo | apply i_index | apply i_delete | apply i_remove_source | apply i_trim_obs | apply i_trim_packages ].
Qed.
End Del.
End Pass.

Definition named (d : db) : Prop := forall id p, mget (d_pool d) id = Some p -> p_name p = id.
Definition PA (d0 : db) (s : state) : Prop := named (st_db s) /\ grows d0 (st_db s).
Definition known (d0 : db) (o : dbop) : Prop :=
  match o with PutPool q => exists p, mget (d_pool d0) (p_name q) = Some p /\ same_record p q | _ => True end.
Definition PD (d0 : db) (s : state) : Prop := named (st_db s) /\ shrinks d0 (st_db s) /\ Forall (known d0) (st_batch s).

Lemma pool_other d o : no_pool o -> d_pool (apply_op d o) = d_pool d.
Proof. destruct o; cbn; tauto || reflexivity. Qed.
Lemma named_put d q : named d -> named (apply_op d (PutPool q)).
Proof. intros N id p. cbn [apply_op d_pool st_db on_db]. rewrite mget_put. destruct (seqb_spec id (p_name q)) as [->|]; [intros [= <-]; reflexivity|apply N]. Qed.
Lemma named_op d o : named d -> named (apply_op d o).
Proof.
  intros N. destruct o; try exact N; [apply named_put, N|]. intros x p. cbn [apply_op d_pool st_db on_db]. rewrite mget_del. destruct (seqb x id); [discriminate|apply N].
Qed.
Lemma PA_put d0 s q : PA d0 s -> (forall p, mget (d_pool (st_db s)) (p_name q) = Some p -> same_record p q) -> PA d0 (on_db (fun d => apply_op d (PutPool q)) s).
Proof.
  intros [N G] K. split; [apply named_put, N|]. intros id p H. destruct (G id p H) as (p' & G' & S). cbn [apply_op d_pool st_db on_db]. rewrite mget_put.
  destruct (seqb_spec id (p_name q)) as [->|]; [|exists p'; auto]. exists q. split; [reflexivity|]. eapply same_trans; [exact S|]. apply K, G'.
Qed.
Lemma keeps_db_write (P : state -> Prop) (b : bool) o : (forall s, P s -> P (on_db (fun d => apply_op d o) s)) -> (forall s, P s -> P (on_batch (fun q => q ++ [o]) s)) -> keeps P (db_write b o).
Proof.
  intros A B s H. unfold db_write. destruct (reserved (op_key o)); [apply wp_err, H|]. destruct b; [apply wp_vol; auto|apply wp_durable; auto].
Qed.
Lemma PA_write d0 b o : no_pool o -> keeps (PA d0) (db_write b o).
Proof.
  intros O. apply keeps_db_write; intros s [N G]; [|split; assumption].
  split; [apply named_op, N|]. intros id p H. cbn. rewrite (pool_other _ _ O). apply G, H.
Qed.
Lemma PD_write d0 b o : no_pool o -> keeps (PD d0) (db_write b o).
Proof.
  intros O. apply keeps_db_write; intros s (N & G & F).
  - split; [apply named_op, N|]. split; [|exact F]. intros id p H. cbn in H. rewrite (pool_other _ _ O) in H. apply G, H.
  - split; [exact N|]. split; [exact G|]. cbn. apply Forall_app. split; [exact F|]. constructor; [destruct o; cbn in *; tauto|constructor].
Qed.
Lemma keeps_P_fs d0 g : keeps (PA d0) (durable (on_fs g)) /\ keeps (PD d0) (durable (on_fs g)).
Proof. split; apply keeps_durable; intros s H; exact H. Qed.
Lemma keeps_P_cache d0 g : keeps (PA d0) (vol (on_cache g)) /\ keeps (PD d0) (vol (on_cache g)).
Proof. split; apply keeps_vol; intros s H; exact H. Qed.

Section Prims.
Variable E : env.
Variable d0 : db.
Lemma PA_put_wp s q : PA d0 s -> (forall p, mget (d_pool (st_db s)) (p_name q) = Some p -> same_record p q) ->
  wp (db_write false (PutPool q)) (PA d0) (fun s' _ => PA d0 s') s.
Proof.
  intros H K. unfold db_write. destruct (reserved (op_key (PutPool q))); [apply wp_err, H|]. apply wp_durable; apply PA_put; assumption.
Qed.
Lemma put_rc_wp s id p n : PA d0 s -> mget (d_pool (st_db s)) id = Some p -> wp (db_write false (PutPool (set_rc p n))) (PA d0) (fun s' _ => PA d0 s') s.
Proof.
  intros H G. apply PA_put_wp; [exact H|]. cbn. rewrite (proj1 H _ _ G), G. intros p' [= <-]. apply same_rc.
Qed.
Lemma PA_ref id : keeps (PA d0) (pool_ref id).
Proof.
  intros s H. unfold pool_ref, pool_get_or_err, pool_get. apply wp_bind_assoc, wp_bind_gets.
  destruct (mget (d_pool (st_db s)) id) as [p|] eqn:G.
  - apply wp_bind_ret. exact (put_rc_wp s id p _ H G).
  - apply wp_bind. apply wp_err, H.
Qed.
Lemma PA_add src m dl : keeps (PA d0) (pool_add_internal E src m dl).
Proof.
  intros s H. unfold pool_add_internal, pool_get. apply wp_bind_gets.
  destruct (mget (d_pool (st_db s)) (l_id src)) as [p|] eqn:G; [exact (put_rc_wp s _ p _ H G)|].
  apply wp_bind_gets. destruct (file_content (st_fs s) src) as [c0|]; [|apply wp_err, H].
  apply wp_bind, wp_lift. destruct (path_component (m_src m)) as [comp| |]; [|exact H|exact H].
  set (Q := fun s => PA d0 s /\ mget (d_pool (st_db s)) (l_id src) = None).
  assert (L : keeps Q (link_or_copy E src (pool_loc comp (l_id src)))).
  { apply i_link. intros g. apply keeps_durable. intros x Hx. exact Hx. }
  apply wp_bind. eapply wp_mono; [exact (L s (conj H G))|intros x [Hx _]; exact Hx|].
  intros s1 r [H1 G1]. destruct r; [|exact H1|exact H1].
  apply wp_bind_gets. destruct (file_content (st_fs s1) src) as [[|c cs]|]; try (apply wp_err, H1).
  assert (W : wp (db_write false (PutPool (PEntry (l_id src) 1 (set_index_bits m comp (l_id src) (E_sha1 E (String c cs)) (N.of_nat (String.length c0))) dl))) (PA d0) (fun s' _ => PA d0 s') s1).
  { apply PA_put_wp; [exact H1|]. cbn. rewrite G1. discriminate. }
  unfold wp, on_err in *. destruct (db_write false _ s1) as [[t u] [[]| |]]; try exact W. cbn in *. destruct W as [W1 W2].
  split; [apply Forall_app; split; [exact W1|constructor; [exact W2|constructor]]|exact W2].
Qed.
Lemma PA_add_delta src m a b : keeps (PA d0) (pool_add_delta E src m a b).
Proof.
  intros s H. unfold pool_add_delta, pool_get. apply wp_bind_gets.
  destruct (mget (d_pool (st_db s)) (l_id src)) as [p|] eqn:G; [exact (put_rc_wp s _ p _ H G)|].
  revert s H G. intros s H _. revert s H.
  change (keeps (PA d0) (pf <- pool_get_or_err a;; pt <- pool_get_or_err b;; tr <- lift (get_release (p_meta pt));; fr <- lift (get_release (p_meta pf));; pool_add_internal E src m (Some (DInfo fr a tr b)))).
  unfold pool_get_or_err, pool_get.
  repeat match goal with
  | |- keeps _ (pool_add_internal _ _ _ _) => apply PA_add
  | |- keeps _ (bind _ _) => apply keeps_bind; [|intro]
  | |- keeps _ (ret _) => apply keeps_ret
  | |- keeps _ err => apply keeps_err
  | |- keeps _ (lift _) => apply keeps_lift
  | |- keeps _ (gets _) => apply keeps_gets
  | |- keeps _ (match ?d with _ => _ end) => destruct d
  end.
Qed.
Lemma PD_unref b id : keeps (PD d0) (pool_unref b id).
Proof.
  intros s H. unfold pool_unref, pool_get_or_err, pool_get. apply wp_bind_assoc, wp_bind_gets.
  destruct (mget (d_pool (st_db s)) id) as [p|] eqn:G; [apply wp_bind_ret|apply wp_bind, wp_err, H].
  destruct (N.ltb 0 (rc_dec (p_rc p))).
  - unfold db_write. destruct (reserved _); [apply wp_err, H|]. destruct H as (N & S & F).
    pose proof (N _ _ G) as Np. destruct (S _ _ G) as (p0 & G0 & S0). destruct b.
    + apply wp_vol. split; [exact N|]. split; [exact S|]. cbn. apply Forall_app. split; [exact F|]. constructor; [|constructor].
      exists p0. cbn. rewrite Np. split; [exact G0|]. eapply same_trans; [exact S0|apply same_rc].
    + assert (X : PD d0 (on_db (fun d => apply_op d (PutPool (set_rc p (rc_dec (p_rc p))))) s)).
      { split; [apply named_put, N|]. split; [|exact F]. intros x q. cbn [apply_op d_pool st_db on_db p_name set_rc]. rewrite mget_put, Np. destruct (seqb_spec x id) as [->|]; [|apply S].
        intros [= <-]. exists p0. split; [exact G0|]. eapply same_trans; [exact S0|apply same_rc]. }
      apply wp_durable; exact X.
  - apply wp_bind, wp_lift. destruct (path_component (m_src (p_meta p))); [|exact H|exact H].
    apply wp_bind. unfold remove_file. apply wp_durable; [exact H|]. revert H. clear. intros H.
    apply (keeps_db_write (PD d0)); [| |exact H].
    + intros x (N & S & F). split; [apply named_op, N|]. split; [|exact F]. intros y q. cbn [apply_op d_pool st_db on_db]. rewrite mget_del. destruct (seqb y id); [discriminate|apply S].
    + intros x (N & S & F). split; [exact N|]. split; [exact S|]. cbn. apply Forall_app. split; [exact F|]. constructor; [exact I|constructor].
Qed.
Lemma PD_fold l : Forall (known d0) l -> forall d, named d /\ shrinks d0 d -> named (fold_left apply_op l d) /\ shrinks d0 (fold_left apply_op l d).
Proof.
  induction 1 as [|o l K _ IH]; intros d [N S]; cbn; [auto|]. apply IH. split; [apply named_op, N|].
  destruct o; try exact S.
  - intros x q. cbn [apply_op d_pool st_db on_db]. rewrite mget_put. destruct (seqb_spec x (p_name p)) as [->|]; [intros [= <-]; exact K|apply S].
  - intros x q. cbn [apply_op d_pool st_db on_db]. rewrite mget_del. destruct (seqb x id); [discriminate|apply S].
Qed.
Lemma PD_tx m : keeps (PD d0) m -> keeps (PD d0) (update_tx m).
Proof.
  intros Hm s (N & S & F). unfold wp, update_tx. 
  assert (H0 : PD d0 (on_batch (fun _ => []) s)) by (split; [exact N|split; [exact S|constructor]]).
  specialize (Hm _ H0). unfold wp, trace_of, final_of, result_of in *. destruct (m (on_batch (fun _ => []) s)) as [[t u] [a| |]]; cbn in *; destruct Hm as [H1 (N1 & S1 & F1)].
  - destruct (PD_fold _ F1 (st_db u) (conj N1 S1)) as [N2 S2].
    assert (X : PD d0 (St (fold_left apply_op (st_batch u) (st_db u)) (st_fs u) (st_cache u) [])) by (split; [exact N2|split; [exact S2|constructor]]).
    split; [apply Forall_app; split; [exact H1|constructor; [exact X|constructor]]|exact X].
  - split; [exact H1|]. split; [exact N1|split; [exact S1|constructor]].
  - split; [exact H1|]. split; [exact N1|split; [exact S1|constructor]].
Qed.
End Prims.

(** ** Histories *)
Definition agree (d0 d : db) : Prop := forall id p q, mget (d_pool d0) id = Some p -> mget (d_pool d) id = Some q -> same_record p q.
Lemma agree_grows d0 d : grows d0 d -> agree d0 d.
Proof. intros G id p q H H'. destruct (G id p H) as (q' & X & S). congruence. Qed.
Lemma agree_shrinks d0 d : shrinks d0 d -> agree d0 d.
Proof. intros G id p q H H'. destruct (G id q H') as (q' & X & S). congruence. Qed.
Lemma keeps_all {A} (P : state -> Prop) (m : M A) s : keeps P m -> P s -> Forall P (trace_of (m s)) /\ P (final_of (m s)).
Proof. intros K H. exact (K s H). Qed.
Lemma run_op_agree E o p s : named (st_db s) -> st_batch s = [] ->
  Forall (fun x => named (st_db x) /\ agree (st_db s) (st_db x)) (trace_of (run_op E o p s)) /\
  named (st_db (final_of (run_op E o p s))) /\ agree (st_db s) (st_db (final_of (run_op E o p s))).
Proof.
  intros N B. destruct (adding p) eqn:A.
  - assert (K : keeps (PA (st_db s)) (run_op E o p)).
    { apply i_run_add; auto; try (intros; apply keeps_P_fs); try (intros; apply keeps_P_cache); intros;
        first [apply PA_write; assumption|apply PA_add|apply PA_ref|apply PA_add_delta]. }
    destruct (keeps_all _ _ s K) as [F L]; [split; [exact N|intros id q H; exists q; split; [exact H|apply same_refl]]|].
    split; [|split; [apply L|apply agree_grows, L]]. eapply Forall_impl; [|exact F]. intros x [a b]. split; [exact a|apply agree_grows, b].
  - assert (K : keeps (PD (st_db s)) (run_op E o p)).
    { apply i_run_del; auto; try (intros; apply keeps_P_fs); try (intros; apply keeps_P_cache); intros;
        first [apply PD_write; assumption|apply PD_unref|apply PD_tx; assumption]. }
    destruct (keeps_all _ _ s K) as [F L].
    { split; [exact N|]. split; [intros id q H; exists q; split; [exact H|apply same_refl]|rewrite B; constructor]. }
    split; [|split; [apply L|apply agree_shrinks; apply L]]. eapply Forall_impl; [|exact F]. intros x (a & b & _). split; [exact a|apply agree_shrinks, b].
Qed.
Lemma agree_refl d : agree d d.
Proof. intros id p q H H'. replace q with p by congruence. apply same_refl. Qed.
Lemma step_agree E e s : named (st_db s) -> st_batch s = [] -> named (st_db (ev_step E s e)) /\ agree (st_db s) (st_db (ev_step E s e)).
Proof.
  intros N B. destruct e as [o p|o p n| |l c|l|r a c|r]; cbn [ev_step].
  - destruct (run_op_agree E o p s N B) as (_ & L). destruct (result_of (run_op E o p s)); exact L.
  - destruct (run_op_agree E o p s N B) as (F & L). cbn [restart st_db].
    destruct (nth_in_or_default n (s :: trace_of (run_op E o p s)) (final_of (run_op E o p s))) as [Hin|Hd]; [|rewrite Hd; exact L].
    destruct Hin as [<-|Hin]; [split; [exact N|apply agree_refl]|]. rewrite Forall_forall in F. exact (F _ Hin).
  - split; [exact N|apply agree_refl].
  - destruct (l_tree l); (split; [exact N|apply agree_refl]).
  - destruct (l_tree l); (split; [exact N|apply agree_refl]).
  - split; [exact N|apply agree_refl].
  - split; [exact N|apply agree_refl].
Qed.
Lemma run_batch E h : st_batch (run_history E h) = [].
Proof. destruct (run_strip E h) as (_ & _ & (_ & B) & _). exact (B eq_refl). Qed.
Lemma run_snoc E h e : run_history E (h ++ [e]) = ev_step E (run_history E h) e.
Proof. unfold run_history. rewrite fold_left_app. reflexivity. Qed.
Lemma run_named E h : named (st_db (run_history E h)).
Proof.
  induction h as [|e h IH] using rev_ind; [intros id p H; cbn in H; discriminate|]. rewrite run_snoc. apply step_agree; [exact IH|apply run_batch].
Qed.

(** C80. As long as a package stays in the pool its record - metadata, hash,
    size, path - does not change, whatever requests, crashes and uploads of other
    files under the same name happen in between. *)
Theorem C80_records_never_change :
  forall E h1 h2 id p q, kept E h1 h2 id ->
    pool_at (run_history E h1) id = Some p -> pool_at (run_history E (h1 ++ h2)) id = Some q -> same_record p q.
Proof.
  intros E h1 h2 id p. induction h2 as [|e h2 IH] using rev_ind; intros q K Hp Hq.
  - rewrite app_nil_r in Hq. replace q with p by congruence. apply same_refl.
  - assert (K' : kept E h1 h2 id) by (intros a b ->; apply (K a (b ++ [e])); rewrite app_assoc; reflexivity).
    rewrite app_assoc, run_snoc in Hq.
    destruct (pool_at (run_history E (h1 ++ h2)) id) as [p'|] eqn:G; [|exfalso; exact (K' h2 [] (eq_sym (app_nil_r _)) G)].
    eapply same_trans; [exact (IH p' K' Hp eq_refl)|].
    destruct (step_agree E e (run_history E (h1 ++ h2)) (run_named E _) (run_batch E _)) as [_ A]. exact (A id p' q G Hq).
Qed.
Print Assumptions C80_records_never_change.

(** C80 for a client: it took [m] from an index of repository [r]; later it
    downloads the file named there. If the repository still lists the package
    and the pool held it all the time, the file is there and matches [m]. *)
Theorem C80_old_index_stays_usable :
  forall E cat h1 h2 r d m,
    good_catalog cat -> good_env E -> good_history E cat (h1 ++ h2) -> crash_free (h1 ++ h2) ->
    describes E (run_history E h1) r d -> In m (doc_pkgs d) ->
    exists id, published (run_history E h1) r (m_name m) = Some id /\
      (kept E h1 h2 id -> available (run_history E (h1 ++ h2)) r id ->
       exists comp c, m_uri m = (comp ++ "/" ++ id)%string /\ repo_file (run_history E (h1 ++ h2)) r comp id = Some c /\
         m_hash m = E_sha1 E c /\ m_size m = N.of_nat (String.length c)).
Proof.
  intros E cat h1 h2 r d m Hc HE G Cf Ds Hm.
  destruct (ds_pkgs _ _ _ _ Ds) as (ns & _ & _ & F2).
  assert (X : exists n, is_record (run_history E h1) r n m).
  { clear -F2 Hm. induction F2 as [|n m0 ns l H _ IH]; [destruct Hm|]. destruct Hm as [<-|Hm]; [exists n; exact H|exact (IH Hm)]. }
  destruct X as (n & id & p & Hpub & Hp & Em).
  assert (R1 : reachable E cat (run_history E h1)) by (exists h1; split; [apply Forall_app in G as [G _]; exact G|reflexivity]).
  assert (Nm : m_name m = n).
  { unfold published in Hpub. destruct (entry_at (run_history E h1) r n) as [e|] eqn:Ee; [|discriminate]. injection Hpub as Hpub.
    pose proof (C04_entries_well_formed E cat _ r n e Hc HE R1 Ee) as W.
    destruct (wf_pool _ _ _ _ W id) as (p' & Hp' & Hn); [rewrite <- Hpub; apply W|].
    assert (p' = p) by congruence. subst p'. apply (f_equal m_name) in Em. destruct m, (p_meta p); cbn in *; congruence. }
  exists id. split; [rewrite Nm; exact Hpub|]. intros K Av.
  assert (R2 : reachable_completed E cat (run_history E (h1 ++ h2))) by (exists (h1 ++ h2); auto).
  destruct (C05_listed_is_served E cat _ r id Hc HE R2 Av) as (q & comp & c & Hq & Uq & Fq & Sq & Zq).
  destruct (C80_records_never_change E h1 h2 id p q K Hp Hq) as (_ & Mq & _).
  rewrite <- Mq in Uq, Sq, Zq. exists comp, c. 
  assert (Y : m_uri m = m_uri (p_meta p) /\ m_hash m = m_hash (p_meta p) /\ m_size m = m_size (p_meta p)).
  { clear -Em. destruct m, (p_meta p); cbn in *. injection Em; intros; repeat split; congruence. }
  destruct Y as (-> & -> & ->). auto.
Qed.
Print Assumptions C80_old_index_stays_usable.

(** The same in terms of the repository alone: it listed the package all the time. *)
Definition kept_listed (E : env) (h1 h2 : list event) (r id : string) : Prop :=
  forall a b, h2 = a ++ b -> available (run_history E (h1 ++ a)) r id.
Theorem C80_usable_while_listed :
  forall E cat h1 h2 r d m,
    good_catalog cat -> good_env E -> good_history E cat (h1 ++ h2) -> crash_free (h1 ++ h2) ->
    describes E (run_history E h1) r d -> In m (doc_pkgs d) ->
    exists id, published (run_history E h1) r (m_name m) = Some id /\
      (kept_listed E h1 h2 r id ->
       exists comp c, m_uri m = (comp ++ "/" ++ id)%string /\ repo_file (run_history E (h1 ++ h2)) r comp id = Some c /\
         m_hash m = E_sha1 E c /\ m_size m = N.of_nat (String.length c)).
Proof.
  intros E cat h1 h2 r d m Hc HE G Cf Ds Hm.
  destruct (C80_old_index_stays_usable E cat h1 h2 r d m Hc HE G Cf Ds Hm) as (id & P & K). exists id. split; [exact P|].
  intros L. apply K.
  - intros a b Eh. destruct (L a b Eh) as (n & e & He & Hin).
    assert (Ra : reachable E cat (run_history E (h1 ++ a))).
    { exists (h1 ++ a). split; [|reflexivity]. subst h2. rewrite app_assoc in G. apply Forall_app in G as [G _]. exact G. }
    destruct (wf_pool _ _ _ _ (C04_entries_well_formed E cat _ r n e Hc HE Ra He) id Hin) as (p & Hp & _). congruence.
  - apply (L h2 []). rewrite app_nil_r. reflexivity.
Qed.
Print Assumptions C80_usable_while_listed.

(** a concrete case: an index of stable is taken; then the uploaded file of that
    package is overwritten, a newer release is added and pulled into stable, and
    unstable is deleted. The old release is still there and still as promised. *)
Definition h_later : list event :=
  [ EvPut (ext "nano-2.eopkg") "other"; EvPut (ext "nano-3.eopkg") "nano3";
    EvOp demo_oracle (OpAdd "unstable" [ext "nano-3.eopkg"] false);
    EvOp demo_oracle (OpPull "unstable" "stable"); EvOp demo_oracle (OpDelete "unstable"); EvRestart ].
Theorem C80_demo :
  let E := demo_env true in
  good_history E demo_cat (h_two ++ h_later) /\ crash_free (h_two ++ h_later) /\
  (exists d, describes E (run_history E h_two) "stable" d) /\
  published (run_history E h_two) "stable" "nano" = Some "nano-2.eopkg" /\
  published (run_history E (h_two ++ h_later)) "stable" "nano" = Some "nano-3.eopkg" /\
  kept E h_two h_later "nano-2.eopkg" /\
  available (run_history E (h_two ++ h_later)) "stable" "nano-2.eopkg".
Proof.
  intros E. split; [unfold good_history, h_two, h_later; simpl app; demo_hist|].
  split; [unfold crash_free, h_two, h_later; repeat constructor|].
  split.
  { set (h0 := removelast h_two). assert (R : reachable E demo_cat (run_history E h0)).
    { exists h0. split; [|reflexivity]. unfold h0, h_two, good_history. cbn [removelast]. demo_hist. }
    assert (Su : succeeds E demo_oracle (OpClone "unstable" "stable" true) (run_history E h0)) by (eexists; vm_compute; reflexivity).
    destruct (C06_index_is_current_after_requests E demo_cat (run_history E h0) demo_oracle (OpClone "unstable" "stable" true) "stable"
      demo_cat_good (demo_env_good true) R demo_oracle_good I eq_refl Su) as (d & Ds & _).
    exists d. replace (run_history E h_two) with (after E demo_oracle (OpClone "unstable" "stable" true) (run_history E h0)); [exact Ds|].
    change h_two with (h0 ++ [EvOp demo_oracle (OpClone "unstable" "stable" true)]). rewrite run_snoc. clear Ds d R. destruct Su as (l & Su).
    generalize dependent (run_history E h0). intros s Su. cbn [ev_step]. unfold after, outcome in *. rewrite Su. reflexivity. }
  split; [vm_compute; reflexivity|]. split; [vm_compute; reflexivity|].
  split.
  - intros a b H. unfold h_later in H.
    do 6 (destruct a as [|e a]; [vm_compute; discriminate|injection H as <- H]).
    destruct a; [vm_compute; discriminate|discriminate].
  - exists "nano". eexists. split; [vm_compute; reflexivity|]. vm_compute. tauto.
Qed.
