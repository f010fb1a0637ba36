(** * DeleteOps: DeleteRepo (proof artifact) *)
From Verif Require Import Model Spec DbInv DbOps Wp FsInv Ops UnrefOps RepoOps.

Section Ops.
Variable E : env.
Variable cat : string -> meta.
Hypothesis Hcat : good_catalog cat.
Hypothesis HE : good_env E.

Notation Inv := (Inv E cat).
Notation Cinv := (Cinv E cat).
Notation FX := (FX E cat).
Notation FZ := (FZ cat).

Definition ids_of (e : entry) : list string := e_avail e ++ e_deltas e.

Lemma nodup_app {X} (l1 l2 : list X) : NoDup (l1 ++ l2) -> NoDup l1 /\ NoDup l2.
Proof.
  induction l1 as [|x l1 IH]; simpl; intros H; [split; [constructor|exact H]|].
  inversion H as [|? ? Hx Hn]; subst. destruct (IH Hn) as [A B]. split; [|exact B].
  constructor; [|exact A]. intros Hin. apply Hx, in_or_app; auto.
Qed.

(** ** the batch computed from stale reads does what sequential updates would *)
Lemma batch_ids d0 ids : forall d,
  db_ok cat d -> NoDup ids -> (forall x, In x ids -> mget (d_pool d) x = mget (d_pool d0) x) ->
  fold_left apply_op (flat_map (unref_ops d0) ids) d = unrefs ids d.
Proof.
  induction ids as [|x ids IH]; intros d H ND Hx; simpl; [reflexivity|].
  inversion ND as [|? ? Nx ND']; subst. rewrite fold_left_app.
  assert (Eu : unref_ops d0 x = unref_ops d x) by (unfold unref_ops; rewrite (Hx x (or_introl eq_refl)); reflexivity).
  rewrite Eu, unref_ops_eq. apply IH; auto.
  - apply ok_unref, H.
  - intros y Hy. rewrite (unref_pool_ne cat); [apply Hx; right; exact Hy|congruence|exact H].
Qed.

Definition entry_ops (d0 : db) (r : string) (e : entry) : list dbop :=
  flat_map (unref_ops d0) (ids_of e) ++ [DelEnt r (e_name e)].

Lemma batch_entries d0 r es : forall d,
  db_ok cat d -> NoDup (flat_map ids_of es) ->
  (forall x, In x (flat_map ids_of es) -> mget (d_pool d) x = mget (d_pool d0) x) ->
  fold_left apply_op (flat_map (entry_ops d0 r) es) d = fold_left (db_del_entry r) es d.
Proof.
  induction es as [|e es IH]; intros d H ND Hx; simpl; [reflexivity|].
  simpl in ND, Hx. unfold entry_ops at 1. rewrite !fold_left_app. simpl fold_left at 2.
  assert (ND1 : NoDup (ids_of e)) by apply (nodup_app _ _ ND).
  assert (ND2 : NoDup (flat_map ids_of es)) by apply (nodup_app _ _ ND).
  rewrite (batch_ids d0 (ids_of e) d H ND1); [|intros x Hin; apply Hx, in_or_app; auto].
  change (apply_op (unrefs (ids_of e) d) (DelEnt r (e_name e))) with (db_del_entry r d e).
  apply IH; auto.
  - apply ok_delent, ok_unrefs, H.
  - intros x Hin. change (d_pool (db_del_entry r d e)) with (d_pool (unrefs (ids_of e) d)).
    rewrite (unrefs_pool_ne cat); [apply Hx, in_or_app; auto| |exact H].
    intros Hin'. clear -ND Hin Hin'. induction (ids_of e) as [|y l IHl]; [destruct Hin'|].
    simpl in ND. inversion ND; subst. destruct Hin' as [->|Hin']; [|auto].
    apply H1, in_or_app; auto.
Qed.

Lemma ids_nodup n e : entry_ok cat n e -> NoDup (ids_of e).
Proof.
  intros He. unfold ids_of.
  assert (forall x, In x (e_avail e) -> ~ In x (e_deltas e)) as Hdis.
  { intros x Hx Hx'. destruct (eo_avail _ _ _ He _ Hx) as (_ & A & _).
    destruct (eo_deltas _ _ _ He _ Hx') as (_ & B). congruence. }
  pose proof (slt_sorted_nodup _ (eo_sorted _ _ _ He)) as N1.
  pose proof (slt_sorted_nodup _ (eo_dsorted _ _ _ He)) as N2.
  revert N1 Hdis. generalize (e_avail e). induction l as [|x l IH]; intros N1 Hdis; simpl; [exact N2|].
  inversion N1; subst. constructor.
  - intros Hx. apply in_app_or in Hx. destruct Hx; [contradiction|].
    apply (Hdis x); [left; reflexivity|assumption].
  - apply IH; auto. intros y Hy. apply Hdis. right; exact Hy.
Qed.
Lemma ids_name n e x : entry_ok cat n e -> In x (ids_of e) -> m_name (cat x) = n.
Proof.
  intros He Hx. apply in_app_or in Hx. destruct Hx as [Hx|Hx];
    [apply (eo_avail _ _ _ He _ Hx)|apply (eo_deltas _ _ _ He _ Hx)].
Qed.
Lemma ids_lst e x : In x (ids_of e) <-> lst e x = true.
Proof. unfold ids_of, lst. rewrite in_app_iff, orb_true_iff, !sin_In. tauto. Qed.

Lemma all_ids_nodup l :
  NoDup (map e_name l) -> (forall e, In e l -> entry_ok cat (e_name e) e) -> NoDup (flat_map ids_of l).
Proof.
  induction l as [|e l IH]; intros ND Hl; simpl; [constructor|].
  simpl in ND. inversion ND as [|? ? Nx ND']; subst.
  pose proof (ids_nodup _ _ (Hl e (or_introl eq_refl))) as N1.
  assert (N2 : NoDup (flat_map ids_of l)) by (apply IH; auto; intros; apply Hl; right; assumption).
  assert (Dis : forall x, In x (ids_of e) -> ~ In x (flat_map ids_of l)).
  { intros x Hx Hx'. apply in_flat_map in Hx'. destruct Hx' as (e' & He' & Hx').
    apply Nx. rewrite <- (ids_name _ _ _ (Hl e (or_introl eq_refl)) Hx).
    rewrite (ids_name _ _ _ (Hl e' (or_intror He')) Hx'). apply in_map, He'. }
  revert N1 Dis. generalize (ids_of e). induction l0 as [|x l0 IH0]; intros N1 Dis; simpl; [exact N2|].
  inversion N1; subst. constructor.
  - intros Hx. apply in_app_or in Hx. destruct Hx; [contradiction|].
    apply (Dis x); [left; reflexivity|assumption].
  - apply IH0; auto. intros y Hy. apply Dis. right; exact Hy.
Qed.

Definition entries (d : db) (r : string) : list entry := map snd (mlist (d_ents d r)).
Definition all_ids (d : db) (r : string) : list string := flat_map ids_of (entries d r).

Lemma entries_in d r e : db_ok cat d -> In e (entries d r) <-> mget (d_ents d r) (e_name e) = Some e.
Proof.
  intros H. unfold entries. rewrite in_map_iff. split.
  - intros ([n e'] & <- & Hin). apply in_mlist in Hin. simpl.
    rewrite (eo_name _ _ _ (ok_ent _ _ H _ _ _ Hin)). exact Hin.
  - intros G. exists (e_name e, e). split; [reflexivity|]. apply in_mlist, G.
Qed.
Lemma all_ids_nodup' d r : db_ok cat d -> NoDup (all_ids d r).
Proof.
  intros H. apply all_ids_nodup.
  - unfold entries. rewrite (ent_names cat) by exact H. apply mkeys_nodup.
  - intros e He. apply entries_in in He; [|exact H]. apply (ok_ent _ _ H _ _ _ He).
Qed.
Lemma all_ids_in d r x : db_ok cat d -> In x (all_ids d r) <-> lists_db d r x = true.
Proof.
  intros H. unfold all_ids. rewrite in_flat_map, (lists_db_spec cat) by apply (ok_ent _ _ H). split.
  - intros (e & He & Hx). apply entries_in in He; [|exact H].
    rewrite (ids_name _ _ _ (ok_ent _ _ H _ _ _ He) Hx), He. apply ids_lst, Hx.
  - destruct (mget (d_ents d r) (m_name (cat x))) as [e|] eqn:G; [|discriminate]. simpl. intros L.
    exists e. split; [|apply ids_lst, L]. apply entries_in; [exact H|].
    rewrite (eo_name _ _ _ (ok_ent _ _ H _ _ _ G)). exact G.
Qed.

(** the pool after the deletion *)
Lemma unref_pool_ext x d d' : d_pool d = d_pool d' -> d_pool (d_unref x d) = d_pool (d_unref x d').
Proof.
  intros Ep. unfold d_unref. rewrite Ep. destruct (mget (d_pool d') x); [|exact Ep].
  destruct (N.ltb _ _); simpl; rewrite Ep; reflexivity.
Qed.
Lemma unrefs_pool_ext l : forall d d', d_pool d = d_pool d' -> d_pool (unrefs l d) = d_pool (unrefs l d').
Proof. induction l; intros d d' Ep; simpl; [exact Ep|]. apply IHl, unref_pool_ext, Ep. Qed.
Lemma del_entries_pool r es : forall d,
  d_pool (fold_left (db_del_entry r) es d) = d_pool (unrefs (flat_map ids_of es) d).
Proof.
  induction es as [|e es IH]; intros d; simpl; [reflexivity|].
  rewrite IH, unrefs_app. apply unrefs_pool_ext. reflexivity.
Qed.
Lemma db_delete_pool r d : d_pool (db_delete r d) = d_pool (unrefs (all_ids d r) d).
Proof. apply (del_entries_pool r (entries d r) d). Qed.
Lemma unrefs_pool_in l : forall d x, db_ok cat d -> NoDup l -> In x l ->
  mget (d_pool (unrefs l d)) x = mget (d_pool (d_unref x d)) x.
Proof.
  induction l as [|y l IH]; intros d x H ND Hin; [destruct Hin|]. inversion ND as [|? ? Ny ND']; subst. simpl.
  destruct Hin as [->|Hin].
  - apply (unrefs_pool_ne cat); [exact Ny|apply ok_unref, H].
  - assert (x <> y) by congruence.
    rewrite IH; auto; [|apply ok_unref, H].
    unfold d_unref at 1 3. rewrite (unref_pool_ne cat) by auto.
    destruct (mget (d_pool d) x) as [p|] eqn:G.
    + pose proof (po_name _ _ _ (ok_pool _ _ H _ _ G)) as En.
      destruct (N.ltb _ _); simpl; rewrite ?En, ?mget_put_eq, ?mget_del, ?seqb_refl; reflexivity.
    + rewrite (unref_pool_ne cat) by auto. reflexivity.
Qed.

(** ** the loops *)
Definition all_gone (d : db) (r : string) (ids : list string) (l : loc) : Prop :=
  exists x, In x ids /\ gone_locs cat d r x l.

Record Del (d0 : db) (c0 : string -> bool) (r : string) (s : state) (ids : list string) (q : list dbop) (s' : state) : Prop := {
  de_db : st_db s' = d0;
  de_cache : st_cache s' = c0;
  de_batch : st_batch s' = q;
  de_rm : fs_rm (all_gone d0 r ids) (st_fs s) (st_fs s');
  de_pool : forall x, In x ids -> last_ref d0 x = true -> f_name (st_fs s') (Loc TPool (comp_of (cat x)) x) = None
}.
Definition Cdel (d0 : db) (c0 : string -> bool) (t : state) : Prop :=
  fs_ok E cat (st_fs t) /\ st_db t = d0 /\ st_cache t = c0.

Lemma wp_del_ids d0 c0 r s0 ids2 : forall ids1 q s,
  db_ok cat d0 -> fs_ok E cat (st_fs s0) -> (forall x, In x ids2 -> mget (d_pool d0) x <> None) ->
  Del d0 c0 r s0 ids1 q s ->
  wp (forM ids2 (remove_internal true r)) (Cdel d0 c0)
     (fun s' res => res = Ok tt /\ Del d0 c0 r s0 (ids1 ++ ids2) (q ++ flat_map (unref_ops d0) ids2) s') s.
Proof.
  induction ids2 as [|x ids2 IH]; intros ids1 q s H Hf Hx D; simpl.
  - apply wp_ret. rewrite !app_nil_r. auto.
  - destruct D as [D1 D2 D3 D4 D5].
    destruct (mget (d_pool d0) x) as [p|] eqn:G; [|destruct (Hx x (or_introl eq_refl) G)].
    assert (Hfs : fs_ok E cat (st_fs s)) by exact (fs_rm_ok E cat _ _ _ Hf D4).
    apply wp_bind. eapply wp_mono.
    { apply (wp_remove_internal E cat Hcat true r x p); rewrite ?D1; auto. }
    { intros t (A & B & C). destruct (C eq_refl) as [C1 C2]. split; [exact A|]. split; congruence. }
    intros s1 res (-> & C1 & R1 & N1 & N2 & Dd & Db). rewrite D1 in *.
    change (x :: ids2) with ([x] ++ ids2). rewrite !app_assoc.
    apply IH; auto; [intros y Hy; apply Hx; right; exact Hy|].
    constructor; try congruence.
    + eapply fs_rm_trans.
      * eapply fs_rm_mono; [|exact D4]. intros l (y & Hy & Hl). exists y. split; [apply in_or_app; auto|exact Hl].
      * eapply fs_rm_mono; [|exact R1]. intros l Hl. exists x. split; [apply in_or_app; right; left; reflexivity|exact Hl].
    + intros y Hy La. apply in_app_or in Hy. destruct Hy as [Hy|[<-|[]]]; [|auto].
      exact (fs_rm_none _ _ _ _ R1 (D5 y Hy La)).
Qed.

Lemma forM_app {X} (l1 l2 : list X) f s : forM (l1 ++ l2) f s = bind (forM l1 f) (fun _ => forM l2 f) s.
Proof.
  revert s. induction l1 as [|x l1 IH]; intros s; simpl.
  - rewrite bind_ret. reflexivity.
  - rewrite bind_assoc. unfold bind at 1 2. destruct (f x s) as [[t s1] [[]| |]]; try reflexivity. rewrite IH. reflexivity.
Qed.

Lemma wp_del_entries d0 c0 r s0 (es : list (string * entry)) : forall ids1 q s,
  db_ok cat d0 -> fs_ok E cat (st_fs s0) ->
  (forall n e, In (n, e) es -> entry_ok cat (e_name e) e /\ forall x, In x (ids_of e) -> mget (d_pool d0) x <> None) ->
  Del d0 c0 r s0 ids1 q s ->
  wp (forM es (fun ke =>
      forM (e_avail (snd ke)) (remove_internal true r) ;;;
      forM (e_deltas (snd ke)) (remove_internal true r) ;;;
      db_write true (DelEnt r (e_name (snd ke))))) (Cdel d0 c0)
     (fun s' res => res = Ok tt /\
        Del d0 c0 r s0 (ids1 ++ flat_map ids_of (map snd es)) (q ++ flat_map (entry_ops d0 r) (map snd es)) s') s.
Proof.
  induction es as [|[n e] es IH]; intros ids1 q s H Hf Hx D; simpl.
  - apply wp_ret. rewrite !app_nil_r. auto.
  - destruct (Hx n e (or_introl eq_refl)) as [He Hp].
    apply wp_bind. apply wp_bind. eapply wp_post.
    { apply (wp_del_ids d0 c0 r s0 (e_avail e) ids1 q s); auto. intros x Hin. apply Hp, in_or_app; auto. }
    intros s1 res (-> & D1). apply wp_bind. eapply wp_post.
    { refine (wp_del_ids d0 c0 r s0 (e_deltas e) _ _ s1 H Hf _ D1). intros x Hin. apply Hp, in_or_app; auto. }
    intros s2 res (-> & D2). unfold db_write. simpl op_key. rewrite (eo_res _ _ _ He). apply wp_vol.
    eapply wp_post.
    { apply (IH (ids1 ++ ids_of e) (q ++ entry_ops d0 r e)); auto.
      - intros n' e' Hin. apply (Hx n' e'). right; exact Hin.
      - destruct D2 as [A1 A2 A3 A4 A5]. unfold ids_of, entry_ops, ids_of. rewrite flat_map_app, !app_assoc.
        constructor; auto. simpl. rewrite A3. reflexivity. }
    intros s3 res (-> & D3). split; [reflexivity|]. rewrite <- !app_assoc in D3. exact D3.
Qed.

(** what DeleteRepo leaves alone *)
Record del_rest (r : string) (s s' : state) : Prop := {
  dr_cache : forall x, x <> r -> st_cache s' x = st_cache s x;
  dr_cache_r : st_cache s' r = false;
  dr_root : forall x, x <> r -> f_root (st_fs s') x = f_root (st_fs s) x;
  dr_root_r : forall f, f_root (st_fs s') r f = None;
  dr_asset : forall x, x <> r -> f_asset (st_fs s') x = f_asset (st_fs s) x;
  dr_asset_r : forall f, f_asset (st_fs s') r f = None;
  dr_dir : forall x, x <> r -> f_dir (st_fs s') x = f_dir (st_fs s) x;
  dr_dir_r : f_dir (st_fs s') r = false;
  dr_name_r : forall l, l_tree l = TRepo r -> f_name (st_fs s') l = None;
  dr_data : forall l, l_tree l <> TRepo r -> l_tree l <> TPool -> l_tree l <> TStage r ->
      file_content (st_fs s') l = file_content (st_fs s) l
}.

Lemma wp_delete_repo ex fz r s :
  Inv ex fz [] s ->
  wp (delete_repo r) (fun t => Inv false false [] (restart t))
     (fun s' res => Inv ex fz [] s' /\
        ((res = Err /\ mhas (d_repos (st_db s)) r = false /\ s' = s) \/
         (res = Ok tt /\ mhas (d_repos (st_db s)) r = true /\ st_db s' = db_delete r (st_db s) /\ del_rest r s s'))) s.
Proof.
  intros HI0. unfold delete_repo. apply wp_bind. eapply wp_mono.
  { apply (wp_get_repo E cat ex fz [] r s HI0). }
  { intros t [A _]. apply Inv_restart, A. }
  intros s1 res (HI & Qd & [(-> & Hr & _)|(-> & Hr & ->)]).
  2:{ split; [exact HI0|]. left. auto. }
  set (d0 := st_db s1).
  assert (Ed0 : d0 = st_db s) by apply (qd_db _ _ _ Qd).
  apply wp_bind_vol.
  set (s2 := on_cache (fun c => fupd c r false) s1). set (c0 := st_cache s2).
  pose proof HI as [H R Hnd Hf Hca Hba HX HZ]. fold d0 in H, R.
  destruct (db_delete_ok cat ex d0 r H R Hnd) as (K1 & K2 & K3 & K4 & K5).
  assert (Hr0 : mhas (d_repos d0) r = true) by (rewrite Ed0; exact Hr).
  apply wp_bind.
  (* the transaction *)
  assert (W : wp (es <- ent_list r ;;
      forM es (fun ke =>
        forM (e_avail (snd ke)) (remove_internal true r) ;;;
        forM (e_deltas (snd ke)) (remove_internal true r) ;;;
        db_write true (DelEnt r (e_name (snd ke)))) ;;;
      db_write true (DelRepo r)) (Cdel d0 c0)
     (fun s' res => res = Ok tt /\
        Del d0 c0 r s2 (all_ids d0 r) (flat_map (entry_ops d0 r) (entries d0 r) ++ [DelRepo r]) s') (on_batch (fun _ => []) s2)).
  { unfold ent_list. apply wp_bind_gets. apply wp_bind. eapply wp_post.
    { apply (wp_del_entries d0 c0 r s2 _ [] []); auto.
      - intros n e Hin. apply in_mlist in Hin. fold d0 in Hin.
        change (st_db (on_batch (fun _ : list dbop => []) s2)) with d0 in Hin.
        pose proof (ok_ent _ _ H _ _ _ Hin) as He. rewrite (eo_name _ _ _ He). split; [exact He|].
        intros x Hx. destruct (listed_in_pool cat ex d0 r n e x H R Hin) as [p ->]; [apply ids_lst, Hx|discriminate].
      - constructor; try reflexivity; [apply fs_rm_refl|intros x []]. }
    intros s3 res (-> & [D1 D2 D3 D4 D5]). unfold db_write. simpl op_key. rewrite (ok_rname _ _ H _ Hr0).
    apply wp_vol. split; [reflexivity|]. constructor; auto. simpl. rewrite D3. reflexivity. }
  assert (Cpre : forall t, Cdel d0 c0 t -> Inv false false [] (restart t)).
  { intros t (F1 & D1 & C1). constructor; simpl; auto; try discriminate; rewrite ?D1; auto.
    eapply refs_drop; eauto. }
  unfold update_tx. unfold wp in W. unfold wp at 1.
  destruct ((es <- ent_list r ;;
      forM es (fun ke =>
        forM (e_avail (snd ke)) (remove_internal true r) ;;;
        forM (e_deltas (snd ke)) (remove_internal true r) ;;;
        db_write true (DelEnt r (e_name (snd ke)))) ;;;
      db_write true (DelRepo r)) (on_batch (fun _ => []) s2)) as [[t3 s3] r3].
  unfold trace_of, final_of, result_of in W |- *. simpl in W. destruct W as (W1 & -> & [D1 D2 D3 D4 D5]). cbv beta iota zeta.
  assert (Db : fold_left apply_op (st_batch s3) (st_db s3) = db_delete r d0).
  { rewrite D3, D1, fold_left_app. rewrite batch_entries; auto. apply all_ids_nodup', H. }
  rewrite Db. set (s4 := St (db_delete r d0) (st_fs s3) (st_cache s3) []).
  simpl fst. simpl snd.
  assert (Hf3 : fs_ok E cat (st_fs s3)) by exact (fs_rm_ok E cat _ _ _ Hf D4).
  (* any later state with that database *)
  assert (Cpost : forall f', fs_ok E cat f' -> Inv false false [] (restart (on_fs (fun _ => f') s4))).
  { intros f' F'. constructor; simpl; auto; try discriminate.
    eapply refs_drop; eauto. }
  split.
  { apply Forall_app. split; [eapply Forall_impl; [exact Cpre|exact W1]|].
    constructor; [|constructor]. rewrite <- (on_fs_id s4). apply Cpost, Hf3. }
  set (f5 := fs_rm_repo (st_fs s3) r). set (f6 := fs_rm_asset f5 r). set (f7 := fs_rm_stage f6 r).
  assert (F5 : fs_ok E cat f5).
  { apply (fs_shrink_ok E cat (st_fs s3)); auto; [|apply assets_eq; reflexivity]. intros l. simpl. destruct (tree_eqb _ _); auto. }
  assert (F6 : fs_ok E cat f6) by (apply (same_files_ok E cat f5); [|exact F5]; constructor; try reflexivity; intros x a c; simpl; unfold fupd; destruct (seqb x r); [discriminate|eauto]).
  assert (F7 : fs_ok E cat f7).
  { apply (fs_shrink_ok E cat f6); auto; [|apply assets_eq; reflexivity]. intros l. simpl. destruct (tree_eqb (l_tree l) (TStage r)); auto. }
  apply wp_bind_durable.
  { apply (Cpost f5 F5). }
  apply wp_bind_durable.
  { apply (Cpost f6 F6). }
  assert (N7 : forall l, f_name f7 l = if tree_eqb (l_tree l) (TStage r) then None
                         else if tree_eqb (l_tree l) (TRepo r) then None else f_name (st_fs s3) l).
  { intros l. reflexivity. }
  assert (D7 : f_data f7 = f_data (st_fs s1)) by (apply (rm_data _ _ _ D4)).
  assert (Back : forall l, f_name f7 l <> None -> f_name (st_fs s3) l <> None /\ f_name (st_fs s1) l <> None /\ l_tree l <> TRepo r).
  { intros l Hl. rewrite N7 in Hl. destruct (tree_eqb (l_tree l) (TStage r)); [congruence|].
    destruct (tree_eqb_spec (l_tree l) (TRepo r)); [congruence|]. split; [exact Hl|]. split; [|assumption].
    intros X. apply Hl. exact (fs_rm_none _ _ _ _ D4 X). }
  assert (Cont : forall l, l_tree l <> TRepo r -> l_tree l <> TStage r -> ~ all_gone d0 r (all_ids d0 r) l ->
     file_content f7 l = file_content (st_fs s1) l).
  { intros l T1 T2 Ng. unfold file_content. rewrite N7, D7.
    destruct (tree_eqb_spec (l_tree l) (TStage r)); [contradiction|].
    destruct (tree_eqb_spec (l_tree l) (TRepo r)); [contradiction|].
    destruct (rm_name _ _ _ D4 l) as [->|[_ X]]; [reflexivity|contradiction]. }
  assert (Pback : forall id q, mget (d_pool (db_delete r d0)) id = Some q ->
     (exists p n, mget (d_pool d0) id = Some p /\ q = set_rc p n) /\ ~ (In id (all_ids d0 r) /\ last_ref d0 id = true)).
  { intros id q Gq. rewrite db_delete_pool in Gq. split.
    - apply (unrefs_pool_back cat (all_ids d0 r) id d0 q H Gq).
    - intros [Hin La]. rewrite unrefs_pool_in in Gq; [|exact H|apply all_ids_nodup', H|exact Hin].
      unfold d_unref in Gq. unfold last_ref in La. destruct (mget (d_pool d0) id) as [p|] eqn:Gp; [|discriminate].
      apply negb_true_iff in La. rewrite La in Gq. simpl in Gq. rewrite mget_del, seqb_refl in Gq. discriminate. }
  set (s7 := St (db_delete r d0) f7 c0 []).
  assert (E7 : on_fs (fun f => fs_rm_stage f r) (on_fs (fun f => fs_rm_asset f r) (on_fs (fun f => fs_rm_repo f r) s4)) = s7).
  { unfold on_fs, s4, s7. simpl. rewrite D2. reflexivity. }
  assert (I7 : Inv ex fz [] s7).
  { constructor; simpl; auto.
    - intros x Hx. unfold c0, s2 in Hx. simpl in Hx. unfold fupd in Hx.
      destruct (seqb x r) eqn:Exr; [discriminate|].
      apply Hca in Hx. change (mhas (d_repos (db_delete r d0)) x = true). rewrite K4. unfold mhas. rewrite mget_del, Exr. exact Hx.
    - intros Z. destruct (HX Z) as [X1 X2]. fold d0 in X1, X2. constructor; unfold s7; cbn [st_db st_fs].
      + intros id q Gq Hd. destruct (Pback _ _ Gq) as [(p & n & Gp & ->) Ng].
        eapply file_matches_ext; [|apply (file_matches_rc E _ _ _ n), (X1 id p Gp Hd)].
        apply Cont; try discriminate. intros (x & Hx & [Cx|[Cx La]]); [discriminate|].
        injection Cx as _ ->. apply Ng. auto.
      + intros r' n' e' id q Ge Hin Gq. rewrite K5 in Ge. destruct (seqb_spec r' r) as [->|Nr]; [discriminate|].
        destruct (Pback _ _ Gq) as [(p & n & Gp & ->) Ng].
        eapply file_matches_ext; [|apply (file_matches_rc E _ _ _ n), (X2 _ _ _ _ _ Ge Hin Gp)].
        apply Cont; simpl; try congruence. intros (x & Hx & [Cx|[Cx La]]); [|discriminate].
        injection Cx as -> _ _. congruence.
    - intros Z. destruct (HZ Z) as [Z1 Z2]. fold d0 in Z1, Z2. constructor; unfold s7; cbn [st_db st_fs].
      + intros c id Hd Hn. destruct (Back _ Hn) as (B3 & B1 & _). destruct (Z1 c id Hd B1) as [-> Hpn].
        split; [reflexivity|]. rewrite db_delete_pool.
        destruct (sin id (all_ids d0 r)) eqn:Si.
        * apply sin_In in Si. rewrite unrefs_pool_in; [|exact H|apply all_ids_nodup', H|exact Si].
          apply (unref_pool_last cat); auto. destruct (last_ref d0 id) eqn:La; [|reflexivity].
          destruct (B3 (D5 id Si La)).
        * apply sin_not_In in Si. rewrite (unrefs_pool_ne cat); auto.
      + intros r' c id Hd Hn. destruct (Back _ Hn) as (B3 & B1 & T). simpl in T.
        destruct (Z2 r' c id Hd B1) as (-> & e0 & Ge0 & Hin0). split; [reflexivity|].
        exists e0. split; [|exact Hin0]. rewrite K5. destruct (seqb_spec r' r) as [->|Nr]; [congruence|exact Ge0]. }
  apply wp_durable; fold s4; rewrite E7.
  - apply Inv_restart. pose proof (Inv_Cinv E cat _ _ _ _ I7) as [X _]. exact X.
  - split; [exact I7|]. right. split; [reflexivity|]. split; [exact Hr|]. split; [simpl; rewrite Ed0; reflexivity|].
    constructor; simpl.
    + intros x N. unfold c0, s2. simpl. rewrite fupd_ne by exact N. apply (qd_cache _ _ _ Qd _ N).
    + unfold c0, s2. simpl. apply fupd_eq.
    + intros x N. rewrite fupd_ne by exact N. rewrite (rm_root _ _ _ D4). simpl. rewrite (qd_root _ _ _ Qd). reflexivity.
    + intros f. rewrite fupd_eq. reflexivity.
    + intros x N. rewrite fupd_ne by exact N. rewrite (rm_asset _ _ _ D4). simpl. rewrite (qd_asset _ _ _ Qd). reflexivity.
    + intros f. rewrite fupd_eq. reflexivity.
    + intros x N. rewrite fupd_ne by exact N. rewrite (rm_dir _ _ _ D4). simpl. apply (qd_dir _ _ _ Qd _ N).
    + apply fupd_eq.
    + intros l T. rewrite T. simpl. rewrite seqb_refl. reflexivity.
    + intros l T1 T2 T3. change (file_content f7 l = file_content (st_fs s) l). rewrite Cont; auto.
      * apply same_files_content, (qd_files _ _ _ Qd).
      * intros (x & Hx & [Cx|[Cx La]]); subst l; simpl in *; congruence.
Qed.

End Ops.
