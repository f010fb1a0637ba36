(** * DeleteRetry: the instants of a deletion (proof artifact) *)
From Verif Require Import Model Spec DbInv DbOps Wp FsInv Ops UnrefOps RepoOps DeleteOps IndexFacts.
Open Scope string_scope. Open Scope list_scope.

Section Retry.
Variable E : env.
Variable cat : string -> meta.
Hypothesis Hcat : good_catalog cat.

(** the files a deletion unlinks one by one, before its transaction is written *)
Definition unlinked (d : db) (r : string) : loc -> Prop := all_gone cat d r (all_ids d r).
Record near (r : string) (G : loc -> Prop) (s t : state) : Prop := {
  nr_data : f_data (st_fs t) = f_data (st_fs s);
  nr_name : forall l, f_name (st_fs t) l = f_name (st_fs s) l \/ (f_name (st_fs t) l = None /\ G l);
  nr_root : forall x, x <> r -> f_root (st_fs t) x = f_root (st_fs s) x;
  nr_asset : forall x, x <> r -> f_asset (st_fs t) x = f_asset (st_fs s) x;
  nr_dir : forall x, x <> r -> f_dir (st_fs t) x = f_dir (st_fs s) x
}.
Definition own (r : string) (l : loc) : Prop := l_tree l = TRepo r \/ l_tree l = TStage r.
Definition pool_clean (d : db) (r : string) (t : state) : Prop :=
  forall l, unlinked d r l -> l_tree l = TPool -> f_name (st_fs t) l = None.
Definition mid (r : string) (s t : state) : Prop :=
  (st_db t = st_db s /\ near r (unlinked (st_db s) r) s t) \/
  (st_db t = db_delete r (st_db s) /\ near r (fun l => unlinked (st_db s) r l \/ own r l) s t /\ pool_clean (st_db s) r t).
Record gone_for_good (r : string) (s t : state) : Prop := {
  gg_db : st_db t = db_delete r (st_db s);
  gg_near : near r (fun l => unlinked (st_db s) r l \/ own r l) s t;
  gg_pool : pool_clean (st_db s) r t;
  gg_own : forall l, own r l -> f_name (st_fs t) l = None;
  gg_root : forall f, f_root (st_fs t) r f = None;
  gg_asset : forall f, f_asset (st_fs t) r f = None;
  gg_dir : f_dir (st_fs t) r = false
}.

Lemma near_refl r G s : near r G s s.
Proof. constructor; auto. Qed.
Lemma near_fs r G s t t' : st_fs t' = st_fs t -> near r G s t -> near r G s t'.
Proof. intros Ef [A1 A2 A3 A4 A5]. constructor; rewrite Ef; auto. Qed.
Lemma near_rm r G s s1 t : near r G s s1 -> fs_rm G (st_fs s1) (st_fs t) -> near r G s t.
Proof.
  intros [A1 A2 A3 A4 A5] [B1 B2 B3 B4 B5 B6].
  constructor; try congruence; try (intros x N; rewrite ?B3, ?B4, ?B5; auto).
  intros l. destruct (B6 l) as [->|X]; auto.
Qed.

(** one file *)
Lemma wp_remove_files r id p s0 (G : loc -> Prop) d0 s :
  db_ok cat d0 -> st_db s = d0 -> mget (d_pool d0) id = Some p -> (forall l, gone_locs cat d0 r id l -> G l) -> near r G s0 s ->
  wp (remove_internal true r id) (fun t => st_db t = d0 /\ near r G s0 t)
     (fun s' res => res = Ok tt /\ st_db s' = d0 /\ near r G s0 s' /\ st_cache s' = st_cache s /\
        st_batch s' = st_batch s ++ unref_ops d0 id /\
        (forall l, f_name (st_fs s) l = None -> f_name (st_fs s') l = None) /\
        (last_ref d0 id = true -> f_name (st_fs s') (Loc TPool (comp_of (cat id)) id) = None)) s.
Proof.
  intros H Ed Gp HG N. pose proof (ok_pool _ _ H _ _ Gp) as Hp.
  pose proof (po_name _ _ _ Hp) as En. pose proof (reserved_plain _ (po_plain _ _ _ Hp)) as Hres.
  unfold remove_internal, pool_get. apply wp_bind_gets. rewrite Ed, Gp.
  eapply wp_bind_lift; [apply (meta_of_comp cat Hcat), (po_meta _ _ _ Hp)|].
  rewrite En. unfold remove_file.
  set (l1 := Loc (TRepo r) (comp_of (cat id)) id).
  assert (R1 : near r G s0 (on_fs (fun f => fs_set_name f l1 None) s)).
  { apply (near_rm _ _ _ s _ N). apply fs_rm_one, HG. left; reflexivity. }
  apply wp_bind_durable; [split; [exact Ed|exact R1]|].
  set (s1 := on_fs _ s) in *. assert (Ed1 : st_db s1 = d0) by exact Ed.
  assert (K1 : forall l, f_name (st_fs s) l = None -> f_name (st_fs s1) l = None).
  { intros l Hl. unfold s1. cbn. unfold nupd. destruct (loc_eqb l l1); auto. }
  unfold pool_unref. eapply wp_bind_read; [apply pool_get_eq; rewrite Ed1; exact Gp|].
  assert (L : last_ref d0 id = negb (N.ltb 0 (rc_dec (p_rc p)))) by (unfold last_ref; rewrite Gp; reflexivity).
  assert (U2 : unref_ops d0 id = if N.ltb 0 (rc_dec (p_rc p)) then [PutPool (set_rc p (rc_dec (p_rc p)))] else [DelPool id])
    by (unfold unref_ops; rewrite Gp; reflexivity).
  destruct (N.ltb 0 (rc_dec (p_rc p))) eqn:Lt.
  - unfold db_write. cbn [op_key set_rc p_name]. rewrite En, Hres. apply wp_vol. rewrite U2.
    split; [reflexivity|]. split; [exact Ed1|]. split; [refine (near_fs _ _ _ _ _ _ R1); reflexivity|]. split; [reflexivity|]. split; [reflexivity|].
    split; [exact K1|]. rewrite L. discriminate.
  - eapply wp_bind_lift; [apply (meta_of_comp cat Hcat), (po_meta _ _ _ Hp)|].
    set (l2 := pool_loc (comp_of (cat id)) id).
    assert (R2 : near r G s0 (on_fs (fun f => fs_set_name f l2 None) s1)).
    { apply (near_rm _ _ _ s1 _ R1). apply fs_rm_one, HG. right. split; [reflexivity|]. rewrite L. reflexivity. }
    unfold remove_file. apply wp_bind_durable; [split; [exact Ed1|exact R2]|].
    unfold db_write. cbn [op_key]. rewrite Hres. apply wp_vol. rewrite U2.
    split; [reflexivity|]. split; [exact Ed1|]. split; [refine (near_fs _ _ _ _ _ _ R2); reflexivity|]. split; [reflexivity|]. split; [reflexivity|].
    split.
    + intros l Hl. cbn. unfold nupd at 1. destruct (loc_eqb l l2); [reflexivity|]. exact (K1 l Hl).
    + intros _. cbn. apply nupd_eq.
Qed.

Record DelF (d0 : db) (r : string) (s0 : state) (ids : list string) (q : list dbop) (s' : state) : Prop := {
  df_db : st_db s' = d0;
  df_batch : st_batch s' = q;
  df_near : near r (unlinked d0 r) s0 s';
  df_pool : forall x, In x ids -> last_ref d0 x = true -> f_name (st_fs s') (Loc TPool (comp_of (cat x)) x) = None
}.

Lemma wp_files_ids d0 r s0 ids2 : forall ids1 q s,
  db_ok cat d0 -> (forall x, In x ids2 -> mget (d_pool d0) x <> None /\ In x (all_ids d0 r)) ->
  DelF d0 r s0 ids1 q s ->
  wp (forM ids2 (remove_internal true r)) (fun t => st_db t = d0 /\ near r (unlinked d0 r) s0 t)
     (fun s' res => res = Ok tt /\ DelF d0 r s0 (ids1 ++ ids2) (q ++ flat_map (unref_ops d0) ids2) s') s.
Proof.
  induction ids2 as [|x ids2 IH]; intros ids1 q s H Hx D; cbn [forM].
  - apply wp_ret. cbn [flat_map]. rewrite !app_nil_r. auto.
  - destruct D as [D1 D2 D3 D4]. destruct (Hx x (or_introl eq_refl)) as [Hp Ha].
    destruct (mget (d_pool d0) x) as [p|] eqn:G; [|destruct (Hp eq_refl)].
    apply wp_bind. eapply wp_post.
    { apply (wp_remove_files r x p s0 (unlinked d0 r) d0 s H D1 G); [|exact D3]. intros l Hl. exists x. auto. }
    intros s1 res (-> & E1 & N1 & _ & B1 & K1 & P1).
    change (x :: ids2) with ([x] ++ ids2). cbn [flat_map app]. rewrite (app_assoc q). change (ids1 ++ x :: ids2) with (ids1 ++ [x] ++ ids2). rewrite (app_assoc ids1).
    apply IH; auto; [intros y Hy; apply Hx; right; exact Hy|].
    constructor; auto; [congruence|].
    intros y Hy La. apply in_app_or in Hy. destruct Hy as [Hy|[<-|[]]]; auto.
Qed.

Lemma wp_files_entries d0 r s0 (es : list (string * entry)) : forall ids1 q s,
  db_ok cat d0 ->
  (forall n e, In (n, e) es -> entry_ok cat (e_name e) e /\ forall x, In x (ids_of e) -> mget (d_pool d0) x <> None /\ In x (all_ids d0 r)) ->
  DelF d0 r s0 ids1 q s ->
  wp (forM es (fun ke =>
      forM (e_avail (snd ke)) (remove_internal true r) ;;;
      forM (e_deltas (snd ke)) (remove_internal true r) ;;;
      db_write true (DelEnt r (e_name (snd ke))))) (fun t => st_db t = d0 /\ near r (unlinked d0 r) s0 t)
     (fun s' res => res = Ok tt /\
        DelF d0 r s0 (ids1 ++ flat_map ids_of (map snd es)) (q ++ flat_map (entry_ops d0 r) (map snd es)) s') s.
Proof.
  induction es as [|[n e] es IH]; intros ids1 q s H Hx D; simpl.
  - apply wp_ret. rewrite !app_nil_r. auto.
  - destruct (Hx n e (or_introl eq_refl)) as [He Hp].
    apply wp_bind. apply wp_bind. eapply wp_post.
    { apply (wp_files_ids d0 r s0 (e_avail e) ids1 q s); auto. intros x Hin. apply Hp, in_or_app; auto. }
    intros s1 res (-> & D1). apply wp_bind. eapply wp_post.
    { refine (wp_files_ids d0 r s0 (e_deltas e) _ _ s1 H _ D1). intros x Hin. apply Hp, in_or_app; auto. }
    intros s2 res (-> & D2). unfold db_write. simpl op_key. rewrite (eo_res _ _ _ He). apply wp_vol.
    eapply wp_post.
    { apply (IH (ids1 ++ ids_of e) (q ++ entry_ops d0 r e)); auto.
      - intros n' e' Hin. apply (Hx n' e'). right; exact Hin.
      - destruct D2 as [A1 A2 A3 A4]. unfold ids_of, entry_ops, ids_of. rewrite flat_map_app, !app_assoc.
        constructor; auto; [simpl; rewrite A2; reflexivity|refine (near_fs _ _ _ _ _ _ A3); reflexivity]. }
    intros s3 res (-> & D3). split; [reflexivity|]. rewrite <- !app_assoc in D3. exact D3.
Qed.

Lemma wp_delete_instants ex fz r s :
  Inv E cat ex fz [] s -> mhas (d_repos (st_db s)) r = true ->
  wp (delete_repo r) (mid r s) (fun s' res => res = Ok tt /\ gone_for_good r s s') s.
Proof.
  intros HI0 Hr. unfold delete_repo. apply wp_bind. eapply wp_mono.
  { apply wp_and; [apply (wp_get_repo E cat ex fz [] r s HI0)|apply (wp_get_repo_dir E cat ex fz r s HI0)]. }
  { intros t [_ Q]. left. split; [apply (qd_db _ _ _ Q)|]. constructor.
    - apply (qd_files _ _ _ Q).
    - intros l. left. rewrite (sf_name _ _ (qd_files _ _ _ Q)). reflexivity.
    - intros x N. rewrite (qd_root _ _ _ Q). reflexivity.
    - intros x N. rewrite (qd_asset _ _ _ Q). reflexivity.
    - intros x N. apply (qd_dir _ _ _ Q _ N). }
  intros s1 res ((HI & Q & [(-> & _ & _)|(-> & Hr' & _)]) & _); [|congruence].
  assert (N1 : forall G, near r G s s1).
  { intros G. constructor.
    - apply (qd_files _ _ _ Q).
    - intros l. left. rewrite (sf_name _ _ (qd_files _ _ _ Q)). reflexivity.
    - intros x N. rewrite (qd_root _ _ _ Q). reflexivity.
    - intros x N. rewrite (qd_asset _ _ _ Q). reflexivity.
    - intros x N. apply (qd_dir _ _ _ Q _ N). }
  set (d0 := st_db s1).
  assert (Ed0 : d0 = st_db s) by apply (qd_db _ _ _ Q).
  apply wp_bind_vol. set (s2 := on_cache (fun c => fupd c r false) s1).
  pose proof HI as [H R Hnd Hf Hca Hba HX HZ]. fold d0 in H, R.
  assert (Hr0 : mhas (d_repos d0) r = true) by (rewrite Ed0; exact Hr).
  apply wp_bind.
  assert (W : wp (es <- ent_list r ;;
      forM es (fun ke =>
        forM (e_avail (snd ke)) (remove_internal true r) ;;;
        forM (e_deltas (snd ke)) (remove_internal true r) ;;;
        db_write true (DelEnt r (e_name (snd ke)))) ;;;
      db_write true (DelRepo r)) (fun t => st_db t = d0 /\ near r (unlinked d0 r) s t)
     (fun s' res => res = Ok tt /\
        DelF d0 r s (all_ids d0 r) (flat_map (entry_ops d0 r) (entries d0 r) ++ [DelRepo r]) s') (on_batch (fun _ => []) s2)).
  { unfold ent_list. apply wp_bind_gets. apply wp_bind. eapply wp_post.
    { apply (wp_files_entries d0 r s _ [] []); auto.
      - intros n e Hin. apply in_mlist in Hin.
        change (st_db (on_batch (fun _ : list dbop => []) s2)) with d0 in Hin.
        pose proof (ok_ent _ _ H _ _ _ Hin) as He. rewrite (eo_name _ _ _ He). split; [exact He|].
        intros x Hx. split.
        + destruct (listed_in_pool cat ex d0 r n e x H R Hin) as [p ->]; [apply ids_lst, Hx|discriminate].
        + unfold all_ids. apply in_flat_map. exists e. split; [|exact Hx]. unfold entries. apply in_map_iff. exists (n, e). split; [reflexivity|]. apply in_mlist, Hin.
      - constructor; try reflexivity; [|intros x []]. destruct (N1 (unlinked d0 r)) as [A1 A2 A3 A4 A5]. constructor; auto. }
    intros s3 res (-> & [D1 D3 D4 D5]). unfold db_write. simpl op_key. rewrite (ok_rname _ _ H _ Hr0).
    apply wp_vol. split; [reflexivity|]. constructor; auto; [simpl; rewrite D3; reflexivity|refine (near_fs _ _ _ _ _ _ D4); reflexivity]. }
  unfold update_tx. unfold wp in W. unfold wp at 1.
  destruct ((es <- ent_list r ;;
      forM es (fun ke =>
        forM (e_avail (snd ke)) (remove_internal true r) ;;;
        forM (e_deltas (snd ke)) (remove_internal true r) ;;;
        db_write true (DelEnt r (e_name (snd ke)))) ;;;
      db_write true (DelRepo r)) (on_batch (fun _ => []) s2)) as [[t3 s3] r3].
  unfold trace_of, final_of, result_of in W |- *. simpl in W. destruct W as (W1 & -> & [D1 D3 D4 D5]). cbv beta iota zeta.
  assert (Db : fold_left apply_op (st_batch s3) (st_db s3) = db_delete r d0).
  { rewrite D3, D1, fold_left_app. rewrite (batch_entries cat); auto. apply (all_ids_nodup' cat), H. }
  rewrite Db. rewrite Ed0 in *. set (s4 := St (db_delete r (st_db s)) (st_fs s3) (st_cache s3) []).
  simpl fst. simpl snd.
  assert (P3 : forall f, (forall l, f_name f l = None \/ f_name f l = f_name (st_fs s3) l) ->
     forall l, unlinked (st_db s) r l -> l_tree l = TPool -> f_name f l = None).
  { intros f Hf' l (x & Hx & [->|[-> La]]) T; [discriminate|]. destruct (Hf' (Loc TPool (comp_of (cat x)) x)) as [X|X]; [exact X|].
    rewrite X. exact (D5 x Hx La). }
  assert (N4 : forall f, f_data f = f_data (st_fs s3) -> (forall l, f_name f l = f_name (st_fs s3) l \/ (f_name f l = None /\ own r l)) ->
     (forall x, x <> r -> f_root f x = f_root (st_fs s3) x) -> (forall x, x <> r -> f_asset f x = f_asset (st_fs s3) x) ->
     (forall x, x <> r -> f_dir f x = f_dir (st_fs s3) x) ->
     st_db (on_fs (fun _ => f) s4) = db_delete r (st_db s) /\
     near r (fun l => unlinked (st_db s) r l \/ own r l) s (on_fs (fun _ => f) s4) /\ pool_clean (st_db s) r (on_fs (fun _ => f) s4)).
  { intros f F1 F2 F3 F4 F5. split; [reflexivity|]. split.
    - destruct D4 as [A1 A2 A3 A4 A5]. constructor; cbn [st_fs on_fs].
      + congruence.
      + intros l. destruct (F2 l) as [->|[-> O]]; [|right; auto]. destruct (A2 l) as [X|[X Y]]; auto.
      + intros x N. rewrite F3; auto.
      + intros x N. rewrite F4; auto.
      + intros x N. rewrite F5; auto.
    - intros l Ul Tl. refine (P3 f _ l Ul Tl). clear l Ul Tl. intros l. destruct (F2 l) as [->|[-> O]]; auto. }
  split.
  { apply Forall_app. split.
    - eapply Forall_impl; [|exact W1]. intros t [T1 T2]. left. split; assumption.
    - constructor; [|constructor]. right. apply (N4 (st_fs s3)); auto. }
  set (f5 := fs_rm_repo (st_fs s3) r). set (f6 := fs_rm_asset f5 r). set (f7 := fs_rm_stage f6 r).
  apply wp_bind_durable.
  { right. apply (N4 f5); auto.
    - intros l. cbn. destruct (tree_eqb_spec (l_tree l) (TRepo r)); [right; split; [reflexivity|left; assumption]|left; reflexivity].
    - intros x N. cbn. rewrite fupd_ne by exact N. reflexivity.
    - intros x N. cbn. rewrite fupd_ne by exact N. reflexivity. }
  apply wp_bind_durable.
  { right. apply (N4 f6); auto.
    - intros l. cbn. destruct (tree_eqb_spec (l_tree l) (TRepo r)); [right; split; [reflexivity|left; assumption]|left; reflexivity].
    - intros x N. cbn. rewrite fupd_ne by exact N. reflexivity.
    - intros x N. cbn. rewrite fupd_ne by exact N. reflexivity.
    - intros x N. cbn. rewrite fupd_ne by exact N. reflexivity. }
  assert (N7 : st_db (on_fs (fun _ => f7) s4) = db_delete r (st_db s) /\
     near r (fun l => unlinked (st_db s) r l \/ own r l) s (on_fs (fun _ => f7) s4) /\ pool_clean (st_db s) r (on_fs (fun _ => f7) s4)).
  { apply (N4 f7); auto.
    - intros l. cbn. destruct (tree_eqb_spec (l_tree l) (TStage r)); [right; split; [reflexivity|right; assumption]|].
      destruct (tree_eqb_spec (l_tree l) (TRepo r)); [right; split; [reflexivity|left; assumption]|left; reflexivity].
    - intros x N. cbn. rewrite fupd_ne by exact N. reflexivity.
    - intros x N. cbn. rewrite fupd_ne by exact N. reflexivity.
    - intros x N. cbn. rewrite fupd_ne by exact N. reflexivity. }
  apply wp_durable.
  - right. exact N7.
  - split; [reflexivity|]. destruct N7 as (A & B & C). constructor; auto; cbn.
    + intros l [T|T]; rewrite T; cbn; rewrite seqb_refl; reflexivity.
    + intros f. rewrite fupd_eq. reflexivity.
    + intros f. rewrite fupd_eq. reflexivity.
    + apply fupd_eq.
Qed.

(** running it again after [mid] with the old database *)
Lemma same_end r s c a b :
  st_db c = st_db s -> near r (unlinked (st_db s) r) s c -> gone_for_good r s a -> gone_for_good r c b ->
  st_db b = st_db a /\ (forall l, file_content (st_fs b) l = file_content (st_fs a) l) /\
  (forall x f, f_root (st_fs b) x f = f_root (st_fs a) x f) /\ (forall x f, f_asset (st_fs b) x f = f_asset (st_fs a) x f) /\
  (forall x, f_dir (st_fs b) x = f_dir (st_fs a) x).
Proof.
  intros Ed N A B. pose proof (gg_near _ _ _ A) as NA. pose proof (gg_near _ _ _ B) as NB.
  split; [rewrite (gg_db _ _ _ A), (gg_db _ _ _ B), Ed; reflexivity|]. split; [|split; [|split]].
  - assert (Za : forall l, unlinked (st_db s) r l \/ own r l -> f_name (st_fs a) l = None).
    { intros l [U|O]; [|exact (gg_own _ _ _ A l O)]. destruct U as (x & Hx & U). pose proof U as [->|[-> _]].
      - apply (gg_own _ _ _ A). left; reflexivity.
      - apply (gg_pool _ _ _ A); [exists x; auto|reflexivity]. }
    assert (Zb : forall l, unlinked (st_db s) r l \/ own r l -> f_name (st_fs b) l = None).
    { intros l [U|O]; [|exact (gg_own _ _ _ B l O)]. destruct U as (x & Hx & U). pose proof U as [->|[-> _]].
      - apply (gg_own _ _ _ B). left; reflexivity.
      - apply (gg_pool _ _ _ B); [rewrite Ed; exists x; auto|reflexivity]. }
    intros l. unfold file_content. rewrite (nr_data _ _ _ _ NA), (nr_data _ _ _ _ NB), (nr_data _ _ _ _ N).
    assert (X : f_name (st_fs b) l = f_name (st_fs a) l); [|rewrite X; reflexivity].
    destruct (nr_name _ _ _ _ NA l) as [X|[X Y]]; [|rewrite X; apply Zb, Y].
    destruct (nr_name _ _ _ _ NB l) as [X'|[X' Y']]; [|rewrite X'; symmetry; rewrite Ed in Y'; apply Za, Y'].
    destruct (nr_name _ _ _ _ N l) as [X''|[X'' Y'']]; [congruence|]. rewrite Zb, Za by auto. reflexivity.
  - intros x f. destruct (seqb_spec x r) as [->|Nx]; [rewrite (gg_root _ _ _ A), (gg_root _ _ _ B); reflexivity|].
    rewrite (nr_root _ _ _ _ NA _ Nx), (nr_root _ _ _ _ NB _ Nx), (nr_root _ _ _ _ N _ Nx). reflexivity.
  - intros x f. destruct (seqb_spec x r) as [->|Nx]; [rewrite (gg_asset _ _ _ A), (gg_asset _ _ _ B); reflexivity|].
    rewrite (nr_asset _ _ _ _ NA _ Nx), (nr_asset _ _ _ _ NB _ Nx), (nr_asset _ _ _ _ N _ Nx). reflexivity.
  - intros x. destruct (seqb_spec x r) as [->|Nx]; [rewrite (gg_dir _ _ _ A), (gg_dir _ _ _ B); reflexivity|].
    rewrite (nr_dir _ _ _ _ NA _ Nx), (nr_dir _ _ _ _ NB _ Nx), (nr_dir _ _ _ _ N _ Nx). reflexivity.
Qed.
End Retry.
