(** * UnrefOps: UnrefPackage and DeleteRepo preserve the invariant (proof artifact) *)
From Verif Require Import Model Spec DbInv DbOps Wp FsInv Ops.

(** names removed from the file system, all of them in [S] *)
Record fs_rm (S : loc -> Prop) (f f' : fs) : Prop := {
  rm_data : f_data f' = f_data f;
  rm_next : f_next f' = f_next f;
  rm_root : f_root f' = f_root f;
  rm_asset : f_asset f' = f_asset f;
  rm_dir : f_dir f' = f_dir f;
  rm_name : forall l, f_name f' l = f_name f l \/ (f_name f' l = None /\ S l)
}.
Lemma fs_rm_refl S f : fs_rm S f f.
Proof. constructor; auto. Qed.
Lemma fs_rm_trans S f1 f2 f3 : fs_rm S f1 f2 -> fs_rm S f2 f3 -> fs_rm S f1 f3.
Proof.
  intros [A1 A2 A3 A4 A5 A6] [B1 B2 B3 B4 B5 B6]. constructor; try congruence.
  intros l. destruct (B6 l) as [E|E]; [rewrite E; apply A6|right; exact E].
Qed.
Lemma fs_rm_mono (S S' : loc -> Prop) f f' : (forall l, S l -> S' l) -> fs_rm S f f' -> fs_rm S' f f'.
Proof.
  intros H [A1 A2 A3 A4 A5 A6]. constructor; auto. intros l. destruct (A6 l) as [E|[E1 E2]]; auto.
Qed.
Lemma fs_rm_one (S : loc -> Prop) f l : S l -> fs_rm S f (fs_set_name f l None).
Proof.
  intros H. constructor; auto. intros x. simpl. unfold nupd.
  destruct (loc_eqb_spec x l) as [->|N]; auto.
Qed.
Lemma fs_rm_none S f f' l : fs_rm S f f' -> f_name f l = None -> f_name f' l = None.
Proof. intros H E. destruct (rm_name _ _ _ H l) as [X|[X _]]; congruence. Qed.
Lemma fs_rm_content (S : loc -> Prop) f f' l : fs_rm S f f' -> ~ S l -> file_content f' l = file_content f l.
Proof.
  intros H N. unfold file_content. rewrite (rm_data _ _ _ H).
  destruct (rm_name _ _ _ H l) as [->|[_ C]]; [reflexivity|contradiction].
Qed.

Section Ops.
Variable E : env.
Variable cat : string -> meta.
Hypothesis Hcat : good_catalog cat.
Hypothesis HE : good_env E.

Notation Inv := (Inv E cat).
Notation Cinv := (Cinv E cat).
Notation FX := (FX E cat).
Notation FZ := (FZ cat).

Lemma fs_rm_ok S f f' : fs_ok E cat f -> fs_rm S f f' -> fs_ok E cat f'.
Proof.
  intros H R. eapply fs_shrink_ok; eauto; try apply R.
  - intros l. destruct (rm_name _ _ _ R l) as [X|[X _]]; auto.
  - apply assets_eq, R.
Qed.

(** the last reference is about to go *)
Definition last_ref (d : db) (id : string) : bool :=
  match mget (d_pool d) id with Some p => negb (N.ltb 0 (rc_dec (p_rc p))) | None => false end.
Definition unref_ops (d : db) (id : string) : list dbop :=
  match mget (d_pool d) id with
  | Some p => if N.ltb 0 (rc_dec (p_rc p)) then [PutPool (set_rc p (rc_dec (p_rc p)))] else [DelPool id]
  | None => []
  end.
Lemma unref_ops_eq d id : fold_left apply_op (unref_ops d id) d = d_unref id d.
Proof.
  unfold unref_ops, d_unref. destruct (mget (d_pool d) id) as [p|]; [|reflexivity].
  destruct (N.ltb _ _); reflexivity.
Qed.

(** the files removed with a reference of [r] to [id] *)
Definition gone_locs (d : db) (r id : string) (l : loc) : Prop :=
  l = Loc (TRepo r) (comp_of (cat id)) id \/ (l = Loc TPool (comp_of (cat id)) id /\ last_ref d id = true).

(* weak invariant at the crash points of removals (C23): the database is well formed *)
Definition Rinv (s : state) : Prop := db_ok cat (st_db s) /\ fs_ok E cat (st_fs s).

Lemma wp_remove_internal b r id p s :
  db_ok cat (st_db s) -> fs_ok E cat (st_fs s) -> mget (d_pool (st_db s)) id = Some p ->
  wp (remove_internal b r id)
     (fun t => fs_ok E cat (st_fs t) /\ db_ok cat (st_db t) /\ (b = true -> st_db t = st_db s /\ st_cache t = st_cache s))
     (fun s' res => res = Ok tt /\ st_cache s' = st_cache s /\
        fs_rm (gone_locs (st_db s) r id) (st_fs s) (st_fs s') /\
        f_name (st_fs s') (Loc (TRepo r) (comp_of (cat id)) id) = None /\
        (last_ref (st_db s) id = true -> f_name (st_fs s') (Loc TPool (comp_of (cat id)) id) = None) /\
        if b then st_db s' = st_db s /\ st_batch s' = st_batch s ++ unref_ops (st_db s) id
        else st_db s' = d_unref id (st_db s) /\ st_batch s' = st_batch s) s.
Proof.
  intros H Hf G. pose proof (ok_pool _ _ H _ _ G) as Hp.
  pose proof (po_name _ _ _ Hp) as En. pose proof (reserved_plain _ (po_plain _ _ _ Hp)) as Hres.
  unfold remove_internal, pool_get. apply wp_bind_gets. rewrite G.
  eapply wp_bind_lift; [apply (meta_of_comp cat Hcat), (po_meta _ _ _ Hp)|].
  rewrite En. unfold remove_file.
  set (l1 := Loc (TRepo r) (comp_of (cat id)) id).
  set (f1 := fs_set_name (st_fs s) l1 None).
  assert (R1 : fs_rm (gone_locs (st_db s) r id) (st_fs s) f1).
  { apply fs_rm_one. left; reflexivity. }
  pose proof (fs_rm_ok _ _ _ Hf R1) as F1.
  apply wp_bind_durable; [simpl; auto|].
  set (s1 := on_fs _ s).
  unfold pool_unref. eapply wp_bind_read; [apply pool_get_eq; exact G|].
  assert (L : last_ref (st_db s) id = negb (N.ltb 0 (rc_dec (p_rc p)))) by (unfold last_ref; rewrite G; reflexivity).
  assert (U : d_unref id (st_db s) = if N.ltb 0 (rc_dec (p_rc p)) then apply_op (st_db s) (PutPool (set_rc p (rc_dec (p_rc p)))) else apply_op (st_db s) (DelPool id))
    by (unfold d_unref; rewrite G; reflexivity).
  assert (U2 : unref_ops (st_db s) id = if N.ltb 0 (rc_dec (p_rc p)) then [PutPool (set_rc p (rc_dec (p_rc p)))] else [DelPool id])
    by (unfold unref_ops; rewrite G; reflexivity).
  pose proof (ok_unref cat (st_db s) id H) as Hok'.
  assert (N1 : f_name f1 l1 = None) by (unfold f1; simpl; apply nupd_eq).
  destruct (N.ltb 0 (rc_dec (p_rc p))) eqn:Lt.
  - unfold db_write. simpl op_key. rewrite En, Hres. rewrite U in Hok'.
    destruct b.
    + apply wp_vol. rewrite U2. split; [reflexivity|]. split; [reflexivity|]. split; [exact R1|].
      split; [exact N1|]. split; [rewrite L; discriminate|]. split; reflexivity.
    + apply wp_durable.
      * split; [exact F1|]. split; [exact Hok'|discriminate].
      * split; [reflexivity|]. split; [reflexivity|]. split; [exact R1|].
        split; [exact N1|]. split; [rewrite L; discriminate|]. rewrite U. split; reflexivity.
  - eapply wp_bind_lift; [apply (meta_of_comp cat Hcat), (po_meta _ _ _ Hp)|].
    set (l2 := pool_loc (comp_of (cat id)) id).
    set (f2 := fs_set_name f1 l2 None).
    assert (R2 : fs_rm (gone_locs (st_db s) r id) (st_fs s) f2).
    { eapply fs_rm_trans; [exact R1|]. apply fs_rm_one. right. split; [reflexivity|]. rewrite L. reflexivity. }
    pose proof (fs_rm_ok _ _ _ Hf R2) as F2.
    assert (N2 : f_name f2 l2 = None) by (unfold f2; simpl; apply nupd_eq).
    assert (N1' : f_name f2 l1 = None).
    { unfold f2. simpl. unfold nupd at 1. destruct (loc_eqb l1 l2); [reflexivity|exact N1]. }
    apply wp_bind_durable; [simpl; auto|].
    unfold db_write. simpl op_key. rewrite Hres. rewrite U in Hok'.
    destruct b.
    + apply wp_vol. rewrite U2. split; [reflexivity|]. split; [reflexivity|]. split; [exact R2|].
      split; [exact N1'|]. split; [intros _; exact N2|]. split; reflexivity.
    + apply wp_durable.
      * split; [exact F2|]. split; [exact Hok'|discriminate].
      * split; [reflexivity|]. split; [reflexivity|]. split; [exact R2|].
        split; [exact N1'|]. split; [intros _; exact N2|]. rewrite U. split; reflexivity.
Qed.

(** ** UnrefPackage *)
Lemma wp_unref_deltas r id d0 ds : forall keep s,
  db_ok cat d0 -> db_ok cat (st_db s) -> fs_ok E cat (st_fs s) -> NoDup ds ->
  (forall x, In x ds -> is_delta_id x = true /\ mget (d_pool (st_db s)) x = mget (d_pool d0) x /\ mget (d_pool d0) x <> None) ->
  wp (foldM ds (fun keep d =>
        p <- pool_get_or_err d ;;
        match p_delta p with
        | None => panic
        | Some di =>
            if seqb (d_from di) id || seqb (d_to di) id
            then (remove_internal false r (p_name p) ;;; ret keep)
            else ret (keep ++ [p_name p])
        end) keep) Rinv
     (fun s' res => res = Ok (keep ++ filter (fun x => negb (delta_uses d0 id x)) ds) /\
        st_db s' = unrefs (filter (delta_uses d0 id) ds) (st_db s) /\
        st_cache s' = st_cache s /\ st_batch s' = st_batch s /\
        fs_rm (fun l => is_delta_id (l_id l) = true /\ (l_tree l = TRepo r \/ l_tree l = TPool)) (st_fs s) (st_fs s')) s.
Proof.
  induction ds as [|x ds IH]; intros keep s H0 H Hf ND Hx.
  - apply wp_ret. rewrite app_nil_r. repeat split; auto.
  - inversion ND as [|? ? Nx ND']; subst.
    destruct (Hx x (or_introl eq_refl)) as (Dx & Ex & Nnx).
    destruct (mget (d_pool (st_db s)) x) as [p|] eqn:G; [|congruence].
    pose proof (ok_pool _ _ H _ _ G) as Hp.
    assert (exists di, p_delta p = Some di) as [di Hdi].
    { destruct (p_delta p) as [di|] eqn:Ed; [eauto|]. exfalso. apply (proj1 (po_delta _ _ _ Hp) Dx). exact Ed. }
    assert (Hu : delta_uses d0 id x = seqb (d_from di) id || seqb (d_to di) id).
    { unfold delta_uses. rewrite <- Ex, Hdi. reflexivity. }
    simpl foldM. apply wp_bind. eapply wp_bind_read; [apply pool_get_eq, G|].
    rewrite Hdi, (po_name _ _ _ Hp), <- Hu. simpl filter.
    destruct (delta_uses d0 id x) eqn:U.
    + apply wp_bind. eapply wp_mono; [eapply (wp_remove_internal false r x p); eauto| |].
      * intros t (A & B & _). split; auto.
      * intros s1 res (-> & C1 & R1 & _ & _ & D1 & B1). apply wp_ret.
        eapply wp_post.
        { apply IH; auto.
          - rewrite D1. apply ok_unref, H.
          - eapply fs_rm_ok; eauto.
          - intros y Hy. destruct (Hx y (or_intror Hy)) as (Dy & Ey & Ny).
            split; [exact Dy|]. split; [|exact Ny]. rewrite D1, (unref_pool_ne cat); [exact Ey| |exact H].
            congruence. }
        intros s2 res (-> & D2 & C2 & B2 & R2). split; [reflexivity|]. split; [rewrite D2, D1; reflexivity|].
        split; [congruence|]. split; [congruence|].
        eapply fs_rm_trans; [|exact R2]. eapply fs_rm_mono; [|exact R1].
        intros l [->|[-> _]]; simpl; auto.
    + apply wp_ret. simpl negb. eapply wp_post.
      { apply IH; auto. intros y Hy. apply Hx. right; exact Hy. }
      intros s2 res (-> & D2 & C2 & B2 & R2). split; [rewrite <- app_assoc; reflexivity|]. auto.
Qed.

Lemma unref_avail_eq id av s :
  db_ok cat (st_db s) ->
  (forall a, In a av -> a <> id -> mget (d_pool (st_db s)) a <> None) ->
  exists hi, unref_avail id av s = ([], s, Ok (without id av, hi, best cat (without id av))).
Proof.
  intros H Hp.
  set (g := fun (acc : list string * Z * string) a =>
      match acc with (keep, hi, hid) =>
        if seqb a id then acc
        else if Z.ltb hi (rel (cat a)) then (keep ++ [a], rel (cat a), a) else (keep ++ [a], hi, hid) end).
  assert (Hg : forall l k hi hid,
     fold_left g l (k, hi, hid) =
     (k ++ without id l,
      fst (fold_left (fun acc a => if Z.ltb (fst acc) (rel (cat a)) then (rel (cat a), a) else acc) (without id l) (hi, hid)),
      snd (fold_left (fun acc a => if Z.ltb (fst acc) (rel (cat a)) then (rel (cat a), a) else acc) (without id l) (hi, hid)))).
  { induction l as [|a l IH]; intros k hi hid; simpl.
    - rewrite app_nil_r. reflexivity.
    - destruct (seqb a id); simpl; [apply IH|].
      destruct (Z.ltb hi (rel (cat a))); rewrite IH, <- app_assoc; reflexivity. }
  exists (fst (fold_left (fun acc a => if Z.ltb (fst acc) (rel (cat a)) then (rel (cat a), a) else acc) (without id av) (0%Z, EmptyString))).
  unfold unref_avail.
  rewrite (foldM_ext_read _ g).
  - rewrite Hg. reflexivity.
  - intros [[k hi] hid] a Ha. simpl. destruct (seqb_spec a id) as [->|Na]; [reflexivity|].
    destruct (mget (d_pool (st_db s)) a) as [p|] eqn:G; [|destruct (Hp a Ha Na G)].
    rewrite (bind_ok _ _ _ _ _ (pool_get_eq _ _ _ G)).
    rewrite (meta_of_get_release cat Hcat _ _ (po_meta _ _ _ (ok_pool _ _ H _ _ G))), bind_lift_ok.
    destruct (Z.ltb hi (rel (cat a))); reflexivity.
Qed.

Lemma last_ref_other ex d r n e id :
  db_ok cat d -> refs ex d [] [] -> mget (d_ents d r) n = Some e -> lst e id = true -> last_ref d id = true ->
  forall r', r' <> r -> lists_db d r' id = false.
Proof.
  intros H R G L La r' Nr.
  destruct (lists_db d r' id) eqn:L'; [|reflexivity]. exfalso.
  assert (Lr : lists_db d r id = true).
  { rewrite (lists_db_spec cat) by apply (ok_ent _ _ H).
    rewrite (lst_name _ _ _ _ (ok_ent _ _ H _ _ _ G) L), G. exact L. }
  assert (C2 : 2 <= count_db d id).
  { unfold count_db. assert (In r (filter (fun r0 => lists_db d r0 id) (mkeys (d_repos d)))) as I1.
    { apply filter_In. split; [apply mhas_keys, (ok_repo _ _ H _ _ _ G)|exact Lr]. }
    assert (In r' (filter (fun r0 => lists_db d r0 id) (mkeys (d_repos d)))) as I2.
    { apply filter_In. split; [|exact L']. apply mhas_keys.
      rewrite (lists_db_spec cat) in L' by apply (ok_ent _ _ H).
      destruct (mget (d_ents d r') (m_name (cat id))) eqn:G'; [|discriminate].
      apply (ok_repo _ _ H _ _ _ G'). }
    destruct (filter _ _) as [|a [|b l]]; [destruct I1| |simpl; lia].
    destruct I1 as [->|[]], I2 as [->|[]]. congruence. }
  specialize (R id). unfold last_ref in La. unfold rc_db in R.
  destruct (mget (d_pool d) id) as [p|] eqn:Gp; [|discriminate].
  apply negb_true_iff, N.ltb_ge in La. unfold rc_dec in La.
  pose proof (po_rc _ _ _ (ok_pool _ _ H _ _ Gp)) as Hrc.
  destruct (N.eqb_spec (p_rc p) 0); [lia|]. destruct ex; simpl in R; lia.
Qed.

Lemma unref_pool_last d id : db_ok cat d -> last_ref d id = false -> mget (d_pool d) id <> None -> mget (d_pool (d_unref id d)) id <> None.
Proof.
  intros H L N. unfold last_ref in L. unfold d_unref. destruct (mget (d_pool d) id) as [p|] eqn:G; [|congruence].
  apply negb_false_iff in L. rewrite L. simpl. rewrite (po_name _ _ _ (ok_pool _ _ H _ _ G)), mget_put_eq. discriminate.
Qed.

(* pool entries only lose references or vanish *)
Lemma unref_pool_back x id d q : db_ok cat d ->
  mget (d_pool (d_unref x d)) id = Some q -> exists p n, mget (d_pool d) id = Some p /\ q = set_rc p n.
Proof.
  intros H G. destruct (string_dec id x) as [->|N].
  - unfold d_unref in G. destruct (mget (d_pool d) x) as [p|] eqn:Gp.
    + destruct (N.ltb _ _); simpl in G.
      * rewrite (po_name _ _ _ (ok_pool _ _ H _ _ Gp)), mget_put_eq in G. injection G as <-. eauto.
      * rewrite mget_del, seqb_refl in G. discriminate.
    + congruence.
  - rewrite (unref_pool_ne cat _ _ _ N H) in G. exists q, (p_rc q). split; [exact G|]. destruct q; reflexivity.
Qed.
Lemma unrefs_pool_back l : forall id d q, db_ok cat d ->
  mget (d_pool (unrefs l d)) id = Some q -> exists p n, mget (d_pool d) id = Some p /\ q = set_rc p n.
Proof.
  induction l as [|x l IH]; intros id d q H G; simpl in G.
  - exists q, (p_rc q). split; [exact G|]. destruct q; reflexivity.
  - apply IH in G; [|apply ok_unref, H]. destruct G as (p & n & G & ->).
    apply (unref_pool_back _ _ _ _ H) in G. destruct G as (p' & n' & G & ->). exists p', n. auto.
Qed.

Lemma wp_unref_package ex fz r id e s :
  Inv ex fz [] s -> mget (d_ents (st_db s) r) (m_name (cat id)) = Some e -> In id (e_avail e) ->
  wp (unref_package r id) Rinv
     (fun s' res => res = Ok tt /\ Inv ex fz [] s' /\ st_db s' = db_unref_pkg cat r id (st_db s) /\ rest fz r s s') s.
Proof.
  intros HI Ge Hin. pose proof HI as [H R Hnd Hf Hca Hba HX HZ].
  pose proof (ok_ent _ _ H _ _ _ Ge) as He.
  assert (Hd : is_delta_id id = false) by apply (eo_avail _ _ _ He _ Hin).
  assert (Hpool : forall x, lst e x = true -> mget (d_pool (st_db s)) x <> None).
  { intros x Hx. destruct (listed_in_pool cat ex (st_db s) r _ e x H R Ge Hx) as [p ->]. discriminate. }
  assert (Lid : lst e id = true) by (unfold lst; rewrite (proj2 (sin_In _ _) Hin); reflexivity).
  destruct (mget (d_pool (st_db s)) id) as [p|] eqn:G; [|destruct (Hpool id Lid G)].
  pose proof (ok_pool _ _ H _ _ G) as Hp.
  unfold unref_package. eapply wp_bind_read; [apply pool_get_eq, G|].
  rewrite (meta_of_name cat _ _ (po_meta _ _ _ Hp)). unfold ent_get. apply wp_bind_gets. rewrite Ge.
  apply wp_bind. eapply wp_mono; [eapply (wp_remove_internal false r id p); eauto| |].
  { intros t (A & B & _). split; auto. }
  intros s1 res (-> & C1 & R1 & N1 & N1' & D1 & B1).
  assert (H1 : db_ok cat (st_db s1)) by (rewrite D1; apply ok_unref, H).
  pose proof (fs_rm_ok _ _ _ Hf R1) as F1.
  assert (Ndel : ~ In id (e_deltas e)).
  { intros Hx. destruct (eo_deltas _ _ _ He _ Hx). congruence. }
  apply wp_bind. unfold unref_deltas. eapply wp_post.
  { apply (wp_unref_deltas r id (st_db s) (e_deltas e) [] s1 H H1 F1).
    - apply slt_sorted_nodup, (eo_dsorted _ _ _ He).
    - intros x Hx. split; [apply (eo_deltas _ _ _ He _ Hx)|]. split.
      + rewrite D1. apply (unref_pool_ne cat); [congruence|exact H].
      + apply Hpool. unfold lst. rewrite (proj2 (sin_In x (e_deltas e)) Hx). apply orb_true_r. }
  intros s2 res (-> & D2 & C2 & B2 & R2). simpl app.
  assert (H2 : db_ok cat (st_db s2)) by (rewrite D2; apply ok_unrefs, H1).
  pose proof (fs_rm_ok _ _ _ F1 R2) as F2.
  destruct (unref_avail_eq id (e_avail e) s2 H2) as [hi Hua].
  { intros a Ha Na. rewrite D2, (unrefs_pool_ne cat); [| |exact H1].
    - rewrite D1, (unref_pool_ne cat); [|exact Na|exact H]. apply Hpool.
      unfold lst. rewrite (proj2 (sin_In a (e_avail e)) Ha). reflexivity.
    - intros Hx. apply filter_In in Hx. destruct Hx as [Hx _].
      destruct (eo_deltas _ _ _ He _ Hx). destruct (eo_avail _ _ _ He _ Ha) as (_ & Ha' & _). congruence. }
  eapply wp_bind_read; [exact Hua|]. cbv beta iota.
  set (gone := filter (delta_uses (st_db s) id) (e_deltas e)) in *.
  set (keepd := filter (fun x => negb (delta_uses (st_db s) id x)) (e_deltas e)) in *.
  set (o := match without id (e_avail e) with
            | [] => DelEnt r (e_name e)
            | _ => PutEnt r (shrunk cat (st_db s) e id) end).
  assert (Eq : (match without id (e_avail e) with
      | [] => db_write false (DelEnt r (e_name e))
      | _ :: _ => db_write false (PutEnt r (Entry (e_name e) (sort_strings (without id (e_avail e)))
                (best cat (without id (e_avail e))) (sort_strings keepd)))
      end) = db_write false o).
  { unfold o, shrunk. rewrite (sort_slt_id (without id (e_avail e))) by (apply filter_slt, (eo_sorted _ _ _ He)).
    rewrite (sort_slt_id keepd) by (apply filter_slt, (eo_dsorted _ _ _ He)).
    destruct (without id (e_avail e)); reflexivity. }
  rewrite Eq. clear Eq.
  assert (Dfin : apply_op (st_db s2) o = db_unref_pkg cat r id (st_db s)).
  { unfold db_unref_pkg. rewrite Ge, D2, D1. fold gone. unfold o. destruct (without id (e_avail e)); reflexivity. }
  destruct (db_unref_pkg_ok cat Hcat ex (st_db s) r id e H R Hnd Ge Hin) as (K1 & K2 & K3).
  assert (Fin : Inv ex fz [] (on_db (fun d => apply_op d o) s2)).
  { assert (Hfs' : fs_rm (fun l => gone_locs (st_db s) r id l \/ (is_delta_id (l_id l) = true /\ (l_tree l = TRepo r \/ l_tree l = TPool)))
                     (st_fs s) (st_fs s2)).
    { eapply fs_rm_trans; eapply fs_rm_mono; [|exact R1| |exact R2]; auto. }
    (* the entries afterwards *)
    assert (Ents : forall r' n' e', mget (d_ents (apply_op (st_db s2) o) r') n' = Some e' ->
       (exists e0, mget (d_ents (st_db s) r') n' = Some e0 /\ forall x, In x (e_avail e') <-> In x (e_avail e0) /\ ~ (r' = r /\ x = id))).
    { intros r' n' e' G'. rewrite Dfin in G'.
      assert (Ed : d_ents (unrefs gone (d_unref id (st_db s))) = d_ents (st_db s))
        by (rewrite unrefs_ents; apply unref_ents).
      unfold db_unref_pkg in G'. rewrite Ge in G'. fold gone in G'.
      assert (Keep : forall e0, mget (d_ents (st_db s) r') n' = Some e0 -> (r' = r -> n' <> m_name (cat id)) ->
         forall x, In x (e_avail e0) <-> In x (e_avail e0) /\ ~ (r' = r /\ x = id)).
      { intros e0 G0 Hne x. split; [|tauto]. intros Hx. split; [exact Hx|]. intros [-> ->].
        apply (Hne eq_refl). symmetry. apply (eo_avail _ _ _ (ok_ent _ _ H _ _ _ G0) _ Hx). }
      destruct (without id (e_avail e)) as [|a0 l0] eqn:W; simpl in G'; unfold fupd in G'; rewrite Ed, (eo_name _ _ _ He) in G'.
      - destruct (seqb_spec r' r) as [->|Nr].
        + rewrite mget_del in G'. destruct (seqb_spec n' (m_name (cat id))) as [->|Nn]; [discriminate|].
          exists e'. split; [exact G'|]. apply (Keep _ G'). auto.
        + exists e'. split; [exact G'|]. apply (Keep _ G'). congruence.
      - destruct (seqb_spec r' r) as [->|Nr].
        + rewrite mget_put in G'. destruct (seqb_spec n' (m_name (cat id))) as [->|Nn].
          * injection G' as <-. exists e. split; [exact Ge|]. intros x. simpl. rewrite without_In. tauto.
          * exists e'. split; [exact G'|]. apply (Keep _ G'). auto.
        + exists e'. split; [exact G'|]. apply (Keep _ G'). congruence. }
    assert (Pool : d_pool (apply_op (st_db s2) o) = d_pool (unrefs gone (d_unref id (st_db s)))).
    { unfold o. destruct (without id (e_avail e)); simpl; rewrite D2, D1; reflexivity. }
    constructor; simpl.
    - rewrite Dfin. exact K1.
    - rewrite Dfin. exact K2.
    - rewrite Dfin. exact K3.
    - exact F2.
    - intros x Hx. rewrite C2, C1 in Hx. unfold o. destruct (without id (e_avail e)); simpl; rewrite D2, D1, unrefs_repos, unref_repos; auto.
    - congruence.
    - intros Z. destruct (HX Z) as [X1 X2]. constructor; simpl.
      + intros id' q Gq Hd'. rewrite Pool in Gq.
        assert (Gq0 := Gq). apply (unrefs_pool_back gone) in Gq0; [|apply ok_unref, H].
        destruct Gq0 as (q1 & n1 & Gq1 & ->). assert (Gq2 := Gq1). apply (unref_pool_back _ _ _ _ H) in Gq2.
        destruct Gq2 as (q2 & n2 & Gq2 & ->).
        eapply file_matches_ext; [|apply (file_matches_rc E _ _ _ n1), (file_matches_rc E _ _ _ n2), (X1 id' q2 Gq2 Hd')].
        apply (fs_rm_content _ _ _ _ Hfs'). intros [[Cx|[Cx La]]|[Cx _]]; [discriminate| |simpl in Cx; congruence].
        injection Cx as _ ->. unfold d_unref in Gq1. rewrite G in Gq1. unfold last_ref in La. rewrite G in La.
        apply negb_true_iff in La. rewrite La in Gq1. simpl in Gq1. rewrite mget_del, seqb_refl in Gq1. discriminate.
      + intros r' n' e' id' q Ge' Hin' Gq. rewrite Pool in Gq.
        assert (Gq0 := Gq). apply (unrefs_pool_back gone) in Gq0; [|apply ok_unref, H].
        destruct Gq0 as (q1 & n1 & Gq1 & ->). assert (Gq2 := Gq1). apply (unref_pool_back _ _ _ _ H) in Gq2.
        destruct Gq2 as (q2 & n2 & Gq2 & ->).
        destruct (Ents _ _ _ Ge') as (e0 & Ge0 & Hx). apply Hx in Hin'. destruct Hin' as [Hin0 Hnid].
        eapply file_matches_ext; [|apply (file_matches_rc E _ _ _ n1), (file_matches_rc E _ _ _ n2), (X2 _ _ _ _ _ Ge0 Hin0 Gq2)].
        apply (fs_rm_content _ _ _ _ Hfs'). intros [[Cx|[Cx La]]|[Cx _]]; [|discriminate|].
        * injection Cx as -> _ ->. tauto.
        * simpl in Cx. destruct (eo_avail _ _ _ (ok_ent _ _ H _ _ _ Ge0) _ Hin0) as (_ & Hnd' & _). congruence.
    - intros Z. destruct (HZ Z) as [Z1 Z2].
      assert (Back : forall l, f_name (st_fs s2) l <> None -> f_name (st_fs s) l <> None /\ f_name (st_fs s1) l <> None).
      { intros l Hl. split; intros X; apply Hl.
        - exact (fs_rm_none _ _ _ _ Hfs' X).
        - exact (fs_rm_none _ _ _ _ R2 X). }
      constructor; simpl.
      + intros c id' Hd' Hn'. destruct (Back _ Hn') as [Hb Hb1]. destruct (Z1 c id' Hd' Hb) as [-> Hpn].
        split; [reflexivity|]. rewrite Pool, (unrefs_pool_ne cat).
        * destruct (string_dec id' id) as [->|Ni]; [|rewrite (unref_pool_ne cat); auto].
          apply unref_pool_last; auto. destruct (last_ref (st_db s) id) eqn:La; [|reflexivity].
          destruct (Hb1 (N1' eq_refl)).
        * intros Hx. apply filter_In in Hx. destruct (eo_deltas _ _ _ He _ (proj1 Hx)). congruence.
        * apply ok_unref, H.
      + intros r' c id' Hd' Hn'. destruct (Back _ Hn') as [Hb Hb1].
        destruct (Z2 r' c id' Hd' Hb) as (-> & e0 & Ge0 & Hin0). split; [reflexivity|].
        assert (Hne : ~ (r' = r /\ id' = id)) by (intros [-> ->]; contradiction).
        rewrite Dfin. unfold db_unref_pkg. rewrite Ge. fold gone.
        assert (Ed : d_ents (unrefs gone (d_unref id (st_db s))) = d_ents (st_db s))
          by (rewrite unrefs_ents; apply unref_ents).
        destruct (without id (e_avail e)) as [|a0 l0] eqn:W; simpl; unfold fupd; rewrite Ed, (eo_name _ _ _ He).
        * destruct (seqb_spec r' r) as [->|Nr]; [|eauto]. rewrite mget_del.
          destruct (seqb_spec (m_name (cat id')) (m_name (cat id))) as [En|Nn]; [|eauto].
          exfalso. assert (In id' (without id (e_avail e))) as Hw.
          { apply without_In. rewrite En, Ge in Ge0. injection Ge0 as <-. split; [exact Hin0|]. intros ->. tauto. }
          rewrite W in Hw. destruct Hw.
        * destruct (seqb_spec r' r) as [->|Nr]; [|eauto]. rewrite mget_put.
          destruct (seqb_spec (m_name (cat id')) (m_name (cat id))) as [En|Nn]; [|eauto].
          exists (shrunk cat (st_db s) e id). split; [reflexivity|]. simpl. apply without_In.
          rewrite En, Ge in Ge0. injection Ge0 as <-. split; [exact Hin0|]. intros ->. tauto. }
  assert (Hres : reserved (op_key o) = false).
  { unfold o. destruct (without id (e_avail e)); simpl; rewrite (eo_name _ _ _ He); apply (gm_name _ (Hcat id)). }
  apply wp_write; [exact Hres|reflexivity| |].
  - split; [apply (i_db _ _ _ _ _ _ Fin)|exact F2].
  - split; [reflexivity|]. split; [exact Fin|]. split; [exact Dfin|].
    assert (Htree : forall l, l_tree l <> TRepo r -> l_tree l <> TPool -> f_name (st_fs s2) l = f_name (st_fs s) l).
    { intros l T1 T2. destruct (rm_name _ _ _ R2 l) as [->|[_ [_ [X|X]]]]; try contradiction.
      destruct (rm_name _ _ _ R1 l) as [->|[_ [X|[X _]]]]; [reflexivity| |]; subst l; simpl in *; congruence. }
    constructor; simpl.
    + congruence.
    + rewrite (rm_root _ _ _ R2), (rm_root _ _ _ R1). reflexivity.
    + rewrite (rm_asset _ _ _ R2), (rm_asset _ _ _ R1). reflexivity.
    + rewrite (rm_dir _ _ _ R2), (rm_dir _ _ _ R1). reflexivity.
    + exact Htree.
    + intros Z l T1 T2 _. unfold file_content. rewrite Htree by assumption.
      rewrite (rm_data _ _ _ R2), (rm_data _ _ _ R1). reflexivity.
Qed.

End Ops.
