(** * OpFacts: the effect of every request in the vocabulary of Spec (proof artifact) *)
From Verif Require Import Model Spec DbInv DbOps Wp FsInv Ops UnrefOps RepoOps DeleteOps Pure Loops Emit IndexOps ApiOps History PoolFacts.
Open Scope string_scope. Open Scope list_scope.

Section Facts.
Variable E : env.
Variable cat : string -> meta.
Hypothesis Hcat : good_catalog cat.
Hypothesis HE : good_env E.
Notation Inv := (Inv E cat).

(** ** from a wp to the request *)
Lemma run_unit (m : M unit) C (Q : state -> res unit -> Prop) s o p :
  (run_op E o p) = (m ;;; ret []) -> wp m C Q s ->
  exists res, Q (after E o p s) res /\
    outcome E o p s = match res with Ok _ => Ok [] | Err => Err | Panic => Panic end.
Proof.
  intros Er [_ H]. exists (result_of (m s)). unfold after, outcome. rewrite Er. unfold bind, final_of, result_of in *.
  destruct (m s) as [[t s1] [[]| |]]; simpl in *; auto.
Qed.

Lemma unchanged_dir r s s' : quiet_dir r s s' -> unchanged s s'.
Proof.
  intros [A1 A2 A3 A4 _ _ _]. split; [exact A1|]. split; [intros l; apply same_files_content, A2|].
  unfold index_file, asset_file. split; intros; [rewrite A3|rewrite A4]; reflexivity.
Qed.
Lemma unchanged_files s s' : st_db s' = st_db s -> same_files (st_fs s) (st_fs s') ->
  f_root (st_fs s') = f_root (st_fs s) -> f_asset (st_fs s') = f_asset (st_fs s) -> unchanged s s'.
Proof.
  intros A1 A2 A3 A4. split; [exact A1|]. split; [intros l; apply same_files_content, A2|].
  unfold index_file, asset_file. split; intros; [rewrite A3|rewrite A4]; reflexivity.
Qed.
Lemma unchanged_refl s : unchanged s s.
Proof. repeat split. Qed.

(** ** pool facts *)
Lemma avail_in s r id : available s r id <-> exists n, In id (avail_db (st_db s) r n).
Proof.
  unfold available, avail_db, entry_at. split.
  - intros (n & e & G & H). exists n. rewrite G. exact H.
  - intros (n & H). destruct (mget (d_ents (st_db s) r) n) as [e|] eqn:G; [|destruct H]. exists n, e. auto.
Qed.
Lemma avail_name ex fz s r n id : Inv ex fz [] s -> In id (avail_db (st_db s) r n) -> m_name (cat id) = n.
Proof.
  intros H Hin. unfold avail_db in Hin. destruct (mget (d_ents (st_db s) r) n) as [e|] eqn:G; [|destruct Hin].
  apply (eo_avail _ _ _ (ok_ent _ _ (i_db _ _ _ _ _ _ H) _ _ _ G) _ Hin).
Qed.
Lemma pool_cat ex fz s id p : Inv ex fz [] s -> pool_at s id = Some p ->
  m_name (p_meta p) = m_name (cat id) /\ m_src (p_meta p) = m_src (cat id) /\ rel (p_meta p) = rel (cat id).
Proof.
  intros H G. pose proof (po_meta _ _ _ (ok_pool _ _ (i_db _ _ _ _ _ _ H) _ _ G)) as M.
  split; [apply (meta_of_name cat), M|]. split; [apply (meta_of_src cat), M|apply (meta_of_rel cat), M].
Qed.
Lemma avail_in_pool ex fz s r n id : Inv ex fz [] s -> In id (avail_db (st_db s) r n) -> exists p, pool_at s id = Some p.
Proof.
  intros H Hin. unfold avail_db in Hin. destruct (mget (d_ents (st_db s) r) n) as [e|] eqn:G; [|destruct Hin].
  destruct (avail_pool E cat ex fz [] s r n e id H G Hin) as (p & A & _). exists p. exact A.
Qed.
Lemma pub_rel ex fz s r n e : Inv ex fz [] s -> entry_at s r n = Some e ->
  published_release s r n = Some (rel (cat (e_pub e))).
Proof.
  intros H G. unfold published_release, published. rewrite G.
  pose proof (ok_ent _ _ (i_db _ _ _ _ _ _ H) _ _ _ G) as Eo.
  destruct (avail_pool E cat ex fz [] s r n e (e_pub e) H G (eo_pub _ _ _ Eo)) as (p & A & _).
  unfold pool_release, pool_at. rewrite A. f_equal. apply (pool_cat ex fz s _ _ H A).
Qed.
Lemma pub_rel_none s r n : entry_at s r n = None -> published_release s r n = None.
Proof. intros G. unfold published_release, published. rewrite G. reflexivity. Qed.

(* two listings with the same IDs publish the same release *)
Lemma same_avail_pub ex fz ex' fz' s s' r r' n :
  Inv ex fz [] s -> Inv ex' fz' [] s' -> available_ids s' r' n = available_ids s r n ->
  published_release s' r' n = published_release s r n.
Proof.
  intros H H' Ea. unfold available_ids in Ea.
  destruct (entry_at s r n) as [e|] eqn:G; destruct (entry_at s' r' n) as [e'|] eqn:G'.
  - rewrite (pub_rel _ _ _ _ _ _ H G), (pub_rel _ _ _ _ _ _ H' G'). f_equal.
    pose proof (ok_ent _ _ (i_db _ _ _ _ _ _ H) _ _ _ G) as Eo.
    pose proof (ok_ent _ _ (i_db _ _ _ _ _ _ H') _ _ _ G') as Eo'.
    pose proof (eo_pub _ _ _ Eo) as P. pose proof (eo_pub _ _ _ Eo') as P'. rewrite Ea in P'.
    destruct (eo_avail _ _ _ Eo _ P') as (_ & _ & L). rewrite <- Ea in P.
    destruct (eo_avail _ _ _ Eo' _ P) as (_ & _ & L'). lia.
  - exfalso. apply (eo_nonempty _ _ _ (ok_ent _ _ (i_db _ _ _ _ _ _ H) _ _ _ G)). congruence.
  - exfalso. apply (eo_nonempty _ _ _ (ok_ent _ _ (i_db _ _ _ _ _ _ H') _ _ _ G')). exact Ea.
  - rewrite !pub_rel_none by assumption. reflexivity.
Qed.

(** sorted duplicate-free lists with the same members are equal *)
Lemma slt_ext l l' : StronglySorted slt l -> StronglySorted slt l' -> (forall x, In x l <-> In x l') -> l = l'.
Proof.
  intros S S' H. apply sorted_perm_eq; [apply slt_sorted_sle, S|apply slt_sorted_sle, S'|].
  apply NoDup_Permutation; [apply slt_sorted_nodup, S|apply slt_sorted_nodup, S'|exact H].
Qed.
Lemma avail_sorted ex fz s r n : Inv ex fz [] s -> StronglySorted slt (available_ids s r n).
Proof.
  intros H. unfold available_ids. destruct (entry_at s r n) as [e|] eqn:G; [|constructor].
  apply (eo_sorted _ _ _ (ok_ent _ _ (i_db _ _ _ _ _ _ H) _ _ _ G)).
Qed.
Lemma deltas_sorted ex fz s r n : Inv ex fz [] s -> StronglySorted slt (delta_ids_of s r n).
Proof.
  intros H. unfold delta_ids_of. destruct (entry_at s r n) as [e|] eqn:G; [|constructor].
  apply (eo_dsorted _ _ _ (ok_ent _ _ (i_db _ _ _ _ _ _ H) _ _ _ G)).
Qed.

Lemma same_listings_db r s s' : d_repos (st_db s') = d_repos (st_db s) -> d_ents (st_db s') r = d_ents (st_db s) r -> same_listings r s s'.
Proof. intros A B. split; [unfold repo_exists; rewrite A; reflexivity|]. intros n. unfold entry_at. rewrite B. reflexivity. Qed.
Lemma same_listings_eq r s s' : st_db s' = st_db s -> same_listings r s s'.
Proof. intros A. apply same_listings_db; rewrite A; reflexivity. Qed.

(** ** C12 delete *)
Lemma refcount_one d id p : mget (d_pool d) id = Some p -> db_ok cat d ->
  (mget (d_pool (d_unref id d)) id = None <-> rc_db d id = 1).
Proof.
  intros G H. unfold d_unref, rc_db. rewrite G. pose proof (ok_pool _ _ H _ _ G) as Po. pose proof (po_rc _ _ _ Po) as R.
  unfold rc_dec. destruct (N.eqb_spec (p_rc p) 0); [lia|].
  destruct (N.ltb_spec 0 (N.pred (p_rc p))) as [L|L]; simpl.
  - rewrite (po_name _ _ _ Po), mget_put_eq. split; [discriminate|lia].
  - rewrite mget_del, seqb_refl. split; [lia|reflexivity].
Qed.

Lemma delete_facts ex fz s o r : Inv ex fz [] s ->
  let s' := after E o (OpDelete r) s in
  (succeeds E o (OpDelete r) s <-> repo_exists s r = true) /\
  (repo_exists s r = false -> s' = s) /\
  (repo_exists s r = true ->
     Inv ex fz [] s' /\
     repo_exists s' r = false /\ (forall n, entry_at s' r n = None) /\
     (forall c id, repo_file s' r c id = None) /\
     (forall f, index_file s' r f = None) /\ (forall f, asset_file s' r f = None) /\ f_dir (st_fs s') r = false /\
     (forall x, x <> r -> same_listings x s s') /\
     (forall id, ~ listed s r id -> pool_at s' id = pool_at s id) /\
     (forall id, listed s r id -> (pool_at s' id = None <-> refcount s id = 1)) /\
     (forall id p', pool_at s' id = Some p' -> exists p, pool_at s id = Some p /\ p_meta p' = p_meta p /\ p_delta p' = p_delta p)).
Proof.
  intros H s'. pose proof (i_db _ _ _ _ _ _ H) as D.
  destruct (run_unit (delete_repo r) _ _ s o (OpDelete r) eq_refl (wp_delete_repo E cat Hcat ex fz r s H)) as (res & (I' & W) & Ho).
  fold s' in I', W. unfold succeeds. rewrite Ho.
  destruct W as [(-> & Hr & Es)|(-> & Hr & Ed & Dr)]; simpl.
  - split; [split; [intros (l & X); discriminate|unfold repo_exists; congruence]|]. split; [auto|]. unfold repo_exists. congruence.
  - split; [split; [auto|intros _; exists []; reflexivity]|]. split; [unfold repo_exists; congruence|]. intros _.
    destruct (db_delete_ok cat ex (st_db s) r D (i_refs _ _ _ _ _ _ H) (i_nod _ _ _ _ _ _ H)) as (_ & _ & _ & Er & Ee).
    split; [exact I'|].
    split; [unfold repo_exists; rewrite Ed, Er; unfold mhas; rewrite mget_del, seqb_refl; reflexivity|].
    split; [intros n; unfold entry_at; rewrite Ed, Ee, seqb_refl; reflexivity|].
    split; [intros c id; unfold repo_file, file_content; rewrite (dr_name_r _ _ _ Dr) by reflexivity; reflexivity|].
    split; [intros f; apply (dr_root_r _ _ _ Dr)|]. split; [intros f; apply (dr_asset_r _ _ _ Dr)|].
    split; [apply (dr_dir_r _ _ _ Dr)|].
    split.
    { intros x N. split; [unfold repo_exists; rewrite Ed, Er; unfold mhas; rewrite mget_del_ne by exact N; reflexivity|].
      intros n. unfold entry_at. rewrite Ed, Ee. destruct (seqb_spec x r); [contradiction|reflexivity]. }
    assert (Ep : d_pool (st_db s') = d_pool (unrefs (all_ids (st_db s) r) (st_db s))) by (rewrite Ed; apply db_delete_pool).
    split.
    { intros id N. unfold pool_at. rewrite Ep. apply (unrefs_pool_ne cat); [|exact D].
      intros Hin. apply N. apply (listed_lists cat s r id D). apply (all_ids_in cat); auto. }
    split.
    { intros id L. pose proof L as L'. apply (listed_lists cat s r id D) in L. apply (all_ids_in cat) in L; [|exact D].
      unfold pool_at. rewrite Ep, (unrefs_pool_in cat) by (auto; apply (all_ids_nodup' cat), D).
      pose proof (proj2 (inv_safe E cat _ _ _ H) _ _ L') as Np. unfold pool_at in Np.
      destruct (mget (d_pool (st_db s)) id) as [p|] eqn:G; [|congruence]. apply (refcount_one _ _ p); auto. }
    intros id p' G'. unfold pool_at in G'. rewrite Ep in G'. apply (shrink_unrefs cat _ _ D) in G'. destruct G' as (p & A & B & C). exists p. auto.
Qed.

(** ** C13 create *)
Lemma create_facts ex fz s o r : Inv ex fz [] s -> good_oracle o ->
  let s' := after E o (OpCreate r) s in
  (repo_exists s r = true \/ f_dir (st_fs s) r = true \/ reserved r = true ->
     outcome E o (OpCreate r) s = Err /\ unchanged s s') /\
  (repo_exists s r = false -> f_dir (st_fs s) r = false -> reserved r = false ->
     repo_exists s' r = true /\ (forall n, entry_at s' r n = None) /\
     (forall x, x <> r -> same_listings x s s') /\ (forall id, pool_at s' id = pool_at s id) /\
     (forall l, file_content (st_fs s') l = file_content (st_fs s) l)).
Proof.
  intros H Ho s'.
  destruct (run_unit (api_create E o r) _ _ s o (OpCreate r) eq_refl (wp_api_create E cat Hcat HE ex fz o r s H Ho)) as (res & (I' & Np & W) & Hout).
  fold s' in I', W. split.
  - intros Ex. destruct W as [(-> & Q & _)|(s1 & I1 & (C1 & C2 & C3 & _) & _)].
    + split; [exact Hout|]. apply unchanged_dir with (r := r), Q.
    + exfalso. unfold repo_exists in Ex. destruct Ex as [X|[X|X]]; congruence.
  - intros N1 N2 N3. destruct W as [(-> & Q & Ex)|(s1 & I1 & (C1 & C2 & C3 & C4 & C5 & C6 & C7) & X)].
    + exfalso. unfold repo_exists in N1. destruct Ex as [X|[X|X]]; congruence.
    + pose proof (indexed_db E cat _ _ _ _ _ X) as Ed. rewrite C4 in Ed.
      assert (Hn : forall n, mget (d_ents (st_db s) r) n = None).
      { intros n. destruct (mget (d_ents (st_db s) r) n) as [e|] eqn:G; [|reflexivity].
        pose proof (ok_repo _ _ (i_db _ _ _ _ _ _ H) _ _ _ G). congruence. }
      split; [unfold repo_exists; rewrite Ed; unfold mhas, db_create; simpl; rewrite mget_put_eq; reflexivity|].
      split; [intros n; unfold entry_at; rewrite Ed; apply Hn|].
      split. { intros x N. split; [|intros n; unfold entry_at; rewrite Ed; reflexivity].
        unfold repo_exists; rewrite Ed; unfold mhas, db_create; simpl; rewrite mget_put_ne by exact N; reflexivity. }
      split; [intros id; unfold pool_at; rewrite Ed; reflexivity|].
      intros l. rewrite <- (same_files_content _ _ l C5).
      inversion X as [Hr Es Eres|s2 re Hr Q2 R2 Eres]; [rewrite Es; reflexivity|].
      rewrite (same_files_content _ _ l (qr_files _ _ _ (ir_quiet _ _ _ _ _ _ _ R2))). apply same_files_content, (qd_files _ _ _ Q2).
Qed.
(** ** C14 clone *)
Lemma no_entries ex fz s r n : Inv ex fz [] s -> mhas (d_repos (st_db s)) r = false -> mget (d_ents (st_db s) r) n = None.
Proof.
  intros H Hr. destruct (mget (d_ents (st_db s) r) n) as [e|] eqn:G; [|reflexivity].
  pose proof (ok_repo _ _ (i_db _ _ _ _ _ _ H) _ _ _ G). congruence.
Qed.

Lemma rdeltas_ok r ids : forall d, db_ok cat d -> refs false d [] [] ->
  (forall id, In id ids -> is_delta_id id = true /\ mget (d_pool d) id <> None /\ mget (d_ents d r) (m_name (cat id)) <> None) ->
  let d' := db_rdeltas cat r ids d in
  d_repos d' = d_repos d /\ pool_grow d d' /\
  (forall r' n, avail_db d' r' n = avail_db d r' n) /\
  (forall n x, In x (deltas_db d' r n) <-> In x (deltas_db d r n) \/ (In x ids /\ m_name (cat x) = n)) /\
  (forall r', r' <> r -> d_ents d' r' = d_ents d r').
Proof.
  induction ids as [|id ids IH]; intros d H R Hi; simpl.
  { split; [reflexivity|]. split; [apply pool_grow_refl|]. split; [reflexivity|]. split; [intros; tauto|reflexivity]. }
  destruct (Hi id (or_introl eq_refl)) as (Hd & Hp & Hn).
  unfold db_rdelta at 1 2 3 4 5. destruct (mget (d_pool d) id) as [p|] eqn:G; [|congruence].
  pose proof (ok_pool _ _ H _ _ G) as Po. pose proof (po_name _ _ _ Po) as En.
  assert (K : db_delta cat r p d = db_delta cat r (set_rc p 1) d).
  { unfold db_delta, db_touch. simpl. rewrite En, G. reflexivity. }
  assert (Po1 : pentry_ok cat (p_name p) (set_rc p 1)) by (rewrite En; apply pentry_set_rc; [exact Po|lia]).
  destruct (db_delta_ok cat d r (set_rc p 1) H R Po1 eq_refl) as (A & B); [simpl; rewrite En; exact Hd|].
  rewrite <- K in A, B.
  pose proof (db_delta_grow cat r p d H) as Gr.
  destruct (IH (db_delta cat r p d) A B) as (A2 & B2 & C2 & D2 & E2).
  { intros x Hx. destruct (Hi x (or_intror Hx)) as (X1 & X2 & X3). split; [exact X1|]. split.
    - destruct (mget (d_pool d) x) as [q|] eqn:Gx; [|congruence]. destruct (Gr x q Gx) as (q' & -> & _). discriminate.
    - rewrite (db_delta_ents cat) by exact H. destruct (_ && _); [|exact X3].
      destruct (mget (d_ents d r) (m_name (cat x))); [discriminate|congruence]. }
  split; [rewrite A2; apply db_delta_repos|]. split; [eapply pool_grow_trans; eauto|].
  split; [intros r' n; rewrite C2; apply (db_delta_avail cat), H|].
  split; [|intros r' N; rewrite E2 by exact N; apply (db_delta_repo_other cat), N].
  intros n x. rewrite D2, (db_delta_deltas cat) by (rewrite ?En; auto). rewrite En. split.
  - intros [[X|[-> ->]]|[X1 X2]]; auto.
  - intros [X|[[<-|X1] X2]]; auto.
Qed.

Lemma refs_repos r ids : forall d, d_repos (db_refs cat r ids d) = d_repos d.
Proof. induction ids as [|id ids IH]; intros d; simpl; [reflexivity|]. rewrite IH. apply db_ref_repos. Qed.
Lemma rdeltas_repos r ids : forall d, d_repos (db_rdeltas cat r ids d) = d_repos d.
Proof.
  induction ids as [|id ids IH]; intros d; simpl; [reflexivity|]. rewrite IH. unfold db_rdelta.
  destruct (mget (d_pool d) id); [apply db_delta_repos|reflexivity].
Qed.
Lemma clone_repos full new src d : d_repos (db_clone cat full new src d) = mput (d_repos d) new tt.
Proof. unfold db_clone. destruct full; rewrite ?rdeltas_repos, refs_repos; reflexivity. Qed.

Lemma avail_ids_avail d r id : db_ok cat d -> In id (avail_ids d r) <-> In id (avail_db d r (m_name (cat id))).
Proof. apply (avail_ids_in cat). Qed.

Lemma db_clone_facts ex fz s src new full : Inv ex fz [] s ->
  mhas (d_repos (st_db s)) src = true -> mhas (d_repos (st_db s)) new = false -> reserved new = false ->
  let d' := db_clone cat full new src (st_db s) in
  (forall n x, In x (avail_db d' new n) <->
     if full then In x (avail_db (st_db s) src n)
     else exists e, mget (d_ents (st_db s) src) n = Some e /\ x = e_pub e) /\
  (forall n x, In x (deltas_db d' new n) <-> full = true /\ In x (deltas_db (st_db s) src n)) /\
  (forall x, x <> new -> d_ents d' x = d_ents (st_db s) x).
Proof.
  intros H Hs Hn Hres. pose proof (i_db _ _ _ _ _ _ H) as D.
  set (d := st_db s) in *. set (d1 := db_create new d).
  assert (D1 : db_ok cat d1) by (apply ok_putrepo; auto).
  assert (R1 : refs ex d1 [] []).
  { intros x. pose proof (i_refs _ _ _ _ _ _ H x) as R. unfold d1, db_create. rewrite (count_putrepo cat) by auto. exact R. }
  assert (Nd1 : nodelta ex d1) by exact (i_nod _ _ _ _ _ _ H).
  assert (Hr1 : mhas (d_repos d1) new = true) by (unfold mhas, d1, db_create; simpl; rewrite mget_put_eq; reflexivity).
  assert (Hne : forall n, mget (d_ents d new) n = None) by (intros n; apply (no_entries ex fz s new n H Hn)).
  assert (Nsn : src <> new) by (intros ->; congruence).
  assert (A0 : forall n, avail_db d1 new n = []) by (intros n; unfold avail_db, d1; simpl; rewrite Hne; reflexivity).
  assert (E0 : forall n, deltas_db d1 new n = []) by (intros n; unfold deltas_db, d1; simpl; rewrite Hne; reflexivity).
  unfold db_clone. fold d1. destruct full.
  - assert (Hav : forall id, In id (avail_ids d1 src) -> is_delta_id id = false /\ mget (d_pool d1) id <> None)
      by exact (avail_refs E cat ex fz s src H).
    destruct (db_refs_ok cat Hcat ex new (avail_ids d1 src) d1 D1 R1 Nd1 Hr1 Hav) as (D2 & R2 & _ & _ & Gr).
    set (d2 := db_refs cat new (avail_ids d1 src) d1) in *.
    assert (Av2 : forall n x, In x (avail_db d2 new n) <-> In x (avail_db d src n)).
    { intros n x. unfold d2. rewrite (db_refs_avail cat), A0. rewrite avail_ids_avail by exact D1.
      change (avail_db d1 src) with (avail_db d src). split.
      - intros [[]|[X <-]]. exact X.
      - intros X. right. assert (m_name (cat x) = n) by (eapply avail_name; eauto). subst n. auto. }
    destruct (rdeltas_ok new (delta_ids d1 src) d2 D2 (refs_false _ _ _ _ R2)) as (_ & _ & A3 & B3 & C3).
    { intros id Hin. destruct (delta_refs E cat ex fz s src H id Hin) as (X1 & X2 & e & X3). split; [exact X1|]. split.
      - change (mget (d_pool (st_db s)) id <> None) with (mget (d_pool d1) id <> None) in X2.
        destruct (mget (d_pool d1) id) as [q|] eqn:Gq; [|congruence]. destruct (Gr id q Gq) as (q' & -> & _). discriminate.
      - intros Gn. pose proof (ok_ent _ _ D _ _ _ X3) as Eo.
        assert (In (e_pub e) (avail_db d2 new (m_name (cat id)))).
        { apply Av2. unfold avail_db. fold d in X3. rewrite X3. apply (eo_pub _ _ _ Eo). }
        unfold avail_db in H0. rewrite Gn in H0. destruct H0. }
    split; [intros n x; rewrite A3; apply Av2|]. split.
    + intros n x. rewrite B3. unfold d2. rewrite (db_refs_deltas cat) by apply E0.
      rewrite (delta_ids_in cat) by exact D1. change (deltas_db d1 src) with (deltas_db d src). split.
      * intros [[]|[X <-]]. auto.
      * intros [_ X]. right. split.
        -- unfold deltas_db in X |- *. destruct (mget (d_ents d src) n) as [e|] eqn:G; [|destruct X].
           destruct (eo_deltas _ _ _ (ok_ent _ _ D _ _ _ G) _ X) as [-> _]. rewrite G. exact X.
        -- unfold deltas_db in X. destruct (mget (d_ents d src) n) as [e|] eqn:G; [|destruct X].
           apply (eo_deltas _ _ _ (ok_ent _ _ D _ _ _ G) _ X).
    + intros x N. rewrite C3 by exact N. unfold d2. rewrite (db_refs_repo_other cat) by exact N. reflexivity.
  - split; [|split].
    + intros n x. rewrite (db_refs_avail cat), A0. unfold pub_ids. rewrite in_map_iff. split.
      * intros [[]|[([k e] & Ex & Hin) Hname]]. simpl in Ex. apply in_mlist in Hin. exists e. split; [|congruence].
        pose proof (ok_ent _ _ D _ _ _ Hin) as Eo. subst x. destruct (eo_avail _ _ _ Eo _ (eo_pub _ _ _ Eo)) as (Hk & _).
        rewrite Hk in Hname. subst k. exact Hin.
      * intros (e & G & ->). right. split; [exists (n, e); split; [reflexivity|apply in_mlist, G]|].
        pose proof (ok_ent _ _ D _ _ _ G) as Eo. apply (eo_avail _ _ _ Eo _ (eo_pub _ _ _ Eo)).
    + intros n x. rewrite (db_refs_deltas cat) by apply E0. split; [intros []|intros [X _]; discriminate].
    + intros x N. rewrite (db_refs_repo_other cat) by exact N. reflexivity.
Qed.

(** the listings a clone creates *)
Lemma clone_facts ex fz s o src new full : Inv ex fz [] s -> good_oracle o ->
  let s' := after E o (OpClone src new full) s in
  (repo_exists s src = false \/ repo_exists s new = true \/ f_dir (st_fs s) new = true \/ reserved new = true \/ src = new ->
     outcome E o (OpClone src new full) s = Err /\ unchanged s s') /\
  (repo_exists s src = true -> repo_exists s new = false -> f_dir (st_fs s) new = false -> reserved new = false ->
     repo_exists s' new = true /\
     (forall n, available_ids s' new n =
        if full then available_ids s src n else match published s src n with Some id => [id] | None => [] end) /\
     (forall n, delta_ids_of s' new n = if full then delta_ids_of s src n else []) /\
     (forall n, published_release s' new n = published_release s src n) /\
     (forall x, x <> new -> same_listings x s s') /\
     (forall a c, In a asset_names -> asset_file s src a = Some c -> asset_file s' new a = Some c)).
Proof.
  intros H Ho s'.
  destruct (run_unit (api_clone E o src new full) _ _ s o (OpClone src new full) eq_refl (wp_api_clone E cat Hcat HE ex fz o src new full s H Ho)) as (res & (I' & Np & W) & Hout).
  fold s' in I', W.
  split.
  - intros Ex. destruct W as [(-> & C1 & C2 & C3 & C4 & _)|(s1 & I1 & C & _)].
    + split; [exact Hout|]. apply unchanged_files; assumption.
    + exfalso. destruct C as (C1 & C2 & C3 & C4 & _). unfold repo_exists in Ex.
      destruct Ex as [X|[X|[X|[X|X]]]]; try congruence.
      assert (reserved new = false); [|congruence]. apply (ok_rname _ _ (i_db _ _ _ _ _ _ I1)).
      rewrite C4, clone_repos. unfold mhas. rewrite mget_put_eq. reflexivity.
  - intros N0 N1 N2 N3. destruct W as [(-> & C1 & C2 & C3 & C4 & Ex)|(s1 & I1 & C & X)].
    { exfalso. unfold repo_exists in *. destruct Ex as [Y|[Y|[Y|[Y|Y]]]]; try congruence. }
    destruct C as (C1 & C2 & C3 & C4 & C5 & C6 & C7).
    pose proof (indexed_db E cat _ _ _ _ _ X) as Ed. rewrite C4 in Ed.
    destruct (db_clone_facts ex fz s src new full H C1 C2 N3) as (Av & De & Ot).
    assert (Ea : forall n, available_ids s' new n =
        if full then available_ids s src n else match published s src n with Some id => [id] | None => [] end).
    { intros n. apply slt_ext.
      - eapply avail_sorted; eauto.
      - destruct full; [eapply avail_sorted; eauto|]. destruct (published s src n); repeat constructor.
      - intros x. change (available_ids s' new n) with (avail_db (st_db s') new n). rewrite Ed, Av. destruct full; [reflexivity|].
        unfold published, entry_at. destruct (mget (d_ents (st_db s) src) n) as [e|]; simpl.
        + split; [intros (e' & Z & ->); left; congruence|]. intros [<-|[]]. eauto.
        + split; [intros (e' & Z & _); discriminate|intros []]. }
    split; [unfold repo_exists; rewrite Ed, clone_repos; unfold mhas; rewrite mget_put_eq; reflexivity|].
    split; [exact Ea|].
    split.
    { intros n. apply slt_ext.
      - eapply deltas_sorted; eauto.
      - destruct full; [eapply deltas_sorted; eauto|constructor].
      - intros x. change (delta_ids_of s' new n) with (deltas_db (st_db s') new n). rewrite Ed, De.
        destruct full; [change (delta_ids_of s src n) with (deltas_db (st_db s) src n); tauto|]. split; [intros [Z _]; discriminate|intros []]. }
    split.
    { intros n. destruct full; [eapply same_avail_pub; eauto|].
      specialize (Ea n). unfold published in Ea. unfold available_ids in Ea.
      destruct (entry_at s src n) as [e|] eqn:G.
      - destruct (entry_at s' new n) as [e'|] eqn:G'; [|discriminate].
        rewrite (pub_rel _ _ _ _ _ _ H G), (pub_rel _ _ _ _ _ _ I' G'). f_equal. f_equal. f_equal.
        pose proof (eo_pub _ _ _ (ok_ent _ _ (i_db _ _ _ _ _ _ I') _ _ _ G')) as P. rewrite Ea in P.
        destruct P as [<-|[]]. reflexivity.
      - destruct (entry_at s' new n) as [e'|] eqn:G'; [|rewrite !pub_rel_none by assumption; reflexivity].
        destruct (eo_nonempty _ _ _ (ok_ent _ _ (i_db _ _ _ _ _ _ I') _ _ _ G')). exact Ea. }
    split.
    { intros x N. split; [unfold repo_exists; rewrite Ed, clone_repos; unfold mhas; rewrite mget_put_ne by exact N; reflexivity|].
      intros n. unfold entry_at. rewrite Ed, Ot by exact N. reflexivity. }
    intros a c Hin Ha. unfold asset_file in *.
    assert (Es : f_asset (st_fs s1) new a = Some c).
    { rewrite C7. unfold pulled. rewrite (proj2 (sin_In _ _) Hin), Ha.
      destruct (seqb_spec new src) as [->|N]; [congruence|reflexivity]. }
    inversion X as [Hr Es' Eres|s2 re Hr Q2 R2 Eres]; [rewrite Es'; exact Es|].
    rewrite (qr_asset _ _ _ (ir_quiet _ _ _ _ _ _ _ R2)), (qd_asset _ _ _ Q2). exact Es.
Qed.

(** ** C15 pull *)
Lemma sane_local d d' r id : mget (d_ents d' r) (m_name (cat id)) = mget (d_ents d r) (m_name (cat id)) ->
  sane cat d' r id = sane cat d r id.
Proof. intros G. unfold sane. rewrite G. reflexivity. Qed.
Lemma db_ref_local d d' r id : mget (d_ents d' r) (m_name (cat id)) = mget (d_ents d r) (m_name (cat id)) ->
  mget (d_ents (db_ref cat r id d') r) (m_name (cat id)) = mget (d_ents (db_ref cat r id d) r) (m_name (cat id)).
Proof.
  intros G. rewrite !(db_ref_put cat), !(put_ents cat) by apply bump_ents. rewrite !seqb_refl. simpl.
  rewrite (sane_local d d') by exact G. destruct (sane cat d r id); [reflexivity|exact G].
Qed.
Lemma db_refs_one r ids : forall d id, NoDup (map (fun x => m_name (cat x)) ids) -> In id ids ->
  mget (d_ents (db_refs cat r ids d) r) (m_name (cat id)) = mget (d_ents (db_ref cat r id d) r) (m_name (cat id)).
Proof.
  induction ids as [|y ids IH]; intros d id ND Hin; [destruct Hin|]. simpl in *. inversion ND as [|? ? Ny ND']; subst.
  destruct Hin as [->|Hin].
  - rewrite (db_refs_ents_other cat); [reflexivity|]. right. intros x Hx Ex. apply Ny. rewrite <- Ex.
    apply (in_map (fun x => m_name (cat x))), Hx.
  - rewrite IH by assumption. apply db_ref_local. apply (db_ref_ents_other cat). right. intros Ex. apply Ny. rewrite <- Ex.
    apply (in_map (fun x => m_name (cat x))), Hin.
Qed.

Lemma behind_spec ex fz s src tgt n : Inv ex fz [] s ->
  behind s src tgt n <-> exists e, entry_at s src n = Some e /\ src_newer cat (st_db s) tgt e = true.
Proof.
  intros H. unfold behind. split.
  - intros (a & Pa & C). destruct (entry_at s src n) as [e|] eqn:G; [|rewrite pub_rel_none in Pa by exact G; discriminate].
    exists e. split; [reflexivity|]. rewrite (pub_rel _ _ _ _ _ _ H G) in Pa. injection Pa as <-.
    pose proof (eo_name _ _ _ (ok_ent _ _ (i_db _ _ _ _ _ _ H) _ _ _ G)) as En.
    unfold src_newer. rewrite En. fold (entry_at s tgt n). destruct (entry_at s tgt n) as [le|] eqn:G'; [|reflexivity].
    rewrite (pub_rel _ _ _ _ _ _ H G') in C. apply Z.ltb_lt, C.
  - intros (e & G & C). exists (rel (cat (e_pub e))). split; [apply (pub_rel _ _ _ _ _ _ H G)|].
    pose proof (eo_name _ _ _ (ok_ent _ _ (i_db _ _ _ _ _ _ H) _ _ _ G)) as En.
    unfold src_newer in C. rewrite En in C. fold (entry_at s tgt n) in C. destruct (entry_at s tgt n) as [le|] eqn:G'.
    + rewrite (pub_rel _ _ _ _ _ _ H G'). apply Z.ltb_lt, C.
    + rewrite pub_rel_none by exact G'. exact I.
Qed.
Lemma blocked_spec ex fz s src tgt : Inv ex fz [] s ->
  pull_blocked cat (st_db s) tgt src = true <-> exists n, ahead s src tgt n.
Proof.
  intros H. unfold pull_blocked. rewrite existsb_exists. split.
  - intros ([n e] & Hin & C). apply in_mlist in Hin. simpl in C. exists n.
    pose proof (eo_name _ _ _ (ok_ent _ _ (i_db _ _ _ _ _ _ H) _ _ _ Hin)) as En.
    unfold tgt_newer in C. rewrite En in C. fold (entry_at s tgt n) in C. destruct (entry_at s tgt n) as [le|] eqn:G'; [|discriminate].
    exists (rel (cat (e_pub e))), (rel (cat (e_pub le))). split; [apply (pub_rel _ _ _ _ _ _ H Hin)|].
    split; [apply (pub_rel _ _ _ _ _ _ H G')|]. apply Z.ltb_lt, C.
  - intros (n & a & b & Pa & Pb & L).
    destruct (entry_at s src n) as [e|] eqn:G; [|rewrite pub_rel_none in Pa by exact G; discriminate].
    destruct (entry_at s tgt n) as [le|] eqn:G'; [|rewrite pub_rel_none in Pb by exact G'; discriminate].
    rewrite (pub_rel _ _ _ _ _ _ H G) in Pa. injection Pa as <-. rewrite (pub_rel _ _ _ _ _ _ H G') in Pb. injection Pb as <-.
    exists (n, e). split; [apply in_mlist, G|]. simpl. unfold tgt_newer.
    rewrite (eo_name _ _ _ (ok_ent _ _ (i_db _ _ _ _ _ _ H) _ _ _ G)). fold (entry_at s tgt n). rewrite G'. apply Z.ltb_lt, L.
Qed.
Lemma pull_name_of ex fz s src e k : Inv ex fz [] s -> mget (d_ents (st_db s) src) k = Some e ->
  m_name (cat (e_pub e)) = e_name e.
Proof.
  intros H G. pose proof (ok_ent _ _ (i_db _ _ _ _ _ _ H) _ _ _ G) as Eo.
  rewrite (eo_name _ _ _ Eo). apply (eo_avail _ _ _ Eo _ (eo_pub _ _ _ Eo)).
Qed.
Lemma map_names_nodup d r (f : string * entry -> bool) : db_ok cat d ->
  NoDup (map (fun ke => e_name (snd ke)) (filter f (mlist (d_ents d r)))).
Proof.
  intros H.
  assert (G : map (fun ke => e_name (snd ke)) (filter f (mlist (d_ents d r))) = map fst (filter f (mlist (d_ents d r)))).
  { apply map_ext_in. intros [n e] Hin. apply filter_In in Hin. destruct Hin as [Hin _]. apply in_mlist in Hin.
    apply (eo_name _ _ _ (ok_ent _ _ H _ _ _ Hin)). }
  rewrite G. clear G. pose proof (mkeys_nodup (d_ents d r)) as ND. unfold mkeys in ND. revert ND.
  generalize (mlist (d_ents d r)). induction l as [|x l IH]; simpl; intros ND; [constructor|].
  inversion ND as [|? ? Nx ND']; subst. destruct (f x); simpl; [|auto]. constructor; [|auto].
  intros Hin. apply Nx. apply in_map_iff in Hin. destruct Hin as (y & <- & Hy). apply filter_In in Hy. apply in_map, Hy.
Qed.
Lemma pull_fst_names ex fz s tgt src : Inv ex fz [] s ->
  map (fun x => m_name (cat x)) (map fst (pull_names cat (st_db s) tgt src)) = map snd (pull_names cat (st_db s) tgt src).
Proof.
  intros H. unfold pull_names. rewrite !map_map. apply map_ext_in. intros [k e] Hin. apply filter_In in Hin.
  destruct Hin as [Hin _]. apply in_mlist in Hin. simpl. eapply pull_name_of; eauto.
Qed.
Lemma pull_snd_in ex fz s tgt src n : Inv ex fz [] s ->
  In n (map snd (pull_names cat (st_db s) tgt src)) <-> behind s src tgt n.
Proof.
  intros H. rewrite (behind_spec ex fz) by exact H. unfold pull_names. rewrite map_map. simpl. rewrite in_map_iff. split.
  - intros ([k e] & <- & Hin). apply filter_In in Hin. destruct Hin as [Hin C]. apply in_mlist in Hin. simpl in *.
    exists e. rewrite (eo_name _ _ _ (ok_ent _ _ (i_db _ _ _ _ _ _ H) _ _ _ Hin)). auto.
  - intros (e & G & C). exists (n, e). split; [apply (eo_name _ _ _ (ok_ent _ _ (i_db _ _ _ _ _ _ H) _ _ _ G))|].
    apply filter_In. split; [apply in_mlist, G|exact C].
Qed.

Lemma pull_facts ex fz s o src tgt : Inv ex fz [] s -> good_oracle o ->
  let s' := after E o (OpPull src tgt) s in
  let res := outcome E o (OpPull src tgt) s in
  ((repo_exists s src = false \/ repo_exists s tgt = false \/ exists n, ahead s src tgt n) ->
     res = Err /\ st_db s' = st_db s /\ (forall l, file_content (st_fs s') l = file_content (st_fs s) l) /\
     (forall r f, index_file s' r f = index_file s r f)) /\
  (repo_exists s src = true -> repo_exists s tgt = true -> (forall n, ~ ahead s src tgt n) ->
     (forall l, res = Ok l -> NoDup l /\ forall n, In n l <-> behind s src tgt n) /\
     (forall n, behind s src tgt n ->
        published s' tgt n = published s src n /\
        forall id, In id (available_ids s' tgt n) <-> In id (available_ids s tgt n) \/ published s src n = Some id) /\
     (forall n, ~ behind s src tgt n -> entry_at s' tgt n = entry_at s tgt n) /\
     (forall x, x <> tgt -> same_listings x s s')).
Proof.
  intros H Ho s' res.
  destruct (wp_api_pull E cat Hcat HE ex fz o src tgt s H Ho) as (_ & I' & Np & W).
  change (final_of (api_pull E o src tgt s)) with s' in *. change (result_of (api_pull E o src tgt s)) with res in *.
  pose proof (i_db _ _ _ _ _ _ H) as D.
  split.
  - intros Ex. destruct W as [(Er & (Ed & Sf & _) & Rt & _)|(s1 & ch & rs & I1 & ((C1 & C2 & C3 & _) & _) & _)].
    + split; [exact Er|]. split; [exact Ed|]. split; [intros l; apply same_files_content, Sf|].
      intros r f. unfold index_file. rewrite Rt. reflexivity.
    + exfalso. unfold repo_exists in Ex. destruct Ex as [X|[X|X]]; try congruence. apply (blocked_spec ex fz) in X; [congruence|exact H].
  - intros N0 N1 N2. destruct W as [(Er & (Ed & Sf & Ex) & _)|(s1 & ch & rs & I1 & ((C1 & C2 & C3 & C4 & C5) & _) & X & Rs)].
    { exfalso. unfold repo_exists in *. destruct Ex as [Y|[Y|Y]]; try congruence. apply (blocked_spec ex fz) in Y; [|exact H].
      destruct Y as (n & Y). apply (N2 n Y). }
    pose proof (indexed_db E cat _ _ _ _ _ X) as Ed. rewrite C5 in Ed. unfold db_pull in Ed.
    assert (NDn : NoDup (map snd (pull_names cat (st_db s) tgt src))).
    { unfold pull_names. rewrite map_map. simpl. apply map_names_nodup, D. }
    split.
    { intros l El. destruct Rs as [[R1 _]|[R1 _]]; [|congruence]. assert (l = ch) by congruence. subst l ch.
      split; [exact NDn|]. intros n. eapply pull_snd_in; eauto. }
    split.
    { intros n B. pose proof B as B'. apply (behind_spec ex fz) in B'; [|exact H]. destruct B' as (e & G & Nw).
      pose proof (ok_ent _ _ D _ _ _ G) as Eo.
      assert (Hn : m_name (cat (e_pub e)) = n) by apply (eo_avail _ _ _ Eo _ (eo_pub _ _ _ Eo)).
      assert (Hin : In (e_pub e) (map fst (pull_names cat (st_db s) tgt src))).
      { unfold pull_names. rewrite map_map. simpl. apply in_map_iff. exists (n, e). split; [reflexivity|].
        apply filter_In. split; [apply in_mlist, G|exact Nw]. }
      assert (Hfresh : ~ In (e_pub e) (avail_db (st_db s) tgt n)).
      { unfold avail_db. fold (entry_at s tgt n). destruct (entry_at s tgt n) as [le|] eqn:G'; [|intros []].
        intros Y. destruct (eo_avail _ _ _ (ok_ent _ _ D _ _ _ G') _ Y) as (_ & _ & L).
        unfold src_newer in Nw. rewrite (eo_name _ _ _ Eo) in Nw. fold (entry_at s tgt n) in Nw. rewrite G' in Nw. apply Z.ltb_lt in Nw. lia. }
      assert (Ge : entry_at s' tgt n = mget (d_ents (db_ref cat tgt (e_pub e) (st_db s)) tgt) n).
      { unfold entry_at. rewrite Ed. rewrite <- Hn. apply db_refs_one; [|exact Hin].
        rewrite (pull_fst_names ex fz) by exact H. exact NDn. }
      assert (Av : forall id, In id (available_ids s' tgt n) <-> In id (available_ids s tgt n) \/ published s src n = Some id).
      { intros id. change (available_ids s' tgt n) with (avail_db (st_db s') tgt n). unfold avail_db at 1. fold (entry_at s' tgt n). rewrite Ge.
        fold (avail_db (db_ref cat tgt (e_pub e) (st_db s)) tgt n). rewrite (db_ref_put cat), (put_avail cat) by apply bump_ents.
        change (available_ids s tgt n) with (avail_db (st_db s) tgt n). unfold published. rewrite G. rewrite Hn.
        split; (intros [Y|Y]; [left; exact Y|right]); [destruct Y as [-> _]; reflexivity|injection Y as <-; auto]. }
      split; [|exact Av].
      unfold published. rewrite G. destruct (entry_at s' tgt n) as [e'|] eqn:G'.
      - f_equal. rewrite <- Hn in Ge. symmetry in Ge. rewrite (db_ref_pub cat tgt (e_pub e) (st_db s) e' Ge) by (rewrite Hn; exact Hfresh).
        rewrite Hn. fold (entry_at s tgt n). destruct (entry_at s tgt n) as [le|] eqn:G2; [|reflexivity].
        unfold src_newer in Nw. rewrite (eo_name _ _ _ Eo) in Nw. fold (entry_at s tgt n) in Nw. rewrite G2 in Nw. rewrite Nw. reflexivity.
      - exfalso. specialize (Av (e_pub e)). unfold available_ids at 1 in Av. rewrite G' in Av. apply Av. right. unfold published. rewrite G. reflexivity. }
    split.
    { intros n B. unfold entry_at. rewrite Ed. apply (db_refs_ents_other cat). right. intros id Hin Hname. apply B.
      apply (pull_snd_in ex fz); [exact H|]. rewrite <- (pull_fst_names ex fz) by exact H. rewrite <- Hname.
      apply (in_map (fun x => m_name (cat x))), Hin. }
    intros x N. apply same_listings_db; rewrite Ed; [apply refs_repos|apply (db_refs_repo_other cat), N].
Qed.

(** ** C16, C17 *)
Lemma src_ids_spec ex fz s r source rl id : Inv ex fz [] s ->
  In id (src_ids cat (st_db s) r source rl) <-> from_source s r source rl id.
Proof.
  intros H. unfold src_ids. rewrite filter_In, avail_ids_avail by apply (i_db _ _ _ _ _ _ H). unfold from_source.
  unfold src_matches. rewrite andb_true_iff, orb_true_iff, seqb_eq, Z.leb_le, Z.eqb_eq. split.
  - intros (A & B & C). split; [apply avail_in; eauto|].
    destruct (avail_in_pool ex fz s r _ id H A) as (p & G). exists p. split; [exact G|].
    destruct (pool_cat ex fz s id p H G) as (_ & -> & ->). auto.
  - intros (A & p & G & B & C). destruct (pool_cat ex fz s id p H G) as (_ & E1 & E2). rewrite E1 in B. rewrite E2 in C.
    split; [|auto]. apply avail_in in A. destruct A as (n & A). rewrite (avail_name ex fz s r n id H A). exact A.
Qed.
Lemma src_ids_nil ex fz s r source rl : Inv ex fz [] s ->
  src_ids cat (st_db s) r source rl = [] <-> forall id, ~ from_source s r source rl id.
Proof.
  intros H. split.
  - intros Es id Y. apply (src_ids_spec ex fz) in Y; [|exact H]. rewrite Es in Y. destruct Y.
  - intros Y. destruct (src_ids cat (st_db s) r source rl) as [|x l] eqn:Es; [reflexivity|]. exfalso. apply (Y x).
    apply (src_ids_spec ex fz); [exact H|]. rewrite Es. left; reflexivity.
Qed.
Lemma uses_spec s d id : delta_uses (st_db s) id d = true <-> delta_touches s d id.
Proof.
  unfold delta_uses, delta_touches, pool_at. split.
  - destruct (mget (d_pool (st_db s)) d) as [p|]; [|discriminate]. destruct (p_delta p) as [di|] eqn:Ed; [|discriminate].
    intros Y. apply orb_true_iff in Y. rewrite !seqb_eq in Y. eauto 6.
  - intros (p & di & -> & -> & Y). apply orb_true_iff. rewrite !seqb_eq. exact Y.
Qed.

(** what a removal of the IDs [ids] from [r] does to the listings *)
Lemma removed_facts ex fz s s' r ids (sel : string -> Prop) : Inv ex fz [] s ->
  NoDup ids -> (forall id, In id ids <-> available s r id /\ sel id) ->
  st_db s' = db_unref_pkgs cat r ids (st_db s) ->
  (forall id, available s' r id <-> available s r id /\ ~ sel id) /\
  (forall n id, In id (available_ids s' r n) <-> In id (available_ids s r n) /\ ~ sel id) /\
  (forall n d, In d (delta_ids_of s' r n) <->
     In d (delta_ids_of s r n) /\ available_ids s' r n <> [] /\
     ~ exists id, In id (available_ids s r n) /\ sel id /\ delta_touches s d id) /\
  (forall x, x <> r -> same_listings x s s').
Proof.
  intros H ND Hsel Ed. pose proof (i_db _ _ _ _ _ _ H) as D.
  assert (Hin : forall id, In id ids -> In id (avail_db (st_db s) r (m_name (cat id)))).
  { intros id Hid. apply Hsel in Hid. destruct Hid as [A _]. apply avail_in in A. destruct A as (n & A).
    rewrite (avail_name ex fz s r n id H A). exact A. }
  destruct (unref_pkgs_ok cat Hcat ex r ids (st_db s) D (i_refs _ _ _ _ _ _ H) (i_nod _ _ _ _ _ _ H) ND Hin) as (_ & _ & _ & Er & _ & Av & Ot).
  assert (A1 : forall n id, In id (available_ids s' r n) <-> In id (available_ids s r n) /\ ~ sel id).
  { intros n id. change (available_ids s' r n) with (avail_db (st_db s') r n). rewrite Ed, Av.
    change (available_ids s r n) with (avail_db (st_db s) r n). split; intros [X Y]; (split; [exact X|]).
    - intros Z. apply Y, Hsel. split; [apply avail_in; eauto|exact Z].
    - intros Z. apply Y. apply Hsel, Z. }
  split. { intros id. rewrite !avail_in. split.
    - intros (n & X). apply A1 in X. destruct X as [X Y]. split; [exists n; exact X|exact Y].
    - intros ((n & X) & Y). exists n. apply A1. auto. }
  split; [exact A1|]. split.
  - intros n d. change (delta_ids_of s' r n) with (deltas_db (st_db s') r n). rewrite Ed.
    rewrite (unref_pkgs_deltas cat Hcat ex r ids (st_db s) D (i_refs _ _ _ _ _ _ H) (i_nod _ _ _ _ _ _ H) ND Hin).
    rewrite <- Ed. change (available_ids s' r n) with (avail_db (st_db s') r n). change (delta_ids_of s r n) with (deltas_db (st_db s) r n).
    split; intros (X & Y & Z); (split; [exact X|split; [exact Y|]]).
    + intros (id & I1 & I2 & I3). change (available_ids s r n) with (avail_db (st_db s) r n) in I1.
      assert (Hid : In id ids) by (apply Hsel; split; [apply avail_in; eauto|exact I2]).
      apply uses_spec in I3. rewrite (Z id Hid) in I3; [discriminate|]. symmetry. eapply avail_name; eauto.
    + intros id Hid ->. destruct (delta_uses (st_db s) id d) eqn:Du; [|reflexivity]. exfalso. apply Z. exists id.
      split; [apply Hin, Hid|]. split; [apply Hsel, Hid|apply uses_spec, Du].
  - intros x N. apply same_listings_db; rewrite Ed; [exact Er|apply Ot, N].
Qed.

Lemma then_indexed_db ex fz o r R s' res : then_indexed E cat ex fz o r R s' res ->
  (res = Err /\ R s' Err) \/ exists s1, Inv ex fz [] s1 /\ R s1 (Ok tt) /\ indexed E cat o r s1 s' res /\ st_db s' = st_db s1.
Proof.
  intros (_ & _ & [W|(s1 & I1 & C & X)]); [left; exact W|]. right. exists s1.
  split; [exact I1|]. split; [exact C|]. split; [exact X|]. apply (indexed_db E cat _ _ _ _ _ X).
Qed.

Lemma remove_source_facts ex fz s o r source rl : Inv ex fz [] s -> good_oracle o ->
  let p := OpRemoveSource r source rl in
  let s' := after E o p s in
  ((repo_exists s r = false \/ forall id, ~ from_source s r source rl id) -> outcome E o p s = Err /\ unchanged s s') /\
  (repo_exists s r = true -> (exists id, from_source s r source rl id) ->
     (forall id, available s' r id <-> available s r id /\ ~ from_source s r source rl id) /\
     (forall n d, In d (delta_ids_of s' r n) <->
        In d (delta_ids_of s r n) /\ available_ids s' r n <> [] /\
        ~ exists id, In id (available_ids s r n) /\ from_source s r source rl id /\ delta_touches s d id) /\
     (forall x, x <> r -> same_listings x s s')).
Proof.
  intros H Ho p s'.
  destruct (run_unit (api_remove_source E o r source rl) _ _ s o p eq_refl (wp_api_remove_source E cat Hcat HE ex fz o r source rl s H Ho)) as (res & W & Hout).
  fold s' in W. apply then_indexed_db in W. split.
  - intros Ex. destruct W as [(-> & (Ed & Sf & _) & R1 & R2)|(s1 & I1 & ((C1 & C2 & C3) & _) & _)].
    + split; [exact Hout|]. apply unchanged_files; assumption.
    + exfalso. unfold repo_exists in Ex. destruct Ex as [X|X]; [congruence|]. apply C2. apply (src_ids_nil ex fz); assumption.
  - intros N0 (x0 & Hx0). destruct W as [(-> & (Ed & Sf & Ex) & R1 & R2)|(s1 & I1 & ((C1 & C2 & C3) & _) & _ & Ed)].
    { exfalso. unfold repo_exists in N0. destruct Ex as [X|X]; [congruence|]. rewrite (src_ids_nil ex fz) in X by exact H. apply (X x0 Hx0). }
    rewrite C3 in Ed.
    destruct (removed_facts ex fz s s' r (src_ids cat (st_db s) r source rl) (from_source s r source rl) H) as (A & _ & B & C).
    + apply NoDup_filter, (avail_ids_nodup cat), (i_db _ _ _ _ _ _ H).
    + intros id. rewrite (src_ids_spec ex fz) by exact H. unfold from_source. tauto.
    + exact Ed.
    + auto.
Qed.

Lemma copy_source_facts ex fz s o src tgt source rl sk : Inv ex fz [] s -> good_oracle o ->
  let p := OpCopySource src tgt source rl sk in
  let s' := after E o p s in
  ((repo_exists s src = false \/ repo_exists s tgt = false \/ forall id, ~ from_source s src source rl id) ->
     outcome E o p s = Err /\ unchanged s s') /\
  (repo_exists s src = true -> repo_exists s tgt = true -> (exists id, from_source s src source rl id) ->
     (forall id, available s' tgt id <-> available s tgt id \/ from_source s src source rl id) /\
     (forall x, x <> tgt -> same_listings x s s')) /\
  (sk = false -> forall r f, index_file s' r f = index_file s r f) /\
  (sk = false -> repo_exists s src = true -> repo_exists s tgt = true -> (exists id, from_source s src source rl id) ->
     succeeds E o p s).
Proof.
  intros H Ho p s'.
  destruct (run_unit (api_copy_source E o src tgt source rl sk) _ _ s o p eq_refl (wp_api_copy_source E cat Hcat HE ex fz o src tgt source rl sk s H Ho)) as (res & W & Hout).
  fold s' in W.
  assert (W' : (res = Err /\ copied cat src tgt source rl s s' Err) \/
     exists s1, Inv ex fz [] s1 /\ copied cat src tgt source rl s s1 (Ok tt) /\ st_db s' = st_db s1 /\
       (sk = false -> s1 = s' /\ res = Ok tt)).
  { destruct sk.
    - apply then_indexed_db in W. destruct W as [W|(s1 & I1 & C & _ & Ed)]; [left; exact W|right]. exists s1. split; [exact I1|]. split; [exact C|]. split; [exact Ed|]. discriminate.
    - destruct W as (I' & Np & C). destruct res as [[]| |]; [right|left; auto|congruence]. exists s'. auto. }
  clear W.
  assert (Bad : repo_exists s src = true -> repo_exists s tgt = true -> (exists id, from_source s src source rl id) ->
     ~ (mhas (d_repos (st_db s)) src = false \/ mhas (d_repos (st_db s)) tgt = false \/ src_ids cat (st_db s) src source rl = [])).
  { intros N0 N1 (x0 & Hx0) [X|[X|X]]; unfold repo_exists in *; try congruence. rewrite (src_ids_nil ex fz) in X by exact H. apply (X x0 Hx0). }
  split; [|split; [|split]].
  - intros Ex. destruct W' as [(-> & (Ed & Sf & _) & R1 & R2)|(s1 & I1 & ((C1 & C2 & C3 & C4) & _) & _)].
    + split; [exact Hout|]. apply unchanged_files; assumption.
    + exfalso. unfold repo_exists in Ex. destruct Ex as [X|[X|X]]; try congruence. apply C3, (src_ids_nil ex fz); assumption.
  - intros N0 N1 Hx. destruct W' as [(-> & (Ed & Sf & Ex) & R1 & R2)|(s1 & I1 & ((C1 & C2 & C3 & C4) & _) & Ed & _)].
    { exfalso. exact (Bad N0 N1 Hx Ex). }
    rewrite C4 in Ed. split.
    + intros id. rewrite <- (src_ids_spec ex fz) by exact H. rewrite !avail_in, Ed. split.
      * intros (n & X). apply (db_refs_avail cat) in X. destruct X as [X|[X _]]; [left; eauto|right; exact X].
      * intros [(n & X)|X]; [exists n|exists (m_name (cat id))]; apply (db_refs_avail cat); auto.
    + intros x N. apply same_listings_db; rewrite Ed; [apply refs_repos|apply (db_refs_repo_other cat), N].
  - intros Hsk r f. unfold index_file. destruct W' as [(_ & _ & R1 & _)|(s1 & _ & (_ & R1 & _) & _ & Hs)]; [rewrite R1; reflexivity|].
    destruct (Hs Hsk) as [<- _]. rewrite R1. reflexivity.
  - intros Hsk N0 N1 Hx. destruct W' as [(_ & (Ed & Sf & Ex) & _)|(s1 & _ & _ & _ & Hs)]; [destruct (Bad N0 N1 Hx Ex)|].
    destruct (Hs Hsk) as [_ ->]. exists []. exact Hout.
Qed.
End Facts.
