(** * Pure: what repeated references and removals do to a repository's listings
    (proof artifact) *)
From Verif Require Import Model Spec DbInv DbOps.

Section Catalog.
Variable cat : string -> meta.
Hypothesis Hcat : good_catalog cat.

Definition avail_db (d : db) (r n : string) : list string :=
  match mget (d_ents d r) n with Some e => e_avail e | None => [] end.
Definition deltas_db (d : db) (r n : string) : list string :=
  match mget (d_ents d r) n with Some e => e_deltas e | None => [] end.

(** pool entries survive with the same metadata *)
Definition pool_grow (d d' : db) : Prop :=
  forall id p, mget (d_pool d) id = Some p ->
    exists p', mget (d_pool d') id = Some p' /\ p_meta p' = p_meta p /\ p_delta p' = p_delta p.
Definition pool_shrink (d d' : db) : Prop := pool_grow d' d.
Lemma pool_grow_refl d : pool_grow d d.
Proof. intros id p G. eauto. Qed.
Lemma pool_grow_trans d1 d2 d3 : pool_grow d1 d2 -> pool_grow d2 d3 -> pool_grow d1 d3.
Proof.
  intros A B id p G. destruct (A id p G) as (p2 & G2 & M2 & D2).
  destruct (B id p2 G2) as (p3 & G3 & M3 & D3). exists p3. split; [exact G3|]. split; congruence.
Qed.
Lemma grow_bump id d : db_ok cat d -> pool_grow d (d_bump id d).
Proof.
  intros H x p G. unfold d_bump. destruct (mget (d_pool d) id) as [q|] eqn:Gq; [|eauto].
  simpl. rewrite mget_put, (po_name _ _ _ (ok_pool _ _ H _ _ Gq)).
  destruct (seqb_spec x id) as [->|N]; [|eauto].
  assert (q = p) by congruence. subst q. exists (set_rc p (p_rc p + 1)). auto.
Qed.
Lemma grow_touch p d : db_ok cat d -> pool_grow d (db_touch p d).
Proof.
  intros H. unfold db_touch. destruct (mget (d_pool d) (p_name p)) eqn:G; [apply grow_bump, H|].
  intros x q Gx. simpl. rewrite mget_put. destruct (seqb_spec x (p_name p)) as [->|N]; [congruence|eauto].
Qed.
Lemma shrink_unref id d : db_ok cat d -> pool_shrink d (d_unref id d).
Proof.
  intros H x p. unfold d_unref. destruct (mget (d_pool d) id) as [q|] eqn:Gq; [|eauto].
  destruct (N.ltb _ _); simpl.
  - rewrite mget_put, (po_name _ _ _ (ok_pool _ _ H _ _ Gq)).
    destruct (seqb_spec x id) as [->|N]; [|eauto]. intros X; injection X as <-. exists q. auto.
  - rewrite mget_del. destruct (seqb x id); [discriminate|eauto].
Qed.
Lemma shrink_unrefs l : forall d, db_ok cat d -> pool_shrink d (unrefs l d).
Proof.
  induction l as [|x l IH]; intros d H; simpl; [apply pool_grow_refl|].
  eapply pool_grow_trans; [apply IH, ok_unref, H|apply shrink_unref, H].
Qed.

(** ** adding *)
Lemma sane_some d r id e :
  sane cat d r id = Some e ->
  e_name e = m_name (cat id) /\ e_deltas e = [] /\ ~ In id (avail_db d r (m_name (cat id))) /\
  e_avail e = sort_strings (avail_db d r (m_name (cat id)) ++ [id]) /\
  e_pub e = match mget (d_ents d r) (m_name (cat id)) with
            | None => id
            | Some e0 => if Z.ltb (rel (cat (e_pub e0))) (rel (cat id)) then id else e_pub e0
            end.
Proof.
  unfold sane, avail_db. destruct (mget (d_ents d r) (m_name (cat id))) as [e0|]; simpl.
  - destruct (sin id (e_avail e0)) eqn:S; [discriminate|]. intros X; injection X as <-. simpl.
    apply sin_not_In in S. repeat split; auto.
  - intros X; injection X as <-. simpl. repeat split; auto.
Qed.
Lemma sane_none d r id : sane cat d r id = None -> In id (avail_db d r (m_name (cat id))).
Proof.
  unfold sane, avail_db. destruct (mget (d_ents d r) (m_name (cat id))) as [e0|]; simpl; [|discriminate].
  destruct (sin id (e_avail e0)) eqn:S; [|discriminate]. intros _. apply sin_In, S.
Qed.

(* common shape of db_add and db_ref *)
Definition db_put (r id : string) (d1 d : db) : db :=
  match sane cat d r id with None => d | Some e => apply_op d1 (PutEnt r e) end.
Lemma db_ref_put r id d : db_ref cat r id d = db_put r id (d_bump id d) d.
Proof. reflexivity. Qed.
Lemma db_add_put r p d : db_add cat r p d = db_put r (p_name p) (db_touch p d) d.
Proof. reflexivity. Qed.

Lemma put_ents r id d1 d r' n :
  d_ents d1 = d_ents d ->
  mget (d_ents (db_put r id d1 d) r') n =
  if seqb r' r && seqb n (m_name (cat id)) then
    match sane cat d r id with Some e => Some e | None => mget (d_ents d r') n end
  else mget (d_ents d r') n.
Proof.
  intros E. unfold db_put. destruct (sane cat d r id) as [e|] eqn:S.
  - simpl. unfold fupd. rewrite E. destruct (seqb_spec r' r) as [->|N]; simpl; [|reflexivity].
    rewrite mget_put. destruct (sane_some _ _ _ _ S) as (-> & _). destruct (seqb n _); reflexivity.
  - destruct (seqb r' r && seqb n (m_name (cat id))); reflexivity.
Qed.
Lemma put_avail r id d1 d n x :
  d_ents d1 = d_ents d ->
  In x (avail_db (db_put r id d1 d) r n) <-> In x (avail_db d r n) \/ (x = id /\ n = m_name (cat id)).
Proof.
  intros E. unfold avail_db at 1. rewrite put_ents by exact E. rewrite seqb_refl. simpl.
  destruct (seqb_spec n (m_name (cat id))) as [->|N].
  - destruct (sane cat d r id) as [e|] eqn:S.
    + destruct (sane_some _ _ _ _ S) as (_ & _ & _ & -> & _). rewrite sort_strings_In, in_app_iff.
      simpl. intuition congruence.
    + apply sane_none in S. fold (avail_db d r (m_name (cat id))). intuition congruence.
  - fold (avail_db d r n). intuition congruence.
Qed.
Lemma put_repos r id d1 d : d_repos d1 = d_repos d -> d_repos (db_put r id d1 d) = d_repos d.
Proof. intros E. unfold db_put. destruct (sane cat d r id); simpl; auto. Qed.
Lemma put_pool r id d1 d : pool_grow d d1 -> pool_grow d (db_put r id d1 d).
Proof. intros G. unfold db_put. destruct (sane cat d r id); simpl; [exact G|apply pool_grow_refl]. Qed.

Definition db_refs (r : string) (ids : list string) (d : db) : db :=
  fold_left (fun d id => db_ref cat r id d) ids d.

Lemma db_ref_repos r id d : d_repos (db_ref cat r id d) = d_repos d.
Proof. apply put_repos, bump_repos. Qed.
Lemma db_ref_grow r id d : db_ok cat d -> pool_grow d (db_ref cat r id d).
Proof. intros H. apply put_pool, grow_bump, H. Qed.
Lemma db_ref_ents_other r id d r' n :
  r' <> r \/ n <> m_name (cat id) -> mget (d_ents (db_ref cat r id d) r') n = mget (d_ents d r') n.
Proof.
  intros Hn. rewrite db_ref_put, put_ents by apply bump_ents.
  destruct (seqb_spec r' r), (seqb_spec n (m_name (cat id))); simpl; try reflexivity. tauto.
Qed.

(* everything a run of references guarantees *)
Lemma db_refs_ok ex r ids : forall d,
  db_ok cat d -> refs ex d [] [] -> nodelta ex d -> mhas (d_repos d) r = true ->
  (forall id, In id ids -> is_delta_id id = false /\ mget (d_pool d) id <> None) ->
  db_ok cat (db_refs r ids d) /\ refs ex (db_refs r ids d) [] [] /\ nodelta ex (db_refs r ids d) /\
  d_repos (db_refs r ids d) = d_repos d /\ pool_grow d (db_refs r ids d).
Proof.
  induction ids as [|id ids IH]; intros d H R Hnd Hr Hi; simpl.
  { split; [exact H|]. split; [exact R|]. split; [exact Hnd|]. split; [reflexivity|apply pool_grow_refl]. }
  destruct (Hi id (or_introl eq_refl)) as [Hd Hp].
  destruct (mget (d_pool d) id) as [p|] eqn:G; [|congruence].
  destruct (db_ref_ok cat Hcat ex d r id p H R Hnd G Hd Hr) as (A & B & C).
  pose proof (db_ref_grow r id d H) as Gr.
  destruct (IH (db_ref cat r id d) A B C) as (A2 & B2 & C2 & D2 & E2).
  { rewrite db_ref_repos. exact Hr. }
  { intros x Hx. destruct (Hi x (or_intror Hx)) as [Hdx Hpx]. split; [exact Hdx|].
    destruct (mget (d_pool d) x) as [q|] eqn:Gx; [|congruence].
    destruct (Gr x q Gx) as (q' & -> & _). discriminate. }
  split; [exact A2|]. split; [exact B2|]. split; [exact C2|].
  split; [rewrite <- (db_ref_repos r id d); exact D2|]. eapply pool_grow_trans; eauto.
Qed.
Lemma db_refs_avail r ids : forall d n x,
  In x (avail_db (db_refs r ids d) r n) <-> In x (avail_db d r n) \/ (In x ids /\ m_name (cat x) = n).
Proof.
  induction ids as [|id ids IH]; intros d n x; simpl; [tauto|].
  rewrite IH, db_ref_put, put_avail by apply bump_ents. split.
  - intros [[A|[-> ->]]|[A B]]; auto.
  - intros [A|[[<-|A] B]]; auto.
Qed.
Lemma db_refs_ents_other r ids : forall d r' n,
  (r' <> r \/ forall id, In id ids -> m_name (cat id) <> n) ->
  mget (d_ents (db_refs r ids d) r') n = mget (d_ents d r') n.
Proof.
  induction ids as [|id ids IH]; intros d r' n Hn; simpl; [reflexivity|].
  rewrite IH.
  - apply db_ref_ents_other. destruct Hn as [Hn|Hn]; [auto|]. right. intros ->. apply (Hn id); auto. left; reflexivity.
  - destruct Hn as [Hn|Hn]; [auto|]. right. intros x Hx. apply Hn. right; exact Hx.
Qed.
Lemma db_refs_repo_other r ids : forall d r', r' <> r -> d_ents (db_refs r ids d) r' = d_ents d r'.
Proof.
  intros d r' N. revert d. induction ids as [|id ids IH]; intros d; simpl; [reflexivity|]. rewrite IH.
  unfold db_ref. destruct (sane cat d r id); [|reflexivity]. simpl. rewrite bump_ents. apply fupd_ne, N.
Qed.
(* entries without listed deltas stay so *)
Lemma db_refs_deltas r ids : forall d n, deltas_db d r n = [] -> deltas_db (db_refs r ids d) r n = [].
Proof.
  induction ids as [|id ids IH]; intros d n Hd; simpl; [exact Hd|]. apply IH.
  unfold deltas_db in *. rewrite db_ref_put, put_ents by apply bump_ents. rewrite seqb_refl. simpl.
  destruct (seqb n (m_name (cat id))); [|exact Hd].
  destruct (sane cat d r id) as [e|] eqn:S; [|exact Hd]. apply (sane_some _ _ _ _ S).
Qed.
(** the published version only moves when an ID arrives, and is then the better one *)
Lemma db_ref_pub r id d e' :
  mget (d_ents (db_ref cat r id d) r) (m_name (cat id)) = Some e' ->
  ~ In id (avail_db d r (m_name (cat id))) ->
  e_pub e' = match mget (d_ents d r) (m_name (cat id)) with
            | None => id
            | Some e0 => if Z.ltb (rel (cat (e_pub e0))) (rel (cat id)) then id else e_pub e0
            end.
Proof.
  rewrite db_ref_put, put_ents by apply bump_ents. rewrite !seqb_refl. simpl. intros G Hn.
  destruct (sane cat d r id) as [e|] eqn:S.
  - injection G as <-. apply (sane_some _ _ _ _ S).
  - destruct (Hn (sane_none _ _ _ S)).
Qed.

(** ** referencing deltas *)
Definition db_rdelta (r id : string) (d : db) : db :=
  match mget (d_pool d) id with Some p => db_delta cat r p d | None => d end.
Definition db_rdeltas (r : string) (ids : list string) (d : db) : db :=
  fold_left (fun d id => db_rdelta r id d) ids d.

Lemma db_delta_repos r p d : d_repos (db_delta cat r p d) = d_repos d.
Proof.
  unfold db_delta. destruct (mget _ _); [|reflexivity]. destruct (sin _ _); [reflexivity|]. simpl. apply touch_repos.
Qed.
Lemma db_delta_grow r p d : db_ok cat d -> pool_grow d (db_delta cat r p d).
Proof.
  intros H. unfold db_delta. destruct (mget _ _); [|apply pool_grow_refl].
  destruct (sin _ _); [apply pool_grow_refl|]. simpl. apply grow_touch, H.
Qed.
Lemma db_delta_ents r p d r' n :
  db_ok cat d ->
  mget (d_ents (db_delta cat r p d) r') n =
  if seqb r' r && seqb n (m_name (cat (p_name p))) then
    match mget (d_ents d r') n with
    | Some e => Some (if sin (p_name p) (e_deltas e) then e else with_delta e (p_name p))
    | None => None
    end
  else mget (d_ents d r') n.
Proof.
  intros H. unfold db_delta. destruct (seqb_spec r' r) as [->|N]; simpl.
  - destruct (seqb_spec n (m_name (cat (p_name p)))) as [->|Nn].
    + destruct (mget (d_ents d r) (m_name (cat (p_name p)))) as [e|] eqn:G; [|rewrite G; reflexivity].
      destruct (sin (p_name p) (e_deltas e)); [rewrite G; reflexivity|]. simpl.
      rewrite fupd_eq, touch_ents, mget_put, (eo_name _ _ _ (ok_ent _ _ H _ _ _ G)), seqb_refl. reflexivity.
    + destruct (mget (d_ents d r) (m_name (cat (p_name p)))) as [e|] eqn:G; [|reflexivity].
      destruct (sin (p_name p) (e_deltas e)); [reflexivity|]. simpl.
      rewrite fupd_eq, touch_ents, mget_put_ne; [reflexivity|].
      rewrite (eo_name _ _ _ (ok_ent _ _ H _ _ _ G)). exact Nn.
  - destruct (mget (d_ents d r) (m_name (cat (p_name p)))) as [e|] eqn:G; [|reflexivity].
    destruct (sin (p_name p) (e_deltas e)); [reflexivity|]. simpl.
    rewrite fupd_ne by exact N. rewrite touch_ents. reflexivity.
Qed.
Lemma db_delta_avail r p d r' n : db_ok cat d -> avail_db (db_delta cat r p d) r' n = avail_db d r' n.
Proof.
  intros H. unfold avail_db. rewrite db_delta_ents by exact H.
  destruct (seqb r' r && seqb n _); [|reflexivity].
  destruct (mget (d_ents d r') n) as [e|]; [|reflexivity]. destruct (sin _ _); reflexivity.
Qed.
Lemma db_delta_deltas r p d n x :
  db_ok cat d -> mget (d_ents d r) (m_name (cat (p_name p))) <> None ->
  In x (deltas_db (db_delta cat r p d) r n) <->
  In x (deltas_db d r n) \/ (x = p_name p /\ n = m_name (cat (p_name p))).
Proof.
  intros H Hn. unfold deltas_db. rewrite db_delta_ents by exact H. rewrite seqb_refl. simpl.
  destruct (seqb_spec n (m_name (cat (p_name p)))) as [->|N].
  - destruct (mget (d_ents d r) (m_name (cat (p_name p)))) as [e|]; [|congruence].
    destruct (sin (p_name p) (e_deltas e)) eqn:S.
    + apply sin_In in S. intuition congruence.
    + simpl. rewrite sort_strings_In, in_app_iff. simpl. intuition congruence.
  - intuition congruence.
Qed.
Lemma db_delta_repo_other r p d r' : r' <> r -> d_ents (db_delta cat r p d) r' = d_ents d r'.
Proof.
  intros N. unfold db_delta. destruct (mget _ _); [|reflexivity]. destruct (sin _ _); [reflexivity|].
  simpl. rewrite touch_ents. apply fupd_ne, N.
Qed.

(** ** removing *)
Lemma unref_pkg_repos r id d : d_repos (db_unref_pkg cat r id d) = d_repos d.
Proof.
  unfold db_unref_pkg. destruct (mget _ _); [|reflexivity].
  destruct (without _ _); simpl; rewrite unrefs_repos, unref_repos; reflexivity.
Qed.
Lemma unref_pkg_shrink r id d : db_ok cat d -> pool_shrink d (db_unref_pkg cat r id d).
Proof.
  intros H. unfold db_unref_pkg. destruct (mget _ _); [|apply pool_grow_refl].
  assert (X : pool_shrink d (unrefs (filter (delta_uses d id) (e_deltas e)) (d_unref id d))).
  { eapply pool_grow_trans; [apply shrink_unrefs, ok_unref, H|apply shrink_unref, H]. }
  destruct (without id (e_avail e)); exact X.
Qed.
Lemma unref_pkg_ents r id d e r' n :
  db_ok cat d -> mget (d_ents d r) (m_name (cat id)) = Some e ->
  mget (d_ents (db_unref_pkg cat r id d) r') n =
  if seqb r' r && seqb n (m_name (cat id)) then
    match without id (e_avail e) with [] => None | _ => Some (shrunk cat d e id) end
  else mget (d_ents d r') n.
Proof.
  intros H G. unfold db_unref_pkg. rewrite G.
  pose proof (eo_name _ _ _ (ok_ent _ _ H _ _ _ G)) as En.
  destruct (without id (e_avail e)) eqn:W; simpl.
  - unfold fupd. rewrite unrefs_ents, unref_ents. destruct (seqb_spec r' r) as [->|N]; simpl; [|reflexivity].
    rewrite mget_del, En. reflexivity.
  - unfold fupd. rewrite unrefs_ents, unref_ents. destruct (seqb_spec r' r) as [->|N]; simpl; [|reflexivity].
    rewrite mget_put, En. reflexivity.
Qed.
Lemma unref_pkg_repo_other r id d r' : r' <> r -> d_ents (db_unref_pkg cat r id d) r' = d_ents d r'.
Proof.
  intros N. unfold db_unref_pkg. destruct (mget _ _); [|reflexivity].
  destruct (without _ _); simpl; rewrite unrefs_ents, unref_ents; apply fupd_ne, N.
Qed.
Lemma unref_pkg_avail r id d n x :
  db_ok cat d -> In id (avail_db d r (m_name (cat id))) ->
  In x (avail_db (db_unref_pkg cat r id d) r n) <-> In x (avail_db d r n) /\ x <> id.
Proof.
  intros H. unfold avail_db. destruct (mget (d_ents d r) (m_name (cat id))) as [e|] eqn:G; [|intros []].
  intros Hin. rewrite (unref_pkg_ents r id d e) by auto. rewrite seqb_refl. simpl.
  destruct (seqb_spec n (m_name (cat id))) as [->|N].
  - rewrite G. rewrite <- without_In. destruct (without id (e_avail e)) eqn:W; [tauto|].
    simpl. rewrite W. reflexivity.
  - destruct (mget (d_ents d r) n) as [e'|] eqn:G'; [|tauto].
    split; [|tauto]. intros Hx. split; [exact Hx|]. intros ->.
    apply N. symmetry. apply (eo_avail _ _ _ (ok_ent _ _ H _ _ _ G') _ Hx).
Qed.
Lemma unref_pkg_deltas r id d n x :
  db_ok cat d -> In id (avail_db d r (m_name (cat id))) ->
  In x (deltas_db (db_unref_pkg cat r id d) r n) <->
  In x (deltas_db d r n) /\ avail_db (db_unref_pkg cat r id d) r n <> [] /\
  (n = m_name (cat id) -> delta_uses d id x = false).
Proof.
  intros H. unfold avail_db, deltas_db. destruct (mget (d_ents d r) (m_name (cat id))) as [e|] eqn:G; [|intros []].
  intros Hin. rewrite (unref_pkg_ents r id d e) by auto. rewrite seqb_refl. simpl.
  destruct (seqb_spec n (m_name (cat id))) as [->|N].
  - rewrite G. destruct (without id (e_avail e)) eqn:W.
    + split; [intros []|]. intros (_ & X & _). congruence.
    + simpl. rewrite W, filter_In, negb_true_iff. split; [|tauto].
      intros [A B]. split; [exact A|]. split; [discriminate|auto].
  - destruct (mget (d_ents d r) n) as [e'|] eqn:G'; [|tauto].
    split; [|tauto]. intros Hx. split; [exact Hx|]. split; [|congruence].
    apply (eo_nonempty _ _ _ (ok_ent _ _ H _ _ _ G')).
Qed.

Definition db_unref_pkgs (r : string) (ids : list string) (d : db) : db :=
  fold_left (fun d id => db_unref_pkg cat r id d) ids d.

Lemma unref_pkgs_ok ex r ids : forall d,
  db_ok cat d -> refs ex d [] [] -> nodelta ex d -> NoDup ids ->
  (forall id, In id ids -> In id (avail_db d r (m_name (cat id)))) ->
  let d' := db_unref_pkgs r ids d in
  db_ok cat d' /\ refs ex d' [] [] /\ nodelta ex d' /\ d_repos d' = d_repos d /\ pool_shrink d d' /\
  (forall n x, In x (avail_db d' r n) <-> In x (avail_db d r n) /\ ~ In x ids) /\
  (forall r', r' <> r -> d_ents d' r' = d_ents d r').
Proof.
  induction ids as [|id ids IH]; intros d H R Hnd ND Hi; simpl.
  { split; [exact H|]. split; [exact R|]. split; [exact Hnd|]. split; [reflexivity|].
    split; [apply pool_grow_refl|]. split; [intros; tauto|reflexivity]. }
  inversion ND as [|? ? Nx ND']; subst.
  pose proof (Hi id (or_introl eq_refl)) as Hid. pose proof Hid as Hid'. unfold avail_db in Hid'.
  destruct (mget (d_ents d r) (m_name (cat id))) as [e|] eqn:G; [|destruct Hid'].
  destruct (db_unref_pkg_ok cat Hcat ex d r id e H R Hnd G Hid') as (A & B & C).
  destruct (IH (db_unref_pkg cat r id d) A B C ND') as (A2 & B2 & C2 & D2 & E2 & F2 & K2).
  { intros x Hx. apply unref_pkg_avail; auto. split; [apply Hi; right; exact Hx|congruence]. }
  split; [exact A2|]. split; [exact B2|]. split; [exact C2|].
  split; [rewrite <- (unref_pkg_repos r id d); exact D2|].
  split; [eapply pool_grow_trans; [exact E2|apply unref_pkg_shrink, H]|].
  split.
  - intros n x. rewrite F2, unref_pkg_avail by auto. split.
    + intros [[X1 X2] X3]. split; [exact X1|]. intros [->|X]; auto.
    + intros [X1 X2]. split; [split; [exact X1|]|]; intros X; apply X2; auto.
  - intros r' N. rewrite K2 by exact N. apply unref_pkg_repo_other, N.
Qed.

(* deltas left over after a run of removals *)
Lemma unref_pkgs_deltas ex r ids : forall d,
  db_ok cat d -> refs ex d [] [] -> nodelta ex d -> NoDup ids ->
  (forall id, In id ids -> In id (avail_db d r (m_name (cat id)))) ->
  forall n x, In x (deltas_db (db_unref_pkgs r ids d) r n) <->
     In x (deltas_db d r n) /\ avail_db (db_unref_pkgs r ids d) r n <> [] /\
     (forall id, In id ids -> n = m_name (cat id) -> delta_uses d id x = false).
Proof.
  induction ids as [|id ids IH]; intros d H R Hnd ND Hi n x; simpl.
  { split; [|tauto]. intros Hx. split; [exact Hx|]. split; [|intros ? []].
    unfold deltas_db, avail_db in *. destruct (mget (d_ents d r) n) as [e|] eqn:G; [|destruct Hx].
    apply (eo_nonempty _ _ _ (ok_ent _ _ H _ _ _ G)). }
  inversion ND as [|? ? Nx ND']; subst.
  pose proof (Hi id (or_introl eq_refl)) as Hid. pose proof Hid as Hid'. unfold avail_db in Hid'.
  destruct (mget (d_ents d r) (m_name (cat id))) as [e|] eqn:G; [|destruct Hid'].
  destruct (db_unref_pkg_ok cat Hcat ex d r id e H R Hnd G Hid') as (A & B & C).
  assert (Hi' : forall y, In y ids -> In y (avail_db (db_unref_pkg cat r id d) r (m_name (cat y)))).
  { intros y Hy. apply unref_pkg_avail; auto. split; [apply Hi; right; exact Hy|congruence]. }
  rewrite (IH (db_unref_pkg cat r id d) A B C ND' Hi').
  destruct (unref_pkgs_ok ex r ids _ A B C ND' Hi') as (_ & _ & _ & _ & _ & Av & _).
  rewrite unref_pkg_deltas by auto.
  assert (Du : In x (deltas_db (db_unref_pkg cat r id d) r n) ->
     forall y, delta_uses (db_unref_pkg cat r id d) y x = delta_uses d y x).
  { intros Hx y. unfold delta_uses. unfold deltas_db in Hx.
    destruct (mget (d_ents (db_unref_pkg cat r id d) r) n) as [e1|] eqn:G1; [|destruct Hx].
    destruct (listed_in_pool cat ex _ r n e1 x A B G1) as [p1 Gp1].
    { unfold lst. rewrite (proj2 (sin_In _ _) Hx), orb_true_r. reflexivity. }
    rewrite Gp1. destruct (unref_pkg_shrink r id d H x p1 Gp1) as (p0 & -> & _ & ->). reflexivity. }
  split.
  - intros ((X1 & X2 & X3) & X4 & X5).
    assert (Hx : In x (deltas_db (db_unref_pkg cat r id d) r n)) by (apply unref_pkg_deltas; auto).
    split; [exact X1|]. split; [exact X4|]. intros y [<-|Hy] Hn; [apply X3, Hn|].
    rewrite <- (Du Hx). apply X5; auto.
  - intros (X1 & X2 & X3).
    assert (X4 : avail_db (db_unref_pkg cat r id d) r n <> []).
    { destruct (avail_db (db_unref_pkgs r ids (db_unref_pkg cat r id d)) r n) as [|y l] eqn:Ey;
        [congruence|].
      assert (Hy : In y (avail_db (db_unref_pkgs r ids (db_unref_pkg cat r id d)) r n)) by (rewrite Ey; left; reflexivity).
      apply Av in Hy. destruct Hy as [Hy _]. intros Z. rewrite Z in Hy. destruct Hy. }
    assert (X5 : n = m_name (cat id) -> delta_uses d id x = false) by (intros Hn; apply X3; [left; reflexivity|exact Hn]).
    split; [auto|]. split; [exact X2|].
    intros y Hy Hn. rewrite Du; [apply X3; [right; exact Hy|exact Hn]|]. apply unref_pkg_deltas; auto.
Qed.

End Catalog.
