(** * DbOps: what the repository operations do to the database, as pure functions,
    and that they keep the database invariant (proof artifact) *)
From Verif Require Import Model Spec DbInv.

Section Catalog.
Variable cat : string -> meta.
Hypothesis Hcat : good_catalog cat.

(** the entry after adding [id] to repository [r]; [None] = already there *)
Definition sane (d : db) (r id : string) : option entry :=
  let n := m_name (cat id) in
  let ap := match mget (d_ents d r) n with
            | None => ([], id)
            | Some e => (e_avail e, if Z.ltb (rel (cat (e_pub e))) (rel (cat id)) then id else e_pub e)
            end in
  if sin id (fst ap) then None
  else Some (Entry n (sort_strings (fst ap ++ [id])) (snd ap) []).

Definition db_touch (p : pentry) (d : db) : db :=
  match mget (d_pool d) (p_name p) with
  | Some _ => d_bump (p_name p) d
  | None => apply_op d (PutPool p)
  end.
Definition db_add (r : string) (p : pentry) (d : db) : db :=
  match sane d r (p_name p) with
  | None => d
  | Some e => apply_op (db_touch p d) (PutEnt r e)
  end.
Definition db_ref (r id : string) (d : db) : db :=
  match sane d r id with
  | None => d
  | Some e => apply_op (d_bump id d) (PutEnt r e)
  end.
Definition with_delta (e : entry) (id : string) : entry :=
  Entry (e_name e) (e_avail e) (e_pub e) (sort_strings (e_deltas e ++ [id])).
Definition db_delta (r : string) (p : pentry) (d : db) : db :=
  match mget (d_ents d r) (m_name (cat (p_name p))) with
  | None => d
  | Some e => if sin (p_name p) (e_deltas e) then d
              else apply_op (db_touch p d) (PutEnt r (with_delta e (p_name p)))
  end.

Definition delta_uses (d : db) (id x : string) : bool :=
  match mget (d_pool d) x with
  | Some p => match p_delta p with Some di => seqb (d_from di) id || seqb (d_to di) id | None => false end
  | None => false
  end.
Definition best (l : list string) : string :=
  snd (fold_left (fun acc a => if Z.ltb (fst acc) (rel (cat a)) then (rel (cat a), a) else acc) l (0%Z, EmptyString)).
Definition without (id : string) (l : list string) : list string := filter (fun a => negb (seqb a id)) l.
Definition shrunk (d : db) (e : entry) (id : string) : entry :=
  Entry (e_name e) (without id (e_avail e)) (best (without id (e_avail e)))
        (filter (fun x => negb (delta_uses d id x)) (e_deltas e)).
Definition unrefs (l : list string) (d : db) : db := fold_left (fun d x => d_unref x d) l d.
Definition db_unref_pkg (r id : string) (d : db) : db :=
  match mget (d_ents d r) (m_name (cat id)) with
  | None => d
  | Some e =>
      let d1 := unrefs (filter (delta_uses d id) (e_deltas e)) (d_unref id d) in
      match without id (e_avail e) with
      | [] => apply_op d1 (DelEnt r (e_name e))
      | _ => apply_op d1 (PutEnt r (shrunk d e id))
      end
  end.
Definition db_del_entry (r : string) (d : db) (e : entry) : db :=
  apply_op (unrefs (e_avail e ++ e_deltas e) d) (DelEnt r (e_name e)).
Definition db_delete (r : string) (d : db) : db :=
  apply_op (fold_left (db_del_entry r) (map snd (mlist (d_ents d r))) d) (DelRepo r).

(** ** helpers *)
Lemma socc_b2n id l : NoDup l -> socc id l = b2n (sin id l).
Proof.
  intros H. destruct (sin id l) eqn:E; unfold b2n.
  - apply sin_In in E. induction H as [|x l Hx Hn IH]; [destruct E|]. simpl.
    destruct E as [->|E].
    + rewrite seqb_refl.
      assert (socc id l = 0) as ->; [|reflexivity].
      clear -Hx. induction l as [|y l IH]; simpl; [reflexivity|].
      destruct (seqb_spec id y) as [->|N]; [exfalso; apply Hx; left; reflexivity|].
      apply IH. intros H; apply Hx; right; exact H.
    + destruct (seqb_spec id x) as [->|N]; [contradiction|]. apply IH, E.
  - apply sin_not_In in E. clear H. induction l as [|y l IH]; simpl; [reflexivity|].
    destruct (seqb_spec id y) as [->|N]; [exfalso; apply E; left; reflexivity|].
    apply IH. intros H; apply E; right; exact H.
Qed.

Lemma best_spec_aux l : forall acc,
  let f := fun acc a => if Z.ltb (fst acc) (rel (cat a)) then (rel (cat a), a) else acc in
  let r := fold_left f l acc in
  (fst acc <= fst r)%Z /\ (forall x, In x l -> (rel (cat x) <= fst r)%Z) /\
  (r = acc \/ (In (snd r) l /\ fst r = rel (cat (snd r)))).
Proof.
  induction l as [|a l IH]; intros acc; simpl.
  - repeat split; [lia| intros x []|left; reflexivity].
  - destruct (Z.ltb_spec (fst acc) (rel (cat a))) as [L|L].
    + destruct (IH (rel (cat a), a)) as (H1 & H2 & H3). simpl in *. repeat split.
      * lia.
      * intros x [->|Hx]; [exact H1|apply H2, Hx].
      * right. destruct H3 as [->|[H3 H4]]; [simpl; auto|auto].
    + destruct (IH acc) as (H1 & H2 & H3). simpl in *. repeat split.
      * lia.
      * intros x [->|Hx]; [lia|apply H2, Hx].
      * destruct H3 as [->|[H3 H4]]; [left; reflexivity|right; auto].
Qed.
Lemma best_spec l : l <> [] -> In (best l) l /\ forall x, In x l -> (rel (cat x) <= rel (cat (best l)))%Z.
Proof.
  intros H. destruct (best_spec_aux l (0%Z, EmptyString)) as (H1 & H2 & H3). simpl in *.
  fold (best l) in *.
  destruct l as [|a l]; [congruence|].
  destruct H3 as [E|[H3 H4]].
  - exfalso. specialize (H2 a (or_introl eq_refl)). rewrite E in H2. simpl in H2.
    pose proof (gm_rel _ (Hcat a)). lia.
  - split; [exact H3|]. intros x Hx. specialize (H2 x Hx). rewrite H4 in H2. exact H2.
Qed.

Lemma without_In x id l : In x (without id l) <-> In x l /\ x <> id.
Proof.
  unfold without. rewrite filter_In, negb_true_iff, seqb_neq. reflexivity.
Qed.
Lemma filter_slt f l : StronglySorted slt l -> StronglySorted slt (filter f l).
Proof.
  induction 1 as [|x l Hs IH Hf]; simpl; [constructor|].
  destruct (f x); [|exact IH]. constructor; [exact IH|].
  rewrite Forall_forall in *. intros y Hy. apply filter_In in Hy. apply Hf, Hy.
Qed.

(** ** well-formedness of the new entries *)
Lemma sane_ok d r id e :
  db_ok cat d -> is_delta_id id = false -> sane d r id = Some e -> entry_ok cat (m_name (cat id)) e.
Proof.
  intros H Hd. unfold sane.
  destruct (mget (d_ents d r) (m_name (cat id))) as [e0|] eqn:G; simpl.
  - destruct (sin id (e_avail e0)) eqn:S; [discriminate|]. intros E; injection E as <-.
    apply sin_not_In in S. pose proof (ok_ent _ _ H _ _ _ G) as H0.
    constructor; simpl.
    + reflexivity.
    + apply gm_name, Hcat.
    + intros E. assert (In id (sort_strings (e_avail e0 ++ [id]))) as Hin
        by (apply sort_strings_In, in_or_app; right; left; reflexivity).
      rewrite E in Hin. destruct Hin.
    + apply sort_strings_slt, nodup_snoc; [apply slt_sorted_nodup, (eo_sorted _ _ _ H0)|exact S].
    + apply sort_strings_In, in_or_app.
      destruct (Z.ltb _ _); [right; left; reflexivity|left; apply (eo_pub _ _ _ H0)].
    + intros x Hx. apply sort_strings_In, in_app_or in Hx.
      destruct (Z.ltb_spec (rel (cat (e_pub e0))) (rel (cat id))) as [L|L].
      * destruct Hx as [Hx|[<-|[]]]; [|repeat split; auto; lia].
        destruct (eo_avail _ _ _ H0 _ Hx) as (A & B & C). repeat split; auto. lia.
      * destruct Hx as [Hx|[<-|[]]]; [apply (eo_avail _ _ _ H0 _ Hx)|repeat split; auto].
    + constructor.
    + intros x [].
  - intros E; injection E as <-. constructor; simpl.
    + reflexivity.
    + apply gm_name, Hcat.
    + discriminate.
    + repeat constructor.
    + left; reflexivity.
    + intros x [<-|[]]. repeat split; auto. lia.
    + constructor.
    + intros x [].
Qed.
Lemma sane_lst d r id e x :
  sane d r id = Some e ->
  lst e x = (match mget (d_ents d r) (m_name (cat id)) with Some e0 => sin x (e_avail e0) | None => false end)
            || seqb x id.
Proof.
  unfold sane. destruct (mget (d_ents d r) (m_name (cat id))) as [e0|]; simpl.
  - destruct (sin id (e_avail e0)); [discriminate|]. intros E; injection E as <-. unfold lst; simpl.
    rewrite sin_sort, sin_app, orb_false_r. simpl. rewrite orb_false_r. reflexivity.
  - intros E; injection E as <-. unfold lst; simpl. rewrite !orb_false_r. reflexivity.
Qed.
Lemma sane_fresh d r id e :
  sane d r id = Some e ->
  match mget (d_ents d r) (m_name (cat id)) with Some e0 => sin id (e_avail e0) = false | None => True end.
Proof.
  unfold sane. destruct (mget (d_ents d r) (m_name (cat id))) as [e0|]; simpl; auto.
  destruct (sin id (e_avail e0)); [discriminate|]. reflexivity.
Qed.

(** [r] does not list [id] yet, so far as packages are concerned *)
Lemma delta_not_avail n e id : entry_ok cat n e -> is_delta_id id = true -> sin id (e_avail e) = false.
Proof.
  intros H D. apply sin_not_In. intros Hin. destruct (eo_avail _ _ _ H _ Hin) as (_ & E & _). congruence.
Qed.
Lemma pkg_not_delta n e id : entry_ok cat n e -> is_delta_id id = false -> sin id (e_deltas e) = false.
Proof.
  intros H D. apply sin_not_In. intros Hin. destruct (eo_deltas _ _ _ H _ Hin) as (_ & E). congruence.
Qed.

Lemma mhas_repos_put d p r : mhas (d_repos (apply_op d (PutPool p))) r = mhas (d_repos d) r.
Proof. reflexivity. Qed.
Lemma bump_repos id d : d_repos (d_bump id d) = d_repos d.
Proof. unfold d_bump. destruct (mget _ _); reflexivity. Qed.
Lemma bump_ents id d : d_ents (d_bump id d) = d_ents d.
Proof. unfold d_bump. destruct (mget _ _); reflexivity. Qed.
Lemma touch_repos p d : d_repos (db_touch p d) = d_repos d.
Proof. unfold db_touch. destruct (mget _ _); [apply bump_repos|reflexivity]. Qed.
Lemma touch_ents p d : d_ents (db_touch p d) = d_ents d.
Proof. unfold db_touch. destruct (mget _ _); [apply bump_ents|reflexivity]. Qed.
Lemma unref_repos id d : d_repos (d_unref id d) = d_repos d.
Proof. unfold d_unref. destruct (mget _ _); [destruct (N.ltb _ _)|]; reflexivity. Qed.
Lemma unref_ents id d : d_ents (d_unref id d) = d_ents d.
Proof. unfold d_unref. destruct (mget _ _); [destruct (N.ltb _ _)|]; reflexivity. Qed.
Lemma unrefs_repos l : forall d, d_repos (unrefs l d) = d_repos d.
Proof. induction l; intros d; simpl; [reflexivity|]. unfold unrefs in *. rewrite IHl. apply unref_repos. Qed.
Lemma unrefs_ents l : forall d, d_ents (unrefs l d) = d_ents d.
Proof. induction l; intros d; simpl; [reflexivity|]. unfold unrefs in *. rewrite IHl. apply unref_ents. Qed.
Lemma sane_ents d d' r id : d_ents d' = d_ents d -> sane d' r id = sane d r id.
Proof. intros E. unfold sane. rewrite E. reflexivity. Qed.

Lemma ok_touch d p : db_ok cat d -> pentry_ok cat (p_name p) p -> db_ok cat (db_touch p d).
Proof.
  intros H Hp. unfold db_touch. destruct (mget _ _); [apply ok_bump, H|]. eapply ok_putpool; eauto.
Qed.
Lemma refs_touch ex d p P N :
  db_ok cat d -> p_rc p = 1%N -> refs ex d P N -> refs ex (db_touch p d) (p_name p :: P) N.
Proof.
  intros H Hp R. unfold db_touch. destruct (mget (d_pool d) (p_name p)) eqn:G.
  - eapply refs_bump; eauto.
  - eapply refs_newpool; eauto.
Qed.

(** ** adding a package *)
Lemma sane_putent ex d d1 r id e P N :
  db_ok cat d -> nodelta ex d -> is_delta_id id = false -> mhas (d_repos d) r = true ->
  sane d r id = Some e -> db_ok cat d1 -> d_ents d1 = d_ents d -> d_repos d1 = d_repos d ->
  refs ex d1 (id :: P) N ->
  db_ok cat (apply_op d1 (PutEnt r e)) /\ refs ex (apply_op d1 (PutEnt r e)) P N /\
  nodelta ex (apply_op d1 (PutEnt r e)).
Proof.
  intros H Hnd Hd Hr Hs H1 E1 E2 R.
  pose proof (sane_ok _ _ _ _ H Hd Hs) as He. split; [|split].
  - eapply ok_putent; eauto. rewrite E2; exact Hr.
  - eapply (refs_putent cat); eauto; [rewrite E2; exact Hr|].
    intros x. rewrite E1, (sane_lst _ _ _ _ x Hs). pose proof (sane_fresh _ _ _ _ Hs) as Fr.
    destruct (mget (d_ents d r) (m_name (cat id))) as [e0|] eqn:G; simpl.
    + unfold lst. assert (Hx : ex = true -> e_deltas e0 = []) by (intros ->; eapply (Hnd eq_refl); eauto).
      destruct (seqb_spec x id) as [->|Nx].
      * rewrite Fr, (pkg_not_delta _ _ _ (ok_ent _ _ H _ _ _ G) Hd). simpl. destruct ex; lia.
      * destruct ex.
        -- rewrite (Hx eq_refl). simpl. rewrite orb_false_r. lia.
        -- destruct (sin x (e_avail e0)), (sin x (e_deltas e0)); simpl; lia.
    + destruct (seqb x id); destruct ex; simpl; lia.
  - intros Ex r' n' e'. simpl. unfold fupd. rewrite E1, (eo_name _ _ _ He).
    destruct (seqb_spec r' r) as [->|Nr]; [|apply (Hnd Ex)].
    rewrite mget_put. destruct (seqb_spec n' (m_name (cat id))) as [->|Nn]; [|apply (Hnd Ex)].
    intros E; injection E as <-. revert Hs. unfold sane.
    destruct (sin _ _); [discriminate|]. intros E; injection E as <-. reflexivity.
Qed.

Lemma db_add_ok ex d r p :
  db_ok cat d -> refs ex d [] [] -> nodelta ex d ->
  pentry_ok cat (p_name p) p -> p_rc p = 1%N -> is_delta_id (p_name p) = false ->
  mhas (d_repos d) r = true ->
  db_ok cat (db_add r p d) /\ refs ex (db_add r p d) [] [] /\ nodelta ex (db_add r p d).
Proof.
  intros H R Hnd Hp Hrc Hd Hr. unfold db_add.
  destruct (sane d r (p_name p)) as [e|] eqn:S; [|auto].
  eapply (sane_putent ex d); eauto using touch_ents, touch_repos.
  - apply ok_touch; auto.
  - apply refs_touch; auto.
Qed.
Lemma db_ref_ok ex d r id p :
  db_ok cat d -> refs ex d [] [] -> nodelta ex d ->
  mget (d_pool d) id = Some p -> is_delta_id id = false ->
  mhas (d_repos d) r = true ->
  db_ok cat (db_ref r id d) /\ refs ex (db_ref r id d) [] [] /\ nodelta ex (db_ref r id d).
Proof.
  intros H R Hnd Hp Hd Hr. unfold db_ref.
  destruct (sane d r id) as [e|] eqn:S; [|auto].
  eapply (sane_putent ex d); eauto using bump_ents, bump_repos.
  - apply ok_bump; auto.
  - eapply refs_bump; eauto.
Qed.

(** ** adding a delta (never with the exact count) *)
Lemma with_delta_ok n e id :
  entry_ok cat n e -> m_name (cat id) = n -> is_delta_id id = true -> sin id (e_deltas e) = false ->
  entry_ok cat n (with_delta e id).
Proof.
  intros H Hn Hd S. apply sin_not_In in S. destruct H. constructor; simpl; auto.
  - apply sort_strings_slt, nodup_snoc; [apply slt_sorted_nodup; assumption|exact S].
  - intros x Hx. apply sort_strings_In, in_app_or in Hx. destruct Hx as [Hx|[<-|[]]]; auto.
Qed.
Lemma db_delta_ok d r p :
  db_ok cat d -> refs false d [] [] ->
  pentry_ok cat (p_name p) p -> p_rc p = 1%N -> is_delta_id (p_name p) = true ->
  db_ok cat (db_delta r p d) /\ refs false (db_delta r p d) [] [].
Proof.
  intros H R Hp Hrc Hd. unfold db_delta.
  destruct (mget (d_ents d r) (m_name (cat (p_name p)))) as [e|] eqn:G; [|auto].
  destruct (sin (p_name p) (e_deltas e)) eqn:S; [auto|].
  pose proof (ok_ent _ _ H _ _ _ G) as He. pose proof (ok_repo _ _ H _ _ _ G) as Hr.
  assert (He' : entry_ok cat (m_name (cat (p_name p))) (with_delta e (p_name p)))
    by (apply with_delta_ok; auto).
  assert (H1 : db_ok cat (db_touch p d)) by (apply ok_touch; auto).
  split.
  - eapply ok_putent; eauto. rewrite touch_repos; exact Hr.
  - eapply (refs_putent cat); eauto; [rewrite touch_repos; exact Hr|apply refs_touch; eauto|].
    intros x. rewrite touch_ents, G. simpl. unfold lst. simpl.
    rewrite sin_sort, sin_app. simpl. rewrite orb_false_r.
    destruct (sin x (e_avail e)), (sin x (e_deltas e)), (seqb x (p_name p)); simpl; lia.
Qed.

(** ** dropping references *)
Lemma unrefs_app l1 l2 d : unrefs (l1 ++ l2) d = unrefs l2 (unrefs l1 d).
Proof. unfold unrefs. apply fold_left_app. Qed.
Lemma unref_pool_ne id x d : x <> id -> db_ok cat d -> mget (d_pool (d_unref id d)) x = mget (d_pool d) x.
Proof.
  intros N H. unfold d_unref. destruct (mget (d_pool d) id) as [p|] eqn:G; [|reflexivity].
  destruct (N.ltb _ _); simpl.
  - rewrite (po_name _ _ _ (ok_pool _ _ H _ _ G)). apply mget_put_ne, N.
  - apply mget_del_ne, N.
Qed.
Lemma ok_unrefs l : forall d, db_ok cat d -> db_ok cat (unrefs l d).
Proof. induction l; intros d H; simpl; [exact H|]. apply IHl, ok_unref, H. Qed.
Lemma unrefs_pool_ne l : forall d x, ~ In x l -> db_ok cat d ->
  mget (d_pool (unrefs l d)) x = mget (d_pool d) x.
Proof.
  induction l as [|y l IH]; intros d x N H; simpl; [reflexivity|].
  rewrite IH; [|intros Hx; apply N; right; exact Hx|apply ok_unref, H].
  apply unref_pool_ne; [|exact H]. intros ->. apply N. left; reflexivity.
Qed.
Lemma refs_unrefs ex l : forall d P N,
  db_ok cat d -> NoDup l -> (forall x, In x l -> mget (d_pool d) x <> None) ->
  refs ex d P N -> refs ex (unrefs l d) P (rev l ++ N).
Proof.
  induction l as [|y l IH]; intros d P N H Hn Hp R; simpl; [exact R|].
  inversion Hn as [|? ? Hy Hn']; subst.
  destruct (mget (d_pool d) y) as [p|] eqn:G; [|destruct (Hp y (or_introl eq_refl) G)].
  rewrite <- app_assoc. simpl. apply IH; auto.
  - apply ok_unref, H.
  - intros x Hx. rewrite unref_pool_ne; [apply Hp; right; exact Hx| |exact H]. congruence.
  - eapply refs_unref; eauto.
Qed.

Lemma shrunk_ok d n e id :
  entry_ok cat n e -> without id (e_avail e) <> [] -> entry_ok cat n (shrunk d e id).
Proof.
  intros H Hne. destruct (best_spec _ Hne) as [B1 B2].
  destruct H as [H1 H2 H3 H4 H5 Ha H7 Hd]. constructor; simpl; auto.
  - apply filter_slt; assumption.
  - intros x Hx. pose proof Hx as Hx'. apply without_In in Hx. destruct Hx as [Hx _].
    destruct (Ha x Hx) as (A & B & C). repeat split; auto.
  - apply filter_slt; assumption.
  - intros x Hx. apply filter_In in Hx. apply Hd, Hx.
Qed.

Lemma db_unref_pkg_ok ex d r id e :
  db_ok cat d -> refs ex d [] [] -> nodelta ex d ->
  mget (d_ents d r) (m_name (cat id)) = Some e -> In id (e_avail e) ->
  db_ok cat (db_unref_pkg r id d) /\ refs ex (db_unref_pkg r id d) [] [] /\ nodelta ex (db_unref_pkg r id d).
Proof.
  intros H R Hnd G Hin. unfold db_unref_pkg. rewrite G.
  pose proof (ok_ent _ _ H _ _ _ G) as He. pose proof (ok_repo _ _ H _ _ _ G) as Hr.
  set (n := m_name (cat id)) in *.
  set (gone := filter (delta_uses d id) (e_deltas e)).
  set (d1 := unrefs gone (d_unref id d)).
  assert (Hd : is_delta_id id = false) by apply (eo_avail _ _ _ He _ Hin).
  assert (Hgone : forall x, In x gone -> In x (e_deltas e)) by (intros x Hx; apply filter_In in Hx; tauto).
  assert (Ngone : ~ In id gone).
  { intros Hx. apply Hgone in Hx. destruct (eo_deltas _ _ _ He _ Hx). congruence. }
  assert (NDg : NoDup gone) by (apply NoDup_filter, slt_sorted_nodup, (eo_dsorted _ _ _ He)).
  assert (Hpool : forall x, lst e x = true -> mget (d_pool d) x <> None).
  { intros x Hx. destruct (listed_in_pool cat ex d r n e x H R G Hx) as [p ->]. discriminate. }
  assert (H1 : db_ok cat d1) by (apply ok_unrefs, ok_unref, H).
  assert (E1 : d_ents d1 = d_ents d) by (unfold d1; rewrite unrefs_ents; apply unref_ents).
  assert (E2 : d_repos d1 = d_repos d) by (unfold d1; rewrite unrefs_repos; apply unref_repos).
  assert (R1 : refs ex d1 [] (rev gone ++ [id])).
  { unfold d1. apply refs_unrefs; auto.
    - apply ok_unref, H.
    - intros x Hx. rewrite unref_pool_ne; [|congruence|exact H]. apply Hpool.
      unfold lst. rewrite (proj2 (sin_In x (e_deltas e)) (Hgone _ Hx)). apply orb_true_r.
    - destruct (mget (d_pool d) id) as [p|] eqn:Gp.
      + eapply refs_unref; eauto.
      + exfalso. apply (Hpool id); auto. unfold lst. rewrite (proj2 (sin_In id _) Hin). reflexivity. }
  assert (Occ : forall x, socc x (rev gone ++ [id]) = b2n (sin x gone) + b2n (seqb x id)).
  { intros x. rewrite socc_app. rewrite (socc_perm x (rev gone) gone) by (symmetry; apply Permutation_rev).
    rewrite socc_b2n by exact NDg. simpl. destruct (seqb x id); simpl; lia. }
  assert (Hndl : ex = true -> e_deltas e = []) by (intros ->; apply (Hnd eq_refl _ _ _ G)).
  destruct (without id (e_avail e)) as [|a0 l0] eqn:W.
  - assert (Hall : forall x, sin x (e_avail e) = seqb x id).
    { intros x. destruct (seqb_spec x id) as [->|Nx]; [apply sin_In, Hin|].
      apply sin_not_In. intros Hx. assert (In x (without id (e_avail e))) as Hw by (apply without_In; auto).
      rewrite W in Hw. destruct Hw. }
    rewrite (eo_name _ _ _ He). split; [|split].
    + apply ok_delent, H1.
    + eapply (refs_delent cat); eauto. intros x. rewrite Occ, E1. fold n. rewrite G. simpl.
      unfold lst. rewrite Hall. destruct ex.
      * assert (gone = []) as -> by (unfold gone; rewrite (Hndl eq_refl); reflexivity).
        rewrite (Hndl eq_refl). simpl. rewrite orb_false_r. lia.
      * assert (sin x gone = true -> sin x (e_deltas e) = true /\ x <> id) as Hs.
        { intros Hs. apply sin_In in Hs. split; [apply sin_In, Hgone, Hs|congruence]. }
        destruct (sin x gone); [destruct (Hs eq_refl) as [-> Nx]|].
        -- destruct (seqb_spec x id); [contradiction|]. simpl. lia.
        -- destruct (seqb x id); simpl; lia.
    + intros Ex r' n' e'. simpl. unfold fupd. rewrite E1.
      destruct (seqb_spec r' r) as [->|Nr]; [|apply (Hnd Ex)].
      rewrite mget_del. destruct (seqb n' n); [discriminate|]. apply (Hnd Ex).
  - assert (Hw : without id (e_avail e) <> []) by (rewrite W; discriminate).
    pose proof (shrunk_ok d n e id He Hw) as He'. split; [|split].
    + eapply ok_putent; eauto. rewrite E2; exact Hr.
    + eapply (refs_putent cat); eauto; [rewrite E2; exact Hr|].
      intros x. rewrite Occ, E1. fold n. rewrite G. simpl. unfold lst. simpl.
      unfold without. rewrite sin_filter. unfold gone. rewrite !sin_filter.
      assert (Hx1 : seqb x id = true -> sin x (e_avail e) = true /\ sin x (e_deltas e) = false).
      { intros Hx. apply seqb_eq in Hx. subst x. split; [apply sin_In, Hin|].
        apply (pkg_not_delta _ _ _ He Hd). }
      assert (Hx2 : sin x (e_avail e) = true -> sin x (e_deltas e) = false).
      { intros Hx. apply sin_In in Hx. apply (pkg_not_delta _ _ _ He). apply (eo_avail _ _ _ He _ Hx). }
      destruct (seqb x id).
      * destruct (Hx1 eq_refl) as [-> ->]. simpl. destruct ex; lia.
      * destruct (sin x (e_avail e)); [rewrite (Hx2 eq_refl)|]; destruct (sin x (e_deltas e)), (delta_uses d id x), ex; simpl; try lia.
    + intros Ex r' n' e'. simpl. unfold fupd. rewrite E1, (eo_name _ _ _ He).
      destruct (seqb_spec r' r) as [->|Nr]; [|apply (Hnd Ex)].
      rewrite mget_put. destruct (seqb n' n); [|apply (Hnd Ex)].
      intros E; injection E as <-. simpl. rewrite (Hndl Ex). reflexivity.
Qed.

(** ** deleting a repository *)
Lemma db_del_entry_ok ex d r n e :
  db_ok cat d -> refs ex d [] [] -> nodelta ex d -> mget (d_ents d r) n = Some e ->
  db_ok cat (db_del_entry r d e) /\ refs ex (db_del_entry r d e) [] [] /\ nodelta ex (db_del_entry r d e).
Proof.
  intros H R Hnd G. pose proof (ok_ent _ _ H _ _ _ G) as He.
  assert (Hpool : forall x, lst e x = true -> mget (d_pool d) x <> None).
  { intros x Hx. destruct (listed_in_pool cat ex d r n e x H R G Hx) as [p ->]. discriminate. }
  assert (ND : NoDup (e_avail e ++ e_deltas e)).
  { assert (forall x, In x (e_avail e) -> ~ In x (e_deltas e)) as Hdis.
    { intros x Hx Hx'. destruct (eo_avail _ _ _ He _ Hx) as (_ & A & _).
      destruct (eo_deltas _ _ _ He _ Hx') as (_ & B). congruence. }
    pose proof (slt_sorted_nodup _ (eo_sorted _ _ _ He)) as N1.
    pose proof (slt_sorted_nodup _ (eo_dsorted _ _ _ He)) as N2.
    revert N1 Hdis. generalize (e_avail e). induction l as [|x l IH]; intros N1 Hdis; simpl; [exact N2|].
    inversion N1; subst. constructor.
    - intros Hx. apply in_app_or in Hx. destruct Hx; [contradiction|].
      apply (Hdis x); [left; reflexivity|assumption].
    - apply IH; auto. intros y Hy. apply Hdis. right; exact Hy. }
  unfold db_del_entry. set (d1 := unrefs (e_avail e ++ e_deltas e) d).
  assert (E1 : d_ents d1 = d_ents d) by apply unrefs_ents.
  assert (H1 : db_ok cat d1) by (apply ok_unrefs, H).
  split; [|split].
  - apply ok_delent, H1.
  - rewrite (eo_name _ _ _ He). eapply (refs_delent cat); eauto.
    + apply refs_unrefs; eauto. intros x Hx. apply Hpool. unfold lst. rewrite <- sin_app. apply sin_In, Hx.
    + intros x. rewrite E1, G. rewrite app_nil_r.
      rewrite (socc_perm x (rev _) (e_avail e ++ e_deltas e)) by (symmetry; apply Permutation_rev).
      rewrite (socc_b2n x _ ND), sin_app. unfold olst, lst. destruct ex; simpl; lia.
  - intros Ex r' n' e'. simpl. unfold fupd. rewrite E1.
    destruct (seqb_spec r' r) as [->|Nr]; [|apply (Hnd Ex)].
    rewrite mget_del. destruct (seqb n' (e_name e)); [discriminate|]. apply (Hnd Ex).
Qed.
Lemma del_entry_ents r d e r' n :
  mget (d_ents (db_del_entry r d e) r') n =
  if seqb r' r && seqb n (e_name e) then None else mget (d_ents d r') n.
Proof.
  unfold db_del_entry. simpl. unfold fupd. rewrite unrefs_ents.
  destruct (seqb_spec r' r) as [->|N]; simpl; [|reflexivity]. rewrite mget_del. destruct (seqb n (e_name e)); reflexivity.
Qed.
Lemma del_entry_repos r d e : d_repos (db_del_entry r d e) = d_repos d.
Proof. unfold db_del_entry. simpl. apply unrefs_repos. Qed.

Lemma del_entries_ok ex r l : forall d,
  db_ok cat d -> refs ex d [] [] -> nodelta ex d ->
  NoDup (map e_name l) -> (forall e, In e l -> mget (d_ents d r) (e_name e) = Some e) ->
  let d' := fold_left (db_del_entry r) l d in
  db_ok cat d' /\ refs ex d' [] [] /\ nodelta ex d' /\ d_repos d' = d_repos d /\
  (forall r' n, mget (d_ents d' r') n =
     if seqb r' r && sin n (map e_name l) then None else mget (d_ents d r') n).
Proof.
  induction l as [|e l IH]; intros d H R Hnd ND Hl; simpl.
  - split; [|split; [|split; [|split]]]; auto. intros r0 n0. destruct (seqb r0 r); reflexivity.
  - inversion ND as [|? ? Hx ND']; subst.
    destruct (db_del_entry_ok ex d r (e_name e) e H R Hnd (Hl e (or_introl eq_refl))) as (A & B & C).
    destruct (IH (db_del_entry r d e) A B C ND') as (A' & B' & C' & D' & E').
    { intros e' He'. rewrite del_entry_ents, seqb_refl. simpl.
      destruct (seqb_spec (e_name e') (e_name e)) as [E|N].
      - exfalso. apply Hx. rewrite <- E. apply in_map, He'.
      - apply Hl. right; exact He'. }
    split; [|split; [|split; [|split]]]; auto.
    + rewrite D'. apply del_entry_repos.
    + intros r' n. rewrite E', del_entry_ents. destruct (seqb r' r); simpl; [|reflexivity].
      change (sin n (e_name e :: map e_name l)) with (seqb n (e_name e) || sin n (map e_name l)).
      destruct (seqb n (e_name e)), (sin n (map e_name l)); reflexivity.
Qed.

Lemma ent_names d r : db_ok cat d -> map e_name (map snd (mlist (d_ents d r))) = mkeys (d_ents d r).
Proof.
  intros H. unfold mkeys. rewrite map_map. apply map_ext_in. intros [n e] Hin. simpl.
  apply in_mlist in Hin. apply (eo_name _ _ _ (ok_ent _ _ H _ _ _ Hin)).
Qed.

Lemma count_delrepo d r id :
  (forall n, mget (d_ents d r) n = None) ->
  count_db (apply_op d (DelRepo r)) id = count_db d id.
Proof.
  intros Hn. unfold count_db. simpl.
  change (fun r0 => lists_db (apply_op d (DelRepo r)) r0 id) with (fun r0 => lists_db d r0 id).
  assert (Hf : lists_db d r id = false).
  { unfold lists_db. destruct (existsb _ _) eqn:E; [|reflexivity]. apply existsb_exists in E.
    destruct E as ([n e] & Hin & _). apply in_mlist in Hin. rewrite Hn in Hin. discriminate. }
  destruct (mhas (d_repos d) r) eqn:Hr.
  - assert (P : Permutation (mkeys (d_repos d)) (r :: mkeys (mdel (d_repos d) r))).
    { apply NoDup_Permutation.
      - apply mkeys_nodup.
      - constructor; [|apply mkeys_nodup]. intros Hin. apply mhas_keys in Hin. unfold mhas in Hin.
        rewrite mget_del, seqb_refl in Hin. discriminate.
      - intros x. rewrite <- mhas_keys. simpl. rewrite <- mhas_keys. unfold mhas. rewrite mget_del.
        destruct (seqb_spec x r) as [->|N].
        + split; [auto|]. intros _. exact Hr.
        + split; [auto|]. intros [E|E]; [congruence|exact E]. }
    rewrite (filter_length_perm (fun r0 => lists_db d r0 id) _ _ P). simpl. rewrite Hf. reflexivity.
  - unfold mhas in Hr. destruct (mget (d_repos d) r) eqn:G; [discriminate|].
    rewrite (mdel_none _ _ G). reflexivity.
Qed.

Lemma db_delete_ok ex d r :
  db_ok cat d -> refs ex d [] [] -> nodelta ex d ->
  db_ok cat (db_delete r d) /\ refs ex (db_delete r d) [] [] /\ nodelta ex (db_delete r d) /\
  d_repos (db_delete r d) = mdel (d_repos d) r /\
  (forall r' n, mget (d_ents (db_delete r d) r') n = if seqb r' r then None else mget (d_ents d r') n).
Proof.
  intros H R Hnd. unfold db_delete.
  destruct (del_entries_ok ex r (map snd (mlist (d_ents d r))) d H R Hnd) as (A & B & C & D & E).
  - rewrite ent_names by exact H. apply mkeys_nodup.
  - intros e He. apply in_map_iff in He. destruct He as ([n e'] & <- & Hin). simpl.
    apply in_mlist in Hin. rewrite (eo_name _ _ _ (ok_ent _ _ H _ _ _ Hin)). exact Hin.
  - set (d' := fold_left _ _ _) in *.
    assert (E' : forall r' n, mget (d_ents d' r') n = if seqb r' r then None else mget (d_ents d r') n).
    { intros r' n. rewrite E. destruct (seqb_spec r' r) as [->|N]; simpl; [|reflexivity].
      rewrite ent_names by exact H. destruct (sin n (mkeys (d_ents d r))) eqn:S; [reflexivity|].
      apply sin_not_In in S. destruct (mget (d_ents d r) n) eqn:G; [|reflexivity].
      exfalso. apply S. apply mhas_keys. unfold mhas. rewrite G. reflexivity. }
    split; [constructor|split; [|split; [|split]]].
    + apply (ok_pool _ _ A).
    + apply (ok_ent _ _ A).
    + intros r' n e G. simpl in G. rewrite E' in G. simpl. unfold mhas. rewrite mget_del.
      destruct (seqb_spec r' r) as [->|N]; [discriminate|].
      rewrite D. apply (ok_repo _ _ H) in G. exact G.
    + intros r'. simpl. unfold mhas. rewrite mget_del, D. destruct (seqb r' r); [discriminate|].
      apply (ok_rname _ _ H).
    + intros x. specialize (B x). rewrite count_delrepo.
      * change (rc_db (apply_op d' (DelRepo r)) x) with (rc_db d' x). exact B.
      * intros n. rewrite E', seqb_refl. reflexivity.
    + exact C.
    + simpl. rewrite D. reflexivity.
    + exact E'.
Qed.

End Catalog.
