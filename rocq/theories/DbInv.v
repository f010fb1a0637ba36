(** * DbInv: the database invariant and its behaviour under single writes *)
From Verif Require Import Model Spec.

Definition b2n (b : bool) : nat := if b then 1 else 0.

Definition meta_of (cat : string -> meta) (id : string) (m : meta) : Prop :=
  exists hash size, m = set_index_bits (cat id) (comp_of (cat id)) id hash size.

Record pentry_ok (cat : string -> meta) (id : string) (p : pentry) : Prop := {
  po_name : p_name p = id;
  po_rc : (0 < p_rc p)%N;
  po_meta : meta_of cat id (p_meta p);
  po_plain : plain_id id = true;
  po_delta : is_delta_id id = true <-> p_delta p <> None;
  po_dinfo : forall di, p_delta p = Some di ->
     d_frel di = rel (cat (d_from di)) /\ d_trel di = rel (cat (d_to di))
}.

Record entry_ok (cat : string -> meta) (n : string) (e : entry) : Prop := {
  eo_name : e_name e = n;
  eo_res : reserved n = false;
  eo_nonempty : e_avail e <> [];
  eo_sorted : StronglySorted slt (e_avail e);
  eo_pub : In (e_pub e) (e_avail e);
  eo_avail : forall id, In id (e_avail e) ->
      m_name (cat id) = n /\ is_delta_id id = false /\ (rel (cat id) <= rel (cat (e_pub e)))%Z;
  eo_dsorted : StronglySorted slt (e_deltas e);
  eo_deltas : forall id, In id (e_deltas e) -> m_name (cat id) = n /\ is_delta_id id = true
}.

Record db_ok (cat : string -> meta) (d : db) : Prop := {
  ok_pool : forall id p, mget (d_pool d) id = Some p -> pentry_ok cat id p;
  ok_ent : forall r n e, mget (d_ents d r) n = Some e -> entry_ok cat n e;
  ok_repo : forall r n e, mget (d_ents d r) n = Some e -> mhas (d_repos d) r = true;
  ok_rname : forall r, mhas (d_repos d) r = true -> reserved r = false
}.

Definition refs (ex : bool) (d : db) (P N : list string) : Prop :=
  forall id, if ex then count_db d id + socc id P = rc_db d id + socc id N
             else count_db d id + socc id P <= rc_db d id + socc id N.

Definition nodelta (ex : bool) (d : db) : Prop :=
  ex = true -> forall r n e, mget (d_ents d r) n = Some e -> e_deltas e = [].

(** ** strictly sorted lists of strings *)
Lemma slt_sorted_nodup l : StronglySorted slt l -> NoDup l.
Proof.
  induction 1 as [|x l Hs IH Hf]; constructor; [|exact IH].
  intros H. rewrite Forall_forall in Hf. exact (slt_irrefl _ (Hf _ H)).
Qed.
Lemma slt_sorted_sle l : StronglySorted slt l -> StronglySorted sle l.
Proof.
  induction 1 as [|x l Hs IH Hf]; constructor; [exact IH|].
  rewrite Forall_forall in *. intros y Hy. right; auto.
Qed.
Lemma sle_nodup_slt l : StronglySorted sle l -> NoDup l -> StronglySorted slt l.
Proof.
  induction 1 as [|x l Hs IH Hf]; intros Hn; inversion Hn as [|? ? Hx Hn']; subst; constructor; auto.
  rewrite Forall_forall in *. intros y Hy. destruct (Hf y Hy) as [->|H]; [contradiction|exact H].
Qed.
Lemma sort_strings_slt l : NoDup l -> StronglySorted slt (sort_strings l).
Proof.
  intros H. apply sle_nodup_slt; [apply sort_strings_sorted|apply sort_strings_nodup; exact H].
Qed.
Lemma sort_slt_id l : StronglySorted slt l -> sort_strings l = l.
Proof. intros H. apply sort_strings_id, slt_sorted_sle, H. Qed.
Lemma nodup_snoc (l : list string) x : NoDup l -> ~ In x l -> NoDup (l ++ [x]).
Proof.
  intros H N. eapply Permutation_NoDup; [apply Permutation_cons_append|]. constructor; assumption.
Qed.
Lemma sin_sort x l : sin x (sort_strings l) = sin x l.
Proof.
  destruct (sin x l) eqn:E.
  - apply sin_In, sort_strings_In, sin_In, E.
  - apply sin_not_In. rewrite sort_strings_In. apply sin_not_In, E.
Qed.
Lemma sin_app x l1 l2 : sin x (l1 ++ l2) = sin x l1 || sin x l2.
Proof. unfold sin. apply existsb_app. Qed.
Lemma sin_filter x f l : sin x (filter f l) = sin x l && f x.
Proof.
  induction l as [|y l IH]; simpl; [reflexivity|].
  unfold sin in *. destruct (f y) eqn:E; simpl; rewrite IH.
  - destruct (seqb_spec x y) as [->|N]; simpl; [rewrite E|]; reflexivity.
  - destruct (seqb_spec x y) as [->|N]; simpl; [rewrite E, andb_false_r; reflexivity|reflexivity].
Qed.

(** ** counting listings *)
Definition lst (e : entry) (id : string) : bool := sin id (e_avail e) || sin id (e_deltas e).
Definition olst (oe : option entry) (id : string) : bool :=
  match oe with Some e => lst e id | None => false end.

Lemma lst_name cat n e id : entry_ok cat n e -> lst e id = true -> m_name (cat id) = n.
Proof.
  intros H L. apply orb_true_iff in L. destruct L as [L|L]; apply sin_In in L.
  - apply (eo_avail _ _ _ H), L.
  - apply (eo_deltas _ _ _ H), L.
Qed.

Lemma lists_db_spec cat d r id :
  (forall n e, mget (d_ents d r) n = Some e -> entry_ok cat n e) ->
  lists_db d r id = olst (mget (d_ents d r) (m_name (cat id))) id.
Proof.
  intros H. unfold lists_db.
  destruct (existsb _ _) eqn:E.
  - apply existsb_exists in E. destruct E as ([n e] & Hin & L). simpl in L.
    apply in_mlist in Hin. fold (lst e id) in L.
    rewrite (lst_name cat n e id (H n e Hin) L), Hin. simpl. symmetry; exact L.
  - destruct (mget (d_ents d r) (m_name (cat id))) as [e|] eqn:G; [|reflexivity].
    simpl. destruct (lst e id) eqn:L; [|reflexivity].
    exfalso. apply in_mlist in G.
    assert (Hc := existsb_exists (fun ke => sin id (e_avail (snd ke)) || sin id (e_deltas (snd ke)))
                                 (mlist (d_ents d r))).
    rewrite E in Hc. enough (false = true) by discriminate. apply Hc.
    exists (m_name (cat id), e). split; [exact G|exact L].
Qed.

Lemma filter_change (f g : string -> bool) l r :
  NoDup l -> In r l -> (forall x, x <> r -> f x = g x) ->
  List.length (filter g l) + b2n (f r) = List.length (filter f l) + b2n (g r).
Proof.
  induction 1 as [|x l Hx Hn IH]; intros Hin Hfg; [destruct Hin|].
  destruct (string_dec x r) as [->|N].
  - clear IH. assert (E : filter g l = filter f l).
    { apply filter_ext_in. intros y Hy. symmetry. apply Hfg. intros ->. contradiction. }
    simpl. rewrite <- E. unfold b2n. destruct (f r), (g r); simpl; lia.
  - destruct Hin as [->|Hin]; [congruence|]. specialize (IH Hin Hfg).
    simpl. rewrite (Hfg x N). destruct (g x); simpl; lia.
Qed.
Lemma filter_length_ext (f g : string -> bool) l :
  (forall x, In x l -> f x = g x) -> List.length (filter f l) = List.length (filter g l).
Proof. intros H. f_equal. apply filter_ext_in, H. Qed.

Lemma filter_length_perm (f : string -> bool) l l' :
  Permutation l l' -> List.length (filter f l) = List.length (filter f l').
Proof.
  induction 1 as [|x l l' H IH|x y l|l1 l2 l3 H1 IH1 H2 IH2]; simpl.
  - reflexivity.
  - destruct (f x); simpl; congruence.
  - destruct (f x), (f y); reflexivity.
  - congruence.
Qed.

Lemma count_db_ext d d' id :
  d_repos d' = d_repos d -> (forall r, lists_db d' r id = lists_db d r id) ->
  count_db d' id = count_db d id.
Proof.
  intros E H. unfold count_db. rewrite E. apply filter_length_ext. intros; apply H.
Qed.

Section Catalog.
Variable cat : string -> meta.
Hypothesis Hcat : good_catalog cat.

Lemma comp_of_ok id : path_component (m_src (cat id)) = Ok (comp_of (cat id)).
Proof.
  destruct (gm_comp _ (Hcat id)) as (c & E). unfold comp_of. rewrite E. reflexivity.
Qed.
Lemma rel_ok id : get_release (cat id) = Ok (rel (cat id)).
Proof.
  unfold get_release, rel. pose proof (gm_hist _ (Hcat id)). destruct (m_hist (cat id)); congruence.
Qed.

Lemma meta_of_name id m : meta_of cat id m -> m_name m = m_name (cat id).
Proof. intros (h & z & ->). reflexivity. Qed.
Lemma meta_of_src id m : meta_of cat id m -> m_src m = m_src (cat id).
Proof. intros (h & z & ->). reflexivity. Qed.
Lemma meta_of_rel id m : meta_of cat id m -> rel m = rel (cat id).
Proof. intros (h & z & ->). reflexivity. Qed.
Lemma meta_of_get_release id m : meta_of cat id m -> get_release m = Ok (rel (cat id)).
Proof. intros (h & z & ->). rewrite <- rel_ok. reflexivity. Qed.
Lemma meta_of_comp id m : meta_of cat id m -> path_component (m_src m) = Ok (comp_of (cat id)).
Proof. intros H. rewrite (meta_of_src _ _ H). apply comp_of_ok. Qed.

(** ** effect of single writes *)

Lemma count_putent d r e n :
  db_ok cat d -> entry_ok cat n e -> mhas (d_repos d) r = true ->
  forall id, count_db (apply_op d (PutEnt r e)) id + b2n (olst (mget (d_ents d r) n) id)
           = count_db d id + b2n (lst e id).
Proof.
  intros H He Hr id. pose proof (eo_name _ _ _ He) as En.
  assert (Hok' : forall n' e', mget (mput (d_ents d r) n e) n' = Some e' -> entry_ok cat n' e').
  { intros n' e'. rewrite mget_put. destruct (seqb_spec n' n) as [->|N].
    - intros E; injection E as <-. exact He.
    - apply (ok_ent _ _ H). }
  set (d' := apply_op d (PutEnt r e)).
  assert (L1 : lists_db d r id = olst (mget (d_ents d r) (m_name (cat id))) id)
    by (apply lists_db_spec, (ok_ent _ _ H)).
  assert (L2 : lists_db d' r id = olst (mget (mput (d_ents d r) n e) (m_name (cat id))) id).
  { rewrite (lists_db_spec cat).
    - simpl. rewrite En, fupd_eq. reflexivity.
    - intros n' e'. simpl. rewrite En, fupd_eq. apply Hok'. }
  assert (L3 : forall x, x <> r -> lists_db d x id = lists_db d' x id).
  { intros x N. unfold lists_db; simpl. rewrite fupd_ne by exact N. reflexivity. }
  pose proof (filter_change (fun x => lists_db d x id) (fun x => lists_db d' x id)
                (mkeys (d_repos d)) r (mkeys_nodup _) (proj1 (mhas_keys _ _) Hr) L3) as C.
  fold (count_db d id) in C.
  replace (List.length (filter (fun x => lists_db d' x id) (mkeys (d_repos d)))) with (count_db d' id) in C
    by reflexivity.
  cbn beta in C. rewrite L1, L2, mget_put in C.
  destruct (seqb_spec (m_name (cat id)) n) as [->|N].
  - exact C.
  - assert (lst e id = false) as ->.
    { destruct (lst e id) eqn:E; [|reflexivity]. apply (lst_name _ _ _ _ He) in E. congruence. }
    assert (olst (mget (d_ents d r) n) id = false) as ->.
    { destruct (mget (d_ents d r) n) as [e0|] eqn:G; [|reflexivity]. simpl.
      destruct (lst e0 id) eqn:E; [|reflexivity].
      apply (lst_name _ _ _ _ (ok_ent _ _ H _ _ _ G)) in E. congruence. }
    simpl. lia.
Qed.

Lemma count_delent d r n :
  db_ok cat d ->
  forall id, count_db (apply_op d (DelEnt r n)) id + b2n (olst (mget (d_ents d r) n) id)
           = count_db d id.
Proof.
  intros H id.
  destruct (mget (d_ents d r) n) as [e0|] eqn:G0.
  2:{ simpl. rewrite Nat.add_0_r. apply count_db_ext; [reflexivity|]. intros x. unfold lists_db; simpl.
      unfold fupd. destruct (seqb_spec x r) as [->|N]; [|reflexivity]. rewrite mdel_none by exact G0. reflexivity. }
  pose proof (ok_repo _ _ H _ _ _ G0) as Hr.
  set (d' := apply_op d (DelEnt r n)).
  assert (Hok' : forall n' e', mget (mdel (d_ents d r) n) n' = Some e' -> entry_ok cat n' e').
  { intros n' e'. rewrite mget_del. destruct (seqb n' n); [discriminate|]. apply (ok_ent _ _ H). }
  assert (L1 : lists_db d r id = olst (mget (d_ents d r) (m_name (cat id))) id)
    by (apply lists_db_spec, (ok_ent _ _ H)).
  assert (L2 : lists_db d' r id = olst (mget (mdel (d_ents d r) n) (m_name (cat id))) id).
  { rewrite (lists_db_spec cat).
    - simpl. rewrite fupd_eq. reflexivity.
    - intros n' e'. simpl. rewrite fupd_eq. apply Hok'. }
  assert (L3 : forall x, x <> r -> lists_db d x id = lists_db d' x id).
  { intros x N. unfold lists_db; simpl. rewrite fupd_ne by exact N. reflexivity. }
  pose proof (filter_change (fun x => lists_db d x id) (fun x => lists_db d' x id)
                (mkeys (d_repos d)) r (mkeys_nodup _) (proj1 (mhas_keys _ _) Hr) L3) as C.
  fold (count_db d id) in C.
  replace (List.length (filter (fun x => lists_db d' x id) (mkeys (d_repos d)))) with (count_db d' id) in C
    by reflexivity.
  cbn beta in C. rewrite L1, L2, mget_del in C.
  destruct (seqb_spec (m_name (cat id)) n) as [E|N].
  - rewrite E, G0 in C. simpl in *. lia.
  - assert (olst (Some e0) id = false) as ->.
    { simpl. destruct (lst e0 id) eqn:E; [|reflexivity].
      apply (lst_name _ _ _ _ (ok_ent _ _ H _ _ _ G0)) in E. congruence. }
    simpl. lia.
Qed.

Lemma ok_putent d r e n :
  db_ok cat d -> entry_ok cat n e -> mhas (d_repos d) r = true -> db_ok cat (apply_op d (PutEnt r e)).
Proof.
  intros H He Hr. pose proof (eo_name _ _ _ He) as En. constructor; simpl.
  - apply (ok_pool _ _ H).
  - intros r' n' e'. unfold fupd. destruct (seqb_spec r' r) as [->|N].
    + rewrite mget_put, En. destruct (seqb_spec n' n) as [->|N'].
      * intros E; injection E as <-. exact He.
      * apply (ok_ent _ _ H).
    + apply (ok_ent _ _ H).
  - intros r' n' e'. unfold fupd. destruct (seqb_spec r' r) as [->|N].
    + intros _. exact Hr.
    + apply (ok_repo _ _ H).
  - apply (ok_rname _ _ H).
Qed.
Lemma ok_delent d r n : db_ok cat d -> db_ok cat (apply_op d (DelEnt r n)).
Proof.
  intros H. constructor; simpl.
  - apply (ok_pool _ _ H).
  - intros r' n' e'. unfold fupd. destruct (seqb_spec r' r) as [->|N].
    + rewrite mget_del. destruct (seqb n' n); [discriminate|]. apply (ok_ent _ _ H).
    + apply (ok_ent _ _ H).
  - intros r' n' e'. unfold fupd. destruct (seqb_spec r' r) as [->|N].
    + rewrite mget_del. destruct (seqb n' n); [discriminate|]. apply (ok_repo _ _ H).
    + apply (ok_repo _ _ H).
  - apply (ok_rname _ _ H).
Qed.
Lemma ok_putpool d id p :
  db_ok cat d -> pentry_ok cat id p -> db_ok cat (apply_op d (PutPool p)).
Proof.
  intros H Hp. constructor; simpl; [|apply (ok_ent _ _ H)|apply (ok_repo _ _ H)|apply (ok_rname _ _ H)].
  intros id' p'. rewrite mget_put, (po_name _ _ _ Hp).
  destruct (seqb_spec id' id) as [->|N]; [intros E; injection E as <-; exact Hp|apply (ok_pool _ _ H)].
Qed.
Lemma ok_delpool d id : db_ok cat d -> db_ok cat (apply_op d (DelPool id)).
Proof.
  intros H. constructor; simpl; [|apply (ok_ent _ _ H)|apply (ok_repo _ _ H)|apply (ok_rname _ _ H)].
  intros id' p'. rewrite mget_del. destruct (seqb id' id); [discriminate|apply (ok_pool _ _ H)].
Qed.
Lemma ok_putrepo d r : db_ok cat d -> reserved r = false -> db_ok cat (apply_op d (PutRepo r)).
Proof.
  intros H Hres. constructor; simpl; [apply (ok_pool _ _ H)|apply (ok_ent _ _ H)| |].
  - intros r' n e G. apply (ok_repo _ _ H) in G. unfold mhas in *. rewrite mget_put.
    destruct (seqb r' r); [reflexivity|exact G].
  - intros r'. unfold mhas. rewrite mget_put. destruct (seqb_spec r' r) as [->|N]; [auto|].
    apply (ok_rname _ _ H).
Qed.
Lemma count_putrepo d r id :
  db_ok cat d -> mhas (d_repos d) r = false -> count_db (apply_op d (PutRepo r)) id = count_db d id.
Proof.
  intros H Hr. unfold count_db. simpl.
  change (fun r0 => lists_db (apply_op d (PutRepo r)) r0 id) with (fun r0 => lists_db d r0 id).
  assert (Hn : lists_db d r id = false).
  { rewrite (lists_db_spec cat) by apply (ok_ent _ _ H).
    destruct (mget (d_ents d r) (m_name (cat id))) as [e|] eqn:G; [|reflexivity].
    apply (ok_repo _ _ H) in G. congruence. }
  assert (P : Permutation (mkeys (mput (d_repos d) r tt)) (r :: mkeys (d_repos d))).
  { apply NoDup_Permutation.
    - apply mkeys_nodup.
    - constructor; [|apply mkeys_nodup]. intros Hin. apply mhas_keys in Hin. congruence.
    - intros x. rewrite <- mhas_keys. unfold mhas. rewrite mget_put. simpl. rewrite <- mhas_keys. unfold mhas.
      destruct (seqb_spec x r) as [->|N]; [split; auto|].
      destruct (mget (d_repos d) x); split; auto; intros [E|E]; congruence. }
  transitivity (List.length (filter (fun r0 => lists_db d r0 id) (r :: mkeys (d_repos d)))).
  - apply filter_length_perm, P.
  - simpl. rewrite Hn. reflexivity.
Qed.

Lemma rc_putpool d p id :
  rc_db (apply_op d (PutPool p)) id = if seqb id (p_name p) then N.to_nat (p_rc p) else rc_db d id.
Proof. unfold rc_db. simpl. rewrite mget_put. destruct (seqb id (p_name p)); reflexivity. Qed.
Lemma rc_delpool d x id :
  rc_db (apply_op d (DelPool x)) id = if seqb id x then 0 else rc_db d id.
Proof. unfold rc_db. simpl. rewrite mget_del. destruct (seqb id x); reflexivity. Qed.
Lemma count_putpool d p id : count_db (apply_op d (PutPool p)) id = count_db d id.
Proof. apply count_db_ext; reflexivity. Qed.
Lemma count_delpool d x id : count_db (apply_op d (DelPool x)) id = count_db d id.
Proof. apply count_db_ext; reflexivity. Qed.

(** ** references *)
Definition d_bump (id : string) (d : db) : db :=
  match mget (d_pool d) id with
  | Some p => apply_op d (PutPool (set_rc p (p_rc p + 1)))
  | None => d
  end.
Definition d_unref (id : string) (d : db) : db :=
  match mget (d_pool d) id with
  | Some p => if N.ltb 0 (rc_dec (p_rc p)) then apply_op d (PutPool (set_rc p (rc_dec (p_rc p))))
              else apply_op d (DelPool id)
  | None => d
  end.

Lemma pentry_set_rc id p n : pentry_ok cat id p -> (0 < n)%N -> pentry_ok cat id (set_rc p n).
Proof. intros [H1 H2 H3 H4 H5 H6] Hn. constructor; simpl; auto. Qed.

Lemma ok_bump d id : db_ok cat d -> db_ok cat (d_bump id d).
Proof.
  intros H. unfold d_bump. destruct (mget (d_pool d) id) as [p|] eqn:G; [|exact H].
  apply (ok_putpool _ id); [exact H|]. apply pentry_set_rc; [apply (ok_pool _ _ H), G|lia].
Qed.
Lemma rc_bump d id p x :
  db_ok cat d -> mget (d_pool d) id = Some p -> rc_db (d_bump id d) x = rc_db d x + b2n (seqb x id).
Proof.
  intros H G. unfold d_bump. rewrite G, rc_putpool. simpl.
  rewrite (po_name _ _ _ (ok_pool _ _ H _ _ G)).
  destruct (seqb_spec x id) as [->|N]; simpl; [|lia].
  unfold rc_db. rewrite G. lia.
Qed.
Lemma refs_bump ex d id p P N :
  db_ok cat d -> mget (d_pool d) id = Some p -> refs ex d P N -> refs ex (d_bump id d) (id :: P) N.
Proof.
  intros H G R x. specialize (R x). rewrite (rc_bump _ _ _ _ H G).
  assert (count_db (d_bump id d) x = count_db d x) as ->
    by (unfold d_bump; rewrite G; apply count_putpool).
  simpl. unfold b2n. destruct ex, (seqb x id); lia.
Qed.
Lemma ok_unref d id : db_ok cat d -> db_ok cat (d_unref id d).
Proof.
  intros H. unfold d_unref. destruct (mget (d_pool d) id) as [p|] eqn:G; [|exact H].
  destruct (N.ltb_spec 0 (rc_dec (p_rc p))).
  - apply (ok_putpool _ id); [exact H|]. apply pentry_set_rc; [apply (ok_pool _ _ H), G|assumption].
  - apply ok_delpool, H.
Qed.
Lemma rc_unref d id p x :
  db_ok cat d -> mget (d_pool d) id = Some p -> rc_db (d_unref id d) x + b2n (seqb x id) = rc_db d x.
Proof.
  intros H G. unfold d_unref. rewrite G.
  pose proof (ok_pool _ _ H _ _ G) as Hp. pose proof (po_rc _ _ _ Hp) as Hrc.
  unfold rc_dec. destruct (N.eqb_spec (p_rc p) 0) as [E|E]; [lia|].
  destruct (N.ltb_spec 0 (N.pred (p_rc p))) as [L|L].
  - rewrite rc_putpool. simpl. rewrite (po_name _ _ _ Hp).
    destruct (seqb_spec x id) as [->|N]; simpl; [|lia]. unfold rc_db. rewrite G. lia.
  - rewrite rc_delpool. destruct (seqb_spec x id) as [->|N]; simpl; [|lia].
    unfold rc_db. rewrite G. lia.
Qed.
Lemma count_unref d id x : count_db (d_unref id d) x = count_db d x.
Proof.
  unfold d_unref. destruct (mget (d_pool d) id); [|reflexivity].
  destruct (N.ltb _ _); [apply count_putpool|apply count_delpool].
Qed.
Lemma count_bump d id x : count_db (d_bump id d) x = count_db d x.
Proof.
  unfold d_bump. destruct (mget (d_pool d) id); [|reflexivity]. apply count_putpool.
Qed.
Lemma refs_unref ex d id p P N :
  db_ok cat d -> mget (d_pool d) id = Some p -> refs ex d P N -> refs ex (d_unref id d) P (id :: N).
Proof.
  intros H G R x. specialize (R x). pose proof (rc_unref _ _ _ x H G) as U.
  rewrite count_unref. simpl. unfold b2n in *. destruct ex, (seqb x id); lia.
Qed.
Lemma refs_newpool ex d p P N :
  db_ok cat d -> mget (d_pool d) (p_name p) = None -> p_rc p = 1%N -> refs ex d P N ->
  refs ex (apply_op d (PutPool p)) (p_name p :: P) N.
Proof.
  intros H G Hrc R x. specialize (R x). rewrite rc_putpool, count_putpool. simpl.
  destruct (seqb_spec x (p_name p)) as [->|N'].
  - unfold rc_db in R. rewrite G in R. rewrite Hrc. change (N.to_nat 1) with 1. destruct ex; lia.
  - destruct ex; lia.
Qed.
Lemma refs_weaken d P N id : refs false d (id :: P) N -> refs false d P N.
Proof. intros R x. specialize (R x). simpl in R. lia. Qed.

Lemma refs_putent ex d r e n P N P' N' :
  db_ok cat d -> entry_ok cat n e -> mhas (d_repos d) r = true ->
  refs ex d P N ->
  (forall id, if ex
     then b2n (lst e id) + socc id P' + socc id N = b2n (olst (mget (d_ents d r) n) id) + socc id P + socc id N'
     else b2n (lst e id) + socc id P' + socc id N <= b2n (olst (mget (d_ents d r) n) id) + socc id P + socc id N') ->
  refs ex (apply_op d (PutEnt r e)) P' N'.
Proof.
  intros H He Hr R B x. specialize (R x). specialize (B x).
  pose proof (count_putent d r e n H He Hr x) as C.
  change (rc_db (apply_op d (PutEnt r e)) x) with (rc_db d x).
  destruct ex; lia.
Qed.
Lemma refs_delent ex d r n P N P' N' :
  db_ok cat d -> refs ex d P N ->
  (forall id, if ex
     then socc id P' + socc id N = b2n (olst (mget (d_ents d r) n) id) + socc id P + socc id N'
     else socc id P' + socc id N <= b2n (olst (mget (d_ents d r) n) id) + socc id P + socc id N') ->
  refs ex (apply_op d (DelEnt r n)) P' N'.
Proof.
  intros H R B x. specialize (R x). specialize (B x).
  pose proof (count_delent d r n H x) as C.
  change (rc_db (apply_op d (DelEnt r n)) x) with (rc_db d x).
  destruct ex; lia.
Qed.

(** a listed ID is in the pool *)
Lemma listed_count d r id :
  db_ok cat d -> lists_db d r id = true -> 1 <= count_db d id.
Proof.
  intros H L. unfold count_db.
  assert (In r (filter (fun r0 => lists_db d r0 id) (mkeys (d_repos d)))).
  { apply filter_In. split; [|exact L]. apply mhas_keys.
    rewrite (lists_db_spec cat) in L by apply (ok_ent _ _ H).
    destruct (mget (d_ents d r) (m_name (cat id))) eqn:G; [|discriminate].
    apply (ok_repo _ _ H _ _ _ G). }
  destruct (filter _ _); [contradiction|simpl; lia].
Qed.
Lemma listed_in_pool ex d r n e id :
  db_ok cat d -> refs ex d [] [] -> mget (d_ents d r) n = Some e -> lst e id = true ->
  exists p, mget (d_pool d) id = Some p.
Proof.
  intros H R G L.
  assert (LL : lists_db d r id = true).
  { rewrite (lists_db_spec cat) by apply (ok_ent _ _ H).
    rewrite (lst_name _ _ _ _ (ok_ent _ _ H _ _ _ G) L), G. exact L. }
  apply (listed_count _ _ _ H) in LL. specialize (R id). unfold rc_db in R. simpl in R.
  destruct (mget (d_pool d) id) as [p|]; [exists p; reflexivity|]. destruct ex; lia.
Qed.

End Catalog.
