(** * Loops: the collecting readers as pure functions, and the loops over
    references and removals (proof artifact) *)
From Verif Require Import Model Spec DbInv DbOps Wp FsInv Ops UnrefOps RepoOps DeleteOps Pure.

(** ** filepath.Base of a PackageURI *)
Lemma split_slash_ne s : split_slash s <> [].
Proof.
  induction s as [|c s IH]; simpl; [discriminate|]. destruct (Ascii.eqb c slash); [discriminate|].
  destruct (split_slash s); discriminate.
Qed.
Lemma split_slash_noslash s : no_slash s = true -> split_slash s = [s].
Proof.
  induction s as [|c s IH]; simpl; [reflexivity|]. intros H. apply andb_true_iff in H. destruct H as [A B].
  apply negb_true_iff in A. rewrite A, IH by exact B. reflexivity.
Qed.
Lemma split_slash_snoc a id :
  no_slash id = true -> exists l, split_slash (a ++ "/" ++ id) = l ++ [id].
Proof.
  intros H. induction a as [|c a IH]; simpl.
  - exists [""]. rewrite split_slash_noslash by exact H. reflexivity.
  - destruct IH as [l IH]. simpl in IH. rewrite IH. destruct (Ascii.eqb c slash).
    + exists ("" :: l). reflexivity.
    + destruct l as [|h t]; simpl; [|exists (String c h :: t); reflexivity].
      exfalso. assert (X : forall b, List.length (split_slash (b ++ String "/" id)) >= 2).
      { clear. induction b as [|c b IHb]; simpl.
        - destruct (split_slash id) eqn:Es; [destruct (split_slash_ne _ Es)|simpl; lia].
        - destruct (Ascii.eqb c slash); simpl; [lia|].
          destruct (split_slash (b ++ String "/" id)); simpl in *; lia. }
      specialize (X a). rewrite IH in X. simpl in X. lia.
Qed.
Lemma base_uri comp id : plain_id id = true -> base (comp ++ "/" ++ id) = id.
Proof.
  unfold plain_id. intros H. apply andb_true_iff in H. destruct H as [H _]. apply andb_true_iff in H. destruct H as [H1 H2].
  unfold base. destruct (split_slash_snoc comp id H2) as [l ->].
  assert (seqb (comp ++ "/" ++ id) "" = false) as ->. { apply seqb_neq. destruct comp; discriminate. }
  rewrite rev_app_distr. simpl. apply negb_true_iff in H1. rewrite H1. reflexivity.
Qed.

Lemma fold_filter {X} (f : X -> bool) l : forall acc,
  fold_left (fun a x => if f x then a ++ [x] else a) l acc = acc ++ filter f l.
Proof.
  induction l as [|x l IH]; intros acc; simpl; [rewrite app_nil_r; reflexivity|].
  rewrite IH. destruct (f x); [rewrite <- app_assoc|]; reflexivity.
Qed.
Lemma fold_concat {X Y} (f : X -> list Y) l : forall acc,
  fold_left (fun a x => a ++ f x) l acc = acc ++ flat_map f l.
Proof.
  induction l as [|x l IH]; intros acc; simpl; [rewrite app_nil_r; reflexivity|].
  rewrite IH, <- app_assoc. reflexivity.
Qed.
Lemma fold_map {X Y} (f : X -> Y) l : forall acc,
  fold_left (fun a x => a ++ [f x]) l acc = acc ++ map f l.
Proof.
  induction l as [|x l IH]; intros acc; simpl; [rewrite app_nil_r; reflexivity|].
  rewrite IH, <- app_assoc. reflexivity.
Qed.

Section Ops.
Variable E : env.
Variable cat : string -> meta.
Hypothesis Hcat : good_catalog cat.
Hypothesis HE : good_env E.

Notation Inv := (Inv E cat).
Notation Cinv := (Cinv E cat).
Notation FX := (FX E cat).
Notation FZ := (FZ cat).

(** ** readers *)
Lemma avail_pool ex fz P s r n e id :
  Inv ex fz P s -> mget (d_ents (st_db s) r) n = Some e -> In id (e_avail e) ->
  exists p, mget (d_pool (st_db s)) id = Some p /\ pentry_ok cat id p /\
            m_name (cat id) = n /\ is_delta_id id = false.
Proof.
  intros H G Hin. pose proof (ok_ent _ _ (i_db _ _ _ _ _ _ H) _ _ _ G) as He.
  destruct (listed_in_pool cat false (st_db s) r n e id (i_db _ _ _ _ _ _ H)
              (refs_drop _ _ _ (i_refs _ _ _ _ _ _ H)) G) as [p Gp].
  { unfold lst. rewrite (proj2 (sin_In _ _) Hin). reflexivity. }
  exists p. split; [exact Gp|]. split; [apply (ok_pool _ _ (i_db _ _ _ _ _ _ H) _ _ Gp)|].
  destruct (eo_avail _ _ _ He _ Hin) as (A & B & _). auto.
Qed.

Definition avail_ids (d : db) (r : string) : list string :=
  flat_map (fun ke => e_avail (snd ke)) (mlist (d_ents d r)).
Definition delta_ids (d : db) (r : string) : list string :=
  flat_map (fun ke => e_deltas (snd ke)) (mlist (d_ents d r)).
Definition pub_ids (d : db) (r : string) : list string :=
  map (fun ke => e_pub (snd ke)) (mlist (d_ents d r)).

Lemma avail_ids_in d r id :
  db_ok cat d -> In id (avail_ids d r) <-> In id (avail_db d r (m_name (cat id))).
Proof.
  intros H. unfold avail_ids, avail_db. rewrite in_flat_map. split.
  - intros ([n e] & Hin & Hx). simpl in Hx. apply in_mlist in Hin.
    destruct (eo_avail _ _ _ (ok_ent _ _ H _ _ _ Hin) _ Hx) as (-> & _). rewrite Hin. exact Hx.
  - destruct (mget (d_ents d r) (m_name (cat id))) as [e|] eqn:G; [|intros []].
    intros Hx. exists (m_name (cat id), e). split; [apply in_mlist, G|exact Hx].
Qed.
Lemma delta_ids_in d r id :
  db_ok cat d -> In id (delta_ids d r) <-> In id (deltas_db d r (m_name (cat id))).
Proof.
  intros H. unfold delta_ids, deltas_db. rewrite in_flat_map. split.
  - intros ([n e] & Hin & Hx). simpl in Hx. apply in_mlist in Hin.
    destruct (eo_deltas _ _ _ (ok_ent _ _ H _ _ _ Hin) _ Hx) as (-> & _). rewrite Hin. exact Hx.
  - destruct (mget (d_ents d r) (m_name (cat id))) as [e|] eqn:G; [|intros []].
    intros Hx. exists (m_name (cat id), e). split; [apply in_mlist, G|exact Hx].
Qed.
Lemma nodup_flat {X} (g : X -> list string) l :
  (forall x, In x l -> NoDup (g x)) ->
  (forall x y id, In x l -> In y l -> In id (g x) -> In id (g y) -> x = y) ->
  NoDup l -> NoDup (flat_map g l).
Proof.
  induction l as [|x l IH]; intros H1 H2 ND; simpl; [constructor|].
  inversion ND as [|? ? Nx ND']; subst.
  assert (N2 : NoDup (flat_map g l)).
  { apply IH; [intros y Hy; apply H1; right; exact Hy| |exact ND'].
    intros y z id Hy Hz. apply H2; right; assumption. }
  assert (Dis : forall id, In id (g x) -> ~ In id (flat_map g l)).
  { intros id Hx Hl. apply in_flat_map in Hl. destruct Hl as (y & Hy & Hid).
    apply Nx. rewrite (H2 x y id); auto; [left; reflexivity|right; exact Hy]. }
  pose proof (H1 x (or_introl eq_refl)) as N1. revert N1 Dis. generalize (g x).
  induction l0 as [|y l0 IH0]; intros N1 Dis; simpl; [exact N2|]. inversion N1; subst. constructor.
  - intros Hy. apply in_app_or in Hy. destruct Hy; [contradiction|]. apply (Dis y); [left; reflexivity|assumption].
  - apply IH0; auto. intros z Hz. apply Dis. right; exact Hz.
Qed.
Lemma mlist_nodup d r : NoDup (mlist (d_ents d r)).
Proof. apply (NoDup_map_inv fst). apply mkeys_nodup. Qed.
Lemma per_entry_nodup d r (g : string * entry -> list string) :
  db_ok cat d -> (forall n e, mget (d_ents d r) n = Some e -> NoDup (g (n, e))) ->
  (forall n e id, mget (d_ents d r) n = Some e -> In id (g (n, e)) -> m_name (cat id) = n) ->
  NoDup (flat_map g (mlist (d_ents d r))).
Proof.
  intros H H1 H2. apply nodup_flat; [| |apply mlist_nodup].
  - intros [n e] Hin. apply in_mlist in Hin. auto.
  - intros [n e] [n' e'] id Hin Hin' Hx Hx'. apply in_mlist in Hin, Hin'.
    pose proof (H2 _ _ _ Hin Hx). pose proof (H2 _ _ _ Hin' Hx'). congruence.
Qed.
Lemma avail_ids_nodup d r : db_ok cat d -> NoDup (avail_ids d r).
Proof.
  intros H. apply per_entry_nodup; [exact H| |].
  - intros n e G. apply slt_sorted_nodup, (eo_sorted _ _ _ (ok_ent _ _ H _ _ _ G)).
  - intros n e id G Hx. apply (eo_avail _ _ _ (ok_ent _ _ H _ _ _ G) _ Hx).
Qed.

(** *** source matching *)
Definition src_matches (source : string) (release : Z) (id : string) : bool :=
  seqb (m_src (cat id)) source && (Z.leb release 0 || Z.eqb (rel (cat id)) release).
Definition src_ids (d : db) (r source : string) (release : Z) : list string :=
  filter (src_matches source release) (avail_ids d r).

Lemma match_source_eq ex fz s r source release :
  Inv ex fz [] s ->
  match_source r source release s = ([], s, Ok (src_ids (st_db s) r source release)).
Proof.
  intros H. unfold match_source, ent_list. rewrite bind_gets. fold (avail_ids (st_db s) r).
  rewrite (foldM_ext_read _ (fun a x => if src_matches source release x then a ++ [x] else a)).
  - rewrite fold_filter. reflexivity.
  - intros a id Hin. apply in_flat_map in Hin. destruct Hin as ([n e] & Hin & Hx). simpl in Hx. apply in_mlist in Hin.
    destruct (avail_pool _ _ _ _ _ _ _ _ H Hin Hx) as (p & Gp & Hp & _).
    rewrite (bind_ok _ _ _ _ _ (pool_get_eq id s p Gp)).
    rewrite (meta_of_src cat _ _ (po_meta _ _ _ Hp)). unfold src_matches.
    destruct (seqb (m_src (cat id)) source); simpl; [|reflexivity].
    destruct (Z.ltb_spec 0 release); destruct (Z.leb_spec release 0); try lia; simpl; [|reflexivity].
    rewrite (meta_of_get_release cat Hcat _ _ (po_meta _ _ _ Hp)), bind_lift_ok.
    destruct (Z.eqb (rel (cat id)) release); reflexivity.
Qed.

(** *** pull *)
Definition src_newer (d : db) (r : string) (e : entry) : bool :=
  match mget (d_ents d r) (e_name e) with
  | None => true
  | Some le => Z.ltb (rel (cat (e_pub le))) (rel (cat (e_pub e)))
  end.
Definition tgt_newer (d : db) (r : string) (e : entry) : bool :=
  match mget (d_ents d r) (e_name e) with
  | None => false
  | Some le => Z.ltb (rel (cat (e_pub e))) (rel (cat (e_pub le)))
  end.
Definition pull_names (d : db) (r src : string) : list (string * string) :=
  map (fun ke => (e_pub (snd ke), e_name (snd ke)))
      (filter (fun ke => src_newer d r (snd ke)) (mlist (d_ents d src))).
Definition pull_blocked (d : db) (r src : string) : bool :=
  existsb (fun ke => tgt_newer d r (snd ke)) (mlist (d_ents d src)).

Lemma pull_collect_eq ex fz s r src :
  Inv ex fz [] s ->
  pull_collect r (mlist (d_ents (st_db s) src)) s =
  ([], s, if pull_blocked (st_db s) r src then Err else Ok (pull_names (st_db s) r src)).
Proof.
  intros H. unfold pull_collect, pull_blocked, pull_names.
  assert (Hl : forall ke, In ke (mlist (d_ents (st_db s) src)) -> mget (d_ents (st_db s) src) (fst ke) = Some (snd ke)).
  { intros [n e] Hin. apply in_mlist in Hin. exact Hin. }
  revert Hl. generalize (mlist (d_ents (st_db s) src)). intros l0 Hl0.
  match goal with |- foldM _ ?f _ _ = _ => set (F := f) end.
  enough (K : forall l acc, (forall ke, In ke l -> mget (d_ents (st_db s) src) (fst ke) = Some (snd ke)) ->
    foldM l F acc s = ([], s, if existsb (fun ke => tgt_newer (st_db s) r (snd ke)) l then Err
       else Ok (acc ++ map (fun ke => (e_pub (snd ke), e_name (snd ke)))
                        (filter (fun ke => src_newer (st_db s) r (snd ke)) l)))) by exact (K l0 [] Hl0).
  clear l0 Hl0. induction l as [|[n e] l IH]; intros acc Hl; simpl; [rewrite app_nil_r; reflexivity|].
  assert (G : mget (d_ents (st_db s) src) n = Some e) by (apply (Hl (n, e)); left; reflexivity).
  pose proof (ok_ent _ _ (i_db _ _ _ _ _ _ H) _ _ _ G) as He.
  assert (IH' : forall a, foldM l F a s = ([], s, if existsb (fun ke => tgt_newer (st_db s) r (snd ke)) l then Err
       else Ok (a ++ map (fun ke => (e_pub (snd ke), e_name (snd ke)))
                        (filter (fun ke => src_newer (st_db s) r (snd ke)) l))))
    by (intros a; apply IH; intros ke Hke; apply Hl; right; exact Hke).
  clear IH.
  assert (Ef : F acc (n, e) s = ([], s, if tgt_newer (st_db s) r e then Err
      else Ok (if src_newer (st_db s) r e then acc ++ [(e_pub e, e_name e)] else acc))).
  { unfold F. simpl. unfold ent_get. rewrite bind_gets. unfold src_newer, tgt_newer.
    destruct (mget (d_ents (st_db s) r) (e_name e)) as [le|] eqn:Gl; [|reflexivity].
    destruct (avail_pool _ _ _ _ _ _ _ _ H G (eo_pub _ _ _ He)) as (p & Gp & Hp & _).
    pose proof (ok_ent _ _ (i_db _ _ _ _ _ _ H) _ _ _ Gl) as Hle.
    destruct (avail_pool _ _ _ _ _ _ _ _ H Gl (eo_pub _ _ _ Hle)) as (q & Gq & Hq & _).
    rewrite (bind_ok _ _ _ _ _ (pool_get_eq _ s p Gp)), (bind_ok _ _ _ _ _ (pool_get_eq _ s q Gq)).
    rewrite (meta_of_get_release cat Hcat _ _ (po_meta _ _ _ Hp)), bind_lift_ok.
    rewrite (meta_of_get_release cat Hcat _ _ (po_meta _ _ _ Hq)), bind_lift_ok.
    destruct (Z.ltb (rel (cat (e_pub e))) (rel (cat (e_pub le)))); reflexivity. }
  destruct (tgt_newer (st_db s) r e); simpl.
  - unfold bind. rewrite Ef. reflexivity.
  - rewrite (bind_ok _ _ _ _ _ Ef), IH'. destruct (src_newer (st_db s) r e); simpl; [rewrite <- app_assoc|]; reflexivity.
Qed.

(** *** trims *)
Definition obs_ids (dist : option (list string)) (d : db) (r : string) : list string :=
  flat_map (fun ke =>
    let nom := strip_dbginfo (fst ke) in
    if is_obsolete dist nom && negb (seqb nom (fst ke)) then firstn 1 (e_avail (snd ke)) else [])
    (mlist (d_ents d r)).

Lemma trim_obs_eq ex fz s r dist :
  Inv ex fz [] s ->
  foldM (mlist (d_ents (st_db s) r)) (fun acc ke =>
     l <- trim_obs_scan dist (e_name (snd ke)) (e_avail (snd ke)) ;; ret (acc ++ l)) [] s
  = ([], s, Ok (obs_ids dist (st_db s) r)).
Proof.
  intros H. unfold obs_ids.
  rewrite (foldM_ext_read _ (fun a ke => a ++ (let nom := strip_dbginfo (fst ke) in
    if is_obsolete dist nom && negb (seqb nom (fst ke)) then firstn 1 (e_avail (snd ke)) else []))).
  - rewrite fold_concat. reflexivity.
  - intros a [n e] Hin. apply in_mlist in Hin. simpl.
    pose proof (ok_ent _ _ (i_db _ _ _ _ _ _ H) _ _ _ Hin) as He. rewrite (eo_name _ _ _ He).
    set (nom := strip_dbginfo n).
    assert (Sc : forall av, (forall id, In id av -> In id (e_avail e)) ->
       trim_obs_scan dist n av s = ([], s, Ok (if is_obsolete dist nom && negb (seqb nom n) then firstn 1 av else []))).
    { induction av as [|id av IHav]; intros Hav; simpl.
      - destruct (is_obsolete dist nom && negb (seqb nom n)); reflexivity.
      - destruct (avail_pool _ _ _ _ _ _ _ _ H Hin (Hav id (or_introl eq_refl))) as (p & Gp & Hp & Hn & _).
        rewrite (bind_ok _ _ _ _ _ (pool_get_eq _ s p Gp)).
        rewrite (meta_of_name cat _ _ (po_meta _ _ _ Hp)), Hn. fold nom.
        destruct (is_obsolete dist nom) eqn:O; simpl; [destruct (seqb nom n); reflexivity|].
        rewrite IHav by (intros y Hy; apply Hav; right; exact Hy). reflexivity. }
    rewrite (bind_ok _ _ _ _ _ (Sc (e_avail e) (fun _ X => X))). reflexivity.
Qed.
Lemma obs_ids_in d r dist id :
  db_ok cat d -> In id (obs_ids dist d r) -> In id (avail_ids d r).
Proof.
  intros H Hin. unfold obs_ids in Hin. apply in_flat_map in Hin. destruct Hin as ([n e] & Hin & Hx). simpl in Hx.
  apply in_flat_map. exists (n, e). split; [exact Hin|]. simpl.
  destruct (_ && _); [|destruct Hx]. destruct (e_avail e); simpl in Hx; [destruct Hx|]. left. tauto.
Qed.
Lemma obs_ids_nodup d r dist : db_ok cat d -> NoDup (obs_ids dist d r).
Proof.
  intros H. apply per_entry_nodup; [exact H| |].
  - intros n e G. simpl. destruct (_ && _); [|constructor]. destruct (e_avail e); simpl; repeat constructor. intros [].
  - intros n e id G Hx. simpl in Hx. destruct (_ && _); [|destruct Hx].
    apply (eo_avail _ _ _ (ok_ent _ _ H _ _ _ G)). destruct (e_avail e); simpl in *; [destruct Hx|tauto].
Qed.

Definition pm (d : db) (id : string) : meta :=
  match mget (d_pool d) id with Some p => p_meta p | None => cat id end.
Definition old_ids (o : oracle) (d : db) (k : Z) (e : entry) : list string :=
  if Z.ltb (Z.of_nat (List.length (e_avail e))) k then []
  else filter (fun id => negb (seqb id (e_pub e)))
         (map get_id (skipn (Z.to_nat k) (o_sort o (map (pm d) (e_avail e))))).
Definition trim_ids (o : oracle) (d : db) (r : string) (k : Z) : list string :=
  flat_map (fun ke => old_ids o d k (snd ke)) (mlist (d_ents d r)).

Lemma get_id_pool id p : pentry_ok cat id p -> get_id (p_meta p) = id.
Proof.
  intros [H1 H2 (h & z & ->) H4 H5 H6]. unfold get_id. simpl. apply base_uri, H4.
Qed.
Lemma pm_id ex fz s r n e id :
  Inv ex fz [] s -> mget (d_ents (st_db s) r) n = Some e -> In id (e_avail e) ->
  get_id (pm (st_db s) id) = id /\ rel (pm (st_db s) id) = rel (cat id).
Proof.
  intros H G Hin. destruct (avail_pool _ _ _ _ _ _ _ _ H G Hin) as (p & Gp & Hp & _).
  unfold pm. rewrite Gp. split; [apply get_id_pool, Hp|apply meta_of_rel, (po_meta _ _ _ Hp)].
Qed.
Lemma sorted_ids ex fz s r n e o :
  Inv ex fz [] s -> good_oracle o -> mget (d_ents (st_db s) r) n = Some e ->
  Permutation (map get_id (o_sort o (map (pm (st_db s)) (e_avail e)))) (e_avail e).
Proof.
  intros H Ho G. eapply Permutation_trans; [apply Permutation_map, (go_sort_perm _ Ho)|].
  rewrite map_map. erewrite map_ext_in; [rewrite map_id; reflexivity|].
  intros id Hin. apply (pm_id _ _ _ _ _ _ _ H G Hin).
Qed.
Lemma old_ids_in ex fz s r n e o k id :
  Inv ex fz [] s -> good_oracle o -> mget (d_ents (st_db s) r) n = Some e ->
  In id (old_ids o (st_db s) k e) -> In id (e_avail e).
Proof.
  intros H Ho G Hin. unfold old_ids in Hin. destruct (Z.ltb _ _); [destruct Hin|].
  apply filter_In in Hin. destruct Hin as [Hin _]. rewrite <- skipn_map in Hin.
  eapply Permutation_in; [eapply sorted_ids; eauto|].
  rewrite <- (firstn_skipn (Z.to_nat k)). apply in_or_app. right; exact Hin.
Qed.
Lemma old_ids_nodup ex fz s r n e o k :
  Inv ex fz [] s -> good_oracle o -> mget (d_ents (st_db s) r) n = Some e ->
  NoDup (old_ids o (st_db s) k e).
Proof.
  intros H Ho G. unfold old_ids. destruct (Z.ltb _ _); [constructor|]. apply NoDup_filter.
  rewrite <- skipn_map. eapply proj2, nodup_app. rewrite firstn_skipn.
  eapply Permutation_NoDup; [apply Permutation_sym; eapply sorted_ids; eauto|].
  apply slt_sorted_nodup, (eo_sorted _ _ _ (ok_ent _ _ (i_db _ _ _ _ _ _ H) _ _ _ G)).
Qed.
Lemma trim_ids_nodup ex fz s r o k :
  Inv ex fz [] s -> good_oracle o -> NoDup (trim_ids o (st_db s) r k).
Proof.
  intros H Ho. apply per_entry_nodup; [apply (i_db _ _ _ _ _ _ H)| |].
  - intros n e G. simpl. eapply old_ids_nodup; eauto.
  - intros n e id G Hx. simpl in Hx. eapply old_ids_in in Hx; eauto.
    apply (eo_avail _ _ _ (ok_ent _ _ (i_db _ _ _ _ _ _ H) _ _ _ G) _ Hx).
Qed.
Lemma trim_ids_in ex fz s r o k id :
  Inv ex fz [] s -> good_oracle o -> In id (trim_ids o (st_db s) r k) -> In id (avail_ids (st_db s) r).
Proof.
  intros H Ho Hin. apply in_flat_map in Hin. destruct Hin as ([n e] & Hin & Hx). simpl in Hx.
  apply in_flat_map. exists (n, e). split; [exact Hin|]. simpl. apply in_mlist in Hin. eapply old_ids_in; eauto.
Qed.

Lemma trim_collect_eq ex fz s r o k :
  Inv ex fz [] s ->
  foldM (mlist (d_ents (st_db s) r)) (fun acc ke =>
             let e := snd ke in
             if Z.ltb (Z.of_nat (List.length (e_avail e))) k then ret acc
             else
               cs <- foldM (e_avail e) (fun l id => p <- pool_get_or_err id ;; ret (l ++ [p_meta p])) [] ;;
               lift (sort_guard cs) ;;;
               let old := skipn (Z.to_nat k) (o_sort o cs) in
               ret (acc ++ filter (fun id => negb (seqb id (e_pub e))) (map get_id old))) [] s
  = ([], s, Ok (trim_ids o (st_db s) r k)).
Proof.
  intros H. unfold trim_ids.
  rewrite (foldM_ext_read _ (fun a ke => a ++ old_ids o (st_db s) k (snd ke))).
  - rewrite fold_concat. reflexivity.
  - intros a [n e] Hin. apply in_mlist in Hin. simpl. unfold old_ids.
    destruct (Z.ltb _ _); [rewrite app_nil_r; reflexivity|].
    assert (Cs : foldM (e_avail e) (fun l id => p <- pool_get_or_err id ;; ret (l ++ [p_meta p])) [] s
                 = ([], s, Ok (map (pm (st_db s)) (e_avail e)))).
    { rewrite (foldM_ext_read _ (fun l id => l ++ [pm (st_db s) id])).
      - rewrite fold_map. reflexivity.
      - intros l id Hx. destruct (avail_pool _ _ _ _ _ _ _ _ H Hin Hx) as (p & Gp & _).
        rewrite (bind_ok _ _ _ _ _ (pool_get_eq _ s p Gp)). unfold pm. rewrite Gp. reflexivity. }
    rewrite (bind_ok _ _ _ _ _ Cs).
    assert (Sg : sort_guard (map (pm (st_db s)) (e_avail e)) = Ok tt).
    { unfold sort_guard.
      assert (existsb (fun m => match m_hist m with [] => true | _ => false end) (map (pm (st_db s)) (e_avail e)) = false) as ->.
      { destruct (existsb _ _) eqn:Ex; [|reflexivity]. exfalso. apply existsb_exists in Ex.
        destruct Ex as (m & Hm & Hh). apply in_map_iff in Hm. destruct Hm as (id & <- & Hx).
        destruct (avail_pool _ _ _ _ _ _ _ _ H Hin Hx) as (p & Gp & Hp & _).
        unfold pm in Hh. rewrite Gp in Hh. destruct (po_meta _ _ _ Hp) as (h & z & Em). rewrite Em in Hh. simpl in Hh.
        pose proof (gm_hist _ (Hcat id)). destruct (m_hist (cat id)); congruence. }
      rewrite andb_false_r. reflexivity. }
    rewrite Sg, bind_lift_ok. reflexivity.
Qed.

(** ** loops *)
Lemma wp_ref_loop ex fz r ids : forall s,
  Inv ex fz [] s -> mhas (d_repos (st_db s)) r = true ->
  (forall id, In id ids -> is_delta_id id = false /\ mget (d_pool (st_db s)) id <> None) ->
  wp (forM ids (ref_package E r)) (Cinv fz)
     (fun s' res => res = Ok tt /\ Inv ex fz [] s' /\ st_db s' = db_refs cat r ids (st_db s) /\ rest fz r s s') s.
Proof.
  induction ids as [|id ids IH]; intros s H Hr Hi; simpl.
  { apply wp_ret. split; [reflexivity|]. split; [exact H|]. split; [reflexivity|apply rest_refl]. }
  destruct (Hi id (or_introl eq_refl)) as [Hd Hp].
  destruct (mget (d_pool (st_db s)) id) as [p|] eqn:G; [|congruence].
  apply wp_bind. eapply wp_post; [apply (wp_ref_package E cat Hcat HE ex fz r id p s H G Hd Hr)|].
  intros s1 res (-> & H1 & D1 & R1).
  eapply wp_post.
  - apply IH; [exact H1| |].
    + rewrite D1, db_ref_repos. exact Hr.
    + intros x Hx. destruct (Hi x (or_intror Hx)) as [Hdx Hpx]. split; [exact Hdx|].
      destruct (mget (d_pool (st_db s)) x) as [q|] eqn:Gx; [|congruence].
      rewrite D1. destruct (db_ref_grow cat r id (st_db s) (i_db _ _ _ _ _ _ H) x q Gx) as (q' & -> & _). discriminate.
  - intros s2 res (-> & H2 & D2 & R2). split; [reflexivity|]. split; [exact H2|].
    split; [rewrite D2, D1; reflexivity|eapply rest_trans; eauto].
Qed.

Lemma rdelta_keeps r id d x :
  db_ok cat d -> mget (d_pool d) x <> None -> mget (d_pool (db_rdelta cat r id d)) x <> None.
Proof.
  intros H Hx. unfold db_rdelta. destruct (mget (d_pool d) id) as [p|] eqn:G; [|exact Hx].
  destruct (mget (d_pool d) x) as [q|] eqn:Gq; [|congruence].
  destruct (db_delta_grow cat r p d H x q Gq) as (q' & -> & _). discriminate.
Qed.
Lemma rdelta_ents r id d r' n :
  db_ok cat d -> mget (d_ents d r') n <> None -> mget (d_ents (db_rdelta cat r id d) r') n <> None.
Proof.
  intros H Hx. unfold db_rdelta. destruct (mget (d_pool d) id) as [p|] eqn:G; [|exact Hx].
  rewrite db_delta_ents by exact H. destruct (_ && _); [|exact Hx]. destruct (mget (d_ents d r') n); [discriminate|congruence].
Qed.
Lemma wp_rdelta_loop fz r ids : forall s,
  Inv false fz [] s ->
  (forall id, In id ids -> is_delta_id id = true /\ mget (d_pool (st_db s)) id <> None /\
      mget (d_ents (st_db s) r) (m_name (cat id)) <> None) ->
  wp (forM ids (ref_delta E r)) (Cinv fz)
     (fun s' res => res = Ok tt /\ Inv false fz [] s' /\ st_db s' = db_rdeltas cat r ids (st_db s) /\ rest fz r s s') s.
Proof.
  induction ids as [|id ids IH]; intros s H Hi; simpl.
  { apply wp_ret. split; [reflexivity|]. split; [exact H|]. split; [reflexivity|apply rest_refl]. }
  destruct (Hi id (or_introl eq_refl)) as (Hd & Hp & He).
  apply wp_bind. eapply wp_post; [apply (wp_ref_delta E cat Hcat HE fz r id s H Hd)|].
  intros s1 res (H1 & R1 & _ & [(_ & _ & [X|X])|(p & Gp & _ & -> & D1)]); [congruence|congruence|].
  assert (D1' : st_db s1 = db_rdelta cat r id (st_db s)) by (unfold db_rdelta; rewrite Gp; exact D1).
  eapply wp_post.
  - apply IH; [exact H1|]. intros x Hx. destruct (Hi x (or_intror Hx)) as (A & B & C). rewrite D1'.
    split; [exact A|]. split; [apply rdelta_keeps|apply rdelta_ents]; auto; apply (i_db _ _ _ _ _ _ H).
  - intros s2 res (-> & H2 & D2 & R2). split; [reflexivity|]. split; [exact H2|].
    split; [rewrite D2, D1'; reflexivity|eapply rest_trans; eauto].
Qed.

Lemma wp_unref_loop ex fz r ids : forall s,
  Inv ex fz [] s -> NoDup ids -> (forall id, In id ids -> In id (avail_db (st_db s) r (m_name (cat id)))) ->
  wp (forM ids (unref_package r)) (Rinv E cat)
     (fun s' res => res = Ok tt /\ Inv ex fz [] s' /\ st_db s' = db_unref_pkgs cat r ids (st_db s) /\ rest fz r s s') s.
Proof.
  induction ids as [|id ids IH]; intros s H ND Hi; simpl.
  { apply wp_ret. split; [reflexivity|]. split; [exact H|]. split; [reflexivity|apply rest_refl]. }
  inversion ND as [|? ? Nx ND']; subst.
  pose proof (Hi id (or_introl eq_refl)) as Hid. pose proof Hid as Hid'. unfold avail_db in Hid'.
  destruct (mget (d_ents (st_db s) r) (m_name (cat id))) as [e|] eqn:G; [|destruct Hid'].
  apply wp_bind. eapply wp_post; [apply (wp_unref_package E cat Hcat ex fz r id e s H G Hid')|].
  intros s1 res (-> & H1 & D1 & R1).
  eapply wp_post.
  - apply IH; [exact H1|exact ND'|]. intros x Hx. rewrite D1. apply unref_pkg_avail; [apply (i_db _ _ _ _ _ _ H)|exact Hid|].
    split; [apply Hi; right; exact Hx|congruence].
  - intros s2 res (-> & H2 & D2 & R2). split; [reflexivity|]. split; [exact H2|].
    split; [rewrite D2, D1; reflexivity|eapply rest_trans; eauto].
Qed.

End Ops.
