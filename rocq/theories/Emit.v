(** * Emit: what emitIndex writes, as a pure function (proof artifact) *)
From Verif Require Import Model Spec DbInv DbOps Wp AssetFacts FsInv Ops UnrefOps RepoOps DeleteOps Pure Loops.

Section Ops.
Variable E : env.
Variable cat : string -> meta.
Hypothesis Hcat : good_catalog cat.
Hypothesis HE : good_env E.
Notation Inv := (Inv E cat).

(** the delta records of entry [e] that lead to release [rl] *)
Definition delta_recs (d : db) (e : entry) (rl : Z) : list drec :=
  flat_map (fun id =>
    match mget (d_pool d) id with
    | Some p => match p_delta p with
                | Some di => if Z.eqb (d_trel di) rl
                             then [DRec (d_frel di) (m_uri (p_meta p)) (m_size (p_meta p)) (m_hash (p_meta p))]
                             else []
                | None => []
                end
    | None => []
    end) (e_deltas e).
Definition with_deltas (m : meta) (ds : list drec) : meta :=
  match ds with [] => m | _ => set_deltas m ds end.
(** the record written for package [id] of repository [r] *)
Definition emitted (d : db) (r id : string) : meta :=
  match mget (d_ents d r) (m_name (cat id)) with
  | Some e => with_deltas (pm cat d id) (delta_recs d e (rel (cat id)))
  | None => pm cat d id
  end.
Definition hidden (dist : option (list string)) (n : string) : bool :=
  is_obsolete dist n || is_obsolete dist (strip_dbginfo n).
Definition index_ids (d : db) (r : string) (dist : option (list string)) : list string :=
  sort_strings (map (fun ke => e_pub (snd ke))
    (filter (fun ke => negb (hidden dist (fst ke))) (mlist (d_ents d r)))).
Definition index_pkgs (d : db) (r : string) (dist : option (list string)) : list meta :=
  map (emitted d r) (index_ids d r dist).
Definition asset_ok {A} (load : string -> res (list A)) (f : fs) (r a : string) : bool :=
  match f_asset f r a with None => true | Some c => is_ok (load c) end.
Definition asset_val {A} (load : string -> res (list A)) (f : fs) (r a : string) : option (list A) :=
  match f_asset f r a with Some c => match load c with Ok l => Some l | _ => None end | None => None end.
Definition index_doc (s : state) (r : string) (dist : option (list string)) : doc :=
  Doc (match dist with None => None | Some _ => f_asset (st_fs s) r "distribution.xml" end)
      (index_pkgs (st_db s) r dist)
      (asset_val (new_components E) (st_fs s) r "components.xml") (asset_val (new_groups E) (st_fs s) r "groups.xml").
Definition assets_ok (s : state) (r : string) : bool :=
  asset_ok (new_components E) (st_fs s) r "components.xml" && asset_ok (new_groups E) (st_fs s) r "groups.xml".

Lemma push_deltas_eq ex fz s r n e :
  Inv ex fz [] s -> mget (d_ents (st_db s) r) n = Some e -> forall id, In id (e_avail e) ->
  push_deltas r (pm cat (st_db s) id) s = ([], s, Ok (emitted (st_db s) r id)).
Proof.
  intros H G id Hin. destruct (avail_pool E cat _ _ _ _ _ _ _ _ H G Hin) as (p & Gp & Hp & Hn & _).
  assert (Ep : pm cat (st_db s) id = p_meta p) by (unfold pm; rewrite Gp; reflexivity).
  unfold push_deltas, ent_get. rewrite bind_gets, Ep, (meta_of_name cat _ _ (po_meta _ _ _ Hp)), Hn, G.
  unfold emitted. rewrite Hn, G, Ep.
  erewrite bind_ok.
  2:{ rewrite (foldM_ext_read _ (fun a x => a ++ match mget (d_pool (st_db s)) x with
        | Some p => match p_delta p with
                | Some di => if Z.eqb (d_trel di) (rel (cat id))
                             then [DRec (d_frel di) (m_uri (p_meta p)) (m_size (p_meta p)) (m_hash (p_meta p))]
                             else []
                | None => []
                end
        | None => []
        end)).
      - rewrite fold_concat. reflexivity.
      - intros a x Hx.
        destruct (listed_in_pool cat false (st_db s) r n e x (i_db _ _ _ _ _ _ H)
              (refs_drop _ _ _ (i_refs _ _ _ _ _ _ H)) G) as [q Gq].
        { unfold lst. rewrite (proj2 (sin_In _ _) Hx), orb_true_r. reflexivity. }
        rewrite (bind_ok _ _ _ _ _ (pool_get_eq _ s q Gq)), Gq.
        pose proof (ok_pool _ _ (i_db _ _ _ _ _ _ H) _ _ Gq) as Hq.
        destruct (eo_deltas _ _ _ (ok_ent _ _ (i_db _ _ _ _ _ _ H) _ _ _ G) _ Hx) as [_ Hd].
        apply (po_delta _ _ _ Hq) in Hd. destruct (p_delta q) as [di|]; [|congruence].
        rewrite (meta_of_get_release cat Hcat _ _ (po_meta _ _ _ Hp)), bind_lift_ok.
        destruct (Z.eqb _ _); [reflexivity|rewrite app_nil_r; reflexivity]. }
  simpl. fold (delta_recs (st_db s) e (rel (cat id))). unfold with_deltas.
  destruct (delta_recs (st_db s) e (rel (cat id))); reflexivity.
Qed.

Lemma ids_filter (f g : string * entry -> bool) (h : string -> bool) l :
  (forall ke, In ke l -> h (e_pub (snd ke)) = g ke) ->
  filter h (map (fun ke : string * entry => e_pub (snd ke)) (filter f l)) =
  map (fun ke => e_pub (snd ke)) (filter (fun ke => f ke && g ke) l).
Proof.
  induction l as [|x l IH]; intros H; simpl; [reflexivity|].
  rewrite <- (H x (or_introl eq_refl)).
  assert (IH' := IH (fun ke Hin => H ke (or_intror Hin))).
  destruct (f x); simpl; [|exact IH']. destruct (h (e_pub (snd x))); simpl; [f_equal|]; exact IH'.
Qed.
Lemma filter_sort h l : NoDup l -> filter h (sort_strings l) = sort_strings (filter h l).
Proof.
  intros ND. symmetry.
  assert (S1 : StronglySorted slt (filter h (sort_strings l))) by apply filter_slt, sort_strings_slt, ND.
  assert (S2 : StronglySorted slt (sort_strings (filter h l))) by (apply sort_strings_slt, NoDup_filter, ND).
  assert (Hin : forall x, In x (sort_strings (filter h l)) <-> In x (filter h (sort_strings l))).
  { intros x. rewrite sort_strings_In, !filter_In, sort_strings_In. tauto. }
  revert S1 S2 Hin. generalize (filter h (sort_strings l)) (sort_strings (filter h l)). clear.
  intros a b. revert b. induction a as [|x a IH]; intros b S1 S2 Hin.
  - destruct b as [|y b]; [reflexivity|]. exfalso. apply (Hin y). left; reflexivity.
  - destruct b as [|y b]; [exfalso; apply (proj2 (Hin x)); left; reflexivity|].
    inversion S1 as [|? ? S1' F1]; inversion S2 as [|? ? S2' F2]; subst.
    rewrite Forall_forall in F1, F2.
    assert (x = y) as ->.
    { destruct (proj1 (Hin y) (or_introl eq_refl)) as [Exy|Hy]; [exact Exy|].
      destruct (proj2 (Hin x) (or_introl eq_refl)) as [Exy|Hx]; [auto|].
      exfalso. apply (slt_irrefl x). eapply slt_trans; [apply F1, Hy|apply F2, Hx]. }
    f_equal. apply IH; auto. intros z. split; intros Hz.
    + destruct (proj1 (Hin z) (or_intror Hz)) as [->|Hz']; [|exact Hz'].
      exfalso. apply (slt_irrefl z). apply F2, Hz.
    + destruct (proj2 (Hin z) (or_intror Hz)) as [->|Hz']; [|exact Hz'].
      exfalso. apply (slt_irrefl z). apply F1, Hz.
Qed.
Lemma pubs_nodup d r f : db_ok cat d ->
  NoDup (map (fun ke => e_pub (snd ke)) (filter f (mlist (d_ents d r)))).
Proof.
  intros H. pose proof (mlist_nodup d r) as ND. apply (NoDup_filter f) in ND.
  assert (Hl : forall ke, In ke (filter f (mlist (d_ents d r))) -> m_name (cat (e_pub (snd ke))) = fst ke /\ mget (d_ents d r) (fst ke) = Some (snd ke)).
  { intros [n e] Hin. apply filter_In in Hin. destruct Hin as [Hin _]. apply in_mlist in Hin. simpl.
    pose proof (ok_ent _ _ H _ _ _ Hin) as He. split; [|exact Hin]. apply (eo_avail _ _ _ He _ (eo_pub _ _ _ He)). }
  revert ND Hl. generalize (filter f (mlist (d_ents d r))). clear H f.
  induction l as [|[n e] l IH]; intros ND Hl; simpl; [constructor|]. inversion ND as [|? ? Nx ND']; subst. constructor.
  - intros Hin. apply in_map_iff in Hin. destruct Hin as ([n' e'] & Eq & Hin). simpl in Eq.
    destruct (Hl _ (or_introl eq_refl)) as [A1 A2]. destruct (Hl _ (or_intror Hin)) as [B1 B2]. simpl in *.
    apply Nx. assert (En : n' = n) by congruence. rewrite En in *. assert (Ee : e' = e) by congruence. rewrite Ee in *. exact Hin.
  - apply IH; auto. intros ke Hke. apply Hl. right; exact Hke.
Qed.

Lemma index_ids_spec d r dist :
  db_ok cat d ->
  filter (fun id => negb (is_obsolete dist (strip_dbginfo (m_name (cat id)))))
    (sort_strings (map (fun ke => e_pub (snd ke))
       (filter (fun ke => negb (is_obsolete dist (e_name (snd ke)))) (mlist (d_ents d r))))) = index_ids d r dist.
Proof.
  intros H. unfold index_ids. rewrite filter_sort by (apply pubs_nodup, H). f_equal.
  rewrite (ids_filter _ (fun ke => negb (is_obsolete dist (strip_dbginfo (fst ke))))).
  - f_equal. apply filter_ext_in. intros [n e] Hin. apply in_mlist in Hin. simpl.
    rewrite (eo_name _ _ _ (ok_ent _ _ H _ _ _ Hin)). unfold hidden. rewrite negb_orb. reflexivity.
  - intros [n e] Hin. apply in_mlist in Hin. simpl. pose proof (ok_ent _ _ H _ _ _ Hin) as He.
    destruct (eo_avail _ _ _ He _ (eo_pub _ _ _ He)) as (-> & _). reflexivity.
Qed.

(** the packages; the asset files play no role *)
Lemma emit_pkgs_eq ex fz s r dist :
  Inv ex fz [] s ->
  foldM (sort_strings (map (fun ke => e_pub (snd ke)) (filter (fun ke => negb (is_obsolete dist (e_name (snd ke)))) (mlist (d_ents (st_db s) r)))))
    (fun acc id => p <- pool_get_or_err id ;; l <- emit_package r dist p ;; ret (acc ++ l)) [] s = ([], s, Ok (index_pkgs (st_db s) r dist)).
Proof.
  intros H. set (ids := sort_strings _).
  assert (Hids : forall id, In id ids -> exists n e, mget (d_ents (st_db s) r) n = Some e /\ In id (e_avail e)).
  { intros id Hin. unfold ids in Hin. rewrite sort_strings_In, in_map_iff in Hin. destruct Hin as ([n e] & <- & Hin).
    apply filter_In in Hin. destruct Hin as [Hin _]. apply in_mlist in Hin. exists n, e. split; [exact Hin|].
    apply (eo_pub _ _ _ (ok_ent _ _ (i_db _ _ _ _ _ _ H) _ _ _ Hin)). }
  rewrite (foldM_ext_read _ (fun a id => a ++ if negb (is_obsolete dist (strip_dbginfo (m_name (cat id))))
                                                  then [emitted (st_db s) r id] else [])).
  2:{ intros a id Hin. destruct (Hids id Hin) as (n & e & G & Hx).
        destruct (avail_pool E cat _ _ _ _ _ _ _ _ H G Hx) as (p & Gp & Hp & Hn & _).
        rewrite (bind_ok _ _ _ _ _ (pool_get_eq _ s p Gp)). unfold emit_package.
        rewrite (meta_of_name cat _ _ (po_meta _ _ _ Hp)).
        destruct (is_obsolete dist (strip_dbginfo (m_name (cat id)))); simpl; [rewrite bind_ret, app_nil_r; reflexivity|].
        rewrite bind_assoc. pose proof (push_deltas_eq ex fz s r n e H G id Hx) as P.
        unfold pm in P at 1. rewrite Gp in P. rewrite (bind_ok _ _ _ _ _ P), bind_ret. reflexivity. }
  rewrite fold_concat.
  assert (Ek : flat_map (fun id => if negb (is_obsolete dist (strip_dbginfo (m_name (cat id)))) then [emitted (st_db s) r id] else []) ids
     = index_pkgs (st_db s) r dist).
  { unfold index_pkgs. rewrite <- index_ids_spec by apply (i_db _ _ _ _ _ _ H). fold ids. clear. induction ids as [|x l IH]; simpl; [reflexivity|].
    rewrite IH. destruct (is_obsolete _ _); reflexivity. }
  simpl. rewrite Ek. reflexivity.
Qed.

Lemma emit_index_eq ex fz s r dist :
  Inv ex fz [] s ->
  emit_index E r dist s = ([], s, if assets_ok s r then Ok (index_doc s r dist) else Err).
Proof.
  intros H. unfold emit_index, ent_list. rewrite !bind_gets.
  rewrite (bind_ok _ _ _ _ _ (emit_pkgs_eq ex fz s r dist H)). cbn [app].
  unfold assets_ok, asset_ok, asset_part, index_doc, asset_val. rewrite bind_assoc, bind_gets.
  assert (Np1 : forall c, f_asset (st_fs s) r "components.xml" = Some c -> new_components E c <> Panic).
  { intros c G. apply (good_components E HE), (fs_asset_good E cat HE _ _ _ _ (i_fs _ _ _ _ _ _ H) G). }
  assert (Np2 : forall c, f_asset (st_fs s) r "groups.xml" = Some c -> new_groups E c <> Panic).
  { intros c G. apply (good_groups E HE), (fs_asset_good E cat HE _ _ _ _ (i_fs _ _ _ _ _ _ H) G). }
  destruct (f_asset (st_fs s) r "components.xml") as [c|] eqn:Ec.
  - specialize (Np1 c eq_refl). destruct (new_components E c) as [cl| |]; [|reflexivity|congruence].
    rewrite bind_assoc, bind_lift_ok, bind_ret, bind_assoc, bind_gets.
    destruct (f_asset (st_fs s) r "groups.xml") as [g|] eqn:Eg; [specialize (Np2 g eq_refl); destruct (new_groups E g); [reflexivity|reflexivity|congruence]|reflexivity].
  - rewrite bind_ret, bind_assoc, bind_gets.
    destruct (f_asset (st_fs s) r "groups.xml") as [g|] eqn:Eg; [specialize (Np2 g eq_refl); destruct (new_groups E g); [reflexivity|reflexivity|congruence]|reflexivity].
Qed.

End Ops.
