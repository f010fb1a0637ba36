(** * FsInv: the file-level invariant, LinkOrCopyFile, and the global invariant
    (proof artifact) *)
From Verif Require Import Model Spec DbInv DbOps Wp.

Lemma tree_eqb_spec a b : reflect (a = b) (tree_eqb a b).
Proof.
  destruct a, b; simpl; try (constructor; congruence);
  match goal with |- reflect _ (seqb ?x ?y) => destruct (seqb_spec x y); constructor; congruence end.
Qed.
Lemma loc_eqb_spec a b : reflect (a = b) (loc_eqb a b).
Proof.
  destruct a as [t c i], b as [t' c' i']. unfold loc_eqb; simpl.
  destruct (tree_eqb_spec t t'); simpl; [|constructor; congruence].
  destruct (seqb_spec c c'); simpl; [|constructor; congruence].
  destruct (seqb_spec i i'); constructor; congruence.
Qed.
Lemma loc_eqb_refl a : loc_eqb a a = true.
Proof. destruct (loc_eqb_spec a a); congruence. Qed.
Lemma nupd_eq f l v : nupd f l v l = v.
Proof. unfold nupd. rewrite loc_eqb_refl. reflexivity. Qed.
Lemma nupd_ne f l v x : x <> l -> nupd f l v x = f x.
Proof. intros N. unfold nupd. destruct (loc_eqb_spec x l); congruence. Qed.

Lemma on_fs_id s : on_fs (fun _ => st_fs s) s = s.
Proof. destruct s; reflexivity. Qed.

Section Fs.
Variable E : env.
Variable cat : string -> meta.
Hypothesis HE : good_env E.

Record fs_ok (f : fs) : Prop := {
  fo_next : forall l i, f_name f l = Some i -> i < f_next f;
  fo_good : forall l i, f_name f l = Some i -> good_file E cat (l_id l) (f_data f i);
  fo_plain : forall l i, f_name f l = Some i -> plain_id (l_id l) = true;
  fo_id : forall l l' i, f_name f l = Some i -> f_name f l' = Some i -> l_id l = l_id l';
  fo_asset : forall r a c, f_asset f r a = Some c -> c = "" \/ good_asset E a c
}.
(** no asset appears but empty ones and copies of existing ones *)
Definition assets_from (f f' : fs) : Prop :=
  forall r a c, f_asset f' r a = Some c -> c = "" \/ exists x, f_asset f x a = Some c.
Lemma assets_eq f f' : f_asset f' = f_asset f -> assets_from f f'.
Proof. intros Q r a c. rewrite Q. eauto. Qed.
Lemma assets_trans f1 f2 f3 : assets_from f1 f2 -> assets_from f2 f3 -> assets_from f1 f3.
Proof. intros A B r a c H. destruct (B r a c H) as [->|(x & G)]; [left; reflexivity|]. apply (A x a c G). Qed.
Lemma good_asset_empty a : good_asset E a "".
Proof. split; intros _ l X; [rewrite (ge_comps _ HE) in X|rewrite (ge_groups _ HE) in X]; discriminate. Qed.

Lemma good_empty id : good_file E cat id EmptyString.
Proof. unfold good_file. rewrite (ge_parse _ HE). exact I. Qed.

Record fs_step (dst : loc) (f f' : fs) : Prop := {
  fs_st_ok : fs_ok f';
  fs_st_other : forall l, l_id l <> l_id dst -> file_content f' l = file_content f l;
  fs_st_name : forall l, l <> dst -> f_name f' l = f_name f l;
  fs_st_root : f_root f' = f_root f;
  fs_st_asset : f_asset f' = f_asset f;
  fs_st_dir : f_dir f' = f_dir f
}.
(* all files but [dst] unchanged *)
Definition fs_fresh (dst : loc) (f f' : fs) : Prop :=
  forall l, l <> dst -> file_content f' l = file_content f l.

Lemma fs_step_refl dst f : fs_ok f -> fs_step dst f f.
Proof. intros H. constructor; auto. Qed.

(* the contents written to an inode matter only for names of that ID *)
Lemma fs_write_step dst f j v :
  fs_ok f -> f_name f dst = Some j -> good_file E cat (l_id dst) v -> fs_step dst f (fs_write f j v).
Proof.
  intros H Hd Hv. constructor; auto.
  - constructor; simpl.
    + apply (fo_next _ H).
    + intros l i Hl. unfold dupd. destruct (Nat.eqb_spec i j) as [->|N].
      * rewrite (fo_id _ H _ _ _ Hl Hd). exact Hv.
      * apply (fo_good _ H _ _ Hl).
    + apply (fo_plain _ H).
    + apply (fo_id _ H).
    + apply (fo_asset _ H).
  - intros l N. unfold file_content. simpl. destruct (f_name f l) as [i|] eqn:G; [|reflexivity].
    unfold dupd. destruct (Nat.eqb_spec i j) as [->|]; [|reflexivity].
    exfalso. apply N. apply (fo_id _ H _ _ _ G Hd).
Qed.
Lemma fs_create_ok f l v :
  fs_ok f -> good_file E cat (l_id l) v -> plain_id (l_id l) = true -> fs_ok (fs_create f l v).
Proof.
  intros H Hv Hpl. constructor; simpl; intros l1.
  - intros i. unfold nupd. destruct (loc_eqb_spec l1 l) as [->|N].
    + intros Ei; injection Ei as <-. lia.
    + intros G. apply (fo_next _ H) in G. lia.
  - intros i. unfold nupd, dupd. destruct (loc_eqb_spec l1 l) as [->|N].
    + intros Ei; injection Ei as <-. rewrite Nat.eqb_refl. exact Hv.
    + intros G. pose proof (fo_next _ H _ _ G). destruct (Nat.eqb_spec i (f_next f)); [lia|].
      apply (fo_good _ H _ _ G).
  - intros i. unfold nupd. destruct (loc_eqb_spec l1 l) as [->|N]; [auto|apply (fo_plain _ H)].
  - intros l2 i. unfold nupd. destruct (loc_eqb_spec l1 l) as [->|N1], (loc_eqb_spec l2 l) as [->|N2]; auto.
    + intros Ei G; injection Ei as <-. apply (fo_next _ H) in G. lia.
    + intros G Ei; injection Ei as <-. apply (fo_next _ H) in G. lia.
    + apply (fo_id _ H).
  - apply (fo_asset _ H).
Qed.
Lemma fs_create_content f l v x :
  fs_ok f -> file_content (fs_create f l v) x = if loc_eqb x l then Some v else file_content f x.
Proof.
  intros H. unfold file_content. simpl. unfold nupd, dupd.
  destruct (loc_eqb_spec x l) as [->|N]; [rewrite Nat.eqb_refl; reflexivity|].
  destruct (f_name f x) as [i|] eqn:G; [|reflexivity].
  pose proof (fo_next _ H _ _ G). destruct (Nat.eqb_spec i (f_next f)); [lia|reflexivity].
Qed.
Lemma fs_create_step dst f v :
  fs_ok f -> good_file E cat (l_id dst) v -> plain_id (l_id dst) = true -> fs_step dst f (fs_create f dst v).
Proof.
  intros H Hv Hpl. constructor; auto.
  - apply fs_create_ok; auto.
  - intros l N. rewrite fs_create_content by exact H.
    destruct (loc_eqb_spec l dst) as [->|]; [congruence|reflexivity].
  - intros l N. simpl. apply nupd_ne, N.
Qed.
Lemma fs_step_trans dst f1 f2 f3 : fs_step dst f1 f2 -> fs_step dst f2 f3 -> fs_step dst f1 f3.
Proof.
  intros [A1 A2 A3 A4 A5 A6] [B1 B2 B3 B4 B5 B6]. constructor; auto; try congruence.
  - intros l N. rewrite B2, A2; auto.
  - intros l N. rewrite B3, A3; auto.
Qed.
Lemma fs_link_step src dst f :
  fs_ok f -> f_name f src <> None -> l_id src = l_id dst -> fs_step dst f (fs_set_name f dst (f_name f src)).
Proof.
  intros H Hs Hid. destruct (f_name f src) as [i|] eqn:G; [|congruence]. constructor; auto.
  - constructor; simpl; intros l1.
    + intros k. unfold nupd. destruct (loc_eqb_spec l1 dst) as [->|N]; [intros Ei; injection Ei as <-|];
        eapply fo_next; eauto.
    + intros k. unfold nupd. destruct (loc_eqb_spec l1 dst) as [->|N].
      * intros Ei; injection Ei as <-. rewrite <- Hid. eapply fo_good; eauto.
      * eapply fo_good; eauto.
    + intros k. unfold nupd. destruct (loc_eqb_spec l1 dst) as [->|N].
      * intros _. rewrite <- Hid. eapply fo_plain; eauto.
      * eapply fo_plain; eauto.
    + intros l2 k. unfold nupd. destruct (loc_eqb_spec l1 dst) as [->|N1], (loc_eqb_spec l2 dst) as [->|N2]; auto.
      * intros Ei G2; injection Ei as <-. rewrite <- Hid. eapply fo_id; eauto.
      * intros G2 Ei; injection Ei as <-. rewrite <- Hid. eapply fo_id; eauto.
      * apply (fo_id _ H).
    + apply (fo_asset _ H).
  - intros l N. unfold file_content; simpl. rewrite nupd_ne; [reflexivity|]. congruence.
  - intros l N. simpl. apply nupd_ne, N.
Qed.
Lemma fs_set_name_content f l v x :
  file_content (fs_set_name f l v) x =
  if loc_eqb x l then match v with Some i => Some (f_data f i) | None => None end else file_content f x.
Proof. unfold file_content. simpl. unfold nupd. destruct (loc_eqb x l); reflexivity. Qed.
Lemma fs_unlink_ok f l : fs_ok f -> fs_ok (fs_set_name f l None).
Proof.
  intros H. constructor; simpl; unfold nupd; intros l1.
  - intros i. destruct (loc_eqb l1 l); [discriminate|]. apply (fo_next _ H).
  - intros i. destruct (loc_eqb l1 l); [discriminate|]. apply (fo_good _ H).
  - intros i. destruct (loc_eqb l1 l); [discriminate|]. apply (fo_plain _ H).
  - intros l2 i. destruct (loc_eqb l1 l); [discriminate|]. destruct (loc_eqb l2 l); [discriminate|].
    apply (fo_id _ H).
  - apply (fo_asset _ H).
Qed.
(* removing names keeps fs_ok *)
Lemma fs_shrink_ok f f' :
  fs_ok f -> f_data f' = f_data f -> f_next f' = f_next f ->
  (forall l, f_name f' l = None \/ f_name f' l = f_name f l) -> assets_from f f' -> fs_ok f'.
Proof.
  intros H Ed En Hn Ha. constructor.
  - intros l i G. rewrite En. destruct (Hn l) as [H0|H0]; [congruence|]. apply (fo_next _ H l). congruence.
  - intros l i G. rewrite Ed. destruct (Hn l) as [H0|H0]; [congruence|]. apply (fo_good _ H l). congruence.
  - intros l i G. destruct (Hn l) as [H0|H0]; [congruence|]. apply (fo_plain _ H l i). congruence.
  - intros l l' i G G'. destruct (Hn l) as [H0|H0]; [congruence|]. destruct (Hn l') as [H1|H1]; [congruence|].
    apply (fo_id _ H l l' i); congruence.
  - intros r a c G. destruct (Ha r a c G) as [->|(x & G')]; [left; reflexivity|apply (fo_asset _ H _ _ _ G')].
Qed.
Lemma fs_asset_good f r a c : fs_ok f -> f_asset f r a = Some c -> good_asset E a c.
Proof. intros H G. destruct (fo_asset _ H _ _ _ G) as [->|X]; [apply good_asset_empty|exact X]. Qed.

Lemma wp_link_or_copy src dst (C : state -> Prop) (Q : state -> res unit -> Prop) s :
  fs_ok (st_fs s) -> l_id src = l_id dst -> src <> dst ->
  (forall f', fs_step dst (st_fs s) f' ->
     (f_name (st_fs s) dst = None -> fs_fresh dst (st_fs s) f') -> C (on_fs (fun _ => f') s)) ->
  (forall f', fs_step dst (st_fs s) f' ->
     (f_name (st_fs s) dst = None ->
        fs_fresh dst (st_fs s) f' /\ file_content f' dst = file_content (st_fs s) src) ->
     Q (on_fs (fun _ => f') s) (Ok tt)) ->
  wp (link_or_copy E src dst) C Q s.
Proof.
  intros H Hid Hsd HC HQ. unfold link_or_copy. apply wp_bind_gets.
  destruct (can_link E (st_fs s) src dst) eqn:L.
  - unfold can_link in L. destruct (f_name (st_fs s) src) as [i|] eqn:Gs; [|discriminate].
    destruct (f_name (st_fs s) dst) as [j|] eqn:Gd; [discriminate|].
    assert (St : fs_step dst (st_fs s) (fs_set_name (st_fs s) dst (f_name (st_fs s) src))).
    { apply fs_link_step; auto. rewrite Gs; discriminate. }
    assert (Fr : fs_fresh dst (st_fs s) (fs_set_name (st_fs s) dst (f_name (st_fs s) src))).
    { intros l N. rewrite fs_set_name_content. destruct (loc_eqb_spec l dst); [contradiction|reflexivity]. }
    apply wp_durable; unfold on_fs.
    + exact (HC _ St (fun _ => Fr)).
    + refine (HQ _ St (fun _ => conj Fr _)).
      rewrite fs_set_name_content, loc_eqb_refl. unfold file_content. rewrite Gs. reflexivity.
  - unfold copy_file. apply wp_bind_gets. destruct (f_name (st_fs s) src) as [i|] eqn:Gs.
    2:{ apply wp_ret. rewrite <- (on_fs_id s). refine (HQ (st_fs s) (fs_step_refl _ _ H) _).
        intros Gd. split; [intros l _; reflexivity|]. unfold file_content. rewrite Gs, Gd. reflexivity. }
    destruct (f_name (st_fs s) dst) as [j|] eqn:Gd.
    + set (f1 := fs_write (st_fs s) j EmptyString).
      assert (S1 : fs_step dst (st_fs s) f1) by (apply fs_write_step; auto; apply good_empty).
      set (f2 := fs_write f1 j (f_data f1 i)).
      assert (S2 : fs_step dst f1 f2).
      { apply fs_write_step; [apply (fs_st_ok _ _ _ S1)|exact Gd|].
        rewrite <- Hid. apply (fo_good _ (fs_st_ok _ _ _ S1)). exact Gs. }
      apply wp_bind_durable.
      * refine (HC f1 S1 _). congruence.
      * assert (Ef : on_fs (fun f => match f_name f dst with Some j0 => fs_write f j0 (f_data f i) | None => f end)
                       (on_fs (fun _ => f1) s) = on_fs (fun _ => f2) s).
        { unfold on_fs. cbn [st_fs st_db st_cache st_batch]. change (f_name f1 dst) with (f_name (st_fs s) dst).
          rewrite Gd. reflexivity. }
        change (on_fs (fun f => fs_write f j EmptyString) s) with (on_fs (fun _ => f1) s).
        apply wp_durable; rewrite Ef.
        -- apply (HC f2); [eapply fs_step_trans; eauto|discriminate].
        -- apply (HQ f2); [eapply fs_step_trans; eauto|discriminate].
    + set (f1 := fs_create (st_fs s) dst EmptyString).
      assert (S1 : fs_step dst (st_fs s) f1)
        by (apply fs_create_step; [exact H|apply good_empty|rewrite <- Hid; apply (fo_plain _ H _ _ Gs)]).
      assert (Fr1 : fs_fresh dst (st_fs s) f1).
      { intros l N. unfold f1. rewrite fs_create_content by exact H.
        destruct (loc_eqb_spec l dst); [contradiction|reflexivity]. }
      assert (Gd1 : f_name f1 dst = Some (f_next (st_fs s))) by apply nupd_eq.
      set (f2 := fs_write f1 (f_next (st_fs s)) (f_data f1 i)).
      pose proof (fo_next _ H _ _ Gs) as Hlt.
      assert (Hi : f_data f1 i = f_data (st_fs s) i).
      { simpl. unfold dupd. destruct (Nat.eqb_spec i (f_next (st_fs s))); [lia|reflexivity]. }
      assert (S2 : fs_step dst f1 f2).
      { apply fs_write_step; [apply (fs_st_ok _ _ _ S1)|exact Gd1|].
        rewrite Hi, <- Hid. apply (fo_good _ H). exact Gs. }
      assert (Fr2 : fs_fresh dst (st_fs s) f2).
      { intros l N. rewrite <- (Fr1 l N). unfold file_content. simpl. rewrite nupd_ne by exact N.
        destruct (f_name (st_fs s) l) as [k|] eqn:Gk; [|reflexivity].
        pose proof (fo_next _ H _ _ Gk). unfold dupd. destruct (Nat.eqb_spec k (f_next (st_fs s))); [lia|reflexivity]. }
      apply wp_bind_durable.
      * exact (HC f1 S1 (fun _ => Fr1)).
      * assert (Ef : on_fs (fun f => match f_name f dst with Some j0 => fs_write f j0 (f_data f i) | None => f end)
                       (on_fs (fun _ => f1) s) = on_fs (fun _ => f2) s).
        { unfold on_fs. cbn [st_fs st_db st_cache st_batch]. rewrite Gd1. reflexivity. }
        change (on_fs (fun f => fs_create f dst EmptyString) s) with (on_fs (fun _ => f1) s).
        apply wp_durable; rewrite Ef.
        -- apply (HC f2); [eapply fs_step_trans; eauto|auto].
        -- apply (HQ f2); [eapply fs_step_trans; eauto|].
           intros _. split; [exact Fr2|]. unfold file_content. rewrite Gs.
           change (f_name f2 dst) with (f_name f1 dst). rewrite Gd1. f_equal.
           unfold f2. simpl. unfold dupd at 1. rewrite Nat.eqb_refl. exact Hi.
Qed.

(** ** the global invariant *)
Definition file_matches (f : fs) (l : loc) (p : pentry) : Prop :=
  exists c, file_content f l = Some c /\ c <> EmptyString /\
            m_hash (p_meta p) = E_sha1 E c /\ m_size (p_meta p) = N.of_nat (String.length c).

Record FX (s : state) : Prop := {
  fx_pool : forall id p, mget (d_pool (st_db s)) id = Some p -> is_delta_id id = false ->
      file_matches (st_fs s) (Loc TPool (comp_of (cat id)) id) p;
  fx_repo : forall r n e id p, mget (d_ents (st_db s) r) n = Some e -> In id (e_avail e) ->
      mget (d_pool (st_db s)) id = Some p ->
      file_matches (st_fs s) (Loc (TRepo r) (comp_of (cat id)) id) p
}.
Record FZ (s : state) : Prop := {
  fz_pool : forall c id, is_delta_id id = false -> f_name (st_fs s) (Loc TPool c id) <> None ->
      c = comp_of (cat id) /\ mget (d_pool (st_db s)) id <> None;
  fz_repo : forall r c id, is_delta_id id = false -> f_name (st_fs s) (Loc (TRepo r) c id) <> None ->
      c = comp_of (cat id) /\
      exists e, mget (d_ents (st_db s) r) (m_name (cat id)) = Some e /\ In id (e_avail e)
}.

Record Inv (ex fz : bool) (P : list string) (s : state) : Prop := {
  i_db : db_ok cat (st_db s);
  i_refs : refs ex (st_db s) P [];
  i_nod : nodelta ex (st_db s);
  i_fs : fs_ok (st_fs s);
  i_cache : forall r, st_cache s r = true -> mhas (d_repos (st_db s)) r = true;
  i_batch : st_batch s = [];
  i_fx : fz = true -> FX s;
  i_fz : fz = true -> FZ s
}.
Definition Cinv (fz : bool) (s : state) : Prop := Inv false false [] s /\ (fz = true -> FX s).

Lemma refs_false ex d P N : refs ex d P N -> refs false d P N.
Proof. intros R x. specialize (R x). destruct ex; lia. Qed.
Lemma refs_drop ex d P : refs ex d P [] -> refs false d [] [].
Proof. intros R x. specialize (R x). destruct ex; simpl in *; lia. Qed.
Lemma Inv_Cinv ex fz P s : Inv ex fz P s -> Cinv fz s.
Proof.
  intros [H1 H2 H3 H4 H5 H6 H7 H8]. split; [|exact H7].
  constructor; auto; try discriminate. eapply refs_drop; eauto.
Qed.

(** what an operation on repository [r] leaves alone *)
Record rest (fz : bool) (r : string) (s s' : state) : Prop := {
  rs_cache : st_cache s' = st_cache s;
  rs_root : f_root (st_fs s') = f_root (st_fs s);
  rs_asset : f_asset (st_fs s') = f_asset (st_fs s);
  rs_dir : f_dir (st_fs s') = f_dir (st_fs s);
  rs_name : forall l, l_tree l <> TRepo r -> l_tree l <> TPool -> f_name (st_fs s') l = f_name (st_fs s) l;
  rs_data : fz = true -> forall l, l_tree l <> TRepo r -> l_tree l <> TPool -> is_delta_id (l_id l) = false ->
      file_content (st_fs s') l = file_content (st_fs s) l
}.
Lemma rest_refl fz r s : rest fz r s s.
Proof. constructor; auto. Qed.
Lemma rest_trans fz r s1 s2 s3 : rest fz r s1 s2 -> rest fz r s2 s3 -> rest fz r s1 s3.
Proof.
  intros [A1 A2 A3 A4 A5 A6] [B1 B2 B3 B4 B5 B6]. constructor; try congruence.
  - intros l N1 N2. rewrite B5, A5; auto.
  - intros Hz l N1 N2 Hd. rewrite B6, A6; auto.
Qed.

Lemma file_matches_ext f f' l p : file_content f' l = file_content f l -> file_matches f l p -> file_matches f' l p.
Proof. intros Ec (c & H1 & H2). exists c. rewrite Ec. auto. Qed.
Lemma file_matches_rc f l p n : file_matches f l p -> file_matches f l (set_rc p n).
Proof. intros (c & H). exists c. exact H. Qed.

End Fs.
