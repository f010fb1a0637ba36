(** * Ops: the package operations preserve the invariant and compute the pure
    database functions of DbOps (proof artifact) *)
From Verif Require Import Model Spec DbInv DbOps Wp FsInv.

Section Ops.
Variable E : env.
Variable cat : string -> meta.
Hypothesis Hcat : good_catalog cat.
Hypothesis HE : good_env E.

Notation Inv := (Inv E cat).
Notation Cinv := (Cinv E cat).
Notation FX := (FX E cat).
Notation FZ := (FZ cat).

(** ** reads *)
Lemma pool_get_eq id s p :
  mget (d_pool (st_db s)) id = Some p -> pool_get_or_err id s = ([], s, Ok p).
Proof. intros G. unfold pool_get_or_err, pool_get. rewrite bind_gets, G. reflexivity. Qed.

Lemma build_sane_eq ex fz P r m id s :
  Inv ex fz P s -> m_name m = m_name (cat id) -> get_release m = Ok (rel (cat id)) ->
  build_sane_entry r m id s = ([], s, Ok (sane cat (st_db s) r id)).
Proof.
  intros H Hn Hr. unfold build_sane_entry, ent_get. rewrite bind_gets. unfold sane. rewrite Hn.
  destruct (mget (d_ents (st_db s) r) (m_name (cat id))) as [e|] eqn:G.
  - pose proof (ok_ent _ _ (i_db _ _ _ _ _ _ H) _ _ _ G) as He.
    pose proof (eo_pub _ _ _ He) as Hp.
    destruct (listed_in_pool cat false (st_db s) r _ e (e_pub e) (i_db _ _ _ _ _ _ H)
                (refs_drop _ _ _ (i_refs _ _ _ _ _ _ H)) G) as [p Gp].
    { unfold lst. rewrite (proj2 (sin_In _ _) Hp). reflexivity. }
    pose proof (ok_pool _ _ (i_db _ _ _ _ _ _ H) _ _ Gp) as Hpo.
    unfold pool_get. erewrite bind_ok.
    2:{ rewrite bind_gets, Gp, Hr, bind_lift_ok.
        rewrite (meta_of_get_release cat Hcat _ _ (po_meta _ _ _ Hpo)), bind_lift_ok. reflexivity. }
    simpl. destruct (sin id (e_avail e)); reflexivity.
  - rewrite bind_ret. simpl. reflexivity.
Qed.

Lemma wp_write (b : bool) o (C : state -> Prop) (Q : state -> res unit -> Prop) s :
  reserved (op_key o) = false -> b = false ->
  C (on_db (fun d => apply_op d o) s) -> Q (on_db (fun d => apply_op d o) s) (Ok tt) ->
  wp (db_write b o) C Q s.
Proof. intros Hr -> HC HQ. unfold db_write. rewrite Hr. apply wp_durable; assumption. Qed.

(** ** file invariant under database and file steps *)
Lemma FX_fresh s dst f' :
  FX s -> f_name (st_fs s) dst = None -> fs_fresh dst (st_fs s) f' -> FX (on_fs (fun _ => f') s).
Proof.
  intros [H1 H2] Hn Fr.
  assert (K : forall l p, file_matches E (st_fs s) l p -> file_matches E f' l p).
  { intros l p Hm. eapply file_matches_ext; [|exact Hm]. apply Fr. intros ->.
    destruct Hm as (c & Hc & _). unfold file_content in Hc. rewrite Hn in Hc. discriminate. }
  constructor; simpl; intros; eauto.
Qed.
Lemma FX_delta s dst f' :
  db_ok cat (st_db s) -> FX s -> is_delta_id (l_id dst) = true -> fs_step E cat dst (st_fs s) f' ->
  FX (on_fs (fun _ => f') s).
Proof.
  intros Hok [H1 H2] Hd St. constructor; simpl.
  - intros id p G Hi. eapply file_matches_ext; [|eapply H1; eauto].
    apply (fs_st_other _ _ _ _ _ St). simpl. congruence.
  - intros r n e id p G Hin Gp. eapply file_matches_ext; [|eapply H2; eauto].
    apply (fs_st_other _ _ _ _ _ St). simpl.
    destruct (eo_avail _ _ _ (ok_ent _ _ Hok _ _ _ G) _ Hin) as (_ & Hi & _). congruence.
Qed.

(** the reference count of [id] goes up by one *)
Lemma Inv_bump ex fz P id p s :
  Inv ex fz P s -> mget (d_pool (st_db s)) id = Some p ->
  Inv ex fz (id :: P) (on_db (d_bump id) s).
Proof.
  intros [H1 H2 H3 H4 H5 H6 H7 H8] G. constructor; simpl; auto.
  - apply ok_bump, H1.
  - eapply refs_bump; eauto.
  - intros Ex r n e. rewrite bump_ents. apply (H3 Ex).
  - intros r. rewrite bump_repos. apply H5.
  - intros Z. destruct (H7 Z) as [X1 X2]. unfold on_db, d_bump. rewrite G.
    pose proof (po_name _ _ _ (ok_pool _ _ H1 _ _ G)) as En.
    constructor; simpl; rewrite En.
    + intros id' p'. rewrite mget_put. destruct (seqb_spec id' id) as [->|N]; [|apply X1].
      intros Ep Hd; injection Ep as <-. apply file_matches_rc, X1; auto.
    + intros r n e id' p' Ge Hin. rewrite mget_put. destruct (seqb_spec id' id) as [->|N]; [|eauto].
      intros Ep; injection Ep as <-. apply file_matches_rc. eauto.
  - intros Z. destruct (H8 Z) as [X1 X2]. unfold on_db, d_bump. rewrite G.
    pose proof (po_name _ _ _ (ok_pool _ _ H1 _ _ G)) as En.
    constructor; simpl; rewrite ?En; auto.
    intros c id' Hd Hf. destruct (X1 c id' Hd Hf) as [-> Hn]. split; [reflexivity|].
    rewrite mget_put. destruct (seqb id' id); [discriminate|exact Hn].
Qed.

Lemma rest_db fz r s f : rest fz r s (on_db f s).
Proof. constructor; auto. Qed.
Lemma rest_step fz r s dst f' :
  (l_tree dst = TRepo r \/ l_tree dst = TPool) -> fs_step E cat dst (st_fs s) f' ->
  (fz = true -> is_delta_id (l_id dst) = false -> fs_fresh dst (st_fs s) f') ->
  rest fz r s (on_fs (fun _ => f') s).
Proof.
  intros Ht St Fr. constructor; simpl; try apply St; auto.
  - intros l N1 N2. apply (fs_st_name _ _ _ _ _ St). intros ->. destruct Ht; congruence.
  - intros Z l N1 N2 Hd.
    destruct (is_delta_id (l_id dst)) eqn:D.
    + apply (fs_st_other _ _ _ _ _ St). congruence.
    + apply (Fr Z eq_refl). intros ->. destruct Ht; congruence.
Qed.

Lemma reserved_plain id : plain_id id = true -> reserved id = false.
Proof.
  unfold plain_id. intros H. apply andb_true_iff in H. destruct H as [_ H].
  apply negb_true_iff in H. exact H.
Qed.

(** link the pool file into the repository and store the new entry: shared by
    AddLocalPackage and RefPackage *)
Lemma wp_finish ex fz r id e d0 p s :
  Inv ex fz [id] s -> db_ok cat d0 -> nodelta ex d0 -> sane cat d0 r id = Some e ->
  d_ents (st_db s) = d_ents d0 -> d_repos (st_db s) = d_repos d0 ->
  mhas (d_repos d0) r = true -> is_delta_id id = false ->
  mget (d_pool (st_db s)) id = Some p ->
  wp (link_or_copy E (pool_loc (comp_of (cat id)) id) (Loc (TRepo r) (comp_of (cat id)) id) ;;;
      db_write false (PutEnt r e))
     (Cinv fz)
     (fun s' res => res = Ok tt /\ Inv ex fz [] s' /\ st_db s' = apply_op (st_db s) (PutEnt r e) /\ rest fz r s s') s.
Proof.
  intros H Hd0 Hnd S Ee Er Hr Hd Gp.
  set (dst := Loc (TRepo r) (comp_of (cat id)) id).
  assert (He : entry_ok cat (m_name (cat id)) e) by (eapply sane_ok; eauto).
  assert (Hfresh : fz = true -> f_name (st_fs s) dst = None).
  { intros Z. destruct (f_name (st_fs s) dst) eqn:G; [|reflexivity]. exfalso.
    destruct (fz_repo _ _ (i_fz _ _ _ _ _ _ H Z) r (comp_of (cat id)) id Hd) as (_ & e0 & G0 & Hin).
    - unfold dst in G. rewrite G. discriminate.
    - rewrite Ee in G0. pose proof (sane_fresh _ _ _ _ _ S) as F. rewrite G0 in F.
      apply sin_not_In in F. contradiction. }
  apply wp_bind.
  apply (wp_link_or_copy E cat HE); [apply (i_fs _ _ _ _ _ _ H)|reflexivity|discriminate| |].
  - (* crash while copying *)
    intros f' St Fr. destruct (Inv_Cinv _ _ _ _ _ _ H) as [HI HX].
    destruct HI as [A1 A2 A3 A4 A5 A6 A7 A8]. split.
    + constructor; simpl; auto; try discriminate. apply (fs_st_ok _ _ _ _ _ St).
    + intros Z. eapply FX_fresh; eauto.
  - intros f' St Fr. cbv beta iota.
    set (s2 := on_fs (fun _ => f') s).
    assert (H' : Inv ex fz [] (on_db (fun d => apply_op d (PutEnt r e)) s2)).
    { destruct (sane_putent cat Hcat ex d0 (st_db s) r id e [] [] Hd0 Hnd Hd Hr S (i_db _ _ _ _ _ _ H) Ee Er
                  (i_refs _ _ _ _ _ _ H)) as (B1 & B2 & B3).
      constructor; try assumption.
      - apply (fs_st_ok _ _ _ _ _ St).
      - apply (i_cache _ _ _ _ _ _ H).
      - apply (i_batch _ _ _ _ _ _ H).
      - intros Z. destruct (Fr (Hfresh Z)) as [Fr1 Fr2].
        pose proof (FX_fresh s dst f' (i_fx _ _ _ _ _ _ H Z) (Hfresh Z) Fr1) as [X1 X2].
        constructor; [exact X1|].
        intros r' n' e' id' p'. simpl. unfold fupd. rewrite (eo_name _ _ _ He).
        destruct (seqb_spec r' r) as [->|Nr]; [|apply X2].
        rewrite mget_put. destruct (seqb_spec n' (m_name (cat id))) as [->|Nn]; [|apply X2].
        intros Eq; injection Eq as <-. intros Hin Gp'.
        destruct (string_dec id' id) as [->|Ni].
        + rewrite Gp in Gp'. injection Gp' as <-.
          destruct (fx_pool _ _ _ (i_fx _ _ _ _ _ _ H Z) id p Gp Hd) as (c & C1 & C2).
          exists c. split; [|exact C2]. unfold dst in Fr2. rewrite Fr2. exact C1.
        + pose proof (sane_lst _ _ _ _ _ id' S) as L. unfold lst in L.
          rewrite (proj2 (sin_In id' (e_avail e)) Hin) in L. simpl in L.
          destruct (seqb_spec id' id); [contradiction|]. rewrite orb_false_r in L.
          destruct (mget (d_ents d0 r) (m_name (cat id))) as [e0|] eqn:G0; [|discriminate].
          rewrite <- Ee in G0. symmetry in L. apply sin_In in L. exact (X2 r _ e0 id' p' G0 L Gp').
      - intros Z. destruct (i_fz _ _ _ _ _ _ H Z) as [Z1 Z2]. constructor; simpl.
        + intros c id' Hd' Hf. rewrite (fs_st_name _ _ _ _ _ St) in Hf by discriminate. eauto.
        + intros r' c id' Hd' Hf. unfold fupd. rewrite (eo_name _ _ _ He).
          assert (Hold : Loc (TRepo r') c id' <> dst ->
             c = comp_of (cat id') /\
             exists e0, mget (d_ents (st_db s) r') (m_name (cat id')) = Some e0 /\ In id' (e_avail e0)).
          { intros N. rewrite (fs_st_name _ _ _ _ _ St _ N) in Hf. eauto. }
          destruct (seqb_spec r' r) as [->|Nr]; [|apply Hold; unfold dst; congruence].
          rewrite mget_put.
          assert (Hl : forall x, In x (e_avail e) <-> lst e x = true).
          { intros x. unfold lst. rewrite orb_true_iff, !sin_In.
            assert (e_deltas e = []) as ->; [|simpl; tauto].
            revert S. unfold sane. destruct (sin _ _); [discriminate|]. intros Eq; injection Eq as <-. reflexivity. }
          destruct (string_dec id' id) as [->|Ni].
          * split.
            { destruct (string_dec c (comp_of (cat id))) as [->|Nc]; [reflexivity|].
              apply Hold. unfold dst. congruence. }
            rewrite seqb_refl. exists e. split; [reflexivity|]. apply Hl.
            rewrite (sane_lst _ _ _ _ _ id S), seqb_refl. apply orb_true_r.
          * destruct Hold as (-> & e0 & G0 & Hin0); [unfold dst; congruence|]. split; [reflexivity|].
            destruct (seqb_spec (m_name (cat id')) (m_name (cat id))) as [En|Nn]; [|eauto].
            exists e. split; [reflexivity|]. apply Hl. rewrite (sane_lst _ _ _ _ _ id' S).
            rewrite <- Ee, <- En, G0. rewrite (proj2 (sin_In _ _) Hin0). reflexivity. }
    apply wp_write; [|reflexivity| |].
    + simpl. rewrite (eo_name _ _ _ He). apply (gm_name _ (Hcat id)).
    + eapply Inv_Cinv; eauto.
    + split; [reflexivity|]. split; [exact H'|]. split; [reflexivity|].
      eapply rest_trans; [|apply rest_db]. apply (rest_step fz r s dst f'); [left; reflexivity|exact St|].
      intros Z _. apply Fr, Hfresh, Z.
Qed.

(** RefPackage *)
Lemma wp_ref_package ex fz r id p s :
  Inv ex fz [] s -> mget (d_pool (st_db s)) id = Some p -> is_delta_id id = false ->
  mhas (d_repos (st_db s)) r = true ->
  wp (ref_package E r id) (Cinv fz)
     (fun s' res => res = Ok tt /\ Inv ex fz [] s' /\ st_db s' = db_ref cat r id (st_db s) /\ rest fz r s s') s.
Proof.
  intros H G Hd Hr. unfold ref_package.
  pose proof (ok_pool _ _ (i_db _ _ _ _ _ _ H) _ _ G) as Hp.
  eapply wp_bind_read; [apply pool_get_eq, G|].
  eapply wp_bind_lift; [apply (meta_of_comp cat Hcat), (po_meta _ _ _ Hp)|].
  eapply wp_bind_read.
  { eapply build_sane_eq; eauto.
    - apply meta_of_name, (po_meta _ _ _ Hp).
    - apply (meta_of_get_release cat Hcat), (po_meta _ _ _ Hp). }
  unfold db_ref. destruct (sane cat (st_db s) r id) as [e|] eqn:S.
  2:{ apply wp_ret. split; [reflexivity|]. split; [exact H|]. split; [reflexivity|apply rest_refl]. }
  unfold pool_ref.
  apply wp_bind_assoc. eapply wp_bind_read; [apply pool_get_eq, G|].
  assert (EB : on_db (fun d => apply_op d (PutPool (set_rc p (p_rc p + 1)))) s = on_db (d_bump id) s).
  { unfold on_db. f_equal. unfold d_bump. rewrite G. reflexivity. }
  pose proof (Inv_bump _ _ _ _ _ _ H G) as H1.
  apply wp_bind. apply wp_write; [|reflexivity| |].
  - simpl. rewrite (po_name _ _ _ Hp). apply reserved_plain, (po_plain _ _ _ Hp).
  - rewrite EB. eapply Inv_Cinv; eauto.
  - rewrite EB. eapply wp_post.
    + eapply (wp_finish ex fz r id e (st_db s)); eauto.
      * apply (i_db _ _ _ _ _ _ H).
      * apply (i_nod _ _ _ _ _ _ H).
      * simpl. apply bump_ents.
      * simpl. apply bump_repos.
      * simpl. unfold d_bump. rewrite G. simpl. rewrite (po_name _ _ _ Hp), mget_put_eq. reflexivity.
    + intros s' res (A & B & C & D). split; [exact A|]. split; [exact B|]. split; [exact C|].
      eapply rest_trans; [|exact D]. apply rest_db.
Qed.

(** ** AddPackage *)

Lemma FX_step s dst f' :
  db_ok cat (st_db s) -> FX s -> fs_step E cat dst (st_fs s) f' ->
  (is_delta_id (l_id dst) = false -> f_name (st_fs s) dst = None /\ fs_fresh dst (st_fs s) f') ->
  FX (on_fs (fun _ => f') s).
Proof.
  intros Hok HX St Fr. destruct (is_delta_id (l_id dst)) eqn:D.
  - eapply FX_delta; eauto.
  - destruct (Fr eq_refl). eapply FX_fresh; eauto.
Qed.

(* a file step that does not touch packages, or only a fresh name *)
Lemma Cinv_step fz ex P s dst f' :
  Inv ex fz P s -> fs_step E cat dst (st_fs s) f' ->
  (fz = true -> is_delta_id (l_id dst) = false -> f_name (st_fs s) dst = None /\ fs_fresh dst (st_fs s) f') ->
  Cinv fz (on_fs (fun _ => f') s).
Proof.
  intros H St Fr. destruct (Inv_Cinv _ _ _ _ _ _ H) as [[A1 A2 A3 A4 A5 A6 A7 A8] HX]. split.
  - constructor; simpl; auto; try discriminate. apply (fs_st_ok _ _ _ _ _ St).
  - intros Z. eapply FX_step; eauto.
Qed.

Definition new_pentry (id hash : string) (size : N) (delta : option dinfo) : pentry :=
  PEntry id 1 (set_index_bits (cat id) (comp_of (cat id)) id hash size) delta.

Definition dinfo_ok (di : dinfo) : Prop :=
  d_frel di = rel (cat (d_from di)) /\ d_trel di = rel (cat (d_to di)).

Lemma new_pentry_ok id h z delta :
  plain_id id = true -> (is_delta_id id = true <-> delta <> None) ->
  (forall di, delta = Some di -> dinfo_ok di) ->
  pentry_ok cat id (new_pentry id h z delta).
Proof.
  intros Hp Hd Hi. constructor; simpl; auto; [lia|]. exists h, z. reflexivity.
Qed.

Lemma wp_pool_add ex fz r src m c delta s :
  Inv ex fz [] s -> upload_tree (l_tree src) = true ->
  file_content (st_fs s) src = Some c -> E_parse E c = Ok m ->
  (is_delta_id (l_id src) = true <-> delta <> None) ->
  (forall di, delta = Some di -> dinfo_ok di) ->
  wp (pool_add_internal E src m delta) (Cinv fz)
     (fun s' res =>
        (res = Ok tt /\ Inv ex fz [l_id src] s' /\ rest fz r s s' /\
           exists h z, st_db s' = db_touch (new_pentry (l_id src) h z delta) (st_db s) /\
             pentry_ok cat (l_id src) (new_pentry (l_id src) h z delta) /\
             (fz = true -> is_delta_id (l_id src) = false -> h = E_sha1 E c /\ z = N.of_nat (String.length c)))
        \/ (res = Err /\ Inv ex fz [] s' /\ rest fz r s s' /\ st_db s' = st_db s /\
             (fz = true -> is_delta_id (l_id src) = true))) s.
Proof.
  intros H Hup Hc Hm Hdel Hdi. set (id := l_id src) in *.
  pose proof (i_fs _ _ _ _ _ _ H) as Hfs.
  assert (Hname : exists i, f_name (st_fs s) src = Some i /\ c = f_data (st_fs s) i).
  { unfold file_content in Hc. destruct (f_name (st_fs s) src) as [i|]; [|discriminate].
    injection Hc as <-. eauto. }
  destruct Hname as (i & Gi & ->).
  assert (Hplain : plain_id id = true) by (apply (fo_plain _ _ _ Hfs _ _ Gi)).
  assert (Hmeta : m = cat id).
  { pose proof (fo_good _ _ _ Hfs _ _ Gi) as Hg. unfold good_file in Hg. rewrite Hm in Hg. exact Hg. }
  assert (Hne : f_data (st_fs s) i <> EmptyString).
  { intros Ee. rewrite Ee, (ge_parse _ HE) in Hm. discriminate. }
  unfold pool_add_internal, pool_get. fold id. apply wp_bind_gets.
  destruct (mget (d_pool (st_db s)) id) as [p|] eqn:Gp.
  - (* already pooled *)
    pose proof (ok_pool _ _ (i_db _ _ _ _ _ _ H) _ _ Gp) as Hp.
    assert (EB : on_db (fun d => apply_op d (PutPool (set_rc p (p_rc p + 1)))) s = on_db (d_bump id) s).
    { unfold on_db. f_equal. unfold d_bump. rewrite Gp. reflexivity. }
    pose proof (Inv_bump _ _ _ _ _ _ H Gp) as H1.
    apply wp_write; [simpl; rewrite (po_name _ _ _ Hp); apply reserved_plain, Hplain|reflexivity| |]; rewrite EB.
    + eapply Inv_Cinv; eauto.
    + left. split; [reflexivity|]. split; [exact H1|]. split; [apply rest_db|].
      exists (E_sha1 E (f_data (st_fs s) i)), (N.of_nat (String.length (f_data (st_fs s) i))).
      split; [|split; [apply new_pentry_ok; auto|auto]].
      simpl. unfold db_touch. simpl. rewrite Gp. reflexivity.
  - (* new in the pool *)
    apply wp_bind_gets. rewrite Hc. subst m.
    eapply wp_bind_lift; [apply (comp_of_ok cat Hcat)|].
    set (dst := pool_loc (comp_of (cat id)) id).
    assert (Hsd : src <> dst) by (intros Heq; rewrite Heq in Hup; discriminate).
    assert (Hfresh : fz = true -> is_delta_id id = false -> f_name (st_fs s) dst = None).
    { intros Z Hd. destruct (f_name (st_fs s) dst) eqn:G; [|reflexivity]. exfalso.
      refine (proj2 (fz_pool _ _ (i_fz _ _ _ _ _ _ H Z) (comp_of (cat id)) id Hd _) Gp).
      unfold dst, pool_loc in G. rewrite G. discriminate. }
    apply wp_bind.
    apply (wp_link_or_copy E cat HE); [exact Hfs|reflexivity|exact Hsd| |].
    + intros f' St Fr. eapply Cinv_step; eauto.
    + intros f' St Fr. cbv beta iota. set (s2 := on_fs (fun _ => f') s).
      assert (Hrest : rest fz r s s2).
      { apply (rest_step fz r s dst f'); [right; reflexivity|exact St|].
        intros Z Hd. apply Fr, Hfresh; auto. }
      assert (HX2 : fz = true -> FX s2).
      { intros Z. apply (FX_step s dst f'); auto.
        - apply (i_db _ _ _ _ _ _ H).
        - apply (i_fx _ _ _ _ _ _ H Z).
        - intros Hd. split; [apply Hfresh; auto|apply Fr, Hfresh; auto]. }
      apply wp_bind_gets. change (st_fs s2) with f'.
      destruct (file_content f' src) as [c2|] eqn:Hc2.
      2:{ exfalso. unfold file_content in Hc2. rewrite (fs_st_name _ _ _ _ _ St _ Hsd), Gi in Hc2. discriminate. }
      assert (Hc2' : fz = true -> is_delta_id id = false -> c2 = f_data (st_fs s) i).
      { intros Z Hd. destruct (Fr (Hfresh Z Hd)) as [Fr1 _]. rewrite (Fr1 src Hsd), Hc in Hc2. congruence. }
      destruct c2 as [|a c2].
      * (* the upload was emptied: only when the pool file existed before *)
        assert (Hbad : fz = true -> is_delta_id id = true).
        { intros Z. destruct (is_delta_id id) eqn:D; [reflexivity|]. specialize (Hc2' Z eq_refl). congruence. }
        apply wp_err. right. split; [reflexivity|]. split; [|split; [exact Hrest|split; [reflexivity|exact Hbad]]].
        destruct H as [A1 A2 A3 A4 A5 A6 A7 A8]. constructor; simpl; auto.
        -- apply (fs_st_ok _ _ _ _ _ St).
        -- intros Z. destruct (A8 Z) as [Z1 Z2]. specialize (Hbad Z). constructor; simpl.
           ++ intros co id' Hd' Hf. rewrite (fs_st_name _ _ _ _ _ St) in Hf; [eauto|].
              unfold dst, pool_loc. congruence.
           ++ intros r' co id' Hd' Hf. rewrite (fs_st_name _ _ _ _ _ St) in Hf; [eauto|].
              unfold dst, pool_loc. congruence.
      * set (cc := String a c2) in *.
        set (p := new_pentry id (E_sha1 E cc) (N.of_nat (String.length (f_data (st_fs s) i))) delta).
        change (PEntry id 1 (set_index_bits (cat id) (comp_of (cat id)) id (E_sha1 E cc)
                 (N.of_nat (String.length (f_data (st_fs s) i)))) delta) with p.
        assert (Hp : pentry_ok cat id p) by (apply new_pentry_ok; auto).
        assert (H3 : Inv ex fz [id] (on_db (fun d => apply_op d (PutPool p)) s2)).
        { destruct H as [A1 A2 A3 A4 A5 A6 A7 A8].
          constructor; [apply (ok_putpool cat (st_db s) id p); auto
                       |apply (refs_newpool cat ex (st_db s) p); auto
                       |exact A3|apply (fs_st_ok _ _ _ _ _ St)|exact A5|exact A6| |].
          - intros Z. destruct (HX2 Z) as [X1 X2]. constructor; simpl.
            + intros id' p'. rewrite mget_put. destruct (seqb_spec id' id) as [->|N]; [|apply X1].
              intros Ep Hd; injection Ep as <-. destruct (Fr (Hfresh Z Hd)) as [Fr1 Fr2].
              exists (f_data (st_fs s) i). unfold dst, pool_loc in Fr2. rewrite Fr2, Hc.
              repeat split; auto. simpl. rewrite (Hc2' Z Hd). reflexivity.
            + intros r' n' e' id' p' Ge Hin. rewrite mget_put. destruct (seqb_spec id' id) as [->|N]; [|eauto].
              intros _. exfalso.
              destruct (listed_in_pool cat ex (st_db s) r' n' e' id A1 A2 Ge) as [p0 G0]; [|congruence].
              unfold lst. rewrite (proj2 (sin_In _ _) Hin). reflexivity.
          - intros Z. destruct (A8 Z) as [Z1 Z2]. constructor; simpl.
            + intros co id' Hd' Hf. destruct (loc_eqb_spec (Loc TPool co id') dst) as [Eq|N].
              * unfold dst, pool_loc in Eq. injection Eq as -> ->. split; [reflexivity|].
                rewrite mget_put_eq. discriminate.
              * rewrite (fs_st_name _ _ _ _ _ St _ N) in Hf. destruct (Z1 co id' Hd' Hf) as [-> Hn].
                split; [reflexivity|]. rewrite mget_put. destruct (seqb id' id); [discriminate|exact Hn].
            + intros r' co id' Hd' Hf. rewrite (fs_st_name _ _ _ _ _ St) in Hf; [eauto|].
              unfold dst, pool_loc. congruence. }
        assert (W : wp (db_write false (PutPool p)) (Cinv fz)
                      (fun s' res => res = Ok tt /\ s' = on_db (fun d => apply_op d (PutPool p)) s2) s2).
        { apply wp_write; auto.
          - simpl. apply reserved_plain, Hplain.
          - eapply Inv_Cinv; eauto. }
        unfold wp, on_err in *. destruct (db_write false (PutPool p) s2) as [[t s3] res].
        simpl in W. destruct W as (W1 & -> & ->). split; [exact W1|].
        left. unfold result_of, final_of; simpl.
        split; [reflexivity|]. split; [exact H3|]. split; [eapply rest_trans; [exact Hrest|apply rest_db]|].
        exists (E_sha1 E cc), (N.of_nat (String.length (f_data (st_fs s) i))).
        split; [|split; [exact Hp|]].
        -- unfold db_touch. simpl. rewrite Gp. reflexivity.
        -- intros Z Hd. rewrite (Hc2' Z Hd). auto.
Qed.

(** what adding [src] to [r] amounts to *)
Lemma touch_get p d : db_ok cat d -> mget (d_pool (db_touch p d)) (p_name p) <> None.
Proof.
  intros H. unfold db_touch. destruct (mget (d_pool d) (p_name p)) as [q|] eqn:G.
  - unfold d_bump. rewrite G. simpl. rewrite (po_name _ _ _ (ok_pool _ _ H _ _ G)), mget_put_eq. discriminate.
  - simpl. rewrite mget_put_eq. discriminate.
Qed.

Lemma wp_add_local ex fz r src m c s :
  Inv ex fz [] s -> upload_tree (l_tree src) = true ->
  file_content (st_fs s) src = Some c -> E_parse E c = Ok m ->
  is_delta_id (l_id src) = false -> mhas (d_repos (st_db s)) r = true ->
  wp (add_local_package E r src m) (Cinv fz)
     (fun s' res =>
        (res = Ok tt /\ Inv ex fz [] s' /\ rest fz r s s' /\
           exists h z, st_db s' = db_add cat r (new_pentry (l_id src) h z None) (st_db s) /\
             pentry_ok cat (l_id src) (new_pentry (l_id src) h z None) /\
             (fz = true -> h = E_sha1 E c /\ z = N.of_nat (String.length c)))
        \/ (res = Err /\ Inv ex fz [] s' /\ rest fz r s s' /\ st_db s' = st_db s /\ fz = false)) s.
Proof.
  intros H Hup Hc Hm Hd Hr. set (id := l_id src) in *.
  assert (Hmeta : m = cat id).
  { unfold file_content in Hc. destruct (f_name (st_fs s) src) as [i|] eqn:Gi; [|discriminate]. injection Hc as <-.
    pose proof (fo_good _ _ _ (i_fs _ _ _ _ _ _ H) _ _ Gi) as Hg. unfold good_file in Hg. rewrite Hm in Hg. exact Hg. }
  assert (Hplain : plain_id id = true).
  { unfold file_content in Hc. destruct (f_name (st_fs s) src) as [i|] eqn:Gi; [|discriminate].
    apply (fo_plain _ _ _ (i_fs _ _ _ _ _ _ H) _ _ Gi). }
  unfold add_local_package. fold id.
  rewrite Hmeta. eapply wp_bind_lift; [apply (comp_of_ok cat Hcat)|].
  eapply wp_bind_read.
  { eapply build_sane_eq; eauto. apply (rel_ok cat Hcat). }
  destruct (sane cat (st_db s) r id) as [e|] eqn:S.
  2:{ apply wp_ret. left. split; [reflexivity|]. split; [exact H|]. split; [apply rest_refl|].
      exists (E_sha1 E c), (N.of_nat (String.length c)). split; [|split; [|auto]].
      - unfold db_add. simpl. rewrite S. reflexivity.
      - apply new_pentry_ok; auto; [|discriminate]. split; congruence. }
  apply wp_bind. rewrite <- Hmeta. eapply wp_post.
  { apply (wp_pool_add ex fz r src m c None s H Hup Hc Hm); [|discriminate]. fold id. split; congruence. }
  fold id. intros s1 res [(-> & H1 & R1 & h & z & D1 & P1 & Z1)|(-> & H1 & R1 & D1 & Z1)].
  - rewrite Hmeta. destruct (mget (d_pool (st_db s1)) id) as [p|] eqn:Gp.
    2:{ exfalso. revert Gp. rewrite D1. apply (touch_get (new_pentry id h z None)), (i_db _ _ _ _ _ _ H). }
    eapply wp_post.
    { eapply (wp_finish ex fz r id e (st_db s)); eauto.
      - apply (i_db _ _ _ _ _ _ H).
      - apply (i_nod _ _ _ _ _ _ H).
      - rewrite D1. apply touch_ents.
      - rewrite D1. apply touch_repos. }
    intros s2 res (-> & H2 & D2 & R2). left. split; [reflexivity|]. split; [exact H2|].
    split; [eapply rest_trans; eauto|]. exists h, z. split; [|split; [exact P1|auto]].
    unfold db_add. simpl. rewrite S, D2, D1. reflexivity.
  - right. split; [reflexivity|]. split; [exact H1|]. split; [exact R1|]. split; [exact D1|].
    destruct fz; [|reflexivity]. rewrite Z1 in Hd; auto.
Qed.

(** the strict check of AddPackage: the repository already publishes a release of
    that name which is not older *)
Definition stale (d : db) (r : string) (id : string) : bool :=
  match mget (d_ents d r) (m_name (cat id)) with
  | None => false
  | Some e => Z.leb (rel (cat id)) (rel (cat (e_pub e)))
  end.

Inductive add_outcome (fz : bool) (r : string) (src : loc) (strict : bool) (s s' : state) : res unit -> Prop :=
| AddUnreadable :
    (forall c, file_content (st_fs s) src = Some c -> E_parse E c = Err) ->
    s' = s -> add_outcome fz r src strict s s' Err
| AddStale :
    strict = true -> stale (st_db s) r (l_id src) = true ->
    s' = s -> add_outcome fz r src strict s s' Err
| AddBroken :    (* only after an earlier crash *)
    fz = false -> st_db s' = st_db s -> add_outcome fz r src strict s s' Err
| AddDone c h z :
    file_content (st_fs s) src = Some c -> E_parse E c = Ok (cat (l_id src)) ->
    (strict = true -> stale (st_db s) r (l_id src) = false) ->
    (fz = true -> h = E_sha1 E c /\ z = N.of_nat (String.length c)) ->
    pentry_ok cat (l_id src) (new_pentry (l_id src) h z None) ->
    st_db s' = db_add cat r (new_pentry (l_id src) h z None) (st_db s) ->
    add_outcome fz r src strict s s' (Ok tt).

Lemma wp_add_package ex fz r src strict s :
  Inv ex fz [] s -> upload_tree (l_tree src) = true -> is_delta_id (l_id src) = false ->
  mhas (d_repos (st_db s)) r = true ->
  wp (add_package E r src strict) (Cinv fz)
     (fun s' res => Inv ex fz [] s' /\ rest fz r s s' /\ add_outcome fz r src strict s s' res) s.
Proof.
  intros H Hup Hd Hr. set (id := l_id src) in *. unfold add_package, open_pkg.
  apply wp_bind_assoc. apply wp_bind_gets.
  destruct (file_content (st_fs s) src) as [c|] eqn:Hc.
  2:{ apply wp_bind, wp_err. split; [exact H|]. split; [apply rest_refl|].
      apply AddUnreadable; [congruence|reflexivity]. }
  assert (Hg : good_file E cat id c).
  { unfold file_content in Hc. destruct (f_name (st_fs s) src) as [i|] eqn:Gi; [|discriminate]. injection Hc as <-.
    apply (fo_good _ _ _ (i_fs _ _ _ _ _ _ H) _ _ Gi). }
  unfold good_file in Hg.
  destruct (E_parse E c) as [m| |] eqn:Hm; [| |contradiction].
  2:{ apply wp_bind, wp_lift. split; [exact H|]. split; [apply rest_refl|].
      apply AddUnreadable; [congruence|reflexivity]. }
  subst m. eapply wp_bind_lift; [reflexivity|].
  assert (Go : (strict = true -> stale (st_db s) r id = false) ->
     wp (add_local_package E r src (cat id)) (Cinv fz)
     (fun s' res => Inv ex fz [] s' /\ rest fz r s s' /\ add_outcome fz r src strict s s' res) s).
  { intros Hst. eapply wp_post; [eapply (wp_add_local ex fz r src (cat id) c); eauto|].
    intros s' res [(-> & H1 & R1 & h & z & D1 & P1 & Z1)|(-> & H1 & R1 & D1 & Z1)].
    - split; [exact H1|]. split; [exact R1|]. eapply AddDone; eauto.
    - split; [exact H1|]. split; [exact R1|]. apply AddBroken; auto. }
  destruct strict; simpl; [|apply Go; discriminate].
  unfold ent_get. apply wp_bind_gets.
  destruct (mget (d_ents (st_db s) r) (m_name (cat id))) as [e|] eqn:G.
  2:{ apply Go. intros _. unfold stale. rewrite G. reflexivity. }
  pose proof (ok_ent _ _ (i_db _ _ _ _ _ _ H) _ _ _ G) as He.
  destruct (listed_in_pool cat ex (st_db s) r _ e (e_pub e) (i_db _ _ _ _ _ _ H) (i_refs _ _ _ _ _ _ H) G) as [p Gp].
  { unfold lst. rewrite (proj2 (sin_In _ _) (eo_pub _ _ _ He)). reflexivity. }
  pose proof (ok_pool _ _ (i_db _ _ _ _ _ _ H) _ _ Gp) as Hpo.
  eapply wp_bind_read; [apply pool_get_eq, Gp|].
  eapply wp_bind_lift; [apply (meta_of_get_release cat Hcat), (po_meta _ _ _ Hpo)|].
  eapply wp_bind_lift; [apply (rel_ok cat Hcat)|].
  assert (Hst : stale (st_db s) r id = Z.leb (rel (cat id)) (rel (cat (e_pub e)))).
  { unfold stale. rewrite G. reflexivity. }
  destruct (Z.ltb_spec (rel (cat id)) (rel (cat (e_pub e)))) as [L|L].
  { apply wp_err. split; [exact H|]. split; [apply rest_refl|]. apply AddStale; auto. fold id. rewrite Hst. apply Z.leb_le. lia. }
  destruct (Z.eqb_spec (rel (cat (e_pub e))) (rel (cat id))) as [L'|L'].
  { apply wp_err. split; [exact H|]. split; [apply rest_refl|]. apply AddStale; auto. fold id. rewrite Hst. apply Z.leb_le. lia. }
  apply Go. intros _. rewrite Hst. apply Z.leb_gt. lia.
Qed.

(** ** deltas *)
Lemma wp_finish_delta fz r id e p s :
  Inv false fz [id] s -> mget (d_ents (st_db s) r) (m_name (cat id)) = Some e ->
  sin id (e_deltas e) = false -> is_delta_id id = true ->
  mget (d_pool (st_db s)) id = Some p ->
  wp (link_or_copy E (pool_loc (comp_of (cat id)) id) (Loc (TRepo r) (comp_of (cat id)) id) ;;;
      db_write false (PutEnt r (with_delta e id)))
     (Cinv fz)
     (fun s' res => res = Ok tt /\ Inv false fz [] s' /\
        st_db s' = apply_op (st_db s) (PutEnt r (with_delta e id)) /\ rest fz r s s') s.
Proof.
  intros H G S Hd Gp.
  set (dst := Loc (TRepo r) (comp_of (cat id)) id).
  pose proof (i_db _ _ _ _ _ _ H) as Hok.
  pose proof (ok_ent _ _ Hok _ _ _ G) as He. pose proof (ok_repo _ _ Hok _ _ _ G) as Hr.
  assert (He' : entry_ok cat (m_name (cat id)) (with_delta e id)) by (apply with_delta_ok; auto).
  apply wp_bind.
  apply (wp_link_or_copy E cat HE); [apply (i_fs _ _ _ _ _ _ H)|reflexivity|discriminate| |].
  - intros f' St Fr. eapply Cinv_step; eauto. intros _ Hd'. simpl in Hd'. congruence.
  - intros f' St Fr. cbv beta iota.
    set (s2 := on_fs (fun _ => f') s).
    assert (H' : Inv false fz [] (on_db (fun d => apply_op d (PutEnt r (with_delta e id))) s2)).
    { constructor.
      - eapply ok_putent; eauto.
      - eapply (refs_putent cat); [exact Hok|exact He'|exact Hr|apply (i_refs _ _ _ _ _ _ H)|].
        intros x. change (st_db s2) with (st_db s). rewrite G. simpl. unfold lst, with_delta. simpl.
        rewrite sin_sort, sin_app. simpl. rewrite orb_false_r.
        destruct (sin x (e_avail e)), (sin x (e_deltas e)), (seqb x id); simpl; lia.
      - discriminate.
      - apply (fs_st_ok _ _ _ _ _ St).
      - apply (i_cache _ _ _ _ _ _ H).
      - apply (i_batch _ _ _ _ _ _ H).
      - intros Z. pose proof (FX_delta s dst f' Hok (i_fx _ _ _ _ _ _ H Z) Hd St) as [X1 X2].
        constructor; [exact X1|].
        intros r' n' e' id' p'. simpl. unfold fupd. rewrite (eo_name _ _ _ He).
        destruct (seqb_spec r' r) as [->|Nr]; [|apply X2].
        rewrite mget_put. destruct (seqb_spec n' (m_name (cat id))) as [->|Nn]; [|apply X2].
        intros Eq; injection Eq as <-. simpl. intros Hin Gp'. exact (X2 r _ e id' p' G Hin Gp').
      - intros Z. destruct (i_fz _ _ _ _ _ _ H Z) as [Z1 Z2]. constructor; simpl.
        + intros c id' Hd' Hf. rewrite (fs_st_name _ _ _ _ _ St) in Hf by discriminate. eauto.
        + intros r' c id' Hd' Hf. rewrite (fs_st_name _ _ _ _ _ St) in Hf by (unfold dst; congruence).
          destruct (Z2 r' c id' Hd' Hf) as (-> & e0 & G0 & Hin). split; [reflexivity|]. unfold fupd.
          destruct (seqb_spec r' r) as [->|Nr]; [|eauto].
          rewrite mget_put, (eo_name _ _ _ He).
          destruct (seqb_spec (m_name (cat id')) (m_name (cat id))) as [En|Nn]; [|eauto].
          exists (with_delta e id). split; [reflexivity|]. simpl. congruence. }
    apply wp_write; [|reflexivity| |].
    + simpl. rewrite (eo_name _ _ _ He). apply (gm_name _ (Hcat id)).
    + eapply Inv_Cinv; eauto.
    + split; [reflexivity|]. split; [exact H'|]. split; [reflexivity|].
      eapply rest_trans; [|apply rest_db]. apply (rest_step fz r s dst f'); [left; reflexivity|exact St|].
      intros Z Hd'. simpl in Hd'. congruence.
Qed.

(** RefDelta *)
Lemma wp_ref_delta fz r id s :
  Inv false fz [] s -> is_delta_id id = true ->
  wp (ref_delta E r id) (Cinv fz)
     (fun s' res => Inv false fz [] s' /\ rest fz r s s' /\ res <> Panic /\
        ((res = Err /\ s' = s /\ (mget (d_pool (st_db s)) id = None \/ mget (d_ents (st_db s) r) (m_name (cat id)) = None)) \/
         (exists p, mget (d_pool (st_db s)) id = Some p /\ mget (d_ents (st_db s) r) (m_name (cat id)) <> None /\
                    res = Ok tt /\ st_db s' = db_delta cat r p (st_db s)))) s.
Proof.
  intros H Hd. unfold ref_delta.
  destruct (mget (d_pool (st_db s)) id) as [p|] eqn:G.
  2:{ unfold pool_get_or_err, pool_get. apply wp_bind_assoc. apply wp_bind_gets. rewrite G.
      apply wp_bind, wp_err. split; [exact H|]. split; [apply rest_refl|]. split; [discriminate|]. left. auto. }
  eapply wp_bind_read; [apply pool_get_eq, G|].
  pose proof (ok_pool _ _ (i_db _ _ _ _ _ _ H) _ _ G) as Hp.
  rewrite (meta_of_name cat _ _ (po_meta _ _ _ Hp)). unfold ent_get. apply wp_bind_gets.
  destruct (mget (d_ents (st_db s) r) (m_name (cat id))) as [e|] eqn:Ge.
  2:{ apply wp_err. split; [exact H|]. split; [apply rest_refl|]. split; [discriminate|]. left. auto. }
  eapply wp_bind_lift; [apply (meta_of_comp cat Hcat), (po_meta _ _ _ Hp)|].
  destruct (sin id (e_deltas e)) eqn:S.
  { apply wp_ret. split; [exact H|]. split; [apply rest_refl|]. split; [discriminate|]. right. exists p.
    split; [reflexivity|]. split; [discriminate|]. split; [reflexivity|].
    unfold db_delta. rewrite (po_name _ _ _ Hp), Ge, S. reflexivity. }
  unfold pool_ref. apply wp_bind_assoc. eapply wp_bind_read; [apply pool_get_eq, G|].
  assert (EB : on_db (fun d => apply_op d (PutPool (set_rc p (p_rc p + 1)))) s = on_db (d_bump id) s).
  { unfold on_db. f_equal. unfold d_bump. rewrite G. reflexivity. }
  pose proof (Inv_bump _ _ _ _ _ _ H G) as H1.
  apply wp_bind. apply wp_write; [|reflexivity| |].
  - simpl. rewrite (po_name _ _ _ Hp). apply reserved_plain, (po_plain _ _ _ Hp).
  - rewrite EB. eapply Inv_Cinv; eauto.
  - rewrite EB. eapply wp_post.
    + eapply (wp_finish_delta fz r id e); eauto.
      * simpl. rewrite bump_ents. exact Ge.
      * simpl. unfold d_bump. rewrite G. simpl. rewrite (po_name _ _ _ Hp), mget_put_eq. reflexivity.
    + intros s' res (-> & B & C & D). split; [exact B|].
      split; [eapply rest_trans; [apply rest_db|exact D]|]. split; [discriminate|].
      right. exists p. split; [reflexivity|]. split; [discriminate|]. split; [reflexivity|].
      unfold db_delta. rewrite (po_name _ _ _ Hp), Ge, S. rewrite C. simpl. unfold db_touch.
      rewrite (po_name _ _ _ Hp), G. reflexivity.
Qed.

(** AddDelta *)
Lemma wp_add_delta fz r src from to s :
  Inv false fz [] s -> upload_tree (l_tree src) = true -> is_delta_id (l_id src) = true ->
  wp (add_delta E r src from to) (Cinv fz)
     (fun s' res => Inv false fz [] s' /\ rest fz r s s' /\ res <> Panic /\
        ((res = Err /\ st_db s' = st_db s) \/
         (res = Ok tt /\ exists p, p_name p = l_id src /\ pentry_ok cat (l_id src) p /\
            (mget (d_pool (st_db s)) (l_id src) = None ->
               exists h z, p = new_pentry (l_id src) h z (Some (DInfo (rel (cat from)) from (rel (cat to)) to))) /\
            st_db s' = db_delta cat r p (st_db s)))) s.
Proof.
  intros H Hup Hd. set (id := l_id src) in *. unfold add_delta, open_pkg.
  apply wp_bind_assoc. apply wp_bind_gets.
  assert (Same : forall A (x : A), Inv false fz [] s /\ rest fz r s s /\ (@Err unit) <> Panic /\
     ((@Err unit = Err /\ st_db s = st_db s) \/
         (@Err unit = Ok tt /\ exists p, p_name p = id /\ pentry_ok cat id p /\
            (mget (d_pool (st_db s)) id = None ->
               exists h z, p = new_pentry id h z (Some (DInfo (rel (cat from)) from (rel (cat to)) to))) /\
            st_db s = db_delta cat r p (st_db s)))).
  { intros A x. split; [exact H|]. split; [apply rest_refl|]. split; [discriminate|]. left. auto. }
  destruct (file_content (st_fs s) src) as [c|] eqn:Hc.
  2:{ apply wp_bind, wp_err. apply (Same unit tt). }
  assert (Hg : good_file E cat id c).
  { unfold file_content in Hc. destruct (f_name (st_fs s) src) as [i|] eqn:Gi; [|discriminate]. injection Hc as <-.
    apply (fo_good _ _ _ (i_fs _ _ _ _ _ _ H) _ _ Gi). }
  assert (Hplain : plain_id id = true).
  { unfold file_content in Hc. destruct (f_name (st_fs s) src) as [i|] eqn:Gi; [|discriminate].
    apply (fo_plain _ _ _ (i_fs _ _ _ _ _ _ H) _ _ Gi). }
  unfold good_file in Hg.
  destruct (E_parse E c) as [m| |] eqn:Hm; [| |contradiction].
  2:{ apply wp_bind, wp_lift. apply (Same unit tt). }
  subst m. eapply wp_bind_lift; [reflexivity|].
  unfold ent_get. apply wp_bind_gets.
  destruct (mget (d_ents (st_db s) r) (m_name (cat id))) as [e|] eqn:Ge.
  2:{ apply wp_err. apply (Same unit tt). }
  eapply wp_bind_lift; [apply (comp_of_ok cat Hcat)|]. fold id.
  destruct (sin id (e_deltas e)) eqn:S.
  { apply wp_ret. split; [exact H|]. split; [apply rest_refl|]. split; [discriminate|]. right. split; [reflexivity|].
    exists (new_pentry id "" 0 (Some (DInfo (rel (cat from)) from (rel (cat to)) to))).
    split; [reflexivity|]. split; [|split; [eauto|]].
    - apply new_pentry_ok; auto; [split; [discriminate|auto]|]. intros di Eq; injection Eq as <-. split; reflexivity.
    - unfold db_delta. simpl. rewrite Ge, S. reflexivity. }
  assert (Fin : forall s1, Inv false fz [id] s1 -> rest fz r s s1 -> forall p, pentry_ok cat id p ->
     (mget (d_pool (st_db s)) id = None ->
               exists h z, p = new_pentry id h z (Some (DInfo (rel (cat from)) from (rel (cat to)) to))) ->
     st_db s1 = db_touch p (st_db s) ->
     wp (link_or_copy E (pool_loc (comp_of (cat id)) id) (Loc (TRepo r) (comp_of (cat id)) id) ;;;
         db_write false (PutEnt r (Entry (e_name e) (e_avail e) (e_pub e) (sort_strings (e_deltas e ++ [id])))))
      (Cinv fz) (fun s' res => Inv false fz [] s' /\ rest fz r s s' /\ res <> Panic /\
        ((res = Err /\ st_db s' = st_db s) \/
         (res = Ok tt /\ exists p, p_name p = id /\ pentry_ok cat id p /\
            (mget (d_pool (st_db s)) id = None ->
               exists h z, p = new_pentry id h z (Some (DInfo (rel (cat from)) from (rel (cat to)) to))) /\
            st_db s' = db_delta cat r p (st_db s)))) s1).
  { intros s1 H1 R1 p P1 Hnew D1. pose proof (po_name _ _ _ P1) as En.
    destruct (mget (d_pool (st_db s1)) id) as [q|] eqn:Gq.
    2:{ exfalso. revert Gq. rewrite D1, <- En. apply touch_get, (i_db _ _ _ _ _ _ H). }
    eapply wp_post.
    - eapply (wp_finish_delta fz r id e q s1); eauto. rewrite D1, touch_ents. exact Ge.
    - intros s' res (-> & B & C & D). split; [exact B|]. split; [eapply rest_trans; eauto|]. split; [discriminate|].
      right. split; [reflexivity|]. exists p. split; [exact En|]. split; [exact P1|]. split; [exact Hnew|].
      unfold db_delta. rewrite En, Ge, S, C, D1. reflexivity. }
  apply wp_bind. unfold pool_add_delta, pool_get. fold id. apply wp_bind_gets.
  destruct (mget (d_pool (st_db s)) id) as [p|] eqn:G.
  - pose proof (ok_pool _ _ (i_db _ _ _ _ _ _ H) _ _ G) as Hp.
    assert (EB : on_db (fun d => apply_op d (PutPool (set_rc p (p_rc p + 1)))) s = on_db (d_bump id) s).
    { unfold on_db. f_equal. unfold d_bump. rewrite G. reflexivity. }
    pose proof (Inv_bump _ _ _ _ _ _ H G) as H1.
    apply wp_write; [simpl; rewrite (po_name _ _ _ Hp); apply reserved_plain, Hplain|reflexivity| |]; rewrite EB.
    + eapply Inv_Cinv; eauto.
    + apply (Fin _ H1 (rest_db _ _ _ _) p Hp); [congruence|].
      simpl. unfold db_touch. rewrite (po_name _ _ _ Hp), G. reflexivity.
  - destruct (mget (d_pool (st_db s)) from) as [pf|] eqn:Gf.
    2:{ unfold pool_get_or_err, pool_get. apply wp_bind_assoc. apply wp_bind_gets. rewrite Gf.
        apply wp_bind, wp_err. apply (Same unit tt). }
    eapply wp_bind_read; [apply pool_get_eq, Gf|].
    destruct (mget (d_pool (st_db s)) to) as [pt|] eqn:Gt.
    2:{ unfold pool_get_or_err, pool_get. apply wp_bind_assoc. apply wp_bind_gets. rewrite Gt.
        apply wp_bind, wp_err. apply (Same unit tt). }
    eapply wp_bind_read; [apply pool_get_eq, Gt|].
    eapply wp_bind_lift; [apply (meta_of_get_release cat Hcat), (po_meta _ _ _ (ok_pool _ _ (i_db _ _ _ _ _ _ H) _ _ Gt))|].
    eapply wp_bind_lift; [apply (meta_of_get_release cat Hcat), (po_meta _ _ _ (ok_pool _ _ (i_db _ _ _ _ _ _ H) _ _ Gf))|].
    eapply wp_post.
    { apply (wp_pool_add false fz r src (cat id) c (Some (DInfo (rel (cat from)) from (rel (cat to)) to)) s H Hup Hc Hm).
      - split; [discriminate|auto].
      - intros di Eq; injection Eq as <-. split; reflexivity. }
    fold id. intros s1 res [(-> & H1 & R1 & h & z & D1 & P1 & Z1)|(-> & H1 & R1 & D1 & Z1)].
    + apply (Fin s1 H1 R1 _ P1); [eauto|exact D1].
    + split; [exact H1|]. split; [exact R1|]. split; [discriminate|]. left. auto.
Qed.

End Ops.
