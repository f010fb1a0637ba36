(** * ApiOps: every Manager operation keeps the invariants, and what it does to
    the database (proof artifact) *)
From Verif Require Import Model Spec DbInv DbOps Wp FsInv Ops UnrefOps RepoOps DeleteOps Pure Loops Emit IndexOps.
Open Scope string_scope. Open Scope list_scope.

Section Ops.
Variable E : env.
Variable cat : string -> meta.
Hypothesis Hcat : good_catalog cat.
Hypothesis HE : good_env E.
Notation Inv := (Inv E cat).
Notation Cinv := (Cinv E cat).

Lemma Inv_dir ex fz P r s s' :
  Inv ex fz P s -> quiet_dir r s s' -> (st_cache s' r = true -> mhas (d_repos (st_db s)) r = true) -> Inv ex fz P s'.
Proof.
  intros H [A1 A2 A3 A4 A5 A6 A7] Hc. eapply Inv_same; eauto.
  - rewrite A7. apply (i_batch _ _ _ _ _ _ H).
  - intros x Hx. rewrite A1. destruct (string_dec x r) as [->|N]; [auto|].
    apply (i_cache _ _ _ _ _ _ H). rewrite <- A6; auto.
Qed.

(** ** Index *)
Record index_run (o : oracle) (r : string) (s s' : state) (res : res unit) : Prop := {
  ir_quiet : quiet_root r s s';
  ir_pub : new_or_old E r (run_text E cat s r) s s';
  ir_others : others_same r s s';
  ir_done : res = Ok tt -> exists txt, run_text E cat s r = Some txt /\ assets_ok E s r = true /\ index_done E r txt s s';
  ir_ready : index_ready E o s r -> forall txt, run_text E cat s r = Some txt ->
           txt <> "" -> E_xz E txt <> "" -> E_zst E txt <> "" ->
           (root_is r t_xz None s -> root_is r t_zst None s -> res = Ok tt) /\
           (res = Err -> root_is r t_xz None s' /\ (root_is r t_xz None s -> root_is r t_zst None s'));
  ir_run : s' = final_of (index E o r s) /\ res = result_of (index E o r s);
  ir_open : st_cache s r = true
}.
Inductive indexed (o : oracle) (r : string) (s s' : state) : res unit -> Prop :=
| IdxNone : mhas (d_repos (st_db s)) r = false -> s' = s -> indexed o r s s' Err
| IdxRun s1 res : mhas (d_repos (st_db s)) r = true -> quiet_dir r s s1 -> index_run o r s1 s' res ->
    indexed o r s s' res.

Lemma indexed_db o r s s' res : indexed o r s s' res -> st_db s' = st_db s.
Proof.
  intros [H ->|s1 re H Q R]; [reflexivity|]. rewrite (qr_db _ _ _ (ir_quiet _ _ _ _ _ R)). apply (qd_db _ _ _ Q).
Qed.

Lemma wp_api_index ex fz o r s :
  Inv ex fz [] s -> good_oracle o ->
  wp (api_index E o r) (Cinv fz)
     (fun s' res => Inv ex fz [] s' /\ indexed o r s s' res /\ res <> Panic) s.
Proof.
  intros H Ho. unfold api_index. apply wp_bind. eapply wp_post; [apply (wp_get_repo E cat ex fz [] r s H)|].
  intros s1 res (I1 & Q1 & [(-> & Hr & Hc)|(-> & Hr & ->)]).
  - eapply wp_mono; [apply wp_self, (wp_index E cat Hcat HE ex fz o r s1 I1 Ho)| |].
    + intros t (Q & _). eapply Inv_Cinv. eapply Inv_quiet_root; eauto.
    + intros t res ((Q & A & B & D & F & G) & Ru). split; [eapply Inv_quiet_root; eauto|]. split; [|exact D].
      eapply IdxRun; eauto. constructor; assumption.
  - split; [exact H|]. split; [|discriminate]. apply IdxNone; auto.
Qed.

(** run [m], then index [r] *)
Lemma wp_then_index ex fz o r (m : M unit) (C : state -> Prop) (R : state -> res unit -> Prop) s :
  good_oracle o -> (forall t, Cinv fz t -> C t) ->
  wp m C (fun s1 res => Inv ex fz [] s1 /\ R s1 res /\ res <> Panic) s ->
  wp (m ;;; api_index E o r) C
     (fun s' res => Inv ex fz [] s' /\ res <> Panic /\
        ((res = Err /\ R s' Err) \/ exists s1, Inv ex fz [] s1 /\ R s1 (Ok tt) /\ indexed o r s1 s' res)) s.
Proof.
  intros Ho HC Hm. apply wp_bind. eapply wp_post; [exact Hm|].
  intros s1 [[]| |] (I1 & R1 & N).
  - eapply wp_mono; [apply (wp_api_index ex fz o r s1 I1 Ho)|exact HC|].
    intros s' res (I2 & X & Np). split; [exact I2|]. split; [exact Np|]. right. exists s1. auto.
  - split; [exact I1|]. split; [discriminate|]. left. auto.
  - congruence.
Qed.

(** a request first opens its repository *)
Lemma wp_with_repo ex fz r {A} (m : M A) (C : state -> Prop) (Q : state -> res A -> Prop) s :
  Inv ex fz [] s -> (forall t, Cinv fz t -> C t) ->
  (mhas (d_repos (st_db s)) r = false -> Q s Err) ->
  (forall s1, Inv ex fz [] s1 -> quiet_dir r s s1 -> mhas (d_repos (st_db s)) r = true -> wp m C Q s1) ->
  wp (get_repo r ;;; m) C Q s.
Proof.
  intros H HC H1 H2. apply wp_bind. eapply wp_mono; [apply (wp_get_repo E cat ex fz [] r s H)|exact HC|].
  intros s1 res (I1 & Q1 & [(-> & Hr & Hc)|(-> & Hr & ->)]); auto.
Qed.

(** ** assets *)
Definition pulled (r src : string) (f : fs) (a : string) : option string :=
  if sin a asset_names then
    match f_asset f src a with
    | Some c => if seqb r src then Some "" else Some c
    | None => f_asset f r a
    end
  else f_asset f r a.
Lemma pull_assets_ok r src s :
  wp (pull_assets r src) (quiet_asset r s)
     (fun s' res => res = Ok tt /\ quiet_asset r s s' /\ forall a, f_asset (st_fs s') r a = pulled r src (st_fs s) a) s.
Proof.
  unfold pull_assets.
  assert (G : forall l, NoDup l -> forall s1, quiet_asset r s s1 ->
    (forall a, In a l -> f_asset (st_fs s1) r a = f_asset (st_fs s) r a) ->
    wp (forM l (fun a =>
    f <- gets st_fs ;;
    match f_asset f src a with
    | None => ret tt
    | Some _ =>
        durable (on_fs (fun f => fs_set_asset f r a (Some EmptyString))) ;;;
        durable (on_fs (fun f => fs_set_asset f r a (f_asset f src a)))
    end)) (quiet_asset r s)
     (fun s' res => res = Ok tt /\ quiet_asset r s s' /\
        forall a, f_asset (st_fs s') r a =
           if sin a l then
             match f_asset (st_fs s) src a with
             | Some c => if seqb r src then Some "" else Some c
             | None => f_asset (st_fs s) r a
             end
           else f_asset (st_fs s1) r a) s1).
  { induction l as [|a l IH]; intros ND s1 Q1 Hs; simpl.
    - apply wp_ret. auto.
    - inversion ND as [|? ? Na ND']; subst.
      assert (Esrc : f_asset (st_fs s1) src a = f_asset (st_fs s) src a).
      { destruct (string_dec src r) as [->|N]; [apply Hs; left; reflexivity|]. rewrite (qa_asset _ _ _ Q1) by exact N. reflexivity. }
      apply wp_bind. apply wp_bind_gets. rewrite Esrc. destruct (f_asset (st_fs s) src a) as [c|] eqn:Ec.
      + set (s2 := on_fs (fun f => fs_set_asset f r a (Some EmptyString)) s1).
        assert (Q2 : quiet_asset r s s2) by (apply quiet_asset_set; [exact Q1|]; intros k X; injection X as <-; auto).
        apply wp_bind_durable; [exact Q2|]. fold s2.
        change (on_fs (fun f => fs_set_asset f r a (f_asset f src a)) s2) with
               (on_fs (fun f => fs_set_asset f r a (f_asset (st_fs s2) src a)) s2).
        set (s3 := on_fs (fun f => fs_set_asset f r a (f_asset (st_fs s2) src a)) s2).
        assert (Q3 : quiet_asset r s s3) by (apply quiet_asset_set; [exact Q2|]; intros k X; eauto).
        apply wp_durable; [exact Q3|]. change (wp (forM l (fun a =>
    f <- gets st_fs ;;
    match f_asset f src a with
    | None => ret tt
    | Some _ =>
        durable (on_fs (fun f => fs_set_asset f r a (Some EmptyString))) ;;;
        durable (on_fs (fun f => fs_set_asset f r a (f_asset f src a)))
    end)) (quiet_asset r s)
     (fun s' res => res = Ok tt /\ quiet_asset r s s' /\
        forall a0, f_asset (st_fs s') r a0 =
           if sin a0 (a :: l) then
             match f_asset (st_fs s) src a0 with
             | Some c => if seqb r src then Some "" else Some c
             | None => f_asset (st_fs s) r a0
             end
           else f_asset (st_fs s1) r a0) s3).
        assert (A2 : forall b, f_asset (st_fs s2) r b = if seqb b a then Some "" else f_asset (st_fs s1) r b).
        { intros b. unfold s2. simpl. rewrite fupd_eq. reflexivity. }
        assert (A3 : forall b, f_asset (st_fs s3) r b = if seqb b a then f_asset (st_fs s2) src a else f_asset (st_fs s2) r b).
        { intros b. unfold s3. simpl. rewrite !fupd_eq. reflexivity. }
        eapply wp_post; [apply (IH ND' s3 Q3)|].
        * intros b Hb. rewrite A3, A2. destruct (seqb_spec b a) as [->|N]; [contradiction|]. apply Hs. right; exact Hb.
        * intros s' res (-> & Q' & Hf). split; [reflexivity|]. split; [exact Q'|]. intros b. rewrite Hf. rewrite A3, A2.
          change (sin b (a :: l)) with (seqb b a || sin b l). destruct (seqb_spec b a) as [->|N]; cbn [orb].
          -- rewrite Ec. destruct (sin a l) eqn:Sl; [reflexivity|].
             destruct (seqb r src) eqn:Ers.
             ++ apply seqb_eq in Ers. rewrite <- Ers, A2, seqb_refl. reflexivity.
             ++ apply seqb_neq in Ers. unfold s2. simpl. rewrite fupd_ne by congruence. exact Esrc.
          -- reflexivity.
      + apply wp_ret. eapply wp_post; [apply (IH ND' s1 Q1)|].
        * intros b Hb. apply Hs. right; exact Hb.
        * intros s' res (-> & Q' & Hf). split; [reflexivity|]. split; [exact Q'|]. intros b. rewrite Hf.
          change (sin b (a :: l)) with (seqb b a || sin b l). destruct (seqb_spec b a) as [->|N]; cbn [orb].
          -- rewrite Ec. destruct (sin a l) eqn:Sl; [reflexivity|]. apply Hs. left; reflexivity.
          -- reflexivity. }
  eapply wp_post; [apply (G asset_names (nodupb_spec asset_names eq_refl) s (quiet_asset_refl r s)); reflexivity|].
  intros s' res (A & B & D). split; [exact A|]. split; [exact B|]. exact D.
Qed.

(** ** CreateRepo *)
Definition created (r : string) (s s' : state) (res : res unit) : Prop :=
  match res with
  | Ok _ => mhas (d_repos (st_db s)) r = false /\ f_dir (st_fs s) r = false /\ reserved r = false /\
          st_db s' = db_create r (st_db s) /\ same_files (st_fs s) (st_fs s') /\
          f_root (st_fs s') = f_root (st_fs s) /\ f_asset (st_fs s') = f_asset (st_fs s)
  | _ => quiet_dir r s s' /\
      (mhas (d_repos (st_db s)) r = true \/ f_dir (st_fs s) r = true \/ reserved r = true)
  end.
Lemma wp_create ex fz r s :
  Inv ex fz [] s ->
  wp (create_repo r) (Cinv fz) (fun s' res => Inv ex fz [] s' /\ created r s s' res /\ res <> Panic) s.
Proof.
  intros H. eapply wp_post; [apply (wp_create_repo E cat ex fz r s H)|].
  intros s' res (I1 & [(-> & Q & Hr)|(-> & A & B & D & F & G & J & K & _)]); (split; [exact I1|]).
  - split; [|discriminate]. split; [exact Q|exact Hr].
  - split; [|discriminate]. unfold created. auto 10.
Qed.
Lemma wp_api_create ex fz o r s :
  Inv ex fz [] s -> good_oracle o ->
  wp (api_create E o r) (Cinv fz)
     (fun s' res => Inv ex fz [] s' /\ res <> Panic /\
        ((res = Err /\ created r s s' Err) \/ exists s1, Inv ex fz [] s1 /\ created r s s1 (Ok tt) /\ indexed o r s1 s' res)) s.
Proof.
  intros H Ho. apply wp_then_index; auto. apply wp_create, H.
Qed.

(** ** CloneRepo *)
Definition db_clone (full : bool) (new src : string) (d : db) : db :=
  let d1 := db_create new d in
  if full then db_rdeltas cat new (delta_ids d1 src) (db_refs cat new (avail_ids d1 src) d1)
  else db_refs cat new (pub_ids d1 src) d1.

Lemma avail_refs ex fz s r : Inv ex fz [] s ->
  forall id, In id (avail_ids (st_db s) r) -> is_delta_id id = false /\ mget (d_pool (st_db s)) id <> None.
Proof.
  intros H id Hin. apply (avail_ids_in cat) in Hin; [|apply (i_db _ _ _ _ _ _ H)]. unfold avail_db in Hin.
  destruct (mget (d_ents (st_db s) r) (m_name (cat id))) as [e|] eqn:G; [|destruct Hin].
  destruct (avail_pool E cat ex fz [] s r _ e id H G Hin) as (p & A & _ & _ & B). split; [exact B|congruence].
Qed.
Lemma pub_refs ex fz s r : Inv ex fz [] s ->
  forall id, In id (pub_ids (st_db s) r) -> is_delta_id id = false /\ mget (d_pool (st_db s)) id <> None.
Proof.
  intros H id Hin. apply in_map_iff in Hin. destruct Hin as ([n e] & <- & Hin). apply in_mlist in Hin. simpl.
  pose proof (ok_ent _ _ (i_db _ _ _ _ _ _ H) _ _ _ Hin) as Eo.
  destruct (avail_pool E cat ex fz [] s r _ e (e_pub e) H Hin (eo_pub _ _ _ Eo)) as (p & A & _ & _ & B). split; [exact B|congruence].
Qed.
Lemma delta_refs ex fz s r : Inv ex fz [] s ->
  forall id, In id (delta_ids (st_db s) r) -> is_delta_id id = true /\ mget (d_pool (st_db s)) id <> None /\
     exists e, mget (d_ents (st_db s) r) (m_name (cat id)) = Some e.
Proof.
  intros H id Hin. apply in_flat_map in Hin. destruct Hin as ([n e] & Hin & Hd). apply in_mlist in Hin. simpl in Hd.
  pose proof (ok_ent _ _ (i_db _ _ _ _ _ _ H) _ _ _ Hin) as Eo. destruct (eo_deltas _ _ _ Eo _ Hd) as [<- B].
  split; [exact B|]. split; [|eauto].
  destruct (listed_in_pool cat ex (st_db s) r _ e id (i_db _ _ _ _ _ _ H) (i_refs _ _ _ _ _ _ H) Hin) as (p & ->); [|discriminate].
  unfold lst. apply orb_true_iff. right. apply sin_In, Hd.
Qed.

(** [s'] differs from [s] only in assets, index files, package files *)
Definition cloned (full : bool) (new src : string) (s s' : state) (res : res unit) : Prop :=
  match res with
  | Ok _ => mhas (d_repos (st_db s)) src = true /\ mhas (d_repos (st_db s)) new = false /\ f_dir (st_fs s) new = false /\
     st_db s' = db_clone full new src (st_db s) /\
     f_root (st_fs s') = f_root (st_fs s) /\
     (forall x, x <> new -> f_asset (st_fs s') x = f_asset (st_fs s) x) /\
     (forall a, f_asset (st_fs s') new a = pulled new src (st_fs s) a)
  | _ => st_db s' = st_db s /\ same_files (st_fs s) (st_fs s') /\
     f_root (st_fs s') = f_root (st_fs s) /\ f_asset (st_fs s') = f_asset (st_fs s) /\
     (mhas (d_repos (st_db s)) src = false \/ mhas (d_repos (st_db s)) new = true \/
      f_dir (st_fs s) new = true \/ reserved new = true \/ src = new)
  end.

Lemma create_ents new d : d_ents (db_create new d) = d_ents d.
Proof. reflexivity. Qed.

Lemma wp_clone_from ex fz new src full s :
  Inv ex fz [] s -> mhas (d_repos (st_db s)) new = true ->
  wp (clone_from E new src full) (Cinv fz)
     (fun s' res => res = Ok tt /\ Inv ex fz [] s' /\
        st_db s' = (if full then db_rdeltas cat new (delta_ids (st_db s) src) (db_refs cat new (avail_ids (st_db s) src) (st_db s))
                    else db_refs cat new (pub_ids (st_db s) src) (st_db s)) /\
        f_root (st_fs s') = f_root (st_fs s) /\ f_dir (st_fs s') = f_dir (st_fs s) /\
        (forall x, x <> new -> f_asset (st_fs s') x = f_asset (st_fs s) x) /\
        (forall a, f_asset (st_fs s') new a = pulled new src (st_fs s) a)) s.
Proof.
  intros H Hn. unfold clone_from.
  apply wp_bind. eapply wp_mono; [apply pull_assets_ok| |].
  { intros t Q. eapply Inv_Cinv. eapply Inv_quiet_asset; eauto. }
  intros s1 res (-> & Q1 & A1). assert (I1 : Inv ex fz [] s1) by (eapply Inv_quiet_asset; eauto).
  unfold ent_list. apply wp_bind_gets.
  pose proof (qa_db _ _ _ Q1) as Ed.
  assert (Hn1 : mhas (d_repos (st_db s1)) new = true) by (rewrite Ed; exact Hn).
  destruct full.
  - apply wp_bind. fold (avail_ids (st_db s1) src). fold (delta_ids (st_db s1) src).
    eapply wp_post; [apply (wp_ref_loop E cat Hcat HE ex fz new (avail_ids (st_db s1) src) s1 I1 Hn1 (avail_refs _ _ _ _ I1))|].
    intros s2 res (-> & I2 & D2 & R2).
    assert (Fin : forall s3 (rs : res unit), rs = Ok tt /\ Inv ex fz [] s3 /\
        st_db s3 = db_rdeltas cat new (delta_ids (st_db s1) src) (st_db s2) /\ rest fz new s2 s3 ->
        rs = Ok tt /\ Inv ex fz [] s3 /\
        st_db s3 = db_rdeltas cat new (delta_ids (st_db s) src) (db_refs cat new (avail_ids (st_db s) src) (st_db s)) /\
        f_root (st_fs s3) = f_root (st_fs s) /\ f_dir (st_fs s3) = f_dir (st_fs s) /\
        (forall x, x <> new -> f_asset (st_fs s3) x = f_asset (st_fs s) x) /\
        (forall a, f_asset (st_fs s3) new a = pulled new src (st_fs s) a)).
    { intros s3 rs (-> & I3 & D3 & R3). pose proof (rest_trans _ _ _ _ _ R2 R3) as R.
      split; [reflexivity|]. split; [exact I3|]. split; [rewrite D3, D2, Ed; reflexivity|].
      split; [rewrite (rs_root _ _ _ _ R); apply (qa_root _ _ _ Q1)|].
      split; [rewrite (rs_dir _ _ _ _ R); apply (qa_dir _ _ _ Q1)|].
      split; [intros x N; rewrite (rs_asset _ _ _ _ R); apply (qa_asset _ _ _ Q1), N|].
      intros a. rewrite (rs_asset _ _ _ _ R). apply A1. }
    destruct ex.
    + assert (Nd : delta_ids (st_db s1) src = []).
      { unfold delta_ids. assert (G : forall l, (forall ke, In ke l -> e_deltas (snd ke) = []) -> flat_map (fun ke : string * entry => e_deltas (snd ke)) l = []).
        { induction l as [|x l IH]; intros Hl; [reflexivity|]. simpl. rewrite (Hl x (or_introl eq_refl)). apply IH. intros; apply Hl; right; assumption. }
        apply G. intros [n e] Hin. apply in_mlist in Hin. apply (i_nod _ _ _ _ _ _ I1 eq_refl _ _ _ Hin). }
      rewrite Nd in *. apply wp_ret. apply Fin. split; [reflexivity|]. split; [exact I2|]. split; [reflexivity|apply rest_refl].
    + eapply wp_post; [apply (wp_rdelta_loop E cat Hcat HE fz new (delta_ids (st_db s1) src) s2 I2)|exact Fin].
      intros id Hin. destruct (delta_refs _ _ _ _ I1 _ Hin) as (B1 & B2 & e & B3). split; [exact B1|].
      destruct (db_refs_ok cat Hcat false new (avail_ids (st_db s1) src) (st_db s1)
                 (i_db _ _ _ _ _ _ I1) (i_refs _ _ _ _ _ _ I1) (i_nod _ _ _ _ _ _ I1) Hn1 (avail_refs _ _ _ _ I1)) as (_ & _ & _ & _ & Gr).
      rewrite D2. split.
      * destruct (mget (d_pool (st_db s1)) id) as [p|] eqn:Gp; [|congruence]. destruct (Gr _ _ Gp) as (p' & -> & _). discriminate.
      * (* the same name was just referenced *)
        pose proof (ok_ent _ _ (i_db _ _ _ _ _ _ I1) _ _ _ B3) as Eo.
        assert (Hin2 : In (e_pub e) (avail_db (db_refs cat new (avail_ids (st_db s1) src) (st_db s1)) new (m_name (cat id)))).
        { apply (db_refs_avail cat). right. destruct (eo_avail _ _ _ Eo _ (eo_pub _ _ _ Eo)) as (En & _). split; [|exact En].
          apply (avail_ids_in cat); [apply (i_db _ _ _ _ _ _ I1)|]. unfold avail_db. rewrite En, B3. apply (eo_pub _ _ _ Eo). }
        unfold avail_db in Hin2. destruct (mget (d_ents (db_refs cat new (avail_ids (st_db s1) src) (st_db s1)) new) (m_name (cat id))); [discriminate|destruct Hin2].
  - fold (pub_ids (st_db s1) src).
    eapply wp_post; [apply (wp_ref_loop E cat Hcat HE ex fz new (pub_ids (st_db s1) src) s1 I1 Hn1 (pub_refs _ _ _ _ I1))|].
    intros s2 res (-> & I2 & D2 & R2). split; [reflexivity|]. split; [exact I2|]. split; [rewrite D2, Ed; reflexivity|].
    split; [rewrite (rs_root _ _ _ _ R2); apply (qa_root _ _ _ Q1)|].
    split; [rewrite (rs_dir _ _ _ _ R2); apply (qa_dir _ _ _ Q1)|].
    split; [intros x N; rewrite (rs_asset _ _ _ _ R2); apply (qa_asset _ _ _ Q1), N|].
    intros a. rewrite (rs_asset _ _ _ _ R2). apply A1.
Qed.

Definition then_indexed (ex fz : bool) (o : oracle) (r : string) (R : state -> res unit -> Prop) (s' : state) (res : res unit) : Prop :=
  Inv ex fz [] s' /\ res <> Panic /\
  ((res = Err /\ R s' Err) \/ exists s1, Inv ex fz [] s1 /\ R s1 (Ok tt) /\ indexed o r s1 s' res).

Lemma wp_index_after ex fz o r (C : state -> Prop) (R : state -> res unit -> Prop) s1 :
  good_oracle o -> (forall t, Cinv fz t -> C t) -> Inv ex fz [] s1 -> R s1 (Ok tt) ->
  wp (api_index E o r) C (then_indexed ex fz o r R) s1.
Proof.
  intros Ho HC I1 R1. eapply wp_mono; [apply (wp_api_index ex fz o r s1 I1 Ho)|exact HC|].
  intros s' res (I2 & X & Np). split; [exact I2|]. split; [exact Np|]. right. exists s1. auto.
Qed.

Lemma wp_api_clone ex fz o src new full s :
  Inv ex fz [] s -> good_oracle o ->
  wp (api_clone E o src new full) (Cinv fz) (then_indexed ex fz o new (cloned full new src s)) s.
Proof.
  intros H Ho. unfold api_clone. apply (wp_with_repo ex fz); [exact H|auto| |].
  { intros Hr. split; [exact H|]. split; [discriminate|]. left. split; [reflexivity|]. split; [reflexivity|]. split; [apply same_files_refl|]. split; [reflexivity|]. split; [reflexivity|]. left. exact Hr. }
  intros s1 I1 Q1 Hr. apply wp_bind. eapply wp_post; [apply (wp_create ex fz new s1 I1)|].
  pose proof (qd_db _ _ _ Q1) as Ed.
  intros s2 [[]| |] (I2 & Cr & Np); [| |congruence].
  2:{ split; [exact I2|]. split; [discriminate|]. left. split; [reflexivity|]. destruct Cr as [D W]. split; [rewrite (qd_db _ _ _ D); exact Ed|].
      split; [eapply same_files_trans; [apply (qd_files _ _ _ Q1)|apply (qd_files _ _ _ D)]|].
      split; [rewrite (qd_root _ _ _ D); apply (qd_root _ _ _ Q1)|]. split; [rewrite (qd_asset _ _ _ D); apply (qd_asset _ _ _ Q1)|].
      destruct (string_dec src new) as [->|N]; [tauto|]. rewrite Ed in W. rewrite (qd_dir _ _ _ Q1) in W by congruence. tauto. }
  destruct Cr as (C1 & C2 & C3 & C4 & C5 & C6 & C7).
  assert (Nsn : new <> src) by (intros ->; rewrite Ed in C1; congruence).
  apply wp_bind. eapply wp_post; [apply (wp_clone_from ex fz new src full s2 I2)|].
  { rewrite C4. unfold mhas, db_create. simpl. rewrite mget_put_eq. reflexivity. }
  intros s3 res (-> & I3 & D3 & F3 & G3 & A3 & B3).
  apply wp_index_after; auto. unfold cloned.
  split; [exact Hr|]. split; [rewrite <- Ed; exact C1|]. split; [rewrite <- (qd_dir _ _ _ Q1); auto|].
  split; [rewrite D3, C4, Ed; reflexivity|].
  split; [rewrite F3, C6; apply (qd_root _ _ _ Q1)|].
  split; [intros x N; rewrite A3, C7 by exact N; rewrite (qd_asset _ _ _ Q1); reflexivity|].
  intros a. rewrite B3. unfold pulled. rewrite C7, (qd_asset _ _ _ Q1). reflexivity.
Qed.

(** ** PullRepo *)
Definition db_pull (r src : string) (d : db) : db := db_refs cat r (map fst (pull_names cat d r src)) d.
Definition pulled_from (src tgt : string) (s s' : state) (res : res (list string)) : Prop :=
  match res with
  | Ok ch => mhas (d_repos (st_db s)) src = true /\ mhas (d_repos (st_db s)) tgt = true /\
      pull_blocked cat (st_db s) tgt src = false /\ ch = map snd (pull_names cat (st_db s) tgt src) /\
      st_db s' = db_pull tgt src (st_db s)
  | _ => st_db s' = st_db s /\ same_files (st_fs s) (st_fs s') /\
     (mhas (d_repos (st_db s)) src = false \/ mhas (d_repos (st_db s)) tgt = false \/ pull_blocked cat (st_db s) tgt src = true)
  end /\
  f_root (st_fs s') = f_root (st_fs s) /\
  (forall x, x <> tgt -> f_asset (st_fs s') x = f_asset (st_fs s) x) /\
  (mhas (d_repos (st_db s)) src = true -> mhas (d_repos (st_db s)) tgt = true ->
   forall a, f_asset (st_fs s') tgt a = pulled tgt src (st_fs s) a).

Lemma pull_names_refs ex fz s r src : Inv ex fz [] s ->
  forall id, In id (map fst (pull_names cat (st_db s) r src)) -> is_delta_id id = false /\ mget (d_pool (st_db s)) id <> None.
Proof.
  intros H id Hin. apply (pub_refs ex fz s src H). unfold pull_names, pub_ids in *. rewrite map_map in Hin. simpl in Hin.
  apply in_map_iff in Hin. destruct Hin as (ke & <- & Hin). apply filter_In in Hin. apply (in_map (fun ke => e_pub (snd ke))), Hin.
Qed.

Lemma wp_api_pull ex fz o src tgt s :
  Inv ex fz [] s -> good_oracle o ->
  wp (api_pull E o src tgt) (Cinv fz)
    (fun s' res => Inv ex fz [] s' /\ res <> Panic /\
       ((res = Err /\ pulled_from src tgt s s' Err) \/
        exists s1 ch rs, Inv ex fz [] s1 /\ pulled_from src tgt s s1 (Ok ch) /\ indexed o tgt s1 s' rs /\
          (res = Ok ch /\ rs = Ok tt \/ res = Err /\ rs = Err))) s.
Proof.
  intros H Ho. unfold api_pull. apply (wp_with_repo ex fz); [exact H|auto| |].
  { intros Hr. split; [exact H|]. split; [discriminate|]. left. split; [reflexivity|].
    split; [split; [reflexivity|split; [apply same_files_refl|left; exact Hr]]|]. split; [reflexivity|]. split; [reflexivity|]. congruence. }
  intros s1 I1 Q1 Hr. apply (wp_with_repo ex fz); [exact I1|auto| |].
  { intros Ht. rewrite (qd_db _ _ _ Q1) in Ht. split; [exact I1|]. split; [discriminate|]. left. split; [reflexivity|].
    split; [split; [apply (qd_db _ _ _ Q1)|split; [apply (qd_files _ _ _ Q1)|right; left; exact Ht]]|]. split; [apply (qd_root _ _ _ Q1)|].
    split; [intros; rewrite (qd_asset _ _ _ Q1); reflexivity|]. congruence. }
  intros s2 I2 Q2 Ht. rewrite (qd_db _ _ _ Q1) in Ht.
  assert (Ed : st_db s2 = st_db s) by (rewrite (qd_db _ _ _ Q2); apply (qd_db _ _ _ Q1)).
  assert (Er : f_root (st_fs s2) = f_root (st_fs s)) by (rewrite (qd_root _ _ _ Q2); apply (qd_root _ _ _ Q1)).
  assert (Ea : f_asset (st_fs s2) = f_asset (st_fs s)) by (rewrite (qd_asset _ _ _ Q2); apply (qd_asset _ _ _ Q1)).
  unfold pull_from. apply wp_bind_assoc. apply wp_bind. eapply wp_mono; [apply pull_assets_ok| |].
  { intros t Q. eapply Inv_Cinv. eapply Inv_quiet_asset; eauto. }
  intros s3 res (-> & Q3 & A3). assert (I3 : Inv ex fz [] s3) by (eapply Inv_quiet_asset; eauto).
  assert (Ed3 : st_db s3 = st_db s) by (rewrite (qa_db _ _ _ Q3); exact Ed).
  assert (Er3 : f_root (st_fs s3) = f_root (st_fs s)) by (rewrite (qa_root _ _ _ Q3); exact Er).
  assert (Ax : forall x, x <> tgt -> f_asset (st_fs s3) x = f_asset (st_fs s) x)
    by (intros x N; rewrite (qa_asset _ _ _ Q3) by exact N; rewrite Ea; reflexivity).
  assert (At : forall a, f_asset (st_fs s3) tgt a = pulled tgt src (st_fs s) a)
    by (intros a; rewrite A3; unfold pulled; rewrite Ea; reflexivity).
  unfold ent_list. apply wp_bind_assoc. apply wp_bind_gets. apply wp_bind_assoc.
  pose proof (pull_collect_eq E cat Hcat ex fz s3 tgt src I3) as Pc.
  destruct (pull_blocked cat (st_db s3) tgt src) eqn:Pb.
  { apply wp_bind. unfold wp. rewrite Pc. split; [constructor|]. simpl. split; [exact I3|]. split; [discriminate|]. left.
    split; [reflexivity|]. rewrite Ed3 in Pb. split; [split; [exact Ed3|split; [|right; right; exact Pb]]|auto].
    eapply same_files_trans; [apply (qd_files _ _ _ Q1)|]. eapply same_files_trans; [apply (qd_files _ _ _ Q2)|apply (qa_files _ _ _ Q3)]. }
  eapply wp_bind_read; [exact Pc|]. apply wp_bind_assoc. apply wp_bind.
  eapply wp_post.
  { apply (wp_ref_loop E cat Hcat HE ex fz tgt _ s3 I3); [rewrite Ed3; exact Ht|apply (pull_names_refs ex fz), I3]. }
  intros s4 res (-> & I4 & D4 & R4). apply wp_bind_ret. apply wp_bind.
  eapply wp_post; [apply (wp_api_index ex fz o tgt s4 I4 Ho)|].
  assert (P4 : pulled_from src tgt s s4 (Ok (map snd (pull_names cat (st_db s3) tgt src)))).
  { split; [|split; [rewrite (rs_root _ _ _ _ R4); exact Er3|split; [intros x N; rewrite (rs_asset _ _ _ _ R4); apply Ax, N|intros _ _ a; rewrite (rs_asset _ _ _ _ R4); apply At]]].
    split; [exact Hr|]. split; [exact Ht|]. rewrite Ed3 in *. split; [exact Pb|]. split; [reflexivity|]. exact D4. }
  intros s5 [[]| |] (I5 & X & Np); [| |congruence].
  - apply wp_ret. split; [exact I5|]. split; [discriminate|]. right. exists s4, (map snd (pull_names cat (st_db s3) tgt src)), (Ok tt). auto 8.
  - split; [exact I5|]. split; [discriminate|]. right. exists s4, (map snd (pull_names cat (st_db s3) tgt src)), Err. auto 8.
Qed.

(** ** removals *)
Definition removed (r : string) (fails : Prop) (ids : list string) (s s' : state) (res : res unit) : Prop :=
  match res with
  | Ok _ => mhas (d_repos (st_db s)) r = true /\ ~ fails /\ st_db s' = db_unref_pkgs cat r ids (st_db s)
  | _ => st_db s' = st_db s /\ same_files (st_fs s) (st_fs s') /\ (mhas (d_repos (st_db s)) r = false \/ fails)
  end /\ f_root (st_fs s') = f_root (st_fs s) /\ f_asset (st_fs s') = f_asset (st_fs s).

Notation Rinv := (Rinv E cat).
Lemma Cinv_Rinv fz t : Cinv fz t -> Rinv t.
Proof. intros [I _]. split; [apply (i_db _ _ _ _ _ _ I)|apply (i_fs _ _ _ _ _ _ I)]. Qed.

Lemma dir_noop r s s1 (fails : Prop) ids : quiet_dir r s s1 -> fails -> removed r fails ids s s1 Err.
Proof.
  intros Q F. split; [split; [apply (qd_db _ _ _ Q)|split; [apply (qd_files _ _ _ Q)|right; exact F]]|]. split; [apply (qd_root _ _ _ Q)|apply (qd_asset _ _ _ Q)].
Qed.

Lemma wp_remove_ids ex fz o r fails ids s s1 :
  good_oracle o -> Inv ex fz [] s1 -> quiet_dir r s s1 -> mhas (d_repos (st_db s)) r = true -> ~ fails ->
  NoDup ids -> (forall id, In id ids -> In id (avail_ids (st_db s) r)) ->
  wp (forM ids (unref_package r) ;;; api_index E o r) Rinv (then_indexed ex fz o r (removed r fails ids s)) s1.
Proof.
  intros Ho I1 Q1 Hr Nf ND Hin. pose proof (qd_db _ _ _ Q1) as Ed.
  apply wp_bind. eapply wp_post.
  { apply (wp_unref_loop E cat Hcat ex fz r ids s1 I1 ND). intros id Hid. apply (avail_ids_in cat); [apply (i_db _ _ _ _ _ _ I1)|].
    rewrite Ed. apply Hin, Hid. }
  intros s2 res (-> & I2 & D2 & R2). apply wp_index_after; auto; [apply Cinv_Rinv|].
  split; [split; [exact Hr|split; [exact Nf|rewrite D2, Ed; reflexivity]]|].
  split; [rewrite (rs_root _ _ _ _ R2); apply (qd_root _ _ _ Q1)|rewrite (rs_asset _ _ _ _ R2); apply (qd_asset _ _ _ Q1)].
Qed.

Lemma no_repo ex fz o r fails ids s : Inv ex fz [] s -> mhas (d_repos (st_db s)) r = false ->
  then_indexed ex fz o r (removed r fails ids s) s Err.
Proof.
  intros H Hr. split; [exact H|]. split; [discriminate|]. left. split; [reflexivity|].
  split; [split; [reflexivity|split; [apply same_files_refl|left; exact Hr]]|auto].
Qed.

Lemma src_ids_in d r source rl id : In id (src_ids cat d r source rl) -> In id (avail_ids d r).
Proof. intros H. apply filter_In in H. apply H. Qed.

Lemma wp_api_remove_source ex fz o r source rl s :
  Inv ex fz [] s -> good_oracle o ->
  wp (api_remove_source E o r source rl) Rinv
     (then_indexed ex fz o r (removed r (src_ids cat (st_db s) r source rl = []) (src_ids cat (st_db s) r source rl) s)) s.
Proof.
  intros H Ho. unfold api_remove_source. apply (wp_with_repo ex fz); [exact H|apply Cinv_Rinv|apply no_repo, H|].
  intros s1 I1 Q1 Hr. pose proof (qd_db _ _ _ Q1) as Ed. unfold remove_source. apply wp_bind_assoc.
  eapply wp_bind_read; [apply (match_source_eq E cat Hcat ex fz s1 r source rl I1)|]. rewrite Ed.
  destruct (src_ids cat (st_db s) r source rl) as [|x l] eqn:Es.
  - apply wp_bind, wp_err. split; [exact I1|]. split; [discriminate|]. left. split; [reflexivity|]. apply dir_noop; auto.
  - apply wp_remove_ids; auto; [discriminate| |].
    + rewrite <- Es. apply NoDup_filter, (avail_ids_nodup cat), (i_db _ _ _ _ _ _ H).
    + rewrite <- Es. apply src_ids_in.
Qed.

Lemma wp_api_trim_packages ex fz o r k s :
  Inv ex fz [] s -> good_oracle o ->
  wp (api_trim_packages E o r k) Rinv
     (then_indexed ex fz o r (removed r (k < 1)%Z (trim_ids cat o (st_db s) r k) s)) s.
Proof.
  intros H Ho. unfold api_trim_packages. apply (wp_with_repo ex fz); [exact H|apply Cinv_Rinv|apply no_repo, H|].
  intros s1 I1 Q1 Hr. pose proof (qd_db _ _ _ Q1) as Ed. unfold trim_packages.
  destruct (Z.ltb_spec k 1) as [Hk|Hk].
  - apply wp_bind, wp_err. split; [exact I1|]. split; [discriminate|]. left. split; [reflexivity|]. apply dir_noop; auto.
  - unfold ent_list. apply wp_bind_assoc, wp_bind_gets. apply wp_bind_assoc.
    eapply wp_bind_read; [apply (trim_collect_eq E cat Hcat ex fz s1 r o k I1)|]. rewrite Ed.
    apply wp_remove_ids; auto; [lia| |].
    + apply (trim_ids_nodup E cat ex fz); auto.
    + intros id. apply (trim_ids_in E cat ex fz); auto.
Qed.

Definition obs_dist (s : state) (r : string) : option (list string) :=
  match dist_of E s r with Ok dist => dist | _ => None end.
Lemma wp_api_trim_obsolete ex fz o r s :
  Inv ex fz [] s -> good_oracle o ->
  wp (api_trim_obsolete E o r) Rinv
     (then_indexed ex fz o r (removed r (obs_dist s r = None) (obs_ids (obs_dist s r) (st_db s) r) s)) s.
Proof.
  intros H Ho. unfold api_trim_obsolete. apply (wp_with_repo ex fz); [exact H|apply Cinv_Rinv|apply no_repo, H|].
  intros s1 I1 Q1 Hr. pose proof (qd_db _ _ _ Q1) as Ed. unfold trim_obsolete. apply wp_bind_assoc.
  assert (Edist : dist_of E s1 r = dist_of E s r) by (unfold dist_of; rewrite (qd_asset _ _ _ Q1); reflexivity).
  assert (Fail : obs_dist s r = None -> then_indexed ex fz o r (removed r (obs_dist s r = None) (obs_ids (obs_dist s r) (st_db s) r) s) s1 Err).
  { intros F. split; [exact I1|]. split; [discriminate|]. left. split; [reflexivity|]. apply dir_noop; auto. }
  destruct (dist_of E s r) as [dist| |] eqn:Ds.
  3:{ unfold dist_of in Ds. destruct (f_asset _ _ _); [destruct (E_dist E s0)|]; discriminate. }
  2:{ apply wp_bind. unfold wp. rewrite init_dist_eq, Edist. split; [constructor|]. apply Fail. unfold obs_dist. rewrite Ds. reflexivity. }
  eapply wp_bind_read; [rewrite init_dist_eq, Edist; reflexivity|].
  assert (Eo : obs_dist s r = dist) by (unfold obs_dist; rewrite Ds; reflexivity).
  destruct dist as [l|]; [|apply wp_bind, wp_err, Fail; exact Eo].
  unfold ent_list. apply wp_bind_assoc, wp_bind_gets. apply wp_bind_assoc.
  eapply wp_bind_read; [apply (trim_obs_eq E cat ex fz s1 r (Some l) I1)|]. rewrite Ed, Eo.
  apply wp_remove_ids; auto; [discriminate| |].
  - apply (obs_ids_nodup cat), (i_db _ _ _ _ _ _ H).
  - intros id. apply (obs_ids_in cat), (i_db _ _ _ _ _ _ H).
Qed.

(** ** CopySource *)
Definition copied (src tgt source : string) (rl : Z) (s s' : state) (res : res unit) : Prop :=
  let ids := src_ids cat (st_db s) src source rl in
  match res with
  | Ok _ => mhas (d_repos (st_db s)) src = true /\ mhas (d_repos (st_db s)) tgt = true /\ ids <> [] /\
            st_db s' = db_refs cat tgt ids (st_db s)
  | _ => st_db s' = st_db s /\ same_files (st_fs s) (st_fs s') /\
     (mhas (d_repos (st_db s)) src = false \/ mhas (d_repos (st_db s)) tgt = false \/ ids = [])
  end /\ f_root (st_fs s') = f_root (st_fs s) /\ f_asset (st_fs s') = f_asset (st_fs s).

Lemma wp_api_copy_source ex fz o src tgt source rl sk s :
  Inv ex fz [] s -> good_oracle o ->
  wp (api_copy_source E o src tgt source rl sk) (Cinv fz)
     (fun s' res => if sk then then_indexed ex fz o tgt (copied src tgt source rl s) s' res
                    else Inv ex fz [] s' /\ res <> Panic /\ copied src tgt source rl s s' res) s.
Proof.
  intros H Ho. unfold api_copy_source.
  assert (Q : forall s' , Inv ex fz [] s' -> copied src tgt source rl s s' Err ->
     if sk then then_indexed ex fz o tgt (copied src tgt source rl s) s' Err
     else Inv ex fz [] s' /\ @Err unit <> Panic /\ copied src tgt source rl s s' Err).
  { intros s' I' C'. destruct sk; [split; [exact I'|]; split; [discriminate|]; left; auto|]. split; [exact I'|]. split; [discriminate|exact C']. }
  apply (wp_with_repo ex fz); [exact H|auto| |].
  { intros Hr. apply Q; [exact H|]. split; [split; [reflexivity|split; [apply same_files_refl|left; exact Hr]]|auto]. }
  intros s1 I1 Q1 Hr. apply (wp_with_repo ex fz); [exact I1|auto| |].
  { intros Ht. rewrite (qd_db _ _ _ Q1) in Ht. apply Q; [exact I1|]. split; [split; [apply (qd_db _ _ _ Q1)|split; [apply (qd_files _ _ _ Q1)|right; left; exact Ht]]|].
    split; [apply (qd_root _ _ _ Q1)|apply (qd_asset _ _ _ Q1)]. }
  intros s2 I2 Q2 Ht. rewrite (qd_db _ _ _ Q1) in Ht.
  assert (Ed : st_db s2 = st_db s) by (rewrite (qd_db _ _ _ Q2); apply (qd_db _ _ _ Q1)).
  assert (Er : f_root (st_fs s2) = f_root (st_fs s)) by (rewrite (qd_root _ _ _ Q2); apply (qd_root _ _ _ Q1)).
  assert (Ea : f_asset (st_fs s2) = f_asset (st_fs s)) by (rewrite (qd_asset _ _ _ Q2); apply (qd_asset _ _ _ Q1)).
  unfold copy_source_from. apply wp_bind_assoc.
  eapply wp_bind_read; [apply (match_source_eq E cat Hcat ex fz s2 src source rl I2)|]. rewrite Ed.
  assert (Hid : forall id, In id (src_ids cat (st_db s) src source rl) -> is_delta_id id = false /\ mget (d_pool (st_db s2)) id <> None).
  { intros id Hin. rewrite Ed. apply (avail_refs ex fz s src H). eapply src_ids_in; eauto. }
  destruct (src_ids cat (st_db s) src source rl) as [|x l] eqn:Es.
  - apply wp_bind, wp_err. apply Q; [exact I2|]. unfold copied. rewrite Es. split; [split; [exact Ed|split; [eapply same_files_trans; [apply (qd_files _ _ _ Q1)|apply (qd_files _ _ _ Q2)]|auto]]|auto].
  - apply wp_bind. eapply wp_post; [apply (wp_ref_loop E cat Hcat HE ex fz tgt (x :: l) s2 I2); [rewrite Ed; exact Ht|exact Hid]|].
    intros s3 res (-> & I3 & D3 & R3).
    assert (Cp : copied src tgt source rl s s3 (Ok tt)).
    { unfold copied. rewrite Es. split; [|split; [rewrite (rs_root _ _ _ _ R3); exact Er|rewrite (rs_asset _ _ _ _ R3); exact Ea]].
      split; [exact Hr|]. split; [exact Ht|]. split; [discriminate|]. rewrite D3, Ed. reflexivity. }
    destruct sk; [apply wp_index_after; auto|]. apply wp_ret. split; [exact I3|]. split; [discriminate|exact Cp].
Qed.

(** ** AddPackages *)
Inductive added (ex fz : bool) (r : string) (strict : bool) : list loc -> state -> state -> res unit -> Prop :=
| AdNil s : added ex fz r strict [] s s (Ok tt)
| AdCons l ls s s1 s' res : Inv ex fz [] s1 -> rest fz r s s1 -> add_outcome E cat fz r l strict s s1 (Ok tt) ->
    added ex fz r strict ls s1 s' res -> added ex fz r strict (l :: ls) s s' res
| AdFail l ls s s1 : rest fz r s s1 -> add_outcome E cat fz r l strict s s1 Err -> added ex fz r strict (l :: ls) s s1 Err.

Lemma add_repos fz r l strict s s1 res : add_outcome E cat fz r l strict s s1 res -> d_repos (st_db s1) = d_repos (st_db s).
Proof.
  intros []; subst; try reflexivity; try congruence. rewrite H4. rewrite (db_add_put cat). apply put_repos, touch_repos.
Qed.

Lemma wp_add_loop ex fz r strict pkgs : forall s,
  Inv ex fz [] s -> mhas (d_repos (st_db s)) r = true ->
  Forall (fun l => upload_tree (l_tree l) = true /\ is_delta_id (l_id l) = false) pkgs ->
  wp (forM pkgs (fun p => add_package E r p strict)) (Cinv fz)
     (fun s' res => Inv ex fz [] s' /\ added ex fz r strict pkgs s s' res /\ res <> Panic) s.
Proof.
  induction pkgs as [|l ls IH]; intros s H Hr Hf; simpl.
  - apply wp_ret. split; [exact H|]. split; [constructor|discriminate].
  - inversion Hf as [|? ? [U D] Hf']; subst. apply wp_bind.
    eapply wp_post; [apply (wp_add_package E cat Hcat HE ex fz r l strict s H U D Hr)|].
    intros s1 [[]| |] (I1 & R1 & O1).
    + assert (Hr1 : mhas (d_repos (st_db s1)) r = true) by (rewrite (add_repos _ _ _ _ _ _ _ O1); exact Hr).
      eapply wp_post; [apply (IH s1 I1 Hr1 Hf')|].
      intros s' res (I2 & A2 & Np). split; [exact I2|]. split; [exact (AdCons ex fz r strict l ls s s1 s' res I1 R1 O1 A2)|exact Np].
    + split; [exact I1|]. split; [eapply AdFail; eauto|discriminate].
    + inversion O1.
Qed.

Definition add_result (ex fz : bool) (r : string) (strict : bool) (pkgs : list loc) (s s' : state) (res : res unit) : Prop :=
  (res = Err /\ mhas (d_repos (st_db s)) r = false /\ s' = s) \/
  (mhas (d_repos (st_db s)) r = true /\ exists s0, quiet_dir r s s0 /\ added ex fz r strict pkgs s0 s' res).

Lemma wp_api_add ex fz o r pkgs strict s :
  Inv ex fz [] s -> good_oracle o ->
  Forall (fun l => upload_tree (l_tree l) = true /\ is_delta_id (l_id l) = false) pkgs ->
  wp (api_add_packages E o r pkgs strict) (Cinv fz)
     (then_indexed ex fz o r (add_result ex fz r strict pkgs s)) s.
Proof.
  intros H Ho Hf. unfold api_add_packages. apply (wp_with_repo ex fz); [exact H|auto| |].
  { intros Hr. split; [exact H|]. split; [discriminate|]. left. split; [reflexivity|]. left. auto. }
  intros s1 I1 Q1 Hr. apply wp_bind. eapply wp_post; [apply (wp_add_loop ex fz r strict pkgs s1 I1)|].
  { rewrite (qd_db _ _ _ Q1). exact Hr. }
  { exact Hf. }
  intros s2 [[]| |] (I2 & A2 & Np); [| |congruence].
  - apply wp_index_after; auto. right. split; [exact Hr|]. exists s1. auto.
  - split; [exact I2|]. split; [discriminate|]. left. split; [reflexivity|]. right. split; [exact Hr|]. exists s1. auto.
Qed.

(** ** deltas *)
Lemma wp_api_add_delta fz r src from to s :
  Inv false fz [] s -> upload_tree (l_tree src) = true -> is_delta_id (l_id src) = true ->
  wp (api_add_delta E r src from to) (Cinv fz)
     (fun s' res => Inv false fz [] s' /\ res <> Panic /\
        ((res = Err /\ st_db s' = st_db s) \/
         (res = Ok tt /\ mhas (d_repos (st_db s)) r = true /\ exists p, p_name p = l_id src /\ pentry_ok cat (l_id src) p /\
            (mget (d_pool (st_db s)) (l_id src) = None ->
               exists h z, p = new_pentry cat (l_id src) h z (Some (DInfo (rel (cat from)) from (rel (cat to)) to))) /\
            st_db s' = db_delta cat r p (st_db s)))) s.
Proof.
  intros H U D. unfold api_add_delta. apply (wp_with_repo false fz); [exact H|auto| |].
  { intros Hr. split; [exact H|]. split; [discriminate|]. left. auto. }
  intros s1 I1 Q1 Hr. pose proof (qd_db _ _ _ Q1) as Ed.
  eapply wp_post; [apply (wp_add_delta E cat Hcat HE fz r src from to s1 I1 U D)|].
  intros s' res (I2 & _ & Np & W). rewrite Ed in W. split; [exact I2|]. split; [exact Np|].
  destruct W as [W|[W1 W2]]; [left; exact W|right]. auto.
Qed.
Lemma wp_api_ref_delta fz r id s :
  Inv false fz [] s -> is_delta_id id = true ->
  wp (api_ref_delta E r id) (Cinv fz)
     (fun s' res => Inv false fz [] s' /\ res <> Panic /\
        ((res = Err /\ st_db s' = st_db s) \/
         (exists p, mget (d_pool (st_db s)) id = Some p /\ mget (d_ents (st_db s) r) (m_name (cat id)) <> None /\
                    res = Ok tt /\ st_db s' = db_delta cat r p (st_db s)))) s.
Proof.
  intros H D. unfold api_ref_delta. apply (wp_with_repo false fz); [exact H|auto| |].
  { intros Hr. split; [exact H|]. split; [discriminate|]. left. auto. }
  intros s1 I1 Q1 Hr. pose proof (qd_db _ _ _ Q1) as Ed.
  eapply wp_post; [apply (wp_ref_delta E cat Hcat HE fz r id s1 I1 D)|].
  intros s' res (I2 & _ & Np & W). rewrite Ed in W. split; [exact I2|]. split; [exact Np|].
  destruct W as [(W1 & W2 & _)|W]; [left; split; [exact W1|congruence]|right; exact W].
Qed.
Lemma wp_mark_failed ex fz id d s :
  Inv ex fz [] s ->
  wp (mark_delta_failed id d) (Cinv fz)
     (fun s' res => Inv ex fz [] s' /\ res <> Panic /\ d_ents (st_db s') = d_ents (st_db s) /\
        d_repos (st_db s') = d_repos (st_db s) /\ d_pool (st_db s') = d_pool (st_db s) /\ st_fs s' = st_fs s) s.
Proof.
  intros H. unfold mark_delta_failed. apply wp_bind_gets. destruct (mget (d_skip (st_db s)) id).
  { apply wp_ret. split; [exact H|]. split; [discriminate|]. auto. }
  unfold db_write. destruct (reserved (op_key (PutSkip (SEntry id d)))).
  { apply wp_err. split; [exact H|]. split; [discriminate|]. auto. }
  set (s1 := on_db (fun d0 => apply_op d0 (PutSkip (SEntry id d))) s).
  assert (I1 : Inv ex fz [] s1).
  { destruct H as [A1 A2 A3 A4 A5 A6 A7 A8]. constructor; try assumption.
    - destruct A1 as [B1 B2 B3 B4]. constructor; assumption.
    - intros Z. destruct (A7 Z) as [X1 X2]. constructor; assumption.
    - intros Z. destruct (A8 Z) as [X1 X2]. constructor; assumption. }
  apply wp_durable; [eapply Inv_Cinv, I1|]. split; [exact I1|]. split; [discriminate|]. auto.
Qed.

(** ** any request *)
Definition crash_ok (fz : bool) (p : op) (t : state) : Prop :=
  if removes_packages p then Rinv t
  else Inv false false [] (restart t) /\
       ((forall r, p <> OpDelete r) -> fz = true -> FX E cat (restart t)).

Lemma wp_ret_nil (m : M unit) (C : state -> Prop) (Q : state -> res (list string) -> Prop) s :
  wp m C (fun s' res => Q s' (match res with Ok _ => Ok [] | Err => Err | Panic => Panic end)) s ->
  wp (m ;;; ret []) C Q s.
Proof.
  intros H. apply wp_bind. eapply wp_post; [exact H|]. intros s' [[]| |] X; [apply wp_ret|..]; exact X.
Qed.

Lemma wp_run_op ex fz o p s :
  Inv ex fz [] s -> good_oracle o -> good_op p -> (ex = true -> delta_op p = false) ->
  wp (run_op E o p) (crash_ok fz p) (fun s' res => Inv ex fz [] s' /\ res <> Panic) s.
Proof.
  intros H Ho Hp Hx.
  assert (CC : forall t, Cinv fz t -> Inv false false [] (restart t) /\ ((forall r, p <> OpDelete r) -> fz = true -> FX E cat (restart t))).
  { intros t A. apply Cinv_restart in A. destruct A as [A B]. split; [exact A|]. intros _. exact B. }
  assert (OUT : forall (R : state -> res unit -> Prop) r s' res, then_indexed ex fz o r R s' res ->
     Inv ex fz [] s' /\ match res with Ok _ => Ok [] | Err => Err | Panic => Panic end <> @Panic (list string)).
  { intros R r s' [[]| |] (A & B & _); (split; [exact A|congruence]). }
  assert (OUT2 : forall s' (res : res unit), Inv ex fz [] s' -> res <> Panic ->
     Inv ex fz [] s' /\ match res with Ok _ => Ok [] | Err => Err | Panic => Panic end <> @Panic (list string)).
  { intros s' [[]| |] A B; (split; [exact A|congruence]). }
  destruct p; unfold crash_ok; cbn [removes_packages run_op] in *.
  - apply wp_ret_nil. eapply wp_mono; [apply (wp_api_create ex fz o id s H Ho)|exact CC|]. intros s' res (A & B & _). auto.
  - apply wp_ret_nil. eapply wp_mono; [apply (wp_delete_repo E cat Hcat ex fz id s H)| |].
    { intros t A. split; [exact A|]. intros X. exfalso. apply (X id). reflexivity. }
    intros s' res (A & [(-> & _)|(-> & _)]); (split; [exact A|discriminate]).
  - apply wp_ret_nil. eapply wp_mono; [apply (wp_api_clone ex fz o src new full s H Ho)|exact CC|]. apply OUT.
  - eapply wp_mono; [apply (wp_api_pull ex fz o src tgt s H Ho)|exact CC|]. intros s' res (A & B & _). auto.
  - apply wp_ret_nil. eapply wp_post; [apply (wp_api_remove_source ex fz o r source rel s H Ho)|]. apply OUT.
  - apply wp_ret_nil. eapply wp_mono; [apply (wp_api_copy_source ex fz o src tgt source rel skip_index s H Ho)|exact CC|].
    intros s' res W. destruct skip_index; [eapply OUT; eauto|]. destruct W as (A & B & _). auto.
  - apply wp_ret_nil. eapply wp_post; [apply (wp_api_trim_obsolete ex fz o r s H Ho)|]. apply OUT.
  - apply wp_ret_nil. eapply wp_post; [apply (wp_api_trim_packages ex fz o r k s H Ho)|]. apply OUT.
  - apply wp_ret_nil. eapply wp_mono; [apply (wp_api_add ex fz o r pkgs strict s H Ho Hp)|exact CC|]. apply OUT.
  - apply wp_ret_nil. eapply wp_mono; [apply (wp_api_index ex fz o r s H Ho)|exact CC|]. intros s' res (A & _ & B). auto.
  - destruct ex; [discriminate (Hx eq_refl)|]. destruct Hp as [U D].
    apply wp_ret_nil. eapply wp_mono; [apply (wp_api_add_delta fz r src from to s H U D)|exact CC|]. intros s' res (A & B & _). auto.
  - destruct ex; [discriminate (Hx eq_refl)|].
    apply wp_ret_nil. eapply wp_mono; [apply (wp_api_ref_delta fz r id s H Hp)|exact CC|]. intros s' res (A & B & _). auto.
  - apply wp_ret_nil. eapply wp_mono; [apply (wp_mark_failed ex fz id d s H)|exact CC|]. intros s' res (A & B & _). auto.
Qed.
End Ops.
