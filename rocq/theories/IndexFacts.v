(** * IndexFacts: index runs in the vocabulary of Spec (proof artifact) *)
From Verif Require Import Model Spec DbInv DbOps Wp FsInv Ops UnrefOps RepoOps DeleteOps Pure Loops Emit IndexOps ApiOps History PoolFacts OpFacts OpFacts2 AssetFacts.
Open Scope string_scope. Open Scope list_scope.

Lemma NoDup_map_on {X Y} (f : X -> Y) l : (forall a b, In a l -> In b l -> f a = f b -> a = b) -> NoDup l -> NoDup (map f l).
Proof.
  induction l as [|x l IH]; intros I ND; simpl; [constructor|]. inversion ND as [|? ? Nx ND']; subst. constructor.
  - intros X0. apply in_map_iff in X0. destruct X0 as (y & E & Hy). apply Nx. rewrite (I x y); [exact Hy|left; reflexivity|right; exact Hy|congruence].
  - apply IH; auto. intros a b Ha Hb. apply I; right; assumption.
Qed.

Lemma Forall2_impl {X Y} (P Q : X -> Y -> Prop) l l' : (forall a b, P a b -> Q a b) -> Forall2 P l l' -> Forall2 Q l l'.
Proof. intros I. induction 1; constructor; auto. Qed.

Section Facts.
Variable E : env.
Variable cat : string -> meta.
Hypothesis Hcat : good_catalog cat.
Hypothesis HE : good_env E.
Notation Inv := (Inv E cat).

Lemma dist_obs s r dist n : dist_of E s r = Ok dist -> is_obsolete dist n = true <-> In n (obsoletes E s r).
Proof.
  unfold dist_of, obsoletes, asset_file. destruct (f_asset (st_fs s) r "distribution.xml") as [c|].
  - destruct (E_dist E c) as [l|]; [|discriminate]. intros X; injection X as <-. simpl. apply sin_In.
  - intros X; injection X as <-. simpl. split; [discriminate|intros []].
Qed.
Lemma hidden_obs s r dist n : dist_of E s r = Ok dist -> hidden dist n = true <-> obsolete_name E s r n.
Proof.
  intros D. unfold hidden, obsolete_name. rewrite orb_true_iff, !(dist_obs s r dist) by exact D. split.
  - intros [X|X]; [left; exact X|]. unfold strip_dbginfo in X. destruct (has_suffix "-dbginfo" n) eqn:S; [|left; exact X].
    right. apply has_suffix_spec in S. destruct S as (b & ->). exists b. split; [reflexivity|].
    rewrite <- (strip_suffix b). unfold strip_dbginfo. rewrite has_suffix_app. exact X.
  - intros [X|(b & -> & X)]; [left; exact X|right]. rewrite strip_suffix. exact X.
Qed.

Lemma emitted_meta d r id : set_deltas (emitted cat d r id) [] = set_deltas (pm cat d id) [] /\
  get_id (emitted cat d r id) = get_id (pm cat d id) /\ m_name (emitted cat d r id) = m_name (pm cat d id) /\
  rel (emitted cat d r id) = rel (pm cat d id).
Proof.
  unfold emitted. destruct (mget (d_ents d r) (m_name (cat id))) as [e|]; [|auto]. unfold with_deltas.
  destruct (delta_recs d e (rel (cat id))); auto.
Qed.

Lemma doc_describes ex fz s r dist : Inv ex fz [] s -> dist_of E s r = Ok dist -> assets_ok E s r = true -> describes E s r (index_doc E cat s r dist).
Proof.
  intros H D As. pose proof (i_db _ _ _ _ _ _ H) as Db.
  assert (Hin : forall id, In id (index_ids (st_db s) r dist) <->
     exists n e, entry_at s r n = Some e /\ e_pub e = id /\ ~ obsolete_name E s r n).
  { intros id. unfold index_ids. rewrite sort_strings_In, in_map_iff. split.
    - intros ([n e] & <- & X). apply filter_In in X. destruct X as [X Y]. apply in_mlist in X. exists n, e.
      split; [exact X|]. split; [reflexivity|]. rewrite <- (hidden_obs s r dist n D). simpl in Y. apply negb_true_iff in Y. congruence.
    - intros (n & e & G & <- & N). exists (n, e). split; [reflexivity|]. apply filter_In. split; [apply in_mlist, G|].
      simpl. apply negb_true_iff. destruct (hidden dist n) eqn:Hh; [|reflexivity]. exfalso. apply N. apply (hidden_obs s r dist n D), Hh. }
  assert (Pub : forall id n e, entry_at s r n = Some e -> e_pub e = id -> m_name (cat id) = n /\ get_id (pm cat (st_db s) id) = id /\
            exists p, pool_at s id = Some p).
  { intros id n e G <-. pose proof (ok_ent _ _ Db _ _ _ G) as Eo. pose proof (eo_pub _ _ _ Eo) as P.
    split; [apply (eo_avail _ _ _ Eo _ P)|]. split; [apply (pm_id E cat ex fz s r n e _ H G P)|].
    destruct (avail_pool E cat ex fz [] s r n e _ H G P) as (p & A & _). exists p. exact A. }
  constructor; try reflexivity.
  - simpl. unfold dist_of, asset_file in *. destruct (f_asset (st_fs s) r "distribution.xml") as [c|].
    + destruct (E_dist E c); [|discriminate]. injection D as <-. reflexivity.
    + injection D as <-. reflexivity.
  - simpl. apply andb_true_iff in As. destruct As as [As _]. revert As. unfold asset_ok, asset_val, asset_file.
    destruct (f_asset (st_fs s) r "components.xml") as [c|]; [|reflexivity].
    destruct (new_components E c) as [l| |] eqn:Ec; [|discriminate|discriminate]. intros _. apply (components_carried E HE c l Ec).
  - simpl. apply andb_true_iff in As. destruct As as [_ As]. revert As. unfold asset_ok, asset_val, asset_file.
    destruct (f_asset (st_fs s) r "groups.xml") as [c|]; [|reflexivity].
    destruct (new_groups E c) as [l| |] eqn:Ec; [|discriminate|discriminate]. intros _. apply (groups_carried E HE c l Ec).
  - exists (map (fun id => m_name (cat id)) (index_ids (st_db s) r dist)). split; [|split].
    + apply (NoDup_map_on (fun id => m_name (cat id))).
      * intros a b Ha Hb Eq. apply Hin in Ha, Hb. destruct Ha as (n & e & G & P & _), Hb as (n' & e' & G' & P' & _).
        destruct (Pub _ _ _ G P) as (N1 & _). destruct (Pub _ _ _ G' P') as (N2 & _). assert (n = n') by congruence. subst n'. congruence.
      * apply slt_sorted_nodup, sort_strings_slt, (pubs_nodup cat), Db.
    + intros n. rewrite in_map_iff. split.
      * intros (id & <- & X). apply Hin in X. destruct X as (n & e & G & P & N). destruct (Pub _ _ _ G P) as (-> & _). split; [exists e; exact G|exact N].
      * intros ((e & G) & N). exists (e_pub e). split; [apply (Pub _ n e G eq_refl)|]. apply Hin. exists n, e. auto.
    + simpl. unfold index_pkgs.
      assert (F : forall l, (forall id, In id l -> In id (index_ids (st_db s) r dist)) -> Forall2 (is_record s r) (map (fun id => m_name (cat id)) l) (map (emitted cat (st_db s) r) l)).
      { induction l as [|id l IH]; intros Hl; simpl; constructor.
        - destruct (proj1 (Hin id) (Hl id (or_introl eq_refl))) as (n & e & G & P & _). destruct (Pub _ _ _ G P) as (Nm & _ & p & Gp).
          exists id, p. split; [unfold published; rewrite Nm, G, P; reflexivity|]. split; [exact Gp|].
          destruct (emitted_meta (st_db s) r id) as (-> & _). unfold pm. unfold pool_at in Gp. rewrite Gp. reflexivity.
        - apply IH. intros x Hx. apply Hl. right; exact Hx. }
      apply F. auto.
  - simpl. unfold index_pkgs. rewrite map_map.
    rewrite (map_ext_in _ (fun id => id)); [rewrite map_id; apply sort_strings_slt, (pubs_nodup cat), Db|].
    intros id X. apply Hin in X. destruct X as (n & e & G & P & _). destruct (emitted_meta (st_db s) r id) as (_ & -> & _).
    apply (Pub _ _ _ G P).
Qed.

Lemma doc_deltas ex fz s r dist : Inv ex fz [] s -> no_builtin_deltas cat ->
  forall m, In m (doc_pkgs (index_doc E cat s r dist)) -> right_deltas s r m.
Proof.
  intros H NB m Hm. simpl in Hm. unfold index_pkgs in Hm. apply in_map_iff in Hm. destruct Hm as (id & <- & X).
  pose proof (i_db _ _ _ _ _ _ H) as Db.
  unfold index_ids in X. rewrite sort_strings_In, in_map_iff in X. destruct X as ([n e] & Hp & X). simpl in Hp. apply filter_In in X. destruct X as [X _].
  apply in_mlist in X. pose proof (ok_ent _ _ Db _ _ _ X) as Eo. pose proof (eo_pub _ _ _ Eo) as P. rewrite Hp in P.
  destruct (avail_pool E cat ex fz [] s r n e id H X P) as (p & Gp & Po & _).
  pose proof (proj1 (eo_avail _ _ _ Eo _ P)) as Nm.
  assert (Ep : pm cat (st_db s) id = p_meta p) by (unfold pm; rewrite Gp; reflexivity).
  assert (Rl : rel (p_meta p) = rel (cat id)) by apply (meta_of_rel cat), (po_meta _ _ _ Po).
  assert (Dl : m_deltas (p_meta p) = []).
  { destruct (po_meta _ _ _ Po) as (h & z & ->). simpl. apply NB. }
  destruct (emitted_meta (st_db s) r id) as (_ & _ & En & Er).
  unfold right_deltas. rewrite En, Er, Ep, Rl, (meta_of_name cat _ _ (po_meta _ _ _ Po)), Nm.
  assert (Ed : m_deltas (emitted cat (st_db s) r id) = delta_recs (st_db s) e (rel (cat id))).
  { unfold emitted. rewrite Nm, X, Ep. unfold with_deltas. destruct (delta_recs (st_db s) e (rel (cat id))); [exact Dl|reflexivity]. }
  rewrite Ed. unfold delta_ids_of, entry_at. rewrite X.
  set (good := fun x => match mget (d_pool (st_db s)) x with Some q => match p_delta q with Some di => Z.eqb (d_trel di) (rel (cat id)) | None => false end | None => false end).
  exists (filter good (e_deltas e)). split; [apply filter_slt, (eo_dsorted _ _ _ Eo)|]. split.
  - intros x. rewrite filter_In. unfold leads_to, good, pool_at. split; intros [A B]; (split; [exact A|]).
    + destruct (mget (d_pool (st_db s)) x) as [q|]; [|discriminate]. destruct (p_delta q) as [di|] eqn:Dq; [|discriminate]. exists q, di. apply Z.eqb_eq in B. auto.
    + destruct B as (q & di & -> & -> & B). apply Z.eqb_eq, B.
  - unfold delta_recs, good, delta_record, pool_at. induction (e_deltas e) as [|x l IH]; simpl; [constructor|].
    destruct (mget (d_pool (st_db s)) x) as [q|] eqn:Gq; [|exact IH]. destruct (p_delta q) as [di|] eqn:Dq; [|exact IH].
    destruct (Z.eqb (d_trel di) (rel (cat id))); [|exact IH]. simpl. constructor; [|exact IH]. exists q, di. auto.
Qed.

Lemma tval_content txt k v : In (k, v) index_pairs -> tval E txt k = index_content E txt v.
Proof. intros H. simpl in H. repeat (destruct H as [H|H]; [injection H as <- <-; reflexivity|]). destruct H. Qed.
Lemma pub_files v : In v published_index_files -> exists k, In (k, v) index_pairs.
Proof.
  change published_index_files with (map snd index_pairs). intros H. apply in_map_iff in H. destruct H as ([k v'] & <- & H). exists k. exact H.
Qed.

Lemma run_text_doc ex fz s r txt : Inv ex fz [] s -> run_text E cat s r = Some txt ->
  exists d, txt = E_render E d /\ describes E s r d /\ (no_builtin_deltas cat -> forall m, In m (doc_pkgs d) -> right_deltas s r m).
Proof.
  intros H. unfold run_text. destruct (dist_of E s r) as [dist| |] eqn:D; try discriminate. destruct (assets_ok E s r) eqn:As; [|discriminate]. intros X; injection X as <-.
  exists (index_doc E cat s r dist). split; [reflexivity|]. split; [eapply doc_describes; eauto|]. intros NB. eapply doc_deltas; eauto.
Qed.

(* views of [describes] that only depend on database and assets *)
Lemma describes_same s s' r d : st_db s' = st_db s -> f_asset (st_fs s') = f_asset (st_fs s) -> describes E s r d -> describes E s' r d.
Proof.
  intros Ed Ea [A1 A2 A3 A4 A5]. unfold asset_file in *.
  assert (Ob : forall n, obsolete_name E s' r n <-> obsolete_name E s r n).
  { intros n. unfold obsolete_name, obsoletes, asset_file. rewrite Ea. tauto. }
  constructor; unfold asset_file; rewrite ?Ea; auto. destruct A4 as (ns & B1 & B2 & B3). exists ns. split; [exact B1|]. split.
  - intros n. rewrite B2, Ob. unfold entry_at. rewrite Ed. tauto.
  - eapply Forall2_impl; [|exact B3]. intros n m (id & p & X & Y & Z). exists id, p. unfold published, pool_at, entry_at in *. rewrite Ed. auto.
Qed.
Lemma right_deltas_same s s' r m : st_db s' = st_db s -> right_deltas s r m -> right_deltas s' r m.
Proof.
  intros Ed (ids & A & B & C). exists ids. split; [exact A|]. unfold delta_ids_of, leads_to, delta_record, pool_at, entry_at in *. rewrite Ed. auto.
Qed.

(** what a complete index of [r] (as of state [s]) looks like on disk in [t] *)
Definition complete_index (s t : state) (r : string) : Prop :=
  exists d, describes E s r d /\ (no_builtin_deltas cat -> forall m, In m (doc_pkgs d) -> right_deltas s r m) /\
    forall v, In v published_index_files -> index_file t r v = Some (index_content E (E_render E d) v).

Lemma indexed_complete ex fz o r s s' : Inv ex fz [] s -> indexed E cat o r s s' (Ok tt) -> complete_index s s' r.
Proof.
  intros H X. inversion X as [|s1 re Hr Q R Eq]; subst.
  assert (I1 : Inv ex fz [] s1 \/ True) by (right; exact I). clear I1.
  destruct (ir_done _ _ _ _ _ _ _ R eq_refl) as (txt & Et & _ & Dn).
  assert (Et' : run_text E cat s r = Some txt).
  { revert Et. unfold run_text, dist_of, index_text, index_doc, assets_ok, asset_ok, asset_val. rewrite (qd_asset _ _ _ Q), (qd_db _ _ _ Q). auto. }
  destruct (run_text_doc ex fz s r txt H Et') as (d & -> & A & B). exists d. split; [exact A|]. split; [exact B|].
  intros v Hv. destruct (pub_files v Hv) as (k & Hk). pose proof (id_new _ _ _ _ _ Dn k v Hk) as Y. unfold root_is in Y.
  unfold index_file. rewrite Y, (tval_content _ k v Hk). reflexivity.
Qed.

Lemma index_facts ex fz s o r : Inv ex fz [] s -> good_oracle o ->
  let p := OpIndex r in
  let s' := after E o p s in
  (repo_exists s r = false -> outcome E o p s = Err /\ s' = s) /\
  (succeeds E o p s -> complete_index s s' r) /\
  st_db s' = st_db s /\ (forall l, file_content (st_fs s') l = file_content (st_fs s) l) /\
  (forall x f, asset_file s' x f = asset_file s x f) /\ (forall x f, x <> r -> index_file s' x f = index_file s x f).
Proof.
  intros H Ho p s'.
  destruct (run_unit E (api_index E o r) _ _ s o p eq_refl (wp_api_index E cat Hcat HE ex fz o r s H Ho)) as (res & (I' & X & Np) & Hout).
  fold s' in I', X. split; [|split].
  - intros N. unfold repo_exists in N. inversion X as [Hr Es Er|s1 re Hr Q R Er]; [rewrite <- Er in Hout; auto|congruence].
  - intros (l & Su). destruct res as [[]| |]; [|congruence..]. eapply indexed_complete; eauto.
  - split; [eapply indexed_db; eauto|]. inversion X as [Hr Es Er|s1 re Hr Q R Er]; [rewrite Es; auto|].
    pose proof (ir_quiet _ _ _ _ _ _ _ R) as Qr. split; [|split].
    + intros l. rewrite (same_files_content _ _ l (qr_files _ _ _ Qr)). apply same_files_content, (qd_files _ _ _ Q).
    + intros x f. unfold asset_file. rewrite (qr_asset _ _ _ Qr), (qd_asset _ _ _ Q). reflexivity.
    + intros x f N. unfold index_file. rewrite (qr_root _ _ _ Qr x N), (qd_root _ _ _ Q). reflexivity.
Qed.

(* every instant of the run *)
Definition old_or_complete (s t : state) (r : string) : Prop :=
  exists d, forall v, In v published_index_files ->
    index_file t r v = index_file s r v \/
    (describes E s r d /\ index_file t r v = Some (index_content E (E_render E d) v)).

Lemma noo_spec ex fz s s1 t r : Inv ex fz [] s -> quiet_dir r s s1 -> new_or_old E r (run_text E cat s1 r) s1 t -> old_or_complete s t r.
Proof.
  intros H Q N.
  assert (Et' : run_text E cat s1 r = run_text E cat s r).
  { unfold run_text, dist_of, index_text, index_doc, assets_ok, asset_ok, asset_val. rewrite (qd_asset _ _ _ Q), (qd_db _ _ _ Q). reflexivity. }
  rewrite Et' in N. unfold old_or_complete, index_file. destruct (run_text E cat s r) as [txt|] eqn:Rt.
  - destruct (run_text_doc ex fz s r txt H Rt) as (d & -> & A & _). exists d. intros v Hv. destruct (pub_files v Hv) as (k & Hk).
    destruct (N k v Hk) as [Y|(x & Ex & Y)]; [left; rewrite Y, (qd_root _ _ _ Q); reflexivity|right]. injection Ex as <-.
    split; [exact A|]. rewrite Y, (tval_content _ k v Hk). reflexivity.
  - exists (Doc None [] None None). intros v Hv. destruct (pub_files v Hv) as (k & Hk).
    destruct (N k v Hk) as [Y|(x & Ex & _)]; [left; rewrite Y, (qd_root _ _ _ Q); reflexivity|discriminate].
Qed.
Lemma wp_get_repo_dir ex fz r s : Inv ex fz [] s ->
  wp (get_repo r) (quiet_dir r s) (fun s' res => Inv ex fz [] s' /\ quiet_dir r s s') s.
Proof.
  intros H. destruct (wp_get_repo E cat ex fz [] r s H) as [_ (I' & Q & _)]. split; [|split; assumption]. clear I' Q.
  unfold get_repo, gets, bind, bake_repo, durable, vol, ret, err, trace_of, gets, bind. destruct (st_cache s r); [constructor|].
  destruct (mhas (d_repos (st_db s)) r); [|constructor]. simpl. destruct (f_dir (st_fs s) r); simpl; constructor; [|constructor].
  constructor; simpl; auto; [constructor; try reflexivity; apply assets_eq; reflexivity|]. intros x N. unfold fupd. destruct (seqb_spec x r); [contradiction|reflexivity].
Qed.
Lemma index_instants ex fz s o r : Inv ex fz [] s -> good_oracle o ->
  forall t, In t (after E o (OpIndex r) s :: crash_points E o (OpIndex r) s) -> old_or_complete s t r.
Proof.
  intros H Ho.
  assert (W : wp (api_index E o r) (fun t => old_or_complete s t r) (fun t _ => old_or_complete s t r) s).
  { unfold api_index. apply wp_bind. eapply wp_mono; [apply (wp_get_repo_dir ex fz r s H)| |].
    - intros t Q. exists (Doc None [] None None). intros v _. left. unfold index_file. rewrite (qd_root _ _ _ Q). reflexivity.
    - intros s1 res (I1 & Q1). assert (Old : old_or_complete s s1 r).
      { exists (Doc None [] None None). intros v _. left. unfold index_file. rewrite (qd_root _ _ _ Q1). reflexivity. }
      destruct res; try exact Old. eapply wp_mono; [apply (wp_index E cat Hcat HE ex fz o r s1 I1 Ho)| |].
      + intros t (_ & N & _). eapply noo_spec; eauto.
      + intros t res (_ & N & _). eapply noo_spec; eauto. }
  destruct W as [W1 W2]. intros t Ht. unfold after, crash_points in Ht. simpl run_op in Ht. unfold bind, final_of, trace_of in *.
  destruct (api_index E o r s) as [[tr s1] [[]| |]]; simpl in *; rewrite ?app_nil_r in Ht; rewrite Forall_forall in W1;
   (destruct Ht as [<-|Ht]; [exact W2|apply W1, Ht]).
Qed.

(** ** recovery *)
Definition ready (s : state) (r : string) : Prop := repo_exists s r = true /\ readable_assets E s r.

Lemma readable_ok ex fz s r : Inv ex fz [] s -> readable_assets E s r -> assets_ok E s r = true.
Proof.
  intros H (_ & Ra2 & Ra3). pose proof (i_fs _ _ _ _ _ _ H) as F. unfold assets_ok, asset_ok, asset_file in *. apply andb_true_iff. split.
  - destruct (f_asset (st_fs s) r "components.xml") as [c|] eqn:G; [|reflexivity].
    pose proof (good_components E HE c (fs_asset_good E cat HE _ _ _ _ F G)) as Np.
    destruct (components_cases E HE c) as [[N _]|[(l & _ & _ & ->)|(l & _ & _ & P)]]; [destruct (Ra2 c eq_refl N)|reflexivity|contradiction].
  - destruct (f_asset (st_fs s) r "groups.xml") as [c|] eqn:G; [|reflexivity].
    pose proof (good_groups E HE c (fs_asset_good E cat HE _ _ _ _ F G)) as Np.
    destruct (groups_cases E HE c) as [[N _]|[(l & _ & _ & ->)|(l & _ & _ & P)]]; [destruct (Ra3 c eq_refl N)|reflexivity|contradiction].
Qed.
Lemma assets_ok_dir r s s1 : quiet_dir r s s1 -> assets_ok E s1 r = assets_ok E s r.
Proof. intros Q. unfold assets_ok, asset_ok. rewrite (qd_asset _ _ _ Q). reflexivity. Qed.
Lemma healthy_step ex fz s o r : Inv ex fz [] s -> healthy o -> sane_tools E -> ready s r ->
  let s' := after E o (OpIndex r) s in
  Inv ex fz [] s' /\ ready s' r /\
  (index_file s r t_xz = None -> index_file s r t_zst = None -> succeeds E o (OpIndex r) s) /\
  (succeeds E o (OpIndex r) s -> index_file s' r t_xz = None /\ index_file s' r t_zst = None) /\
  index_file s' r t_xz = None /\ (index_file s r t_xz = None -> index_file s' r t_zst = None).
Proof.
  intros H (Ho & Hf & Hrf & Hpu) (T1 & T2 & T3) (Re & Ra1 & Ra2 & Ra3) s'.
  destruct (run_unit E (api_index E o r) _ _ s o (OpIndex r) eq_refl (wp_api_index E cat Hcat HE ex fz o r s H Ho)) as (res & (I' & X & Np) & Hout).
  fold s' in I', X. inversion X as [Hr Es Er|s1 re Hr Q R Er].
  { unfold repo_exists in Re. congruence. }
  pose proof (ir_quiet _ _ _ _ _ _ _ R) as Qr.
  assert (Ast : forall f, asset_file s' r f = asset_file s r f).
  { intros f. unfold asset_file. rewrite (qr_asset _ _ _ Qr), (qd_asset _ _ _ Q). reflexivity. }
  assert (Rd : ready s' r).
  { split; [unfold repo_exists; rewrite (qr_db _ _ _ Qr), (qd_db _ _ _ Q); exact Re|].
    split; [|split]; intros c; rewrite Ast; auto. }
  pose proof (readable_ok ex fz s r H (conj Ra1 (conj Ra2 Ra3))) as Aok.
  assert (Hry : index_ready E o s1 r).
  { split; [intros k _; auto|]. split; [exact Hpu|]. rewrite (assets_ok_dir r s s1 Q). exact Aok. }
  assert (Ht : exists txt, run_text E cat s1 r = Some txt).
  { unfold run_text, dist_of. rewrite (assets_ok_dir r s s1 Q), Aok, (qd_asset _ _ _ Q). unfold asset_file in Ra1.
    destruct (f_asset (st_fs s) r "distribution.xml") as [c|]; [|eauto]. specialize (Ra1 c eq_refl). destruct (E_dist E c); [eauto|congruence]. }
  destruct Ht as (txt & Ht).
  assert (Nt : txt <> "").
  { intros ->. revert Ht. unfold run_text. destruct (dist_of E s1 r); try discriminate. destruct (assets_ok E s1 r); [|discriminate]. intros Y; injection Y as Y. unfold index_text in Y. apply (T1 _ Y). }
  destruct (ir_ready _ _ _ _ _ _ _ R Hry txt Ht Nt (T2 txt) (T3 txt)) as [A B].
  assert (RtQ : forall f, f_root (st_fs s1) r f = index_file s r f) by (intros f; unfold index_file; rewrite (qd_root _ _ _ Q); reflexivity).
  unfold root_is in A, B. rewrite !RtQ in A. rewrite RtQ in B.
  assert (Dn : res = Ok tt -> index_file s' r t_xz = None /\ index_file s' r t_zst = None).
  { intros Er0. destruct (ir_done _ _ _ _ _ _ _ R Er0) as (tx & _ & _ & D). split; apply (id_temp _ _ _ _ _ D); simpl; auto 10. }
  split; [exact I'|]. split; [exact Rd|]. split; [|split].
  - intros Z1 Z2. rewrite (A Z1 Z2) in Hout. exists []. exact Hout.
  - intros (l & Su). apply Dn. destruct res as [[]| |]; congruence.
  - destruct res as [[]| |]; [|exact (B eq_refl)|congruence]. destruct (Dn eq_refl) as [D1 D2]. auto.
Qed.

Lemma third_run ex fz s o1 o2 o3 r : Inv ex fz [] s -> healthy o1 -> healthy o2 -> healthy o3 -> sane_tools E -> ready s r ->
  succeeds E o3 (OpIndex r) (after E o2 (OpIndex r) (after E o1 (OpIndex r) s)).
Proof.
  intros H H1 H2 H3 T R.
  destruct (healthy_step ex fz s o1 r H H1 T R) as (I1 & R1 & _ & _ & X1 & _).
  destruct (healthy_step ex fz _ o2 r I1 H2 T R1) as (I2 & R2 & _ & _ & X2 & Z2).
  destruct (healthy_step ex fz _ o3 r I2 H3 T R2) as (_ & _ & S3 & _). apply S3; [exact X2|apply Z2, X1].
Qed.

(** ** the index after any request *)
Lemma indexed_current ex fz o r s s' : Inv ex fz [] s -> indexed E cat o r s s' (Ok tt) -> index_current E s' r.
Proof.
  intros H X. destruct (indexed_complete ex fz o r s s' H X) as (d & A & _ & B). exists d. split; [|exact B].
  eapply describes_same; [| |exact A]; [eapply indexed_db; eauto|].
  inversion X as [|s1 re Hr Q R Er]; subst. rewrite (qr_asset _ _ _ (ir_quiet _ _ _ _ _ _ _ R)). apply (qd_asset _ _ _ Q).
Qed.
Lemma then_current ex fz o r R s' : then_indexed E cat ex fz o r R s' (Ok tt) -> index_current E s' r.
Proof. intros (_ & _ & [(X & _)|(s1 & I1 & _ & X)]); [discriminate|]. eapply indexed_current; eauto. Qed.

Lemma request_current ex fz s o p r : Inv ex fz [] s -> good_oracle o -> good_op p -> reindexes p = Some r ->
  succeeds E o p s -> index_current E (after E o p s) r.
Proof.
  intros H Ho Hp Hr (l & Su).
  assert (U : forall (m : M unit) C R, run_op E o p = (m ;;; ret []) -> wp m C (then_indexed E cat ex fz o r R) s -> index_current E (after E o p s) r).
  { intros m C R Er W. destruct (run_unit E m C _ s o p Er W) as (res & X & Hout). destruct res as [[]| |]; [|congruence..]. eapply then_current; eauto. }
  destruct p; simpl in Hr; try discriminate; try (injection Hr as <-).
  - destruct (run_unit E (api_create E o id) _ _ s o (OpCreate id) eq_refl (wp_api_create E cat Hcat HE ex fz o id s H Ho)) as (res & (I' & Np & W) & Hout).
    destruct W as [(-> & _)|(s1 & I1 & _ & X)]; [congruence|]. destruct res as [[]| |]; [|congruence..]. eapply indexed_current; eauto.
  - eapply U; [reflexivity|apply (wp_api_clone E cat Hcat HE ex fz o src new full s H Ho)].
  - destruct (wp_api_pull E cat Hcat HE ex fz o src tgt s H Ho) as (_ & I' & Np & W).
    change (final_of (api_pull E o src tgt s)) with (after E o (OpPull src tgt) s) in *.
    change (result_of (api_pull E o src tgt s)) with (outcome E o (OpPull src tgt) s) in *.
    destruct W as [(Er & _)|(s1 & ch & rs & I1 & _ & X & [(_ & ->)|(Er & _)])]; [congruence| |congruence].
    eapply indexed_current; eauto.
  - eapply U; [reflexivity|apply (wp_api_remove_source E cat Hcat HE ex fz o r0 source rel s H Ho)].
  - destruct skip_index; [|discriminate]. injection Hr as <-. eapply U; [reflexivity|].
    apply (wp_api_copy_source E cat Hcat HE ex fz o src tgt source rel true s H Ho).
  - eapply U; [reflexivity|apply (wp_api_trim_obsolete E cat Hcat HE ex fz o r0 s H Ho)].
  - eapply U; [reflexivity|apply (wp_api_trim_packages E cat Hcat HE ex fz o r0 k s H Ho)].
  - eapply U; [reflexivity|apply (wp_api_add E cat Hcat HE ex fz o r0 pkgs strict s H Ho Hp)].
  - destruct (run_unit E (api_index E o r0) _ _ s o (OpIndex r0) eq_refl (wp_api_index E cat Hcat HE ex fz o r0 s H Ho)) as (res & (I' & X & Np) & Hout).
    destruct res as [[]| |]; [|congruence..]. exact (indexed_current ex fz o r0 s _ H X).
Qed.
End Facts.
