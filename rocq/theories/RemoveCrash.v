(** * RemoveCrash: what a kill in the middle of a removal can damage (proof artifact) *)
From Verif Require Import Model Spec DbInv DbOps Wp FsInv Ops UnrefOps RepoOps Pure Loops Emit IndexOps ApiOps History PoolFacts OpFacts OpFacts2 OpFacts3.
Open Scope string_scope. Open Scope list_scope.

(** every instant satisfies [K] or is the end *)
Definition endy {A} (K : state -> Prop) (m : M A) (s : state) : Prop :=
  forall t, In t (trace_of (m s)) -> K t \/ t = final_of (m s).
Lemma endy_bind {A B} K (m : M A) (k : A -> M B) Q s :
  wp m K Q s -> (forall s1 a, Q s1 (Ok a) -> endy K (k a) s1) -> endy K (bind m k) s.
Proof.
  intros [T F] Hk t Ht. unfold bind, trace_of, final_of in *. unfold result_of, final_of in F. destruct (m s) as [[t1 s1] r1]. cbn in *.
  rewrite Forall_forall in T.
  destruct r1 as [a| |]; [|left; apply T; exact Ht..].
  specialize (Hk s1 a F). unfold endy, trace_of, final_of in Hk. destruct (k a s1) as [[t2 s2] r2]. cbn in *.
  apply in_app_iff in Ht. destruct Ht as [Ht|Ht]; [left; apply T, Ht|apply Hk, Ht].
Qed.
Lemma endy_write K b o s : endy K (db_write b o) s.
Proof. unfold db_write. destruct (reserved (op_key o)); [intros t []|]. destruct b; intros t; cbn; [intros []|]. intros [<-|[]]. right. reflexivity. Qed.
Lemma keeps_foldM_in {X A} P (f : A -> X -> M A) l :
  (forall a x, In x l -> keeps P (f a x)) -> forall a, keeps P (foldM l f a).
Proof.
  induction l as [|x l IH]; intros H a0; cbn [foldM]; [apply keeps_ret|]. apply keeps_bind; [apply H; left; reflexivity|].
  intros a. apply IH. intros b y Hy. apply H. right; exact Hy.
Qed.

Section Crash.
Variable E : env.
Variable cat : string -> meta.
Hypothesis Hcat : good_catalog cat.
Hypothesis HE : good_env E.
Notation Inv := (Inv E cat).

(** the state while [id] is being removed from [r], seen from the state [s] before *)
Record mid (s : state) (r id : string) (u : state) : Prop := {
  md_ents : d_ents (st_db u) = d_ents (st_db s);
  md_named : forall y p, mget (d_pool (st_db u)) y = Some p -> p_name p = y;
  md_pool : forall y, is_delta_id y = false -> y <> id -> mget (d_pool (st_db u)) y = mget (d_pool (st_db s)) y;
  md_id : forall p, mget (d_pool (st_db s)) id = Some p -> (2 <= p_rc p)%N ->
            exists q, mget (d_pool (st_db u)) id = Some q /\ p_meta q = p_meta p;
  md_data : f_data (st_fs u) = f_data (st_fs s);
  md_name : forall l, f_name (st_fs u) l = f_name (st_fs s) l \/ is_delta_id (l_id l) = true \/
            (l_id l = id /\ (l_tree l = TRepo r \/ (l_tree l = TPool /\ forall p, mget (d_pool (st_db s)) id = Some p -> (p_rc p < 2)%N)))
}.

Lemma mid_rm_delta s r id u l : mid s r id u -> is_delta_id (l_id l) = true -> mid s r id (on_fs (fun f => fs_set_name f l None) u).
Proof.
  intros [A B C D F G] Hd. constructor; cbn; auto. intros x. unfold nupd. destruct (loc_eqb_spec x l) as [->|N]; [right; left; exact Hd|apply G].
Qed.
Lemma mid_put_delta s r id u d p n : mid s r id u -> is_delta_id d = true -> is_delta_id id = false -> mget (d_pool (st_db u)) d = Some p ->
  mid s r id (on_db (fun q => apply_op q (PutPool (set_rc p n))) u).
Proof.
  intros [A B C D F G] Hd Hi Gp. pose proof (B _ _ Gp) as Np. constructor; cbn -[mget mput]; auto; rewrite ?Np.
  - intros y q. destruct (seqb_spec y d) as [->|N]; [rewrite mget_put_eq; intros X; injection X as <-; exact Np|rewrite mget_put_ne by exact N; apply B].
  - intros y Hy N. rewrite mget_put_ne by congruence. apply C; auto.
  - intros q Gq Rq. rewrite mget_put_ne by congruence. apply D; auto.
Qed.
Lemma mid_del_delta s r id u d : mid s r id u -> is_delta_id d = true -> is_delta_id id = false ->
  mid s r id (on_db (fun q => apply_op q (DelPool d)) u).
Proof.
  intros [A B C D F G] Hd Hi. constructor; cbn -[mget mput mdel]; auto.
  - intros y q. destruct (seqb_spec y d) as [->|N]; [rewrite mget_del_eq; discriminate|rewrite mget_del_ne by exact N; apply B].
  - intros y Hy N. rewrite mget_del_ne by congruence. apply C; auto.
  - intros q Gq Rq. rewrite mget_del_ne by congruence. apply D; auto.
Qed.
Lemma mid_remove_delta s r id d : is_delta_id d = true -> is_delta_id id = false -> keeps (mid s r id) (remove_internal false r d).
Proof.
  intros Hd Hi u K. unfold remove_internal, pool_get. apply wp_bind_gets. destruct (mget (d_pool (st_db u)) d) as [p|] eqn:Gp; [|apply wp_ret, K].
  pose proof (md_named _ _ _ _ K _ _ Gp) as Np.
  apply wp_bind, wp_lift. destruct (path_component (m_src (p_meta p))) as [comp| |]; [|exact K..]. rewrite Np.
  assert (K1 : mid s r id (on_fs (fun f => fs_set_name f (Loc (TRepo r) comp d) None) u)) by (apply mid_rm_delta; assumption).
  unfold remove_file at 1. apply wp_bind_durable; [exact K1|]. unfold pool_unref, pool_get_or_err, pool_get.
  apply wp_bind. apply wp_bind_gets. cbn [st_db on_fs]. rewrite Gp. apply wp_ret. cbv zeta.
  destruct (N.ltb 0 (rc_dec (p_rc p))).
  - unfold db_write. destruct (reserved _); [apply wp_err, K1|]. apply wp_durable; apply (mid_put_delta s r id _ d p); auto.
  - apply wp_bind, wp_lift. destruct (path_component (m_src (p_meta p))) as [c2| |]; [|exact K1..].
    assert (K2 : mid s r id (on_fs (fun f => fs_set_name f (pool_loc c2 d) None) (on_fs (fun f => fs_set_name f (Loc (TRepo r) comp d) None) u)))
      by (apply mid_rm_delta; [exact K1|exact Hd]).
    unfold remove_file. apply wp_bind_durable; [exact K2|]. unfold db_write. destruct (reserved _); [apply wp_err, K2|]. apply wp_durable; apply mid_del_delta; auto.
Qed.

(** removing the package itself *)
Lemma mid_remove s r id : is_delta_id id = false -> (forall y p, mget (d_pool (st_db s)) y = Some p -> p_name p = y /\ (1 <= p_rc p)%N) ->
  wp (remove_internal false r id) (mid s r id) (fun u _ => mid s r id u) s.
Proof.
  intros Hi Hn.
  assert (K : mid s r id s).
  { constructor; auto; [intros; apply (Hn _ _ H)|]. intros p Gp _. exists p. auto. }
  unfold remove_internal, pool_get. apply wp_bind_gets. destruct (mget (d_pool (st_db s)) id) as [p|] eqn:Gp; [|apply wp_ret, K].
  destruct (Hn _ _ Gp) as [Np Rp]. apply wp_bind, wp_lift. destruct (path_component (m_src (p_meta p))) as [comp| |]; [|exact K..]. rewrite Np.
  set (u1 := on_fs (fun f => fs_set_name f (Loc (TRepo r) comp id) None) s).
  assert (K1 : mid s r id u1).
  { destruct K as [A B C D F G]. constructor; auto. intros l. unfold u1. cbn. unfold nupd. destruct (loc_eqb_spec l (Loc (TRepo r) comp id)) as [->|N]; [|apply G].
    right. right. cbn. auto. }
  unfold remove_file at 1. apply wp_bind_durable; [exact K1|]. fold u1. unfold pool_unref, pool_get_or_err, pool_get.
  apply wp_bind. apply wp_bind_gets. change (st_db u1) with (st_db s). rewrite Gp. apply wp_ret. cbv zeta.
  destruct (N.ltb_spec 0 (rc_dec (p_rc p))) as [Hl|Hl].
  - unfold db_write. destruct (reserved _); [apply wp_err, K1|].
    assert (K2 : mid s r id (on_db (fun q => apply_op q (PutPool (set_rc p (rc_dec (p_rc p))))) u1)).
    { destruct K1 as [A B C D F G]. constructor; cbn -[mget mput]; auto; rewrite ?Np.
      - intros y q. destruct (seqb_spec y id) as [->|N]; [rewrite mget_put_eq; intros X; injection X as <-; exact Np|rewrite mget_put_ne by exact N; apply B].
      - intros y Hy N. rewrite mget_put_ne by congruence. reflexivity.
      - intros q Gq _. rewrite Gp in Gq. injection Gq as <-. rewrite mget_put_eq. eexists. split; [reflexivity|]. reflexivity. }
    apply wp_durable; exact K2.
  - assert (R1 : (p_rc p < 2)%N). { unfold rc_dec in Hl. destruct (N.eqb_spec (p_rc p) 0); lia. }
    apply wp_bind, wp_lift. destruct (path_component (m_src (p_meta p))) as [c2| |]; [|exact K1..].
    set (u2 := on_fs (fun f => fs_set_name f (pool_loc c2 id) None) u1).
    assert (K2 : mid s r id u2).
    { destruct K1 as [A B C D F G]. constructor; auto. intros l. unfold u2. cbn. unfold nupd. destruct (loc_eqb_spec l (pool_loc c2 id)) as [->|N]; [|apply G].
      right. right. cbn. split; [reflexivity|]. right. split; [reflexivity|]. intros q Gq. congruence. }
    unfold remove_file. apply wp_bind_durable; [exact K2|]. fold u2. unfold db_write. destruct (reserved _); [apply wp_err, K2|].
    assert (K3 : mid s r id (on_db (fun q => apply_op q (DelPool id)) u2)).
    { destruct K2 as [A B C D F G]. constructor; cbn -[mget mput mdel]; auto.
      - intros y q. destruct (seqb_spec y id) as [->|N]; [rewrite mget_del_eq; discriminate|rewrite mget_del_ne by exact N; apply B].
      - intros y Hy N. rewrite mget_del_ne by congruence. reflexivity.
      - intros q Gq R2. rewrite Gp in Gq. injection Gq as <-. lia. }
    apply wp_durable; exact K3.
Qed.

Lemma mid_unref s r id e p : is_delta_id id = false -> (forall y p, mget (d_pool (st_db s)) y = Some p -> p_name p = y /\ (1 <= p_rc p)%N) ->
  mget (d_pool (st_db s)) id = Some p -> mget (d_ents (st_db s) r) (m_name (p_meta p)) = Some e -> (forall d, In d (e_deltas e) -> is_delta_id d = true) ->
  endy (mid s r id) (unref_package r id) s.
Proof.
  intros Hi Hn Gp Ge Hd. unfold unref_package, pool_get_or_err, pool_get, ent_get.
  apply (endy_bind _ _ _ (fun u x => u = s /\ x = Ok p)).
  { apply wp_bind_gets. rewrite Gp. apply wp_ret. auto. }
  intros s1 a [-> X]. injection X as ->.
  apply (endy_bind _ _ _ (fun u x => u = s /\ x = Ok (Some e))).
  { apply wp_gets. rewrite Ge. auto. }
  intros s1 a [-> X]. injection X as ->.
  apply (endy_bind _ _ _ (fun u _ => mid s r id u)); [apply mid_remove; assumption|]. intros s1 _ K1.
  apply (endy_bind _ _ _ (fun u _ => mid s r id u)).
  { apply keeps_wp; [|exact K1]. unfold unref_deltas. apply keeps_foldM_in. intros keep d Hin u K. unfold pool_get_or_err, pool_get.
    apply wp_bind. apply wp_bind_gets. destruct (mget (d_pool (st_db u)) d) as [q|] eqn:Gq; [|apply wp_err, K]. apply wp_ret.
    destruct (p_delta q) as [di|]; [|apply wp_panic, K]. rewrite (md_named _ _ _ _ K _ _ Gq).
    destruct (seqb (d_from di) id || seqb (d_to di) id); [|apply wp_ret, K]. apply wp_bind.
    eapply wp_post; [apply mid_remove_delta; auto|]. intros u1 [x| |] Ku; [apply wp_ret, Ku|exact Ku..]. }
  intros s2 ds K2.
  apply (endy_bind _ _ _ (fun u _ => mid s r id u)).
  { apply keeps_wp; [|exact K2]. unfold unref_avail. apply keeps_foldM. intros acc a. destruct (seqb a id); [apply keeps_ret|].
    unfold pool_get_or_err, pool_get. apply keeps_bind; [apply keeps_bind; [apply keeps_gets|intros [q|]; [apply keeps_ret|apply keeps_err]]|].
    intros q. apply keeps_bind; [apply keeps_lift|]. intros rl. destruct acc as [[keep hi] hid]. destruct (Z.ltb hi rl); apply keeps_ret. }
  intros s3 [[keep hi] hid] _. destruct keep; apply endy_write.
Qed.

(** everything listed is served, except perhaps [bad] in [r] *)
Definition hurt (r : string) (bad : option string) (t : state) : Prop :=
  forall x id, available t x id -> served E t x id \/ (x = r /\ bad = Some id).

Lemma cinv_hurt r t : Cinv E cat true t -> hurt r None t.
Proof. intros [I F] x id Av. left. apply (served_fx E cat); auto. Qed.

Lemma mid_hurt s r id u : Inv false true [] s -> available s r id -> mid s r id u -> hurt r (Some id) u.
Proof.
  intros H Ar K x y (n & e & G & Hin). unfold entry_at in G. rewrite (md_ents _ _ _ _ K) in G.
  assert (Av : available s x y) by (exists n, e; auto).
  pose proof (served_fx E cat s x y (proj1 (Inv_Cinv E cat _ _ _ _ H)) (i_fx _ _ _ _ _ _ H eq_refl) Av) as (p & comp & c & Gp & U & F & Hh & Hs).
  assert (Hy : is_delta_id y = false) by (apply (eo_avail _ _ _ (ok_ent _ _ (i_db _ _ _ _ _ _ H) _ _ _ G)), Hin).
  assert (Fk : (y <> id \/ x <> r) -> repo_file u x comp y = Some c).
  { intros N. unfold repo_file, file_content in *. rewrite (md_data _ _ _ _ K). destruct (md_name _ _ _ _ K (Loc (TRepo x) comp y)) as [->|[X|[X Y]]]; [exact F|cbn in X; congruence|].
    cbn in X, Y. subst y. destruct Y as [Y|[Y _]]; [injection Y as ->; destruct N; congruence|discriminate]. }
  destruct (string_dec y id) as [->|N].
  - destruct (string_dec x r) as [->|Nx]; [right; auto|]. left.
    assert (R2 : (2 <= p_rc p)%N).
    { destruct (inv_safe E cat _ _ _ H) as (S1 & _). specialize (S1 id [x; r]).
      assert (L : (2 <= refcount s id)%nat).
      { apply S1; [repeat constructor; cbn; intuition congruence|]. intros z [<-|[<-|[]]]; [exists n, e; auto|]. destruct Ar as (n' & e' & G' & Hin'). exists n', e'. auto. }
      unfold refcount, rc_db in L. unfold pool_at in Gp. rewrite Gp in L. lia. }
    destruct (md_id _ _ _ _ K _ Gp R2) as (q & Gq & Mq). exists q, comp, c. rewrite Mq. split; [exact Gq|]. split; [exact U|]. split; [apply Fk; auto|]. auto.
  - left. exists p, comp, c. split; [unfold pool_at; rewrite (md_pool _ _ _ _ K y Hy N); exact Gp|]. split; [exact U|]. split; [apply Fk; auto|]. auto.
Qed.

Lemma unref_hurt r id e s : Inv false true [] s -> mget (d_ents (st_db s) r) (m_name (cat id)) = Some e -> In id (e_avail e) ->
  wp (unref_package r id) (fun t => exists bad, hurt r bad t /\ (bad = None \/ bad = Some id))
     (fun s' res => res = Ok tt /\ Inv false true [] s' /\ st_db s' = db_unref_pkg cat r id (st_db s) /\ rest true r s s') s.
Proof.
  intros H G Hin. pose proof (wp_unref_package E cat Hcat false true r id e s H G Hin) as [_ Post]. split; [|exact Post].
  destruct Post as (_ & I' & _).
  assert (Av : available s r id) by (exists (m_name (cat id)), e; auto).
  pose proof (i_db _ _ _ _ _ _ H) as D. pose proof (ok_ent _ _ D _ _ _ G) as He.
  destruct (avail_pool E cat false true [] s r _ e id H G Hin) as (p & Gp & Pp & _).
  assert (Mn : m_name (p_meta p) = m_name (cat id)) by (destruct (po_meta _ _ _ Pp) as (h & z & ->); reflexivity).
  assert (En : endy (mid s r id) (unref_package r id) s).
  { apply (mid_unref s r id e p); auto.
    - apply (eo_avail _ _ _ He _ Hin).
    - intros y q Gq. pose proof (ok_pool _ _ D _ _ Gq) as Pq. split; [apply (po_name _ _ _ Pq)|pose proof (po_rc _ _ _ Pq); lia].
    - rewrite Mn. exact G.
    - intros d Hd. apply (eo_deltas _ _ _ He _ Hd). }
  apply Forall_forall. intros t Ht. destruct (En t Ht) as [K| ->].
  - exists (Some id). split; [|auto]. apply (mid_hurt s); assumption.
  - exists None. split; [|auto]. apply cinv_hurt, (Inv_Cinv E cat _ _ _ _ I').
Qed.

Definition hurts (r : string) (P : string -> Prop) (t : state) : Prop := exists bad, hurt r bad t /\ forall id, bad = Some id -> P id.
Lemma cinv_hurts r P t : Cinv E cat true t -> hurts r P t.
Proof. intros C. exists None. split; [apply cinv_hurt, C|discriminate]. Qed.

Lemma unref_loop_hurt r (P : string -> Prop) ids : forall s, (forall id, In id ids -> P id) ->
  Inv false true [] s -> NoDup ids -> (forall id, In id ids -> In id (avail_db (st_db s) r (m_name (cat id)))) ->
  wp (forM ids (unref_package r)) (hurts r P)
     (fun s' res => res = Ok tt /\ Inv false true [] s' /\ st_db s' = db_unref_pkgs cat r ids (st_db s) /\ rest true r s s') s.
Proof.
  induction ids as [|id ids IH]; intros s HP H ND Hi; simpl.
  { apply wp_ret. split; [reflexivity|]. split; [exact H|]. split; [reflexivity|apply rest_refl]. }
  inversion ND as [|? ? Nx ND']; subst.
  pose proof (Hi id (or_introl eq_refl)) as Hid. pose proof Hid as Hid'. unfold avail_db in Hid'.
  destruct (mget (d_ents (st_db s) r) (m_name (cat id))) as [e|] eqn:G; [|destruct Hid'].
  apply wp_bind. eapply wp_mono; [apply (unref_hurt r id e s H G Hid')| |].
  { intros t (bad & B1 & [->| ->]); eexists; (split; [exact B1|]); [discriminate|]. intros x X. injection X as <-. apply HP. left. reflexivity. }
  intros s1 res (-> & H1 & D1 & R1).
  eapply wp_post.
  - apply IH; [intros x Hx; apply HP; right; exact Hx|exact H1|exact ND'|]. intros x Hx. rewrite D1. apply unref_pkg_avail; [apply (i_db _ _ _ _ _ _ H)|exact Hid|].
    split; [apply Hi; right; exact Hx|congruence].
  - intros s2 res (-> & H2 & D2 & R2). split; [reflexivity|]. split; [exact H2|].
    split; [rewrite D2, D1; reflexivity|eapply rest_trans; eauto].
Qed.

(** what the request removes *)
Definition goes (r : string) (fails : Prop) (ids : list string) (s : state) (id : string) : Prop :=
  mhas (d_repos (st_db s)) r = true /\ ~ fails /\ In id ids.
Lemma remove_ids_hurt o r (fails : Prop) ids s s1 :
  good_oracle o -> Inv false true [] s1 -> quiet_dir r s s1 -> mhas (d_repos (st_db s)) r = true -> ~ fails ->
  NoDup ids -> (forall id, In id ids -> In id (avail_ids (st_db s) r)) ->
  wp (forM ids (unref_package r) ;;; api_index E o r) (hurts r (goes r fails ids s)) (fun _ _ => True) s1.
Proof.
  intros Ho I1 Q1 Hr Nf ND Hin. pose proof (qd_db _ _ _ Q1) as Ed.
  apply wp_bind. eapply wp_post.
  { apply (unref_loop_hurt r _ ids s1); [intros id Hid; split; [exact Hr|auto]|exact I1|exact ND|]. intros id Hid. apply (avail_ids_in cat); [apply (i_db _ _ _ _ _ _ I1)|].
    rewrite Ed. apply Hin, Hid. }
  intros s2 res (-> & I2 & D2 & R2). eapply wp_mono; [apply (wp_api_index E cat Hcat HE false true o r s2 I2 Ho)|apply cinv_hurts|auto].
Qed.

Lemma remove_source_hurt o r source rl s : Inv false true [] s -> good_oracle o ->
  wp (api_remove_source E o r source rl) (hurts r (goes r (src_ids cat (st_db s) r source rl = []) (src_ids cat (st_db s) r source rl) s)) (fun _ _ => True) s.
Proof.
  intros H Ho. unfold api_remove_source. apply (wp_with_repo E cat false true); [exact H|apply cinv_hurts|auto|].
  intros s1 I1 Q1 Hr. pose proof (qd_db _ _ _ Q1) as Ed. unfold remove_source. apply wp_bind_assoc.
  eapply wp_bind_read; [apply (match_source_eq E cat Hcat false true s1 r source rl I1)|]. rewrite Ed.
  destruct (src_ids cat (st_db s) r source rl) as [|x l] eqn:Es.
  - apply wp_bind, wp_err. exact Logic.I.
  - apply remove_ids_hurt; auto; [discriminate| |].
    + rewrite <- Es. apply NoDup_filter, (avail_ids_nodup cat), (i_db _ _ _ _ _ _ H).
    + rewrite <- Es. apply src_ids_in.
Qed.
Lemma trim_packages_hurt o r k s : Inv false true [] s -> good_oracle o ->
  wp (api_trim_packages E o r k) (hurts r (goes r (k < 1)%Z (trim_ids cat o (st_db s) r k) s)) (fun _ _ => True) s.
Proof.
  intros H Ho. unfold api_trim_packages. apply (wp_with_repo E cat false true); [exact H|apply cinv_hurts|auto|].
  intros s1 I1 Q1 Hr. pose proof (qd_db _ _ _ Q1) as Ed. unfold trim_packages.
  destruct (Z.ltb_spec k 1) as [Hk|Hk].
  - apply wp_bind, wp_err. exact Logic.I.
  - unfold ent_list. apply wp_bind_assoc, wp_bind_gets. apply wp_bind_assoc.
    eapply wp_bind_read; [apply (trim_collect_eq E cat Hcat false true s1 r o k I1)|]. rewrite Ed.
    apply remove_ids_hurt; auto; [lia| |].
    + apply (trim_ids_nodup E cat false true); auto.
    + intros id. apply (trim_ids_in E cat false true); auto.
Qed.
Lemma trim_obsolete_hurt o r s : Inv false true [] s -> good_oracle o ->
  wp (api_trim_obsolete E o r) (hurts r (goes r (obs_dist E s r = None) (obs_ids (obs_dist E s r) (st_db s) r) s)) (fun _ _ => True) s.
Proof.
  intros H Ho. unfold api_trim_obsolete. apply (wp_with_repo E cat false true); [exact H|apply cinv_hurts|auto|].
  intros s1 I1 Q1 Hr. pose proof (qd_db _ _ _ Q1) as Ed. unfold trim_obsolete. apply wp_bind_assoc.
  assert (Edist : dist_of E s1 r = dist_of E s r) by (unfold dist_of; rewrite (qd_asset _ _ _ Q1); reflexivity).
  destruct (dist_of E s r) as [dist| |] eqn:Ds.
  3:{ unfold dist_of in Ds. destruct (f_asset _ _ _); [destruct (E_dist E s0)|]; discriminate. }
  2:{ apply wp_bind. unfold wp. rewrite init_dist_eq, Edist. split; [constructor|exact Logic.I]. }
  eapply wp_bind_read; [rewrite init_dist_eq, Edist; reflexivity|].
  assert (Eo : obs_dist E s r = dist) by (unfold obs_dist; rewrite Ds; reflexivity).
  destruct dist as [l|]; [|apply wp_bind, wp_err; exact Logic.I].
  unfold ent_list. apply wp_bind_assoc, wp_bind_gets. apply wp_bind_assoc.
  eapply wp_bind_read; [apply (trim_obs_eq E cat false true s1 r (Some l) I1)|]. rewrite Ed, Eo.
  apply remove_ids_hurt; auto; [discriminate| |].
  - apply (obs_ids_nodup cat), (i_db _ _ _ _ _ _ H).
  - intros id. apply (obs_ids_in cat), (i_db _ _ _ _ _ _ H).
Qed.

Lemma goes_gone ex fz o r (fails : Prop) ids s s' res : Inv ex fz [] s -> NoDup ids -> (forall id, In id ids -> In id (avail_ids (st_db s) r)) ->
  then_indexed E cat ex fz o r (removed cat r fails ids s) s' res ->
  forall id, goes r fails ids s id -> available s r id /\ ~ available s' r id.
Proof.
  intros H ND Hin W id (Hr & Nf & Hid). apply then_indexed_db in W.
  destruct W as [(-> & (Ed & Sf & [X|X]) & R1 & R2)|(s1 & I1 & ((C1 & C2 & C3) & _) & _ & Ed)]; [congruence|contradiction|].
  assert (Av : forall y, In y ids -> available s r y).
  { intros y Hy. apply Hin in Hy. apply (avail_ids_in cat) in Hy; [|apply (i_db _ _ _ _ _ _ H)]. unfold avail_db in Hy.
    destruct (mget (d_ents (st_db s) r) (m_name (cat y))) as [e|] eqn:G; [|destruct Hy]. exists (m_name (cat y)), e. auto. }
  destruct (removed_facts E cat Hcat ex fz s s' r ids (fun y => In y ids) H ND) as (A & _); [intros y; split; [auto|tauto]|congruence|].
  split; [apply Av, Hid|]. rewrite A. tauto.
Qed.
Lemma trace_unit (m : M unit) o p s : run_op E o p = (m ;;; ret []) -> crash_points E o p s = trace_of (m s).
Proof.
  intros Er. unfold crash_points. rewrite Er. unfold bind, trace_of. destruct (m s) as [[t s1] [[]| |]]; cbn; auto. apply app_nil_r.
Qed.
Lemma removal_crash o p r s : Inv false true [] s -> good_oracle o -> removes_packages p = true -> target p = Some r ->
  forall t, In t (crash_points E o p s) ->
  exists bad, hurt r bad t /\ forall id, bad = Some id -> available s r id /\ ~ available (after E o p s) r id.
Proof.
  intros H Ho Rm Tg t Ht.
  assert (G : forall (m : M unit) fails ids, run_op E o p = (m ;;; ret []) -> NoDup ids -> (forall id, In id ids -> In id (avail_ids (st_db s) r)) ->
     wp m (hurts r (goes r fails ids s)) (fun _ _ => True) s ->
     (exists C, wp m C (then_indexed E cat false true o r (removed cat r fails ids s)) s) ->
     exists bad, hurt r bad t /\ forall id, bad = Some id -> available s r id /\ ~ available (after E o p s) r id).
  { intros m fails ids Er ND Hin [T _] (C & W). rewrite (trace_unit m o p s Er) in Ht. rewrite Forall_forall in T.
    destruct (T t Ht) as (bad & B1 & B2). exists bad. split; [exact B1|]. intros id X.
    destruct (run_unit E m C _ s o p Er W) as (res & X' & _). exact (goes_gone false true o r fails ids s _ res H ND Hin X' id (B2 id X)). }
  pose proof (i_db _ _ _ _ _ _ H) as D.
  destruct p; try discriminate; cbn in Tg; injection Tg as ->.
  - eapply (G (api_remove_source E o r source rel)); [reflexivity| | |apply remove_source_hurt; assumption|eexists; apply (wp_api_remove_source E cat Hcat); assumption].
    + apply NoDup_filter, (avail_ids_nodup cat), D.
    + intros id. apply src_ids_in.
  - eapply (G (api_trim_obsolete E o r)); [reflexivity| | |apply trim_obsolete_hurt; assumption|eexists; apply (wp_api_trim_obsolete E cat Hcat); assumption].
    + apply (obs_ids_nodup cat), D.
    + intros id. apply (obs_ids_in cat), D.
  - eapply (G (api_trim_packages E o r k)); [reflexivity| | |apply trim_packages_hurt; assumption|eexists; apply (wp_api_trim_packages E cat Hcat); assumption].
    + apply (trim_ids_nodup E cat false true); auto.
    + intros id. apply (trim_ids_in E cat false true); auto.
Qed.
End Crash.
