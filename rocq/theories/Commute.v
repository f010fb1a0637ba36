(** * Commute: two runs of a request from states that agree about its repositories
    (proof artifact) *)
From Verif Require Import Model Spec DbInv DbOps Wp FsInv Ops UnrefOps RepoOps DeleteOps Pure Loops Emit IndexOps ApiOps History PoolFacts OpFacts OpFacts2 IndexFacts Frame OpFacts3 Import Same.
Open Scope string_scope. Open Scope list_scope.

(** ** indexing *)
Section Index.
Variable E : env.
Variable cat : string -> meta.
Hypothesis Hcat : good_catalog cat.
Hypothesis HE : good_env E.
Notation Inv := (Inv E cat).
Variable r : string.
Variables s0 t0 : state.
Variables ex fz ex' fz' : bool.
Hypothesis Hs : Inv ex fz [] s0.
Hypothesis Ht : Inv ex' fz' [] t0.
Hypothesis Has : forall a, f_asset (st_fs s0) r a = f_asset (st_fs t0) r a.
(* how the contents of file [k] correspond *)
Variable K : string -> string -> string -> Prop.
Hypothesis K_empty : forall k, K k "" "".
Hypothesis K_input : forall k a b, In k [f_index; t_xz; t_zst] -> K k a b -> (a = "" <-> b = "").
Hypothesis K_sha1 : forall k k' a b, In k [f_index; t_xz; t_zst] -> K k a b -> ~ In k' [f_index; t_xz; t_zst] -> K k' (E_sha1 E a) (E_sha1 E b).
Hypothesis K_sha256 : forall k k' a b, In k [f_index; t_xz; t_zst] -> K k a b -> ~ In k' [f_index; t_xz; t_zst] -> K k' (E_sha256 E a) (E_sha256 E b).
Hypothesis K_xz : forall a b, K f_index a b -> K t_xz (E_xz E a) (E_xz E b).
Hypothesis K_zst : forall a b, K f_index a b -> K t_zst (E_zst E a) (E_zst E b).
Hypothesis K_move : forall k v a b, In (k, v) index_pairs -> K k a b -> K v a b.
Hypothesis K_doc : forall dist, K f_index (E_render E (index_doc E cat s0 r dist)) (E_render E (index_doc E cat t0 r dist)).

Definition opt_rel (R : string -> string -> Prop) (a b : option string) : Prop :=
  match a, b with Some x, Some y => R x y | None, None => True | _, _ => False end.
Definition RI (s t : state) : Prop :=
  quiet_root r s0 s /\ quiet_root r t0 t /\ forall k, opt_rel (K k) (f_root (st_fs s) r k) (f_root (st_fs t) r k).
Definition simI {A} (m m' : M A) : Prop := forall s t, RI s t ->
  RI (final_of (m s)) (final_of (m' t)) /\ result_of (m s) = result_of (m' t).

Lemma si_ret {A} (a : A) : simI (ret a) (ret a).
Proof. intros s t H. split; [exact H|reflexivity]. Qed.
Lemma si_err {A} : simI (@err A) (@err A).
Proof. intros s t H. split; [exact H|reflexivity]. Qed.
Lemma si_lift {A} (a : res A) : simI (lift a) (lift a).
Proof. intros s t H. split; [exact H|reflexivity]. Qed.
Lemma si_bind {A B} (m m' : M A) (k k' : A -> M B) : simI m m' -> (forall a, simI (k a) (k' a)) -> simI (bind m k) (bind m' k').
Proof.
  intros Hm Hk s t H. specialize (Hm s t H). unfold bind, final_of, result_of in *.
  destruct (m s) as [[t1 u1] r1], (m' t) as [[t2 u2] r2]. cbn in Hm. destruct Hm as (HR & <-).
  destruct r1 as [a| |]; cbn; auto.
  specialize (Hk a u1 u2 HR). destruct (k a u1) as [[t1' u1'] r1'], (k' a u2) as [[t2' u2'] r2']. cbn in *. exact Hk.
Qed.
Lemma si_on_err {A} (m m' : M A) h h' : simI m m' -> simI h h' -> simI (on_err m h) (on_err m' h').
Proof.
  intros Hm Hk s t H. specialize (Hm s t H). unfold on_err, final_of, result_of in *.
  destruct (m s) as [[t1 u1] r1], (m' t) as [[t2 u2] r2]. cbn in Hm. destruct Hm as (HR & <-).
  destruct r1 as [a| |]; cbn; auto.
  specialize (Hk u1 u2 HR). destruct (h u1) as [[t1' u1'] r1'], (h' u2) as [[t2' u2'] r2']. cbn in *. split; [apply Hk|reflexivity].
Qed.
Lemma si_forM {X} (f f' : X -> M unit) l : (forall x, In x l -> simI (f x) (f' x)) -> simI (forM l f) (forM l f').
Proof. induction l; intros H; simpl; [apply si_ret|]. apply si_bind; [apply H; left; reflexivity|intros _; apply IHl; intros; apply H; right; assumption]. Qed.

Lemma root_quiet u s k v : quiet_root r u s -> quiet_root r u (set_root_st r k v s).
Proof.
  apply quiet_root_set.
Qed.
Lemma RI_set s t k a b : RI s t -> opt_rel (K k) a b -> RI (set_root_st r k a s) (set_root_st r k b t).
Proof.
  intros (A & B & C) H. split; [apply root_quiet, A|]. split; [apply root_quiet, B|]. intros f. rewrite !set_root_get.
  destruct (seqb_spec f k) as [->|N]; [exact H|apply C].
Qed.
Lemma si_set k a b : opt_rel (K k) a b -> simI (root_set r k a) (root_set r k b).
Proof. intros H s t R. split; [apply (RI_set s t k a b R H)|reflexivity]. Qed.
Lemma si_write o k a b : K k a b -> simI (root_write o r k a) (root_write o r k b).
Proof.
  intros H. unfold root_write. apply si_bind; [apply si_set; apply K_empty|intros _]. destruct (o_fail o k); [apply si_err|apply si_set, H].
Qed.
Lemma si_sum o h inp out : In inp [f_index; t_xz; t_zst] -> ~ In out [f_index; t_xz; t_zst] ->
  (forall a b, K inp a b -> K out (h a) (h b)) -> simI (write_sum o h r inp out) (write_sum o h r inp out).
Proof.
  intros Hi Ho Hh s t R. pose proof R as (_ & _ & C). specialize (C inp). unfold write_sum, root_get.
  rewrite !bind_gets. destruct (f_root (st_fs s) r inp) as [a|], (f_root (st_fs t) r inp) as [b|]; cbn in C; try contradiction; [|apply si_err, R].
  destruct (K_input _ _ _ Hi C) as [X Y]. destruct a as [|a0 a], b as [|b0 b].
  - apply si_err, R.
  - specialize (X eq_refl). discriminate.
  - specialize (Y eq_refl). discriminate.
  - apply si_write; [apply Hh, C|exact R].
Qed.
Lemma si_compress o z inp out : (forall a b, K inp a b -> K out (z a) (z b)) -> simI (compress o z r inp out) (compress o z r inp out).
Proof.
  intros Hz s t R. pose proof R as (_ & _ & C). pose proof (C inp) as C1. pose proof (C out) as C2. unfold compress, root_get.
  rewrite !bind_gets.
  destruct (f_root (st_fs s) r inp) as [a|], (f_root (st_fs t) r inp) as [b|]; cbn in C1; try contradiction; [|apply si_err, R].
  destruct (f_root (st_fs s) r out) as [a'|], (f_root (st_fs t) r out) as [b'|]; cbn in C2; try contradiction; [apply si_err, R|].
  apply si_write; [apply Hz, C1|exact R].
Qed.
Lemma si_remove_all l : simI (remove_all r l) (remove_all r l).
Proof. apply si_forM. intros k _. apply si_set. exact Logic.I. Qed.
Lemma si_rename o k v : In (k, v) index_pairs -> simI (rename o r k v) (rename o r k v).
Proof.
  intros Hp s t R. pose proof R as (A & B & C). pose proof (C k) as Ck. unfold rename, root_get. rewrite !bind_gets.
  destruct (f_root (st_fs s) r k) as [a|] eqn:Fa, (f_root (st_fs t) r k) as [b|] eqn:Fb; cbn in Ck; try contradiction; [|apply si_err, R].
  destruct (o_rfail o k); [apply si_err, R|]. split; [|reflexivity].
  split; [apply (rename_quiet r s0 s k v A)|]. split; [apply (rename_quiet r t0 t k v B)|].
  intros f. change (final_of _) with (rename_st r k v s) at 1.
  change (f_root (st_fs (final_of (durable (on_fs (fun f0 => fs_set_root (fs_set_root f0 r v (f_root f0 r k)) r k None)) t))) r f)
    with (f_root (st_fs (rename_st r k v t)) r f).
  change (f_root (st_fs (final_of (durable (on_fs (fun f0 => fs_set_root (fs_set_root f0 r v (f_root f0 r k)) r k None)) s))) r f)
    with (f_root (st_fs (rename_st r k v s)) r f).
  rewrite !rename_get. destruct (seqb f k); [exact Logic.I|]. destruct (seqb_spec f v) as [->|Nv]; [|apply C].
  rewrite Fa, Fb. apply (K_move k v a b Hp Ck).
Qed.

Lemma assets_same : assets_ok E s0 r = assets_ok E t0 r.
Proof. unfold assets_ok, asset_ok. rewrite !Has. reflexivity. Qed.
Lemma si_first o dist : let m := (root_set r f_index (Some EmptyString) ;;; d <- emit_index E r dist ;;
       if o_fail o f_index then err else root_set r f_index (Some (E_render E d))) in simI m m.
Proof.
  intros m. unfold m. apply si_bind; [apply si_set, K_empty|intros _]. intros s t R. pose proof R as (A & B & _).
  assert (Is : Inv ex fz [] s) by (eapply Inv_quiet; eauto). assert (It : Inv ex' fz' [] t) by (eapply Inv_quiet; eauto).
  destruct (quiet_doc E cat r s0 s dist A) as [D1 A1]. destruct (quiet_doc E cat r t0 t dist B) as [D2 A2].
  pose proof (emit_index_eq E cat Hcat HE ex fz s r dist Is) as X. pose proof (emit_index_eq E cat Hcat HE ex' fz' t r dist It) as Y.
  rewrite A1, D1 in X. rewrite A2, D2, <- assets_same in Y.
  destruct (assets_ok E s0 r).
  - rewrite (bind_ok _ _ _ _ _ X), (bind_ok _ _ _ _ _ Y). destruct (o_fail o f_index); [apply si_err, R|]. apply si_set; [apply K_doc|exact R].
  - unfold bind at 1 2 3 4. rewrite X, Y. apply si_err, R.
Qed.
Lemma si_stages st : (forall k v m, In (k, v, m) st -> simI m m) -> forall done, simI (run_stages r done st) (run_stages r done st).
Proof.
  induction st as [|[[k v] m] st IH]; intros H done; simpl; [apply si_ret|].
  apply si_bind; [|intros _; apply IH; intros; eapply H; right; eassumption].
  apply si_on_err; [eapply H; left; reflexivity|apply si_remove_all].
Qed.
Lemma stages_done st : forall done s, result_of (run_stages r done st s) <> Panic -> forall mp, result_of (run_stages r done st s) = Ok mp -> mp = done ++ map fst st.
Proof.
  induction st as [|[[k v] m] st IH]; intros done s Np mp H; cbn in *; [injection H as <-; rewrite app_nil_r; reflexivity|].
  unfold bind in *. destruct (on_err m _ s) as [[t1 u1] [a| |]]; cbn in *; try discriminate.
  destruct (run_stages r (done ++ [(k, v)]) st u1) as [[t2 u2] r2] eqn:X. cbn in *. subst r2.
  specialize (IH (done ++ [(k, v)]) u1). rewrite X in IH. cbn in IH. rewrite (IH ltac:(discriminate) mp eq_refl), <- app_assoc. reflexivity.
Qed.

Lemma si_bind_dep {A B} (m m' : M A) (k k' : A -> M B) : simI m m' ->
  (forall a, (exists s, result_of (m s) = Ok a) -> simI (k a) (k' a)) -> simI (bind m k) (bind m' k').
Proof.
  intros Hm Hk s t H. specialize (Hm s t H). unfold bind, final_of, result_of in *.
  destruct (m s) as [[t1 u1] r1] eqn:Em, (m' t) as [[t2 u2] r2]. cbn in Hm. destruct Hm as (HR & <-).
  destruct r1 as [a| |]; cbn; auto.
  assert (Ha : exists s, snd (m s) = Ok a) by (exists s; rewrite Em; reflexivity).
  specialize (Hk a Ha u1 u2 HR). destruct (k a u1) as [[t1' u1'] r1'], (k' a u2) as [[t2' u2'] r2']. cbn in *. exact Hk.
Qed.
Lemma index_sim o : good_oracle o -> simI (index E o r) (index E o r).
Proof.
  intros Ho. unfold index. apply si_bind.
  { intros s t R. pose proof R as (A & B & _).
    assert (Dist : dist_of E s r = dist_of E t r).
    { unfold dist_of. rewrite (qr_asset _ _ _ A), (qr_asset _ _ _ B), Has. reflexivity. }
    rewrite !init_dist_eq, Dist. split; [exact R|reflexivity]. }
  intros dist. apply si_bind_dep.
  { apply si_stages. intros k v m Hin. unfold index_stages in Hin.
    assert (N : forall k', In k' ["eopkg-index.xml.sha1sum.new"; "eopkg-index.xml.sha256sum.new"; "eopkg-index.xml.xz.sha1sum.new"; "eopkg-index.xml.xz.sha256sum.new"; "eopkg-index.xml.zst.sha1sum.new"; "eopkg-index.xml.zst.sha256sum.new"]
      -> ~ In k' [f_index; t_xz; t_zst]).
    { intros k' Hk'. cbn in Hk'. intros Y. cbn in Y. repeat (destruct Hk' as [<-|Hk']; [repeat (destruct Y as [Y|Y]; [discriminate|]); destruct Y|]). destruct Hk'. }
    cbn [In] in Hin. repeat (destruct Hin as [Hin|Hin]; [injection Hin as <- <- <-|]); [..|destruct Hin].
    - apply si_first.
    - apply si_sum; [left; reflexivity|apply N; cbn; tauto|intros a b X; eapply K_sha1; [left; reflexivity|exact X|apply N; cbn; tauto]].
    - apply si_sum; [left; reflexivity|apply N; cbn; tauto|intros a b X; eapply K_sha256; [left; reflexivity|exact X|apply N; cbn; tauto]].
    - apply si_compress, K_xz.
    - apply (si_sum o (E_sha1 E) t_xz); [right; left; reflexivity|apply N; cbn; tauto|intros a b X; eapply K_sha1; [right; left; reflexivity|exact X|apply N; cbn; tauto]].
    - apply (si_sum o (E_sha256 E) t_xz); [right; left; reflexivity|apply N; cbn; tauto|intros a b X; eapply K_sha256; [right; left; reflexivity|exact X|apply N; cbn; tauto]].
    - apply si_compress, K_zst.
    - apply (si_sum o (E_sha1 E) t_zst); [right; right; left; reflexivity|apply N; cbn; tauto|intros a b X; eapply K_sha1; [right; right; left; reflexivity|exact X|apply N; cbn; tauto]].
    - apply (si_sum o (E_sha256 E) t_zst); [right; right; left; reflexivity|apply N; cbn; tauto|intros a b X; eapply K_sha256; [right; right; left; reflexivity|exact X|apply N; cbn; tauto]]. }
  intros mp (s & Hm). pose proof (stages_done (index_stages E o r dist) [] s) as Sd. rewrite Hm in Sd.
  specialize (Sd ltac:(discriminate) mp eq_refl). rewrite pairs_stages in Sd. cbn [app] in Sd. subst mp.
  apply si_on_err; [|apply si_remove_all]. apply si_bind; [|intros _; apply si_lift].
  apply si_forM. intros [k v] Hin. apply si_rename. eapply Permutation_in; [apply (go_order _ Ho)|exact Hin].
Qed.
End Index.

(** ** what a request looks at *)
(** the repository a request copies from *)
Definition source_repo (p : op) : option string :=
  match p with OpClone src _ _ | OpPull src _ | OpCopySource src _ _ _ _ => Some src | _ => None end.
(** the package files a request sends *)
Definition sent (p : op) : list loc := match p with OpAdd _ pkgs _ => pkgs | _ => [] end.

(** ** whole requests *)
Section Two.
Variable E : env.
Variable cat : string -> meta.
Hypothesis Hcat : good_catalog cat.
Hypothesis HE : good_env E.
Notation Inv := (Inv E cat).
Notation ok := (Inv true true []).

(** what two states must agree about for requests on [x] to behave alike *)
Record agree (x : string) (s t : state) : Prop := {
  ag_repo : mhas (d_repos (st_db s)) x = mhas (d_repos (st_db t)) x;
  ag_ents : d_ents (st_db s) x = d_ents (st_db t) x;
  ag_root : forall k, f_root (st_fs s) x k = f_root (st_fs t) x k;
  ag_asset : forall a, f_asset (st_fs s) x a = f_asset (st_fs t) x a;
  ag_item : forall id, listed s x id -> item s id = item t id
}.
Lemma agree_listed x s t id : agree x s t -> listed s x id -> listed t x id.
Proof. intros A (n & e & G & L). exists n, e. unfold entry_at in *. rewrite <- (ag_ents _ _ _ A). auto. Qed.
Lemma agree_sym x s t : agree x s t -> agree x t s.
Proof.
  intros A. pose proof A as [A1 A2 A3 A4 A5]. constructor; auto. intros id (n & e & G & L). symmetry. apply A5. exists n, e. unfold entry_at in *. rewrite A2. auto.
Qed.

Lemma doc_same s t r dist : ok s -> agree r s t -> index_doc E cat s r dist = index_doc E cat t r dist.
Proof.
  intros H A. unfold index_doc, asset_val. rewrite !(ag_asset _ _ _ A). f_equal. unfold index_pkgs.
  assert (X0 : index_ids (st_db t) r dist = index_ids (st_db s) r dist) by (unfold index_ids; rewrite (ag_ents _ _ _ A); reflexivity).
  rewrite X0. apply map_ext_in. intros id Hid. unfold index_ids in Hid. apply (proj1 (sort_strings_In _ _)) in Hid.
  apply in_map_iff in Hid. destruct Hid as ([n e] & Ei & Hf). apply filter_In in Hf. destruct Hf as [Hm _]. apply in_mlist in Hm. cbn [snd] in Ei.
  assert (Pm : pm cat (st_db s) id = pm cat (st_db t) id).
  { assert (Lid : listed s r id) by (apply (pub_listed E cat true true s r H n e id Hm Ei)).
    pose proof (ag_item _ _ _ A id Lid) as Po. unfold item, pool_at in Po. unfold pm.
    destruct (mget (d_pool (st_db s)) id), (mget (d_pool (st_db t)) id); congruence. }
  unfold emitted. rewrite <- (ag_ents _ _ _ A), Pm. destruct (mget (d_ents (st_db s) r) (m_name (cat id))) as [e2|] eqn:G2; [|reflexivity]. f_equal.
  unfold delta_recs. rewrite (i_nod _ _ _ _ _ _ H eq_refl _ _ _ G2). reflexivity.
Qed.

(** *** indexing *)
Lemma quiet_dir_agree x r s s' : quiet_dir r s s' -> agree x s s'.
Proof.
  intros [A1 A2 A3 A4 A5 A6 A7]. constructor; try (rewrite A1; reflexivity); try (intros; rewrite ?A3, ?A4; reflexivity).
  intros id _. unfold item, pool_at. rewrite A1. reflexivity.
Qed.
Lemma agree_trans x s t u : agree x s t -> agree x t u -> agree x s u.
Proof.
  intros A B. constructor.
  - rewrite (ag_repo _ _ _ A). apply (ag_repo _ _ _ B).
  - rewrite (ag_ents _ _ _ A). apply (ag_ents _ _ _ B).
  - intros k. rewrite (ag_root _ _ _ A). apply (ag_root _ _ _ B).
  - intros k. rewrite (ag_asset _ _ _ A). apply (ag_asset _ _ _ B).
  - intros id L. rewrite (ag_item _ _ _ A id L). apply (ag_item _ _ _ B). eapply agree_listed; eauto.
Qed.

Lemma indexed_same o r s t s' t' res res' : good_oracle o -> ok s -> ok t -> agree r s t ->
  indexed E cat o r s s' res -> indexed E cat o r t t' res' -> res = res' /\ agree r s' t'.
Proof.
  intros Ho Hs Ht A Xs Xt. inversion Xs as [N1 D1|s1 re H1 Q1 R1 D1]; inversion Xt as [N2 D2|t1 re2 H2 Q2 R2 D2]; subst.
  - auto.
  - rewrite (ag_repo _ _ _ A) in N1. congruence.
  - rewrite (ag_repo _ _ _ A) in H1. congruence.
  - assert (A1 : agree r s1 t1).
    { eapply agree_trans; [apply agree_sym, (quiet_dir_agree r r s s1 Q1)|]. eapply agree_trans; [exact A|apply (quiet_dir_agree r r t t1 Q2)]. }
    assert (Is : ok s1) by (apply (Inv_dir E cat true true [] r s s1 Hs Q1); intros; exact H1). assert (It : ok t1) by (apply (Inv_dir E cat true true [] r t t1 Ht Q2); intros; exact H2).
    destruct R1 as [Qs _ _ _ _ [Es Rs]]. destruct R2 as [Qt _ _ _ _ [Et Rt]].
    pose proof (index_sim E cat Hcat HE r s1 t1 true true true true Is It (ag_asset _ _ _ A1) (fun _ a b => a = b)) as Sim.
    specialize (Sim ltac:(reflexivity) ltac:(cbv beta; intros; subst; tauto) ltac:(cbv beta; intros; subst; reflexivity) ltac:(cbv beta; intros; subst; reflexivity)
      ltac:(cbv beta; intros; subst; reflexivity) ltac:(cbv beta; intros; subst; reflexivity) ltac:(cbv beta; intros; assumption)
      ltac:(cbv beta; intros; f_equal; apply doc_same; assumption) o Ho s1 t1).
    destruct Sim as [(_ & _ & Rk) Eq].
    { split; [constructor; auto using same_files_refl|]. split; [constructor; auto using same_files_refl|].
      intros k. rewrite (ag_root _ _ _ A1). destruct (f_root (st_fs t1) r k); cbn; auto. }
    rewrite <- Es, <- Et in Rk. split; [congruence|]. clear Es Rs Et Rt Eq. constructor.
    + rewrite (qr_db _ _ _ Qs), (qr_db _ _ _ Qt). apply (ag_repo _ _ _ A1).
    + rewrite (qr_db _ _ _ Qs), (qr_db _ _ _ Qt). apply (ag_ents _ _ _ A1).
    + intros k. specialize (Rk k). unfold opt_rel in Rk. destruct (f_root (st_fs s') r k), (f_root (st_fs t') r k); [subst|..]; try contradiction; reflexivity.
    + intros a. rewrite (qr_asset _ _ _ Qs), (qr_asset _ _ _ Qt). apply (ag_asset _ _ _ A1).
    + intros id L. unfold item, pool_at, listed, entry_at in *. rewrite (qr_db _ _ _ Qs) in *. rewrite (qr_db _ _ _ Qt). apply (ag_item _ _ _ A1 id). exact L.
Qed.

(** *** the database functions look at the repository's own entries *)
Lemma sane_local d d' r id : d_ents d r = d_ents d' r -> sane cat d r id = sane cat d' r id.
Proof. intros X. unfold sane. rewrite X. reflexivity. Qed.
Lemma put_local d d' d1 d1' r id : d_ents d r = d_ents d' r -> d_ents d1 = d_ents d -> d_ents d1' = d_ents d' ->
  d_ents (db_put cat r id d1 d) r = d_ents (db_put cat r id d1' d') r.
Proof.
  intros X Y Z. apply mext. intros n. rewrite !put_ents by assumption. rewrite (sane_local d d' r id X), X. reflexivity.
Qed.
Lemma refs_local r ids : forall d d', d_ents d r = d_ents d' r -> d_ents (db_refs cat r ids d) r = d_ents (db_refs cat r ids d') r.
Proof.
  induction ids as [|id ids IH]; intros d d' X; simpl; [exact X|]. apply IH. rewrite !db_ref_put. apply put_local; [exact X|apply bump_ents|apply bump_ents].
Qed.
Lemma unref_local r id d d' : (forall n e, mget (d_ents d r) n = Some e -> e_deltas e = []) -> d_ents d r = d_ents d' r ->
  d_ents (db_unref_pkg cat r id d) r = d_ents (db_unref_pkg cat r id d') r /\
  (forall n e, mget (d_ents (db_unref_pkg cat r id d) r) n = Some e -> e_deltas e = []).
Proof.
  intros N X. unfold db_unref_pkg. rewrite <- X. destruct (mget (d_ents d r) (m_name (cat id))) as [e|] eqn:G; [|auto].
  pose proof (N _ _ G) as De. unfold shrunk. rewrite De. cbn [filter]. unfold unrefs. cbn [fold_left].
  destruct (without id (e_avail e)) as [|y ys]; simpl; rewrite !unref_ents, !fupd_eq, <- X; (split; [reflexivity|]).
  - intros n e1. rewrite mget_del. destruct (seqb n (e_name e)); [discriminate|apply N].
  - intros n e1. rewrite mget_put. destruct (seqb n (e_name e)); [intros Y; injection Y as <-; reflexivity|apply N].
Qed.
Lemma unrefs_local r ids : forall d d', (forall n e, mget (d_ents d r) n = Some e -> e_deltas e = []) -> d_ents d r = d_ents d' r ->
  d_ents (db_unref_pkgs cat r ids d) r = d_ents (db_unref_pkgs cat r ids d') r.
Proof.
  induction ids as [|id ids IH]; intros d d' N X; simpl; [exact X|]. destruct (unref_local r id d d' N X) as [Y Z]. apply IH; assumption.
Qed.

(** *** the items stay what they were *)
Lemma item_after o p s id : ok s -> pool_at s id <> None -> pool_at (after E o p s) id <> None -> item (after E o p s) id = item s id.
Proof.
  intros H A B. unfold item. destruct (pool_at s id) as [a|] eqn:Ga; [|congruence]. destruct (pool_at (after E o p s) id) as [b|] eqn:Gb; [|congruence].
  destruct (item_instants E o p s (after E o p s) id a b (inv_named E cat _ _ _ _ H) (i_batch _ _ _ _ _ _ H) (or_intror eq_refl) Ga Gb) as [X Y].
  rewrite X, Y. reflexivity.
Qed.
Lemma listed_pooled s r id : ok s -> listed s r id -> pool_at s id <> None.
Proof.
  intros H (n & e & G & Hl).
  assert (Hl' : lst e id = true) by (unfold lst; apply orb_true_iff; rewrite !sin_In; exact Hl).
  destruct (listed_in_pool cat true (st_db s) r n e id (i_db _ _ _ _ _ _ H) (i_refs _ _ _ _ _ _ H) G Hl') as (q & Gq). unfold pool_at. congruence.
Qed.

Lemma fin o b R R' s' t' res res' : good_oracle o -> then_indexed E cat true true o b R s' res -> then_indexed E cat true true o b R' t' res' ->
  (forall u v, ok v -> R u Err -> R' v (Ok tt) -> False) -> (forall u v, ok u -> R u (Ok tt) -> R' v Err -> False) ->
  (forall u v, R u Err -> R' v Err -> agree b u v) ->
  (forall u v, ok u -> ok v -> st_db u = st_db s' -> st_db v = st_db t' -> R u (Ok tt) -> R' v (Ok tt) -> agree b u v) ->
  res = res' /\ agree b s' t'.
Proof.
  intros Ho (Is & _ & [(-> & Rs)|(s1 & I1 & Rs & Xs)]) (It & _ & [(-> & Rt)|(t1 & I2 & Rt & Xt)]) F1 F2 Fe Fo.
  - auto.
  - destruct (F1 _ _ I2 Rs Rt).
  - destruct (F2 _ _ I1 Rs Rt).
  - apply (indexed_same o b s1 t1 s' t' res res' Ho I1 I2); [|assumption..]. apply Fo; auto; symmetry; eapply indexed_db; eauto.
Qed.

Lemma items_ok o q b s t s1 t1 : ok s -> ok t -> ok s1 -> ok t1 -> st_db s1 = st_db (after E o q s) -> st_db t1 = st_db (after E o q t) ->
  d_ents (st_db s1) b = d_ents (st_db t1) b -> (forall id, listed s1 b id -> exists x, agree x s t /\ listed s x id) ->
  forall id, listed s1 b id -> item s1 id = item t1 id.
Proof.
  intros H H' H1 H1' D1 D2 Ee L id Hl. destruct (L id Hl) as (x & A & Lx).
  assert (Hl' : listed t1 b id) by (destruct Hl as (n & e & G & X); exists n, e; unfold entry_at in *; rewrite <- Ee; auto).
  pose proof (listed_pooled s1 b id H1 Hl) as P1. pose proof (listed_pooled t1 b id H1' Hl') as P2.
  assert (E1 : item s1 id = item (after E o q s) id) by (unfold item, pool_at; rewrite D1; reflexivity).
  assert (E2 : item t1 id = item (after E o q t) id) by (unfold item, pool_at; rewrite D2; reflexivity).
  unfold pool_at in P1, P2. rewrite D1 in P1. rewrite D2 in P2.
  rewrite E1, E2, !(item_after o q _ id); auto; [apply (ag_item _ _ _ A id Lx)|apply (listed_pooled t x id H'), (agree_listed x s t id A Lx)|apply (listed_pooled s x id H Lx)].
Qed.

Lemma listed_avail s r id : ok s -> listed s r id <-> exists n, In id (avail_db (st_db s) r n).
Proof.
  intros H. split.
  - intros (n & e & G & [X|X]); [exists n; unfold avail_db; unfold entry_at in G; rewrite G; exact X|].
    unfold entry_at in G. rewrite (i_nod _ _ _ _ _ _ H eq_refl _ _ _ G) in X. destruct X.
  - intros (n & X). unfold avail_db in X. destruct (mget (d_ents (st_db s) r) n) as [e|] eqn:G; [|destruct X]. exists n, e. auto.
Qed.
Lemma refs_listed s s1 r src ids id : ok s -> ok s1 -> d_ents (st_db s1) r = d_ents (db_refs cat r ids (st_db s)) r ->
  (forall i, In i ids -> listed s src i) -> listed s1 r id -> listed s r id \/ listed s src id.
Proof.
  intros H H1 D Sub L. apply (listed_avail s1 r id H1) in L. destruct L as (n & L). unfold avail_db in L. rewrite D in L.
  fold (avail_db (db_refs cat r ids (st_db s)) r n) in L. apply db_refs_avail in L. destruct L as [L|[L _]]; [left; apply listed_avail; eauto|right; auto].
Qed.
Lemma avail_ids_listed s r id : ok s -> In id (avail_ids (st_db s) r) -> listed s r id.
Proof. intros H X. apply (avail_ids_in cat) in X; [|apply (i_db _ _ _ _ _ _ H)]. apply listed_avail; eauto. Qed.
Lemma pub_ids_listed s r id : ok s -> In id (pub_ids (st_db s) r) -> listed s r id.
Proof.
  intros H X. unfold pub_ids in X. apply in_map_iff in X. destruct X as ([n e] & Y & Z). apply in_mlist in Z. apply (pub_listed E cat true true s r H n e id Z Y).
Qed.
Lemma no_deltas d r : nodelta true d -> delta_ids d r = [].
Proof.
  intros N. unfold delta_ids. assert (X : forall ke, In ke (mlist (d_ents d r)) -> e_deltas (snd ke) = []).
  { intros [n e] Y. apply in_mlist in Y. exact (N eq_refl r n e Y). }
  induction (mlist (d_ents d r)) as [|ke l IH]; [reflexivity|]. simpl. rewrite (X ke (or_introl eq_refl)). apply IH. intros k' Y. apply X. right. exact Y.
Qed.

Lemma ent_nod s r : ok s -> forall n e, mget (d_ents (st_db s) r) n = Some e -> e_deltas e = [].
Proof. intros H n e G. exact (i_nod _ _ _ _ _ _ H eq_refl _ _ _ G). Qed.
Lemma unrefs_listed s s1 r ids id : ok s -> ok s1 -> st_db s1 = db_unref_pkgs cat r ids (st_db s) -> NoDup ids -> (forall i, In i ids -> In i (avail_ids (st_db s) r)) ->
  listed s1 r id -> listed s r id.
Proof.
  intros H H1 D Nd Sub L. apply (listed_avail s1 r id H1) in L. destruct L as (n & L). rewrite D in L.
  destruct (unref_pkgs_ok cat Hcat true r ids (st_db s) (i_db _ _ _ _ _ _ H) (i_refs _ _ _ _ _ _ H) (i_nod _ _ _ _ _ _ H) Nd) as (_ & _ & _ & _ & _ & X & _).
  { intros i Hi. apply (avail_ids_in cat); [apply (i_db _ _ _ _ _ _ H)|apply Sub, Hi]. }
  apply X in L. apply listed_avail; [exact H|]. exists n. apply L.
Qed.

(** *** removals *)
Lemma two_removed o q b s t fs ft ids ids' res res' : good_oracle o -> ok s -> ok t -> agree b s t ->
  (fs <-> ft) -> ids = ids' -> NoDup ids -> (forall i, In i ids -> In i (avail_ids (st_db s) b)) ->
  then_indexed E cat true true o b (removed cat b fs ids s) (after E o q s) res ->
  then_indexed E cat true true o b (removed cat b ft ids' t) (after E o q t) res' -> res = res' /\ agree b (after E o q s) (after E o q t).
Proof.
  intros Ho H H' A Ff <- Nd Sub X Y. eapply fin; [exact Ho|exact X|exact Y|..]; clear X Y.
  - intros u v _ ((_ & _ & W) & _) ((Hr & Nf & _) & _). rewrite (ag_repo _ _ _ A) in W. destruct W; [congruence|tauto].
  - intros u v _ ((Hr & Nf & _) & _) ((_ & _ & W) & _). rewrite (ag_repo _ _ _ A) in Hr. destruct W; [congruence|tauto].
  - intros u v ((D1 & _) & R1 & S1) ((D2 & _) & R2 & S2). constructor; rewrite ?D1, ?D2, ?R1, ?R2, ?S1, ?S2; try apply A.
    intros id L. unfold item, pool_at, listed, entry_at in *. rewrite D1 in *. rewrite D2. apply (ag_item _ _ _ A id). exact L.
  - intros u v Iu Iv Du Dv ((Hr & Nf & D1) & R1 & S1) ((_ & _ & D2) & R2 & S2).
    assert (Ee : d_ents (st_db u) b = d_ents (st_db v) b).
    { rewrite D1, D2. apply unrefs_local; [apply ent_nod, H|apply A]. }
    constructor; rewrite ?R1, ?R2, ?S1, ?S2; try apply A; [|exact Ee|].
    + assert (K : forall l d, d_repos (db_unref_pkgs cat b l d) = d_repos d).
      { induction l as [|i l IH]; intros d; simpl; [reflexivity|]. rewrite IH. apply unref_pkg_repos. }
      rewrite D1, D2, !K. apply A.
    + eapply (items_ok o q b s t u v H H' Iu Iv Du Dv Ee). intros id L. exists b. split; [exact A|]. exact (unrefs_listed s u b ids id H Iu D1 Nd Sub L).
Qed.

(** *** references to packages of another repository *)
Lemma two_refs o q b src s t u v ids : ok s -> ok t -> agree b s t -> agree src s t ->
  ok u -> ok v -> st_db u = st_db (after E o q s) -> st_db v = st_db (after E o q t) ->
  (forall i, In i ids -> listed s src i) ->
  d_ents (st_db u) b = d_ents (db_refs cat b ids (st_db s)) b -> d_ents (st_db v) b = d_ents (db_refs cat b ids (st_db t)) b ->
  d_ents (st_db u) b = d_ents (st_db v) b /\ (forall id, listed u b id -> item u id = item v id).
Proof.
  intros H H' A As Iu Iv Du Dv Sub Eu Ev.
  assert (Ee : d_ents (st_db u) b = d_ents (st_db v) b) by (rewrite Eu, Ev; apply refs_local, A).
  split; [exact Ee|]. apply (items_ok o q b s t u v H H' Iu Iv Du Dv Ee). intros id L.
  destruct (refs_listed s u b src ids id H Iu Eu Sub L); [exists b|exists src]; auto.
Qed.
Lemma refs_repos b ids d : d_repos (db_refs cat b ids d) = d_repos d.
Proof. revert d. induction ids as [|i l IH]; intros d; simpl; [reflexivity|]. rewrite IH. apply db_ref_repos. Qed.
Lemma same_db_items x s t u v : agree x s t -> st_db u = st_db s -> st_db v = st_db t -> forall id, listed u x id -> item u id = item v id.
Proof.
  intros A D1 D2 id L. unfold item, pool_at, listed, entry_at in *. rewrite D1 in *. rewrite D2. apply (ag_item _ _ _ A id). exact L.
Qed.

Lemma trim_same o k s t r : ok s -> agree r s t -> trim_ids cat o (st_db s) r k = trim_ids cat o (st_db t) r k.
Proof.
  intros H A. unfold trim_ids. rewrite <- (ag_ents _ _ _ A). rewrite !flat_map_concat_map. f_equal. apply map_ext_in. intros [n e] Hin. apply in_mlist in Hin.
  unfold old_ids. cbn [snd]. destruct (Z.ltb _ _); [reflexivity|]. do 4 f_equal. apply map_ext_in. intros id Hid.
  assert (L : listed s r id) by (exists n, e; auto).
  pose proof (ag_item _ _ _ A id L) as X. unfold item, pool_at in X. unfold pm. destruct (mget (d_pool (st_db s)) id), (mget (d_pool (st_db t)) id); congruence.
Qed.
Lemma src_same s t r source rl : agree r s t -> src_ids cat (st_db s) r source rl = src_ids cat (st_db t) r source rl.
Proof. intros A. unfold src_ids, avail_ids. rewrite (ag_ents _ _ _ A). reflexivity. Qed.
Lemma pulled_same s t r src a : agree r s t -> agree src s t -> pulled r src (st_fs s) a = pulled r src (st_fs t) a.
Proof. intros A B. unfold pulled. rewrite (ag_asset _ _ _ A), (ag_asset _ _ _ B). reflexivity. Qed.
Lemma names_same s t r src : agree r s t -> agree src s t ->
  pull_names cat (st_db s) r src = pull_names cat (st_db t) r src /\ pull_blocked cat (st_db s) r src = pull_blocked cat (st_db t) r src.
Proof.
  intros A B. unfold pull_names, pull_blocked, src_newer, tgt_newer. rewrite (ag_ents _ _ _ A), (ag_ents _ _ _ B). auto.
Qed.

Lemma pull_missing o src tgt s : ok s -> mhas (d_repos (st_db s)) src = false \/ mhas (d_repos (st_db s)) tgt = false ->
  f_asset (st_fs (after E o (OpPull src tgt) s)) = f_asset (st_fs s).
Proof.
  intros H W. assert (X : wp (api_pull E o src tgt) (fun _ => True) (fun s' _ => f_asset (st_fs s') = f_asset (st_fs s)) s); [|exact (proj2 X)].
  unfold api_pull. apply (wp_with_repo E cat true true); [exact H|auto|auto|]. intros s1 I1 Q1 Hr.
  apply (wp_with_repo E cat true true); [exact I1|auto|intros _; apply (qd_asset _ _ _ Q1)|]. intros s2 _ _ Ht. rewrite (qd_db _ _ _ Q1) in Ht. destruct W; congruence.
Qed.

Lemma two_plain o q b s t : good_oracle o -> good_op q -> delta_op q = false -> sent q = [] -> (forall r k st, q <> OpAdd r k st) ->
  target q = Some b -> ok s -> ok t -> agree b s t -> (forall x, source_repo q = Some x -> agree x s t) ->
  (mhas (d_repos (st_db s)) b = false -> f_dir (st_fs s) b = f_dir (st_fs t) b) ->
  outcome E o q s = outcome E o q t /\ agree b (after E o q s) (after E o q t).
Proof.
  intros Ho Gq Dq Sq Na Tq H H' A As Dir.
  assert (U : forall (m : M unit) C C' Q Q', run_op E o q = (m ;;; ret []) -> wp m C Q s -> wp m C' Q' t ->
    (forall res res', Q (after E o q s) res -> Q' (after E o q t) res' -> res = res' /\ agree b (after E o q s) (after E o q t)) ->
    outcome E o q s = outcome E o q t /\ agree b (after E o q s) (after E o q t)).
  { intros m C C' Q Q' Er W W' F. destruct (run_unit E m C Q s o q Er W) as (r1 & X1 & O1). destruct (run_unit E m C' Q' t o q Er W') as (r2 & X2 & O2).
    destruct (F _ _ X1 X2) as [Y Z]. split; [|exact Z]. rewrite O1, O2, Y. reflexivity. }
  destruct q; simpl in Tq, Dq; try discriminate; try (injection Tq as <-).
  - (* create *)
    eapply (U (api_create E o id)); [reflexivity|apply (wp_api_create E cat Hcat HE true true o id s H Ho)|apply (wp_api_create E cat Hcat HE true true o id t H' Ho)|].
    intros res res' X Y. eapply (fin o id (created id s) (created id t)); [exact Ho|exact X|exact Y|..]; clear X Y.
    + intros u v _ (Q & W) (C1 & C2 & C3 & _). rewrite (ag_repo _ _ _ A) in W. rewrite Dir in W by (rewrite (ag_repo _ _ _ A); exact C1). destruct W as [W|[W|W]]; congruence.
    + intros u v _ (C1 & C2 & C3 & _) (Q & W). rewrite <- (ag_repo _ _ _ A) in W. rewrite Dir in C2 by exact C1. destruct W as [W|[W|W]]; congruence.
    + intros u v (Q & _) (Q' & _). eapply agree_trans; [apply agree_sym, (quiet_dir_agree id id s u Q)|]. eapply agree_trans; [exact A|apply (quiet_dir_agree id id t v Q')].
    + intros u v Iu Iv Du Dv (_ & _ & _ & D1 & _ & R1 & S1) (_ & _ & _ & D2 & _ & R2 & S2).
      assert (Ee : d_ents (st_db u) id = d_ents (st_db v) id) by (rewrite D1, D2, !create_ents; apply A).
      constructor; [|exact Ee|intros k; rewrite R1, R2; apply A|intros k; rewrite S1, S2; apply A|].
      * rewrite D1, D2. unfold db_create, mhas. simpl. rewrite !mget_put_eq. reflexivity.
      * eapply (items_ok o (OpCreate id) id s t u v H H' Iu Iv Du Dv Ee). intros i L. exists id. split; [exact A|].
        unfold listed, entry_at in *. rewrite D1, create_ents in L. exact L.
  - (* delete *)
    eapply (U (delete_repo id)); [reflexivity|apply (wp_delete_repo E cat Hcat true true id s H)|apply (wp_delete_repo E cat Hcat true true id t H')|].
    intros res res' (_ & X) (_ & Y).
    destruct X as [(-> & X1 & X2)|(-> & X1 & X2 & X3)], Y as [(-> & Y1 & Y2)|(-> & Y1 & Y2 & Y3)]; try (rewrite (ag_repo _ _ _ A) in X1; congruence).
    + split; [reflexivity|]. rewrite X2, Y2. exact A.
    + split; [reflexivity|].
      destruct (db_delete_ok cat true (st_db s) id (i_db _ _ _ _ _ _ H) (i_refs _ _ _ _ _ _ H) (i_nod _ _ _ _ _ _ H)) as (_ & _ & _ & Er & Ee).
      destruct (db_delete_ok cat true (st_db t) id (i_db _ _ _ _ _ _ H') (i_refs _ _ _ _ _ _ H') (i_nod _ _ _ _ _ _ H')) as (_ & _ & _ & Er' & Ee').
      constructor.
      * rewrite X2, Y2, Er, Er'. unfold mhas. rewrite !mget_del, !seqb_refl. reflexivity.
      * apply mext. intros n. rewrite X2, Y2, Ee, Ee', seqb_refl. reflexivity.
      * intros k. rewrite (dr_root_r _ _ _ X3), (dr_root_r _ _ _ Y3). reflexivity.
      * intros k. rewrite (dr_asset_r _ _ _ X3), (dr_asset_r _ _ _ Y3). reflexivity.
      * intros i (n & e & G & _). unfold entry_at in G. rewrite X2, Ee, seqb_refl in G. discriminate.
  - (* clone *)
    assert (B : agree src s t) by (apply As; reflexivity).
    assert (De : forall w, ok w ->
      db_clone cat full new src (st_db w) = db_refs cat new (if full then avail_ids (st_db w) src else pub_ids (st_db w) src) (db_create new (st_db w)) /\
      mhas (d_repos (db_clone cat full new src (st_db w))) new = true).
    { intros w Hw. assert (X : db_clone cat full new src (st_db w) = db_refs cat new (if full then avail_ids (st_db w) src else pub_ids (st_db w) src) (db_create new (st_db w))).
      { unfold db_clone. destruct full; [|reflexivity]. change (delta_ids (db_create new (st_db w)) src) with (delta_ids (st_db w) src).
        rewrite (no_deltas (st_db w) src (i_nod _ _ _ _ _ _ Hw)). reflexivity. }
      split; [exact X|]. rewrite X, refs_repos. unfold db_create, mhas. simpl. rewrite mget_put_eq. reflexivity. }
    eapply (U (api_clone E o src new full)); [reflexivity|apply (wp_api_clone E cat Hcat HE true true o src new full s H Ho)|apply (wp_api_clone E cat Hcat HE true true o src new full t H' Ho)|].
    intros res res' X Y. eapply fin; [exact Ho|exact X|exact Y|..]; clear X Y.
    + intros u v Iv (_ & _ & _ & _ & W) (C0 & C1 & C2 & C3 & _). rewrite (ag_repo _ _ _ A), (ag_repo _ _ _ B) in W.
      rewrite Dir in W by (rewrite (ag_repo _ _ _ A); exact C1). destruct W as [W|[W|[W|[W|W]]]]; try congruence.
      rewrite (ok_rname _ _ (i_db _ _ _ _ _ _ Iv) new) in W; [discriminate|]. rewrite C3. apply (proj2 (De t H')).
    + intros u v Iu (C0 & C1 & C2 & C3 & _) (_ & _ & _ & _ & W). rewrite <- (ag_repo _ _ _ A), <- (ag_repo _ _ _ B) in W.
      rewrite <- Dir in W by exact C1. destruct W as [W|[W|[W|[W|W]]]]; try congruence.
      rewrite (ok_rname _ _ (i_db _ _ _ _ _ _ Iu) new) in W; [discriminate|]. rewrite C3. apply (proj2 (De s H)).
    + intros u v (D1 & _ & R1 & S1 & _) (D2 & _ & R2 & S2 & _). constructor; rewrite ?D1, ?D2, ?R1, ?R2, ?S1, ?S2; try apply A. apply (same_db_items new s t u v A D1 D2).
    + intros u v Iu Iv Du Dv (C0 & _ & _ & D1 & R1 & _ & S1) (_ & _ & _ & D2 & R2 & _ & S2).
      rewrite (proj1 (De s H)) in D1. rewrite (proj1 (De t H')) in D2.
      set (ids := if full then avail_ids (st_db s) src else pub_ids (st_db s) src) in *.
      assert (Ei : (if full then avail_ids (st_db t) src else pub_ids (st_db t) src) = ids).
      { unfold ids, avail_ids, pub_ids. rewrite (ag_ents _ _ _ B). reflexivity. }
      rewrite Ei in D2.
      assert (Sub : forall i, In i ids -> listed s src i).
      { intros i. unfold ids. destruct full; [apply avail_ids_listed, H|apply pub_ids_listed, H]. }
      destruct (two_refs o (OpClone src new full) new src s t u v ids H H' A B Iu Iv Du Dv Sub) as [Ee It].
      { rewrite D1. apply refs_local. reflexivity. }
      { rewrite D2. apply refs_local. reflexivity. }
      constructor; [|exact Ee|intros k; rewrite R1, R2; apply A|intros k; rewrite S1, S2; apply pulled_same; assumption|exact It].
      rewrite D1, D2, !refs_repos. unfold db_create, mhas. simpl. rewrite !mget_put_eq. reflexivity.
  - (* pull *)
    assert (B : agree src s t) by (apply As; reflexivity).
    destruct (wp_api_pull E cat Hcat HE true true o src tgt s H Ho) as (_ & I1 & _ & X). destruct (wp_api_pull E cat Hcat HE true true o src tgt t H' Ho) as (_ & I2 & _ & Y).
    change (final_of (api_pull E o src tgt s)) with (after E o (OpPull src tgt) s) in *. change (result_of (api_pull E o src tgt s)) with (outcome E o (OpPull src tgt) s) in *.
    change (final_of (api_pull E o src tgt t)) with (after E o (OpPull src tgt) t) in *. change (result_of (api_pull E o src tgt t)) with (outcome E o (OpPull src tgt) t) in *.
    destruct (names_same s t tgt src A B) as [En Eb].
    destruct X as [(Er & (D1 & _ & W1) & R1 & O1 & S1)|(s1 & ch & rs & Is1 & ((C1 & C2 & C3 & C4 & D1) & R1 & O1 & S1) & X & W1)],
      Y as [(Er' & (D2 & _ & W2) & R2 & O2 & S2)|(t1 & ch' & rs' & It1 & ((C1' & C2' & C3' & C4' & D2) & R2 & O2 & S2) & Y & W2)].
    + split; [congruence|]. constructor; rewrite ?D1, ?D2, ?R1, ?R2; try apply A; [|apply (same_db_items tgt s t _ _ A D1 D2)].
      intros a. destruct (mhas (d_repos (st_db s)) src) eqn:Ms; [destruct (mhas (d_repos (st_db s)) tgt) eqn:Mt|].
      * rewrite S1, S2 by (auto; rewrite <- ?(ag_repo _ _ _ A), <- ?(ag_repo _ _ _ B); assumption). apply pulled_same; assumption.
      * rewrite (pull_missing o src tgt s H), (pull_missing o src tgt t H') by (rewrite <- ?(ag_repo _ _ _ A); auto). apply A.
      * rewrite (pull_missing o src tgt s H), (pull_missing o src tgt t H') by (rewrite <- ?(ag_repo _ _ _ B); auto). apply A.
    + rewrite (ag_repo _ _ _ A), (ag_repo _ _ _ B), Eb in W1. destruct W1 as [W1|[W1|W1]]; congruence.
    + rewrite <- (ag_repo _ _ _ A), <- (ag_repo _ _ _ B), <- Eb in W2. destruct W2 as [W2|[W2|W2]]; congruence.
    + assert (G : agree tgt s1 t1).
      { assert (Sub : forall i, In i (map fst (pull_names cat (st_db s) tgt src)) -> listed s src i).
        { intros i Hi. apply pub_ids_listed; [exact H|]. unfold pull_names in Hi. rewrite map_map in Hi. unfold pub_ids. apply in_map_iff in Hi. destruct Hi as (ke & <- & Hi).
          apply filter_In in Hi. apply (in_map (fun ke => e_pub (snd ke))), Hi. }
        unfold db_pull in D1, D2. rewrite <- En in D2.
        destruct (two_refs o (OpPull src tgt) tgt src s t s1 t1 _ H H' A B Is1 It1 (eq_sym (indexed_db _ _ _ _ _ _ _ X)) (eq_sym (indexed_db _ _ _ _ _ _ _ Y)) Sub) as [Ee It];
          [rewrite D1; reflexivity|rewrite D2; reflexivity|].
        constructor; [rewrite D1, D2, !refs_repos; apply A|exact Ee|intros k; rewrite R1, R2; apply A| |exact It].
        intros a. rewrite S1, S2 by assumption. apply pulled_same; assumption. }
      destruct (indexed_same o tgt s1 t1 _ _ rs rs' Ho Is1 It1 G X Y) as [<- Z]. split; [|exact Z].
      destruct W1 as [[W1 W1']|[W1 W1']], W2 as [[W2 W2']|[W2 W2']]; congruence.
  - (* remove source *)
    eapply (U (api_remove_source E o r source rel)); [reflexivity|apply (wp_api_remove_source E cat Hcat HE true true o r source rel s H Ho)|apply (wp_api_remove_source E cat Hcat HE true true o r source rel t H' Ho)|].
    intros res res' X Y. rewrite <- (src_same s t r source rel A) in Y. eapply (two_removed o _ r s t); [exact Ho|exact H|exact H'|exact A| |reflexivity| | |exact X|exact Y]; [reflexivity| |].
    + apply NoDup_filter, (avail_ids_nodup cat), (i_db _ _ _ _ _ _ H).
    + intros i. apply src_ids_in.
  - (* copy source *)
    assert (B : agree src s t) by (apply As; reflexivity).
    eapply (U (api_copy_source E o src tgt source rel skip_index)); [reflexivity|apply (wp_api_copy_source E cat Hcat HE true true o src tgt source rel skip_index s H Ho)|apply (wp_api_copy_source E cat Hcat HE true true o src tgt source rel skip_index t H' Ho)|].
    assert (Es : src_ids cat (st_db s) src source rel = src_ids cat (st_db t) src source rel) by (apply src_same, B).
    assert (F1 : forall u v, copied cat src tgt source rel s u Err -> copied cat src tgt source rel t v (Ok tt) -> False).
    { unfold copied. rewrite <- Es. intros u v ((_ & _ & W) & _) ((C1 & C2 & C3 & _) & _). rewrite (ag_repo _ _ _ A), (ag_repo _ _ _ B) in W. destruct W as [W|[W|W]]; congruence. }
    assert (F2 : forall u v, copied cat src tgt source rel s u (Ok tt) -> copied cat src tgt source rel t v Err -> False).
    { unfold copied. rewrite <- Es. intros u v ((C1 & C2 & C3 & _) & _) ((_ & _ & W) & _). rewrite <- (ag_repo _ _ _ A), <- (ag_repo _ _ _ B) in W. destruct W as [W|[W|W]]; congruence. }
    assert (F3 : forall u v, copied cat src tgt source rel s u Err -> copied cat src tgt source rel t v Err -> agree tgt u v).
    { intros u v ((D1 & _) & R1 & S1) ((D2 & _) & R2 & S2). constructor; rewrite ?D1, ?D2, ?R1, ?R2, ?S1, ?S2; try apply A. apply (same_db_items tgt s t u v A D1 D2). }
    assert (F4 : forall u v, ok u -> ok v -> st_db u = st_db (after E o (OpCopySource src tgt source rel skip_index) s) -> st_db v = st_db (after E o (OpCopySource src tgt source rel skip_index) t) ->
       copied cat src tgt source rel s u (Ok tt) -> copied cat src tgt source rel t v (Ok tt) -> agree tgt u v).
    { unfold copied. rewrite <- Es. intros u v Iu Iv Du Dv ((_ & _ & _ & D1) & R1 & S1) ((_ & _ & _ & D2) & R2 & S2).
      assert (Sub : forall i, In i (src_ids cat (st_db s) src source rel) -> listed s src i) by (intros i Hi; apply avail_ids_listed; [exact H|eapply src_ids_in; eauto]).
      destruct (two_refs o (OpCopySource src tgt source rel skip_index) tgt src s t u v _ H H' A B Iu Iv Du Dv Sub) as [Ee It]; [rewrite D1; reflexivity|rewrite D2; reflexivity|].
      constructor; [rewrite D1, D2, !refs_repos; apply A|exact Ee|intros k; rewrite R1, R2; apply A|intros k; rewrite S1, S2; apply A|exact It]. }
    intros res res' X Y. destruct skip_index.
    + eapply fin; [exact Ho|exact X|exact Y|intros ? ? _; apply F1|intros ? ? _; apply F2|exact F3|exact F4].
    + destruct X as (I1 & N1 & X), Y as (I2 & N2 & Y). destruct res as [[]| |], res' as [[]| |]; try congruence.
      * split; [reflexivity|]. apply F4; auto.
      * destruct (F2 _ _ X Y).
      * destruct (F1 _ _ X Y).
      * split; [reflexivity|]. apply F3; auto.
  - (* trim obsolete *)
    eapply (U (api_trim_obsolete E o r)); [reflexivity|apply (wp_api_trim_obsolete E cat Hcat HE true true o r s H Ho)|apply (wp_api_trim_obsolete E cat Hcat HE true true o r t H' Ho)|].
    assert (Eo : obs_dist E s r = obs_dist E t r) by (unfold obs_dist, dist_of; rewrite (ag_asset _ _ _ A); reflexivity).
    intros res res' X Y. rewrite <- Eo in Y. eapply (two_removed o _ r s t); [exact Ho|exact H|exact H'|exact A| | | | |exact X|exact Y]; [reflexivity|unfold obs_ids; rewrite (ag_ents _ _ _ A); reflexivity| |].
    + apply (obs_ids_nodup cat), (i_db _ _ _ _ _ _ H).
    + intros i. apply (obs_ids_in cat), (i_db _ _ _ _ _ _ H).
  - (* trim packages *)
    eapply (U (api_trim_packages E o r k)); [reflexivity|apply (wp_api_trim_packages E cat Hcat HE true true o r k s H Ho)|apply (wp_api_trim_packages E cat Hcat HE true true o r k t H' Ho)|].
    intros res res' X Y. rewrite <- (trim_same o k s t r H A) in Y. eapply (two_removed o _ r s t); [exact Ho|exact H|exact H'|exact A| |reflexivity| | |exact X|exact Y]; [reflexivity| |].
    + apply (trim_ids_nodup E cat true true); auto.
    + intros i. apply (trim_ids_in E cat true true); auto.
  - (* add *) destruct (Na r pkgs strict eq_refl).
  - (* index *)
    eapply (U (api_index E o r)); [reflexivity|apply (wp_api_index E cat Hcat HE true true o r s H Ho)|apply (wp_api_index E cat Hcat HE true true o r t H' Ho)|].
    intros res res' (_ & X & _) (_ & Y & _). apply (indexed_same o r s t _ _ res res' Ho H H' A X Y).
Qed.

(** *** imports *)
(** the record of a pooled package carries hash and size of the file now sent *)
Definition as_pooled (s : state) (l : loc) : Prop :=
  forall c p, file_content (st_fs s) l = Some c -> pool_at s (l_id l) = Some p ->
    m_hash (p_meta p) = E_sha1 E c /\ m_size (p_meta p) = N.of_nat (String.length c).

Record core (b : string) (s t : state) : Prop := {
  co_repo : mhas (d_repos (st_db s)) b = mhas (d_repos (st_db t)) b;
  co_ents : d_ents (st_db s) b = d_ents (st_db t) b;
  co_item : forall id, listed s b id -> item s id = item t id
}.
Definition old_or_mine (b : string) (s0 s : state) : Prop :=
  forall id p, pool_at s id = Some p -> (exists p0, pool_at s0 id = Some p0 /\ same_item p0 p) \/ In id (avail_db (st_db s) b (m_name (cat id))).

Lemma meta_bits id (p : pentry) c : pentry_ok cat id p -> is_delta_id id = false ->
  m_hash (p_meta p) = E_sha1 E c -> m_size (p_meta p) = N.of_nat (String.length c) ->
  (p_meta p, p_delta p) = (p_meta (new_pentry cat id (E_sha1 E c) (N.of_nat (String.length c)) None), None).
Proof.
  intros P D Hh Hz. destruct (po_meta _ _ _ P) as (h & z & Mp). pose proof (po_delta _ _ _ P) as Dp. rewrite D in Dp.
  assert (p_delta p = None) as ->. { destruct (p_delta p); [exfalso; assert (false = true) by (apply Dp; discriminate); discriminate|reflexivity]. }
  rewrite Mp in *. cbn in Hh, Hz. subst. reflexivity.
Qed.

Lemma add_step b s0 s s1 l c : ok s0 -> ok s -> ok s1 -> is_delta_id (l_id l) = false -> old_or_mine b s0 s -> as_pooled s0 l ->
  file_content (st_fs s0) l = Some c ->
  st_db s1 = db_add cat b (new_pentry cat (l_id l) (E_sha1 E c) (N.of_nat (String.length c)) None) (st_db s) ->
  old_or_mine b s0 s1 /\
  (forall id, listed s1 b id -> ~ listed s b id -> item s1 id = Some (p_meta (new_pentry cat (l_id l) (E_sha1 E c) (N.of_nat (String.length c)) None), None)) /\
  (forall id, listed s b id -> item s1 id = item s id).
Proof.
  intros H0 H H1 D J Ap Fc Ed. set (pe := new_pentry cat (l_id l) (E_sha1 E c) (N.of_nat (String.length c)) None) in *.
  rewrite db_add_put in Ed. change (p_name pe) with (l_id l) in Ed.
  assert (Et : d_ents (db_touch pe (st_db s)) = d_ents (st_db s)) by apply touch_ents.
  assert (Gr : pool_grow (st_db s) (st_db s1)) by (rewrite Ed; apply put_pool, (grow_touch cat), (i_db _ _ _ _ _ _ H)).
  split; [|split].
  - intros id p G. destruct (string_dec id (l_id l)) as [->|N].
    + right. rewrite Ed. apply put_avail; auto.
    + assert (G0 : pool_at s id = Some p).
      { unfold pool_at in *. rewrite Ed in G. unfold db_put in G. destruct (sane cat (st_db s) b (l_id l)); [|exact G]. cbn [apply_op d_pool] in G.
        unfold db_touch in G. destruct (mget (d_pool (st_db s)) (p_name pe)) as [p1|] eqn:Gp.
        - unfold d_bump in G. rewrite Gp in G. cbn [apply_op d_pool] in G. rewrite mget_put_ne in G; [exact G|].
          cbn. rewrite (po_name _ _ _ (ok_pool _ _ (i_db _ _ _ _ _ _ H) _ _ Gp)). exact N.
        - cbn [apply_op d_pool] in G. rewrite mget_put_ne in G; [exact G|exact N]. }
      destruct (J id p G0) as [X|X]; [left; exact X|right]. rewrite Ed. apply put_avail; auto.
  - intros id L NL. apply (listed_avail s1 b id H1) in L. destruct L as (n & L). rewrite Ed in L. apply put_avail in L; [|exact Et].
    destruct L as [L|[-> ->]]; [exfalso; apply NL; apply listed_avail; eauto|].
    assert (Na : ~ In (l_id l) (avail_db (st_db s) b (m_name (cat (l_id l))))) by (intros X; apply NL; apply listed_avail; eauto).
    unfold item, pool_at. destruct (mget (d_pool (st_db s)) (l_id l)) as [p|] eqn:G.
    + destruct (J _ _ G) as [(p0 & G0 & S1 & S2)|X]; [|destruct (Na X)].
      destruct (Gr _ _ G) as (p' & G' & M' & D'). rewrite G', M', D', S1, S2. f_equal.
      destruct (Ap c p0 Fc G0) as [Hh Hz]. apply meta_bits; auto. apply (ok_pool _ _ (i_db _ _ _ _ _ _ H0) _ _ G0).
    + rewrite Ed. unfold db_put. destruct (sane cat (st_db s) b (l_id l)) eqn:Sn; [|destruct (Na (proj1 (sane_none cat _ _ _) Sn))].
      cbn [apply_op d_pool]. unfold db_touch. change (p_name pe) with (l_id l). rewrite G. cbn [apply_op d_pool]. change (p_name pe) with (l_id l). rewrite mget_put_eq. reflexivity.
  - intros id L. pose proof (listed_pooled s b id H L) as X. unfold item, pool_at in *. destruct (mget (d_pool (st_db s)) id) as [p|] eqn:G; [|congruence].
    destruct (Gr _ _ G) as (p' & -> & -> & ->). reflexivity.
Qed.

Lemma added_two b strict s0 t0 L : ok s0 -> ok t0 ->
  (forall l, In l L -> upload_tree (l_tree l) = true /\ is_delta_id (l_id l) = false) ->
  (forall l, In l L -> file_content (st_fs s0) l = file_content (st_fs t0) l) ->
  (forall l, In l L -> as_pooled s0 l /\ as_pooled t0 l) ->
  forall pkgs s t s' t' res res', (forall l, In l pkgs -> In l L) ->
  added E cat true true b strict pkgs s s' res -> added E cat true true b strict pkgs t t' res' ->
  ok s -> ok t -> core b s t -> old_or_mine b s0 s -> old_or_mine b t0 t ->
  (forall l, In l L -> file_content (st_fs s) l = file_content (st_fs s0) l) -> (forall l, In l L -> file_content (st_fs t) l = file_content (st_fs t0) l) ->
  res = res' /\ core b s' t'.
Proof.
  intros H0 H0' Up Sm Ap. induction pkgs as [|l pkgs IH]; intros s t s' t' res res' Sub X Y H H' Co J J' Fs Ft.
  { inversion X; inversion Y; subst. auto. }
  assert (Hl : In l L) by (apply Sub; left; reflexivity). destruct (Up l Hl) as [Ul Dl].
  assert (Fl : file_content (st_fs s) l = file_content (st_fs t) l) by (rewrite (Fs l Hl), (Ft l Hl); apply Sm, Hl).
  assert (St : stale cat (st_db s) b (l_id l) = stale cat (st_db t) b (l_id l)) by (unfold stale; rewrite (co_ents _ _ _ Co); reflexivity).
  assert (Keep : forall u u1, rest true b u u1 -> forall k, In k L -> file_content (st_fs u1) k = file_content (st_fs u) k).
  { intros u u1 R k Hk. destruct (Up k Hk) as [U D]. apply (rs_data _ _ _ _ R eq_refl); auto; intros Z; rewrite Z in U; discriminate. }
  assert (Bad : forall u u1 v v1, stale cat (st_db u) b (l_id l) = stale cat (st_db v) b (l_id l) -> file_content (st_fs u) l = file_content (st_fs v) l ->
    add_outcome E cat true b l strict u u1 (Ok tt) -> add_outcome E cat true b l strict v v1 Err -> False).
  { intros u u1 v v1 Es Ef P Q. inversion P as [| | |c h z Fc Pc Sc Hc _ _]; subst. inversion Q as [Uq|Sq Tq|Fq _|]; subst.
    - rewrite Ef in Fc. rewrite (Uq c Fc) in Pc. discriminate.
    - specialize (Sc eq_refl). congruence.
    - discriminate. }
  inversion X as [|? ? ? s1 ? ? I1 R1 O1 A1|? ? ? s1 R1 O1]; inversion Y as [|? ? ? t1 ? ? I2 R2 O2 A2|? ? ? t1 R2 O2]; subst; clear X Y.
  - inversion O1 as [| | |c h z Fc Pc Sc Hc Ok1 D1]; subst. inversion O2 as [| | |c' h' z' Fc' Pc' Sc' Hc' Ok2 D2]; subst.
    destruct (Hc eq_refl) as [-> ->]. destruct (Hc' eq_refl) as [-> ->]. assert (c' = c) by congruence. subst c'.
    destruct (Ap l Hl) as [Ap1 Ap2].
    destruct (add_step b s0 s s1 l c H0 H I1 Dl J Ap1 (eq_trans (eq_sym (Fs l Hl)) Fc) D1) as (J1 & N1 & K1).
    destruct (add_step b t0 t t1 l c H0' H' I2 Dl J' Ap2 (eq_trans (eq_sym (Ft l Hl)) Fc') D2) as (J2 & N2 & K2).
    eapply (IH s1 t1 s' t' res res'); auto; [intros k Hk; apply Sub; right; exact Hk| |intros k Hk; rewrite (Keep s s1 R1 k Hk); apply Fs, Hk|intros k Hk; rewrite (Keep t t1 R2 k Hk); apply Ft, Hk].
    assert (Ee : d_ents (st_db s1) b = d_ents (st_db t1) b).
    { rewrite D1, D2, !db_add_put. apply put_local; [apply Co|apply touch_ents|apply touch_ents]. }
    constructor; [rewrite (add_repos E cat true b l strict s s1 _ O1), (add_repos E cat true b l strict t t1 _ O2); apply Co|exact Ee|].
    intros id Li.
    assert (Li' : listed t1 b id) by (destruct Li as (n & e & G & Z); exists n, e; unfold entry_at in *; rewrite <- Ee; auto).
    assert (Dec : listed s b id \/ ~ listed s b id).
    { destruct (lists_db (st_db s) b id) eqn:Z; [left|right; intros W]; [apply (listed_lists cat s b id (i_db _ _ _ _ _ _ H)), Z|].
      apply (listed_lists cat s b id (i_db _ _ _ _ _ _ H)) in W. congruence. }
    destruct Dec as [L1|L1].
    + rewrite (K1 id L1), (co_item _ _ _ Co id L1). symmetry. apply K2. destruct L1 as (n & e & G & Z). exists n, e. unfold entry_at in *. rewrite <- (co_ents _ _ _ Co). auto.
    + rewrite (N1 id Li L1). symmetry. apply N2; [exact Li'|]. intros (n & e & G & Z). apply L1. exists n, e. unfold entry_at in *. rewrite (co_ents _ _ _ Co). auto.
  - destruct (Bad s s1 t t' St Fl O1 O2).
  - destruct (Bad t t1 s s' (eq_sym St) (eq_sym Fl) O2 O1).
  - split; [reflexivity|]. pose proof (add_err_db E cat b l strict s s' O1) as D1. pose proof (add_err_db E cat b l strict t t' O2) as D2.
    constructor; [rewrite D1, D2; apply Co|rewrite D1, D2; apply Co|]. intros id Li. unfold item, pool_at, listed, entry_at in *. rewrite D1 in *. rewrite D2. apply (co_item _ _ _ Co id). exact Li.
Qed.
Lemma added_root b strict pkgs : forall s s' res, added E cat true true b strict pkgs s s' res -> f_root (st_fs s') = f_root (st_fs s) /\ f_asset (st_fs s') = f_asset (st_fs s).
Proof.
  induction 1 as [s|l ls s s1 s' res I1 R1 O1 A IH|l ls s s1 R1 O1]; [auto| |split; apply R1].
  destruct IH as [X Y]. rewrite X, Y. split; apply R1.
Qed.

Lemma two_add o b pkgs strict s t : good_oracle o -> good_op (OpAdd b pkgs strict) -> ok s -> ok t -> agree b s t ->
  (forall l, In l pkgs -> file_content (st_fs s) l = file_content (st_fs t) l) -> (forall l, In l pkgs -> as_pooled s l /\ as_pooled t l) ->
  outcome E o (OpAdd b pkgs strict) s = outcome E o (OpAdd b pkgs strict) t /\ agree b (after E o (OpAdd b pkgs strict) s) (after E o (OpAdd b pkgs strict) t).
Proof.
  intros Ho Gq H H' A Sm Ap.
  destruct (run_unit E (api_add_packages E o b pkgs strict) _ _ s o (OpAdd b pkgs strict) eq_refl (wp_api_add E cat Hcat HE true true o b pkgs strict s H Ho Gq)) as (r1 & X & O1).
  destruct (run_unit E (api_add_packages E o b pkgs strict) _ _ t o (OpAdd b pkgs strict) eq_refl (wp_api_add E cat Hcat HE true true o b pkgs strict t H' Ho Gq)) as (r2 & Y & O2).
  assert (Main : forall u v re re', add_result E cat true true b strict pkgs s u re -> add_result E cat true true b strict pkgs t v re' -> re = re' /\ agree b u v).
  { intros u v re re' [(-> & M & ->)|(M & s0 & Q & Ad)] [(-> & M' & ->)|(M' & t0 & Q' & Ad')]; try (rewrite (ag_repo _ _ _ A) in M; congruence).
    - auto.
    - assert (Is : ok s0) by (apply (Inv_dir E cat true true [] b s s0 H Q); intros; exact M). assert (It : ok t0) by (apply (Inv_dir E cat true true [] b t t0 H' Q'); intros; exact M').
      assert (A0 : agree b s0 t0) by (eapply agree_trans; [apply agree_sym, (quiet_dir_agree b b s s0 Q)|eapply agree_trans; [exact A|apply (quiet_dir_agree b b t t0 Q')]]).
      assert (Cs : forall l, file_content (st_fs s0) l = file_content (st_fs s) l) by (intros l; apply same_files_content, Q).
      assert (Ct : forall l, file_content (st_fs t0) l = file_content (st_fs t) l) by (intros l; apply same_files_content, Q').
      assert (Self : forall w, old_or_mine b w w) by (intros w i p G; left; exists p; split; [exact G|split; reflexivity]).
      unfold good_op in Gq. rewrite Forall_forall in Gq.
      destruct (added_two b strict s0 t0 pkgs Is It Gq) with (pkgs := pkgs) (s := s0) (t := t0) (s' := u) (t' := v) (res := re) (res' := re') as [Er Co]; auto.
      + intros l Hl. rewrite Cs, Ct. apply Sm, Hl.
      + intros l Hl. destruct (Ap l Hl) as [P1 P2]. split; intros c p F G; unfold pool_at in G; [rewrite Cs in F; rewrite (qd_db _ _ _ Q) in G|rewrite Ct in F; rewrite (qd_db _ _ _ Q') in G]; [exact (P1 c p F G)|exact (P2 c p F G)].
      + constructor; apply A0.
      + split; [exact Er|]. destruct (added_root b strict pkgs s0 u re Ad) as [R1 S1]. destruct (added_root b strict pkgs t0 v re' Ad') as [R2 S2].
        constructor; [apply Co|apply Co|intros k; rewrite R1, R2; apply A0|intros k; rewrite S1, S2; apply A0|apply Co]. }
  destruct (fin o b _ _ _ _ _ _ Ho X Y) as [Er G].
  - intros u v _ P Q. destruct (Main u v _ _ P Q) as [Z _]. discriminate.
  - intros u v _ P Q. destruct (Main u v _ _ P Q) as [Z _]. discriminate.
  - intros u v P Q. apply (Main u v _ _ P Q).
  - intros u v _ _ _ _ P Q. apply (Main u v _ _ P Q).
  - split; [rewrite O1, O2, Er; reflexivity|exact G].
Qed.

Lemma two o q b s t : good_oracle o -> good_op q -> delta_op q = false ->
  target q = Some b -> ok s -> ok t -> agree b s t -> (forall x, source_repo q = Some x -> agree x s t) ->
  (mhas (d_repos (st_db s)) b = false -> f_dir (st_fs s) b = f_dir (st_fs t) b) ->
  (forall l, In l (sent q) -> file_content (st_fs s) l = file_content (st_fs t) l) -> (forall l, In l (sent q) -> as_pooled s l /\ as_pooled t l) ->
  outcome E o q s = outcome E o q t /\ agree b (after E o q s) (after E o q t).
Proof.
  intros Ho Gq Dq Tq H H' A As Dir Sm Ap.
  assert (Dec : (exists r k st, q = OpAdd r k st) \/ forall r k st, q <> OpAdd r k st) by (destruct q; try (right; discriminate); left; eauto).
  destruct Dec as [(r & k & st & ->)|Na].
  - cbn in Tq. injection Tq as ->. apply two_add; assumption.
  - apply two_plain; auto. destruct q; try reflexivity. destruct (Na r pkgs strict eq_refl).
Qed.
End Two.
