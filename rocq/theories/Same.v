(** * Same: what a repository lists determines its records (proof artifact) *)
From Verif Require Import Model Spec DbInv DbOps Wp FsInv Ops RepoOps Pure Loops Emit IndexOps ApiOps History PoolFacts OpFacts OpFacts2 IndexFacts Frame OpFacts3 RemoveRetry Import.
From Verif Require PropsRepeat.
Open Scope string_scope. Open Scope list_scope.

Section Same.
Variable E : env.
Variable cat : string -> meta.
Hypothesis Hcat : good_catalog cat.
Hypothesis HE : good_env E.

Notation Inv := (Inv E cat).

(** the repository holds no two versions of a package with one release number *)
Definition told_apart (s : state) (r : string) : Prop :=
  forall id id', available s r id -> available s r id' -> m_name (cat id) = m_name (cat id') -> rel (cat id) = rel (cat id') -> id = id'.

Lemma avail_named ex fz s r id : Inv ex fz [] s -> available s r id <->
  exists e, mget (d_ents (st_db s) r) (m_name (cat id)) = Some e /\ In id (e_avail e).
Proof.
  intros H. split; [|intros (e & G & I0); exists (m_name (cat id)), e; auto].
  intros (n & e & G & I0). unfold entry_at in G. pose proof (ok_ent _ _ (i_db _ _ _ _ _ _ H) _ _ _ G) as He.
  destruct (eo_avail _ _ _ He _ I0) as (X & _). exists e. rewrite X. auto.
Qed.

Lemma entries_same ex fz ex' fz' s t r x : Inv ex fz [] s -> Inv ex' fz' [] t -> told_apart s r ->
  (forall id, available s r id <-> available t x id) -> (forall n, delta_ids_of s r n = delta_ids_of t x n) ->
  forall n, mget (d_ents (st_db s) r) n = mget (d_ents (st_db t) x) n.
Proof.
  intros H H' Ap Av Dl n. specialize (Dl n). unfold delta_ids_of, entry_at in Dl.
  assert (Half : forall e, mget (d_ents (st_db s) r) n = Some e -> mget (d_ents (st_db t) x) n <> None).
  { intros e G Y. pose proof (ok_ent _ _ (i_db _ _ _ _ _ _ H) _ _ _ G) as He.
    pose proof (eo_pub _ _ _ He) as P. destruct (eo_avail _ _ _ He _ P) as (Nm & _).
    destruct (proj1 (avail_named _ _ _ _ _ H') (proj1 (Av (e_pub e)) (ex_intro _ n (ex_intro _ e (conj G P))))) as (e' & G' & _).
    rewrite Nm in G'. congruence. }
  assert (Half' : forall e, mget (d_ents (st_db t) x) n = Some e -> mget (d_ents (st_db s) r) n <> None).
  { intros e G Y. pose proof (ok_ent _ _ (i_db _ _ _ _ _ _ H') _ _ _ G) as He.
    pose proof (eo_pub _ _ _ He) as P. destruct (eo_avail _ _ _ He _ P) as (Nm & _).
    destruct (proj1 (avail_named _ _ _ _ _ H) (proj2 (Av (e_pub e)) (ex_intro _ n (ex_intro _ e (conj G P))))) as (e' & G' & _).
    rewrite Nm in G'. congruence. }
  destruct (mget (d_ents (st_db s) r) n) as [e|] eqn:G, (mget (d_ents (st_db t) x) n) as [e'|] eqn:G'.
  - clear Half Half'. f_equal.
    pose proof (ok_ent _ _ (i_db _ _ _ _ _ _ H) _ _ _ G) as He. pose proof (ok_ent _ _ (i_db _ _ _ _ _ _ H') _ _ _ G') as He'.
    assert (A : forall id, In id (e_avail e) <-> In id (e_avail e')).
    { intros id. split; intros I0.
      - destruct (eo_avail _ _ _ He _ I0) as (Nm & _).
        destruct (proj1 (avail_named _ _ _ _ _ H') (proj1 (Av id) (ex_intro _ n (ex_intro _ e (conj G I0))))) as (e1 & G1 & I1).
        rewrite Nm, G' in G1. injection G1 as <-. exact I1.
      - destruct (eo_avail _ _ _ He' _ I0) as (Nm & _).
        destruct (proj1 (avail_named _ _ _ _ _ H) (proj2 (Av id) (ex_intro _ n (ex_intro _ e' (conj G' I0))))) as (e1 & G1 & I1).
        rewrite Nm, G in G1. injection G1 as <-. exact I1. }
    assert (Ea : e_avail e = e_avail e') by (apply slt_ext; [apply He|apply He'|exact A]).
    assert (Ep : e_pub e = e_pub e').
    { pose proof (eo_pub _ _ _ He) as P. pose proof (eo_pub _ _ _ He') as P'.
      assert (Q : In (e_pub e') (e_avail e)) by (apply A, P').
      apply Ap; [exists n, e; auto|exists n, e; auto| |].
      - rewrite (proj1 (eo_avail _ _ _ He _ P)), (proj1 (eo_avail _ _ _ He _ Q)). reflexivity.
      - destruct (eo_avail _ _ _ He _ Q) as (_ & _ & L1). destruct (eo_avail _ _ _ He' _ (proj1 (A _) P)) as (_ & _ & L2). lia. }
    destruct e as [a1 a2 a3 a4], e' as [b1 b2 b3 b4]. cbn in *. pose proof (eo_name _ _ _ He) as N1. pose proof (eo_name _ _ _ He') as N2. cbn in *. congruence.
  - destruct (Half _ eq_refl eq_refl).
  - destruct (Half' _ eq_refl eq_refl).
  - reflexivity.
Qed.

Lemma lists_same d d' r id : (forall n, mget (d_ents d r) n = mget (d_ents d' r) n) -> lists_db d r id = lists_db d' r id.
Proof. intros X. unfold lists_db. rewrite (mext _ _ X). reflexivity. Qed.

Lemma repos_same s t : (forall r, repo_exists s r = repo_exists t r) -> d_repos (st_db s) = d_repos (st_db t).
Proof.
  intros X. apply mext. intros k. specialize (X k). unfold repo_exists, mhas in X.
  destruct (mget (d_repos (st_db s)) k) as [[]|], (mget (d_repos (st_db t)) k) as [[]|]; congruence.
Qed.

Lemma counts_same s t : Inv true true [] s -> Inv true true [] t -> (forall r, repo_exists s r = repo_exists t r) ->
  (forall r n, mget (d_ents (st_db s) r) n = mget (d_ents (st_db t) r) n) -> forall id, refcount s id = refcount t id.
Proof.
  intros H H' Re En id. unfold refcount.
  pose proof (i_refs _ _ _ _ _ _ H id) as R. pose proof (i_refs _ _ _ _ _ _ H' id) as R'. cbn in R, R'.
  assert (C : count_db (st_db s) id = count_db (st_db t) id).
  { unfold count_db. rewrite (repos_same s t Re). f_equal. apply filter_ext. intros r. apply lists_same, En. }
  lia.
Qed.

Lemma pool_same s t : Inv true true [] s -> Inv true true [] t -> (forall id, refcount s id = refcount t id) ->
  (forall id, is_delta_id id = true -> pool_at s id = None /\ pool_at t id = None) ->
  (forall id, pool_at s id <> None -> file_content (st_fs s) (at_pool cat id) = file_content (st_fs t) (at_pool cat id)) ->
  forall id, pool_at s id = pool_at t id.
Proof.
  intros H H' Rc Nd By id. specialize (Rc id). unfold refcount, rc_db in Rc. change (mget (d_pool (st_db s)) id) with (pool_at s id) in Rc.
  change (mget (d_pool (st_db t)) id) with (pool_at t id) in Rc. specialize (By id).
  destruct (is_delta_id id) eqn:D; [destruct (Nd id D) as [-> ->]; reflexivity|].
  destruct (pool_at s id) as [p|] eqn:G, (pool_at t id) as [q|] eqn:G'.
  - pose proof (ok_pool _ _ (i_db _ _ _ _ _ _ H) _ _ G) as Hp. pose proof (ok_pool _ _ (i_db _ _ _ _ _ _ H') _ _ G') as Hq.
    destruct (fx_pool _ _ _ (i_fx _ _ _ _ _ _ H eq_refl) id p G D) as (c & C1 & _ & C3 & C4).
    destruct (fx_pool _ _ _ (i_fx _ _ _ _ _ _ H' eq_refl) id q G' D) as (c' & C1' & _ & C3' & C4').
    unfold at_pool in By. rewrite C1, C1' in By. specialize (By ltac:(discriminate)). injection By as <-.
    destruct (po_meta _ _ _ Hp) as (h & z & Mp). destruct (po_meta _ _ _ Hq) as (h' & z' & Mq).
    pose proof (po_delta _ _ _ Hp) as Dp. pose proof (po_delta _ _ _ Hq) as Dq. rewrite D in Dp, Dq.
    pose proof (po_name _ _ _ Hp) as Np. pose proof (po_name _ _ _ Hq) as Nq.
    destruct p as [p1 p2 p3 p4], q as [q1 q2 q3 q4]. cbn [p_name p_rc p_meta p_delta] in *.
    assert (p4 = None) by (destruct p4; [exfalso; assert (false = true) by (apply Dp; discriminate); discriminate|reflexivity]).
    assert (q4 = None) by (destruct q4; [exfalso; assert (false = true) by (apply Dq; discriminate); discriminate|reflexivity]).
    subst. cbn in C3, C4, C3', C4'. subst. f_equal. f_equal. lia.
  - pose proof (po_rc _ _ _ (ok_pool _ _ (i_db _ _ _ _ _ _ H) _ _ G)). lia.
  - pose proof (po_rc _ _ _ (ok_pool _ _ (i_db _ _ _ _ _ _ H') _ _ G')). lia.
  - reflexivity.
Qed.

Lemma no_pooled_delta s id : Inv true true [] s -> is_delta_id id = true -> pool_at s id = None.
Proof.
  intros H D. destruct (pool_at s id) as [p|] eqn:G; [|reflexivity]. exfalso.
  pose proof (po_rc _ _ _ (ok_pool _ _ (i_db _ _ _ _ _ _ H) _ _ G)) as Rc.
  pose proof (i_refs _ _ _ _ _ _ H id) as R. cbn in R. unfold rc_db in R. unfold pool_at in G. rewrite G in R.
  assert (C : count_db (st_db s) id <> 0) by lia. apply C. unfold count_db.
  destruct (filter (fun r => lists_db (st_db s) r id) (mkeys (d_repos (st_db s)))) as [|x l] eqn:F; [reflexivity|]. exfalso.
  assert (X : In x (x :: l)) by (left; reflexivity). rewrite <- F in X. apply filter_In in X. destruct X as [_ X].
  unfold lists_db in X. apply existsb_exists in X. destruct X as ([n e] & Y & Z). apply in_mlist in Y. cbn [snd] in Z.
  pose proof (ok_ent _ _ (i_db _ _ _ _ _ _ H) _ _ _ Y) as He.
  rewrite (i_nod _ _ _ _ _ _ H eq_refl _ _ _ Y) in Z. cbn in Z. rewrite orb_false_r in Z. apply sin_In in Z.
  destruct (eo_avail _ _ _ He _ Z) as (_ & Z' & _). congruence.
Qed.

(** ** the index *)
Definition text_current (s : state) (r : string) : Prop :=
  exists txt, run_text E cat s r = Some txt /\ forall v, In v published_index_files -> index_file s r v = Some (index_content E txt v).

Lemma indexed_text o r s s' : indexed E cat o r s s' (Ok tt) -> text_current s' r.
Proof.
  intros X. inversion X as [|s1 re Hr Q R Eq]; subst.
  destruct (ir_done _ _ _ _ _ _ _ R eq_refl) as (txt & Et & _ & Dn). exists txt. split.
  - revert Et. unfold run_text, dist_of, index_text, index_doc, assets_ok, asset_ok, asset_val. pose proof (ir_quiet _ _ _ _ _ _ _ R) as Qr. rewrite (qr_asset _ _ _ Qr), (qr_db _ _ _ Qr). auto.
  - intros v Hv. destruct (pub_files v Hv) as (k & Hk). pose proof (id_new _ _ _ _ _ Dn k v Hk) as Y. unfold root_is in Y.
    unfold index_file. rewrite Y, (tval_content _ _ k v Hk). reflexivity.
Qed.
Lemma then_text ex fz o r R s' : then_indexed E cat ex fz o r R s' (Ok tt) -> text_current s' r.
Proof. intros (_ & _ & [(X & _)|(s1 & I1 & _ & X)]); [discriminate|]. eapply indexed_text; eauto. Qed.

Lemma request_text ex fz s o p r : Inv ex fz [] s -> good_oracle o -> good_op p -> reindexes p = Some r ->
  succeeds E o p s -> text_current (after E o p s) r.
Proof.
  intros H Ho Hp Hr (l & Su).
  assert (U : forall (m : M unit) C R, run_op E o p = (m ;;; ret []) -> wp m C (then_indexed E cat ex fz o r R) s -> text_current (after E o p s) r).
  { intros m C R Er W. destruct (run_unit E m C _ s o p Er W) as (res & X & Hout). destruct res as [[]| |]; [|congruence..]. eapply then_text; eauto. }
  destruct p; simpl in Hr; try discriminate; try (injection Hr as <-).
  - destruct (run_unit E (api_create E o id) _ _ s o (OpCreate id) eq_refl (wp_api_create E cat Hcat HE ex fz o id s H Ho)) as (res & (I' & Np & W) & Hout).
    destruct W as [(-> & _)|(s1 & I1 & _ & X)]; [congruence|]. destruct res as [[]| |]; [|congruence..]. eapply indexed_text; eauto.
  - eapply U; [reflexivity|apply (wp_api_clone E cat Hcat HE ex fz o src new full s H Ho)].
  - destruct (wp_api_pull E cat Hcat HE ex fz o src tgt s H Ho) as (_ & I' & Np & W).
    change (final_of (api_pull E o src tgt s)) with (after E o (OpPull src tgt) s) in *.
    change (result_of (api_pull E o src tgt s)) with (outcome E o (OpPull src tgt) s) in *.
    destruct W as [(Er & _)|(s1 & ch & rs & I1 & _ & X & [(_ & ->)|(Er & _)])]; [congruence| |congruence].
    eapply indexed_text; eauto.
  - eapply U; [reflexivity|apply (wp_api_remove_source E cat Hcat HE ex fz o r0 source rel s H Ho)].
  - destruct skip_index; [|discriminate]. injection Hr as <-. eapply U; [reflexivity|].
    apply (wp_api_copy_source E cat Hcat HE ex fz o src tgt source rel true s H Ho).
  - eapply U; [reflexivity|apply (wp_api_trim_obsolete E cat Hcat HE ex fz o r0 s H Ho)].
  - eapply U; [reflexivity|apply (wp_api_trim_packages E cat Hcat HE ex fz o r0 k s H Ho)].
  - eapply U; [reflexivity|apply (wp_api_add E cat Hcat HE ex fz o r0 pkgs strict s H Ho Hp)].
  - destruct (run_unit E (api_index E o r0) _ _ s o (OpIndex r0) eq_refl (wp_api_index E cat Hcat HE ex fz o r0 s H Ho)) as (res & (I' & X & Np) & Hout).
    destruct res as [[]| |]; [|congruence..]. exact (indexed_text o r0 s _ X).
Qed.

(** the record of a pool item, without its reference count *)
Definition item (s : state) (id : string) : option (meta * option dinfo) :=
  match pool_at s id with Some p => Some (p_meta p, p_delta p) | None => None end.

(** the text depends on the entries of the repository, the records and the assets only *)
Lemma text_same s t r x : (forall n e id, mget (d_ents (st_db s) r) n = Some e -> e_pub e = id -> listed s r id) ->
  (forall n, mget (d_ents (st_db s) r) n = mget (d_ents (st_db t) x) n) ->
  (forall id, listed s r id -> item s id = item t id) ->
  (forall a, In a asset_names -> asset_file s r a = asset_file t x a) -> run_text E cat s r = run_text E cat t x.
Proof.
  intros Pub En Po As. pose proof (mext _ _ En) as E1.
  assert (A1 := As "distribution.xml" ltac:(left; reflexivity)). assert (A2 := As "components.xml" ltac:(right; left; reflexivity)).
  assert (A3 := As "groups.xml" ltac:(right; right; left; reflexivity)).
  unfold asset_file in *. unfold run_text, dist_of, index_text, index_doc, index_pkgs, assets_ok, asset_ok, asset_val. rewrite A1, A2, A3.
  assert (X0 : forall dist, index_ids (st_db t) x dist = index_ids (st_db s) r dist) by (intros dist; unfold index_ids; rewrite E1; reflexivity).
  assert (X : forall dist id, In id (index_ids (st_db s) r dist) -> emitted cat (st_db s) r id = emitted cat (st_db t) x id).
  { intros dist id Hid. unfold index_ids in Hid. apply (proj1 (sort_strings_In _ _)) in Hid.
    apply in_map_iff in Hid. destruct Hid as ([n e] & Ei & Hf). apply filter_In in Hf. destruct Hf as [Hm _]. apply in_mlist in Hm. cbn [snd] in Ei.
    assert (Pm : pm cat (st_db s) id = pm cat (st_db t) id).
    { assert (Lid : listed s r id) by (apply Pub with (n := n) (e := e); [exact Hm|exact Ei]).
      specialize (Po id Lid). unfold item, pool_at in Po. unfold pm.
      destruct (mget (d_pool (st_db s)) id), (mget (d_pool (st_db t)) id); congruence. }
    unfold emitted. rewrite <- En, Pm. destruct (mget (d_ents (st_db s) r) (m_name (cat id))) as [e2|] eqn:G2; [|reflexivity]. f_equal.
    unfold delta_recs. rewrite !flat_map_concat_map. f_equal. apply map_ext_in. intros y Hy.
    assert (Ly : listed s r y) by (exists (m_name (cat id)), e2; auto).
    specialize (Po y Ly). unfold item, pool_at in Po.
    destruct (mget (d_pool (st_db s)) y) as [p|], (mget (d_pool (st_db t)) y) as [q|]; try discriminate; [|reflexivity].
    injection Po as -> ->. reflexivity. }
  destruct (f_asset (st_fs t) x "distribution.xml") as [c|]; [destruct (E_dist E c) as [o|]; [|reflexivity]|];
    (match goal with |- (if ?b then _ else _) = _ => destruct b; [|reflexivity] end); do 3 f_equal; rewrite X0; apply map_ext_in, X.
Qed.

Lemma pub_listed ex fz s r : Inv ex fz [] s -> forall n e id, mget (d_ents (st_db s) r) n = Some e -> e_pub e = id -> listed s r id.
Proof. intros H n e id G <-. exists n, e. split; [exact G|]. left. apply (eo_pub _ _ _ (ok_ent _ _ (i_db _ _ _ _ _ _ H) _ _ _ G)). Qed.

(** ** requests on other repositories leave the text alone *)
Lemma item_instants o p s t id a b : pool_named (st_db s) -> st_batch s = [] ->
  In t (s :: trace_of (run_op E o p s)) \/ t = after E o p s -> pool_at s id = Some a -> pool_at t id = Some b -> same_item a b.
Proof.
  intros Hn Hb [[<-|Ht]|Ht] Ga Gb; [rewrite Ga in Gb; injection Gb as <-; split; reflexivity| |subst t; exact (item_kept E o p s id a b Hn Hb Ga Gb)].
  assert (D : (removes_packages p = true \/ (exists r, p = OpDelete r)) \/ (removes_packages p = false /\ forall r, p <> OpDelete r)).
  { destruct p; cbn [removes_packages]; try (right; split; [reflexivity|discriminate]); left; auto; right; eexists; reflexivity. }
  destruct D as [D|[D1 D2]].
  - assert (Z : shrink s s).
    { constructor; auto; [|rewrite Hb; constructor]. intros i q G. exists q. rewrite (Hn _ _ G). split; [exact G|split; reflexivity]. }
    destruct (h_run s E o p D s Z) as [F _]. rewrite Forall_forall in F. destruct (F _ Ht) as [A B _].
    destruct (B _ _ Gb) as (q & Gq & S). rewrite (A _ _ Gb) in Gq. unfold pool_at in Ga. congruence.
  - assert (Z : grow s s).
    { constructor; auto. intros i q G. exists q. split; [exact G|split; reflexivity]. }
    destruct (g_run E s o p D1 D2 s Z) as [F _]. rewrite Forall_forall in F. destruct (F _ Ht) as [A B].
    destruct (B _ _ Ga) as (q & Gq & S). unfold pool_at in Gb. congruence.
Qed.

(** the event does not concern repository [r] *)
Definition elsewhere (r : string) (e : event) : Prop :=
  match e with EvOp _ p | EvCrash _ p _ => target p <> Some r | EvAsset x _ _ => x <> r | _ => True end.

Lemma text_obs ex fz s t r : Inv ex fz [] s -> Inv ex fz [] t -> (forall n, mget (d_ents (st_db t) r) n = mget (d_ents (st_db s) r) n) ->
  (forall f, asset_file t r f = asset_file s r f) ->
  (forall id a b, pool_at s id = Some a -> pool_at t id = Some b -> same_item a b) -> run_text E cat t r = run_text E cat s r.
Proof.
  intros H I' L B K. symmetry. apply text_same.
  - apply (pub_listed ex fz), H.
  - intros n. symmetry. apply L.
  - intros id (n & e & G & Hl).
    assert (Hl' : lst e id = true) by (unfold lst; apply orb_true_iff; rewrite !sin_In; exact Hl).
    destruct (listed_in_pool cat ex (st_db s) r n e id (i_db _ _ _ _ _ _ H) (i_refs _ _ _ _ _ _ H) G Hl') as (q & Gq).
    assert (G' : mget (d_ents (st_db t) r) n = Some e) by (etransitivity; [apply L|exact G]).
    destruct (listed_in_pool cat ex (st_db t) r n e id (i_db _ _ _ _ _ _ I') (i_refs _ _ _ _ _ _ I') G' Hl') as (q' & Gq').
    unfold item, pool_at. rewrite Gq, Gq'. destruct (K id q q' Gq Gq') as [-> ->]. reflexivity.
  - intros a _. symmetry. apply B.
Qed.

Lemma text_event s e r : Inv false false [] s -> good_event E cat e -> elsewhere r e ->
  run_text E cat (ev_step E s e) r = run_text E cat s r /\ (forall f, index_file (ev_step E s e) r f = index_file s r f).
Proof.
  intros H G N.
  assert (I' : Inv false false [] (ev_step E s e)) by (apply (Inv_event E cat Hcat HE); auto; discriminate).
  assert (Easy : st_db (ev_step E s e) = st_db s -> (forall f, asset_file (ev_step E s e) r f = asset_file s r f) ->
     (forall f, index_file (ev_step E s e) r f = index_file s r f) ->
     run_text E cat (ev_step E s e) r = run_text E cat s r /\ (forall f, index_file (ev_step E s e) r f = index_file s r f)).
  { intros Ed Ea Ei. split; [|exact Ei]. apply (text_obs false false); auto; [rewrite Ed; reflexivity|].
    intros id a b Ga Gb. unfold pool_at in *. rewrite Ed, Ga in Gb. injection Gb as <-. split; reflexivity. }
  assert (Hard : forall o p t, target p <> Some r -> In t (s :: trace_of (run_op E o p s)) \/ t = after E o p s ->
     st_db (ev_step E s e) = st_db t -> st_fs (ev_step E s e) = st_fs t ->
     run_text E cat (ev_step E s e) r = run_text E cat s r /\ (forall f, index_file (ev_step E s e) r f = index_file s r f)).
  { intros o p t Nt Ht Ed Ef.
    assert (Fr : framed r s t).
    { destruct Ht as [[<-|Ht]|Ht]; [apply framed_refl, (i_batch _ _ _ _ _ _ H)|apply (frame_instants E o p s r t (i_batch _ _ _ _ _ _ H) Nt); right; exact Ht|
        apply (frame_instants E o p s r t (i_batch _ _ _ _ _ _ H) Nt); left; auto]. }
    destruct (framed_obs _ _ _ Fr) as (L & A & B & _). unfold index_file, asset_file in *. split; [|intros f; rewrite Ef; apply A].
    apply (text_obs false false); auto.
    - intros n. rewrite Ed. apply (proj2 L).
    - intros f. unfold asset_file. rewrite Ef. apply B.
    - intros id a b Ga Gb. unfold pool_at in Gb. rewrite Ed in Gb. exact (item_instants o p s t id a b (inv_named E cat _ _ _ _ H) (i_batch _ _ _ _ _ _ H) Ht Ga Gb). }
  destruct e as [o p|o p n| |l c|l|x a c|x]; cbn [elsewhere] in N.
  - apply (Hard o p (after E o p s) N (or_intror eq_refl)); cbn [ev_step]; destruct (result_of (run_op E o p s)); reflexivity.
  - apply (Hard o p (nth n (s :: trace_of (run_op E o p s)) (final_of (run_op E o p s))) N); [|reflexivity|reflexivity].
    destruct (nth_in_or_default n (s :: trace_of (run_op E o p s)) (final_of (run_op E o p s))) as [X|X]; [left; exact X|right; exact X].
  - apply Easy; reflexivity.
  - apply Easy; cbn [ev_step]; destruct (l_tree l); reflexivity.
  - apply Easy; cbn [ev_step]; destruct (l_tree l); reflexivity.
  - apply Easy; [reflexivity| |reflexivity]. intros f. unfold asset_file. cbn. unfold fupd. destruct (seqb_spec r x); [congruence|reflexivity].
  - apply Easy; reflexivity.
Qed.

Lemma text_events h : forall s r, Inv false false [] s -> good_history E cat h -> Forall (elsewhere r) h ->
  run_text E cat (fold_left (ev_step E) h s) r = run_text E cat s r /\ (forall f, index_file (fold_left (ev_step E) h s) r f = index_file s r f).
Proof.
  induction h as [|e h IH]; intros s r H G N; [split; auto|]. inversion G; subst. inversion N; subst. cbn [fold_left].
  destruct (text_event s e r H) as [A B]; auto.
  destruct (IH (ev_step E s e) r) as [A' B']; auto; [apply (Inv_event E cat Hcat HE); auto; discriminate|].
  split; [congruence|]. intros f. rewrite B'. apply B.
Qed.

(** indexing again changes nothing *)
Lemma text_fresh ex fz s o r : Inv ex fz [] s -> good_oracle o -> text_current s r -> succeeds E o (OpIndex r) s ->
  forall v, In v published_index_files -> index_file (after E o (OpIndex r) s) r v = index_file s r v.
Proof.
  intros H Ho (txt & T & F) Su v Hv.
  destruct (request_text ex fz s o (OpIndex r) r H Ho Logic.I eq_refl Su) as (txt' & T' & F').
  destruct (index_facts E cat Hcat HE ex fz s o r H Ho) as (_ & _ & Ed & _ & Ea & _).
  assert (run_text E cat (after E o (OpIndex r) s) r = run_text E cat s r).
  { symmetry. apply text_same; [apply (pub_listed ex fz), H|rewrite Ed; reflexivity|intros id _; unfold item, pool_at; rewrite Ed; reflexivity|intros a _; symmetry; apply Ea]. }
  rewrite F, F' by exact Hv. congruence.
Qed.

(** ** two imports of the same files *)
Lemma loc_dec (a b : loc) : {a = b} + {a <> b}.
Proof. destruct (loc_eqb a b) eqn:X; [left|right]; destruct (loc_eqb_spec a b); congruence. Qed.
Lemma imports_agree r pkgs pkgs' s s1 t1 : Inv true true [] s -> Inv true true [] s1 -> Inv true true [] t1 ->
  good_op (OpAdd r pkgs false) -> import_of cat r pkgs s s1 -> import_of cat r pkgs' s t1 ->
  (forall id, In id (map l_id pkgs) <-> In id (map l_id pkgs')) -> (forall id, sent (st_fs s) pkgs id = sent (st_fs s) pkgs' id) ->
  told_apart s1 r ->
  (forall x n, entry_at s1 x n = entry_at t1 x n) /\ (forall id, pool_at s1 id = pool_at t1 id) /\
  (forall l, file_content (st_fs s1) l = file_content (st_fs t1) l) /\ run_text E cat s1 r = run_text E cat t1 r.
Proof.
  intros H H1 H2 Hp [[K1 Y1 B1] R1 O1 A1 S1] [[K2 Y2 B2] R2 O2 A2 S2] Ids Snt Ap.
  unfold good_op in Hp. rewrite Forall_forall in Hp.
  assert (En : forall x n, mget (d_ents (st_db s1) x) n = mget (d_ents (st_db t1) x) n).
  { intros x n. destruct (string_dec x r) as [->|Nx]; [|rewrite O1, O2 by exact Nx; reflexivity].
    apply (entries_same true true true true s1 t1 r r H1 H2 Ap).
    - intros id. rewrite A1, A2, Ids. tauto.
    - intros m. unfold delta_ids_of, entry_at.
      destruct (mget (d_ents (st_db s1) r) m) eqn:G1; [rewrite (i_nod _ _ _ _ _ _ H1 eq_refl _ _ _ G1)|];
        (destruct (mget (d_ents (st_db t1) r) m) eqn:G2; [rewrite (i_nod _ _ _ _ _ _ H2 eq_refl _ _ _ G2)|]); reflexivity. }
  assert (Nm : forall id, In id (avail_db (st_db s) r (m_name (cat id))) <-> available s r id).
  { intros id. rewrite (avail_named true true s r id H). unfold avail_db. destruct (mget (d_ents (st_db s) r) (m_name (cat id))) as [e|].
    - split; [intros X; exists e; auto|intros (e' & G & X); injection G as <-; exact X].
    - split; [intros []|intros (e' & G & _); discriminate]. }
  assert (Files : forall l, file_content (st_fs s1) l = file_content (st_fs t1) l).
  { intros x. destruct (file_content (st_fs s) x) as [c|] eqn:Fx; [rewrite (K1 _ _ Fx), (K2 _ _ Fx); reflexivity|].
    assert (Pl : forall id, In id (map l_id pkgs) -> file_content (st_fs s) (at_pool cat id) = None ->
       file_content (st_fs s1) (at_pool cat id) = file_content (st_fs t1) (at_pool cat id)).
    { intros id Hin Fn. assert (D : is_delta_id id = false) by (apply in_map_iff in Hin; destruct Hin as (l & <- & Hl); apply Hp, Hl).
      assert (Gp : pool_at s id = None).
      { destruct (pool_at s id) as [p|] eqn:G; [|reflexivity]. destruct (fx_pool _ _ _ (i_fx _ _ _ _ _ _ H eq_refl) id p G D) as (c & C1 & _).
        unfold at_pool in Fn. congruence. }
      assert (Na : ~ In id (avail_db (st_db s) r (m_name (cat id)))).
      { rewrite Nm. intros (n & e & G & X). unfold entry_at in G.
        destruct (listed_in_pool cat true (st_db s) r n e id (i_db _ _ _ _ _ _ H) (i_refs _ _ _ _ _ _ H) G) as (q & Gq); [|unfold pool_at in Gp; congruence].
        unfold lst. rewrite (proj2 (sin_In _ _) X). reflexivity. }
      destruct (B1 id Hin Na) as (c & _ & C2 & C3). destruct (B2 id (proj1 (Ids id) Hin) Na) as (c' & _ & C2' & C3').
      specialize (C3 Gp). specialize (C3' Gp). rewrite Snt in C3. congruence. }
    destruct (in_dec loc_dec x (map (fun l => at_pool cat (l_id l)) pkgs)) as [Hx|Hx].
    { apply in_map_iff in Hx. destruct Hx as (l & <- & Hl). apply Pl; [apply in_map, Hl|exact Fx]. }
    destruct (in_dec loc_dec x (map (fun l => at_repo cat r (l_id l)) pkgs)) as [Hy|Hy].
    { apply in_map_iff in Hy. destruct Hy as (l & <- & Hl). set (id := l_id l) in *.
      assert (Hin : In id (map l_id pkgs)) by (apply in_map, Hl).
      assert (Na : ~ In id (avail_db (st_db s) r (m_name (cat id)))).
      { rewrite Nm. intros (n & e & G & X). unfold entry_at in G.
        destruct (listed_in_pool cat true (st_db s) r n e id (i_db _ _ _ _ _ _ H) (i_refs _ _ _ _ _ _ H) G) as (q & Gq); [unfold lst; rewrite (proj2 (sin_In _ _) X); reflexivity|].
        destruct (fx_repo _ _ _ (i_fx _ _ _ _ _ _ H eq_refl) r n e id q G X Gq) as (c & C1 & _). unfold at_repo in Fx. congruence. }
      destruct (B1 id Hin Na) as (c & C1 & C2 & _). destruct (B2 id (proj1 (Ids id) Hin) Na) as (c' & C1' & C2' & _).
      rewrite C1, C1'. rewrite <- C2, <- C2'.
      destruct (file_content (st_fs s) (at_pool cat id)) as [c0|] eqn:Fp; [rewrite (K1 _ _ Fp), (K2 _ _ Fp); reflexivity|]. apply Pl; assumption. }
    rewrite Y1, Y2; [reflexivity| |].
    - intros l Hl. assert (Z : In (l_id l) (map l_id pkgs)) by (apply Ids, in_map, Hl). apply in_map_iff in Z. destruct Z as (l' & Ez & Hl').
      rewrite <- Ez. split; intros ->; [apply Hx, (in_map (fun l => at_pool cat (l_id l))), Hl'|apply Hy, (in_map (fun l => at_repo cat r (l_id l))), Hl'].
    - intros l Hl. split; intros ->; [apply Hx, (in_map (fun l => at_pool cat (l_id l))), Hl|apply Hy, (in_map (fun l => at_repo cat r (l_id l))), Hl]. }
  assert (Re : forall x, repo_exists s1 x = repo_exists t1 x) by (intros x; unfold repo_exists; rewrite R1, R2; reflexivity).
  pose proof (counts_same s1 t1 H1 H2 Re En) as Cs.
  assert (Po : forall id, pool_at s1 id = pool_at t1 id).
  { apply (pool_same s1 t1 H1 H2 Cs); [|intros id _; apply Files]. intros id D. split; apply no_pooled_delta; assumption. }
  split; [exact En|]. split; [exact Po|]. split; [exact Files|].
  apply text_same; [apply (pub_listed true true), H1|apply En|intros id _; unfold item; rewrite Po; reflexivity|].
  intros a _. unfold asset_file. rewrite S1, S2. reflexivity.
Qed.
(** ** an import taken back *)
Lemma removal_shrinks o p r s : removes_packages p = true -> target p = Some r ->
  (forall l, file_content (st_fs (after E o p s)) l = file_content (st_fs s) l \/ file_content (st_fs (after E o p s)) l = None) /\
  (forall x k, asset_file (after E o p s) x k = asset_file s x k).
Proof.
  intros Rm Tg. destruct (removal_split r E o p Rm Tg) as (Y & Sp & _ & MY).
  assert (MR : mono r (run_op E o p)).
  { intros u. rewrite (Sp u). apply mo_bind; [apply o_get_repo|intros _; exact MY]. }
  destruct (MR s) as [(S1 & S2 & S3 & _) _]. fold (after E o p s) in S1, S2, S3. split; [|exact S3].
  intros l. unfold file_content. rewrite S1. destruct (S2 l) as [->| ->]; auto.
Qed.

Lemma told_apart_sub s t r : told_apart s r -> (forall id, available t r id -> available s r id) -> told_apart t r.
Proof. intros Ap Sub id id' A B. apply Ap; apply Sub; assumption. Qed.

Lemma undo r pkgs source rl o s s1 : Inv true true [] s -> Inv true true [] s1 -> good_oracle o -> good_op (OpAdd r pkgs false) -> import_of cat r pkgs s s1 ->
  (forall id, In id (map l_id pkgs) -> ~ available s r id) -> (forall id, from_source s1 r source rl id <-> In id (map l_id pkgs)) ->
  told_apart s r ->
  let s2 := after E o (OpRemoveSource r source rl) s1 in
  (forall x n, entry_at s2 x n = entry_at s x n) /\ (forall id, pool_at s2 id = pool_at s id) /\
  (forall l, l_tree l = TPool \/ (exists x, l_tree l = TRepo x) -> is_delta_id (l_id l) = false -> file_content (st_fs s2) l = file_content (st_fs s) l) /\
  run_text E cat s2 r = run_text E cat s r /\ (forall x a, asset_file s2 x a = asset_file s x a).
Proof.
  intros H H1 Ho Hp Im New Src Ap s2. pose proof Im as [[K1 Y1 B1] R1 O1 A1 S1].
  assert (H2 : Inv true true [] s2) by (apply (after_inv E cat Hcat HE); auto; exact Logic.I).
  destruct (removal_shrinks o (OpRemoveSource r source rl) r s1 eq_refl eq_refl) as [Sh As]. fold s2 in Sh, As.
  destruct (remove_source_facts E cat Hcat HE true true s1 o r source rl H1 Ho) as (F0 & F1). fold s2 in F0, F1.
  assert (Av : forall id, available s2 r id <-> available s r id).
  { intros id. destruct (map l_id pkgs) as [|i0 is0] eqn:Em.
    - destruct (F0 (or_intror (fun i X => proj1 (Src i) X))) as (_ & Ed & _). unfold available, entry_at. rewrite Ed. change (available s1 r id <-> available s r id).
      rewrite A1. cbn. tauto.
    - assert (Ex : exists i, from_source s1 r source rl i) by (exists i0; apply Src; left; reflexivity).
      destruct (repo_exists s1 r) eqn:Re; [|destruct Ex as (i & (n & e & G & _) & _); pose proof (ok_repo _ _ (i_db _ _ _ _ _ _ H1) _ _ _ G); unfold repo_exists in Re; congruence].
      destruct (F1 eq_refl Ex) as (X & _). rewrite X, A1, Src. split; [tauto|]. intros Y. split; [left; exact Y|]. intros Z. exact (New id Z Y). }
  assert (Ot : forall x, x <> r -> forall n, mget (d_ents (st_db s2) x) n = mget (d_ents (st_db s) x) n).
  { intros x Nx n. rewrite <- (O1 x Nx).
    destruct (framed_obs _ _ _ (frame_instants E o (OpRemoveSource r source rl) s1 x s2 (i_batch _ _ _ _ _ _ H1) ltac:(cbn; congruence) (or_introl eq_refl))) as ((_ & L) & _).
    apply L. }
  assert (Rp : d_repos (st_db s2) = d_repos (st_db s)).
  { rewrite <- R1. assert (K : PropsRepeat.rkeep (d_repos (st_db s1)) s1) by (split; [reflexivity|]; rewrite (i_batch _ _ _ _ _ _ H1); constructor).
    destruct (PropsRepeat.r_run E (d_repos (st_db s1)) o (OpRemoveSource r source rl) eq_refl s1 K) as (_ & X). apply (proj1 X). }
  assert (Re2 : forall x, repo_exists s x = repo_exists s2 x) by (intros x; unfold repo_exists; rewrite Rp; reflexivity).
  assert (En : forall x n, mget (d_ents (st_db s) x) n = mget (d_ents (st_db s2) x) n).
  { intros x n. destruct (string_dec x r) as [->|Nx]; [|symmetry; apply Ot, Nx].
    apply (entries_same true true true true s s2 r r H H2 Ap).
    - intros id. symmetry. apply Av.
    - intros m. unfold delta_ids_of, entry_at.
      destruct (mget (d_ents (st_db s) r) m) eqn:G1; [rewrite (i_nod _ _ _ _ _ _ H eq_refl _ _ _ G1)|];
        (destruct (mget (d_ents (st_db s2) r) m) eqn:G2; [rewrite (i_nod _ _ _ _ _ _ H2 eq_refl _ _ _ G2)|]); reflexivity. }
  pose proof (counts_same s s2 H H2 Re2 En) as Cs.
  assert (Keep : forall l c, file_content (st_fs s) l = Some c -> file_content (st_fs s2) l <> None -> file_content (st_fs s2) l = Some c).
  { intros l c F N. destruct (Sh l) as [X|X]; [|congruence]. rewrite X. apply K1, F. }
  assert (Pl : forall id, pool_at s id <> None <-> pool_at s2 id <> None).
  { intros id. specialize (Cs id). unfold refcount, rc_db in Cs. unfold pool_at.
    destruct (mget (d_pool (st_db s)) id) as [p|] eqn:G, (mget (d_pool (st_db s2)) id) as [q|] eqn:G'; try (split; congruence).
    - pose proof (po_rc _ _ _ (ok_pool _ _ (i_db _ _ _ _ _ _ H) _ _ G)). lia.
    - pose proof (po_rc _ _ _ (ok_pool _ _ (i_db _ _ _ _ _ _ H2) _ _ G')). lia. }
  assert (FilesP : forall c id, is_delta_id id = false -> file_content (st_fs s2) (Loc TPool c id) = file_content (st_fs s) (Loc TPool c id)).
  { intros c id D. destruct (file_content (st_fs s) (Loc TPool c id)) as [b|] eqn:F.
    - assert (Z : c = comp_of (cat id) /\ mget (d_pool (st_db s)) id <> None).
      { apply (fz_pool _ _ (i_fz _ _ _ _ _ _ H eq_refl) c id D). unfold file_content in F. destruct (f_name (st_fs s) (Loc TPool c id)); [discriminate|discriminate]. }
      destruct Z as [-> Z]. apply (proj1 (Pl id)) in Z. unfold pool_at in Z. destruct (mget (d_pool (st_db s2)) id) as [q|] eqn:G; [|congruence].
      destruct (fx_pool _ _ _ (i_fx _ _ _ _ _ _ H2 eq_refl) id q G D) as (c2 & C2 & _). apply Keep; [exact F|congruence].
    - destruct (file_content (st_fs s2) (Loc TPool c id)) as [b|] eqn:F2; [|reflexivity]. exfalso.
      assert (Z : c = comp_of (cat id) /\ mget (d_pool (st_db s2)) id <> None).
      { apply (fz_pool _ _ (i_fz _ _ _ _ _ _ H2 eq_refl) c id D). unfold file_content in F2. destruct (f_name (st_fs s2) (Loc TPool c id)); [discriminate|discriminate]. }
      destruct Z as [-> Z]. apply (proj2 (Pl id)) in Z. unfold pool_at in Z. destruct (mget (d_pool (st_db s)) id) as [q|] eqn:G; [|congruence].
      destruct (fx_pool _ _ _ (i_fx _ _ _ _ _ _ H eq_refl) id q G D) as (c2 & C2 & _). congruence. }
  assert (FilesR : forall x c id, is_delta_id id = false -> file_content (st_fs s2) (Loc (TRepo x) c id) = file_content (st_fs s) (Loc (TRepo x) c id)).
  { intros x c id D. destruct (file_content (st_fs s) (Loc (TRepo x) c id)) as [b|] eqn:F.
    - destruct (fz_repo _ _ (i_fz _ _ _ _ _ _ H eq_refl) x c id D) as (-> & e & G & Hin).
      { unfold file_content in F. destruct (f_name (st_fs s) (Loc (TRepo x) c id)); [discriminate|discriminate]. }
      rewrite En in G. destruct (listed_in_pool cat true (st_db s2) x _ e id (i_db _ _ _ _ _ _ H2) (i_refs _ _ _ _ _ _ H2) G) as (q & Gq); [unfold lst; rewrite (proj2 (sin_In _ _) Hin); reflexivity|].
      destruct (fx_repo _ _ _ (i_fx _ _ _ _ _ _ H2 eq_refl) x _ e id q G Hin Gq) as (c2 & C2 & _). apply Keep; [exact F|congruence].
    - destruct (file_content (st_fs s2) (Loc (TRepo x) c id)) as [b|] eqn:F2; [|reflexivity]. exfalso.
      destruct (fz_repo _ _ (i_fz _ _ _ _ _ _ H2 eq_refl) x c id D) as (-> & e & G & Hin).
      { unfold file_content in F2. destruct (f_name (st_fs s2) (Loc (TRepo x) c id)); [discriminate|discriminate]. }
      rewrite <- En in G. destruct (listed_in_pool cat true (st_db s) x _ e id (i_db _ _ _ _ _ _ H) (i_refs _ _ _ _ _ _ H) G) as (q & Gq); [unfold lst; rewrite (proj2 (sin_In _ _) Hin); reflexivity|].
      destruct (fx_repo _ _ _ (i_fx _ _ _ _ _ _ H eq_refl) x _ e id q G Hin Gq) as (c2 & C2 & _). congruence. }
  assert (Po : forall id, pool_at s id = pool_at s2 id).
  { apply (pool_same s s2 H H2 Cs).
    - intros id D. split; apply no_pooled_delta; assumption.
    - intros id G. destruct (is_delta_id id) eqn:D; [rewrite (no_pooled_delta s id H D) in G; congruence|]. symmetry. apply FilesP, D. }
  assert (Assets : forall x a, asset_file s2 x a = asset_file s x a).
  { intros x a. rewrite As. unfold asset_file. rewrite S1. reflexivity. }
  split; [intros x n; symmetry; apply En|]. split; [intros id; symmetry; apply Po|]. split; [|split; [|exact Assets]].
  - intros [t c id] Ht D. cbn in Ht, D. destruct Ht as [->|(x & ->)]; [apply FilesP, D|apply FilesR, D].
  - symmetry. apply text_same; [apply (pub_listed true true), H|apply En|intros id _; unfold item; rewrite Po; reflexivity|intros a _; symmetry; apply Assets].
Qed.
End Same.
