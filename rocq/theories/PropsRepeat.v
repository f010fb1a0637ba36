(** * C70: doing a request twice *)
From Verif Require Import Model Spec Demo DemoOk DbInv DbOps Wp FsInv Ops RepoOps ApiOps History PoolFacts OpFacts OpFacts2 IndexFacts Frame OpFacts3 PropsPool PropsIndex PropsOps.
From Verif Require Import DeleteOps Pure Loops.
From Verif Require Import Model Spec FsInv.
Open Scope string_scope. Open Scope list_scope.

(** ** Specification *)
(** [s] and [s'] have the same repositories, offering the same versions *)
Definition same_offer (s s' : state) : Prop :=
  forall r, repo_exists s' r = repo_exists s r /\
    forall n, available_ids s' r n = available_ids s r n /\ published_release s' r n = published_release s r n.
(** requests for which repeating is claimed to be harmless: not trimming obsolete
    packages, no strict uploads (C63), no deltas; when trimming to the newest
    versions, no two listed versions of a package may have the same release *)
Definition repeatable (p : op) (s : state) : Prop :=
  match p with
  | OpTrimObsolete _ | OpAddDelta _ _ _ _ | OpRefDelta _ _ | OpMarkFailed _ _ => False
  | OpAdd _ _ strict => strict = false
  | OpTrimPackages r _ => forall n a b, In a (available_ids s r n) -> In b (available_ids s r n) -> pool_release s a = pool_release s b -> a = b
  | _ => True
  end.

(** ** Which requests make or unmake repositories *)
Definition repo_op (p : op) : bool := match p with OpCreate _ | OpDelete _ | OpClone _ _ _ => true | _ => false end.
Section Repos.
Variable E : env.
Variable D : smap unit.
Definition no_repo_write (o : dbop) : Prop := match o with PutRepo _ | DelRepo _ => False | _ => True end.
Definition rkeep (t : state) : Prop := d_repos (st_db t) = D /\ Forall no_repo_write (st_batch t).
Lemma r_fold q : forall d, Forall no_repo_write q -> d_repos (fold_left apply_op q d) = d_repos d.
Proof. induction q as [|o q IH]; intros d F; [reflexivity|]. inversion F; subst. cbn [fold_left]. rewrite IH by assumption. destruct o; try contradiction; reflexivity. Qed.
Lemma r_write b o : no_repo_write o -> keeps rkeep (db_write b o).
Proof.
  intros N. unfold db_write. destruct (reserved (op_key o)); [apply keeps_err|]. destruct b.
  - apply keeps_vol. intros s [A F]. split; [exact A|]. apply Forall_app; auto.
  - apply keeps_durable. intros s [A F]. split; [|exact F]. destruct o; try contradiction; exact A.
Qed.
Lemma r_tx m : keeps rkeep m -> keeps rkeep (update_tx m).
Proof.
  intros H s [A F]. assert (F0 : rkeep (on_batch (fun _ => []) s)) by (split; [exact A|constructor]).
  specialize (H _ F0). unfold wp, update_tx in *. destruct (m (on_batch (fun _ => []) s)) as [[t s1] [a| |]]; cbn [trace_of final_of result_of fst snd] in *; destruct H as [H1 [H2 H3]].
  - assert (F2 : rkeep (St (fold_left apply_op (st_batch s1) (st_db s1)) (st_fs s1) (st_cache s1) [])) by (split; [cbn [st_db]; rewrite r_fold by exact H3; exact H2|constructor]).
    split; [apply Forall_app; split; [exact H1|constructor; [exact F2|constructor]]|exact F2].
  - split; [exact H1|]. split; [exact H2|constructor].
  - split; [exact H1|]. split; [exact H2|constructor].
Qed.
Lemma r_fs g : keeps rkeep (durable (on_fs g)).
Proof. apply keeps_durable. intros s [A F]. split; assumption. Qed.
Lemma r_cache g : keeps rkeep (vol (on_cache g)).
Proof. apply keeps_vol. intros s [A F]. split; assumption. Qed.
Ltac kr := unfold root_write, remove_all, root_set, remove_file in *; repeat match goal with
  | |- keeps _ (db_write _ _) => apply r_write; exact Logic.I
  | |- keeps _ (durable (on_fs _)) => apply r_fs
  | |- keeps _ (vol (on_cache _)) => apply r_cache
  | |- keeps _ (bind _ _) => apply keeps_bind; [|intro]
  | |- keeps _ (ret _) => apply keeps_ret
  | |- keeps _ err => apply keeps_err
  | |- keeps _ panic => apply keeps_panic
  | |- keeps _ (lift _) => apply keeps_lift
  | |- keeps _ (gets _) => apply keeps_gets
  | |- keeps _ (on_err _ _) => apply keeps_on_err
  | |- keeps _ (forM _ _) => apply keeps_forM; intro
  | |- keeps _ (foldM _ _ _) => apply keeps_foldM; intros ? ?
  | |- keeps _ (update_tx _) => apply r_tx
  | |- keeps _ (match ?d with _ => _ end) => destruct d
  end.
Ltac kr0 := unfold link_or_copy, copy_file, pool_add_internal, pool_add_delta, pool_ref, pool_unref, pool_get_or_err, pool_get, get_repo, bake_repo, build_sane_entry, ent_get, ent_list, open_pkg, init_distribution, root_get in *; kr.
Ltac kr1 := kr0; kr0; kr0.
Lemma r_get_repo r : keeps rkeep (get_repo r). Proof. kr1. Qed.
Lemma r_remove_internal b r id : keeps rkeep (remove_internal b r id). Proof. unfold remove_internal. kr1. Qed.
Lemma r_add_local r src m : keeps rkeep (add_local_package E r src m). Proof. unfold add_local_package. kr1. Qed.
Lemma r_add_package r src st : keeps rkeep (add_package E r src st). Proof. unfold add_package. kr1; apply r_add_local. Qed.
Lemma r_ref_package r id : keeps rkeep (ref_package E r id). Proof. unfold ref_package. kr1. Qed.
Lemma r_ref_delta r id : keeps rkeep (ref_delta E r id). Proof. unfold ref_delta. kr1. Qed.
Lemma r_add_delta r src a b : keeps rkeep (add_delta E r src a b). Proof. unfold add_delta. kr1. Qed.
Lemma r_unref r id : keeps rkeep (unref_package r id). Proof. unfold unref_package, unref_deltas, unref_avail. kr1; apply r_remove_internal. Qed.
Lemma r_assets r src : keeps rkeep (pull_assets r src). Proof. unfold pull_assets. kr1. Qed.
Lemma r_pull r src : keeps rkeep (pull_from E r src). Proof. unfold pull_from, pull_collect. kr1; first [apply r_assets | apply r_ref_package]. Qed.
Lemma r_match rr source rl : keeps rkeep (match_source rr source rl). Proof. unfold match_source. kr1. Qed.
Lemma r_remove_source r source rl : keeps rkeep (remove_source r source rl). Proof. unfold remove_source. kr1; first [apply r_match | apply r_unref]. Qed.
Lemma r_copy_source r src source rl : keeps rkeep (copy_source_from E r src source rl). Proof. unfold copy_source_from. kr1; first [apply r_match | apply r_ref_package]. Qed.
Lemma r_scan dist n av : keeps rkeep (trim_obs_scan dist n av). Proof. induction av; cbn [trim_obs_scan]; kr1; auto. Qed.
Lemma r_trim_obs r : keeps rkeep (trim_obsolete E r). Proof. unfold trim_obsolete. kr1; first [apply r_scan | apply r_unref]. Qed.
Lemma r_trim_packages o r k : keeps rkeep (trim_packages o r k). Proof. unfold trim_packages. kr1; apply r_unref. Qed.
Lemma r_emit r dist : keeps rkeep (emit_index E r dist). Proof. unfold emit_index, emit_package, push_deltas, asset_part. kr1. Qed.
Lemma r_stages r st : Forall (fun y => keeps rkeep (snd y)) st -> forall done, keeps rkeep (run_stages r done st).
Proof.
  induction 1 as [|[[k v] m] st Hm _ IH]; intros done; cbn [run_stages]; [apply keeps_ret|].
  apply keeps_bind; [|intros _; apply IH]. apply keeps_on_err; [exact Hm|]. kr1.
Qed.
Lemma r_index o r : keeps rkeep (api_index E o r).
Proof.
  unfold api_index, index. apply keeps_bind; [apply r_get_repo|intros _]. apply keeps_bind; [unfold init_distribution; kr|]. intros dist.
  apply keeps_bind.
  - apply r_stages. unfold index_stages, write_sum, compress.
    repeat (apply Forall_cons; [cbn [snd]; kr1; try apply r_emit|]). apply Forall_nil.
  - intros mp. unfold rename. kr1.
Qed.
Lemma r_run o p : repo_op p = false -> keeps rkeep (run_op E o p).
Proof.
  intros N. destruct p; cbn [run_op repo_op] in *; try discriminate;
  unfold api_pull, api_remove_source, api_copy_source, api_trim_obsolete, api_trim_packages, api_add_packages, api_add_delta, api_ref_delta, mark_delta_failed;
  kr; first [ apply r_get_repo | apply r_index | apply r_pull | apply r_remove_source | apply r_copy_source | apply r_trim_obs | apply r_trim_packages
    | apply r_add_package | apply r_add_delta | apply r_ref_delta ].
Qed.
End Repos.

(** ** Proof *)
Lemma option_string_dec (a b : option string) : {a = b} + {a <> b}.
Proof. decide equality. apply string_dec. Qed.
Section P.
Variable E : env.
Variable cat : string -> meta.
Hypothesis Hc : good_catalog cat.
Hypothesis HE : good_env E.
Notation Inv := (FsInv.Inv E cat).

Lemma sorted_same l l' : StronglySorted slt l -> StronglySorted slt l' -> (forall x, In x l <-> In x l') -> l = l'.
Proof.
  revert l'. induction l as [|a l IH]; intros l' S S' H.
  - destruct l' as [|b l']; [reflexivity|]. destruct (proj2 (H b) (or_introl eq_refl)).
  - destruct l' as [|b l']; [destruct (proj1 (H a) (or_introl eq_refl))|].
    apply StronglySorted_inv in S as [S F]. apply StronglySorted_inv in S' as [S' F']. rewrite Forall_forall in F, F'.
    assert (a = b).
    { destruct (proj1 (H a) (or_introl eq_refl)) as [X|X]; [congruence|]. destruct (proj2 (H b) (or_introl eq_refl)) as [Y|Y]; [congruence|].
      specialize (F b Y). specialize (F' a X). destruct (slt_irrefl a). eapply slt_trans; eauto. }
    subst b. f_equal. apply IH; [exact S|exact S'|]. intros x. split; intros Hx.
    + destruct (proj1 (H x) (or_intror Hx)) as [<-|X]; [|exact X]. destruct (slt_irrefl a). apply F, Hx.
    + destruct (proj2 (H x) (or_intror Hx)) as [<-|X]; [|exact X]. destruct (slt_irrefl a). apply F', Hx.
Qed.
Lemma ids_avail s r n : available_ids s r n = avail_db (st_db s) r n.
Proof. reflexivity. Qed.
Lemma same_ids ex fz ex' fz' s s' r : Inv ex fz [] s -> Inv ex' fz' [] s' -> (forall id, available s' r id <-> available s r id) ->
  forall n, available_ids s' r n = available_ids s r n.
Proof.
  intros I I' H n. apply sorted_same; [eapply avail_sorted; eauto|eapply avail_sorted; eauto|]. intros id. rewrite !ids_avail. split; intros X.
  - assert (Y : available s r id) by (apply H, avail_in; eauto). apply avail_in in Y as (n' & Y). rewrite <- (avail_name E cat _ _ _ _ _ _ I' X), (avail_name E cat _ _ _ _ _ _ I Y). exact Y.
  - assert (Y : available s' r id) by (apply H, avail_in; eauto). apply avail_in in Y as (n' & Y). rewrite <- (avail_name E cat _ _ _ _ _ _ I X), (avail_name E cat _ _ _ _ _ _ I' Y). exact Y.
Qed.
Lemma pub_max ex fz s r n a : Inv ex fz [] s -> (published_release s r n = Some a <->
  (exists id, In id (available_ids s r n) /\ rel (cat id) = a) /\ forall id, In id (available_ids s r n) -> (rel (cat id) <= a)%Z).
Proof.
  intros I. unfold published_release, published, available_ids. destruct (entry_at s r n) as [e|] eqn:G; [|split; [discriminate|intros ((id & [] & _) & _)]].
  destruct (inv_newest E cat ex fz s r n e I G) as (Hp & q & Gq & Mx). unfold pool_release. rewrite Gq.
  assert (C : forall id p, pool_at s id = Some p -> rel (p_meta p) = rel (cat id)) by (intros id p Gp; apply (meta_of_rel cat), (po_meta _ _ _ (ok_pool _ _ (i_db _ _ _ _ _ _ I) _ _ Gp))).
  assert (M : forall id, In id (e_avail e) -> (rel (cat id) <= rel (cat (e_pub e)))%Z).
  { intros id Hi. assert (X : In id (avail_db (st_db s) r n)) by (unfold avail_db; unfold entry_at in G; rewrite G; exact Hi).
    destruct (avail_in_pool E cat ex fz s r n id I X) as (p & Gp). rewrite <- (C id p Gp), <- (C _ _ Gq). eapply Mx; eauto. }
  rewrite (C _ _ Gq). split.
  - intros X. injection X as <-. split; [exists (e_pub e); auto|exact M].
  - intros ((id & Hi & <-) & L). f_equal. specialize (M id Hi). specialize (L _ Hp). lia.
Qed.
Lemma same_release ex fz ex' fz' s s' r n : Inv ex fz [] s -> Inv ex' fz' [] s' -> available_ids s' r n = available_ids s r n ->
  published_release s' r n = published_release s r n.
Proof.
  intros I I' H. destruct (published_release s r n) as [a|] eqn:X.
  - apply (pub_max _ _ _ _ _ _ I'). rewrite H. apply (pub_max _ _ _ _ _ _ I). exact X.
  - destruct (published_release s' r n) as [a|] eqn:Y; [|reflexivity]. apply (pub_max _ _ _ _ _ _ I') in Y. rewrite H in Y. apply (pub_max _ _ _ _ _ _ I) in Y. congruence.
Qed.

Lemma src_cat ex fz s r source rl id : Inv ex fz [] s ->
  from_source s r source rl id <-> available s r id /\ m_src (cat id) = source /\ ((rl <= 0)%Z \/ rel (cat id) = rl).
Proof.
  intros I. unfold from_source. split.
  - intros (A & p & G & S & R). destruct (pool_cat E cat ex fz s id p I G) as (_ & Es & Er). rewrite <- Es, <- Er. auto.
  - intros (A & S & R). split; [exact A|]. apply avail_in in A as (n & A). destruct (avail_in_pool E cat ex fz s r n id I A) as (p & G). exists p.
    destruct (pool_cat E cat ex fz s id p I G) as (_ & -> & ->). auto.
Qed.
Lemma index_db ex fz s o r : Inv ex fz [] s -> good_oracle o -> st_db (after E o (OpIndex r) s) = st_db s.
Proof.
  intros I Ho. destruct (run_unit E (api_index E o r) _ _ s o (OpIndex r) eq_refl (wp_api_index E cat Hc HE ex fz o r s I Ho)) as (res & (_ & X & _) & _).
  exact (indexed_db E cat _ _ _ _ _ X).
Qed.
Lemma same_avail s s' r : same_listings r s s' -> forall id, available s' r id <-> available s r id.
Proof. intros (_ & H) id. unfold available. split; intros (n & e & G & X); exists n, e; rewrite ?H in *; auto. Qed.
Lemma same_src s s' r : same_listings r s s' -> forall n, available_ids s' r n = available_ids s r n.
Proof. intros (_ & H) n. unfold available_ids. rewrite H. reflexivity. Qed.
Lemma unchanged_avail s s' r : unchanged s s' -> repo_exists s' r = repo_exists s r /\ forall id, available s' r id <-> available s r id.
Proof. intros (D & _). unfold repo_exists, available, entry_at. rewrite D. split; [reflexivity|intros id; reflexivity]. Qed.

(** the target of a repeated request *)
Lemma src_dec ex fz s r source rl : Inv ex fz [] s -> (exists id, from_source s r source rl id) \/ forall id, ~ from_source s r source rl id.
Proof.
  intros I. destruct (src_ids cat (st_db s) r source rl) as [|x l] eqn:X; [right; apply (src_ids_nil E cat ex fz s r source rl I), X|].
  left. exists x. apply (src_ids_spec E cat ex fz s r source rl x I). rewrite X. left. reflexivity.
Qed.
Lemma repos_same s o p : reachable E cat s -> repo_op p = false -> forall r, repo_exists (after E o p s) r = repo_exists s r.
Proof.
  intros (h & Hh & ->) N r. pose proof (hist_inv E cat Hc HE h Hh) as I. destruct (r_run E (d_repos (st_db (run_history E h))) o p N (run_history E h)) as (_ & X & _).
  - split; [reflexivity|]. rewrite (i_batch _ _ _ _ _ _ I). constructor.
  - unfold repo_exists, after. rewrite X. reflexivity.
Qed.
Lemma target_same s o o2 p r : reachable_completed E cat s -> good_oracle o -> good_oracle o2 -> good_op p -> repeatable p s -> succeeds E o p s ->
  let s1 := after E o p s in let s2 := after E o2 p s1 in
  target p = Some r -> repo_exists s2 r = repo_exists s1 r /\ forall id, available s2 r id <-> available s1 r id.
Proof.
  intros Rc Ho Ho2 Gp Rp Su s1 s2 Tr. cut ((repo_op p = false \/ repo_exists s2 r = repo_exists s1 r) /\ forall id, available s2 r id <-> available s1 r id).
  { intros ([X|X] & Y); split; auto. assert (R1 : reachable E cat s1); [|exact (repos_same s1 o2 p R1 X r)].
    destruct Rc as (h & A & C & ->). exists (h ++ [EvOp o p]). split; [apply Forall_app; split; [exact A|constructor; [split; assumption|constructor]]|].
    unfold run_history. rewrite fold_left_app. cbn [fold_left]. cbn [ev_step].
    change (fold_left (ev_step E) h init) with (run_history E h). destruct Su as (l & Su). unfold outcome in Su. rewrite Su. reflexivity. }
  
  assert (R : reachable E cat s) by (destruct Rc as (h & A & _ & D); exists h; auto).
  assert (Rc1 : reachable_completed E cat s1).
  { destruct Rc as (h & A & C & ->). exists (h ++ [EvOp o p]). split; [apply Forall_app; split; [exact A|constructor; [split; assumption|constructor]]|].
    split; [apply Forall_app; split; [exact C|constructor; [exact Logic.I|constructor]]|]. unfold run_history. rewrite fold_left_app. cbn [fold_left]. cbn [ev_step].
    change (fold_left (ev_step E) h init) with (run_history E h). destruct Su as (l & Su). unfold outcome in Su. rewrite Su. reflexivity. }
  assert (R1 : reachable E cat s1) by (destruct Rc1 as (h & A & _ & D); exists h; auto).
  assert (I : Inv false true [] s) by (destruct Rc as (h & A & C & ->); exact (hist_fz E cat Hc HE h A C)).
  assert (I1 : Inv false true [] s1) by (destruct Rc1 as (h & A & C & ->); exact (hist_fz E cat Hc HE h A C)).
  assert (Np : outcome E o p s <> Err) by (destruct Su as (l & ->); discriminate).
  destruct p as [c|c|src new full|src tgt|c source rl|src tgt source rl skip|c|c k|c pkgs strict|c|c l f t|c l|a b]; cbn [target] in Tr; try discriminate; injection Tr as ->; cbn [repeatable] in Rp; try contradiction.
  - (* create *)
    destruct (C13_create E cat s1 o2 r Hc HE R1 Ho2) as (A & D).
    assert (Ex : repo_exists s1 r = true).
    { destruct (C13_create E cat s o r Hc HE R Ho) as (A0 & D0). destruct (repo_exists s r) eqn:X1; [destruct (A0 (or_introl eq_refl)); contradiction|].
      destruct (dir_exists s r) eqn:X2; [destruct (A0 (or_intror (or_introl eq_refl))); contradiction|].
      destruct (reserved r) eqn:X3; [destruct (A0 (or_intror (or_intror eq_refl))); contradiction|]. apply (D0 eq_refl eq_refl eq_refl). }
    destruct (unchanged_avail s1 s2 r (proj2 (A (or_introl Ex)))) as [U1 U2]. split; [right; exact U1|exact U2].
  - (* delete *)
    destruct (C12_delete E cat s o r Hc HE R) as (S1 & _ & D). apply S1 in Su. destruct (D Su) as (X & _). fold s1 in X.
    destruct (C12_delete E cat s1 o2 r Hc HE R1) as (_ & Z & _). unfold s2. rewrite (Z X). split; [right; reflexivity|intros id; reflexivity].
  - (* clone *)
    destruct (C14_clone E cat s1 o2 src r full Hc HE R1 Ho2) as (A & _).
    assert (Ex : repo_exists s1 r = true).
    { destruct (C14_clone E cat s o src r full Hc HE R Ho) as (A0 & D0). destruct (repo_exists s src) eqn:X0; [|destruct A0; [tauto|contradiction]].
      destruct (repo_exists s r) eqn:X1; [destruct A0; [tauto|contradiction]|].
      destruct (dir_exists s r) eqn:X2; [destruct A0; [tauto|contradiction]|].
      destruct (reserved r) eqn:X3; [destruct A0; [tauto|contradiction]|]. apply (D0 eq_refl eq_refl eq_refl eq_refl). }
    destruct (unchanged_avail s1 s2 r (proj2 (A (or_intror (or_introl Ex))))) as [U1 U2]. split; [right; exact U1|exact U2].
  - (* pull *)
    split; [left; reflexivity|].
    assert (Nd : good_op (OpPull src r)) by exact Logic.I.
    destruct (C15_pull E cat s o src r Hc HE R Ho) as (A & D).
    destruct (repo_exists s src) eqn:Xs; [|destruct A; [tauto|contradiction]]. destruct (repo_exists s r) eqn:Xr; [|destruct A; [tauto|contradiction]].
    assert (Na : forall n, ~ ahead s src r n) by (intros n X; destruct A; [eauto|contradiction]).
    destruct (D eq_refl eq_refl Na) as (Up & _ & _ & _ & Oth). fold s1 in Up, Oth.
    assert (Ps : forall n, published_release s1 src n = published_release s src n \/ src = r).
    { intros n. destruct (seqb_spec src r) as [X|X]; [right; exact X|left]. eapply same_release; [exact I|exact I1|]. apply same_src, Oth, X. }
    assert (Nb : forall n, ~ behind s1 src r n).
    { intros n (a & Pa & L). destruct (Ps n) as [X|X].
      - rewrite X in Pa. destruct (Up n a Pa) as (b & Pb & Le). rewrite Pb in L. lia.
      - rewrite X in Pa. rewrite Pa in L. lia. }
    destruct (C15_pull E cat s1 o2 src r Hc HE R1 Ho2) as (A1 & D1). fold s2 in A1, D1.
    destruct (repo_exists s1 src) eqn:Ys; [|destruct A1 as (_ & A1 & _); [tauto|]; apply same_avail, A1].
    destruct (repo_exists s1 r) eqn:Yr; [|destruct A1 as (_ & A1 & _); [tauto|]; apply same_avail, A1].
    assert (Na1 : forall n, ~ ahead s1 src r n).
    { intros n (a & b & Pa & Pb & L). destruct (Ps n) as [X|X]; [|rewrite X in Pa; rewrite Pa in Pb; injection Pb as ->; lia].
      rewrite X in Pa.
      assert (Q : behind s src r n \/ published_release s r n = Some b /\ (a >= b)%Z).
      { destruct (published_release s r n) as [b0|] eqn:P0; [|left; exists a; rewrite P0; auto].
        destruct (Z_lt_le_dec b0 a) as [L0|L0]; [left; exists a; rewrite P0; auto|].
        right. assert (Nbh : ~ behind s src r n) by (intros (a' & Pa' & L'); rewrite P0 in L'; rewrite Pa in Pa'; injection Pa' as <-; lia).
        destruct (D eq_refl eq_refl Na) as (_ & _ & _ & Keep & _). specialize (Keep n Nbh). fold s1 in Keep.
        assert (Eb : published_release s1 r n = published_release s r n).
        { eapply same_release; [exact I|exact I1|]. unfold available_ids. rewrite Keep. reflexivity. }
        rewrite Eb, P0 in Pb. injection Pb as <-. split; [reflexivity|]. destruct (Z_lt_le_dec a b0) as [L1|L1]; [|lia]. exfalso. apply (Na n). exists a, b0. auto. }
      destruct Q as [Q|(_ & Q)]; [|lia].
      destruct (D eq_refl eq_refl Na) as (_ & _ & Bh & _ & _). destruct (Bh n Q) as (Ep & _). fold s1 in Ep.
      assert (Er : published_release s1 r n = published_release s1 src n).
      { assert (Es : published s1 src n = published s src n).
        { destruct (seqb_spec src r) as [Z|Z]; [|unfold published; rewrite (proj2 (Oth src Z)); reflexivity]. subst src. exfalso. destruct Q as (a' & Pa' & L'). rewrite Pa' in L'. lia. }
        unfold published_release. rewrite Ep, Es. reflexivity. }
      rewrite Er, X, Pa in Pb. injection Pb as <-. lia. }
    destruct (D1 eq_refl eq_refl Na1) as (_ & _ & _ & Keep & _).
    assert (Kp : forall n, entry_at s2 r n = entry_at s1 r n) by (intros n; apply Keep, Nb).
    intros id. unfold available. split; intros (n & e & G & X); exists n, e; rewrite ?Kp in *; auto.
  - (* remove source *)
    split; [left; reflexivity|].
    destruct (C16_remove_source E cat s o r source rl Hc HE R Ho) as (A & D).
    destruct (repo_exists s r) eqn:Xr; [|destruct A; [tauto|contradiction]].
    destruct (C16_remove_source E cat s1 o2 r source rl Hc HE R1 Ho2) as (A1 & _).
    apply unchanged_avail, A1. right. intros id F. apply (src_cat _ _ _ _ _ _ _ I1) in F as (Av & Es & Er).
    destruct (src_dec false true s r source rl I) as [Ex|Ex]; [|destruct A; [tauto|contradiction]].
    destruct (D eq_refl Ex) as (D1 & _). fold s1 in D1. apply D1 in Av as (Av & N). apply N. apply (src_cat _ _ _ _ _ _ _ I). auto.
  - (* copy source *)
    split; [left; reflexivity|].
    destruct (C17_copy_source E cat s o src r source rl skip Hc HE R Ho) as (A & D).
    destruct (C17_copy_source E cat s1 o2 src r source rl skip Hc HE R1 Ho2) as (A1 & D1). fold s1 in D. fold s2 in A1, D1.
    destruct (repo_exists s src) eqn:Xs; [|destruct A; [tauto|contradiction]]. destruct (repo_exists s r) eqn:Xr; [|destruct A; [tauto|contradiction]].
    destruct (src_dec false true s src source rl I) as [Ex|Ex]; [|destruct A; [tauto|contradiction]]. destruct (D eq_refl eq_refl Ex) as (Dv & Do).
    destruct (repo_exists s1 src) eqn:Ys; [|apply unchanged_avail, A1; tauto]. destruct (repo_exists s1 r) eqn:Yr; [|apply unchanged_avail, A1; tauto].
    destruct (src_dec false true s1 src source rl I1) as [Ex1|Ex1]; [|apply unchanged_avail, A1; tauto]. destruct (D1 eq_refl eq_refl Ex1) as (Dv1 & _).
    intros id. rewrite Dv1. split; [|auto]. intros [X|X]; [exact X|]. apply (src_cat _ _ _ _ _ _ _ I1) in X as (Av & Es & Er).
    destruct (seqb_spec src r) as [->|Ns]; [exact Av|]. apply Dv. right. apply (src_cat _ _ _ _ _ _ _ I). split; [|auto]. apply (same_avail _ _ _ (Do src Ns)), Av.
  - (* trim packages *)
    split; [left; reflexivity|].
    destruct (C19_trim_packages E cat s o r k Hc HE R Ho) as (A & D & _). destruct (C19_trim_packages E cat s1 o2 r k Hc HE R1 Ho2) as (A1 & D1 & _).
    fold s1 in D. fold s2 in A1, D1.
    destruct (repo_exists s r) eqn:Xr; [|destruct A; [tauto|contradiction]]. destruct (Z_lt_le_dec k 1) as [L|L]; [destruct A; [tauto|contradiction]|].
    destruct (repo_exists s1 r) eqn:Yr; [|apply unchanged_avail, A1; tauto].
    assert (Q : forall n, available_ids s2 r n = available_ids s1 r n).
    { intros n. destruct (D1 eq_refl L n) as (_ & _ & _ & Z & _). apply Z. destruct (D eq_refl L n) as (_ & _ & _ & Z1 & _ & Z2 & _).
      destruct (Z_lt_le_dec k (Z.of_nat (List.length (available_ids s r n)))) as [M|M].
      - rewrite (Z2 M (Rp n)). lia.
      - rewrite (Z1 M). exact M. }
    intros id. rewrite !avail_in. split; intros (n & X); exists n; [rewrite <- ids_avail, <- Q|rewrite <- ids_avail, Q]; exact X.
  - (* add *)
    split; [left; reflexivity|]. subst strict.
    destruct (add_facts E cat Hc HE false s o r pkgs false I Ho Gp) as (_ & _ & K). specialize (K Su). fold s1 in K.
    destruct (add_facts E cat Hc HE false s1 o2 r pkgs false I1 Ho2 Gp) as (_ & G & _). fold s2 in G.
    intros id. rewrite !avail_in. split.
    + intros (n & X). destruct (gr_only _ _ _ _ _ G _ _ X) as [Y|(l & c & m & Hl & <- & _)]; [eauto|]. destruct (K l Hl) as (n' & _ & Y). exists n'. exact Y.
    + intros (n & X). exists n. apply (gr_more _ _ _ _ _ G), X.
  - (* index *)
    split; [left; reflexivity|].
    unfold s2, available, entry_at. rewrite (index_db false true s1 o2 r I1 Ho2). intros id; reflexivity.
Qed.
End P.

(** ** C70 *)
(** Doing a request again right after it succeeded offers the same repositories and
    the same versions as doing it once. *)
Theorem C70_repeating_is_harmless_partial :
  forall E cat s o o2 p, good_catalog cat -> good_env E -> reachable_completed E cat s -> good_oracle o -> good_oracle o2 -> good_op p ->
    repeatable p s -> succeeds E o p s ->
    same_offer (after E o p s) (after E o2 p (after E o p s)).
Proof.
  intros E cat s o o2 p Hc HE Rc Ho Ho2 Gp Rp Su. set (s1 := after E o p s). set (s2 := after E o2 p s1).
  assert (Rc1 : reachable_completed E cat s1).
  { destruct Rc as (h & A & C & ->). exists (h ++ [EvOp o p]). split; [apply Forall_app; split; [exact A|constructor; [split; assumption|constructor]]|].
    split; [apply Forall_app; split; [exact C|constructor; [exact Logic.I|constructor]]|]. unfold run_history. rewrite fold_left_app. cbn [fold_left]. cbn [ev_step].
    change (fold_left (ev_step E) h init) with (run_history E h). destruct Su as (l & Su). unfold outcome in Su. rewrite Su. reflexivity. }
  assert (R1 : reachable E cat s1) by (destruct Rc1 as (h & A & _ & D); exists h; auto).
  assert (I1 : FsInv.Inv E cat false true [] s1) by (destruct Rc1 as (h & A & C & ->); exact (hist_fz E cat Hc HE h A C)).
  assert (I2 : FsInv.Inv E cat false true [] s2) by (apply (after_inv E cat Hc HE); auto; discriminate).
  intros r. destruct (option_string_dec (target p) (Some r)) as [T|T].
  - destruct (target_same E cat Hc HE s o o2 p r Rc Ho Ho2 Gp Rp Su T) as [A B]. fold s1 s2 in A, B. split; [exact A|]. intros n.
    pose proof (same_ids E cat _ _ _ _ s1 s2 r I1 I2 B n) as X. split; [exact X|]. exact (same_release E cat _ _ _ _ s1 s2 r n I1 I2 X).
  - destruct (C11_others_untouched_at_every_instant E cat s1 o2 p r Hc HE R1 T s2 (or_introl eq_refl)) as (L & _). split; [apply L|]. intros n.
    pose proof (same_src s1 s2 r L n) as X. split; [exact X|]. exact (same_release E cat _ _ _ _ s1 s2 r n I1 I2 X).
Qed.
Print Assumptions C70_repeating_is_harmless_partial.
Ltac here := vm_compute; reflexivity.
(** C70 is false for trimming obsolete packages: every run removes one more version. *)
Theorem C70_trim_obsolete_refuted :
  exists E cat s o p, good_catalog cat /\ good_env E /\ reachable_completed E cat s /\ good_oracle o /\ good_op p /\ succeeds E o p s /\
    let s1 := after E o p s in let s2 := after E o p s1 in
    ~ same_offer s1 s2 /\ available_ids s1 "unstable" "old-dbginfo" = ["old-dbginfo-2.eopkg"] /\ available_ids s2 "unstable" "old-dbginfo" = [].
Proof.
  exists (demo_env true), demo_cat, (run_history (demo_env true) h_obs), demo_oracle, (OpTrimObsolete "unstable").
  split; [apply demo_cat_good|]. split; [apply demo_env_good|]. split; [exists h_obs; split; [apply h_obs_good|split; [unfold crash_free, h_obs; repeat constructor|reflexivity]]|].
  split; [apply demo_oracle_good|]. split; [exact Logic.I|]. split; [exists []; here|]. cbv zeta.
  set (s1 := after (demo_env true) demo_oracle (OpTrimObsolete "unstable") (run_history (demo_env true) h_obs)).
  set (s2 := after (demo_env true) demo_oracle (OpTrimObsolete "unstable") s1).
  assert (A1 : available_ids s1 "unstable" "old-dbginfo" = ["old-dbginfo-2.eopkg"]) by here.
  assert (A2 : available_ids s2 "unstable" "old-dbginfo" = []) by here.
  split; [|auto]. intros S. destruct (S "unstable") as (_ & X). destruct (X "old-dbginfo") as (Y & _). rewrite A1, A2 in Y. discriminate.
Qed.
Print Assumptions C70_trim_obsolete_refuted.
Example C70_demo : let s := run_history (demo_env true) h_pull in let p := OpPull "unstable" "stable" in
  reachable_completed (demo_env true) demo_cat s /\ repeatable p s /\ succeeds (demo_env true) demo_oracle p s /\
  published s "stable" "nano" <> published (after (demo_env true) demo_oracle p s) "stable" "nano" /\
  repeatable (OpTrimPackages "unstable" 2) s /\ succeeds (demo_env true) demo_oracle (OpTrimPackages "unstable" 2) s.
Proof.
  cbv zeta. split; [exists h_pull; split; [unfold good_history, h_pull; demo_hist|split; [unfold crash_free, h_pull; repeat constructor|reflexivity]]|].
  split; [exact Logic.I|]. split; [eexists; here|]. split; [vm_compute; discriminate|]. split; [|exists []; here].
  intros n a b Ha Hb Er. unfold available_ids in Ha, Hb. destruct (entry_at (run_history (demo_env true) h_pull) "unstable" n) as [e|] eqn:G; [|destruct Ha].
  unfold entry_at in G. apply in_mlist in G. vm_compute in G. destruct G as [G|[G|[]]]; injection G as _ <-; cbn [e_avail In] in Ha, Hb.
  - intuition congruence.
  - destruct Ha as [<-|[<-|[<-|[]]]], Hb as [<-|[<-|[<-|[]]]]; try reflexivity; vm_compute in Er; discriminate.
Qed.

(** ** C73 *)
(** Only creating, cloning and deleting make or unmake repositories, each only the
    one it names, and this holds at every instant. *)
Theorem C73_repositories_change_only_by_request :
  forall E cat s o p x, good_catalog cat -> good_env E -> reachable E cat s ->
    (forall r, p = OpCreate r -> x <> r) -> (forall src r full, p = OpClone src r full -> x <> r) -> (forall r, p = OpDelete r -> x <> r) ->
    forall t, In t (after E o p s :: crash_points E o p s) -> repo_exists t x = repo_exists s x.
Proof.
  intros E cat s o p x Hc HE R N1 N2 N3 t Ht. destruct (option_string_dec (target p) (Some x)) as [T|T].
  - assert (Nr : repo_op p = false).
    { destruct p; try reflexivity; cbn in T; injection T as ->; exfalso; [exact (N1 x eq_refl eq_refl)|exact (N3 x eq_refl eq_refl)|exact (N2 _ _ _ eq_refl eq_refl)]. }
    destruct R as (h & Hh & ->). pose proof (hist_inv E cat Hc HE h Hh) as I.
    assert (K : rkeep (d_repos (st_db (run_history E h))) (run_history E h)) by (split; [reflexivity|]; rewrite (i_batch _ _ _ _ _ _ I); constructor).
    destruct (r_run E (d_repos (st_db (run_history E h))) o p Nr _ K) as (Fa & X).
    assert (Y : rkeep (d_repos (st_db (run_history E h))) t) by (destruct Ht as [<-|Ht]; [exact X|rewrite Forall_forall in Fa; apply Fa, Ht]).
    unfold repo_exists. rewrite (proj1 Y). reflexivity.
  - destruct (C11_others_untouched_at_every_instant E cat s o p x Hc HE R T t Ht) as (L & _). apply L.
Qed.
Print Assumptions C73_repositories_change_only_by_request.
Example C73_demo : let s := run_history (demo_env true) h_two in let p := OpTrimPackages "unstable" 1 in
  reachable (demo_env true) demo_cat s /\ repo_exists s "unstable" = true /\ List.length (crash_points (demo_env true) demo_oracle p s) <> 0.
Proof. cbv zeta. split; [exists h_two; split; [apply h_two_good|reflexivity]|]. split; [here|vm_compute; discriminate]. Qed.
