(** * PropsFails: property C103 - what a request that reports an error has done *)
From Verif Require Import Model Spec Demo DemoOk DbInv DbOps Wp FsInv Ops RepoOps Pure IndexOps DeleteOps ApiOps History PoolFacts OpFacts OpFacts2 PropsOps.
Open Scope string_scope. Open Scope list_scope.

(** ** Specification *)
(** the same repositories, entries, pool and recorded failures, the same package
    files and the same assets; only index files may differ *)
Definition same_books (s t : state) : Prop :=
  st_db t = st_db s /\
  (forall l, file_content (st_fs t) l = file_content (st_fs s) l) /\
  (forall r f, asset_file t r f = asset_file s r f).
(** indexing [r] is what failed, and all that is missing: just before it ([b])
    everything else had been done, and the public files were those of [s] *)
Definition only_index_failed (E : env) (o : oracle) (r : string) (s s' : state) : Prop :=
  exists b, same_books b s' /\ (forall x f, index_file b x f = index_file s x f) /\
    outcome E o (OpIndex r) b = Err /\ s' = after E o (OpIndex r) b.
(** the file [l] cannot be imported into [r]: it is missing or unreadable, or the
    import is strict and [r] already publishes that package in a release not older *)
Definition refused_file (E : env) (s : state) (r : string) (strict : bool) (l : loc) : Prop :=
  (forall c, file_content (st_fs s) l = Some c -> E_parse E c = Err) \/
  (strict = true /\ exists c m a, file_content (st_fs s) l = Some c /\ E_parse E c = Ok m /\
     published_release s r (m_name m) = Some a /\ (rel m <= a)%Z).
Definition is_import (p : op) : bool := match p with OpAdd _ _ _ => true | _ => false end.
Definition is_pull (p : op) : bool := match p with OpPull _ _ => true | _ => false end.

(** ** Proofs *)
Section Proofs.
Variable E : env.
Variable cat : string -> meta.
Hypothesis Hcat : good_catalog cat.
Hypothesis HE : good_env E.
Notation Inv := (Inv E cat).

Lemma sb_refl s : same_books s s.
Proof. split; [reflexivity|]. split; reflexivity. Qed.
Lemma sb_sym s t : same_books s t -> same_books t s.
Proof. intros (A & B & C). split; [auto|]. split; auto. Qed.
Lemma sb_trans s t u : same_books s t -> same_books t u -> same_books s u.
Proof. intros (A & B & C) (A' & B' & C'). split; [congruence|]. split; intros; [rewrite B'; apply B|rewrite C'; apply C]. Qed.

(** *** indexing leaves the books alone *)
Definition bk (s t : state) : Prop := st_db t = st_db s /\ f_name (st_fs t) = f_name (st_fs s) /\ f_data (st_fs t) = f_data (st_fs s) /\ f_asset (st_fs t) = f_asset (st_fs s).
Lemma bk_books s t : bk s t -> same_books s t.
Proof.
  intros (A & B & C & D). split; [exact A|]. split.
  - intros l. unfold file_content. rewrite B, C. reflexivity.
  - intros r f. unfold asset_file. rewrite D. reflexivity.
Qed.
Lemma bk_fs s0 (g : fs -> fs) : (forall f, f_name (g f) = f_name f /\ f_data (g f) = f_data f /\ f_asset (g f) = f_asset f) -> keeps (bk s0) (durable (on_fs g)).
Proof. intros H. apply keeps_durable. intros s (A & B & C & D). destruct (H (st_fs s)) as (X & Y & Z). split; [exact A|]. cbn. split; [congruence|]. split; congruence. Qed.
Lemma bk_root s0 r f v : keeps (bk s0) (root_set r f v).
Proof. apply bk_fs. intros g. cbn. auto. Qed.
Lemma bk_getrepo s0 r : keeps (bk s0) (get_repo r).
Proof.
  unfold get_repo, bake_repo. apply keeps_bind; [apply keeps_gets|]. intros c. destruct (c r); [apply keeps_ret|].
  apply keeps_bind; [apply keeps_gets|]. intros d. destruct (mhas (d_repos d) r); [|apply keeps_err].
  apply keeps_bind; [|intros _; apply keeps_vol; intros s (A & B); split; [exact A|exact B]].
  apply keeps_bind; [apply keeps_gets|]. intros f. destruct (f_dir f r); [apply keeps_ret|]. apply bk_fs. intros g. cbn. auto.
Qed.
Lemma bk_stages s0 r st : Forall (fun y => keeps (bk s0) (snd y)) st -> forall done, keeps (bk s0) (run_stages r done st).
Proof.
  induction 1 as [|[[k v] m] st Hm _ IH]; intros done; simpl; [apply keeps_ret|].
  apply keeps_bind; [|intros _; apply IH]. apply keeps_on_err; [exact Hm|]. unfold remove_all. apply keeps_forM. intros. apply bk_root.
Qed.
Ltac kb := repeat match goal with
  | |- keeps _ (root_set _ _ _) => apply bk_root
  | |- keeps _ (bind _ _) => apply keeps_bind; [|intro]
  | |- keeps _ (ret _) => apply keeps_ret
  | |- keeps _ err => apply keeps_err
  | |- keeps _ panic => apply keeps_panic
  | |- keeps _ (lift _) => apply keeps_lift
  | |- keeps _ (gets _) => apply keeps_gets
  | |- keeps _ (on_err _ _) => apply keeps_on_err
  | |- keeps _ (forM _ _) => apply keeps_forM; intro
  | |- keeps _ (foldM _ _ _) => apply keeps_foldM; intros ? ?
  | |- keeps _ (match ?d with _ => _ end) => destruct d
  | _ => progress unfold emit_index, emit_package, push_deltas, asset_part, pool_get_or_err, pool_get, ent_get, ent_list, root_get, root_write, write_sum, compress, init_distribution, remove_all
  end.
Lemma bk_index s0 o r : keeps (bk s0) (api_index E o r).
Proof.
  unfold api_index, index. apply keeps_bind; [apply bk_getrepo|intros _]. apply keeps_bind; [kb|]. intros dist. apply keeps_bind.
  - apply bk_stages. unfold index_stages. repeat (apply Forall_cons; [cbn [snd]; kb|]). apply Forall_nil.
  - intros mp. kb. unfold rename. kb. apply bk_fs. intros g. cbn. auto.
Qed.
Lemma index_books o r s : same_books s (final_of (api_index E o r s)).
Proof. apply bk_books. destruct (bk_index s o r s) as [_ H]; [repeat split|exact H]. Qed.

(** *** the same request under different tools *)
Definition J {A} (m m' : M A) : Prop := forall s, same_books (final_of (m s)) (final_of (m' s)).
Lemma J_refl {A} (m : M A) : J m m. Proof. intros s. apply sb_refl. Qed.
Lemma J_bind {A B} (m : M A) (k k' : A -> M B) : (forall a, J (k a) (k' a)) -> J (bind m k) (bind m k').
Proof.
  intros H s. unfold bind. destruct (m s) as [[t s1] [a| |]]; cbn; try apply sb_refl.
  specialize (H a s1). destruct (k a s1) as [[t1 s2] r1], (k' a s1) as [[t2 s3] r2]. exact H.
Qed.
Lemma J_assoc {A B D} (m : M A) (k k' : A -> M B) (h h' : B -> M D) :
  J (bind m (fun a => bind (k a) h)) (bind m (fun a => bind (k' a) h')) -> J (bind (bind m k) h) (bind (bind m k') h').
Proof. intros H s. rewrite !bind_assoc. apply H. Qed.
Lemma tail_index {B} o r (b : B) s : same_books s (final_of (bind (api_index E o r) (fun _ => ret b) s)).
Proof. pose proof (index_books o r s) as H. unfold bind. destruct (api_index E o r s) as [[t s1] [a| |]]; exact H. Qed.
Lemma J_tail {B} o o' r (b : B) : J (bind (api_index E o r) (fun _ => ret b)) (bind (api_index E o' r) (fun _ => ret b)).
Proof. intros s. eapply sb_trans; [apply sb_sym, tail_index|apply tail_index]. Qed.
Lemma books_any_tools o o' p s : o_sort o = o_sort o' -> same_books (after E o p s) (after E o' p s).
Proof.
  intros So. unfold after. revert s. change (J (run_op E o p) (run_op E o' p)).
  assert (Tp : forall r k, trim_packages o r k = trim_packages o' r k) by (intros; unfold trim_packages; rewrite So; reflexivity).
  destruct p; cbn [run_op]; unfold api_create, api_delete, api_clone, api_pull, api_remove_source, api_copy_source, api_trim_obsolete, api_trim_packages,
    api_add_packages, api_add_delta, api_ref_delta; rewrite ?Tp; try apply J_refl;
  try (destruct skip_index; [|apply J_refl]);
  repeat first [apply J_tail | apply J_assoc | (apply J_bind; intro)].
Qed.

(** *** what fails is the index *)
Lemma index_failed o r s1 s' : indexed E cat o r s1 s' Err -> repo_exists s1 r = true -> only_index_failed E o r s1 s'.
Proof.
  intros X Hr. inversion X as [N Es|s2 re Hr2 Q R Er]; [unfold repo_exists in Hr; congruence|]. subst re.
  exists s2. destruct (ir_run _ _ _ _ _ _ _ R) as [R1 R2]. pose proof (ir_open _ _ _ _ _ _ _ R) as Op.
  assert (Ai : api_index E o r s2 = index E o r s2).
  { unfold api_index. apply (bind_ok (get_repo r) (fun _ => index E o r) s2 s2 tt). unfold get_repo. rewrite bind_gets, Op. reflexivity. }
  split; [|split; [|split]].
  - destruct (ir_quiet _ _ _ _ _ _ _ R) as [A B _ C _ _ _]. split; [exact A|]. split; [intros l; apply same_files_content, B|].
    intros x f. unfold asset_file. rewrite C. reflexivity.
  - intros x f. unfold index_file. rewrite (qd_root _ _ _ Q). reflexivity.
  - unfold outcome. cbn [run_op]. unfold bind. rewrite Ai. unfold result_of in *. destruct (index E o r s2) as [[t u] [a| |]]; cbn in *; congruence.
  - unfold after. cbn [run_op]. unfold bind. rewrite Ai. unfold final_of, result_of in *. destruct (index E o r s2) as [[t u] [a| |]]; cbn in *; congruence.
Qed.
Lemma oif_from o r s s1 s' : (forall x f, index_file s1 x f = index_file s x f) -> only_index_failed E o r s1 s' -> only_index_failed E o r s s'.
Proof. intros H (b & B1 & B2 & B3). exists b. split; [exact B1|]. split; [intros; rewrite B2; apply H|exact B3]. Qed.
Lemma roots_same s s' : f_root (st_fs s') = f_root (st_fs s) -> forall x f, index_file s' x f = index_file s x f.
Proof. intros H x f. unfold index_file. rewrite H. reflexivity. Qed.

Lemma up_repos r l : forall d, d_repos (db_unref_pkgs cat r l d) = d_repos d.
Proof. induction l as [|i l IH]; intros d; simpl; [reflexivity|]. rewrite IH. apply unref_pkg_repos. Qed.
Lemma rf_repos b ids : forall d, d_repos (db_refs cat b ids d) = d_repos d.
Proof. induction ids as [|i l IH]; intros d; simpl; [reflexivity|]. rewrite IH. apply db_ref_repos. Qed.
Lemma rd_repos b ids : forall d, d_repos (db_rdeltas cat b ids d) = d_repos d.
Proof. induction ids as [|i l IH]; intros d; simpl; [reflexivity|]. rewrite IH. unfold db_rdelta. destruct (mget (d_pool d) i); [apply (db_delta_repos cat)|reflexivity]. Qed.
Lemma removed_fails ex fz o p r fails ids s (m : M unit) C :
  run_op E o p = (m ;;; ret []) -> wp m C (then_indexed E cat ex fz o r (removed cat r fails ids s)) s ->
  outcome E o p s = Err -> unchanged s (after E o p s) \/ only_index_failed E o r s (after E o p s).
Proof.
  intros Er W Out. destruct (run_unit E m _ _ s o p Er W) as (res & (I' & Np & D) & Ho). rewrite Out in Ho.
  destruct res as [u| |]; try discriminate. destruct D as [(_ & (A & B & _) & Rt & As)|(s1 & I1 & ((Hr & _ & Ed) & Rt & As) & X)].
  - left. apply unchanged_files; auto.
  - right. apply (oif_from o r s s1); [apply roots_same, Rt|]. apply index_failed; [exact X|].
    unfold repo_exists. rewrite Ed, up_repos. exact Hr.
Qed.

(** *** imports *)
Lemma import_prefix ex r strict pkgs : forall s, Inv ex true [] s -> repo_exists s r = true ->
  Forall (fun l => upload_tree (l_tree l) = true /\ is_delta_id (l_id l) = false) pkgs ->
  forall t s2, forM pkgs (fun p => add_package E r p strict) s = (t, s2, Err) ->
  exists l1 x l2 t1, pkgs = l1 ++ x :: l2 /\ forM l1 (fun p => add_package E r p strict) s = (t1, s2, Ok tt) /\
    f_root (st_fs s2) = f_root (st_fs s) /\ refused_file E s2 r strict x.
Proof.
  induction pkgs as [|l ls IH]; intros s H Hr F t s2 Run; [discriminate|].
  inversion F as [|? ? [U D] F']; subst. cbn [forM] in Run. unfold bind in Run.
  pose proof (wp_add_package E cat Hcat HE ex true r l strict s H U D Hr) as [_ W].
  destruct (add_package E r l strict s) as [[t0 s1] [[]| |]] eqn:Eq; cbn [final_of result_of fst snd] in W; destruct W as (I1 & R1 & O1).
  - destruct (forM ls (fun p => add_package E r p strict) s1) as [[t1 s3] re] eqn:Eq'. injection Run as _ -> ->.
    assert (Hr1 : repo_exists s1 r = true) by (unfold repo_exists; rewrite (add_repos E cat _ _ _ _ _ _ _ O1); exact Hr).
    destruct (IH s1 I1 Hr1 F' _ _ Eq') as (l1 & x & l2 & t2 & -> & R2 & Rt & Rf).
    exists (l :: l1), x, l2, (t0 ++ t2). split; [reflexivity|]. split; [|split; [rewrite Rt; apply (rs_root _ _ _ _ R1)|exact Rf]].
    cbn [forM]. unfold bind. rewrite Eq, R2. reflexivity.
  - injection Run as _ ->. exists [], l, ls, []. split; [reflexivity|].
    assert (Es : s2 = s /\ refused_file E s r strict l).
    { inversion O1 as [A B|A B C|A B|]; subst; [| |discriminate].
      - split; [reflexivity|]. left. exact A.
      - split; [reflexivity|]. destruct (file_content (st_fs s) l) as [c|] eqn:Fc; [|left; congruence].
        destruct (E_parse E c) as [m| |] eqn:Pm; [|left; intros c' X; rewrite Fc in X; injection X as <-; exact Pm|].
        + right. split; [reflexivity|]. exists c, m. unfold stale in B.
          assert (Gf : good_file E cat (l_id l) c).
          { unfold file_content in Fc. destruct (f_name (st_fs s) l) as [i|] eqn:Gi; [|discriminate]. injection Fc as <-.
            apply (fo_good _ _ _ (i_fs _ _ _ _ _ _ H) _ _ Gi). }
          unfold good_file in Gf. rewrite Pm in Gf. subst m.
          destruct (mget (d_ents (st_db s) r) (m_name (cat (l_id l)))) as [e|] eqn:Ge; [|discriminate].
          exists (rel (cat (e_pub e))). split; [exact Fc|]. split; [exact Pm|]. split; [|apply Z.leb_le, B].
          apply (pub_rel E cat ex true s r _ e H Ge).
        + assert (Gf : good_file E cat (l_id l) c).
          { unfold file_content in Fc. destruct (f_name (st_fs s) l) as [i|] eqn:Gi; [|discriminate]. injection Fc as <-.
            apply (fo_good _ _ _ (i_fs _ _ _ _ _ _ H) _ _ Gi). }
          unfold good_file in Gf. rewrite Pm in Gf. destruct Gf. }
    destruct Es as [-> Rf]. split; [reflexivity|]. split; [reflexivity|exact Rf].
  - inversion O1.
Qed.
Lemma added_root ex r strict pkgs s s' res : added E cat ex true r strict pkgs s s' res -> f_root (st_fs s') = f_root (st_fs s).
Proof. induction 1 as [|l ls s s1 s' res I1 R1 O1 A IH|l ls s s1 R1 O1]; [reflexivity| |apply (rs_root _ _ _ _ R1)]. rewrite IH. apply (rs_root _ _ _ _ R1). Qed.
Lemma get_repo_run ex fz r s : Inv ex fz [] s -> repo_exists s r = true ->
  exists t s1, get_repo r s = (t, s1, Ok tt) /\ Inv ex fz [] s1 /\ quiet_dir r s s1.
Proof.
  intros H Hr. destruct (wp_get_repo E cat ex fz [] r s H) as [_ (I1 & Q & X)]. unfold final_of, result_of in *.
  destruct (get_repo r s) as [[t s1] re]. cbn in *. destruct X as [(-> & _)|(_ & N & _)]; [eauto|]. unfold repo_exists in Hr. congruence.
Qed.
Lemma import_fails ex o r strict pkgs s : Inv ex true [] s -> good_oracle o -> good_op (OpAdd r pkgs strict) ->
  outcome E o (OpAdd r pkgs strict) s = Err ->
  let s' := after E o (OpAdd r pkgs strict) s in
  unchanged s s' \/ only_index_failed E o r s s' \/
  exists l1 x l2, pkgs = l1 ++ x :: l2 /\ refused_file E s' r strict x /\
    same_books (after E o (OpAdd r l1 strict) s) s' /\ forall y f, index_file s' y f = index_file s y f.
Proof.
  intros H Ho Gp Out s'.
  destruct (repo_exists s r) eqn:Hr.
  2:{ left. assert (G : get_repo r s = ([], s, Err)).
      { unfold get_repo. rewrite bind_gets. destruct (st_cache s r) eqn:Cc; [pose proof (i_cache _ _ _ _ _ _ H r Cc); unfold repo_exists in Hr; congruence|].
        rewrite bind_gets. unfold repo_exists in Hr. rewrite Hr. reflexivity. }
      subst s'. unfold after. cbn [run_op]. unfold api_add_packages, bind. rewrite G. apply unchanged_refl. }
  right. destruct (get_repo_run ex true r s H Hr) as (t0 & s1 & G & I1 & Q).
  assert (Hr1 : repo_exists s1 r = true) by (unfold repo_exists; rewrite (qd_db _ _ _ Q); exact Hr).
  destruct (forM pkgs (fun p => add_package E r p strict) s1) as [[t1 s2] re] eqn:Fm.
  assert (Dec : run_op E o (OpAdd r pkgs strict) s = match re with
     | Ok _ => (t0 ++ (t1 ++ trace_of (bind (api_index E o r) (fun _ => ret (@nil string)) s2)), final_of (bind (api_index E o r) (fun _ => ret (@nil string)) s2), result_of (bind (api_index E o r) (fun _ => ret (@nil string)) s2))
     | Err => (t0 ++ t1, s2, Err) | Panic => (t0 ++ t1, s2, Panic) end).
  { cbn [run_op]. unfold api_add_packages. rewrite bind_assoc. unfold bind at 1. rewrite G. rewrite bind_assoc. unfold bind at 1. rewrite Fm.
    destruct re as [[]| |]; try reflexivity. destruct (bind (api_index E o r) (fun _ => ret (@nil string)) s2) as [[t3 s3] re3]. reflexivity. }
  assert (Es : s' = match re with Ok _ => after E o (OpIndex r) s2 | _ => s2 end) by (subst s'; unfold after at 1; rewrite Dec; destruct re; reflexivity).
  unfold outcome in Out. rewrite Dec in Out. destruct re as [[]| |]; [left|right|discriminate].
  - rewrite Es. exists s2. split; [apply (@tail_index (list string) o r [] s2)|]. split; [|split; [exact Out|reflexivity]].
    pose proof (wp_add_loop E cat Hcat HE ex true r strict pkgs s1 I1 Hr1 Gp) as [_ W]. rewrite Fm in W. destruct W as (_ & A & _).
    apply roots_same. cbn in A. rewrite (added_root _ _ _ _ _ _ _ A). apply (qd_root _ _ _ Q).
  - destruct (import_prefix ex r strict pkgs s1 I1 Hr1 Gp t1 s2 Fm) as (l1 & x & l2 & t2 & -> & R1 & Rt & Rf).
    exists l1, x, l2. split; [reflexivity|]. rewrite Es. split; [exact Rf|]. split; [|apply roots_same; rewrite Rt; apply (qd_root _ _ _ Q)].
    apply sb_sym. unfold after. cbn [run_op]. unfold api_add_packages. rewrite bind_assoc. unfold bind at 1. rewrite G. rewrite bind_assoc. unfold bind at 1. rewrite R1.
    pose proof (@tail_index (list string) o r [] s2) as T. unfold final_of in *.
    destruct (bind (api_index E o r) (fun _ => ret (@nil string)) s2) as [[t3 s3] re3]. exact T.
Qed.

(** *** any other request *)
Lemma request_fails ex fz o p s : Inv ex fz [] s -> good_oracle o -> good_op p -> is_import p = false -> delta_op p = false ->
  outcome E o p s = Err ->
  let s' := after E o p s in
  (if is_pull p then st_db s' = st_db s /\ (forall l, file_content (st_fs s') l = file_content (st_fs s) l) /\
      (forall x f, index_file s' x f = index_file s x f) /\
      (forall x f, target p <> Some x -> asset_file s' x f = asset_file s x f)
   else unchanged s s') \/
  exists r, target p = Some r /\ only_index_failed E o r s s'.
Proof.
  intros H Ho Gp Ni Nd Out s'.
  assert (One : forall r fails ids m C, run_op E o p = (m ;;; ret []) -> is_pull p = false -> target p = Some r ->
     wp m C (then_indexed E cat ex fz o r (removed cat r fails ids s)) s ->
     (if is_pull p then st_db s' = st_db s /\ (forall l, file_content (st_fs s') l = file_content (st_fs s) l) /\
        (forall x f, index_file s' x f = index_file s x f) /\ (forall x f, target p <> Some x -> asset_file s' x f = asset_file s x f)
      else unchanged s s') \/ exists r, target p = Some r /\ only_index_failed E o r s s').
  { intros r fails ids m C Er Pl Tg W. rewrite Pl. destruct (removed_fails ex fz o p r fails ids s m C Er W Out) as [U|X]; [left; exact U|right; exists r; auto]. }
  destruct p as [id|id|src new full|src tgt|r source rl|src tgt source rl sk|r|r k|r pkgs strict|r|r src from to|r id|id d];
    try discriminate; cbn [is_pull target] in *.
  - destruct (run_unit E (api_create E o id) _ _ s o (OpCreate id) eq_refl (wp_api_create E cat Hcat HE ex fz o id s H Ho)) as (res & (I' & Np & D) & Hout).
    fold s' in I', D. rewrite Out in Hout. destruct res as [u| |]; try discriminate.
    destruct D as [(_ & Q & _)|(s1 & I1 & (C1 & C2 & C3 & C4 & C5 & C6 & C7) & X)].
    + left. apply (unchanged_dir id), Q.
    + right. exists id. split; [reflexivity|]. apply (oif_from o id s s1); [apply roots_same, C6|].
      apply index_failed; [exact X|]. unfold repo_exists. rewrite C4. unfold mhas, db_create. simpl. rewrite mget_put_eq. reflexivity.
  - left. destruct (run_unit E (delete_repo id) _ _ s o (OpDelete id) eq_refl (wp_delete_repo E cat Hcat ex fz id s H)) as (res & (I' & D) & Hout).
    fold s' in I', D. rewrite Out in Hout. destruct res as [u| |]; try discriminate.
    destruct D as [(_ & _ & ->)|(X & _)]; [apply unchanged_refl|discriminate].
  - destruct (run_unit E (api_clone E o src new full) _ _ s o (OpClone src new full) eq_refl (wp_api_clone E cat Hcat HE ex fz o src new full s H Ho)) as (res & (I' & Np & D) & Hout).
    fold s' in I', D. rewrite Out in Hout. destruct res as [u| |]; try discriminate.
    destruct D as [(_ & A & B & Rt & As & _)|(s1 & I1 & (C1 & C2 & C3 & C4 & C5 & C6 & C7) & X)].
    + left. apply unchanged_files; auto.
    + right. exists new. split; [reflexivity|]. apply (oif_from o new s s1); [apply roots_same, C5|].
      apply index_failed; [exact X|]. unfold repo_exists. rewrite C4. unfold db_clone.
      assert (K : mhas (d_repos (db_create new (st_db s))) new = true) by (unfold mhas, db_create; simpl; rewrite mget_put_eq; reflexivity).
      destruct full; rewrite ?rd_repos, rf_repos; exact K.
  - destruct (wp_api_pull E cat Hcat HE ex fz o src tgt s H Ho) as [_ (I' & Np & D)].
    change (final_of (api_pull E o src tgt s)) with s' in *. change (result_of (api_pull E o src tgt s)) with (outcome E o (OpPull src tgt) s) in *.
    destruct D as [(_ & (A & B & _) & Rt & As & _)|(s1 & ch & rs & I1 & ((C1 & C2 & C3 & C4 & C5) & C6 & C7 & C8) & X & Z)].
    + left. split; [exact A|]. split; [intros l; apply same_files_content, B|]. split; [apply roots_same, Rt|].
      intros x f Nx. unfold asset_file. rewrite As by congruence. reflexivity.
    + right. exists tgt. split; [reflexivity|]. apply (oif_from o tgt s s1); [apply roots_same, C6|].
      destruct Z as [(Z & _)|(_ & ->)]; [congruence|]. apply index_failed; [exact X|]. unfold repo_exists. rewrite C5.
      unfold db_pull. rewrite rf_repos. exact C2.
  - eapply One; [reflexivity|reflexivity|reflexivity|]. apply (wp_api_remove_source E cat Hcat HE ex fz o r source rl s H Ho).
  - destruct (run_unit E (api_copy_source E o src tgt source rl sk) _ _ s o (OpCopySource src tgt source rl sk) eq_refl (wp_api_copy_source E cat Hcat HE ex fz o src tgt source rl sk s H Ho)) as (res & W & Hout).
    fold s' in W. rewrite Out in Hout. destruct res as [u| |]; try discriminate.
    assert (Un : copied cat src tgt source rl s s' Err -> unchanged s s') by (intros ((A & B & _) & Rt & As); apply unchanged_files; auto).
    destruct sk; [|left; apply Un, W]. destruct W as (I' & Np & [(_ & W)|(s1 & I1 & ((C1 & C2 & C3 & C4) & C5 & C6) & X)]); [left; apply Un, W|].
    right. exists tgt. split; [reflexivity|]. apply (oif_from o tgt s s1); [apply roots_same, C5|].
    apply index_failed; [exact X|]. unfold repo_exists. rewrite C4, rf_repos. exact C2.
  - eapply One; [reflexivity|reflexivity|reflexivity|]. apply (wp_api_trim_obsolete E cat Hcat HE ex fz o r s H Ho).
  - eapply One; [reflexivity|reflexivity|reflexivity|]. apply (wp_api_trim_packages E cat Hcat HE ex fz o r k s H Ho).
  - destruct (run_unit E (api_index E o r) _ _ s o (OpIndex r) eq_refl (wp_api_index E cat Hcat HE ex fz o r s H Ho)) as (res & (I' & X & Np) & Hout).
    fold s' in I', X. rewrite Out in Hout. destruct res as [u| |]; try discriminate.
    destruct (repo_exists s r) eqn:Hr; [right; exists r; split; [reflexivity|apply index_failed; auto]|].
    left. inversion X as [N Es|s1 re Hr2]; [rewrite Es; apply unchanged_refl|unfold repo_exists in Hr; congruence].
  - left. subst s'. unfold after, outcome in *. cbn [run_op] in *. unfold mark_delta_failed, bind, gets, ret, db_write, err, durable, final_of, result_of in *.
    destruct (mget (d_skip (st_db s)) id); [discriminate|]. destruct (reserved (op_key (PutSkip (SEntry id d)))); [apply unchanged_refl|discriminate].
Qed.
End Proofs.

(** ** C103. A request that reports an error was refused, or only its index is
    missing; an import stops at the first file it cannot take. *)
(** Full statement: a request that reports an error has changed nothing. That is
    false, see below. What holds: for every request but imports and the two delta
    requests, in every reachable state, either nothing was changed (a refused pull
    may have copied the asset files), or everything was done and it was the
    indexing that failed. *)
Theorem C103_refused_or_unindexed_partial :
  forall E cat s o p, good_catalog cat -> good_env E -> reachable E cat s -> good_oracle o -> good_op p ->
    is_import p = false -> is_pull p = false -> delta_op p = false -> outcome E o p s = Err ->
    let s' := after E o p s in
    unchanged s s' \/ exists r, target p = Some r /\ only_index_failed E o r s s'.
Proof.
  intros E cat s o p Hc HE (h & Hh & ->) Ho Gp Ni Np Nd Out s'.
  pose proof (request_fails E cat Hc HE false false o p _ (hist_inv E cat Hc HE h Hh) Ho Gp Ni Nd Out) as W. rewrite Np in W. exact W.
Qed.
Print Assumptions C103_refused_or_unindexed_partial.
Theorem C103_pull_partial :
  forall E cat s o src tgt, good_catalog cat -> good_env E -> reachable E cat s -> good_oracle o ->
    outcome E o (OpPull src tgt) s = Err ->
    let s' := after E o (OpPull src tgt) s in
    (st_db s' = st_db s /\ (forall l, file_content (st_fs s') l = file_content (st_fs s) l) /\
     (forall x f, index_file s' x f = index_file s x f) /\ (forall x f, x <> tgt -> asset_file s' x f = asset_file s x f)) \/
    only_index_failed E o tgt s s'.
Proof.
  intros E cat s o src tgt Hc HE (h & Hh & ->) Ho Out s'.
  destruct (request_fails E cat Hc HE false false o (OpPull src tgt) _ (hist_inv E cat Hc HE h Hh) Ho Logic.I eq_refl eq_refl Out) as [(A & B & C & D)|(r & Er & X)].
  - left. split; [exact A|]. split; [exact B|]. split; [exact C|]. intros x f N. apply D. cbn. congruence.
  - right. cbn in Er. injection Er as <-. exact X.
Qed.
Print Assumptions C103_pull_partial.
(** An import that fails has either changed nothing, or only its index is missing,
    or it met a file it cannot take: then the files before that one are imported,
    as an import of just those would have done, no other is, and the index is
    the old one. *)
Theorem C103_failed_import_partial :
  forall E cat s o r pkgs strict, good_catalog cat -> good_env E -> reachable_completed E cat s -> good_oracle o ->
    good_op (OpAdd r pkgs strict) -> outcome E o (OpAdd r pkgs strict) s = Err ->
    let s' := after E o (OpAdd r pkgs strict) s in
    unchanged s s' \/ only_index_failed E o r s s' \/
    exists l1 x l2, pkgs = l1 ++ x :: l2 /\ refused_file E s' r strict x /\
      same_books (after E o (OpAdd r l1 strict) s) s' /\ forall y f, index_file s' y f = index_file s y f.
Proof. intros E cat s o r pkgs strict Hc HE (h & Hh & Hf & ->) Ho Gp Out. exact (import_fails E cat Hc HE false o r strict pkgs _ (hist_fz E cat Hc HE h Hh Hf) Ho Gp Out). Qed.
Print Assumptions C103_failed_import_partial.
(** What a request does to the books does not depend on the compressors, the
    renames, the purge and so on: they decide about the index alone. (No
    hypothesis on the state; [o_sort] is Go's choice among equal releases.) *)
Theorem C103_tools_touch_only_the_index :
  forall E o o' p s, o_sort o = o_sort o' -> same_books (after E o p s) (after E o' p s).
Proof. intros. apply books_any_tools; assumption. Qed.
Print Assumptions C103_tools_touch_only_the_index.

Definition no_xz : oracle := Oracle (fun l => l) (fun f => seqb f "eopkg-index.xml.new.xz") (fun _ => false) (Ok tt) rsort.
Lemma no_xz_good : good_oracle no_xz.
Proof. constructor; [discriminate|reflexivity|apply rsort_perm|apply rsort_desc]. Qed.
(** Without a working xz, creating a repository reports an error, but the
    repository is there: the request cannot even be repeated. *)
Theorem C103_failed_create_stays_refuted :
  exists E cat s o r, good_catalog cat /\ good_env E /\ reachable E cat s /\ good_oracle o /\
    outcome E o (OpCreate r) s = Err /\ repo_exists s r = false /\
    let s' := after E o (OpCreate r) s in
    repo_exists s' r = true /\ forall o', outcome E o' (OpCreate r) s' = Err.
Proof.
  exists (demo_env true), demo_cat, init, no_xz, "unstable". split; [apply demo_cat_good|]. split; [apply demo_env_good|].
  split; [exists []; split; [constructor|reflexivity]|]. split; [apply no_xz_good|]. split; [here|]. split; [here|]. split; [here|]. intros o'. reflexivity.
Qed.
Print Assumptions C103_failed_create_stays_refuted.
(** An import of a good and a missing file reports an error; the good one is in the
    repository all the same, but not in its index. *)
Definition h_one : list event := [ EvPut (ext "nano-1.eopkg") "nano1"; EvOp demo_oracle (OpCreate "unstable") ].
Theorem C103_failed_import_stays_refuted :
  exists E cat s o r good bad, good_catalog cat /\ good_env E /\ reachable_completed E cat s /\ good_oracle o /\
    outcome E o (OpAdd r [good; bad] false) s = Err /\ ~ available s r (l_id good) /\
    let s' := after E o (OpAdd r [good; bad] false) s in
    available s' r (l_id good) /\ ~ available s' r (l_id bad) /\ forall f, index_file s' r f = index_file s r f.
Proof.
  exists (demo_env true), demo_cat, (run_history (demo_env true) h_one), demo_oracle, "unstable", (ext "nano-1.eopkg"), (ext "libx-1.eopkg").
  split; [apply demo_cat_good|]. split; [apply demo_env_good|].
  split; [exists h_one; split; [unfold good_history, h_one; demo_hist|split; [unfold crash_free, h_one; repeat constructor|reflexivity]]|].
  split; [apply demo_oracle_good|]. split; [here|].
  set (s0 := run_history (demo_env true) h_one).
  assert (K0 : mlist (d_ents (st_db s0) "unstable") = []) by here.
  set (s1 := after (demo_env true) demo_oracle (OpAdd "unstable" [ext "nano-1.eopkg"; ext "libx-1.eopkg"] false) s0).
  assert (K1 : mlist (d_ents (st_db s1) "unstable") = [("nano", Entry "nano" ["nano-1.eopkg"] "nano-1.eopkg" [])]) by here.
  split; [|split; [|split]].
  - intros (n & e & G & _). unfold entry_at in G. apply in_mlist in G. rewrite K0 in G. destruct G.
  - exists "nano", (Entry "nano" ["nano-1.eopkg"] "nano-1.eopkg" []). split; [|left; reflexivity].
    unfold entry_at. apply in_mlist. rewrite K1. left. reflexivity.
  - intros (n & e & G & L). unfold entry_at in G. apply in_mlist in G. rewrite K1 in G.
    destruct G as [G|[]]. injection G as <- <-. destruct L as [L|[]]. discriminate.
  - intros f. subst s1 s0. vm_compute. reflexivity.
Qed.
Print Assumptions C103_failed_import_stays_refuted.
(** The hypotheses are met: a refused request, one whose index fails, an import
    that stops half-way. *)
Example C103_demo : let s := run_history (demo_env true) (h_two ++ [EvDel (ext "nano-2.eopkg")]) in let E := demo_env true in
  reachable_completed E demo_cat s /\
  outcome E demo_oracle (OpRemoveSource "stable" "nosuch" 0) s = Err /\
  (outcome E no_xz (OpRemoveSource "stable" "nano" 0) s = Err /\
   available_ids (after E no_xz (OpRemoveSource "stable" "nano" 0) s) "stable" "nano" = []) /\
  outcome E demo_oracle (OpAdd "stable" [ext "libx-1.eopkg"; ext "nano-2.eopkg"] true) s = Err /\
  outcome E demo_oracle (OpPull "nosuch" "stable") s = Err.
Proof.
  cbv zeta. split; [|split; [here|split; [split; here|split; here]]].
  exists (h_two ++ [EvDel (ext "nano-2.eopkg")]). split; [unfold good_history, h_two; simpl app; demo_hist|split; [unfold crash_free, h_two; repeat constructor|reflexivity]].
Qed.
