(** * DeltaJobFacts: a delta job as a history of requests (proof artifact) *)
From Verif Require Import Model Spec DbInv DbOps Wp FsInv Ops UnrefOps RepoOps DeleteOps Pure Loops Emit IndexOps ApiOps History.
From Verif Require Import Base LibDb Jobs JobSpec JobFacts JobFacts2 PropsJobs Dispatch PropsDispatch DeltaProd DeltaJob PropsDelta.
From Verif Require Import Model Spec FsInv.
Open Scope string_scope. Open Scope list_scope.

(** the delta between two packages of the catalog *)
Definition dname (cat : string -> meta) (i j : string) : string :=
  delta_name (m_name (cat j)) (rel (cat i)) (rel (cat j)) (m_drel (cat j)) (m_arch (cat j)).

(** the delta files made from packages are what the catalog says about them:
    opening reads the metadata that the metadata reader reads; the archive of a
    delta has the metadata of the new package (its metadata.xml is copied);
    delta names are plain file names *)
Record delta_world (E : env) (cat : string -> meta) (D : denv) : Prop := {
  dw_open : forall c k, D_open D c = Ok k -> E_parse E c = Ok (k_meta k);
  dw_panic : forall c, D_open D c = Panic -> E_parse E c = Panic;
  dw_zip : forall c c' o n z, D_open D c = Ok o -> D_open D c' = Ok n -> produce_delta o n = DDelta z ->
             E_parse E (D_zip D z) = Ok (k_meta n);
  dw_plain : forall i j, is_delta_id i = false -> is_delta_id j = false -> m_name (cat i) = m_name (cat j) ->
             plain_id (dname cat i j) = true /\ m_name (cat (dname cat i j)) = m_name (cat j);
  dw_cat : forall i j, is_delta_id i = false -> is_delta_id j = false -> older_version (cat i) (cat j) -> cat (dname cat i j) = cat j
}.

Section Job.
Variable E : env.
Variable cat : string -> meta.
Variable D : denv.
Hypothesis Hcat : good_catalog cat.
Hypothesis HE : good_env E.
Hypothesis HD : delta_world E cat D.
Notation Inv := (FsInv.Inv E cat).

Definition steps (s s' : state) : Prop :=
  exists h, good_history E cat h /\ crash_free h /\ fold_left (ev_step E) h s = s'.
Definition crashed (s t : state) : Prop :=
  exists h, good_history E cat h /\ fold_left (ev_step E) h s = restart t.

Lemma steps_refl s : steps s s.
Proof. exists []. repeat split; constructor. Qed.
Lemma steps_trans s s1 s2 : steps s s1 -> steps s1 s2 -> steps s s2.
Proof.
  intros (h & A & B & <-) (h' & A' & B' & <-). exists (h ++ h'). split; [apply Forall_app; auto|]. split; [apply Forall_app; auto|].
  apply fold_left_app.
Qed.
Lemma steps_crashed s s1 t : steps s s1 -> crashed s1 t -> crashed s t.
Proof.
  intros (h & A & B & <-) (h' & A' & F). exists (h ++ h'). split; [apply Forall_app; auto|]. rewrite fold_left_app. exact F.
Qed.
Lemma steps_ev s e : good_event E cat e -> match e with EvCrash _ _ _ => False | _ => True end -> steps s (ev_step E s e).
Proof. intros G C. exists [e]. repeat split; [constructor; [exact G|constructor]|constructor; [exact C|constructor]]. Qed.
Lemma steps_inv ex fz s s' : Inv ex fz [] s -> ex = false -> steps s s' -> Inv ex fz [] s'.
Proof. intros H -> (h & A & B & <-). apply Inv_run; auto. discriminate. Qed.
Lemma crashed_self s t : steps s t -> crashed s t.
Proof. intros S. eapply steps_crashed; [exact S|]. exists [EvRestart]. split; [constructor; [exact I|constructor]|reflexivity]. Qed.

Section From.
Variable s0 : state.

Lemma op_sim fz o p s : Inv false fz [] s -> steps s0 s -> good_oracle o -> good_op p -> removes_packages p = false ->
  wp (run_op E o p) (crashed s0) (fun s' res => steps s0 s' /\ res <> Panic) s.
Proof.
  intros H S Ho Hp Hr. destruct (wp_run_op E cat Hcat HE false fz o p s H Ho Hp ltac:(discriminate)) as (_ & I1 & Np).
  split.
  - apply Forall_forall. intros t Ht. eapply steps_crashed; [exact S|]. apply In_nth with (d := final_of (run_op E o p s)) in Ht as (n & Ln & En).
    exists [EvCrash o p (Datatypes.S n)]. split; [constructor; [cbn; auto|constructor]|]. cbn [fold_left ev_step nth]. rewrite En. reflexivity.
  - split; [|exact Np]. eapply steps_trans; [exact S|].
    assert (X : ev_step E s (EvOp o p) = final_of (run_op E o p s)).
    { cbn [ev_step]. destruct (result_of (run_op E o p s)); [reflexivity|reflexivity|congruence]. }
    rewrite <- X. apply steps_ev; [cbn; auto|exact I].
Qed.
Lemma unit_sim fz (m : M unit) o p s : run_op E o p = (m ;;; ret []) -> Inv false fz [] s -> steps s0 s -> good_oracle o -> good_op p -> removes_packages p = false ->
  wp m (crashed s0) (fun s' res => steps s0 s' /\ res <> Panic) s.
Proof.
  intros Ep H S Ho Hp Hr. pose proof (op_sim fz o p s H S Ho Hp Hr) as [A B]. rewrite Ep in A, B. split.
  - unfold bind, trace_of in *. destruct (m s) as [[t s1] [[]| |]]; cbn in *; rewrite ?app_nil_r in A; exact A.
  - unfold bind, final_of, result_of in *. destruct (m s) as [[t s1] [[]| |]]; cbn in *; destruct B; split; auto; discriminate.
Qed.

Variable o : joracle.
Hypothesis Ho : good_oracle (jo_index o).

(** a request that only looks the repository up *)
Definition bad_id : string := "/.delta.eopkg".
Lemma pool_bad fz s : Inv false fz [] s -> mget (d_pool (st_db s)) bad_id = None.
Proof.
  intros H. destruct (mget (d_pool (st_db s)) bad_id) as [p|] eqn:G; [|reflexivity].
  pose proof (po_plain _ _ _ (ok_pool _ _ (i_db _ _ _ _ _ _ H) _ _ G)) as X. vm_compute in X. discriminate.
Qed.
Lemma sim_get_repo fz r s : Inv false fz [] s -> steps s0 s ->
  wp (get_repo r) (crashed s0) (fun s' res => steps s0 s' /\ Inv false fz [] s' /\ quiet_dir r s s' /\
     ((res = Ok tt /\ mhas (d_repos (st_db s)) r = true /\ st_cache s' r = true) \/
         (res = Err /\ mhas (d_repos (st_db s)) r = false /\ s' = s))) s.
Proof.
  intros H S. pose proof (wp_get_repo E cat false fz [] r s H) as [_ W].
  pose proof (unit_sim fz _ (jo_index o) (OpRefDelta r bad_id) s eq_refl H S Ho ltac:(vm_compute; reflexivity) eq_refl) as [A [B _]].
  unfold api_ref_delta, bind in A, B. destruct (get_repo r s) as [[t s1] res] eqn:G. cbn [final_of result_of fst snd] in W.
  destruct W as (I1 & Q & R).
  assert (X : match res with Ok _ => ref_delta E r bad_id s1 = ([], s1, Err) | _ => True end).
  { destruct res; try exact I. unfold ref_delta, pool_get_or_err, pool_get. rewrite bind_assoc, bind_gets.
    rewrite (pool_bad fz s1 I1). reflexivity. }
  assert (Y : Forall (crashed s0) t /\ steps s0 s1).
  { destruct res as [[]| |]; [rewrite X in A, B; cbn in A, B; rewrite app_nil_r in A|..]; split; assumption. }
  split; cbn [trace_of final_of result_of]; rewrite G; cbn [fst snd]; [apply Y|]. split; [apply Y|]. split; [exact I1|]. split; [exact Q|exact R].
Qed.
Lemma cached_repo r s : st_cache s r = true -> get_repo r s = ([], s, Ok tt).
Proof. intros H. unfold get_repo. rewrite bind_gets, H. reflexivity. Qed.

(** versions of one package, as the pool records them *)
Definition version (s : state) (pkg i : string) (m : meta) : Prop :=
  meta_of cat i m /\ plain_id i = true /\ is_delta_id i = false /\ m_name (cat i) = pkg.

Lemma version_name s pkg i j mi mj : version s pkg i mi -> version s pkg j mj -> compute_delta_name mi mj = Ok (dname cat i j).
Proof.
  intros (A & _) (B & _). unfold compute_delta_name. rewrite (meta_of_get_release cat Hcat _ _ A), (meta_of_get_release cat Hcat _ _ B).
  destruct A as (h & z & ->), B as (h' & z' & ->). reflexivity.
Qed.
Lemma older_bits a b c d h z c' d' h' z' : older_version (set_index_bits a c d h z) (set_index_bits b c' d' h' z') <-> older_version a b.
Proof. reflexivity. Qed.
Lemma version_possible s pkg i j mi mj : version s pkg i mi -> version s pkg j mj ->
  (exists b, is_delta_possible mi mj = Ok b) /\ (is_delta_possible mi mj = Ok true <-> older_version (cat i) (cat j)).
Proof.
  intros (A & _) (B & _). split.
  - unfold is_delta_possible. rewrite (meta_of_get_release cat Hcat _ _ A), (meta_of_get_release cat Hcat _ _ B). eauto.
  - change (possible mi mj <-> older_version (cat i) (cat j)). rewrite C42_possible_iff.
    destruct A as (h & z & ->), B as (h' & z' & ->). apply older_bits.
Qed.
Lemma version_id s pkg i mi : version s pkg i mi -> get_id mi = i.
Proof. intros ((h & z & ->) & P & _). unfold get_id. simpl. apply base_uri, P. Qed.
Lemma dname_delta i j : is_delta_id (dname cat i j) = true.
Proof. unfold is_delta_id, dname, delta_name. rewrite <- !sapp_assoc. apply has_suffix_app. Qed.
Lemma base_plain x : plain_id x = true -> base x = x.
Proof.
  intros P. unfold plain_id in P. apply andb_true_iff in P as [P _]. apply andb_true_iff in P as [P1 P2]. apply negb_true_iff in P1.
  unfold base. rewrite P1, (split_slash_noslash x P2). cbn [rev app strip_trailing]. rewrite P1. reflexivity.
Qed.

(** what an attempt at one delta does to the database *)
Definition dinfo_of (i j : string) : dinfo := DInfo (rel (cat i)) i (rel (cat j)) j.
Inductive attempted (r pkg i j : string) (d d' : db) : Prop :=
| AtFailed : mhas (d_skip d) (dname cat i j) = true -> d' = d -> attempted r pkg i j d d'
| AtListed e : mget (d_ents d r) pkg = Some e -> In (dname cat i j) (e_deltas e) -> d' = d -> attempted r pkg i j d d'
| AtImpossible : ~ older_version (cat i) (cat j) -> d' = d -> attempted r pkg i j d d'
| AtMark : mhas (d_skip d) (dname cat i j) = false -> older_version (cat i) (cat j) ->
    d' = apply_op d (PutSkip (SEntry (dname cat i j) (dinfo_of i j))) -> attempted r pkg i j d d'
| AtDelta p : mhas (d_skip d) (dname cat i j) = false -> p_name p = dname cat i j -> pentry_ok cat (dname cat i j) p ->
    (mget (d_pool d) (dname cat i j) = None -> older_version (cat i) (cat j) /\ p_delta p = Some (dinfo_of i j)) ->
    mget (d_ents d r) pkg <> None -> d' = db_delta cat r p d -> attempted r pkg i j d d'.

(** opening a package file of the repository *)
Lemma open_all_spec fz r i m pkg s : Inv false fz [] s -> version s pkg i m ->
  open_all D (repo_loc r (m_uri m)) s = ([], s, Err) \/
  (exists c k, open_all D (repo_loc r (m_uri m)) s = ([], s, Ok k) /\ D_open D c = Ok k /\ k_meta k = cat i).
Proof.
  intros H (A & P & _). unfold open_all. rewrite bind_gets.
  set (l := repo_loc r (m_uri m)). destruct (file_content (st_fs s) l) as [c|] eqn:Fc; [|left; reflexivity].
  assert (Hl : l_id l = i). { destruct A as (h & z & ->). subst l. unfold repo_loc. cbn [l_id set_index_bits m_uri]. apply base_uri, P. }
  assert (Hg : good_file E cat i c).
  { unfold file_content in Fc. destruct (f_name (st_fs s) l) as [x|] eqn:Gi; [|discriminate]. injection Fc as <-. rewrite <- Hl.
    apply (fo_good _ _ _ (i_fs _ _ _ _ _ _ H) _ _ Gi). }
  unfold good_file in Hg. destruct (D_open D c) as [k| |] eqn:Ok_; unfold lift.
  - right. exists c, k. split; [reflexivity|]. split; [exact Ok_|]. rewrite (dw_open _ _ _ HD _ _ Ok_) in Hg. exact Hg.
  - left. reflexivity.
  - rewrite (dw_panic _ _ _ HD _ Ok_) in Hg. destruct Hg.
Qed.

Lemma sim_create fz r i j old new pkg s : Inv false fz [] s -> steps s0 s -> st_cache s r = true ->
  version s pkg i old -> version s pkg j new ->
  wp (create_delta D r old new) (crashed s0)
    (fun s' res => steps s0 s' /\ Inv false fz [] s' /\ st_db s' = st_db s /\ st_cache s' = st_cache s /\ f_dir (st_fs s') = f_dir (st_fs s) /\
       (res = Err \/ (res = Ok CMismatched /\ ~ older_version (cat i) (cat j)) \/
        (res = Ok CPointless /\ older_version (cat i) (cat j)) \/
        (res = Ok (CPath (stage_loc r (dname cat i j))) /\ older_version (cat i) (cat j)))) s.
Proof.
  intros H S C Vi Vj. unfold create_delta.
  eapply wp_eq; [apply (bind_ok _ _ _ _ _ (cached_repo r s C))|].
  destruct (version_possible _ _ _ _ _ _ Vi Vj) as [(b & Eb) Pb]. eapply wp_bind_lift; [exact Eb|].
  destruct b; cbv beta iota.
  2:{ apply wp_ret. do 5 (split; [first [assumption|reflexivity]|]). right; left. split; [reflexivity|]. rewrite <- Pb, Eb. discriminate. }
  assert (Old : older_version (cat i) (cat j)) by (apply Pb, Eb).
  eapply wp_bind_lift; [apply (version_name _ _ _ _ _ _ Vi Vj)|]. apply wp_bind_gets.
  destruct (f_name (st_fs s) (stage_loc r (dname cat i j))) eqn:Fs.
  { apply wp_ret. do 5 (split; [first [assumption|reflexivity]|]). right; right; right. auto. }
  assert (Er : wp (@err created) (crashed s0) (fun s' res => steps s0 s' /\ Inv false fz [] s' /\ st_db s' = st_db s /\ st_cache s' = st_cache s /\ f_dir (st_fs s') = f_dir (st_fs s) /\
       (res = Err \/ (res = Ok CMismatched /\ ~ older_version (cat i) (cat j)) \/
        (res = Ok CPointless /\ older_version (cat i) (cat j)) \/
        (res = Ok (CPath (stage_loc r (dname cat i j))) /\ older_version (cat i) (cat j)))) s).
  { apply wp_err. do 5 (split; [first [assumption|reflexivity]|]). left. reflexivity. }
  destruct (open_all_spec fz r i old pkg s H Vi) as [Eo|(co & ko & Eo & Do & Mo)].
  { eapply wp_eq; [|exact Er]. unfold bind at 1. rewrite Eo. reflexivity. }
  eapply wp_eq; [apply (bind_ok _ _ _ _ _ Eo)|].
  destruct (open_all_spec fz r j new pkg s H Vj) as [En|(cn & kn & En & Dn & Mn)].
  { eapply wp_eq; [|exact Er]. unfold bind at 1. rewrite En. reflexivity. }
  eapply wp_eq; [apply (bind_ok _ _ _ _ _ En)|].
  destruct (produce_delta ko kn) as [z| | | |] eqn:Pd.
  - assert (Di : is_delta_id i = false) by apply Vi. assert (Dj : is_delta_id j = false) by apply Vj.
    assert (Pl : plain_id (dname cat i j) = true).
    { apply (dw_plain _ _ _ HD); auto. destruct Vi as (_ & _ & _ & ->), Vj as (_ & _ & _ & ->). reflexivity. }
    assert (Gf : good_file E cat (dname cat i j) (D_zip D z)).
    { unfold good_file. rewrite (dw_zip _ _ _ HD _ _ _ _ _ Do Dn Pd), Mn. symmetry. apply (dw_cat _ _ _ HD); auto. }
    assert (St : steps s (on_fs (fun f => fs_create f (stage_loc r (dname cat i j)) (D_zip D z)) s)).
    { apply (steps_ev s (EvPut (stage_loc r (dname cat i j)) (D_zip D z))); [split; assumption|exact I]. }
    apply wp_bind_durable.
    + apply crashed_self. eapply steps_trans; eauto.
    + apply wp_ret. split; [eapply steps_trans; eauto|]. split; [eapply steps_inv; eauto|]. do 3 (split; [reflexivity|]). right; right; right. auto.
  - apply wp_ret. do 5 (split; [first [assumption|reflexivity]|]). right; right; left. auto.
  - apply wp_ret. do 5 (split; [first [assumption|reflexivity]|]). right; left. split; [reflexivity|].
    exfalso. unfold produce_delta in Pd. rewrite Mo, Mn in Pd. apply C42_possible_iff in Old. unfold possible in Old. rewrite Old in Pd.
    unfold commit in Pd. destruct (Nat.eqb _ _); [discriminate|]. destruct (diff_map ko kn); [discriminate|]. destruct (copy_install_partial _ _); discriminate.
  - exact Er.
  - exfalso. unfold produce_delta in Pd. rewrite Mo, Mn in Pd. apply C42_possible_iff in Old. unfold possible in Old. rewrite Old in Pd.
    unfold commit in Pd. destruct (Nat.eqb _ _); [discriminate|]. destruct (diff_map ko kn); [discriminate|]. destruct (copy_install_partial _ _); discriminate.
Qed.

Lemma version_same s s' pkg i m : version s pkg i m -> version s' pkg i m.
Proof. exact (fun x => x). Qed.
Lemma version_dname s pkg i j mi mj : version s pkg i mi -> version s pkg j mj ->
  plain_id (dname cat i j) = true /\ m_name (cat (dname cat i j)) = pkg.
Proof.
  intros (_ & _ & Di & Ni) (_ & _ & Dj & Nj). destruct (dw_plain _ _ _ HD i j Di Dj) as [A B]; [congruence|]. split; [exact A|congruence].
Qed.
Lemma plain_reserved x : plain_id x = true -> reserved x = false.
Proof. unfold plain_id. intros H. apply andb_true_iff in H as [_ H]. apply negb_true_iff, H. Qed.
Lemma touch_pool p d x : db_ok cat d -> mget (d_pool d) x <> None -> mget (d_pool (db_touch p d)) x <> None.
Proof.
  intros H. unfold db_touch, d_bump. destruct (mget (d_pool d) (p_name p)) as [q|] eqn:G; cbn [apply_op d_pool]; rewrite mget_put.
  - cbn [set_rc p_name]. destruct (seqb_spec x (p_name q)); [discriminate|auto].
  - destruct (seqb_spec x (p_name p)); [discriminate|auto].
Qed.

Definition step_post (fz : bool) (r pkg i j : string) (s : state) (n : nat) (s' : state) (res : res nat) : Prop :=
  steps s0 s' /\ Inv false fz [] s' /\ st_cache s' r = true /\
  match res with
  | Ok n' => attempted r pkg i j (st_db s) (st_db s') /\ (n' = Datatypes.S n \/ n' = n /\ forall x, pool_at s' x <> None -> pool_at s x <> None)
  | Err => st_db s' = st_db s \/ attempted r pkg i j (st_db s) (st_db s')
  | Panic => False
  end.

Lemma sim_add fz r pkg i j mi mj s :
  Inv false fz [] s -> steps s0 s -> st_cache s r = true -> version s pkg i mi -> version s pkg j mj ->
  older_version (cat i) (cat j) -> mhas (d_skip (st_db s)) (dname cat i j) = false ->
  mget (d_ents (st_db s) r) pkg <> None ->
  wp (include_delta E r (stage_loc r (dname cat i j)) i j) (crashed s0)
     (fun s' res => steps s0 s' /\ Inv false fz [] s' /\ st_cache s' r = true /\ res <> Panic /\
        (attempted r pkg i j (st_db s) (st_db s') \/ (res = Err /\ st_db s' = st_db s))) s.
Proof.
  intros H S C Vi Vj Ol Nf Ge. set (id := dname cat i j) in *. set (l := stage_loc r id).
  destruct (version_dname _ _ _ _ _ _ Vi Vj) as [Pl Pn]. fold id in Pl, Pn.
  assert (Dd : is_delta_id id = true) by apply dname_delta.
  unfold include_delta. apply wp_bind.
  pose proof (unit_sim fz _ (jo_index o) (OpAddDelta r l i j) s eq_refl H S Ho ltac:(split; [reflexivity|exact Dd]) eq_refl) as U.
  assert (W : wp (api_add_delta E r l i j) (Cinv E cat fz) (fun s' res => Inv false fz [] s' /\ rest fz r s s' /\ res <> Panic /\
        ((res = Err /\ st_db s' = st_db s) \/
         (res = Ok tt /\ exists p, p_name p = l_id l /\ pentry_ok cat (l_id l) p /\
            (mget (d_pool (st_db s)) (l_id l) = None ->
               exists h z, p = new_pentry cat (l_id l) h z (Some (DInfo (rel (cat i)) i (rel (cat j)) j))) /\
            st_db s' = db_delta cat r p (st_db s)))) s).
  { unfold api_add_delta. eapply wp_eq; [apply (bind_ok _ _ _ _ _ (cached_repo r s C))|].
    apply (wp_add_delta E cat Hcat HE fz r l i j s H eq_refl Dd). }
  pose proof (wp_and _ _ _ _ _ _ U W) as UW.
  eapply wp_mono; [exact UW|intros t [A _]; exact A|].
  intros s1 res ((S1 & _) & I1 & R1 & Np & X).
  assert (C1 : st_cache s1 r = true) by (rewrite (rs_cache _ _ _ _ R1); exact C).
  destruct res as [[]| |]; [| |contradiction].
  - destruct X as [(X & _)|(_ & p & N & Po & Pnew & Db)]; [discriminate|]. cbn [l_id l stage_loc] in *.
    assert (At : attempted r pkg i j (st_db s) (st_db s1)).
    { apply (AtDelta _ _ _ _ _ _ p); auto. intros G. split; [exact Ol|]. destruct (Pnew G) as (h & z & ->). reflexivity. }
    cbv beta iota. apply wp_bind_gets. destruct (f_name (st_fs s1) l).
    + unfold remove_file. assert (St : steps s1 (on_fs (fun f => fs_set_name f l None) s1)) by (apply (steps_ev s1 (EvDel l)); exact I).
      apply wp_durable; [apply crashed_self; eapply steps_trans; eauto|].
      split; [eapply steps_trans; eauto|]. split; [eapply steps_inv; eauto|]. split; [exact C1|]. split; [discriminate|]. left. exact At.
    + apply wp_err. split; [exact S1|]. split; [exact I1|]. split; [exact C1|]. split; [discriminate|]. left. exact At.
  - split; [exact S1|]. split; [exact I1|]. split; [exact C1|]. split; [discriminate|]. right. split; [reflexivity|].
    destruct X as [(_ & X)|(X & _)]; [exact X|discriminate].
Qed.

Lemma sim_step fz r pkg i j old tip n s :
  Inv false fz [] s -> steps s0 s -> st_cache s r = true -> version s pkg i old -> version s pkg j tip ->
  wp (delta_step E D r pkg tip n old) (crashed s0) (step_post fz r pkg i j s n) s.
Proof.
  intros H S C Vi Vj. unfold delta_step. set (id := dname cat i j).
  eapply wp_bind_lift; [apply (version_name _ _ _ _ _ _ Vi Vj)|]. fold id. apply wp_bind_gets.
  destruct (version_dname _ _ _ _ _ _ Vi Vj) as [Pl Pn]. fold id in Pl, Pn.
  assert (Keep : forall s' : state, (forall x, pool_at s x <> None -> pool_at s x <> None)) by auto.
  unfold get_delta_failed. destruct (mhas (d_skip (st_db s)) id) eqn:Sk.
  { apply wp_ret. split; [exact S|]. split; [exact H|]. split; [exact C|]. split; [apply AtFailed; [exact Sk|reflexivity]|]. right. auto. }
  assert (Er : step_post fz r pkg i j s n s Err).
  { split; [exact S|]. split; [exact H|]. split; [exact C|]. left. reflexivity. }
  assert (Hh : (get_repo r ;;; has_delta r pkg id) s = match mget (d_ents (st_db s) r) pkg with Some e => ([], s, Ok (sin id (e_deltas e))) | None => ([], s, Err) end).
  { rewrite (bind_ok _ _ _ _ _ (cached_repo r s C)). unfold has_delta, ent_get. rewrite bind_gets. destruct (mget _ _); reflexivity. }
  destruct (mget (d_ents (st_db s) r) pkg) as [e|] eqn:Ge.
  2:{ apply (wp_eq _ err); [unfold bind at 1; rewrite Hh; reflexivity|]. apply wp_err. exact Er. }
  eapply wp_eq; [apply (bind_ok _ _ _ _ _ Hh)|].
  destruct (sin id (e_deltas e)) eqn:Si.
  { apply wp_ret. split; [exact S|]. split; [exact H|]. split; [exact C|]. split; [|right; auto].
    eapply AtListed; [exact Ge|apply sin_In, Si|reflexivity]. }
  unfold pool_get. apply wp_bind_gets. rewrite (base_plain id Pl).
  destruct (mget (d_pool (st_db s)) id) as [q|] eqn:Gq.
  - (* reuse *)
    assert (Dd : is_delta_id id = true) by apply dname_delta.
    pose proof (unit_sim fz _ (jo_index o) (OpRefDelta r id) s eq_refl H S Ho Dd eq_refl) as U.
    assert (W : wp (api_ref_delta E r id) (Cinv E cat fz) (fun s' res => Inv false fz [] s' /\ rest fz r s s' /\ res <> Panic /\
        ((res = Err /\ s' = s /\ (mget (d_pool (st_db s)) id = None \/ mget (d_ents (st_db s) r) (m_name (cat id)) = None)) \/
         (exists p, mget (d_pool (st_db s)) id = Some p /\ mget (d_ents (st_db s) r) (m_name (cat id)) <> None /\
                    res = Ok tt /\ st_db s' = db_delta cat r p (st_db s)))) s).
    { unfold api_ref_delta. eapply wp_eq; [apply (bind_ok _ _ _ _ _ (cached_repo r s C))|]. apply (wp_ref_delta E cat Hcat HE fz r id s H Dd). }
    apply wp_bind. eapply wp_mono; [exact (wp_and _ _ _ _ _ _ U W)|intros t [A _]; exact A|].
    intros s1 res ((S1 & _) & I1 & R1 & Np & X). destruct X as [(-> & -> & _)|(p & Gp & Gn & -> & Db)]; [exact Er|].
    cbv beta iota. apply wp_ret. split; [exact S1|]. split; [exact I1|]. split; [rewrite (rs_cache _ _ _ _ R1); exact C|].
    pose proof (ok_pool _ _ (i_db _ _ _ _ _ _ H) _ _ Gp) as Po. split.
    + apply (AtDelta _ _ _ _ _ _ p); fold id; auto; [apply Po|congruence|congruence].
    + right. split; [reflexivity|]. unfold pool_at. intros x. rewrite Db. unfold db_delta. rewrite (po_name _ _ _ Po).
      destruct (mget (d_ents (st_db s) r) (m_name (cat id))) as [e'|]; [|auto]. destruct (sin id (e_deltas e')); [auto|].
      cbn [apply_op d_pool]. unfold db_touch. rewrite (po_name _ _ _ Po), Gp. unfold d_bump. rewrite Gp. cbn [apply_op d_pool]. rewrite mget_put.
      cbn [set_rc p_name]. rewrite (po_name _ _ _ Po). destruct (seqb_spec x id) as [->|]; [congruence|auto].
  - (* create *)
    apply wp_bind. eapply wp_mono; [apply (sim_create fz r i j old tip pkg s H S C Vi Vj)|auto|].
    intros s1 res (S1 & I1 & Db & Ca & _ & X). assert (C1 : st_cache s1 r = true) by congruence.
    destruct X as [->|[(-> & Nol)|[(-> & Ol)|(-> & Ol)]]]; cbv beta iota.
    + split; [exact S1|]. split; [exact I1|]. split; [exact C1|]. left. exact Db.
    + apply wp_ret. split; [exact S1|]. split; [exact I1|]. split; [exact C1|]. split; [apply AtImpossible; auto|]. right. unfold pool_at. rewrite Db. auto.
    + eapply wp_bind_lift; [apply (meta_of_get_release cat Hcat), (proj1 Vi)|].
      eapply wp_bind_lift; [apply (meta_of_get_release cat Hcat), (proj1 Vj)|].
      rewrite (version_id _ _ _ _ Vi), (version_id _ _ _ _ Vj). fold (dinfo_of i j).
      pose proof (unit_sim fz _ (jo_index o) (OpMarkFailed id (dinfo_of i j)) s1 eq_refl I1 S1 Ho I eq_refl) as U.
      assert (Em : mark_delta_failed id (dinfo_of i j) s1 = durable (on_db (fun d => apply_op d (PutSkip (SEntry id (dinfo_of i j))))) s1).
      { unfold mark_delta_failed. rewrite bind_gets. rewrite Db. unfold mhas in Sk. destruct (mget (d_skip (st_db s)) id); [discriminate|].
        unfold db_write. cbn [op_key k_name]. rewrite (plain_reserved id Pl). reflexivity. }
      destruct U as [_ [U1 _]]. unfold final_of in U1. rewrite Em in U1. cbn [durable fst snd] in U1.
      set (s2 := on_db (fun d => apply_op d (PutSkip (SEntry id (dinfo_of i j)))) s1) in *.
      apply (wp_eq _ (durable (on_db (fun d => apply_op d (PutSkip (SEntry id (dinfo_of i j))))) ;;; ret n)); [unfold bind; rewrite Em; reflexivity|].
      apply wp_bind_durable; fold s2; [apply crashed_self, U1|].
      apply wp_ret. split; [exact U1|]. split.
      { pose proof (wp_mark_failed E cat false fz id (dinfo_of i j) s1 I1) as [_ (Y & _)]. unfold final_of in Y. rewrite Em in Y. exact Y. }
      split; [exact C1|]. split.
      * apply AtMark; [exact Sk|exact Ol|]. subst s2. cbn [on_db st_db]. rewrite Db. reflexivity.
      * right. split; [reflexivity|]. unfold pool_at. subst s2. cbn [on_db st_db apply_op d_pool]. rewrite Db. auto.
    + apply wp_bind. rewrite (version_id _ _ _ _ Vi), (version_id _ _ _ _ Vj).
      eapply wp_mono; [apply (sim_add fz r pkg i j old tip s1 I1 S1 C1 Vi Vj Ol)|auto|].
      * rewrite Db. exact Sk.
      * rewrite Db. congruence.
      * intros s2 res2 (S2 & I2 & C2 & Np & X). rewrite Db in X. destruct res2 as [[]| |]; [| |contradiction].
        -- cbv beta iota. apply wp_ret. split; [exact S2|]. split; [exact I2|]. split; [exact C2|]. destruct X as [X|(X & _)]; [|discriminate].
           split; [exact X|]. left. reflexivity.
        -- split; [exact S2|]. split; [exact I2|]. split; [exact C2|]. destruct X as [X|(_ & X)]; [right|left]; exact X.
Qed.

Inductive attempts (r pkg j : string) : list string -> db -> db -> Prop :=
| AtsNil d : attempts r pkg j [] d d
| AtsCons i l d d1 d2 : attempted r pkg i j d d1 -> attempts r pkg j l d1 d2 -> attempts r pkg j (i :: l) d d2.

Definition loop_post (fz : bool) (r pkg j : string) (ids : list string) (s : state) (n : nat) (s' : state) (res : res nat) : Prop :=
  steps s0 s' /\ Inv false fz [] s' /\ st_cache s' r = true /\
  match res with
  | Ok n' => attempts r pkg j ids (st_db s) (st_db s') /\ n <= n' /\ (n' = n -> forall x, pool_at s' x <> None -> pool_at s x <> None)
  | Err => exists l1 l2, ids = l1 ++ l2 /\ attempts r pkg j l1 (st_db s) (st_db s')
  | Panic => False
  end.
Lemma sim_loop fz r pkg j tip : forall ids olds n s,
  Forall2 (version s pkg) ids olds -> Inv false fz [] s -> steps s0 s -> st_cache s r = true -> version s pkg j tip ->
  wp (foldM olds (delta_step E D r pkg tip) n) (crashed s0) (loop_post fz r pkg j ids s n) s.
Proof.
  induction ids as [|i ids IH]; intros olds n s V H S C Vj; inversion V as [|? old ? olds' Vi V']; subst; cbn [foldM].
  { apply wp_ret. split; [exact S|]. split; [exact H|]. split; [exact C|]. split; [constructor|]. split; [lia|auto]. }
  apply wp_bind. eapply wp_mono; [apply (sim_step fz r pkg i j old tip n s H S C Vi Vj)|auto|].
  intros s1 res (S1 & I1 & C1 & X). destruct res as [n1| |]; [|split; [exact S1|split; [exact I1|split; [exact C1|]]]|contradiction].
  - destruct X as [At Nn]. eapply wp_mono; [apply (IH olds' n1 s1); auto|auto|].
    intros s2 res (S2 & I2 & C2 & Y). split; [exact S2|]. split; [exact I2|]. split; [exact C2|]. destruct res as [n2| |]; [| |exact Y].
    + destruct Y as (Ats & Le & Po). split; [econstructor; eauto|]. split; [destruct Nn as [->|[-> _]]; lia|].
      intros En x Hx. destruct Nn as [->|[-> Po']]; [lia|]. apply Po', Po; auto.
    + destruct Y as (l1 & l2 & -> & Ats). exists (i :: l1), l2. split; [reflexivity|]. econstructor; eauto.
  - destruct X as [X|X].
    + exists [], (i :: ids). split; [reflexivity|]. rewrite X. constructor.
    + exists [i], ids. split; [reflexivity|]. econstructor; [exact X|constructor].
Qed.

Hypothesis Hasc_perm : forall l, Permutation (jo_asc o l) l.
Hypothesis Hasc : forall l, StronglySorted (fun a b => (rel a <= rel b)%Z) (jo_asc o l).

Lemma get_packages_eq fz r pkg s e : Inv false fz [] s -> mget (d_ents (st_db s) r) pkg = Some e ->
  get_packages r pkg s = ([], s, Ok (map (pm cat (st_db s)) (e_avail e))).
Proof.
  intros H G. unfold get_packages, ent_get. rewrite bind_gets, G.
  rewrite (foldM_ext_read _ (fun acc id => acc ++ [pm cat (st_db s) id])).
  - f_equal. f_equal. assert (F : forall l acc, fold_left (fun a id => a ++ [pm cat (st_db s) id]) l acc = acc ++ map (pm cat (st_db s)) l).
    { induction l as [|x l IH]; intros acc; cbn [fold_left map]; [rewrite app_nil_r; reflexivity|]. rewrite IH, <- app_assoc. reflexivity. }
    apply F.
  - intros acc id Hin. destruct (avail_pool E cat false fz [] s r pkg e id H G Hin) as (p & Gp & _ & _).
    rewrite (bind_ok _ _ _ _ _ (pool_get_eq id s p Gp)). unfold pm. rewrite Gp. reflexivity.
Qed.
Lemma pm_version fz r pkg s e id : Inv false fz [] s -> mget (d_ents (st_db s) r) pkg = Some e -> In id (e_avail e) ->
  version s pkg id (pm cat (st_db s) id).
Proof.
  intros H G Hin. destruct (avail_pool E cat false fz [] s r pkg e id H G Hin) as (p & Gp & Po & Nm & Dl).
  unfold pm. rewrite Gp. split; [apply Po|]. split; [apply Po|]. split; [exact Dl|exact Nm].
Qed.
Lemma version_rel s pkg i m : version s pkg i m -> rel m = rel (cat i).
Proof. intros (A & _). apply (meta_of_rel cat _ _ A). Qed.

Definition tip_of (d : db) (r pkg tip : string) (ids : list string) : Prop :=
  exists e, mget (d_ents d r) pkg = Some e /\ Permutation (ids ++ [tip]) (e_avail e) /\
    forall a, In a ids -> (rel (cat a) <= rel (cat tip))%Z.
Definition job_post (fz : bool) (r pkg : string) (s : state) (s' : state) (res : res nat) : Prop :=
  steps s0 s' /\ Inv false fz [] s' /\
  match res with
  | Ok n' => st_cache s' r = true /\ mget (d_ents (st_db s) r) pkg <> None /\
      ((st_db s' = st_db s /\ n' = 0 /\ forall e, mget (d_ents (st_db s) r) pkg = Some e -> List.length (e_avail e) < 2) \/
       exists tip ids, tip_of (st_db s) r pkg tip ids /\ attempts r pkg tip ids (st_db s) (st_db s') /\
         (n' = 0 -> forall x, pool_at s' x <> None -> pool_at s x <> None))
  | Err => st_db s' = st_db s \/ exists tip ids l1 l2, tip_of (st_db s) r pkg tip ids /\ ids = l1 ++ l2 /\ attempts r pkg tip l1 (st_db s) (st_db s')
  | Panic => False
  end.
Lemma sim_internal fz r pkg s : Inv false fz [] s -> steps s0 s ->
  wp (delta_internal E D o r pkg) (crashed s0) (job_post fz r pkg s) s.
Proof.
  intros H S. unfold delta_internal. apply wp_bind_assoc. apply wp_bind.
  eapply wp_mono; [apply (sim_get_repo fz r s H S)|auto|].
  intros s1 res (S1 & I1 & Q & [(-> & Hr & C1)|(-> & Hr & ->)]).
  2:{ split; [exact S|]. split; [exact H|]. left. reflexivity. }
  pose proof (qd_db _ _ _ Q) as Db. cbv beta iota.
  destruct (mget (d_ents (st_db s1) r) pkg) as [e|] eqn:Ge.
  2:{ apply (wp_eq _ err).
      - unfold bind at 1. unfold get_packages, ent_get. rewrite bind_gets, Ge. reflexivity.
      - apply wp_err. split; [exact S1|]. split; [exact I1|]. left. exact Db. }
  eapply wp_eq; [apply (bind_ok _ _ _ _ _ (get_packages_eq fz r pkg s1 e I1 Ge))|].
  rewrite map_length. destruct (Nat.ltb_spec (List.length (e_avail e)) 2) as [L|L].
  { apply wp_ret. split; [exact S1|]. split; [exact I1|]. split; [exact C1|]. rewrite <- Db. split; [congruence|]. left. split; [reflexivity|]. split; [reflexivity|].
    intros e' Ge'. rewrite Ge in Ge'. injection Ge' as <-. exact L. }
  set (pkgs := map (pm cat (st_db s1)) (e_avail e)).
  assert (V : forall m, In m pkgs -> exists i, In i (e_avail e) /\ m = pm cat (st_db s1) i /\ version s1 pkg i m).
  { intros m Hm. apply in_map_iff in Hm as (i & <- & Hi). exists i. split; [exact Hi|]. split; [reflexivity|]. eapply pm_version; eauto. }
  assert (Sg : sort_guard pkgs = Ok tt).
  { unfold sort_guard. replace (existsb _ pkgs) with false; [rewrite andb_false_r; reflexivity|]. symmetry.
    destruct (existsb _ pkgs) eqn:Ex; [|reflexivity]. apply existsb_exists in Ex as (m & Hm & Em). destruct (V m Hm) as (i & _ & _ & Vm & _).
    destruct Vm as (h & z & ->). cbn [set_index_bits m_hist] in Em. pose proof (gm_hist _ (Hcat i)). destruct (m_hist (cat i)); [congruence|discriminate]. }
  eapply wp_bind_lift; [exact Sg|].
  pose proof (Hasc_perm pkgs) as Pm. pose proof (Hasc pkgs) as So. set (so := jo_asc o pkgs) in *.
  destruct (rev so) as [|tip rest] eqn:Rv.
  { exfalso. apply (f_equal (@List.length _)) in Rv. rewrite rev_length, (Permutation_length Pm) in Rv. subst pkgs. rewrite map_length in Rv. cbn in Rv. lia. }
  assert (Es : so = rev rest ++ [tip]). { rewrite <- (rev_involutive so), Rv. reflexivity. }
  rewrite Es, removelast_last.
  assert (Vs : forall m, In m so -> version s1 pkg (get_id m) m).
  { intros m Hm. destruct (V m (Permutation_in _ Pm Hm)) as (i & _ & _ & Vm). rewrite (version_id _ _ _ _ Vm). exact Vm. }
  assert (Vt : version s1 pkg (get_id tip) tip) by (apply Vs; rewrite Es; apply in_app_iff; right; left; reflexivity).
  assert (Vr : Forall2 (version s1 pkg) (map get_id (rev rest)) (rev rest)).
  { assert (X : forall l, (forall m, In m l -> In m so) -> Forall2 (version s1 pkg) (map get_id l) l).
    { induction l as [|m l IH]; intros Hl; cbn [map]; constructor; [apply Vs, Hl; left; reflexivity|]. apply IH. intros m' Hm'. apply Hl. right. exact Hm'. }
    apply X. intros m Hm. rewrite Es. apply in_app_iff. left. exact Hm. }
  assert (Tp : tip_of (st_db s) r pkg (get_id tip) (map get_id (rev rest))).
  { exists e. rewrite <- Db. split; [exact Ge|]. split.
    - change [get_id tip] with (map get_id [tip]). rewrite <- map_app, <- Es. eapply Permutation_trans; [apply Permutation_map, Pm|].
      unfold pkgs. rewrite map_map. erewrite map_ext_in; [rewrite map_id; reflexivity|]. intros i Hi. cbv beta.
      apply (version_id s1 pkg). eapply pm_version; eauto.
    - intros a Ha. apply in_map_iff in Ha as (m & <- & Hm). rewrite <- (version_rel s1 pkg (get_id m) m), <- (version_rel s1 pkg (get_id tip) tip); [|exact Vt|apply Vs; rewrite Es; apply in_app_iff; left; exact Hm].
      rewrite Es in So. clear - So Hm. induction (rev rest) as [|x l IH]; [destruct Hm|]. inversion So as [|? ? S1 F]; subst.
      destruct Hm as [<-|Hm]; [|apply IH; auto]. rewrite Forall_forall in F. apply F. apply in_app_iff. right. left. reflexivity. }
  eapply wp_mono; [apply (sim_loop fz r pkg (get_id tip) tip (map get_id (rev rest)) (rev rest) 0 s1 Vr I1 S1 C1 Vt)|auto|].
  intros s2 res (S2 & I2 & C2 & X). rewrite Db in X. split; [exact S2|]. split; [exact I2|]. destruct res as [n| |]; [| |exact X].
  - destruct X as (Ats & _ & Po). split; [exact C2|]. split; [rewrite <- Db; congruence|]. right. exists (get_id tip), (map get_id (rev rest)).
    split; [exact Tp|]. split; [exact Ats|]. intros En x Hx. unfold pool_at in *. rewrite <- Db. apply Po; auto.
  - destruct X as (l1 & l2 & El & Ats). right. exists (get_id tip), (map get_id (rev rest)), l1, l2. auto.
Qed.
End From.
End Job.
