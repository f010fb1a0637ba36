(** * PropsSelf: property C94 - a repository pulled from itself *)
From Verif Require Import Model Spec Demo DemoOk DbInv DbOps Wp FsInv Ops RepoOps Pure Loops Emit IndexOps ApiOps History PoolFacts OpFacts OpFacts2 IndexFacts Import Same PropsOps.
Open Scope string_scope. Open Scope list_scope.

Section Self.
Variable E : env.
Variable cat : string -> meta.
Hypothesis Hcat : good_catalog cat.
Hypothesis HE : good_env E.
Notation Inv := (Inv E cat).

Lemma self_newer ex fz s r : Inv ex fz [] s -> filter (fun ke => src_newer cat (st_db s) r (snd ke)) (mlist (d_ents (st_db s) r)) = [] /\
  existsb (fun ke => tgt_newer cat (st_db s) r (snd ke)) (mlist (d_ents (st_db s) r)) = false.
Proof.
  intros H.
  assert (K : forall ke, In ke (mlist (d_ents (st_db s) r)) -> src_newer cat (st_db s) r (snd ke) = false /\ tgt_newer cat (st_db s) r (snd ke) = false).
  { intros [n e] Hin. apply in_mlist in Hin. cbn [snd]. unfold src_newer, tgt_newer.
    rewrite (eo_name _ _ _ (ok_ent _ _ (i_db _ _ _ _ _ _ H) _ _ _ Hin)), Hin. split; apply Z.ltb_irrefl. }
  generalize dependent (mlist (d_ents (st_db s) r)). intros l K. induction l as [|ke l IH]; [auto|]. cbn [filter existsb].
  destruct (K ke (or_introl eq_refl)) as [-> ->]. apply IH. intros x Hx. apply K. right. exact Hx.
Qed.

Lemma self_pull ex fz o r s : Inv ex fz [] s -> good_oracle o -> mhas (d_repos (st_db s)) r = true ->
  wp (api_pull E o r r) (Cinv E cat fz) (fun s' res => exists s3 rs, Inv ex fz [] s3 /\ st_db s3 = st_db s /\ same_files (st_fs s) (st_fs s3) /\
      (forall x, x <> r -> f_asset (st_fs s3) x = f_asset (st_fs s) x) /\ (forall a, f_asset (st_fs s3) r a = pulled r r (st_fs s) a) /\
      indexed E cat o r s3 s' rs /\ (res = Ok [] /\ rs = Ok tt \/ res = Err /\ rs = Err)) s.
Proof.
  intros H Ho Hr. unfold api_pull. apply (wp_with_repo E cat ex fz); [exact H|auto|congruence|].
  intros s1 I1 Q1 _. apply (wp_with_repo E cat ex fz); [exact I1|auto|rewrite (qd_db _ _ _ Q1); congruence|].
  intros s2 I2 Q2 _.
  assert (Ed : st_db s2 = st_db s) by (rewrite (qd_db _ _ _ Q2); apply (qd_db _ _ _ Q1)).
  assert (Ea : f_asset (st_fs s2) = f_asset (st_fs s)) by (rewrite (qd_asset _ _ _ Q2); apply (qd_asset _ _ _ Q1)).
  unfold pull_from. apply wp_bind_assoc. apply wp_bind. eapply wp_mono; [apply pull_assets_ok| |].
  { intros t Q. eapply Inv_Cinv. eapply Inv_quiet_asset; eauto. }
  intros s3 res (-> & Q3 & A3). assert (I3 : Inv ex fz [] s3) by (eapply Inv_quiet_asset; eauto).
  unfold ent_list. apply wp_bind_assoc. apply wp_bind_gets. apply wp_bind_assoc.
  pose proof (pull_collect_eq E cat Hcat ex fz s3 r r I3) as Pc. unfold pull_blocked, pull_names in Pc. destruct (self_newer ex fz s3 r I3) as [X1 X2].
  rewrite X1, X2 in Pc. eapply wp_bind_read; [exact Pc|]. cbn [map forM]. apply wp_bind_assoc. apply wp_bind_ret. apply wp_bind_ret. apply wp_bind.
  eapply wp_post; [apply (wp_api_index E cat Hcat HE ex fz o r s3 I3 Ho)|].
  assert (Sf : same_files (st_fs s) (st_fs s3)) by (eapply same_files_trans; [apply (qd_files _ _ _ Q1)|eapply same_files_trans; [apply (qd_files _ _ _ Q2)|apply (qa_files _ _ _ Q3)]]).
  assert (Ed3 : st_db s3 = st_db s) by (rewrite (qa_db _ _ _ Q3); exact Ed).
  assert (Ax : forall x, x <> r -> f_asset (st_fs s3) x = f_asset (st_fs s) x) by (intros x N; rewrite (qa_asset _ _ _ Q3) by exact N; rewrite Ea; reflexivity).
  assert (At : forall a, f_asset (st_fs s3) r a = pulled r r (st_fs s) a) by (intros a; rewrite A3; unfold pulled; rewrite Ea; reflexivity).
  intros s5 [[]| |] (I5 & X & Np); [| |congruence].
  - apply wp_ret. exists s3, (Ok tt). repeat (split; [assumption|]). auto.
  - exists s3, Err. repeat (split; [assumption|]). auto.
Qed.
End Self.

(** ** Specification: what becomes of the asset [a], with content [c], of a repository pulled from itself *)
Definition emptied (a : string) (c : option string) : option string :=
  match c with
  | Some _ => if sin a ["distribution.xml"; "components.xml"; "groups.xml"] then Some "" else c
  | None => None
  end.

(** C94 (exact). Pulling a repository from itself changes no listing, no reference count
    and no package file, but empties its assets. *)
Theorem C94_pull_from_itself_exact :
  forall E cat s o r, good_catalog cat -> good_env E -> reachable E cat s -> good_oracle o -> repo_exists s r = true ->
    let s' := after E o (OpPull r r) s in
    (forall x, same_listings x s s') /\ (forall id, pool_at s' id = pool_at s id) /\
    (forall l, file_content (st_fs s') l = file_content (st_fs s) l) /\
    (forall x a, asset_file s' x a = if seqb x r then emptied a (asset_file s r a) else asset_file s x a) /\
    (forall l, outcome E o (OpPull r r) s = Ok l -> l = []) /\
    (asset_file s r "distribution.xml" <> None -> E_dist E "" = None -> outcome E o (OpPull r r) s = Err).
Proof.
  intros E cat s o r Hc HE (h & Hh & ->) Ho Hr s'. set (s := run_history E h) in *. pose proof (hist_inv E cat Hc HE h Hh) as H. fold s in H.
  destruct (self_pull E cat Hc HE false false o r s H Ho Hr) as (_ & s3 & rs & I3 & Ed & Sf & Ax & At & X & Rs).
  change (final_of (api_pull E o r r s)) with s' in X. change (result_of (api_pull E o r r s)) with (outcome E o (OpPull r r) s) in Rs.
  pose proof (indexed_db E cat _ _ _ _ _ X) as Ed'. rewrite Ed in Ed'.
  inversion X as [Hr3 Es Er|s4 re Hr3 Q R Er]; [unfold repo_exists in Hr; rewrite Ed in Hr3; congruence|]. pose proof (ir_quiet _ _ _ _ _ _ _ R) as Qr.
  assert (Ea : f_asset (st_fs s') = f_asset (st_fs s3)) by (rewrite (qr_asset _ _ _ Qr); apply (qd_asset _ _ _ Q)).
  split; [intros x; split; [unfold repo_exists; rewrite Ed'; reflexivity|intros n; unfold entry_at; rewrite Ed'; reflexivity]|].
  split; [intros id; unfold pool_at; rewrite Ed'; reflexivity|]. split.
  { intros l. rewrite (same_files_content _ _ l (qr_files _ _ _ Qr)), (same_files_content _ _ l (qd_files _ _ _ Q)). apply same_files_content, Sf. }
  split.
  { intros x a. unfold asset_file. rewrite Ea. destruct (seqb_spec x r) as [->|N]; [|rewrite (Ax x N); reflexivity]. rewrite At. unfold pulled, emptied.
    rewrite seqb_refl. fold asset_names. destruct (sin a asset_names), (f_asset (st_fs s) r a); reflexivity. }
  split; [intros l Ol; destruct Rs as [(Rl & _)|(Rl & _)]; congruence|].
  intros Na Nd. destruct Rs as [(Rl & Rs)|(Rl & _)]; [|exact Rl]. exfalso.
  destruct (ir_done _ _ _ _ _ _ _ R Rs) as (txt & Et & _). unfold run_text, dist_of in Et. rewrite (qd_asset _ _ _ Q), At in Et.
  unfold asset_file in Na. unfold pulled in Et. change (sin "distribution.xml" asset_names) with true in Et. cbn match in Et.
  destruct (f_asset (st_fs s) r "distribution.xml"); [|congruence]. rewrite seqb_refl, Nd in Et. discriminate.
Qed.
Print Assumptions C94_pull_from_itself_exact.

(** From then on no request can re-index the repository unless it replaces the file. *)
Theorem C94_empty_asset_blocks_indexing :
  forall E cat s o p r, good_catalog cat -> good_env E -> reachable E cat s -> good_oracle o -> good_op p -> reindexes p = Some r ->
    asset_file (after E o p s) r "distribution.xml" = Some "" -> E_dist E "" = None -> ~ succeeds E o p s.
Proof.
  intros E cat s o p r Hc HE (h & Hh & ->) Ho Hp Re As Nd Su.
  destruct (request_text E cat Hc HE false false _ o p r (hist_inv E cat Hc HE h Hh) Ho Hp Re Su) as (txt & T & _).
  unfold run_text, dist_of in T. unfold asset_file in As. rewrite As, Nd in T. discriminate.
Qed.
Print Assumptions C94_empty_asset_blocks_indexing.

(** C94 is false: the pull is refused its index, the assets are gone, and the next index request fails. *)
Definition h_asset : list event := h_two ++ [EvAsset "unstable" "distribution.xml" (Some "obsolete:old")].
Theorem C94_pull_from_itself_refuted :
  exists E cat s o r, good_catalog cat /\ good_env E /\ reachable_completed E cat s /\ good_oracle o /\ repo_exists s r = true /\
    succeeds E o (OpIndex r) s /\ asset_file s r "distribution.xml" = Some "obsolete:old" /\
    let s' := after E o (OpPull r r) s in
    asset_file s' r "distribution.xml" = Some "" /\ ~ succeeds E o (OpIndex r) s'.
Proof.
  exists (demo_env true), demo_cat, (run_history (demo_env true) h_asset), demo_oracle, "unstable".
  split; [apply demo_cat_good|]. split; [apply demo_env_good|]. split.
  { exists h_asset. split; [unfold good_history, h_asset, h_two; cbn [app]; demo_hist|]. split; [unfold crash_free, h_asset, h_two; repeat constructor|reflexivity]. }
  split; [apply demo_oracle_good|]. split; [here|]. split; [exists []; here|]. split; [here|]. split; [here|].
  intros (l & X). vm_compute in X. discriminate X.
Qed.
Print Assumptions C94_pull_from_itself_refuted.
