(** * History: the invariants hold after every history (proof artifact) *)
From Verif Require Import Model Spec DbInv DbOps Wp FsInv Ops UnrefOps RepoOps DeleteOps Pure Loops Emit IndexOps ApiOps.
Open Scope string_scope. Open Scope list_scope.

Section Hist.
Variable E : env.
Variable cat : string -> meta.
Hypothesis Hcat : good_catalog cat.
Hypothesis HE : good_env E.
Notation Inv := (Inv E cat).

Lemma Inv_init ex fz : Inv ex fz [] init.
Proof.
  constructor.
  - constructor; simpl; intros; discriminate.
  - intros id. unfold count_db, rc_db. simpl. destruct ex; simpl; lia.
  - intros _ r n e X. discriminate.
  - constructor; simpl; intros; discriminate.
  - simpl. intros; discriminate.
  - reflexivity.
  - intros _. constructor; simpl; intros; discriminate.
  - intros _. constructor; simpl; intros; congruence.
Qed.

Lemma upload_not_managed l c id r :
  upload_tree (l_tree l) = true -> Loc TPool c id <> l /\ Loc (TRepo r) c id <> l.
Proof. intros U. split; intros <-; discriminate. Qed.

Lemma Inv_files ex fz s f' :
  Inv ex fz [] s -> fs_ok E cat f' ->
  (forall l, upload_tree (l_tree l) = false -> file_content f' l = file_content (st_fs s) l /\ (f_name f' l <> None -> f_name (st_fs s) l <> None)) ->
  Inv ex fz [] (on_fs (fun _ => f') s).
Proof.
  intros [A1 A2 A3 A4 A5 A6 A7 A8] Hf Hc. constructor; try assumption; cbn [st_db st_fs on_fs].
  - intros Z. destruct (A7 Z) as [X1 X2]. constructor; cbn [st_db st_fs on_fs]; intros.
    + eapply file_matches_ext; [apply Hc; reflexivity|eauto].
    + eapply file_matches_ext; [apply Hc; reflexivity|eauto].
  - intros Z. destruct (A8 Z) as [X1 X2]. constructor; cbn [st_db st_fs on_fs]; intros.
    + apply X1; auto. apply Hc; auto.
    + apply X2; auto. apply Hc; auto.
Qed.

Lemma Inv_put ex fz s l c :
  Inv ex fz [] s -> upload_tree (l_tree l) = true -> plain_id (l_id l) = true -> good_file E cat (l_id l) c ->
  Inv ex fz [] (on_fs (fun f => fs_create f l c) s).
Proof.
  intros H U P G. change (on_fs (fun f => fs_create f l c) s) with (on_fs (fun _ => fs_create (st_fs s) l c) s).
  pose proof (i_fs _ _ _ _ _ _ H) as Hf. apply Inv_files; [exact H|apply fs_create_ok; auto|].
  intros x Hx. assert (N : x <> l) by congruence. rewrite (fs_create_content E cat) by exact Hf.
  destruct (loc_eqb_spec x l); [contradiction|]. split; [reflexivity|]. simpl. rewrite nupd_ne by exact N. auto.
Qed.
Lemma Inv_del ex fz s l :
  Inv ex fz [] s -> upload_tree (l_tree l) = true -> Inv ex fz [] (on_fs (fun f => fs_set_name f l None) s).
Proof.
  intros H U. change (on_fs (fun f => fs_set_name f l None) s) with (on_fs (fun _ => fs_set_name (st_fs s) l None) s).
  pose proof (i_fs _ _ _ _ _ _ H) as Hf. apply Inv_files; [exact H|apply fs_unlink_ok; auto|].
  intros x Hx. assert (N : x <> l) by congruence. rewrite fs_set_name_content.
  destruct (loc_eqb_spec x l); [contradiction|]. split; [reflexivity|]. simpl. rewrite nupd_ne by exact N. auto.
Qed.

Lemma Inv_asset ex fz s r a c :
  Inv ex fz [] s -> match c with Some x => good_asset E a x | None => True end ->
  Inv ex fz [] (on_fs (fun f => fs_set_asset f r a c) s).
Proof.
  intros H G. change (on_fs (fun f => fs_set_asset f r a c) s) with (on_fs (fun _ => fs_set_asset (st_fs s) r a c) s).
  apply Inv_files; [exact H| |intros l _; split; [reflexivity|auto]].
  destruct (i_fs _ _ _ _ _ _ H) as [F1 F2 F3 F4 F5]. constructor; try assumption.
  intros y b x. simpl. unfold fupd. destruct (seqb y r); [|apply F5]. destruct (seqb_spec b a) as [->|]; [|apply F5].
  intros ->. right. exact G.
Qed.

Definition ev_crash (e : event) : bool := match e with EvCrash _ _ _ => true | _ => false end.
Definition ev_delta (e : event) : bool := match e with EvOp _ p | EvCrash _ p _ => delta_op p | _ => false end.

Lemma Inv_event ex fz s e :
  Inv ex fz [] s -> good_event E cat e ->
  (ex = true -> ev_crash e = false /\ ev_delta e = false) -> (fz = true -> ev_crash e = false) ->
  Inv ex fz [] (ev_step E s e).
Proof.
  intros H G Hx Hz. destruct e as [o p|o p n| |l c|l|r a c|r]; cbn [ev_step].
  - destruct G as [Ho Hp]. destruct (wp_run_op E cat Hcat HE ex fz o p s H Ho Hp) as (_ & I1 & Np).
    { intros X. apply (Hx X). }
    destruct (result_of (run_op E o p s)) eqn:R; [exact I1|exact I1|congruence].
  - destruct G as (Ho & Hp & Hr).
    destruct ex; [destruct (Hx eq_refl); discriminate|]. destruct fz; [discriminate (Hz eq_refl)|].
    destruct (wp_run_op E cat Hcat HE false false o p s H Ho Hp ltac:(discriminate)) as (F & I1 & Np).
    unfold crash_ok in F. rewrite Hr in F.
    destruct (nth_in_or_default n (s :: trace_of (run_op E o p s)) (final_of (run_op E o p s))) as [Hin|Hd].
    + destruct Hin as [<-|Hin]; [apply Inv_restart, H|]. rewrite Forall_forall in F. apply (F _ Hin).
    + rewrite Hd. apply Inv_restart, I1.
  - apply Inv_restart, H.
  - destruct G as [P G]. destruct (l_tree l) eqn:Et; try exact H; (apply Inv_put; auto; rewrite Et; reflexivity).
  - destruct (l_tree l) eqn:Et; try exact H; (apply Inv_del; auto; rewrite Et; reflexivity).
  - apply Inv_asset; [exact H|]. destruct c; [exact G|exact I].
  - eapply Inv_same; eauto; [constructor; try reflexivity; apply assets_eq; reflexivity|apply (i_batch _ _ _ _ _ _ H)|apply (i_cache _ _ _ _ _ _ H)].
Qed.

Lemma Inv_run ex fz h : forall s,
  Inv ex fz [] s -> good_history E cat h ->
  (ex = true -> crash_free h /\ delta_free h) -> (fz = true -> crash_free h) ->
  Inv ex fz [] (fold_left (ev_step E) h s).
Proof.
  induction h as [|e h IH]; intros s H G Hx Hz; simpl; [exact H|].
  inversion G as [|? ? G1 G2]; subst. apply IH; auto.
  - apply Inv_event; auto.
    + intros X. destruct (Hx X) as [A B]. inversion A; inversion B; subst. split; [destruct e; auto; contradiction|destruct e; auto].
    + intros Z. specialize (Hz Z). inversion Hz; subst. destruct e; auto; contradiction.
  - intros X. destruct (Hx X) as [A B]. inversion A; inversion B; subst. auto.
  - intros Z. specialize (Hz Z). inversion Hz; subst. auto.
Qed.

Lemma hist_inv h : good_history E cat h -> Inv false false [] (run_history E h).
Proof. intros G. apply Inv_run; auto; try discriminate. apply Inv_init. Qed.
Lemma hist_fz h : good_history E cat h -> crash_free h -> Inv false true [] (run_history E h).
Proof. intros G C. apply Inv_run; auto; try discriminate. apply Inv_init. Qed.
Lemma hist_ex h : good_history E cat h -> crash_free h -> delta_free h -> Inv true true [] (run_history E h).
Proof. intros G C D. apply Inv_run; auto. apply Inv_init. Qed.
End Hist.
