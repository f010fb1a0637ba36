(** * RepoOps: GetRepo, CreateRepo, DeleteRepo, assets and index frames (proof artifact) *)
From Verif Require Import Model Spec DbInv DbOps Wp FsInv Ops UnrefOps.

Section Ops.
Variable E : env.
Variable cat : string -> meta.
Hypothesis Hcat : good_catalog cat.
Hypothesis HE : good_env E.

Notation Inv := (Inv E cat).
Notation Cinv := (Cinv E cat).
Notation FX := (FX E cat).
Notation FZ := (FZ cat).

(** the package files are the same *)
Record same_files (f f' : fs) : Prop := {
  sf_name : f_name f' = f_name f;
  sf_data : f_data f' = f_data f;
  sf_next : f_next f' = f_next f;
  sf_asset : assets_from f f'
}.
Lemma same_files_refl f : same_files f f.
Proof. constructor; try reflexivity. apply assets_eq. reflexivity. Qed.
Ltac same := constructor; try reflexivity; try (apply assets_eq; reflexivity).
Lemma same_files_trans f1 f2 f3 : same_files f1 f2 -> same_files f2 f3 -> same_files f1 f3.
Proof. intros [A1 A2 A3 A4] [B1 B2 B3 B4]. constructor; try congruence. eapply assets_trans; eauto. Qed.
Lemma same_files_content f f' l : same_files f f' -> file_content f' l = file_content f l.
Proof. intros [A B C D]. unfold file_content. rewrite A, B. reflexivity. Qed.
Lemma same_files_ok f f' : same_files f f' -> fs_ok E cat f -> fs_ok E cat f'.
Proof.
  intros [A B C D] H. eapply fs_shrink_ok; eauto. intros l. right. rewrite A. reflexivity.
Qed.
Lemma FX_same s s' : st_db s' = st_db s -> same_files (st_fs s) (st_fs s') -> FX s -> FX s'.
Proof.
  intros Ed Sf [X1 X2]. constructor; rewrite Ed; intros.
  - eapply file_matches_ext; [apply same_files_content, Sf|eauto].
  - eapply file_matches_ext; [apply same_files_content, Sf|eauto].
Qed.
Lemma FZ_same s s' : st_db s' = st_db s -> same_files (st_fs s) (st_fs s') -> FZ s -> FZ s'.
Proof. intros Ed Sf [X1 X2]. constructor; rewrite Ed, (sf_name _ _ Sf); auto. Qed.

Lemma Inv_same ex fz P s s' :
  Inv ex fz P s -> st_db s' = st_db s -> same_files (st_fs s) (st_fs s') -> st_batch s' = [] ->
  (forall r, st_cache s' r = true -> mhas (d_repos (st_db s')) r = true) -> Inv ex fz P s'.
Proof.
  intros [A1 A2 A3 A4 A5 A6 A7 A8] Ed Sf Eb Ec. constructor; auto; rewrite ?Ed; auto.
  - eapply same_files_ok; eauto.
  - intros Z. eapply FX_same; eauto.
  - intros Z. eapply FZ_same; eauto.
Qed.

(** Inv and Cinv survive a restart *)
Lemma Inv_restart ex fz P s : Inv ex fz P s -> Inv ex fz P (restart s).
Proof.
  intros H. eapply Inv_same; eauto; try reflexivity; [apply same_files_refl|discriminate].
Qed.
Lemma Cinv_restart fz s : Cinv fz s -> Cinv fz (restart s).
Proof.
  intros [A B]. split; [apply Inv_restart, A|]. intros Z.
  eapply FX_same; [| |apply B, Z]; [reflexivity|apply same_files_refl].
Qed.

(** only the directory of [r] and the cache may change *)
Record quiet_dir (r : string) (s s' : state) : Prop := {
  qd_db : st_db s' = st_db s;
  qd_files : same_files (st_fs s) (st_fs s');
  qd_root : f_root (st_fs s') = f_root (st_fs s);
  qd_asset : f_asset (st_fs s') = f_asset (st_fs s);
  qd_dir : forall x, x <> r -> f_dir (st_fs s') x = f_dir (st_fs s) x;
  qd_cache : forall x, x <> r -> st_cache s' x = st_cache s x;
  qd_batch : st_batch s' = st_batch s
}.
Lemma quiet_dir_refl r s : quiet_dir r s s.
Proof. constructor; auto using same_files_refl. Qed.

Lemma wp_get_repo ex fz P r s :
  Inv ex fz P s ->
  wp (get_repo r) (Cinv fz)
     (fun s' res => Inv ex fz P s' /\ quiet_dir r s s' /\
        ((res = Ok tt /\ mhas (d_repos (st_db s)) r = true /\ st_cache s' r = true) \/
         (res = Err /\ mhas (d_repos (st_db s)) r = false /\ s' = s))) s.
Proof.
  intros H. unfold get_repo. apply wp_bind_gets.
  destruct (st_cache s r) eqn:Ec.
  { apply wp_ret. split; [exact H|]. split; [apply quiet_dir_refl|]. left.
    split; [reflexivity|]. split; [apply (i_cache _ _ _ _ _ _ H), Ec|exact Ec]. }
  apply wp_bind_gets. destruct (mhas (d_repos (st_db s)) r) eqn:Er.
  2:{ apply wp_err. split; [exact H|]. split; [apply quiet_dir_refl|]. right. auto. }
  assert (Fin : forall s1, quiet_dir r s s1 -> (forall x, st_cache s1 x = st_cache s x) ->
     wp (vol (on_cache (fun c => fupd c r true))) (Cinv fz)
       (fun s' res => Inv ex fz P s' /\ quiet_dir r s s' /\
        ((res = Ok tt /\ true = true /\ st_cache s' r = true) \/
         (res = Err /\ true = false /\ s' = s))) s1).
  { intros s1 [Q1 Q2 Q3 Q4 Q5 Q6 Q7] Hc. apply wp_vol.
    assert (I1 : Inv ex fz P (on_cache (fun c => fupd c r true) s1)).
    { eapply Inv_same; eauto.
      - simpl. rewrite Q7. apply (i_batch _ _ _ _ _ _ H).
      - simpl. intros x. unfold fupd. destruct (seqb_spec x r) as [->|N].
        + intros _. rewrite Q1. exact Er.
        + rewrite Hc, Q1. apply (i_cache _ _ _ _ _ _ H). }
    split; [exact I1|]. split; [|left; split; [reflexivity|split; [reflexivity|simpl; apply fupd_eq]]].
    constructor; auto. simpl. intros x N. rewrite fupd_ne by exact N. apply Hc. }
  unfold bake_repo. apply wp_bind_assoc. apply wp_bind_gets.
  destruct (f_dir (st_fs s) r).
  - apply wp_bind_ret. apply Fin; [apply quiet_dir_refl|reflexivity].
  - assert (Q : quiet_dir r s (on_fs (fun f => fs_set_dir f r true) s)).
    { constructor; auto; try reflexivity; [same|].
      intros x N. simpl. apply fupd_ne, N. }
    apply wp_bind_durable.
    + eapply Inv_Cinv. eapply Inv_same; eauto; [apply (qd_files _ _ _ Q)|apply (i_batch _ _ _ _ _ _ H)|apply (i_cache _ _ _ _ _ _ H)].
    + apply Fin; [exact Q|reflexivity].
Qed.

(** CreateRepo *)
Definition db_create (r : string) (d : db) : db := apply_op d (PutRepo r).

Lemma wp_create_repo ex fz r s :
  Inv ex fz [] s ->
  wp (create_repo r) (Cinv fz)
     (fun s' res => Inv ex fz [] s' /\
        ((res = Err /\ quiet_dir r s s' /\
            (mhas (d_repos (st_db s)) r = true \/ f_dir (st_fs s) r = true \/ reserved r = true)) \/
         (res = Ok tt /\ mhas (d_repos (st_db s)) r = false /\ f_dir (st_fs s) r = false /\ reserved r = false /\
          st_db s' = db_create r (st_db s) /\ same_files (st_fs s) (st_fs s') /\
          f_root (st_fs s') = f_root (st_fs s) /\ f_asset (st_fs s') = f_asset (st_fs s) /\
          f_dir (st_fs s') r = true /\
          (forall x, x <> r -> f_dir (st_fs s') x = f_dir (st_fs s) x) /\
          (forall x, x <> r -> st_cache s' x = st_cache s x) /\ st_cache s' r = true))) s.
Proof.
  intros H. unfold create_repo. apply wp_bind_gets. apply wp_bind_gets.
  destruct (st_cache s r || mhas (d_repos (st_db s)) r) eqn:Ex.
  { assert (Hr : mhas (d_repos (st_db s)) r = true).
    { apply orb_true_iff in Ex. destruct Ex as [Ex|Ex]; [apply (i_cache _ _ _ _ _ _ H), Ex|exact Ex]. }
    apply wp_bind. eapply wp_post; [apply (wp_get_repo ex fz [] r s H)|].
    intros s' res (I1 & Q & [(-> & _)|(_ & Hc & _)]); [|congruence].
    apply wp_err. split; [exact I1|]. left. auto. }
  apply orb_false_iff in Ex. destruct Ex as [Ec Er].
  apply wp_bind_gets. destruct (f_dir (st_fs s) r) eqn:Ed.
  { apply wp_err. split; [exact H|]. left. split; [reflexivity|]. split; [apply quiet_dir_refl|auto]. }
  unfold db_write. simpl op_key. destruct (reserved r) eqn:Hres.
  { apply wp_bind, wp_err. split; [exact H|]. left. split; [reflexivity|]. split; [apply quiet_dir_refl|auto]. }
  set (s1 := on_db (fun d => apply_op d (PutRepo r)) s).
  assert (I1 : Inv ex fz [] s1).
  { destruct H as [A1 A2 A3 A4 A5 A6 A7 A8]. constructor; try assumption.
    - apply ok_putrepo; auto.
    - intros x. specialize (A2 x). change (st_db s1) with (apply_op (st_db s) (PutRepo r)). rewrite (count_putrepo cat) by auto. exact A2.
    - intros x Hx. unfold s1. simpl. unfold mhas. rewrite mget_put. destruct (seqb x r); [reflexivity|].
      apply (A5 x Hx).
    - intros Z. destruct (A7 Z) as [X1 X2]. constructor; assumption.
    - intros Z. destruct (A8 Z) as [X1 X2]. constructor; assumption. }
  apply wp_bind_durable; [eapply Inv_Cinv, I1|].
  unfold bake_repo. apply wp_bind_assoc. apply wp_bind_gets.
  change (f_dir (st_fs (on_db (fun d => apply_op d (PutRepo r)) s)) r) with (f_dir (st_fs s) r). rewrite Ed.
  fold s1. set (s2 := on_fs (fun f => fs_set_dir f r true) s1).
  assert (Sf : same_files (st_fs s1) (st_fs s2)) by same.
  assert (I2 : Inv ex fz [] s2).
  { eapply Inv_same; eauto; [apply (i_batch _ _ _ _ _ _ I1)|apply (i_cache _ _ _ _ _ _ I1)]. }
  apply wp_bind_durable; [eapply Inv_Cinv, I2|].
  apply wp_vol. fold s2.
  assert (I3 : Inv ex fz [] (on_cache (fun c => fupd c r true) s2)).
  { eapply Inv_same; eauto; [apply same_files_refl|apply (i_batch _ _ _ _ _ _ I1)|].
    intros x. simpl. unfold fupd. destruct (seqb_spec x r) as [->|N].
    - intros _. unfold mhas. rewrite mget_put_eq. reflexivity.
    - intros Hx. apply (i_cache _ _ _ _ _ _ I1 x Hx). }
  split; [exact I3|]. right. split; [reflexivity|]. split; [exact Er|]. split; [reflexivity|]. split; [reflexivity|].
  split; [reflexivity|]. split; [exact Sf|]. split; [reflexivity|]. split; [reflexivity|].
  split; [simpl; apply fupd_eq|]. split; [intros x N; simpl; apply fupd_ne, N|].
  split; [intros x N; simpl; apply fupd_ne, N|]. simpl; apply fupd_eq.
Qed.

(** ** index and assets: only the named part changes *)
Record quiet_root (r : string) (s s' : state) : Prop := {
  qr_db : st_db s' = st_db s;
  qr_files : same_files (st_fs s) (st_fs s');
  qr_root : forall x, x <> r -> f_root (st_fs s') x = f_root (st_fs s) x;
  qr_asset : f_asset (st_fs s') = f_asset (st_fs s);
  qr_dir : f_dir (st_fs s') = f_dir (st_fs s);
  qr_cache : st_cache s' = st_cache s;
  qr_batch : st_batch s' = st_batch s
}.
Record quiet_asset (r : string) (s s' : state) : Prop := {
  qa_db : st_db s' = st_db s;
  qa_files : same_files (st_fs s) (st_fs s');
  qa_root : f_root (st_fs s') = f_root (st_fs s);
  qa_asset : forall x, x <> r -> f_asset (st_fs s') x = f_asset (st_fs s) x;
  qa_dir : f_dir (st_fs s') = f_dir (st_fs s);
  qa_cache : st_cache s' = st_cache s;
  qa_batch : st_batch s' = st_batch s
}.
Lemma quiet_root_refl r s : quiet_root r s s.
Proof. constructor; auto using same_files_refl. Qed.
Lemma quiet_asset_refl r s : quiet_asset r s s.
Proof. constructor; auto using same_files_refl. Qed.
Lemma quiet_root_set r s0 s file v :
  quiet_root r s0 s -> quiet_root r s0 (on_fs (fun f => fs_set_root f r file v) s).
Proof.
  intros [A1 A2 A3 A4 A5 A6 A7]. constructor; auto; [destruct A2; constructor; assumption|].
  intros x N. simpl. rewrite fupd_ne by exact N. auto.
Qed.
Lemma quiet_asset_set r s0 s a v :
  quiet_asset r s0 s -> (forall c, v = Some c -> c = "" \/ exists x, f_asset (st_fs s) x a = Some c) ->
  quiet_asset r s0 (on_fs (fun f => fs_set_asset f r a v) s).
Proof.
  intros [A1 A2 A3 A4 A5 A6 A7] Hv. constructor; auto.
  { eapply same_files_trans; [exact A2|]. constructor; try reflexivity. intros y b c. simpl. unfold fupd.
    destruct (seqb_spec y r) as [->|N]; [|eauto]. destruct (seqb_spec b a) as [->|Nb]; [apply Hv|eauto]. }
  intros x N. simpl. rewrite fupd_ne by exact N. auto.
Qed.
Lemma Inv_quiet_root ex fz P r s s' : Inv ex fz P s -> quiet_root r s s' -> Inv ex fz P s'.
Proof.
  intros H [A1 A2 A3 A4 A5 A6 A7]. eapply Inv_same; eauto.
  - rewrite A7. apply (i_batch _ _ _ _ _ _ H).
  - rewrite A6, A1. apply (i_cache _ _ _ _ _ _ H).
Qed.
Lemma Inv_quiet_asset ex fz P r s s' : Inv ex fz P s -> quiet_asset r s s' -> Inv ex fz P s'.
Proof.
  intros H [A1 A2 A3 A4 A5 A6 A7]. eapply Inv_same; eauto.
  - rewrite A7. apply (i_batch _ _ _ _ _ _ H).
  - rewrite A6, A1. apply (i_cache _ _ _ _ _ _ H).
Qed.

Ltac keep :=
  repeat first
    [ apply keeps_bind; [|intros]
    | apply keeps_ret | apply keeps_err | apply keeps_panic | apply keeps_lift | apply keeps_gets
    | apply keeps_on_err
    | apply keeps_forM; intros | apply keeps_foldM; intros
    | match goal with |- keeps _ (match ?x with _ => _ end) => destruct x end ].

Lemma keeps_root_set r s0 file v : keeps (quiet_root r s0) (root_set r file v).
Proof. apply keeps_durable. intros s. apply quiet_root_set. Qed.
Lemma keeps_remove_all r s0 l : keeps (quiet_root r s0) (remove_all r l).
Proof. apply keeps_forM. intros x. apply keeps_root_set. Qed.
Lemma keeps_root_write o r s0 f c : keeps (quiet_root r s0) (root_write o r f c).
Proof. unfold root_write. keep; apply keeps_root_set. Qed.
Lemma keeps_emit r dist s0 x : keeps (quiet_root x s0) (emit_index E r dist).
Proof.
  unfold emit_index, ent_list, pool_get_or_err, pool_get, emit_package, push_deltas, ent_get, asset_part.
  keep; unfold pool_get_or_err, pool_get; keep.
Qed.
Lemma keeps_index o r s0 : keeps (quiet_root r s0) (index E o r).
Proof.
  unfold index, init_distribution.
  assert (St : forall dist st, In st (index_stages E o r dist) -> keeps (quiet_root r s0) (snd st)).
  { intros dist st Hin. unfold index_stages in Hin. simpl in Hin.
    repeat (destruct Hin as [<-|Hin]; [simpl|]); [| | | | | | | | |destruct Hin];
      unfold write_sum, compress, root_get; keep;
      first [apply keeps_root_set | apply keeps_root_write | apply keeps_emit
            | unfold emit_package, push_deltas, ent_get; keep]. }
  assert (Rs : forall l done, (forall st, In st l -> keeps (quiet_root r s0) (snd st)) ->
     keeps (quiet_root r s0) (run_stages r done l)).
  { induction l as [|[[k v] m] l IH]; intros done Hl; simpl; [apply keeps_ret|].
    apply keeps_bind.
    - apply keeps_on_err; [apply (Hl (k, v, m)); left; reflexivity|apply keeps_remove_all].
    - intros _. apply IH. intros st Hin. apply Hl. right; exact Hin. }
  apply keeps_bind; [keep|intros dist].
  apply keeps_bind; [apply Rs, St|intros mapping].
  apply keeps_on_err; [|apply keeps_remove_all].
  apply keeps_bind; [|intros _; apply keeps_lift].
  apply keeps_forM. intros kv. unfold rename, root_get. apply keeps_bind; [apply keeps_gets|intros c]. destruct c; [|apply keeps_err].
  destruct (o_rfail o (fst kv)); [apply keeps_err|]. apply keeps_durable. intros s1 H.
  destruct H as [A1 A2 A3 A4 A5 A6 A7]. constructor; auto; [destruct A2; constructor; assumption|].
  intros x N. simpl. rewrite !fupd_ne by exact N. auto.
Qed.
Lemma keeps_pull_assets r src s0 : keeps (quiet_asset r s0) (pull_assets r src).
Proof.
  unfold pull_assets. apply keeps_forM. intros a. apply keeps_bind; [apply keeps_gets|intros f].
  destruct (f_asset f src a); [|apply keeps_ret].
  apply keeps_bind; [|intros _]; apply keeps_durable; intros s1 H; [apply (quiet_asset_set r s0 s1 _ _ H); intros c X; injection X as <-; auto|].
  apply (quiet_asset_set r s0 s1 _ _ H). eauto.
Qed.

End Ops.
