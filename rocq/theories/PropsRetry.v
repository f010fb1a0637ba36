(** * PropsRetry: C24, the part that holds (crashes that leave no unlisted file) *)
From Verif Require Import Model Spec Demo DemoOk DbInv DbOps Wp FsInv Ops UnrefOps RepoOps Pure Loops ApiOps History PoolFacts PropsPool OpFacts OpFacts2 OpFacts3 PropsOps Keep.
Open Scope string_scope. Open Scope list_scope.

(** ** Specification *)
(** the file of [id] is at the path the pool records *)
Definition at_home (s : state) (c id : string) : Prop :=
  exists p, pool_at s id = Some p /\ m_uri (p_meta p) = (c ++ "/" ++ id)%string.
(** no package file is unlisted or in the wrong place *)
Definition tidy (s : state) : Prop :=
  (forall r c id, is_delta_id id = false -> repo_file s r c id <> None -> available s r id /\ at_home s c id) /\
  (forall c id, is_delta_id id = false -> file_content (st_fs s) (Loc TPool c id) <> None -> at_home s c id).
(** every crash hit an adding request and left no unlisted file *)
Definition tidy_crashes (E : env) (h : list event) : Prop :=
  forall h1 o p n h2, h = h1 ++ EvCrash o p n :: h2 -> (forall r, p <> OpDelete r) /\ tidy (run_history E (h1 ++ [EvCrash o p n])).

Section Retry.
Variable E : env.
Variable cat : string -> meta.
Hypothesis Hcat : good_catalog cat.
Hypothesis HE : good_env E.

Lemma uri_comp s c id ex : Inv E cat ex false [] s -> at_home s c id -> c = comp_of (cat id).
Proof.
  intros H (p & G & U). destruct (po_meta _ _ _ (ok_pool _ _ (i_db _ _ _ _ _ _ H) id p G)) as (hh & z & Ep). rewrite Ep in U. cbn in U.
  symmetry in U. apply sapp_inj_len in U; [apply U|].
  apply (f_equal String.length) in U. rewrite !slen_app in U. lia.
Qed.
Lemma tidy_fz s : Inv E cat false false [] s -> tidy s -> FZ cat s.
Proof.
  intros H [A B]. split.
  - intros c id D F. assert (X : at_home s c id).
    { apply B; [exact D|]. unfold file_content. destruct (f_name (st_fs s) (Loc TPool c id)); [discriminate|congruence]. }
    split; [exact (uri_comp _ _ _ _ H X)|]. destruct X as (p & G & _). unfold pool_at in G. rewrite G. discriminate.
  - intros r c id D F. destruct (A r c id D) as [(n & e & G & Hin) X].
    { unfold repo_file, file_content. destruct (f_name (st_fs s) (Loc (TRepo r) c id)); [discriminate|congruence]. }
    split; [exact (uri_comp _ _ _ _ H X)|]. exists e. split; [|exact Hin].
    destruct (eo_avail _ _ _ (ok_ent _ _ (i_db _ _ _ _ _ _ H) r n e G) id Hin) as (En & _). rewrite En. exact G.
Qed.
Lemma tidy_run h : good_history E cat h -> tidy_crashes E h -> Inv E cat false true [] (run_history E h).
Proof.
  induction h as [|e h IH] using rev_ind; intros G T; [apply Inv_init|].
  apply Forall_app in G as [G1 G2]. inversion G2 as [|? ? Ge _]; subst.
  assert (I : Inv E cat false true [] (run_history E h)).
  { apply IH; [exact G1|]. intros h1 o p n h2 Eh. apply (T h1 o p n (h2 ++ [e])). rewrite Eh, <- app_assoc. reflexivity. }
  destruct e as [o p|o p n| |l c|l|r a c|r] eqn:Ee;
    try (unfold run_history; rewrite fold_left_app; cbn [fold_left]; apply Inv_event; auto; discriminate).
  destruct (T h o p n [] eq_refl) as [Nd Td].
  assert (I0 : Inv E cat false false [] (run_history E (h ++ [EvCrash o p n]))).
  { apply (hist_inv E cat Hcat HE). apply Forall_app. split; assumption. }
  pose proof (tidy_fz _ I0 Td) as Z.
  assert (X : FX E cat (run_history E (h ++ [EvCrash o p n]))).
  { unfold run_history in *. rewrite fold_left_app in *. cbn [fold_left ev_step] in *. set (s := fold_left (ev_step E) h init) in *.
    destruct Ge as (Ho & Hp & Hr).
    destruct (wp_run_op E cat Hcat HE false true o p s I Ho Hp ltac:(discriminate)) as (F & I1 & _). unfold crash_ok in F. rewrite Hr in F.
    destruct (nth_in_or_default n (s :: trace_of (run_op E o p s)) (final_of (run_op E o p s))) as [Hin|Hd].
    - destruct Hin as [<-|Hin]; [apply (i_fx _ _ _ _ _ _ (Inv_restart E cat _ _ _ _ I) eq_refl)|]. rewrite Forall_forall in F. apply (F _ Hin); auto.
    - rewrite Hd. apply (i_fx _ _ _ _ _ _ (Inv_restart E cat _ _ _ _ I1) eq_refl). }
  destruct I0 as [J1 J2 J3 J4 J5 J6 J7 J8]. constructor; auto.
Qed.
Lemma inv_tidy s : Inv E cat false true [] s -> tidy s.
Proof.
  intros I. destruct (inv_orphans E cat false _ I) as [A B]. destruct (i_fz _ _ _ _ _ _ I eq_refl) as [Z1 Z2].
  assert (H : forall c id p, pool_at s id = Some p -> c = comp_of (cat id) -> at_home s c id).
  { intros c id p G ->. exists p. split; [exact G|]. destruct (po_meta _ _ _ (ok_pool _ _ (i_db _ _ _ _ _ _ I) id p G)) as (x & y & ->). reflexivity. }
  assert (N : forall l, file_content (st_fs s) l <> None -> f_name (st_fs s) l <> None).
  { intros l F X. apply F. unfold file_content. rewrite X. reflexivity. }
  split.
  - intros r c id D F. split; [exact (A r c id D F)|]. destruct (Z2 r c id D (N _ F)) as (-> & e & G & Hin).
    destruct (avail_pool E cat false true [] _ r _ e id I G Hin) as (p & Gp & _). exact (H _ _ _ Gp eq_refl).
  - intros c id D F. destruct (Z1 c id D (N _ F)) as (-> & G). destruct (mget (d_pool (st_db s)) id) as [p|] eqn:Gp; [|congruence].
    exact (H _ _ _ Gp eq_refl).
Qed.
(** steps that only remove files or touch other things *)
Definition fewer (s t : state) : Prop :=
  d_pool (st_db t) = d_pool (st_db s) /\ d_ents (st_db t) = d_ents (st_db s) /\ forall l, f_name (st_fs t) l = f_name (st_fs s) l \/ f_name (st_fs t) l = None.
Lemma tidy_fewer s t : tidy s -> fewer s t -> tidy t.
Proof.
  intros [A B] (P & D & F).
  assert (H : forall c id, at_home s c id -> at_home t c id) by (intros c id; unfold at_home, pool_at; rewrite P; auto).
  assert (C : forall l, file_content (st_fs t) l <> None -> file_content (st_fs s) l <> None).
  { intros l X. unfold file_content in *. destruct (F l) as [Y|Y]; rewrite Y in X; [destruct (f_name (st_fs s) l); [discriminate|exact X]|congruence]. }
  split.
  - intros r c id Dl X. destruct (A r c id Dl (C _ X)) as [(n & e & G & Hin) X2]. split; [|apply H, X2]. exists n, e. unfold entry_at in *. rewrite D. auto.
  - intros c id Dl X. apply H, (B c id Dl (C _ X)).
Qed.
Lemma fewer_fs s g : drops g -> keeps (fewer s) (durable (on_fs g)).
Proof.
  intros Dg. apply keeps_durable. intros t (P & D & F). split; [exact P|]. split; [exact D|]. intros l. cbn [on_fs st_fs].
  destruct (Dg (st_fs t)) as (_ & _ & N). destruct (N l) as [-> | ->]; [apply F|right; reflexivity].
Qed.
Lemma fewer_cache s g : keeps (fewer s) (vol (on_cache g)).
Proof. apply keeps_vol. intros t X. exact X. Qed.
Lemma fewer_create s o r : keeps (fewer s) (run_op E o (OpCreate r)).
Proof.
  cbn [run_op]. apply keeps_bind; [|intros _; apply keeps_ret]. unfold api_create. apply keeps_bind; [|intros _; apply z_index; [apply fewer_fs|apply fewer_cache]].
  assert (Bk : keeps (fewer s) (bake_repo r)) by (unfold bake_repo; apply keeps_bind; [apply keeps_gets|intros f; destruct (f_dir f r); [apply keeps_ret|apply (z_dir (fewer s) (fewer_fs s))]]).
  unfold create_repo. apply keeps_bind; [apply keeps_gets|intros c]. apply keeps_bind; [apply keeps_gets|intros d]. destruct (_ || _).
  - apply keeps_bind; [|intros _; apply keeps_err]. unfold get_repo. apply keeps_bind; [apply keeps_gets|intros c']. destruct (c' r); [apply keeps_ret|].
    apply keeps_bind; [apply keeps_gets|intros d']. destruct (mhas _ _); [|apply keeps_err]. apply keeps_bind; [exact Bk|intros _; apply fewer_cache].
  - apply keeps_bind; [apply keeps_gets|intros f]. destruct (f_dir f r); [apply keeps_err|]. apply keeps_bind; [|intros _; apply keeps_bind; [exact Bk|intros _; apply fewer_cache]].
    unfold db_write. destruct (reserved _); [apply keeps_err|]. apply keeps_durable. intros t (P & D & F). split; [exact P|]. split; [exact D|exact F].
Qed.
Lemma fewer_index s o r : keeps (fewer s) (run_op E o (OpIndex r)).
Proof. cbn [run_op]. apply keeps_bind; [|intros _; apply keeps_ret]. apply z_index; [apply fewer_fs|apply fewer_cache]. Qed.
Lemma tidy_crash_point s o p n : tidy s -> keeps (fewer s) (run_op E o p) -> tidy (ev_step E s (EvCrash o p n)).
Proof.
  intros Ts K. destruct (K s (conj eq_refl (conj eq_refl (fun l => or_introl eq_refl)))) as [F L]. rewrite Forall_forall in F. cbn [ev_step].
  assert (R : forall t, fewer s t -> tidy (restart t)) by (intros t X; apply (tidy_fewer s); [exact Ts|exact X]).
  apply R. destruct (nth_in_or_default n (s :: trace_of (run_op E o p s)) (final_of (run_op E o p s))) as [[X|X]|X].
  - rewrite <- X. split; [reflexivity|]. split; [reflexivity|]. auto.
  - apply F, X.
  - rewrite X. exact L.
Qed.
End Retry.

(** C24 (part). Whatever requests are re-run or issued after crashes, every listed
    package is intact, provided no crash left a package file that is not listed
    (the files for which the repetition of the import would be a copy of a file
    onto its own hard link, C24_retry_refuted). *)
Theorem C24_harmless_without_leftovers_partial :
  forall E cat h, good_catalog cat -> good_env E -> good_history E cat h -> tidy_crashes E h -> all_served E (run_history E h).
Proof. intros E cat h Hc HE G T r id A. exact (inv_served E cat false _ r id (tidy_run E cat Hc HE h G T) A). Qed.
Print Assumptions C24_harmless_without_leftovers_partial.

(** Crashes in the creation of a repository or in the writing of an index, at
    whatever instant, never leave such a file. *)
Definition create_or_index (p : op) : Prop := match p with OpCreate _ | OpIndex _ => True | _ => False end.
Theorem C24_create_and_index_partial :
  forall E cat h, good_catalog cat -> good_env E -> good_history E cat h ->
    Forall (fun e => match e with EvCrash _ p _ => create_or_index p | _ => True end) h -> all_served E (run_history E h).
Proof.
  intros E cat h Hc HE G C. apply (C24_harmless_without_leftovers_partial E cat h Hc HE G).
  intros h1 o p n h2 Eh.
  assert (Cp : create_or_index p) by (rewrite Eh in C; apply Forall_app in C as [_ C]; inversion C; assumption).
  split; [intros r ->; exact Cp|]. revert h2 Eh.
  assert (X : forall k h0, List.length h0 <= k -> good_history E cat h0 -> Forall (fun e => match e with EvCrash _ p _ => create_or_index p | _ => True end) h0 -> Inv E cat false true [] (run_history E h0)).
  { induction k as [|k IH]; intros h0 L G0 C0; [destruct h0; [apply Inv_init|cbn in L; lia]|].
    apply (tidy_run E cat Hc HE h0 G0). intros g1 o' p' n' g2 Eg. subst h0. apply Forall_app in G0 as [G0 G0']. apply Forall_app in C0 as [C0 C0']. inversion C0' as [|? ? Cp' _]; subst.
    split; [intros r ->; exact Cp'|]. unfold run_history. rewrite fold_left_app. cbn [fold_left]. apply tidy_crash_point.
    - apply (inv_tidy E cat). apply IH; [rewrite app_length in L; cbn in L; lia|exact G0|exact C0].
    - destruct p'; try destruct Cp'; [apply fewer_create|apply fewer_index]. }
  intros h2 Eh. subst h. apply Forall_app in G as [G _]. apply Forall_app in C as [C _].
  unfold run_history. rewrite fold_left_app. cbn [fold_left]. apply tidy_crash_point.
  - apply (inv_tidy E cat). apply (X (List.length h1) h1); [lia|exact G|exact C].
  - destruct p; try destruct Cp; [apply fewer_create|apply fewer_index].
Qed.
Print Assumptions C24_create_and_index_partial.

(** a concrete case: a creation and an indexing run die half-way, then a pull *)
Definition h_tidy (n m : nat) : list event :=
  h_retry ++ [EvCrash demo_oracle (OpCreate "volatile") n; EvCrash demo_oracle (OpIndex "unstable") m; EvOp demo_oracle (OpPull "unstable" "stable")].
Example C24_demo : forall n m : nat,
  good_history (demo_env true) demo_cat (h_tidy n m) /\ Forall (fun e => match e with EvCrash _ p _ => create_or_index p | _ => True end) (h_tidy n m) /\ repo_file (run_history (demo_env true) (h_tidy 2 5)) "stable" "n/nano" "nano-1.eopkg" = Some "nano1".
Proof.
  intros n m. split; [unfold good_history, h_tidy, h_retry; simpl app; demo_hist|]. split; [unfold h_tidy, h_retry; repeat constructor|]. vm_compute. reflexivity.
Qed.
