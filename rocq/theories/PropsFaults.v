(** * PropsFaults: C100, a request that fails on an I/O error *)
From Verif Require Import Model Spec Demo DemoOk DbInv DbOps Wp FsInv Ops RepoOps ApiOps History PoolFacts PropsPool PropsOps Sim PropsRestart Faults.
Open Scope string_scope. Open Scope list_scope.

(** ** Specification *)
(** the same history in which the daemon is killed instead, at the same instant *)
Definition as_crash (e : xevent) : event :=
  match e with XEvent e => e | XFail o p n _ _ _ => EvCrash o p n end.
(** nothing is cleaned up on the way out *)
Definition no_cleanup (h : list xevent) : Prop :=
  Forall (fun e => match e with XFail _ _ _ _ g t => g = [] /\ t = [] | _ => True end) h.
(** requests that fail do not remove single packages *)
Definition good_faulty (E : env) (cat : string -> meta) (h : list xevent) : Prop :=
  Forall (fun e => good_event E cat (as_crash e)) h.
Definition sound (s : state) : Prop :=
  safe s /\
  (forall r n e, entry_at s r n = Some e -> well_formed s r n e) /\
  (forall r n e, entry_at s r n = Some e ->
     exists q, pool_at s (e_pub e) = Some q /\
       forall id p, In id (e_avail e) -> pool_at s id = Some p -> (rel (p_meta p) <= rel (p_meta q))%Z).

(** ** Without clean-up: as a crash and a restart *)
Lemma given_up_R E s o p n c : R nobody false (given_up E s o p n c [] []) (ev_step E s (EvCrash o p n)).
Proof.
  unfold given_up. cbn [clean_pool clean_root fold_left ev_step]. set (t := nth n _ _). split; [split; reflexivity|]. split; [reflexivity|]. split; [apply bok_nil|].
  split; intros id X; [|discriminate]. cbn in X. apply andb_true_iff in X as [X Y]. apply andb_true_iff in X as [_ X]. split; [intros []|]. auto.
Qed.
Lemma R_trans s1 s2 s3 : R nobody false s1 s2 -> R nobody false s2 s3 -> R nobody false s1 s3.
Proof.
  intros ((a & b) & c & d & e & _) ((a' & b') & c' & _ & _ & e'). split; [split; congruence|]. split; [congruence|]. split; [exact d|]. split; assumption.
Qed.
Lemma faulty_R E h : no_cleanup h -> R nobody false (run_faulty E h) (run_history E (map as_crash h)).
Proof.
  intros N. unfold run_faulty, run_history.
  cut (forall s1 s2, R nobody false s1 s2 -> R nobody false (fold_left (xstep E) h s1) (fold_left (ev_step E) (map as_crash h) s2)).
  { intros K. apply K, R_init. }
  induction N as [|e h He _ IH]; intros s1 s2 H; cbn [map fold_left]; [exact H|]. apply IH.
  destruct e as [e|o p n c g t]; cbn [xstep as_crash].
  - apply R_event, H.
  - destruct He as [-> ->]. apply (R_trans _ (ev_step E s1 (EvCrash o p n))); [apply given_up_R|]. apply R_event, H.
Qed.

(** C100. A request that ends with an I/O error leaves what a kill at that instant
    followed by a restart would leave, and every further request behaves the same:
    the theorems about crashes speak about I/O errors as well. *)
Theorem C100_error_is_like_a_crash : forall E h, no_cleanup h ->
  looks_same (run_faulty E h) (run_history E (map as_crash h)) /\
  behaves_same E (run_faulty E h) (run_history E (map as_crash h)).
Proof. intros E h N. apply R_behaves, faulty_R, N. Qed.
Print Assumptions C100_error_is_like_a_crash.

(** ** With clean-up *)
Record cleaned (d : db) (f f' : fs) : Prop := {
  cl_data : f_data f' = f_data f;
  cl_next : f_next f' = f_next f;
  cl_asset : f_asset f' = f_asset f;
  cl_name : forall l, f_name f' l = f_name f l \/ (f_name f' l = None /\ l_tree l = TPool /\ mget (d_pool d) (l_id l) = None)
}.
Lemma cleaned_refl d f : cleaned d f f.
Proof. constructor; auto. Qed.
Lemma cleaned_trans d f1 f2 f3 : cleaned d f1 f2 -> cleaned d f2 f3 -> cleaned d f1 f3.
Proof.
  intros [a b c e] [a' b' c' e']. constructor; try congruence. intros l. destruct (e' l) as [->|X]; [apply e|]. right. exact X.
Qed.
Lemma cleaned_pool d gone f : cleaned d f (clean_pool d gone f).
Proof.
  unfold clean_pool. revert f. induction gone as [|l gone IH]; intros f; cbn [fold_left]; [apply cleaned_refl|].
  eapply cleaned_trans; [|apply IH]. destruct (l_tree l) eqn:T; try apply cleaned_refl. destruct (mhas (d_pool d) (l_id l)) eqn:M; [apply cleaned_refl|].
  constructor; try reflexivity. intros x. cbn. unfold nupd. destruct (loc_eqb_spec x l) as [->|]; [|auto]. right. split; [reflexivity|]. split; [exact T|].
  unfold mhas in M. destruct (mget (d_pool d) (l_id l)); [discriminate|reflexivity].
Qed.
Lemma cleaned_root d gone f : cleaned d f (clean_root gone f).
Proof.
  unfold clean_root. revert f. induction gone as [|[r k] gone IH]; intros f; cbn [fold_left]; [apply cleaned_refl|].
  eapply cleaned_trans; [|apply IH]. cbn [fst snd]. destruct (sin k temporary); [|apply cleaned_refl]. constructor; try reflexivity. auto.
Qed.

Section Clean.
Variable E : env.
Variable cat : string -> meta.
Hypothesis Hcat : good_catalog cat.
Hypothesis HE : good_env E.
Lemma cleaned_ok d f f' : fs_ok E cat f -> cleaned d f f' -> fs_ok E cat f'.
Proof. intros H [a b c e]. eapply fs_shrink_ok; eauto; [|apply assets_eq; exact c]. intros l. destruct (e l) as [X|[X _]]; auto. Qed.
Lemma cleaned_inv d f f' c c' : Inv E cat false false [] (St d f c []) -> cleaned d f f' ->
  (forall r, c' r = true -> mhas (d_repos d) r = true) -> Inv E cat false false [] (St d f' c' []).
Proof.
  intros [A1 A2 A3 A4 A5 A6 A7 A8] Cl Hc. constructor; cbn in *; auto; try discriminate. eapply cleaned_ok; eauto.
Qed.
Lemma given_up_inv s o p n c g t : Inv E cat false false [] s -> good_oracle o -> good_op p -> removes_packages p = false ->
  Inv E cat false false [] (given_up E s o p n c g t).
Proof.
  intros H Ho Hp Hr.
  assert (K : Inv E cat false false [] (ev_step E s (EvCrash o p n))) by (apply Inv_event; auto; try discriminate; exact (conj Ho (conj Hp Hr))).
  cbn [ev_step] in K. unfold given_up. set (x := nth n _ _) in *. unfold restart in K.
  eapply cleaned_inv; [exact K| |].
  - eapply cleaned_trans; [apply cleaned_pool|apply cleaned_root].
  - intros r X. apply andb_true_iff in X as [X _]. apply andb_true_iff in X as [_ X]. exact X.
Qed.
Lemma faulty_inv h : good_faulty E cat h -> Inv E cat false false [] (run_faulty E h).
Proof.
  unfold run_faulty. cut (forall s, Inv E cat false false [] s -> good_faulty E cat h -> Inv E cat false false [] (fold_left (xstep E) h s)).
  { intros K G. apply K; [apply Inv_init|exact G]. }
  induction h as [|e h IH]; intros s H G; cbn [fold_left]; [exact H|]. inversion G as [|? ? Ge Gh]; subst. apply IH; [|exact Gh].
  destruct e as [e|o p n c g t]; cbn [xstep as_crash] in *.
  - apply Inv_event; auto; discriminate.
  - destruct Ge as (Ho & Hp & Hr). apply given_up_inv; assumption.
Qed.
Lemma cleaned_served d f f' c c' : (forall r id, available (St d f c []) r id -> served E (St d f c []) r id) -> cleaned d f f' ->
  all_served E (St d f' c' []).
Proof.
  intros H Cl r id A. destruct (H r id A) as (q & cm & x & Gq & Gu & Gf & Gh & Gs). exists q, cm, x. repeat (split; [assumption|]).
  split; [|auto]. unfold repo_file, file_content in *. cbn [st_fs] in *. destruct (cl_name _ _ _ Cl (Loc (TRepo r) cm id)) as [->|(_ & T & _)]; [|discriminate]. rewrite (cl_data _ _ _ Cl). exact Gf.
Qed.
End Clean.

(** After any history in which requests completed, failed on I/O errors (cleaning
    up whatever they managed to) or were killed, nothing that is listed is missing
    from the pool, entries are well formed and publish the newest version. *)
Theorem C100_sound_after_errors : forall E cat h, good_catalog cat -> good_env E -> good_faulty E cat h ->
  sound (run_faulty E h).
Proof.
  intros E cat h Hc HE G. pose proof (faulty_inv E cat Hc HE h G) as I. split; [exact (inv_safe E cat _ _ _ I)|]. split.
  - intros r n e He. exact (inv_wf E cat _ _ _ r n e I He).
  - intros r n e He. apply (inv_newest E cat _ _ _ r n e I He).
Qed.
Print Assumptions C100_sound_after_errors.

(** The first request that fails, other than one that removes or deletes, damages
    no listed package. *)
Theorem C100_files_survive_the_error : forall E cat s o p n c g t, good_catalog cat -> good_env E ->
  reachable_completed E cat s -> good_oracle o -> good_op p -> removes_packages p = false -> (forall r, p <> OpDelete r) ->
  all_served E (given_up E s o p n c g t).
Proof.
  intros E cat s o p n c g t Hc HE Rs Ho Hp Hr Hd. unfold given_up. set (x := nth n _ _).
  assert (Sx : all_served E x).
  { pose proof Rs as (h & Hh & Hf & Es). unfold x. destruct (nth_in_or_default n (s :: trace_of (run_op E o p s)) (final_of (run_op E o p s))) as [[X|X]|X].
    - rewrite <- X. intros r id A. exact (C05_listed_is_served E cat s r id Hc HE Rs A).
    - exact (C22_crash_keeps_files E cat s o p Hc HE Rs Ho Hp Hr Hd _ X).
    - rewrite X. intros r id A. subst s. assert (I : Inv E cat false true [] (final_of (run_op E o p (run_history E h)))).
      { destruct (wp_run_op E cat Hc HE false true o p _ (hist_fz E cat Hc HE h Hh Hf) Ho Hp ltac:(discriminate)) as (_ & I & _). exact I. }
      exact (inv_served E cat false _ r id I A). }
  eapply cleaned_served with (c := st_cache x) (f := st_fs x); [|eapply cleaned_trans; [apply cleaned_pool|apply cleaned_root]].
  intros r id A. apply (Sx r id A).
Qed.
Print Assumptions C100_files_survive_the_error.

(** False for requests that remove single packages: a full disk in the middle of
    remove-source leaves a listing without its package, as a kill does (C23). *)
Theorem C100_removal_refuted :
  exists E cat s o p n, good_catalog cat /\ good_env E /\ reachable_completed E cat s /\ good_oracle o /\ good_op p /\
    forall c g t, let s' := given_up E s o p n c g t in
    available s' "unstable" "libx-1.eopkg" /\ pool_at s' "libx-1.eopkg" = None.
Proof.
  set (h := h_two ++ [EvOp demo_oracle (OpRemoveSource "stable" "libx" 0)]).
  exists (demo_env true), demo_cat, (run_history (demo_env true) h), demo_oracle, (OpRemoveSource "unstable" "libx" 0), 3.
  split; [apply demo_cat_good|]. split; [apply demo_env_good|]. split.
  { exists h. unfold h, h_two; simpl app. split; [unfold good_history; demo_hist|]. split; [unfold crash_free; repeat constructor|reflexivity]. }
  split; [apply demo_oracle_good|]. split; [exact I|]. intros c g t.
  set (x := nth 3 (run_history (demo_env true) h :: trace_of (run_op (demo_env true) demo_oracle (OpRemoveSource "unstable" "libx" 0) (run_history (demo_env true) h))) (final_of (run_op (demo_env true) demo_oracle (OpRemoveSource "unstable" "libx" 0) (run_history (demo_env true) h)))).
  assert (A : available x "unstable" "libx-1.eopkg" /\ pool_at x "libx-1.eopkg" = None).
  { split; [|here]. exists "libx". eexists. split; [here|left; reflexivity]. }
  exact A.
Qed.
Print Assumptions C100_removal_refuted.

(** And repeating the request after the disk has room again is not harmless: a pull
    that failed after linking the file copies it onto its own hard link when it
    is repeated, and empties the package that another repository serves (C24,
    here without any crash). *)
Theorem C100_repeat_after_error_refuted :
  exists E cat s o p n, good_catalog cat /\ good_env E /\ reachable_completed E cat s /\ good_oracle o /\ good_op p /\
    served E s "unstable" "nano-1.eopkg" /\
    forall c, let s' := given_up E s o p n c [] [] in
    served E s' "unstable" "nano-1.eopkg" /\
    available (after E o p s') "unstable" "nano-1.eopkg" /\ repo_file (after E o p s') "unstable" "n/nano" "nano-1.eopkg" = Some "".
Proof.
  set (s := run_history (demo_env true) h_retry).
  exists (demo_env true), demo_cat, s, demo_oracle, (OpPull "unstable" "stable"), 2.
  split; [apply demo_cat_good|]. split; [apply demo_env_good|]. split.
  { exists h_retry. split; [unfold good_history, h_retry; demo_hist|]. split; [unfold crash_free, h_retry; repeat constructor|reflexivity]. }
  split; [apply demo_oracle_good|]. split; [exact I|].
  split. { do 2 eexists. exists "nano1". split; [here|]. split; [instantiate (1 := "n/nano"); here|]. split; [here|]. split; here. }
  intros c s'. pose proof (given_up_R (demo_env true) s demo_oracle (OpPull "unstable" "stable") 2 c) as Rr. fold s' in Rr.
  destruct (R_behaves (demo_env true) _ _ Rr) as [[Ld Lf] B]. destruct (B demo_oracle (OpPull "unstable" "stable")) as (_ & [Ad Af] & _). clear B.
  assert (T : forall x y, st_db x = st_db y -> st_fs x = st_fs y -> forall r id, served (demo_env true) y r id -> served (demo_env true) x r id).
  { intros x y A B r id (q & cm & v & G). exists q, cm, v. unfold pool_at, repo_file in *. rewrite A, B. exact G. }
  split; [apply (T _ _ Ld Lf)|].
  { do 2 eexists. exists "nano1". split; [here|]. split; [instantiate (1 := "n/nano"); here|]. split; [here|]. split; here. }
  unfold available, entry_at, repo_file. rewrite Ad, Af. split; [exists "nano"; eexists; split; [here|left; reflexivity]|here].
Qed.
Print Assumptions C100_repeat_after_error_refuted.

(** Non-vacuity: an import into a full disk (the pool file is linked, its record
    cannot be written, the file is removed again), then the same import again. *)
Definition h_full : list xevent :=
  map XEvent h_retry ++
  [ XEvent (EvPut (ext "nano-2.eopkg") "nano2");
    XFail demo_oracle (OpAdd "unstable" [ext "nano-2.eopkg"] false) 1 (fun _ => true) [Loc TPool "n/nano" "nano-2.eopkg"] [];
    XFail demo_oracle (OpIndex "stable") 4 (fun _ => true) [] [("stable", "eopkg-index.xml.new")];
    XEvent (EvOp demo_oracle (OpAdd "unstable" [ext "nano-2.eopkg"] false)) ].
Example C100_demo :
  good_faulty (demo_env true) demo_cat h_full /\
  (let s := run_faulty (demo_env true) (firstn (List.length h_full - 1) h_full) in
   file_content (st_fs s) (Loc TPool "n/nano" "nano-2.eopkg") = None /\ pool_at s "nano-2.eopkg" = None /\ st_cache s "unstable" = true) /\
  (let s := run_faulty (demo_env true) h_full in
   published s "unstable" "nano" = Some "nano-2.eopkg" /\ repo_file s "unstable" "n/nano" "nano-2.eopkg" = Some "nano2").
Proof.
  split; [|split; vm_compute; auto]. unfold good_faulty, h_full, h_retry. simpl app. cbn [map app].
  apply Forall_map. cbn [map as_crash]. demo_hist.
Qed.
