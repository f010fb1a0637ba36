(** * PropsDb: properties C37-C40 of the database layer (proofs in LibDbFacts.v) *)
From Verif Require Import Base Model LibDb LibDbFacts.
Open Scope string_scope. Open Scope list_scope.

(** ** C37 *)
(** a put or delete in bucket [q] changes neither what bucket [p] returns nor
    what iterating it shows *)
Definition leaves_alone (q p : list string) : Prop :=
  forall fl fl' id v, ldb_put fl (handle_prefix q) id v = Some fl' \/ ldb_del fl (handle_prefix q) id = Some fl' ->
    ldb_each fl' (handle_prefix p) = ldb_each fl (handle_prefix p) /\
    forall id', ldb_get fl' (handle_prefix p) id' = ldb_get fl (handle_prefix p) id'.

(** C37 for all bucket names is false: repositories "a" and "a-package". A
    package put into the second is shown by the first, and one can even
    overwrite a record of the other. *)
Theorem C37_buckets_independent_refuted :
  exists p q : list string, p <> q /\
    (exists fl, ldb_put mempty (handle_prefix q) "x" "entry of x" = Some fl /\
       ldb_each mempty (handle_prefix p) = [] /\
       ldb_each fl (handle_prefix p) = [("package-x", "entry of x")]) /\
    (exists id id' fl fl', ldb_put mempty (handle_prefix p) id "mine" = Some fl /\
       ldb_put fl (handle_prefix q) id' "yours" = Some fl' /\
       ldb_get fl' (handle_prefix p) id = Some "yours").
Proof.
  exists ["repo"; "a"; "package"], ["repo"; "a-package"; "package"]. split; [discriminate|]. split.
  - eexists. split; [reflexivity|]. split; vm_compute; reflexivity.
  - exists "package-x", "x". do 2 eexists. split; [reflexivity|]. split; [reflexivity|]. vm_compute; reflexivity.
Qed.
Print Assumptions C37_buckets_independent_refuted.

(** The exact condition, for all buckets: [p] is disturbed by a write to [id] in
    [q] iff both have the same depth and the dash-joined name of [p] is a prefix
    of that of the key. *)
Theorem C37_exact_condition :
  forall p q id,
    (forall fl v fl', ldb_put fl (handle_prefix q) id v = Some fl' ->
       ldb_each fl' (handle_prefix p) = ldb_each fl (handle_prefix p)) <->
    (reserved id = true \/ List.length p <> List.length q \/ has_prefix (dashes p) (dashes q ++ "-" ++ id) = false).
Proof.
  intros p q id. split.
  - intros H. destruct (reserved id) eqn:R; [left; reflexivity|right].
    destruct (Nat.eq_dec (List.length p) (List.length q)) as [L|L]; [right|left; exact L].
    destruct (has_prefix (dashes p) _) eqn:E; [exfalso|reflexivity].
    assert (S : has_prefix (handle_prefix p) (real_key (handle_prefix q) id) = true) by (apply sees_iff; split; assumption).
    specialize (H mempty "" (apply_write mempty (real_key (handle_prefix q) id, Some ""))).
    unfold ldb_put in H. rewrite R in H. specialize (H eq_refl).
    unfold ldb_each in H. cbn in H. rewrite S in H. discriminate H.
  - intros H fl v fl' P. unfold ldb_put in P. destruct (reserved id) eqn:R; [discriminate|]. injection P as <-.
    apply each_out. cbn [fst]. destruct (has_prefix (handle_prefix p) _) eqn:E; [|reflexivity].
    apply sees_iff in E as [L E]. destruct H as [H|[H|H]]; congruence.
Qed.
Print Assumptions C37_exact_condition.

(** The buckets ferryd uses are independent, if no repository name contains
    "-package". *)
Theorem C37_manager_buckets_partial :
  forall p q, mgr_bucket p -> mgr_bucket q -> p <> q -> leaves_alone q p.
Proof.
  intros p q Hp Hq N fl fl' id v H.
  assert (E : exists o, fl' = apply_write fl (real_key (handle_prefix q) id, o)).
  { unfold ldb_put, ldb_del in H. destruct (reserved id); [destruct H; discriminate|].
    destruct H as [H|H]; injection H as <-; eexists; reflexivity. }
  destruct E as (o & ->). split; [apply each_out, mgr_apart; assumption|].
  intros id'. apply get_out, mgr_keys_ne; assumption.
Qed.
Print Assumptions C37_manager_buckets_partial.
Theorem C37_job_buckets_partial :
  forall p q, job_bucket p -> job_bucket q -> p <> q -> leaves_alone q p.
Proof.
  intros p q Hp Hq N fl fl' id v H.
  assert (E : exists o, fl' = apply_write fl (real_key (handle_prefix q) id, o)).
  { unfold ldb_put, ldb_del in H. destruct (reserved id); [destruct H; discriminate|].
    destruct H as [H|H]; injection H as <-; eexists; reflexivity. }
  destruct E as (o & ->). split; [apply each_out, job_apart; assumption|].
  intros id'. apply get_out. intros E. pose proof (job_apart p q id Hp Hq N) as A.
  cbn [fst] in E. rewrite <- E, real_key_prefix in A. discriminate.
Qed.
Print Assumptions C37_job_buckets_partial.
Example C37_demo :
  mgr_bucket ["repo"; "unstable"; "package"] /\ mgr_bucket ["repo"; "unstable-x86"; "package"] /\
  (exists fl', ldb_put mempty (handle_prefix ["repo"; "unstable"; "package"]) "nano" "v" = Some fl') /\
  safe_repo "a-package" = false.
Proof. repeat split; try (constructor; reflexivity). eexists; reflexivity. Qed.

(** Hence the database the other theorems are about (Model.v: one map per
    bucket) is faithfully kept in the flat key space: starting empty, every
    write done in both keeps them in step, and then lookups and iteration over
    each bucket show exactly that bucket. *)
Theorem C37_typed_view_is_faithful :
  forall (er : string -> string) (ee : entry -> string) (ep : pentry -> string) (es : sentry -> string) ops,
    forallb safe_op ops = true ->
    let fl := fold_left apply_write (map (raw er ee ep es) ops) mempty in
    let d := fold_left apply_op ops init_db in
    (forall id, ldb_has fl (handle_prefix ["repo"]) id = mhas (d_repos d) id) /\
    (forall id, ldb_get fl (handle_prefix ["pool"]) id = option_map ep (mget (d_pool d) id)) /\
    (forall r n, safe_repo r = true -> ldb_get fl (handle_prefix ["repo"; r; "package"]) n = option_map ee (mget (d_ents d r) n)) /\
    (forall n, ldb_get fl (handle_prefix ["deltaSkip"]) n = option_map es (mget (d_skip d) n)) /\
    ldb_each fl (handle_prefix ["repo"]) = map (fun kv => (fst kv, er (fst kv))) (mlist (d_repos d)) /\
    ldb_each fl (handle_prefix ["pool"]) = map (fun kv => (fst kv, ep (snd kv))) (mlist (d_pool d)) /\
    (forall r, safe_repo r = true ->
       ldb_each fl (handle_prefix ["repo"; r; "package"]) = map (fun kv => (fst kv, ee (snd kv))) (mlist (d_ents d r))).
Proof.
  intros er ee ep es ops S fl d.
  pose proof (repr_batch er ee ep es ops mempty init_db (repr_init er ee ep es) S) as R. fold fl d in R.
  split; [|split; [|split; [|split; [|split; [|split]]]]].
  - intros id. pose proof (rp_repo _ _ _ _ _ _ R id) as H. unfold ldb_has, mhas. unfold ldb_get, held in H.
    unfold mget in *. destruct (lget id (mlist (d_repos d))); rewrite H; reflexivity.
  - intros id. rewrite (rp_pool _ _ _ _ _ _ R id). unfold held. destruct (mget (d_pool d) id); reflexivity.
  - intros r n Sr. rewrite (rp_ents _ _ _ _ _ _ R r Sr n). unfold held. destruct (mget (d_ents d r) n); reflexivity.
  - intros n. rewrite (rp_skip _ _ _ _ _ _ R n). unfold held. destruct (mget (d_skip d) n); reflexivity.
  - exact (each_shown er ee ep es (fun id _ => er id) (d_repos d) fl d ["repo"] R MB_repo (rp_repo _ _ _ _ _ _ R)).
  - exact (each_shown er ee ep es (fun _ => ep) (d_pool d) fl d ["pool"] R MB_pool (rp_pool _ _ _ _ _ _ R)).
  - intros r Sr. exact (each_shown er ee ep es (fun _ => ee) (d_ents d r) fl d _ R (MB_pkg r Sr) (rp_ents _ _ _ _ _ _ R r Sr)).
Qed.
Print Assumptions C37_typed_view_is_faithful.
Example C37_view_demo :
  forallb safe_op [PutRepo "unstable"; PutEnt "unstable" (Entry "nano" ["nano-1.eopkg"] "nano-1.eopkg" []);
                   PutEnt "shannon" (Entry "nano" ["nano-1.eopkg"] "nano-1.eopkg" []); DelEnt "shannon" "nano"] = true.
Proof. reflexivity. Qed.

(** ** C38: for every function given to Update, with writes [ws] in order and
    result [ok]: on error nothing is written; on success there is one durable
    step, after which every key has the value last written to it, and keys not
    written are as before. *)
Theorem C38_all_or_nothing :
  forall db p t ws ok, tx_run db p t ws ok ->
    (ok = false -> ldb_update db p t = ([], false)) /\
    (ok = true -> exists db', ldb_update db p t = ([db'], true) /\
       forall k, mget db' k = match last_write k ws with
                              | Some (Some v) => Some v
                              | Some None => None
                              | None => mget db k
                              end).
Proof.
  intros db p t ws ok H. pose proof (tx_run_sound db p t ws ok H []) as E. unfold ldb_update. rewrite E. simpl.
  split; intros ->; [reflexivity|]. eexists. split; [reflexivity|].
  intros k. rewrite fold_writes. destruct (last_write k ws) as [[v|]|]; reflexivity.
Qed.
Print Assumptions C38_all_or_nothing.
(** every function has such a run *)
Theorem C38_every_function_has_a_run : forall db p t, exists ws ok, tx_run db p t ws ok.
Proof. exact tx_run_total. Qed.
Print Assumptions C38_every_function_has_a_run.
Definition demo_tx (fail : bool) : prog :=
  TPut ["pool"] "a" "1" (fun _ => TPut ["pool"] "a" "2" (fun _ => TDel ["repo"] "b" (fun _ =>
  TGet ["repo"] "b" (fun r => TDone (match r with Some _ => negb fail | None => false end))))).
Definition demo_db : flat := mput mempty (real_key (handle_prefix ["repo"]) "b") "old".
Example C38_demo :
  (exists ws, tx_run demo_db root_prefix (demo_tx true) ws false) /\
  (exists ws, tx_run demo_db root_prefix (demo_tx false) ws true /\ List.length ws = 3).
Proof.
  split; eexists; [|split]; [| |shelve].
  - unfold demo_tx. do 3 (econstructor; [reflexivity|]). econstructor. vm_compute. constructor.
  - unfold demo_tx. do 3 (econstructor; [reflexivity|]). econstructor. vm_compute. constructor.
  Unshelve. reflexivity.
Qed.

(** ** C39 is false: a transaction reads the database without its own writes. *)
Theorem C39_reads_own_writes_refuted :
  exists db p id v, reserved id = false /\ v <> "" /\
    ldb_update db p (TPut [] id v (fun _ => TGet [] id (fun r => TDone (match r with Some x => seqb x v | None => false end))))
      = ([], false).
Proof. exists mempty, root_prefix, "a", "1". split; [reflexivity|]. split; [discriminate|]. vm_compute. reflexivity. Qed.
Print Assumptions C39_reads_own_writes_refuted.
(** What holds: a transaction that does not read what it wrote behaves exactly as
    if it saw its writes; and outside transactions a read returns the last write. *)
Theorem C39_without_rereading_partial :
  forall db p t, no_reread db p [] t -> run_tx db p [] t = run_ideal db p [] t.
Proof. intros db p t N. symmetry. apply (ideal_agrees db p t [] []); [reflexivity|exact N]. Qed.
Print Assumptions C39_without_rereading_partial.
Theorem C39_plain_handle_partial :
  forall db db' P id v, ldb_put db P id v = Some db' ->
    ldb_get db' P id = Some v /\ forall id', id' <> id -> ldb_get db' P id' = ldb_get db P id'.
Proof.
  intros db db' P id v H. unfold ldb_put in H. destruct (reserved id); [discriminate|]. injection H as <-.
  split; [rewrite get_put_same, seqb_refl; reflexivity|].
  intros id' N. rewrite get_put_same. destruct (seqb_spec id' id); [contradiction|reflexivity].
Qed.
Print Assumptions C39_plain_handle_partial.
Example C39_demo : no_reread demo_db root_prefix []
  (TGet ["repo"] "b" (fun _ => TPut ["pool"] "a" "1" (fun _ => TEach ["repo"] (fun _ => TDone true)))).
Proof.
  split; [intros []|]. cbn [reserved]. split; [|exact I]. intros w [<-|[]]. reflexivity.
Qed.

(** ** C40: the sequence number is not in the bucket and sorts after all its
    keys; for buckets with sequence-number keys, while numbers last. *)
Theorem C40_next_sequence_fresh :
  forall fl path, path <> [] ->
    (forall k, In k (map fst (ldb_each fl (handle_prefix path))) -> exists n, k = be64 n /\ (n < 2 ^ 64 - 1)%N) ->
    forall k, In k (map fst (ldb_each fl (handle_prefix path))) ->
      k <> ldb_next fl (handle_prefix path) /\ slt k (ldb_next fl (handle_prefix path)).
Proof.
  intros fl path NE Hn k Hk.
  assert (L : 8 < String.length (handle_prefix path)).
  { rewrite handle_form, !slen_app. unfold root_prefix. simpl String.length. lia. }
  assert (N : numeric fl (handle_prefix path)).
  { intros x Hx. destruct (Hn x Hx) as (n & E & B). exists n. split; [exact E|lia]. }
  destruct (next_facts fl _ L N) as [[E _]|(n & B & I & M & E)].
  - rewrite E in Hk. destruct Hk.
  - destruct (Hn _ I) as (n' & E' & B'). apply be64_inj in E'; [subst n'|exact B|lia].
    assert (S : slt k (ldb_next fl (handle_prefix path))).
    { rewrite E. unfold uint64. rewrite N.mod_small by lia.
      assert (A : slt (be64 n) (be64 (n + 1))) by (apply be64_lt; lia).
      destruct (M k Hk) as [->|Hlt]; [exact A|exact (slt_trans _ _ _ Hlt A)]. }
    split; [exact (slt_neq _ _ S)|exact S].
Qed.
Print Assumptions C40_next_sequence_fresh.
(** the bound is needed: after the largest number comes 0 *)
Theorem C40_wraps_refuted :
  exists fl path, path <> [] /\ In (be64 0) (map fst (ldb_each fl (handle_prefix path))) /\ ldb_next fl (handle_prefix path) = be64 0.
Proof.
  exists (mput (mput mempty (real_key (handle_prefix ["Sync"]) (be64 0)) "job") (real_key (handle_prefix ["Sync"]) (be64 (2 ^ 64 - 1))) "job"), ["Sync"].
  split; [discriminate|]. split; [left; reflexivity|vm_compute; reflexivity].
Qed.
Print Assumptions C40_wraps_refuted.
(** and one number below it can never be stored: it spells the reserved word *)
Theorem C40_reserved_number_refuted :
  exists n, (n < 2 ^ 64 - 1)%N /\ forall fl P v, ldb_put fl P (be64 n) v = None.
Proof. exists 8962855278284731516%N. split; [reflexivity|]. intros fl P v. reflexivity. Qed.
Print Assumptions C40_reserved_number_refuted.
Example C40_demo :
  let fl := mput (mput mempty (real_key (handle_prefix ["Sync"]) (be64 3)) "a") (real_key (handle_prefix ["Sync"]) (be64 255)) "b" in
  map fst (ldb_each fl (handle_prefix ["Sync"])) = [be64 3; be64 255] /\ ldb_next fl (handle_prefix ["Sync"]) = be64 256.
Proof. split; vm_compute; reflexivity. Qed.
