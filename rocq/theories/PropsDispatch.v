(** * PropsDispatch: properties C34-C36 (requests, jobs, handlers, status) *)
From Verif Require Import Model.
From Verif Require Import Base LibDb Jobs JobSpec JobFacts JobFacts2 PropsJobs Dispatch.
Open Scope string_scope. Open Scope list_scope.

(** ** Specification *)
(** what a request asks the manager to do *)
Definition meaning (r : request) : todo :=
  match r with
  | ReqCreate id => Run (OpCreate id)
  | ReqDelete id => Run (OpDelete id)
  | ReqDelta id => PushDeltas id
  | ReqIndex id => Run (OpIndex id)
  | ReqImport id paths => Run (OpAdd id (map loc_of_path paths) false)
  | ReqClone id name all => Run (OpClone id name all)
  | ReqPull target source => Run (OpPull source target)
  | ReqRemoveSource id source rel => Run (OpRemoveSource id source rel)
  | ReqCopySource id target source rel skip => Run (OpCopySource id target source rel skip)
  | ReqTrimPackages id keep => Run (OpTrimPackages id keep)
  | ReqTrimObsolete id => Run (OpTrimObsolete id)
  | ReqUpload path => Upload path
  end.
(** the requests that make it: numbers fit in 32 bits, imports name a package *)
Definition fits (r : request) : Prop :=
  match r with
  | ReqImport _ paths => paths <> []
  | ReqRemoveSource _ _ n | ReqCopySource _ _ _ n _ | ReqTrimPackages _ n => (-2 ^ 31 <= n < 2 ^ 31)%Z
  | _ => True
  end.

(** ** Numbers survive being printed and parsed *)
Lemma digit_code n : (n < 10)%N -> N_of_ascii (digit n) = (48 + n)%N.
Proof. intros L. unfold digit. apply N_ascii_embedding. lia. Qed.
Lemma digit_is_digit n : (n < 10)%N -> is_digit (digit n) = true.
Proof. intros L. unfold is_digit. rewrite (digit_code n L). apply andb_true_iff. split; apply N.leb_le; lia. Qed.
Lemma parse_digits_print f n acc : (n < 2 ^ N.of_nat f)%N -> parse_digits (digits (S f) n acc) 0 = parse_digits acc n.
Proof.
  revert n acc; induction f as [|f IH]; intros n acc B.
  - assert (n = 0%N) as -> by (change (2 ^ N.of_nat 0)%N with 1%N in B; lia). reflexivity.
  - cbn [digits]. destruct (N.ltb_spec n 10) as [L|L].
    + cbn [parse_digits]. rewrite (digit_is_digit n L), (digit_code n L). f_equal. lia.
    + change (parse_digits (digits (S f) (n / 10) (String (digit (n mod 10)) acc)) 0 = parse_digits acc n).
      rewrite IH.
      * cbn [parse_digits]. assert (M : (n mod 10 < 10)%N) by (apply N.mod_lt; discriminate).
        rewrite (digit_is_digit _ M), (digit_code _ M). f_equal. pose proof (N.div_mod n 10 ltac:(discriminate)) as DM. set (a := (n / 10)%N) in *. set (b := (n mod 10)%N) in *. clearbody a b. lia.
      * rewrite Nat2N.inj_succ, N.pow_succ_r' in B. apply N.div_lt_upper_bound; [discriminate|]. set (x := (2 ^ N.of_nat f)%N) in *. clearbody x. lia.
Qed.
Lemma digits_head f n acc : exists c t, digits (S f) n acc = String c t /\ is_digit c = true.
Proof.
  revert n acc; induction f as [|f IH]; intros n acc.
  - cbn [digits]. destruct (N.ltb_spec n 10) as [L|L].
    + exists (digit n), acc. split; [reflexivity|apply digit_is_digit; exact L].
    + exists (digit (n mod 10)), acc. split; [reflexivity|apply digit_is_digit; apply N.mod_lt; discriminate].
  - destruct (N.ltb_spec n 10) as [L|L].
    + exists (digit n), acc. split; [cbn [digits]; rewrite (proj2 (N.ltb_lt _ _) L); reflexivity|apply digit_is_digit; exact L].
    + destruct (IH (n / 10)%N (String (digit (n mod 10)) acc)) as (c & t & E & D). exists c, t. split; [|exact D].
      rewrite <- E. cbn [digits]. rewrite (proj2 (N.ltb_ge _ _) L). reflexivity.
Qed.
Lemma parse_print_N n : parse_unsigned (print_N n) = Ok n.
Proof.
  unfold print_N. destruct (digits_head (N.to_nat (N.size n)) n "") as (c & t & E & _).
  unfold parse_unsigned. rewrite E. rewrite <- E. rewrite parse_digits_print; [reflexivity|].
  rewrite N2Nat.id. apply N.size_gt.
Qed.
Lemma digit_not_sign c : is_digit c = true -> Ascii.eqb c "+" = false /\ Ascii.eqb c "-" = false.
Proof.
  intros D. unfold is_digit in D. apply andb_true_iff in D as [D _]. apply N.leb_le in D.
  split; apply Ascii.eqb_neq; intros ->; vm_compute in D; apply D; reflexivity.
Qed.
Lemma parse_print_int z : parse_int32 (print_int z) = if int32 z then Ok z else Err.
Proof.
  unfold print_int. destruct (Z.ltb_spec z 0) as [L|L].
  - unfold parse_int32. change (Ascii.eqb "-" "+") with false. change (Ascii.eqb "-" "-") with true. cbn match.
    rewrite parse_print_N. rewrite Z2N.id by lia. rewrite Z.opp_involutive. reflexivity.
  - unfold parse_int32. unfold print_N at 1. destruct (digits_head (N.to_nat (N.size (Z.to_N z))) (Z.to_N z) "") as (c & t & E & D).
    rewrite E. destruct (digit_not_sign c D) as [-> ->]. rewrite parse_print_N.
    rewrite Z2N.id by lia. reflexivity.
Qed.
Lemma parse_print_bool b : parse_bool (print_bool b) = Ok b.
Proof. destruct b; reflexivity. Qed.
Lemma int32_iff z : int32 z = true <-> (-2 ^ 31 <= z < 2 ^ 31)%Z.
Proof. unfold int32. rewrite andb_true_iff, !Z.leb_le. change (2 ^ 31)%Z with 2147483648%Z. lia. Qed.

(** ** C34 *)
(** Every request that fits becomes a job whose handler asks the manager for
    exactly what the request asked. *)
Definition dispatch (e : jentry) : res handler := new_job_handler (snd (fst e)) (snd e).
Theorem C34_parameters_survive_partial :
  forall r, fits r -> exists h, dispatch (job_of r) = Ok h /\ execute h = meaning r.
Proof.
  intros r F. unfold dispatch.
  destruct r; cbn [job_of fst snd fits] in *.
  5: { destruct paths as [|p ps]; [destruct (F eq_refl)|]. eexists; split; reflexivity. }
  5: { eexists; split; [reflexivity|]. cbn [execute meaning]. destruct copy_all; reflexivity. }
  6: { eexists. change (new_job_handler "RemoveSource" [id; source; print_int release]) with (match parse_int32 (print_int release) with Ok rel => Ok (HRemoveSource id source rel) | _ => Err end).
       rewrite parse_print_int, (proj2 (int32_iff _) F). split; reflexivity. }
  6: { eexists. change (new_job_handler "CopySource" [id; target; source; print_int release; print_bool skip_index])
         with (match parse_int32 (print_int release) with Ok rel => match parse_bool (print_bool skip_index) with Ok si => Ok (HCopySource id target source rel si) | _ => Err end | _ => Err end).
       rewrite parse_print_int, (proj2 (int32_iff _) F), parse_print_bool. split; reflexivity. }
  6: { eexists. change (new_job_handler "TrimPackages" [id; print_int max_keep]) with (match parse_int32 (print_int max_keep) with Ok k => Ok (HTrimPackages id k) | _ => Err end).
       rewrite parse_print_int, (proj2 (int32_iff _) F). split; reflexivity. }
  all: eexists; split; reflexivity.
Qed.
Print Assumptions C34_parameters_survive_partial.
(** All others are refused, and nothing is ever executed with other parameters. *)
Theorem C34_exact :
  forall r, (fits r /\ exists h, dispatch (job_of r) = Ok h /\ execute h = meaning r) \/ (~ fits r /\ dispatch (job_of r) = Err).
Proof.
  intros r.
  assert (D : fits r \/ ~ fits r).
  { destruct r; cbn [fits]; try (left; exact I); try lia. destruct paths; [right; intros X; apply X; reflexivity|left; discriminate]. }
  destruct D as [F|F]; [left; split; [exact F|exact (C34_parameters_survive_partial r F)]|right; split; [exact F|]].
  unfold dispatch. destruct r; cbn [job_of fst snd fits] in *; try (destruct (F I)).
  - destruct paths as [|p ps]; [reflexivity|]. exfalso. apply F. discriminate.
  - change (new_job_handler "RemoveSource" [id; source; print_int release]) with (match parse_int32 (print_int release) with Ok rel => Ok (HRemoveSource id source rel) | _ => Err end).
    rewrite parse_print_int. destruct (int32 release) eqn:E; [apply int32_iff in E; contradiction|reflexivity].
  - change (new_job_handler "CopySource" [id; target; source; print_int release; print_bool skip_index])
         with (match parse_int32 (print_int release) with Ok rel => match parse_bool (print_bool skip_index) with Ok si => Ok (HCopySource id target source rel si) | _ => Err end | _ => Err end).
    rewrite parse_print_int. destruct (int32 release) eqn:E; [apply int32_iff in E; contradiction|reflexivity].
  - change (new_job_handler "TrimPackages" [id; print_int max_keep]) with (match parse_int32 (print_int max_keep) with Ok k => Ok (HTrimPackages id k) | _ => Err end).
    rewrite parse_print_int. destruct (int32 max_keep) eqn:E; [apply int32_iff in E; contradiction|reflexivity].
Qed.
Print Assumptions C34_exact.
(** A release number beyond 32 bits is accepted as a request and then refused. *)
Theorem C34_large_numbers_refuted :
  exists r, dispatch (job_of r) = Err /\ (exists n, r = ReqRemoveSource "a" "b" n /\ (0 < n < 2 ^ 63)%Z).
Proof. exists (ReqRemoveSource "a" "b" 2147483648). split; [vm_compute; reflexivity|]. eexists. split; [reflexivity|]. split; reflexivity. Qed.
Print Assumptions C34_large_numbers_refuted.
(** ... and through the queue: whatever happened to the daemon in between, when a
    worker gets the job of a request it has the parameters of that request. *)
Theorem C34_through_the_queue :
  forall kinds h i q k j, bounded h ->
    let y := run kinds h in
    nth_error (y_workers y) i = Some (Worker q (Some (k, j))) ->
    In (q, j_type j, j_params j) (pushes true h).
Proof.
  intros kinds h i q k j B y Hi. pose proof (run_inv kinds h B) as I. fold y in I.
  destruct (held_stored _ y I _ _ _ _ Hi) as [S _]. destruct (stored_pending _ y I _ _ S) as (a & Ha & Ea).
  unfold pending_in in Ha. apply filter_In in Ha as [Ha _]. apply in_accepted in Ha.
  rewrite <- (accepted_pushes kinds h B). fold y. apply in_map_iff. exists (q, a). split; [|exact Ha].
  unfold as_push. cbn [fst snd]. unfold ident in Ea. congruence.
Qed.
Print Assumptions C34_through_the_queue.
Theorem C34_demo :
  fits (ReqCopySource "unstable" "stable" "nano" (-1) true) /\
  job_of (ReqCopySource "unstable" "stable" "nano" (-1) true) = (QSync, "CopySource", ["unstable"; "stable"; "nano"; "-1"; "true"]) /\
  job_of (ReqTrimPackages "stable" 1024) = (QSync, "TrimPackages", ["stable"; "1024"]).
Proof. split; [cbn; lia|]. split; vm_compute; reflexivity. Qed.

(** ** C35 *)
(** False: the jobs that DeltaRepo queues are of a type the dispatcher does not
    know, and an import of no packages is queued and then refused. *)
Theorem C35_queued_jobs_run_refuted :
  (forall repo name, dispatch (delta_job repo name) = Err) /\
  (forall repo name, dispatch (delta_index_job repo name) = Err) /\
  (forall repo, dispatch (job_of (ReqImport repo [])) = Err).
Proof. repeat split. Qed.
Print Assumptions C35_queued_jobs_run_refuted.
(** So a delta request on any repository with at least one package queues jobs
    all of which fail. *)
Theorem C35_delta_request_never_works :
  forall s repo, exists names, result_of (get_package_names repo s) = Ok names /\
    (mlist (d_ents (st_db s) repo) <> [] -> delta_pushes repo names <> []) /\
    forall e, In e (delta_pushes repo names) -> dispatch e = Err /\ fst (fst e) = QAsync /\ dispatch (job_of (ReqDelta repo)) = Ok (HDeltaRepo repo).
Proof.
  intros s repo. eexists. split; [reflexivity|]. split.
  - intros H. unfold delta_pushes. cbn. destruct (mlist (d_ents (st_db s) repo)); [destruct (H eq_refl)|discriminate].
  - intros e He. unfold delta_pushes in He. apply in_map_iff in He as (n & <- & _). repeat split.
Qed.
(** Everything else that is queued is accepted: the only jobs refused are those
    of requests that do not fit and delta jobs. *)
Theorem C35_exact_partial :
  forall r, fits r <-> exists h, dispatch (job_of r) = Ok h.
Proof.
  intros r. split.
  - intros F. destruct (C34_parameters_survive_partial r F) as (h & E & _). eauto.
  - intros [h E]. destruct (C34_exact r) as [[F _]|[_ E']]; [exact F|congruence].
Qed.
Print Assumptions C35_exact_partial.

(** ** C36 *)
Definition dispatchable (j : job) : Prop := exists h, new_job_handler (j_type j) (j_params j) = Ok h.
Lemma clone_current_ok js : Forall dispatchable js ->
  exists l, clone_current js = Ok l /\ Forall2 (fun j d => exists h, new_job_handler (j_type j) (j_params j) = Ok h /\ d = describe h) js l.
Proof.
  induction js as [|j js IH]; intros F; [exists []; split; [reflexivity|constructor]|].
  inversion F as [|? ? [h Hh] F']; subst. destruct (IH F') as (l & E & G). exists (describe h :: l). cbn [clone_current]. rewrite Hh, E.
  split; [reflexivity|]. constructor; [exists h; auto|exact G].
Qed.
Lemma clone_current_err js : ~ Forall dispatchable js -> clone_current js = Err.
Proof.
  induction js as [|j js IH]; intros F; [destruct F; constructor|]. cbn [clone_current].
  destruct (new_job_handler (j_type j) (j_params j)) as [h| |] eqn:Hh; try reflexivity.
  rewrite IH; [reflexivity|]. intros G. apply F. constructor; [exists h; exact Hh|exact G].
Qed.
(** Status works exactly when every stored job can be dispatched; it then lists
    all of them, the sequential queue first, both in order, followed by the two
    histories. One job that cannot be dispatched makes the whole request fail. *)
Definition job_list (s : store) : list job := map snd (mlist (s_sync s)) ++ map snd (mlist (s_async s)).
Theorem C36_status_exact :
  forall s,
    (Forall dispatchable (job_list s) ->
       exists l, get_status s = Ok (Status l (past_jobs true s) (past_jobs false s)) /\
         Forall2 (fun j d => exists h, new_job_handler (j_type j) (j_params j) = Ok h /\ d = describe h) (job_list s) l) /\
    (~ Forall dispatchable (job_list s) -> get_status s = Err).
Proof.
  intros s. unfold job_list, get_status. split.
  - intros F. apply Forall_app in F as [F1 F2].
    destruct (clone_current_ok _ F1) as (l1 & -> & G1). destruct (clone_current_ok _ F2) as (l2 & -> & G2).
    exists (l1 ++ l2). split; [reflexivity|]. apply Forall2_app; assumption.
  - intros F. destruct (clone_current (map snd (mlist (s_sync s)))) as [l1| |] eqn:E1; try reflexivity.
    destruct (clone_current (map snd (mlist (s_async s)))) as [l2| |] eqn:E2; try reflexivity. exfalso. apply F. apply Forall_app.
    assert (D : forall js l, clone_current js = Ok l -> Forall dispatchable js).
    { induction js as [|j js IH]; intros l E; [constructor|]. cbn [clone_current] in E.
      destruct (new_job_handler (j_type j) (j_params j)) as [h| |] eqn:Hh; try discriminate.
      destruct (clone_current js) as [r| |] eqn:Er; try discriminate. constructor; [exists h; exact Hh|]. exact (IH _ eq_refl). }
    split; eapply D; eassumption.
Qed.
Print Assumptions C36_status_exact.
(** False as stated: one delta request on a repository with a package, and status
    fails until the delta job has been worked off; an import without packages does
    the same. *)
Theorem C36_status_refuted :
  (exists h, let y := run (pool_of 2 8) h in y_up y = true /\ get_status (y_store y) = Err /\
     h = [Do (APush QSync "DeltaRepo" ["a"]); Do (AClaim 0); Do (APush QAsync "Delta" ["a"; "nano"])]) /\
  (exists h, let y := run (pool_of 2 8) h in y_up y = true /\ get_status (y_store y) = Err /\
     h = [Do (APush QSync "BulkAdd" ["a"])]).
Proof.
  split.
  - exists [Do (APush QSync "DeltaRepo" ["a"]); Do (AClaim 0); Do (APush QAsync "Delta" ["a"; "nano"])]. vm_compute. repeat split.
  - exists [Do (APush QSync "BulkAdd" ["a"])]. vm_compute. repeat split.
Qed.
Print Assumptions C36_status_refuted.
(** When everything pushed can be dispatched (C35: all requests that fit), status
    works at every moment, whatever crashes and restarts, and lists exactly the
    jobs accepted and not retired. *)
Theorem C36_status_partial :
  forall kinds h, bounded h ->
    (forall e, In e (pushes true h) -> exists hd, dispatch e = Ok hd) ->
    let y := run kinds h in
    let jobs := pending_in QSync (y_accepted y) (y_retired y) ++ pending_in QAsync (y_accepted y) (y_retired y) in
    exists l, get_status (y_store y) = Ok (Status l (past_jobs true (y_store y)) (past_jobs false (y_store y))) /\
      Forall2 (fun j d => exists hd, dispatch (QSync, j_type j, j_params j) = Ok hd /\ d = describe hd) jobs l.
Proof.
  intros kinds h B D y jobs.
  assert (E : map ident (job_list (y_store y)) = map ident jobs).
  { unfold job_list, jobs. rewrite !map_app. f_equal; [exact (proj1 (C30_no_job_is_lost kinds h QSync B))|exact (proj1 (C30_no_job_is_lost kinds h QAsync B))]. }
  assert (F : Forall dispatchable (job_list (y_store y))).
  { apply Forall_forall. intros j Hj. apply (in_map ident) in Hj. rewrite E in Hj. apply in_map_iff in Hj as (a & Ea & Ha).
    assert (P : exists q, In (q, j_type a, j_params a) (pushes true h)).
    { unfold jobs in Ha. rewrite <- (accepted_pushes kinds h B). fold y.
      apply in_app_iff in Ha as [Ha|Ha]; unfold pending_in in Ha; apply filter_In in Ha as [Ha _]; apply in_accepted in Ha;
        eexists; apply in_map_iff; (eexists; split; [|exact Ha]); reflexivity. }
    destruct P as [q P]. destruct (D _ P) as [hd Hd]. exists hd. unfold dispatch in Hd. cbn [fst snd] in Hd. unfold ident in Ea. injection Ea as _ E1 E2. rewrite <- E1, <- E2. exact Hd. }
  destruct (proj1 (C36_status_exact (y_store y)) F) as (l & S & G). exists l. split; [exact S|].
  clear -E G. revert E G. generalize (job_list (y_store y)), jobs. intros js js' E G. revert js' E. induction G as [|j d js l (hd & H1 & H2) G IH]; intros [|j' js'] E; try discriminate; [constructor|].
  cbn [map] in E. injection E as E1 E2 E3 E4. constructor; [|exact (IH _ E4)]. exists hd. split; [|exact H2]. unfold dispatch. cbn [fst snd]. rewrite <- E2, <- E3. exact H1.
Qed.
Print Assumptions C36_status_partial.
Theorem C36_demo :
  get_status (y_store (run demo_kinds demo_crash)) = Ok (Status ["Create repository 'a'"; "Index repository 'a'"; "Add 1 packages to repository 'a'"] [] []).
Proof. vm_compute. reflexivity. Qed.
