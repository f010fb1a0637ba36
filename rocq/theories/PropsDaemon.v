(** * C68-C71: the daemon as a whole *)
From Verif Require Import Model Spec Demo DemoOk DbInv DbOps Wp FsInv Ops RepoOps ApiOps History PoolFacts PropsPool PropsOps.
From Verif Require Import Paths PathFacts Reading Transit DeltaJobFacts TransitFacts PropsTransit.
From Verif Require Import Base LibDb Jobs JobSpec JobFacts JobFacts2 PropsJobs Dispatch PropsDispatch Daemon DaemonSpec DaemonFacts.
From Verif Require Import Model Spec FsInv.
Open Scope string_scope. Open Scope list_scope.

(** ** C68 *)
Definition of_job (n : nat) (l : list attempt) : list attempt := filter (fun a => Nat.eqb (at_job a) n) l.
Lemma of_job_in n l a : In a (of_job n l) <-> In a l /\ at_job a = n.
Proof. unfold of_job. rewrite filter_In, Nat.eqb_eq. reflexivity. Qed.
Lemma split_least n l : StronglySorted le (map at_job l) -> (forall a, In a l -> n <= at_job a) ->
  l = of_job n l ++ filter (fun a => negb (Nat.eqb (at_job a) n)) l.
Proof.
  induction l as [|a l IH]; intros S H; [reflexivity|]. cbn [map] in S. apply StronglySorted_inv in S as [S F].
  unfold of_job in *. cbn [filter]. destruct (Nat.eqb_spec (at_job a) n) as [Ea|Ea]; cbn [negb].
  - cbn [app]. f_equal. apply IH; [exact S|]. intros x Hx. apply H. right. exact Hx.
  - assert (X : forall x, In x l -> at_job x <> n).
    { intros x Hx Ex. rewrite Forall_forall in F. specialize (F _ (in_map at_job _ _ Hx)). specialize (H a (or_introl eq_refl)). lia. }
    assert (Z1 : filter (fun x => Nat.eqb (at_job x) n) l = []).
    { clear -X. induction l as [|x l IH]; [reflexivity|]. cbn [filter]. rewrite (proj2 (Nat.eqb_neq _ _) (X x (or_introl eq_refl))). apply IH. intros y Hy. apply X. right. exact Hy. }
    assert (Z2 : filter (fun x => negb (Nat.eqb (at_job x) n)) l = l).
    { clear -X. induction l as [|x l IH]; [reflexivity|]. cbn [filter]. rewrite (proj2 (Nat.eqb_neq _ _) (X x (or_introl eq_refl))). cbn [negb]. f_equal. apply IH. intros y Hy. apply X. right. exact Hy. }
    rewrite Z1, Z2. reflexivity.
Qed.
Lemma sorted_filter_map (p : attempt -> bool) l : StronglySorted le (map at_job l) -> StronglySorted le (map at_job (filter p l)).
Proof.
  induction l as [|a l IH]; intros S; [exact S|]. cbn [map] in S. apply StronglySorted_inv in S as [S F]. cbn [filter]. destruct (p a); [|auto]. cbn [map]. constructor; [auto|].
  rewrite Forall_forall in *. intros n Hn. apply in_map_iff in Hn as (x & <- & Hx). apply filter_In in Hx as [Hx _]. apply F, in_map, Hx.
Qed.
Lemma regroup ns : StronglySorted lt ns -> forall l, StronglySorted le (map at_job l) -> (forall a, In a l -> In (at_job a) ns) ->
  l = List.concat (map (fun n => of_job n l) ns).
Proof.
  induction 1 as [|n ns S IH F]; intros l Sl H.
  - destruct l as [|a l]; [reflexivity|destruct (H a (or_introl eq_refl))].
  - rewrite Forall_forall in F. cbn [map List.concat].
    rewrite (split_least n l Sl) at 1.
    + f_equal. rewrite (IH (filter (fun a => negb (Nat.eqb (at_job a) n)) l)) at 1.
      * f_equal. apply map_ext_in. intros m Hm. unfold of_job. specialize (F m Hm). clear -F. induction l as [|a l IH]; [reflexivity|]. cbn [filter].
        destruct (Nat.eqb_spec (at_job a) n) as [E1|E1]; cbn [negb filter]; destruct (Nat.eqb_spec (at_job a) m) as [E2|E2]; try congruence; try lia.
      * apply sorted_filter_map, Sl.
      * intros a Ha. apply filter_In in Ha as [Ha N]. apply negb_true_iff, Nat.eqb_neq in N. destruct (H a Ha) as [X|X]; [congruence|exact X].
    + intros a Ha. destruct (H a Ha) as [X|X]; [lia|]. specialize (F _ X). lia.
Qed.
Lemma finished_group n l : finished n l -> worked_off (of_job n l).
Proof.
  intros (pre & a & post & -> & Ea & C & N). exists (of_job n pre), a. split; [|exact C]. unfold of_job. rewrite filter_app. cbn [filter]. rewrite (proj2 (Nat.eqb_eq _ _) Ea). f_equal. f_equal.
  clear -N. induction post as [|x post IH]; [reflexivity|]. cbn [filter map] in *. rewrite (proj2 (Nat.eqb_neq _ _)); [apply IH; intros X; apply N; right; exact X|]. intros X. apply N. left. exact X.
Qed.

(** The repositories are what the recorded attempts and the outside world made of
    them; the attempts are those at the requests, in the order in which these were
    accepted: each attempt asks exactly for what its request asked; requests that do
    not fit are never attempted; no attempt at a request is made before the last
    attempt at every earlier one ran to its end; and a request whose last attempt did
    not run to its end is still in the queue. Without a crash there is at most one
    attempt each. *)
Theorem C68_requests_take_effect_in_order :
  forall E T B njobs ncpu h, short h ->
    let d := drun E T B (pool_of njobs ncpu) h in
    let rs := requests E T B (pool_of njobs ncpu) h in
    dm_core d = replay E T B (dm_log d) /\
    exists groups, List.length groups = List.length rs /\ attempts (dm_log d) = List.concat groups /\
      (forall k g r, nth_error groups k = Some g -> nth_error rs k = Some r ->
         Forall (fun a => at_todo a = meaning r) g /\ (~ fits r -> g = []) /\
         (fits r -> worked_off g \/ exists j, In j (stored QSync (dm_sys d)) /\ (QSync, j_type j, j_params j) = job_of r)) /\
      (forall k k' g g' r, k < k' -> nth_error groups k = Some g -> nth_error groups k' = Some g' -> nth_error rs k = Some r -> fits r ->
         g' <> [] -> worked_off g) /\
      (steady (dm_log d) -> forall g, In g groups -> List.length g <= 1).
Proof.
  intros E T B njobs ncpu h Sh d rs. split; [apply core_run|].
  pose proof (DI_run E T B njobs ncpu h Sh) as I. fold d rs in I.
  set (S := accepted_in QSync (y_accepted (dm_sys d))).
  assert (Srt : StronglySorted lt (map j_no S)).
  { pose proof (iv_nos _ _ _ _ _ _ (run_inv (pool_of njobs ncpu) (dm_jobs d) (di_bound _ _ _ _ I))) as N. rewrite <- (di_run _ _ _ _ I) in N.
    pose proof (pending_sorted QSync (y_accepted (dm_sys d)) [] 0 N) as P. unfold pending_in in P. rewrite filter_all in P; [exact P|]. intros x _. reflexivity. }
  pose proof (di_sync _ _ _ _ I) as Sy. fold S in Sy.
  assert (Len : List.length S = List.length rs) by (rewrite <- (map_length (fun j => (QSync, j_type j, j_params j)) S), Sy; apply map_length).
  set (A := attempts (dm_log d)).
  exists (map (fun j => of_job (j_no j) A) S). split; [rewrite map_length; exact Len|]. split.
  { rewrite <- (map_map j_no (fun n => of_job n A)). apply regroup; [exact Srt|exact (di_sorted _ _ _ _ I)|].
    intros a Ha. destruct (di_att _ _ _ _ I a Ha) as (j & hd & Hj & Ej & _). rewrite <- Ej. apply in_map. apply in_accepted. exact Hj. }
  assert (Nth : forall k g r, nth_error (map (fun j => of_job (j_no j) A) S) k = Some g -> nth_error rs k = Some r ->
     exists j, nth_error S k = Some j /\ g = of_job (j_no j) A /\ (QSync, j_type j, j_params j) = job_of r /\ handler_of j = dispatch (job_of r)).
  { intros k g r Hg Hr. rewrite nth_error_map in Hg. destruct (nth_error S k) as [j|] eqn:Hj; [|discriminate]. injection Hg as <-. exists j. split; [reflexivity|]. split; [reflexivity|].
    assert (Jr : (QSync, j_type j, j_params j) = job_of r).
    { apply (f_equal (fun l => nth_error l k)) in Sy. rewrite !nth_error_map, Hj, Hr in Sy. cbn in Sy. congruence. }
    split; [exact Jr|]. unfold dispatch. rewrite <- Jr. reflexivity. }
  assert (InA : forall k j, nth_error S k = Some j -> In (QSync, j) (y_accepted (dm_sys d))).
  { intros k j Hj. apply nth_error_In in Hj. apply in_accepted in Hj. exact Hj. }
  assert (Fin : forall k j r, nth_error S k = Some j -> handler_of j = dispatch (job_of r) -> fits r -> In (j_no j) (y_retired (dm_sys d)) -> worked_off (of_job (j_no j) A)).
  { intros k j r Hj Hd F R. apply finished_group. destruct (C34_parameters_survive_partial r F) as (hd & Eh & _). apply (di_done _ _ _ _ I j hd); [apply (InA k), Hj|congruence|exact R]. }
  split; [|split].
  - intros k g r Hg Hr. destruct (Nth k g r Hg Hr) as (j & Hj & -> & Jr & Hd). split; [|split].
    + apply Forall_forall. intros a Ha. apply of_job_in in Ha as [Ha Ea]. destruct (di_att _ _ _ _ I a Ha) as (j' & hd & Hj' & Ej' & Hh & <-).
      assert (j' = j).
      { pose proof (InA _ _ Hj) as Hi. rewrite (di_run _ _ _ _ I) in Hi, Hj'. eapply (accepted_unique _ _ (di_bound _ _ _ _ I)); [exact Hj'|exact Hi|congruence]. }
      subst j'. destruct (C34_exact r) as [(F & h0 & E1 & E2)|(F & E1)]; congruence.
    + intros F. destruct (of_job (j_no j) A) as [|a l] eqn:X; [reflexivity|exfalso]. assert (Ha : In a (of_job (j_no j) A)) by (rewrite X; left; reflexivity).
      apply of_job_in in Ha as [Ha Ea]. destruct (di_att _ _ _ _ I a Ha) as (j' & hd & Hj' & Ej' & Hh & _).
      assert (j' = j).
      { pose proof (InA _ _ Hj) as Hi. rewrite (di_run _ _ _ _ I) in Hi, Hj'. eapply (accepted_unique _ _ (di_bound _ _ _ _ I)); [exact Hj'|exact Hi|congruence]. }
      subst j'. destruct (C34_exact r) as [(F' & _)|(_ & E1)]; [contradiction|congruence].
    + intros F. pose proof (C33_queued_or_finished (pool_of njobs ncpu) (dm_jobs d) QSync j (di_bound _ _ _ _ I)) as Q. cbv zeta in Q. rewrite <- (di_run _ _ _ _ I) in Q.
      destruct (Q (InA _ _ Hj)) as [X|X].
      * right. apply in_map_iff in X as (j' & Ej & Hj'). exists j'. split; [exact Hj'|]. rewrite <- Jr. unfold ident in Ej. congruence.
      * left. exact (Fin k j r Hj Hd F X).
  - intros k k' g g' r L Hg Hg' Hr F Ne. destruct (Nth k g r Hg Hr) as (j & Hj & -> & Jr & Hd). rewrite nth_error_map in Hg'. destruct (nth_error S k') as [j'|] eqn:Hj'; [|discriminate]. injection Hg' as <-.
    destruct (of_job (j_no j') A) as [|a l] eqn:X; [congruence|]. assert (Ha : In a (of_job (j_no j') A)) by (rewrite X; left; reflexivity). apply of_job_in in Ha as [Ha Ea].
    apply (Fin k j r Hj Hd F). apply (di_before _ _ _ _ I a j Ha (InA _ _ Hj)). rewrite Ea.
    assert (Mono : forall k1 k2 n1 n2, k1 < k2 -> nth_error (map j_no S) k1 = Some n1 -> nth_error (map j_no S) k2 = Some n2 -> n1 < n2).
    { clear -Srt. induction Srt as [|n ns _ IH Fa]; intros [|k1] [|k2] n1 n2 L H1 H2; cbn [nth_error] in *; try discriminate; try lia.
      - injection H1 as <-. rewrite Forall_forall in Fa. apply Fa. eapply nth_error_In. exact H2.
      - eapply (IH k1 k2); eauto. lia. }
    apply (Mono k k'); [exact L|rewrite nth_error_map, Hj; reflexivity|rewrite nth_error_map, Hj'; reflexivity].
  - intros St g Hg. apply in_map_iff in Hg as (j & <- & _). destruct (di_calm _ _ _ _ I St) as [_ N]. fold A in N. clear -N. induction A as [|a A IH]; [cbn; lia|].
    cbn [map] in N. apply NoDup_cons_iff in N as [X N]. unfold of_job in *. cbn [filter]. destruct (Nat.eqb_spec (at_job a) (j_no j)) as [Ea|Ea]; [|auto]. cbn [List.length].
    assert (Z : filter (fun x => Nat.eqb (at_job x) (j_no j)) A = []); [|rewrite Z; cbn; lia].
    destruct (filter (fun x => Nat.eqb (at_job x) (j_no j)) A) as [|b l] eqn:Fb; [reflexivity|exfalso]. assert (Hb : In b (filter (fun x => Nat.eqb (at_job x) (j_no j)) A)) by (rewrite Fb; left; reflexivity).
    apply filter_In in Hb as [Hb Eb]. apply Nat.eqb_eq in Eb. apply X. rewrite Ea, <- Eb. apply in_map, Hb.
Qed.
Print Assumptions C68_requests_take_effect_in_order.

(** ** C69 *)
Section Good.
Variable E : env.
Variable T : string -> option tram.
Variable B : list string.
Variable cat : string -> meta.
Hypothesis Hc : good_catalog cat.
Hypothesis HE : good_env E.
Hypothesis HT : good_manifests T.

(** payload files are below the incoming directory, and no deltas *)
Lemma base_suffix p : has_suffix ".eopkg" p = true -> ~ In ".." (split_slash p) -> last (filter keepc (split_slash p)) "" = base p.
Proof.
  intros H U. apply has_suffix_spec in H as (a & ->). destruct (split_suffix ".eopkg" eq_refl a) as (pre & x & S).
  assert (K : keepc (x ++ ".eopkg") = true).
  { unfold keepc. destruct (seqb_spec (x ++ ".eopkg")%string "") as [X|_]; [destruct x; discriminate|].
    destruct (seqb_spec (x ++ ".eopkg")%string ".") as [X|_]; [|reflexivity]. destruct x as [|c [|]]; discriminate. }
  unfold base. rewrite S, filter_app, rev_app_distr. cbn [filter rev app]. rewrite K, last_last.
  destruct (seqb_spec (a ++ ".eopkg")%string "") as [X|_]; [destruct a; discriminate|]. cbn [strip_trailing].
  destruct (seqb_spec (x ++ ".eopkg")%string "") as [X|_]; [destruct x; discriminate|reflexivity].
Qed.
Lemma good_payload s path name t : in_incoming B path name -> acceptable E T B s path t -> no_upward t /\ packages_only B path t.
Proof.
  intros In_ A. destruct (ac_manifest _ _ _ _ _ _ A) as (c & raw & _ & Tc & _ & _ & F).
  assert (K : forall x, In x (tm_files t) -> ~ In ".." (split_slash (tf_path x)) /\ is_delta_id (base (tf_path x)) = false).
  { intros x Hx. assert (X : exists y, In y (tm_files raw) /\ trimmed (tf_path y) (tf_path x)).
    { clear -F Hx. induction F as [|a b l l' [P _] _ IH]; [destruct Hx|]. destruct Hx as [<-|Hx]; [exists b; split; [left; reflexivity|exact P]|].
      destruct (IH Hx) as (y & Hy & Ey). exists y. split; [right; exact Hy|exact Ey]. }
    destruct X as (y & Hy & X). exact (HT c raw y _ Tc Hy X). }
  split; [intros x Hx; apply K, Hx|]. intros l Hl. apply in_map_iff in Hl as (x & <- & Hx). destruct (K x Hx) as [U D]. unfold payload_file.
  destruct (in_incoming_clean _ _ _ In_) as [C Dn]. destruct In_ as (_ & Fn). rewrite C, Dn.
  assert (F' : Forall normal (B ++ ["incoming"])).
  { change (B ++ ["incoming"; name]) with (B ++ (["incoming"] ++ [name])) in Fn. rewrite app_assoc in Fn. apply Forall_app in Fn. apply Fn. }
  rewrite join_inside; [|destruct B; discriminate|exact F'|exact U].
  destruct (ac_files _ _ _ _ _ _ A x Hx) as (_ & _ & S & _). pose proof (base_suffix _ S U) as Bs. destruct (payload_comps _ S U) as (pre & y & Ef & Fp). rewrite Ef in *.
  assert (R : (B ++ ["incoming"]) ++ pre ++ [(y ++ ".eopkg")%string] = B ++ "incoming" :: (pre ++ [(y ++ ".eopkg")%string])) by (rewrite <- app_assoc; reflexivity).
  rewrite R. rewrite locate_incoming.
  - unfold outside. cbn [l_id]. rewrite last_last in Bs. change (B ++ "incoming" :: pre ++ [(y ++ ".eopkg")%string]) with (B ++ ("incoming" :: pre) ++ [(y ++ ".eopkg")%string]).
    rewrite app_assoc, last_last, Bs. exact D.
  - rewrite <- R. apply Forall_app. split; assumption.
Qed.
(** what a good request asks for *)
Definition good_todo (t : todo) : Prop :=
  match t with
  | Run p => good_op p /\ delta_op p = false
  | Upload path => exists name, in_incoming B path name
  | PushDeltas _ => True
  end.
Lemma good_meaning r : good_request B r -> good_todo (meaning r).
Proof.
  destruct r; cbn [good_request meaning good_todo good_op delta_op]; intros G; try (split; [exact Logic.I|reflexivity]); try exact Logic.I; try exact G.
  split; [|reflexivity]. apply Forall_forall. intros l Hl. apply in_map_iff in Hl as (p & <- & Hp). split; [reflexivity|]. exact (G p Hp).
Qed.
Definition good_entry (e : lentry) : Prop :=
  match e with
  | LAttempt _ o (PushDeltas _) _ => True
  | LAttempt _ o _ _ => good_oracle o
  | LWorld ev => good_event E cat ev /\ outside_event ev = true
  | _ => True
  end.

Lemma taken_good d e : good_devent E cat B e -> Forall (good_request B) (taken d e).
Proof.
  intros G. unfold taken. destruct (y_up (dm_sys d)); [|constructor]. destruct e as [r|i|i o|i|i|b|e n|i o n| |n|ev]; try constructor; try exact G; try constructor.
  destruct e; try constructor. cbn in G. destruct (Nat.leb 1 n); repeat constructor; exact G.
Qed.
Lemma requests_good kinds h : Forall (good_devent E cat B) h -> Forall (good_request B) (requests E T B kinds h).
Proof.
  unfold requests. generalize (dboot kinds). induction h as [|e h IH]; intros d F; cbn [requests_from]; [constructor|].
  inversion F as [|? ? G F']; subst. apply Forall_app. split; [apply taken_good, G|apply IH, F'].
Qed.
Lemma log_step d e : good_devent E cat B e -> exists l, dm_log (dstep E T B d e) = dm_log d ++ l /\ Forall good_entry l.
Proof.
  intros G. assert (Z : exists l, dm_log d = dm_log d ++ l /\ Forall good_entry l) by (exists []; rewrite app_nil_r; auto).
  assert (O : forall x, good_entry x -> exists l, dm_log d ++ [x] = dm_log d ++ l /\ Forall good_entry l) by (intros x X; exists [x]; auto).
  destruct e as [r|i|i o|i|i|b|e n|i o n| |n|ev]; cbn [dstep]; try exact Z; try (destruct (negb (y_up (dm_sys d))); [exact Z|]).
  - destruct (act_of d (DRequest r)); exact Z.
  - exact Z.
  - destruct (held_job d i); [|exact Z]. destruct (dm_phase d i); try exact Z. unfold begin_job. cbn in G.
    destruct (new_job_handler _ _) as [h| |]; [|exact Z|exact Z]. cbv zeta. destruct (result_of _); [destruct (execute h)|..]; cbn [dm_log]; apply O; cbn; auto; destruct (execute h); auto.
  - destruct (act_of d (DQueue i)); [exact Z|]. destruct (held_job d i) as [j|]; [|exact Z]. destruct (dm_phase d i) as [|[|x l] desc|]; try exact Z.
    destruct (new_job_handler _ _) as [h| |]; try exact Z. destruct (execute h); try exact Z. cbn [dm_log]. apply O. exact Logic.I.
  - destruct (act_of d (DFinish i)); exact Z.
  - exact Z.
  - apply O. exact Logic.I.
  - destruct (held_job d i) as [j|]; [|apply O; exact Logic.I]. destruct (dm_phase d i); try (apply O; exact Logic.I).
    destruct (new_job_handler _ _) as [h| |]; try (apply O; exact Logic.I). apply O. cbn in *. destruct (execute h); auto.
  - destruct (outside_event ev) eqn:Oe; [|exact Z]. apply O. split; [exact G|exact Oe].
Qed.
Lemma log_good kinds h : Forall (good_devent E cat B) h -> Forall good_entry (dm_log (drun E T B kinds h)).
Proof.
  unfold drun. assert (G : forall h d, Forall good_entry (dm_log d) -> Forall (good_devent E cat B) h -> Forall good_entry (dm_log (fold_left (dstep E T B) h d))).
  { clear h. induction h as [|e h IH]; intros d L F; [exact L|]. inversion F as [|? ? G F']; subst. cbn [fold_left]. apply IH; [|exact F'].
    destruct (log_step d e G) as (l & -> & X). apply Forall_app. auto. }
  apply G. constructor.
Qed.
Lemma held_todo njobs ncpu h j hd : short h -> Forall (good_devent E cat B) h ->
  let d := drun E T B (pool_of njobs ncpu) h in
  In (QSync, j) (y_accepted (dm_sys d)) -> handler_of j = Ok hd -> good_todo (execute hd).
Proof.
  intros Sh F d Hj Hh. pose proof (DI_run E T B njobs ncpu h Sh) as I. fold d in I.
  assert (X : In (QSync, j_type j, j_params j) (map job_of (requests E T B (pool_of njobs ncpu) h))).
  { rewrite <- (di_sync _ _ _ _ I). apply (in_map (fun j => (QSync, j_type j, j_params j))). apply in_accepted. exact Hj. }
  apply in_map_iff in X as (r & Er & Hr). pose proof (requests_good (pool_of njobs ncpu) h F) as G. rewrite Forall_forall in G. specialize (G r Hr).
  apply good_meaning in G. assert (D : dispatch (job_of r) = Ok hd) by (unfold dispatch; rewrite Er; exact Hh).
  destruct (C34_exact r) as [(_ & h0 & E1 & E2)|(_ & E1)]; congruence.
Qed.

(** *** Uploads and look-ups as histories *)
Definition world (s s' : state) : Prop :=
  exists h, good_history E cat h /\ crash_free h /\ delta_free h /\ fold_left (ev_step E) h s = s'.
Lemma world_refl s : world s s.
Proof. exists []. repeat split; constructor. Qed.
Lemma world_trans s s1 s2 : world s s1 -> world s1 s2 -> world s s2.
Proof. intros (h & A & A1 & A2 & <-) (h' & D & D1 & D2 & <-). exists (h ++ h'). repeat (split; [apply Forall_app; auto|]). apply fold_left_app. Qed.
Lemma world_ev s e : good_event E cat e -> match e with EvCrash _ _ _ => False | _ => True end -> match e with EvOp _ p | EvCrash _ p _ => delta_op p = false | _ => True end -> world s (ev_step E s e).
Proof. intros G C D. exists [e]. repeat split; repeat constructor; assumption. Qed.
Lemma cleanup_world ls : (forall l, In l ls -> upload_tree (l_tree l) = true) -> forall s, world s (final_of (forM ls remove_if_there s)) /\ result_of (forM ls remove_if_there s) = Ok tt.
Proof.
  induction ls as [|l ls IH]; intros U s; cbn [forM]; [split; [apply world_refl|reflexivity]|].
  assert (X : exists t s1, remove_if_there l s = (t, s1, Ok tt) /\ world s s1).
  { unfold remove_if_there, remove_file, bind, gets. destruct (f_name (st_fs s) l) eqn:G; [|exists [], s; split; [reflexivity|apply world_refl]].
    eexists. eexists. split; [reflexivity|].
    assert (Ev : ev_step E s (EvDel l) = on_fs (fun f => fs_set_name f l None) s).
    { specialize (U l (or_introl eq_refl)). cbn [ev_step]. destruct (l_tree l); try discriminate; reflexivity. }
    rewrite <- Ev. apply world_ev; exact Logic.I. }
  destruct X as (t & s1 & R & W). unfold bind. rewrite R. destruct (IH (fun x Hx => U x (or_intror Hx)) s1) as [W' R'].
  destruct (forM ls remove_if_there s1) as [[t2 s2] r2]. cbn in *. subst r2. split; [eapply world_trans; eauto|reflexivity].
Qed.
Lemma world_op s o p : reachable E cat s -> good_oracle o -> good_op p -> delta_op p = false -> world s (after E o p s).
Proof.
  intros R Ho Hp Hd. pose proof (C59_no_panic E cat s o p Hc HE R Ho Hp) as N.
  assert (X : ev_step E s (EvOp o p) = after E o p s) by (cbn [ev_step]; unfold outcome in N; destruct (result_of (run_op E o p s)); [reflexivity|reflexivity|congruence]).
  rewrite <- X. apply world_ev; [split; assumption|exact Logic.I|exact Hd].
Qed.
Lemma upload_world s o path name : reachable E cat s -> good_oracle o -> in_incoming B path name ->
  world s (upload_after E T B o path s).
Proof.
  intros R Ho In_. destruct (acceptable_dec E T B cat s o path Hc HE R) as [(t & A)|N].
  - destruct (good_payload s path name t In_ A) as [U Pk].
    assert (Gp : good_op (upload_op B path t)).
    { cbn. apply Forall_forall. intros l Hl. split; [eapply inside_upload, payload_inside; eauto|apply Pk, Hl]. }
    pose proof (world_op s o (upload_op B path t) R Ho Gp eq_refl) as W. unfold upload_after. rewrite (accepted_job E T B o path s t A).
    unfold after in W. cbn [upload_op run_op] in W. unfold bind in *. destruct (api_add_packages E o (tm_target t) (payload_files B path t) true s) as [[t1 s1] [[]| |]]; cbn in W |- *; [|exact W|exact W].
    destruct (cleanup_world (payload_files B path t ++ [manifest_file B path])) with (s := s1) as [W' _].
    + intros l Hl. apply in_app_iff in Hl as [Hl|[<-|[]]]; [eapply inside_upload, payload_inside; eauto|eapply inside_upload, manifest_inside; eauto].
    + destruct (forM (payload_files B path t ++ [manifest_file B path]) remove_if_there s1) as [[t2 s2] r2]. cbn in *. eapply world_trans; eauto.
  - destruct (C48_rejected_without_effect E T B cat s o path Hc HE R N) as (_ & -> & _). apply world_refl.
Qed.
Lemma touch_create s r : (st_cache s r || mhas (d_repos (st_db s)) r = true) ->
  trace_of (run_op E demo_oracle (OpCreate r) s) = trace_of (get_repo r s) /\ after E demo_oracle (OpCreate r) s = final_of (get_repo r s).
Proof.
  intros H. unfold after. cbn [run_op]. unfold api_create, create_repo, bind, gets. rewrite H.
  destruct (get_repo r s) as [[t s1] [[]| |]]; cbn; rewrite ?app_nil_r; auto.
Qed.
Lemma touch_missing s r : (st_cache s r || mhas (d_repos (st_db s)) r = false) -> get_repo r s = ([], s, Err).
Proof. intros H. apply orb_false_iff in H as [H1 H2]. unfold get_repo, bind, gets. rewrite H1, H2. reflexivity. Qed.
Lemma touch_world s r : reachable E cat s -> world s (final_of (get_repo r s)).
Proof.
  intros R. destruct (st_cache s r || mhas (d_repos (st_db s)) r) eqn:C.
  - destruct (touch_create s r C) as [_ <-]. apply world_op; [exact R|apply demo_oracle_good|exact Logic.I|reflexivity].
  - rewrite (touch_missing s r C). apply world_refl.
Qed.
Lemma reach_ev s e : good_event E cat e -> reachable E cat s -> reachable E cat (ev_step E s e).
Proof. intros G (h & Hh & ->). exists (h ++ [e]). split; [apply Forall_app; split; [exact Hh|repeat constructor; exact G]|]. unfold run_history. rewrite fold_left_app. reflexivity. Qed.
Lemma reach_world s s' : world s s' -> reachable E cat s -> reachable E cat s'.
Proof. intros (h' & A & _ & _ & <-) (h & Hh & ->). exists (h ++ h'). split; [apply Forall_app; auto|]. unfold run_history. rewrite fold_left_app. reflexivity. Qed.
Lemma free_world s s' : world s s' -> reachable_delta_free E cat s -> reachable_delta_free E cat s'.
Proof. intros (h' & A & A1 & A2 & <-) (h & Hh & C & D & ->). exists (h ++ h'). repeat (split; [apply Forall_app; auto|]). unfold run_history. rewrite fold_left_app. reflexivity. Qed.
Lemma reach_restart s : reachable E cat s -> reachable E cat (restart s).
Proof. apply (reach_ev s EvRestart). exact Logic.I. Qed.

(** *** One entry of the log *)
Definition ok_entry (e : lentry) : Prop :=
  good_entry e /\ match e with LAttempt _ _ t x => good_todo t /\ (forall p n, t = Run p -> removes_packages p = true -> x <> Died n) | _ => True end.
Lemma effect_reach s e : ok_entry e -> reachable E cat s -> reachable E cat (effect E T B s e).
Proof.
  intros (G & K) R. destruct e as [n o t x|r| |ev]; cbn [effect good_entry] in *.
  - destruct K as [Gt Nd]. destruct t as [p|r|path]; cbn in Gt.
    + destruct Gt as [Gp Gd]. destruct x as [ok|m|].
      * eapply reach_world; [apply world_op|]; eauto.
      * apply (reach_ev s (EvCrash o p m)); [|exact R]. split; [exact G|]. split; [exact Gp|]. destruct (removes_packages p) eqn:X; [destruct (Nd p m eq_refl X eq_refl)|reflexivity].
      * apply reach_restart. eapply reach_world; [apply world_op|]; eauto.
    + destruct x as [ok|m|].
      * exact R.
      * destruct (st_cache s r || mhas (d_repos (st_db s)) r) eqn:C.
        -- destruct (touch_create s r C) as [<- <-]. apply (reach_ev s (EvCrash demo_oracle (OpCreate r) m)); [|exact R]. split; [apply demo_oracle_good|]. split; [exact Logic.I|reflexivity].
        -- rewrite (touch_missing s r C). cbn. destruct m as [|[|m]]; apply reach_restart; exact R.
      * apply reach_restart, R.
    + destruct Gt as (name & In_).
      destruct (C48_upload_is_a_history E T B cat s o path name Hc HE G In_) as [W _].
      { intros t A. exact (good_payload s path name t In_ A). }
      destruct (W R) as (W1 & W2 & _). destruct x as [ok|m|].
      * exact W1.
      * destruct (nth_in_or_default m (s :: trace_of (transit_job E T B o path s)) (final_of (transit_job E T B o path s))) as [[<-|X]| ->].
        -- apply reach_restart, R.
        -- apply W2, X.
        -- apply reach_restart, W1.
      * apply reach_restart, W1.
  - eapply reach_world; [apply touch_world|]; eauto.
  - apply reach_restart, R.
  - apply reach_ev; [apply G|exact R].
Qed.
Lemma effect_free s e : ok_entry e -> match e with LAttempt _ _ _ x => exists ok, x = Completed ok | _ => True end ->
  reachable_delta_free E cat s -> reachable_delta_free E cat (effect E T B s e).
Proof.
  intros (G & K) Cp F. assert (R : reachable E cat s) by (destruct F as (h & A & _ & _ & D); exists h; auto).
  eapply free_world; [|exact F]. destruct e as [n o t x|r| |ev]; cbn [effect good_entry] in *.
  - destruct K as [Gt _]. destruct Cp as (ok & ->). destruct t as [p|r|path]; cbn in Gt.
    + destruct Gt. apply world_op; auto.
    + apply world_refl.
    + destruct Gt as (name & In_). eapply upload_world; eauto.
  - apply touch_world, R.
  - apply (world_ev s EvRestart); exact Logic.I.
  - destruct G as [G O]. apply world_ev; [exact G|destruct ev; try exact Logic.I; discriminate|destruct ev; try exact Logic.I; discriminate].
Qed.
Lemma init_free : reachable_delta_free E cat init.
Proof. exists []. repeat split; constructor. Qed.
Lemma in_attempts l n o t x : In (LAttempt n o t x) l -> In (Attempt n o t x) (attempts l).
Proof. intros H. apply in_flat_map. eexists. split; [exact H|]. left. reflexivity. Qed.

Lemma log_ok njobs ncpu h : short h -> Forall (good_devent E cat B) h ->
  let l := dm_log (drun E T B (pool_of njobs ncpu) h) in removals_complete l -> Forall ok_entry l.
Proof.
  intros Sh F l Rc. pose proof (log_good (pool_of njobs ncpu) h F) as G. fold l in G. rewrite Forall_forall in *. intros e He. split; [apply G, He|].
  destruct e as [n o t x| | |]; try exact Logic.I. apply in_attempts in He. pose proof (DI_run E T B njobs ncpu h Sh) as I. split.
  - destruct (di_att _ _ _ _ I _ He) as (j & hd & Hj & _ & Hh & Et). cbn [at_todo] in Et. subst t. eapply held_todo; [exact Sh|rewrite Forall_forall; exact F|exact Hj|exact Hh].
  - intros p m Et Rp. exact (Rc _ p m He Et Rp).
Qed.
Lemma core_reach njobs ncpu h : short h -> Forall (good_devent E cat B) h ->
  let d := drun E T B (pool_of njobs ncpu) h in removals_complete (dm_log d) -> reachable E cat (dm_core d).
Proof.
  intros Sh F d Rc. pose proof (log_ok njobs ncpu h Sh F Rc) as L. unfold d. rewrite core_run. unfold replay. fold d in L |- *.
  assert (R : reachable E cat init) by (exists []; split; [constructor|reflexivity]). revert R. generalize init. induction (dm_log d) as [|e l IH]; intros s R; [exact R|].
  inversion L; subst. cbn [fold_left]. apply IH; auto.
  - intros a p n Ha. apply Rc. cbn. apply in_app_iff. right. exact Ha.
  - apply effect_reach; assumption.
Qed.
Lemma core_free njobs ncpu h : short h -> Forall (good_devent E cat B) h ->
  let d := drun E T B (pool_of njobs ncpu) h in uninterrupted (dm_log d) -> reachable_delta_free E cat (dm_core d).
Proof.
  intros Sh F d Un. assert (Rc : removals_complete (dm_log d)) by (intros a p n Ha _ _ X; destruct (Un a Ha); congruence).
  pose proof (log_ok njobs ncpu h Sh F Rc) as L. unfold d. rewrite core_run. unfold replay. fold d in L |- *. clear Rc.
  pose proof init_free as R. revert R. generalize init. induction (dm_log d) as [|e l IH]; intros s R; [exact R|].
  inversion L; subst. cbn [fold_left]. apply IH; auto.
  - intros a Ha. apply Un. cbn. apply in_app_iff. right. exact Ha.
  - apply effect_free; auto. destruct e as [n o t x| | |]; try exact Logic.I. exact (Un (Attempt n o t x) (or_introl eq_refl)).
Qed.
Lemma no_panic_perform s o t : reachable E cat s -> good_oracle o -> good_todo t -> result_of (perform E T B o t s) <> Panic.
Proof.
  intros R Ho Gt. destruct t as [p|r|path].
  - destruct Gt as [Gp _]. exact (C59_no_panic E cat s o p Hc HE R Ho Gp).
  - apply (names_perform E T B o r s).
  - destruct Gt as (name & In_). destruct (C48_upload_is_a_history E T B cat s o path name Hc HE Ho In_) as [W _].
    { intros t A. exact (good_payload s path name t In_ A). }
    destruct (W R) as (_ & _ & N). unfold upload_result in N. cbn [perform]. unfold bind. destruct (transit_job E T B o path s) as [[t1 s1] [[]| |]]; cbn in *; congruence.
Qed.
Lemma no_panic njobs ncpu h : short h -> Forall (good_devent E cat B) h ->
  let d := drun E T B (pool_of njobs ncpu) h in removals_complete (dm_log d) -> forall a, In a (attempts (dm_log d)) -> at_end a <> Panicked.
Proof.
  induction h as [|e h IH] using rev_ind; intros Sh F d Rc a Ha; [destruct Ha|].
  apply Forall_app in F as [F Fe]. inversion Fe as [|? ? Ge _]; subst.
  assert (Sh' : short h) by (unfold short in *; rewrite app_length in Sh; lia).
  set (d0 := drun E T B (pool_of njobs ncpu) h) in *.
  assert (D : d = dstep E T B d0 e) by (unfold d, d0, drun; rewrite fold_left_app; reflexivity).
  destruct (log_step d0 e Ge) as (l & El & _). rewrite <- D in El.
  assert (Rc0 : removals_complete (dm_log d0)) by (intros b p n Hb; apply Rc; rewrite El, attempts_app; apply in_app_iff; left; exact Hb).
  rewrite El, attempts_app in Ha. apply in_app_iff in Ha as [Ha|Ha]; [exact (IH Sh' F Rc0 a Ha)|].
  pose proof (core_reach njobs ncpu h Sh' F Rc0) as R. fold d0 in R. pose proof (DI_run E T B njobs ncpu h Sh') as I. fold d0 in I.
  rewrite D in El. assert (Z : dm_log d0 = dm_log d0 ++ l -> at_end a <> Panicked).
  { intros X. rewrite <- (app_nil_r (dm_log d0)) in X at 1. apply app_inv_head in X. subst l. destruct Ha. }
  assert (O : forall x, dm_log d0 ++ [x] = dm_log d0 ++ l -> match x with LAttempt _ _ _ Panicked => False | _ => True end -> at_end a <> Panicked).
  { intros x X Y. apply app_inv_head in X. subst l. destruct x as [n o t w| | |]; cbn in Ha; try contradiction. destruct Ha as [<-|[]]. destruct w; cbn; congruence. }
  clear IH D. destruct e as [r|i|i o|i|i|b|e n|i o n| |n|ev]; cbn [dstep] in El; try exact (Z El); try (destruct (negb (y_up (dm_sys d0))); [exact (Z El)|]).
  - destruct (act_of d0 (DRequest r)); exact (Z El).
  - exact (Z El).
  - rewrite held_is_holds in El. destruct (holds (dm_sys d0) i) as [j|] eqn:Hj; [|exact (Z El)]. destruct (dm_phase d0 i); try exact (Z El). unfold begin_job in El.
    fold (handler_of j) in El. destruct (handler_of j) as [hd| |] eqn:Hh; [|exact (Z El)|exact (Z El)]. cbv zeta in El.
    destruct (held_sync _ _ _ _ _ _ _ I Hj Hh) as (_ & a0 & Ha0 & _ & Hh0 & _).
    pose proof (no_panic_perform (dm_core d0) o (execute hd) R Ge (held_todo njobs ncpu h a0 hd Sh' F Ha0 Hh0)) as Np.
    destruct (result_of (perform E T B o (execute hd) (dm_core d0))); [destruct (execute hd)|..]; cbn [dm_log] in El; try (eapply O; [exact El|exact Logic.I]). congruence.
  - destruct (act_of d0 (DQueue i)); [exact (Z El)|]. destruct (held_job d0 i) as [j|]; [|exact (Z El)]. destruct (dm_phase d0 i) as [|[|x l'] desc|]; try exact (Z El).
    destruct (new_job_handler _ _) as [hd| |]; try exact (Z El). destruct (execute hd); try exact (Z El). eapply O; [exact El|exact Logic.I].
  - destruct (act_of d0 (DFinish i)); exact (Z El).
  - exact (Z El).
  - eapply O; [exact El|exact Logic.I].
  - destruct (held_job d0 i) as [j|]; [|eapply O; [exact El|exact Logic.I]]. destruct (dm_phase d0 i); try (eapply O; [exact El|exact Logic.I]).
    destruct (new_job_handler _ _) as [hd| |]; eapply O; try exact El; exact Logic.I.
  - destruct (outside_event ev); [eapply O; [exact El|exact Logic.I]|exact (Z El)].
Qed.
End Good.

(** Whatever requests arrive in whatever order, however the workers interleave, and
    wherever the daemon dies (except in the middle of a removal): the daemon never
    panics, nothing listed has lost its pool copy, entries are well-formed and the
    newest version is published. *)
Theorem C69_daemon_keeps_repositories_sound_partial :
  forall E T B cat njobs ncpu h, good_catalog cat -> good_env E -> good_manifests T -> short h -> Forall (good_devent E cat B) h ->
    let d := drun E T B (pool_of njobs ncpu) h in
    removals_complete (dm_log d) ->
    (forall a, In a (attempts (dm_log d)) -> at_end a <> Panicked) /\
    safe (dm_core d) /\
    (forall r n e, entry_at (dm_core d) r n = Some e -> well_formed (dm_core d) r n e) /\
    (forall r n e, entry_at (dm_core d) r n = Some e ->
       exists q, pool_at (dm_core d) (e_pub e) = Some q /\
         forall id p, In id (e_avail e) -> pool_at (dm_core d) id = Some p -> (rel (p_meta p) <= rel (p_meta q))%Z).
Proof.
  intros E T B cat njobs ncpu h Hc HE HT Sh F d Rc. pose proof (core_reach E T B cat Hc HE HT njobs ncpu h Sh F Rc) as R. fold d in R.
  split; [exact (no_panic E T B cat Hc HE HT njobs ncpu h Sh F Rc)|]. split; [exact (C01_listed_never_purged E cat _ Hc HE R)|]. split.
  - intros r n e H. exact (C04_entries_well_formed E cat _ r n e Hc HE R H).
  - intros r n e H. apply (C03_published_is_newest E cat _ r n e Hc HE R H).
Qed.
Print Assumptions C69_daemon_keeps_repositories_sound_partial.

(** If no job was cut short (the daemon may have been stopped and started between
    jobs at will), then also: reference counts are exact, nothing in the pool is
    unreferenced, every listed package is served with its hash and size, and there
    are no orphaned files. *)
Theorem C69_daemon_exact_when_uninterrupted :
  forall E T B cat njobs ncpu h, good_catalog cat -> good_env E -> good_manifests T -> short h -> Forall (good_devent E cat B) h ->
    let d := drun E T B (pool_of njobs ncpu) h in
    uninterrupted (dm_log d) ->
    exact (dm_core d) /\ all_served E (dm_core d) /\
    (forall r c id, is_delta_id id = false -> repo_file (dm_core d) r c id <> None -> available (dm_core d) r id).
Proof.
  intros E T B cat njobs ncpu h Hc HE HT Sh F d Un. pose proof (core_free E T B cat Hc HE HT njobs ncpu h Sh F Un) as R. fold d in R.
  assert (Rc : reachable_completed E cat (dm_core d)) by (destruct R as (h0 & A & C & _ & D); exists h0; auto).
  split; [exact (C02_no_leak_partial E cat _ Hc HE R)|]. split; [intros r id; exact (C05_listed_is_served E cat _ r id Hc HE Rc)|].
  apply (C60_no_orphans E cat _ Hc HE Rc).
Qed.
Print Assumptions C69_daemon_exact_when_uninterrupted.

(** a repository is created and filled, the daemon dies in the middle of an import,
    is started again, finishes it, clones the repository, and takes an upload *)
Definition dm_decode (c : string) : option tram :=
  if seqb c "one" then Some (tr_manifest [("nano-2.eopkg", "nano2")]) else None.
Definition job : list devent := [DPoll 0; DBegin 0 demo_oracle; DFinish 0].
Definition h_daemon : list devent :=
  [ DWorld (EvPut (ext "nano-1.eopkg") "nano1"); DWorld (EvPut (ext "libx-1.eopkg") "libx1");
    DRequest (ReqCreate "unstable"); DRequest (ReqImport "unstable" ["/up/nano-1.eopkg"; "/up/libx-1.eopkg"]) ] ++ job ++
  [ DPoll 0; DRequest (ReqClone "unstable" "stable" true); DCrashAt 0 demo_oracle 6; DStart ] ++ job ++ job ++
  [ DWorld (EvPut (up "nano-2.eopkg") "nano2"); DWorld (EvPut (up "up.tram") "one"); DRequest (ReqUpload tr_path); DRequest (ReqDelta "stable") ] ++ job ++ [DPoll 0; DBegin 0 demo_oracle].
Definition d_daemon : daemon := drun (demo_env true) dm_decode tr_base (pool_of 2 4) h_daemon.
Lemma dm_decode_good : good_manifests dm_decode.
Proof.
  intros c t x p H Hx Tr. apply trimmed_spec in Tr. subst p. unfold dm_decode in H. destruct (seqb c "one"); [|discriminate]. injection H as <-. destruct Hx as [<-|[]].
  split; [vm_compute; intuition discriminate|vm_compute; reflexivity].
Qed.
Lemma h_daemon_good : Forall (good_devent (demo_env true) demo_cat tr_base) h_daemon.
Proof.
  unfold h_daemon, job. cbn [app]. repeat (apply Forall_cons; [try exact Logic.I; try apply demo_oracle_good|]); try apply Forall_nil.
  - split; here.
  - split; here.
  - intros p [<-|[<-|[]]]; here.
  - split; here.
  - split; here.
  - exists "up.tram". exact tr_incoming.
Qed.
Example C68_demo :
  short h_daemon /\
  requests (demo_env true) dm_decode tr_base (pool_of 2 4) h_daemon =
    [ReqCreate "unstable"; ReqImport "unstable" ["/up/nano-1.eopkg"; "/up/libx-1.eopkg"]; ReqClone "unstable" "stable" true; ReqUpload tr_path; ReqDelta "stable"] /\
  map (fun a => (at_job a, at_end a)) (attempts (dm_log d_daemon)) = [(0, Completed true); (1, Died 6); (1, Completed true); (2, Completed true); (3, Completed true)] /\
  map j_type (stored QSync (dm_sys d_daemon)) = ["DeltaRepo"].
Proof. split; [here|]. split; [here|]. split; here. Qed.
Example C69_demo :
  good_catalog demo_cat /\ good_env (demo_env true) /\ good_manifests dm_decode /\ short h_daemon /\
  Forall (good_devent (demo_env true) demo_cat tr_base) h_daemon /\ removals_complete (dm_log d_daemon) /\
  published (dm_core d_daemon) "stable" "nano" = Some "nano-2.eopkg" /\ published (dm_core d_daemon) "unstable" "nano" = Some "nano-1.eopkg" /\
  refcount (dm_core d_daemon) "nano-1.eopkg" = 2 /\
  let h := firstn 9 h_daemon in uninterrupted (dm_log (drun (demo_env true) dm_decode tr_base (pool_of 2 4) h)) /\
    List.length (attempts (dm_log (drun (demo_env true) dm_decode tr_base (pool_of 2 4) h))) = 1.
Proof.
  split; [apply demo_cat_good|]. split; [apply demo_env_good|]. split; [apply dm_decode_good|]. split; [here|]. split; [apply h_daemon_good|].
  assert (A : map (fun a => (at_job a, at_todo a, at_end a)) (attempts (dm_log d_daemon)) =
    [(0, Run (OpCreate "unstable"), Completed true); (1, Run (OpAdd "unstable" [ext "nano-1.eopkg"; ext "libx-1.eopkg"] false), Died 6);
     (1, Run (OpAdd "unstable" [ext "nano-1.eopkg"; ext "libx-1.eopkg"] false), Completed true); (2, Run (OpClone "unstable" "stable" true), Completed true); (3, Upload tr_path, Completed true)]) by here.
  split.
  { intros a p n Ha Et Rp X. apply (in_map (fun a => (at_job a, at_todo a, at_end a))) in Ha. rewrite A in Ha. rewrite Et, X in Ha.
    clear A Et X. repeat (destruct Ha as [Ha|Ha]; [injection Ha; intros; subst; discriminate|]). destruct Ha. }
  split; [here|]. split; [here|]. split; [here|]. intros h. split; [|here].
  assert (U : map at_end (attempts (dm_log (drun (demo_env true) dm_decode tr_base (pool_of 2 4) h))) = [Completed true]) by here.
  intros a Ha. apply (in_map at_end) in Ha. rewrite U in Ha. destruct Ha as [Ha|[]]. exists true. congruence.
Qed.

(** C69 is false as stated: the daemon is killed while it removes a package; the
    repository goes on listing what the pool has already dropped. *)
Definition h_killed : list devent :=
  [ DWorld (EvPut (ext "libx-1.eopkg") "libx1");
    DRequest (ReqCreate "unstable"); DRequest (ReqImport "unstable" ["/up/libx-1.eopkg"]);
    DRequest (ReqRemoveSource "unstable" "libx" 0) ] ++ job ++ job ++ [DPoll 0; DCrashAt 0 demo_oracle 3].
Theorem C69_killed_while_removing_refuted :
  exists E T B cat njobs ncpu h, good_catalog cat /\ good_env E /\ good_manifests T /\ short h /\ Forall (good_devent E cat B) h /\
    let d := drun E T B (pool_of njobs ncpu) h in
    available (dm_core d) "unstable" "libx-1.eopkg" /\ pool_at (dm_core d) "libx-1.eopkg" = None /\ ~ safe (dm_core d).
Proof.
  exists (demo_env true), dm_decode, tr_base, demo_cat, 2%Z, 4%Z, h_killed.
  split; [apply demo_cat_good|]. split; [apply demo_env_good|]. split; [apply dm_decode_good|]. split; [here|]. split.
  { unfold h_killed, job. cbn [app]. repeat (apply Forall_cons; [try exact Logic.I; try apply demo_oracle_good|]); try apply Forall_nil.
    - split; here.
    - intros p [<-|[]]; here. }
  intros d. assert (A : available (dm_core d) "unstable" "libx-1.eopkg") by (exists "libx"; eexists; split; [here|left; reflexivity]).
  assert (N : pool_at (dm_core d) "libx-1.eopkg" = None) by here. split; [exact A|]. split; [exact N|].
  intros (_ & Hs). apply (Hs "unstable" "libx-1.eopkg"); [|exact N]. destruct A as (n & e & He & Hi). exists n, e. split; [exact He|left; exact Hi].
Qed.
Print Assumptions C69_killed_while_removing_refuted.
