(** * PropsListing: C82, the listings show exactly what there is *)
From Verif Require Import Model Spec Demo DemoOk DbInv FsInv PropsPool PropsOps Sim PropsRestart PropsStale Listing.
Open Scope string_scope. Open Scope list_scope.

(** ** Specification *)
(** the lines of a listing *)
Definition lines {A} (p : printed A) : list A := match p with Nothing_yet => [] | Lines l => l end.
(** what sort.Strings guarantees: same elements, ascending *)
Definition sorts (sort : list string -> list string) : Prop :=
  forall l, Permutation (sort l) l /\ StronglySorted (fun a b => a = b \/ slt a b) (sort l).
(** what a client that asks while a request is executed may see: the database
    after any number of the request's writes *)
Definition moment (E : env) (s x : state) : Prop :=
  x = s \/ exists o p, In x (crash_points E o p s).
(** the same for well-formed requests that remove nothing (for the others: C23) *)
Definition moment_of_addition (E : env) (s x : state) : Prop :=
  x = s \/ exists o p, good_oracle o /\ good_op p /\ removes_packages p = false /\ In x (crash_points E o p s).

Lemma slt_keys {A} (m : smap A) : StronglySorted slt (mkeys m).
Proof.
  unfold mkeys. pose proof (mlist_sorted m) as H. induction H as [|x l _ IH F]; cbn; constructor; auto. rewrite Forall_map. eapply Forall_impl; [|exact F]. auto.
Qed.

(** C82, repositories: the listing has every existing repository once, in
    alphabetical order, and nothing else; it says "none" exactly if there is none. *)
Theorem C82_repos_listed :
  forall sort s, sorts sort ->
    (forall r, In r (lines (list_repos sort s)) <-> repo_exists s r = true) /\
    NoDup (lines (list_repos sort s)) /\ StronglySorted (fun a b => a = b \/ slt a b) (lines (list_repos sort s)) /\
    (list_repos sort s = Nothing_yet <-> forall r, repo_exists s r = false).
Proof.
  intros sort s So. destruct (So (get_repos s)) as [P St].
  assert (L : lines (list_repos sort s) = sort (get_repos s)) by (unfold list_repos; destruct (sort (get_repos s)); reflexivity). rewrite L.
  assert (X : forall r, In r (sort (get_repos s)) <-> repo_exists s r = true).
  { intros r. unfold repo_exists. rewrite mhas_keys. split; apply Permutation_in; [exact P|symmetry; exact P]. }
  split; [exact X|]. split; [eapply Permutation_NoDup; [symmetry; exact P|apply mkeys_nodup]|]. split; [exact St|].
  unfold list_repos. destruct (sort (get_repos s)) as [|a l]; split; try discriminate; try reflexivity.
  - intros _ r. specialize (X r). destruct (repo_exists s r); [destruct (proj2 X eq_refl)|reflexivity].
  - intros H. specialize (X a). rewrite H in X. assert (false = true) by (apply X; left; reflexivity). discriminate.
Qed.
Print Assumptions C82_repos_listed.

(** C82, pool: one line for every item, with its count; while a request is being
    executed too. *)
Theorem C82_pool_listed :
  forall E h x, moment E (run_history E h) x ->
    NoDup (map fst (lines (list_pool x))) /\ StronglySorted slt (map fst (lines (list_pool x))) /\
    forall id n, (N.of_nat (refcount x id) < 2 ^ 63)%N ->
      In (id, n) (lines (list_pool x)) <-> pool_at x id <> None /\ n = Z.of_nat (refcount x id).
Proof.
  intros E h x M.
  assert (Nm : named (st_db x)).
  { destruct M as [->|(o & p & Hx)]; [apply run_named|].
    destruct (run_op_agree E o p _ (run_named E h) (run_batch E h)) as (F & _). rewrite Forall_forall in F. apply (F x Hx). }
  assert (L : lines (list_pool x) = get_pool_items x) by (unfold list_pool; destruct (get_pool_items x); reflexivity). rewrite L.
  assert (K : map fst (get_pool_items x) = mkeys (d_pool (st_db x))).
  { unfold get_pool_items, mkeys. rewrite map_map. apply map_ext_in. intros [k p] Hin. apply in_mlist in Hin. exact (Nm k p Hin). }
  rewrite K. split; [apply mkeys_nodup|]. split; [apply slt_keys|].
  intros id n Bd. unfold get_pool_items. rewrite in_map_iff. unfold pool_at, refcount, rc_db in *. 
  assert (Gi : forall m, (m < 2 ^ 63)%N -> go_int m = Z.of_N m).
  { intros m Hm. unfold go_int. rewrite Z.mod_small by lia. destruct (Z.ltb_spec (Z.of_N m) 9223372036854775808); lia. }
  split.
  - intros ([k p] & Eq & Hin). apply in_mlist in Hin. pose proof (Nm k p Hin) as Nk. cbn [fst snd] in Eq. injection Eq as <- <-. rewrite Nk in *. rewrite Hin in Bd |- *.
    split; [discriminate|]. rewrite Gi by lia. lia.
  - intros [Hp ->]. destruct (mget (d_pool (st_db x)) id) as [p|] eqn:G; [|congruence]. exists (id, p). split; [|apply in_mlist; exact G].
    cbn [snd]. rewrite (Nm id p G), Gi by lia. f_equal. lia.
Qed.
Print Assumptions C82_pool_listed.

(** C82, what the counts mean. At every moment every listed package has its line,
    with a count of at least the number of repositories that list it. *)
Theorem C82_counts_cover_listings :
  forall E cat h x id rs, good_catalog cat -> good_env E -> good_history E cat h -> moment_of_addition E (run_history E h) x ->
    (N.of_nat (refcount x id) < 2 ^ 63)%N -> NoDup rs -> rs <> [] -> (forall r, In r rs -> listed x r id) ->
    exists n, In (id, n) (lines (list_pool x)) /\ (Z.of_nat (List.length rs) <= n)%Z.
Proof.
  intros E cat h x id rs Hc HE Hh M Bd Nd Ne Hl.
  assert (S : safe x).
  { destruct M as [->|(o & p & Ho & Hp & Rp & Hx)]; [apply (C01_listed_never_purged E cat _ Hc HE); exists h; auto|].
    destruct (In_nth _ _ x Hx) as (k & Hk & Ek).
    assert (Re : reachable E cat (restart x)).
    { exists (h ++ [EvCrash o p (Datatypes.S k)]). split; [apply Forall_app; split; [exact Hh|constructor; [cbn; auto|constructor]]|].
      rewrite run_snoc. cbn [ev_step]. f_equal. cbn [nth]. unfold crash_points in *. rewrite (nth_indep _ _ x Hk). symmetry. exact Ek. }
    exact (C01_listed_never_purged E cat _ Hc HE Re). }
  destruct S as [S1 S2]. exists (Z.of_nat (refcount x id)). split.
  - assert (M' : moment E (run_history E h) x) by (destruct M as [->|(o & p & _ & _ & _ & Hx)]; [left; reflexivity|right; eauto]).
    apply (C82_pool_listed E h x M'); [exact Bd|]. split; [|reflexivity]. destruct rs as [|r rs]; [congruence|]. apply (S2 r id), Hl. left. reflexivity.
  - specialize (S1 id rs Nd Hl). lia.
Qed.
Print Assumptions C82_counts_cover_listings.

(** Between requests, in histories without crashes and deltas, the count is the
    number of repositories that list the package, and nothing else is in the pool. *)
Theorem C82_counts_are_listings :
  forall E cat s id n, good_catalog cat -> good_env E -> reachable_delta_free E cat s -> (N.of_nat (refcount s id) < 2 ^ 63)%N ->
    In (id, n) (lines (list_pool s)) <-> exists rs, NoDup rs /\ rs <> [] /\ (forall r, In r rs <-> listed s r id) /\ n = Z.of_nat (List.length rs).
Proof.
  intros E cat s id n Hc HE R Bd. destruct (C02_no_leak_partial E cat s Hc HE R) as [X1 X2]. destruct R as (h & _ & _ & _ & ->).
  destruct (C82_pool_listed E h _ (or_introl eq_refl)) as (_ & _ & K). rewrite (K id n Bd). rewrite X2. destruct (X1 id) as (rs & Nd & Hrs & Rc). split.
  - intros [[r Hr] ->]. exists rs. split; [exact Nd|]. split; [intros ->; apply (Hrs r) in Hr; destruct Hr|]. split; [exact Hrs|congruence].
  - intros (rs' & Nd' & Ne & Hrs' & ->). split; [destruct rs' as [|r rs']; [congruence|exists r; apply Hrs'; left; reflexivity]|]. rewrite Rc.
    f_equal. apply Permutation_length, NoDup_Permutation; auto. intros r. rewrite Hrs, Hrs'. reflexivity.
Qed.
Print Assumptions C82_counts_are_listings.

Theorem C82_demo :
  let s := run_history (demo_env true) h_two in
  good_history (demo_env true) demo_cat h_two /\ reachable_delta_free (demo_env true) demo_cat s /\
  lines (list_repos (fun l => l) s) = ["stable"; "unstable"] /\
  lines (list_pool s) = [("libx-1.eopkg", 2%Z); ("nano-1.eopkg", 2%Z); ("nano-2.eopkg", 2%Z)] /\
  (exists x, moment_of_addition (demo_env true) s x /\ x <> s) /\
  (N.of_nat (refcount s "nano-2.eopkg") < 2 ^ 63)%N.
Proof.
  intros s. split; [apply h_two_good|]. split; [exact C02_demo|]. split; [vm_compute; reflexivity|]. split; [vm_compute; reflexivity|]. split; [|vm_compute; reflexivity].
  set (x := nth 0 (crash_points (demo_env true) demo_oracle (OpCreate "third") s) s). exists x. split.
  - right. exists demo_oracle, (OpCreate "third"). split; [apply demo_oracle_good|]. split; [exact I|]. split; [reflexivity|]. apply nth_In. vm_compute. lia.
  - intros X. assert (Y : repo_exists x "third" = repo_exists s "third" /\ f_dir (st_fs x) "third" = f_dir (st_fs s) "third") by (rewrite X; auto). revert Y. vm_compute. intros [? ?]; discriminate.
Qed.
