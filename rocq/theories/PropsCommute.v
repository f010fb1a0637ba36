(** * PropsCommute: property C102 - requests for different repositories do not
    interfere (theorems; proofs in Commute.v, Frame.v and Same.v) *)
From Verif Require Import Model Spec Demo DemoOk DbInv DbOps Wp FsInv Pure IndexOps ApiOps History PoolFacts OpFacts OpFacts2 Frame OpFacts3 Same Commute PropsIndex PropsOps.
Open Scope string_scope. Open Scope list_scope.

(** ** Specification *)
(** the metadata (hash, size, path among it) the pool keeps for an ID *)
Definition recorded (s : state) (id : string) : option meta := option_map p_meta (pool_at s id).
(** repository [x] looks the same in both states: it exists in both or in neither,
    with the same packages, the same published versions, the same records of its
    packages, the same index files and the same assets *)
Definition looks_alike (x : string) (s t : state) : Prop :=
  repo_exists s x = repo_exists t x /\
  (forall n, entry_at s x n = entry_at t x n) /\
  (forall id, listed s x id -> recorded s id = recorded t id) /\
  (forall f, index_file s x f = index_file t x f) /\
  (forall f, asset_file s x f = asset_file t x f).
(** [p] changes no repository that [q] changes or copies from ([target],
    [source_repo]) *)
Definition spares (p q : op) : Prop :=
  forall a, target p = Some a -> target q <> Some a /\ source_repo q <> Some a.
(** the files [q] sends ([sent]) are the same in both states, and where the pool
    has a package of that name already, it is that file: same hash, same size *)
Definition known_file (E : env) (s : state) (l : loc) : Prop :=
  forall c m, file_content (st_fs s) l = Some c -> recorded s (l_id l) = Some m ->
    m_hash m = E_sha1 E c /\ m_size m = N.of_nat (String.length c).
Definition sends_alike (E : env) (s t : state) (q : op) : Prop :=
  forall l, In l (sent q) -> file_content (st_fs s) l = file_content (st_fs t) l /\ known_file E s l /\ known_file E t l.

(** ** Proofs *)
Section Proofs.
Variable E : env.
Variable cat : string -> meta.
Hypothesis Hcat : good_catalog cat.
Hypothesis HE : good_env E.
Notation ok := (Inv E cat true true []).

Lemma frame_agree o p s x : ok s -> ok (after E o p s) -> target p <> Some x -> agree x s (after E o p s).
Proof.
  intros H H' N. destruct (frame_instants E o p s x _ (i_batch _ _ _ _ _ _ H) N (or_introl eq_refl)) as [A1 A2 A3 A4 A5 A6 A7].
  constructor; auto; try (intros k; rewrite ?A4, ?A5; reflexivity).
  intros id L. symmetry. assert (L' : listed (after E o p s) x id) by (unfold listed, entry_at in *; rewrite A2; exact L).
  apply (item_after E cat o p s id H); [apply (listed_pooled E cat s x id H L)|apply (listed_pooled E cat _ x id H' L')].
Qed.
Lemma agree_alike x s t : agree x s t -> looks_alike x s t.
Proof.
  intros [A1 A2 A3 A4 A5]. split; [exact A1|]. split; [intros n; unfold entry_at; rewrite A2; reflexivity|].
  split; [|split; [exact A3|exact A4]]. intros id L. specialize (A5 id L). unfold item in A5. unfold recorded.
  destruct (pool_at s id), (pool_at t id); cbn; congruence.
Qed.
Lemma known_pooled s l : known_file E s l -> as_pooled E s l.
Proof. intros K c p F G. apply (K c (p_meta p) F). unfold recorded. rewrite G. reflexivity. Qed.

Lemma no_interference o p o' q b s : ok s -> good_oracle o -> good_oracle o' -> good_op p -> good_op q -> delta_op p = false -> delta_op q = false ->
  target q = Some b -> spares p q -> sends_alike E s (after E o p s) q ->
  outcome E o' q s = outcome E o' q (after E o p s) /\ agree b (after E o' q s) (after E o' q (after E o p s)).
Proof.
  intros H Ho Ho' Gp Gq Dp Dq Tq Sp Se.
  assert (H1 : ok (after E o p s)).
  { apply (after_inv E cat Hcat HE); auto. }
  assert (Nb : target p <> Some b) by (intros X; destruct (Sp b X); congruence).
  apply (two E cat Hcat HE o' q b s (after E o p s)); auto.
  - apply frame_agree; auto.
  - intros x Sx. apply frame_agree; auto. intros X. destruct (Sp x X); congruence.
  - intros M. destruct (frame_instants E o p s b _ (i_batch _ _ _ _ _ _ H) Nb (or_introl eq_refl)) as [_ _ _ _ _ _ A7]. symmetry. apply A7, M.
  - intros l Hl. apply (Se l Hl).
  - intros l Hl. destruct (Se l Hl) as (_ & K1 & K2). split; apply known_pooled; assumption.
Qed.

Lemma counted_listed s id : ok s -> pool_at s id <> None -> exists x, listed s x id.
Proof.
  intros H G. destruct (pool_at s id) as [p|] eqn:Gp; [|congruence].
  pose proof (po_rc _ _ _ (ok_pool _ _ (i_db _ _ _ _ _ _ H) _ _ Gp)) as Rc.
  pose proof (i_refs _ _ _ _ _ _ H id) as R. cbn in R. unfold rc_db in R. unfold pool_at in Gp. rewrite Gp in R.
  assert (C : count_db (st_db s) id <> 0) by lia. unfold count_db in C.
  destruct (filter (fun r => lists_db (st_db s) r id) (mkeys (d_repos (st_db s)))) as [|x l] eqn:F; [cbn in C; congruence|].
  assert (X : In x (x :: l)) by (left; reflexivity). rewrite <- F in X. apply filter_In in X. destruct X as [_ X].
  exists x. apply (listed_lists cat s x id (i_db _ _ _ _ _ _ H)), X.
Qed.

Lemma same_everywhere s t : ok s -> ok t -> (forall x, agree x s t) -> (forall id, pool_at s id = pool_at t id).
Proof.
  intros H H' A.
  assert (Cs : forall id, refcount s id = refcount t id).
  { apply (counts_same E cat s t H H'); [intros r; apply (A r)|intros r n; rewrite (ag_ents _ _ _ (A r)); reflexivity]. }
  assert (Half : forall a b, ok a -> ok b -> (forall x, agree x a b) -> (forall id, refcount a id = refcount b id) -> forall id p, pool_at a id = Some p -> pool_at b id = Some p).
  { intros a b Ha Hb Ab Rc id p G. destruct (counted_listed a id Ha ltac:(congruence)) as (x & L). pose proof (ag_item _ _ _ (Ab x) id L) as I0.
    specialize (Rc id). unfold item in I0. rewrite G in I0. destruct (pool_at b id) as [q|] eqn:G'; [|discriminate]. injection I0 as M D. f_equal.
    unfold refcount, rc_db in Rc. unfold pool_at in G, G'. rewrite G, G' in Rc.
    pose proof (po_name _ _ _ (ok_pool _ _ (i_db _ _ _ _ _ _ Ha) _ _ G)) as N1. pose proof (po_name _ _ _ (ok_pool _ _ (i_db _ _ _ _ _ _ Hb) _ _ G')) as N2.
    destruct p as [p1 p2 p3 p4], q as [q1 q2 q3 q4]. cbn in *. assert (p2 = q2) by lia. congruence. }
  intros id. destruct (pool_at s id) as [p|] eqn:G; [symmetry; apply (Half s t H H' A Cs id p G)|].
  destruct (pool_at t id) as [p|] eqn:G'; [|reflexivity]. rewrite (Half t s H' H (fun x => agree_sym x s t (A x)) (fun i => eq_sym (Cs i)) id p G') in G. discriminate.
Qed.

Lemma order_irrelevant o p o' q a b s : ok s -> good_oracle o -> good_oracle o' -> good_op p -> good_op q -> delta_op p = false -> delta_op q = false ->
  target p = Some a -> target q = Some b -> spares p q -> spares q p ->
  sends_alike E s (after E o p s) q -> sends_alike E s (after E o' q s) p ->
  outcome E o' q (after E o p s) = outcome E o' q s /\ outcome E o p (after E o' q s) = outcome E o p s /\
  (forall x, agree x (after E o' q (after E o p s)) (after E o p (after E o' q s))) /\
  (forall id, pool_at (after E o' q (after E o p s)) id = pool_at (after E o p (after E o' q s)) id).
Proof.
  intros H Ho Ho' Gp Gq Dp Dq Tp Tq Spq Sqp Seq Sep.
  destruct (no_interference o p o' q b s H Ho Ho' Gp Gq Dp Dq Tq Spq Seq) as [O1 A1].
  destruct (no_interference o' q o p a s H Ho' Ho Gq Gp Dq Dp Tp Sqp Sep) as [O2 A2].
  assert (Hp : ok (after E o p s)) by (apply (after_inv E cat Hcat HE); auto). assert (Hq : ok (after E o' q s)) by (apply (after_inv E cat Hcat HE); auto).
  assert (Hpq : ok (after E o' q (after E o p s))) by (apply (after_inv E cat Hcat HE); auto).
  assert (Hqp : ok (after E o p (after E o' q s))) by (apply (after_inv E cat Hcat HE); auto).
  assert (Ag : forall x, agree x (after E o' q (after E o p s)) (after E o p (after E o' q s))).
  { intros x. destruct (string_dec x b) as [->|Nb].
    - eapply agree_trans; [apply agree_sym, A1|]. apply frame_agree; auto. rewrite Tp. destruct (Spq a Tp). congruence.
    - assert (Fq : agree x (after E o p s) (after E o' q (after E o p s))) by (apply frame_agree; auto; congruence).
      eapply agree_trans; [apply agree_sym, Fq|]. destruct (string_dec x a) as [->|Na]; [exact A2|].
      assert (Fp : agree x s (after E o p s)) by (apply frame_agree; auto; congruence).
      eapply agree_trans; [apply agree_sym, Fp|]. assert (Fq' : agree x s (after E o' q s)) by (apply frame_agree; auto; congruence).
      eapply agree_trans; [exact Fq'|]. apply frame_agree; auto; congruence. }
  split; [symmetry; exact O1|]. split; [symmetry; exact O2|]. split; [exact Ag|]. apply same_everywhere; assumption.
Qed.
End Proofs.

(** ** C102. Requests for different repositories do not interfere. *)
(** Full statement: what a request does to its repository does not depend on the
    requests made before it on repositories it neither changes nor copies from.
    Proved where no delta was ever added ([reachable_delta_free]) and where the
    files sent are, if the pool has their names, the pooled files ([sends_alike]);
    false without either, see below. *)
Theorem C102_no_interference_partial :
  forall E cat s o p o' q b, good_catalog cat -> good_env E -> reachable_delta_free E cat s ->
    good_oracle o -> good_oracle o' -> good_op p -> good_op q -> delta_op p = false -> delta_op q = false ->
    target q = Some b -> spares p q -> sends_alike E s (after E o p s) q ->
    outcome E o' q (after E o p s) = outcome E o' q s /\
    looks_alike b (after E o' q (after E o p s)) (after E o' q s).
Proof.
  intros E cat s o p o' q b Hc HE (h & Hh & Hf & Hd & ->) Ho Ho' Gp Gq Dp Dq Tq Sp Se.
  destruct (no_interference E cat Hc HE o p o' q b (run_history E h) (hist_ex E cat Hc HE h Hh Hf Hd) Ho Ho' Gp Gq Dp Dq Tq Sp Se) as [O A].
  split; [symmetry; exact O|]. apply agree_alike, agree_sym, A.
Qed.
Print Assumptions C102_no_interference_partial.

(** Two requests that spare each other may be run in either order: the answers are
    the same, and so are all repositories and the pool with its reference counts. *)
Theorem C102_order_irrelevant_partial :
  forall E cat s o p o' q a b, good_catalog cat -> good_env E -> reachable_delta_free E cat s ->
    good_oracle o -> good_oracle o' -> good_op p -> good_op q -> delta_op p = false -> delta_op q = false ->
    target p = Some a -> target q = Some b -> spares p q -> spares q p ->
    sends_alike E s (after E o p s) q -> sends_alike E s (after E o' q s) p ->
    let pq := after E o' q (after E o p s) in
    let qp := after E o p (after E o' q s) in
    outcome E o p s = outcome E o p (after E o' q s) /\ outcome E o' q (after E o p s) = outcome E o' q s /\
    (forall x, looks_alike x pq qp) /\ (forall id, pool_at pq id = pool_at qp id) /\ (forall id, refcount pq id = refcount qp id).
Proof.
  intros E cat s o p o' q a b Hc HE (h & Hh & Hf & Hd & ->) Ho Ho' Gp Gq Dp Dq Tp Tq Spq Sqp Seq Sep pq qp.
  destruct (order_irrelevant E cat Hc HE o p o' q a b (run_history E h) (hist_ex E cat Hc HE h Hh Hf Hd) Ho Ho' Gp Gq Dp Dq Tp Tq Spq Sqp Seq Sep) as (O1 & O2 & A & P).
  split; [symmetry; exact O2|]. split; [exact O1|]. split; [intros x; apply agree_alike, A|]. split; [exact P|].
  intros id. unfold refcount, rc_db. specialize (P id). unfold pool_at in P. fold pq qp in P. rewrite P. reflexivity.
Qed.
Print Assumptions C102_order_irrelevant_partial.

(** an import into one repository, a clone of another one *)
Definition h_three : list event := h_two ++ [ EvPut (ext "nano-3.eopkg") "nano3"; EvOp demo_oracle (OpCreate "next") ].
Lemma h_three_good b : good_history (demo_env b) demo_cat h_three.
Proof. unfold good_history, h_three, h_two. demo_hist. Qed.
Example C102_demo :
  let E := demo_env true in let s := run_history E h_three in
  let p := OpAdd "next" [ext "nano-2.eopkg"; ext "nano-3.eopkg"] true in let q := OpClone "unstable" "copy" false in
  reachable_delta_free E demo_cat s /\ spares p q /\ spares q p /\ good_op p /\
  sends_alike E s (after E demo_oracle p s) q /\ sends_alike E s (after E demo_oracle q s) p /\
  succeeds E demo_oracle p s /\ succeeds E demo_oracle q s /\
  refcount s "nano-2.eopkg" = 2 /\ refcount (after E demo_oracle q (after E demo_oracle p s)) "nano-2.eopkg" = 4.
Proof.
  cbv zeta. split; [exists h_three; split; [apply h_three_good|split; [repeat constructor|split; [repeat constructor|reflexivity]]]|].
  split; [intros a X; injection X as <-; split; discriminate|]. split; [intros a X; injection X as <-; split; discriminate|].
  split; [repeat constructor|]. split; [intros l []|]. split.
  { intros l [<-|[<-|[]]]; (split; [vm_compute; reflexivity|split]); intros c m X Y; vm_compute in X, Y; try discriminate; injection X as <-; injection Y as <-; split; vm_compute; reflexivity. }
  split; [exists []; vm_compute; reflexivity|]. split; [exists []; vm_compute; reflexivity|]. split; vm_compute; reflexivity.
Qed.

(** Two different files sent under one name: the one that comes first is what both
    repositories serve. *)
Definition other (id : string) : loc := Loc TExt "/other" id.
Definition h_clash : list event :=
  [ EvPut (ext "nano-2.eopkg") "nano2"; EvPut (other "nano-2.eopkg") "nano12";
    EvOp demo_oracle (OpCreate "unstable"); EvOp demo_oracle (OpCreate "stable") ].
Lemma h_clash_good b : good_history (demo_env b) demo_cat h_clash.
Proof. unfold good_history, h_clash. demo_hist. Qed.
Theorem C102_one_name_two_files_refuted :
  exists E cat s o p q, good_catalog cat /\ good_env E /\ reachable_delta_free E cat s /\ good_oracle o /\ good_op p /\ good_op q /\
    target p = Some "unstable" /\ target q = Some "stable" /\ spares p q /\ spares q p /\ succeeds E o p s /\ succeeds E o q s /\
    listed (after E o q s) "stable" "nano-2.eopkg" /\
    repo_file (after E o q s) "stable" "n/nano" "nano-2.eopkg" = Some "nano12" /\
    repo_file (after E o q (after E o p s)) "stable" "n/nano" "nano-2.eopkg" = Some "nano2" /\
    recorded (after E o q (after E o p s)) "nano-2.eopkg" <> recorded (after E o p (after E o q s)) "nano-2.eopkg".
Proof.
  exists (demo_env true), demo_cat, (run_history (demo_env true) h_clash), demo_oracle, (OpAdd "unstable" [ext "nano-2.eopkg"] false), (OpAdd "stable" [other "nano-2.eopkg"] false).
  split; [apply demo_cat_good|]. split; [apply demo_env_good|].
  split; [exists h_clash; split; [apply h_clash_good|split; [repeat constructor|split; [repeat constructor|reflexivity]]]|].
  split; [apply demo_oracle_good|]. split; [repeat constructor|]. split; [repeat constructor|]. split; [reflexivity|]. split; [reflexivity|].
  split; [intros a X; injection X as <-; split; discriminate|]. split; [intros a X; injection X as <-; split; discriminate|].
  split; [exists []; vm_compute; reflexivity|]. split; [exists []; vm_compute; reflexivity|].
  split; [exists "nano"; eexists; split; [vm_compute; reflexivity|left; left; reflexivity]|].
  split; [vm_compute; reflexivity|]. split; [vm_compute; reflexivity|]. vm_compute. discriminate.
Qed.
Print Assumptions C102_one_name_two_files_refuted.

(** A delta that only one repository references: whether another repository can
    still take it over depends on whether the first has been deleted yet, although
    that request names the delta, not the repository. *)
Theorem C102_delta_request_refuted :
  exists E cat s o p q, good_catalog cat /\ good_env E /\ reachable_completed E cat s /\ good_oracle o /\ good_op p /\ good_op q /\
    target p = Some "unstable" /\ target q = Some "stable" /\ spares p q /\ spares q p /\
    succeeds E o q s /\ succeeds E o p s /\ outcome E o q (after E o p s) = Err.
Proof.
  exists (demo_env true), demo_cat, (run_history (demo_env true) (h_delta ++ [EvOp demo_oracle (OpClone "unstable" "stable" false)])), demo_oracle,
    (OpDelete "unstable"), (OpRefDelta "stable" "nano-1-2.delta.eopkg").
  split; [apply demo_cat_good|]. split; [apply demo_env_good|].
  split; [exists (h_delta ++ [EvOp demo_oracle (OpClone "unstable" "stable" false)]); split; [|split; [repeat constructor|reflexivity]]|].
  { unfold good_history, h_delta. demo_hist. }
  split; [apply demo_oracle_good|]. split; [exact Logic.I|]. split; [reflexivity|]. split; [reflexivity|]. split; [reflexivity|].
  split; [intros a X; injection X as <-; split; discriminate|]. split; [intros a X; injection X as <-; split; discriminate|].
  split; [exists []; vm_compute; reflexivity|]. split; [exists []; vm_compute; reflexivity|]. vm_compute. reflexivity.
Qed.
Print Assumptions C102_delta_request_refuted.
