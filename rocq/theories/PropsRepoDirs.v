(** * PropsRepoDirs: C98, deleting a repository leaves the others' files alone *)
From Verif Require Import Base Paths RepoDirs PathFacts.
Open Scope string_scope. Open Scope list_scope.

(** ** Specification *)
(** q is p or lies below p *)
Definition at_or_below (p q : string) : Prop := q = p \/ exists t, q = (p ++ "/" ++ t)%string.
Definition content (d : disk) (q c : string) : Prop := In (q, c) (d_files d).
Definition registered (d : disk) (id : string) : Prop := In id (d_repos d).
(** the base directory is given by an absolute, clean path other than the root *)
Definition absolute (base : string) : Prop := exists l, l <> [] /\ Forall normal l /\ base = abs l.
(** an ordinary name: one path component *)
Definition plain (id : string) : Prop := id <> "" /\ id <> "." /\ id <> ".." /\ ~ In slash (list_ascii_of_string id).
Definition names (o : dop) : list string := match o with DCreate i | DDelete i => [i] | DWrite _ i _ _ => [i] end.
Definition plain_names (l : list dop) : Prop := forall o i, In o l -> In i (names o) -> plain i.
Definition no_dotdot (id : string) : Prop := ~ In ".." (split_slash id).

Lemma has_slash_in s : has_slash s = false <-> ~ In slash (list_ascii_of_string s).
Proof.
  induction s as [|c s IH]; cbn [has_slash list_ascii_of_string In]; [tauto|]. rewrite orb_false_iff.
  destruct (Ascii.eqb_spec c slash); [subst; intuition congruence|]. rewrite IH. intuition congruence.
Qed.
Lemma plain_normal id : plain id <-> normal id.
Proof. unfold plain, normal. rewrite has_slash_in. tauto. Qed.

Lemma removed_by_spec p q : removed_by p q = true <-> at_or_below p q.
Proof.
  unfold removed_by, at_or_below. rewrite orb_true_iff, has_prefix_spec. destruct (seqb_spec q p) as [E|E].
  - split; auto.
  - split; [intros [?|[t ->]]; [discriminate|]; right; exists t; apply sapp_assoc|].
    intros [?|[t ->]]; [contradiction|]. right. exists t. symmetry. apply sapp_assoc.
Qed.

Lemma component_normal k : normal (component k).
Proof. destruct k; repeat split; discriminate. Qed.
Lemma component_noup k : split_slash (component k) = [component k].
Proof. destruct k; reflexivity. Qed.
Lemma keepc_n x : normal x -> keepc x = true.
Proof. intros (A & B & _). unfold keepc. apply seqb_neq in A, B. rewrite A, B. reflexivity. Qed.
Lemma base_k l k : l <> [] -> Forall normal l -> join (abs l) (component k) = abs (l ++ [component k]).
Proof.
  intros N F. rewrite join_inside; [|exact N|exact F|].
  - rewrite component_noup. cbn [filter]. rewrite keepc_n by apply component_normal. reflexivity.
  - rewrite component_noup. intros [H|[]]. pose proof (component_normal k) as (_ & _ & H2 & _). contradiction.
Qed.
Lemma dir_abs l k id : l <> [] -> Forall normal l -> no_dotdot id ->
  repo_dir (abs l) k id = abs (l ++ component k :: filter keepc (split_slash id)).
Proof.
  intros N F U. unfold repo_dir. rewrite base_k by assumption. rewrite join_inside; [|destruct l; discriminate| |exact U].
  - rewrite <- app_assoc. reflexivity.
  - apply Forall_app. split; [exact F|constructor; [apply component_normal|constructor]].
Qed.
Lemma plain_noup id : plain id -> no_dotdot id.
Proof. intros P. apply plain_normal in P as (A & B & C & D). unfold no_dotdot. rewrite split_one by exact D. intros [H|[]]. contradiction. Qed.
Lemma dir_plain l k id : l <> [] -> Forall normal l -> plain id -> repo_dir (abs l) k id = abs (l ++ [component k; id]).
Proof.
  intros N F P. rewrite dir_abs by (auto using plain_noup). apply plain_normal in P. rewrite split_one by apply P. cbn [filter].
  rewrite keepc_n by exact P. reflexivity.
Qed.

(** components of two paths one of which lies below the other *)
Lemma below_prefix a b : a <> [] -> b <> [] -> Forall normal a -> Forall normal b -> forall q,
  at_or_below (abs a) q -> at_or_below (abs b) q ->
  exists t, split_slash q = "" :: t /\ (exists u, t = a ++ u) /\ (exists v, t = b ++ v).
Proof.
  intros Na Nb Fa Fb q Ha Hb.
  assert (K : forall a, a <> [] -> Forall normal a -> at_or_below (abs a) q -> exists u, split_slash q = "" :: a ++ u).
  { intros x N F [->|[t ->]].
    - exists []. rewrite app_nil_r. apply abs_split; assumption.
    - exists (split_slash t). rewrite split_app, abs_split by assumption. reflexivity. }
  destruct (K a Na Fa Ha) as [u Hu], (K b Nb Fb Hb) as [v Hv]. exists (a ++ u). split; [exact Hu|]. split; [eexists; reflexivity|].
  exists v. rewrite Hu in Hv. congruence.
Qed.
Lemma component_inj k k' : component k = component k' -> k = k'.
Proof. destruct k, k'; intros H; congruence || discriminate. Qed.

Lemma dirs_disjoint base k k' id id' q : absolute base -> plain id -> plain id' -> id <> id' ->
  at_or_below (repo_dir base k id) q -> ~ at_or_below (repo_dir base k' id') q.
Proof.
  intros (l & N & F & ->) P P' D B B'. rewrite dir_plain in B, B' by assumption.
  destruct (below_prefix (l ++ [component k; id]) (l ++ [component k'; id'])) with (q := q) as (t & _ & (u & Hu) & (v & Hv)); try assumption.
  - destruct l; discriminate.
  - destruct l; discriminate.
  - apply Forall_app. split; [exact F|]. constructor; [apply component_normal|constructor; [apply plain_normal, P|constructor]].
  - apply Forall_app. split; [exact F|]. constructor; [apply component_normal|constructor; [apply plain_normal, P'|constructor]].
  - rewrite Hu in Hv. rewrite <- !app_assoc in Hv. apply app_inv_head in Hv. injection Hv as _ E _. contradiction.
Qed.

(** ** Deleting removes exactly what lies in the four directories *)
Definition in_dirs (base id q : string) : Prop := exists k, at_or_below (repo_dir base k id) q.

Lemma filter_id {A} (f : A -> bool) l : (forall x, In x l -> f x = true) -> filter f l = l.
Proof. induction l as [|x l IH]; intros H; [reflexivity|]. cbn [filter]. rewrite (H x (or_introl eq_refl)), IH; [reflexivity|]. intros y Hy. apply H. right. exact Hy. Qed.
Lemma existsb_no {A} (f : A -> bool) l : existsb f l = false -> forall x, In x l -> f x = false.
Proof. intros H x Hx. destruct (f x) eqn:E; [|reflexivity]. rewrite <- H. symmetry. apply existsb_exists. exists x. auto. Qed.
Lemma remove_absent p d : path_exists d p = false -> remove_all p d = d.
Proof.
  unfold path_exists, remove_all. intros H. apply orb_false_iff in H as [H1 H2]. destruct d as [rs ds fs]. cbn [d_repos d_dirs d_files] in *.
  rewrite !filter_id; [reflexivity| |].
  - intros f Hf. rewrite (existsb_no _ _ H2 _ Hf). reflexivity.
  - intros q Hq. rewrite (existsb_no _ _ H1 _ Hq). reflexivity.
Qed.
Lemma remove_content p d q c : content (remove_all p d) q c <-> content d q c /\ ~ at_or_below p q.
Proof.
  unfold content, remove_all. cbn [d_files]. rewrite filter_In. cbn [fst]. rewrite negb_true_iff, <- removed_by_spec.
  destruct (removed_by p q); intuition congruence.
Qed.
Lemma remove_dirs p d q : In q (d_dirs (remove_all p d)) <-> In q (d_dirs d) /\ ~ at_or_below p q.
Proof.
  unfold remove_all. cbn [d_dirs]. rewrite filter_In. rewrite negb_true_iff, <- removed_by_spec.
  destruct (removed_by p q); intuition congruence.
Qed.
Definition clear (base id : string) (d : disk) (k : kind) : disk :=
  if path_exists d (repo_dir base k id) then remove_all (repo_dir base k id) d else d.
Lemma clear_eq base id d k : clear base id d k = remove_all (repo_dir base k id) d.
Proof. unfold clear. destruct (path_exists d (repo_dir base k id)) eqn:E; [reflexivity|]. symmetry. apply remove_absent, E. Qed.
Lemma clear_all base id ks d q c :
  (content (fold_left (clear base id) ks d) q c <-> content d q c /\ ~ exists k, In k ks /\ at_or_below (repo_dir base k id) q)
  /\ (In q (d_dirs (fold_left (clear base id) ks d)) <-> In q (d_dirs d) /\ ~ exists k, In k ks /\ at_or_below (repo_dir base k id) q)
  /\ d_repos (fold_left (clear base id) ks d) = d_repos d.
Proof.
  revert d; induction ks as [|k ks IH]; intros d; cbn [fold_left].
  - split; [|split; [|reflexivity]]; firstorder.
  - destruct (IH (clear base id d k)) as (I1 & I2 & I3). rewrite I1, I2, I3, clear_eq, remove_content, remove_dirs.
    assert (K : (~ at_or_below (repo_dir base k id) q /\ ~ (exists k', In k' ks /\ at_or_below (repo_dir base k' id) q))
                <-> ~ exists k', In k' (k :: ks) /\ at_or_below (repo_dir base k' id) q).
    { split; [intros [A B] (k' & [<-|H] & H'); [exact (A H')|apply B; eauto]|]. intros H. split; [intros A; apply H; exists k; split; [left; reflexivity|exact A]|].
      intros (k' & A & B). apply H. exists k'. split; [right; exact A|exact B]. }
    split; [|split; [|reflexivity]]; tauto.
Qed.
Lemma all_kinds k : In k kinds.
Proof. destruct k; cbn; auto. Qed.

(** For every state, every base directory and every name whatsoever: deletion
    is refused iff the name is not registered; otherwise the registration goes,
    the files in the four directories go, and every other file stays. *)
Theorem C98_delete_exact : forall base id d,
  (delete base id d = None <-> ~ registered d id)
  /\ (forall d', delete base id d = Some d' ->
       (forall q c, content d' q c <-> content d q c /\ ~ in_dirs base id q)
       /\ (forall x, registered d' x <-> registered d x /\ x <> id)).
Proof.
  intros base id d. unfold delete. destruct (existsb (seqb id) (d_repos d)) eqn:E.
  - assert (R : registered d id) by (apply existsb_exists in E as (x & Hx & Ex); apply seqb_eq in Ex; subst; exact Hx).
    split; [split; [discriminate|intros H; destruct (H R)]|]. intros d' H.
    assert (Hd : d' = fold_left (clear base id) kinds (Disk (filter (fun x => negb (seqb id x)) (d_repos d)) (d_dirs d) (d_files d))) by (injection H as <-; reflexivity).
    subst d'. clear H. split.
    + intros q c. destruct (clear_all base id kinds (Disk (filter (fun x => negb (seqb id x)) (d_repos d)) (d_dirs d) (d_files d)) q c) as (H & _).
      rewrite H. unfold content, in_dirs. cbn [d_files]. split; intros [A B]; (split; [exact A|]); intros (k & Hk).
      * apply B. exists k. split; [apply all_kinds|exact Hk].
      * apply B. exists k. apply Hk.
    + intros x. unfold registered. destruct (clear_all base id kinds (Disk (filter (fun x => negb (seqb id x)) (d_repos d)) (d_dirs d) (d_files d)) "" "") as (_ & _ & H).
      rewrite H. cbn [d_repos]. rewrite filter_In, negb_true_iff. destruct (seqb_spec id x); intuition congruence.
  - split; [split; [intros _ R|reflexivity]|discriminate]. pose proof (existsb_no _ _ E _ R) as H. rewrite (proj2 (seqb_eq id id) eq_refl) in H. discriminate.
Qed.

(** For ordinary names: the files of every other repository stay, in each of
    its four directories. *)
Theorem C98_delete_leaves_others : forall base id id' d d' k q c,
  absolute base -> plain id -> plain id' -> id <> id' ->
  delete base id d = Some d' -> at_or_below (repo_dir base k id') q ->
  (content d' q c <-> content d q c).
Proof.
  intros base id id' d d' k q c A P P' D H B. destruct (C98_delete_exact base id d) as (_ & X). destruct (X d' H) as (Y & _). rewrite Y.
  split; [intros [Z _]; exact Z|]. intros Z. split; [exact Z|]. intros (k' & Bk). exact (dirs_disjoint base k k' id' id q A P' P (not_eq_sym D) B Bk).
Qed.

(** Names without an upward component (slashes allowed): nothing outside the
    four base trees is touched, in particular not the pool or the databases. *)
Theorem C98_delete_stays_inside : forall base id d d' q c,
  absolute base -> no_dotdot id -> delete base id d = Some d' ->
  (forall k, ~ at_or_below (join base (component k)) q) ->
  (content d' q c <-> content d q c).
Proof.
  intros base id d d' q c (l & N & F & ->) U H O. destruct (C98_delete_exact (abs l) id d) as (_ & X). destruct (X d' H) as (Y & _). rewrite Y.
  split; [intros [Z _]; exact Z|]. intros Z. split; [exact Z|]. intros (k & B). apply (O k). rewrite base_k by assumption. rewrite dir_abs in B by assumption.
  set (r := filter keepc (split_slash id)) in *. destruct r as [|x r]; [exact B|]. right.
  assert (E : abs (l ++ component k :: x :: r) = (abs (l ++ [component k]) ++ "/" ++ join_slash (x :: r))%string).
  { change (component k :: x :: r) with ([component k] ++ x :: r). rewrite app_assoc. unfold abs.
    rewrite (join_app (l ++ [component k]) (x :: r)); [reflexivity|destruct l; discriminate|discriminate]. }
  destruct B as [->|[t ->]]; [eexists; exact E|]. rewrite E. exists (join_slash (x :: r) ++ "/" ++ t)%string. rewrite !sapp_assoc. reflexivity.
Qed.

(** ** Creating *)
Lemma bake_files base id d : d_files (bake base id d) = d_files d /\ d_repos (bake base id d) = d_repos d.
Proof.
  unfold bake. generalize kinds. intros ks. revert d. induction ks as [|k ks IH]; intros d; cbn [fold_left]; [auto|].
  destruct (path_exists d (repo_dir base k id)); [apply IH|]. destruct (IH (mkdir_all (repo_dir base k id) d)) as [A B]. rewrite A, B. auto.
Qed.

(** A created repository is registered, has no files in its package directory,
    and nothing else changes. *)
Theorem C98_create_exact : forall base id d d',
  create base id d = Some d' ->
  (forall x, registered d' x <-> registered d x \/ x = id)
  /\ (forall q c, content d' q c <-> content d q c)
  /\ (forall q c, at_or_below (repo_dir base KRepo id) q -> ~ content d' q c).
Proof.
  intros base id d d'. unfold create. destruct (existsb (seqb id) (d_repos d)) eqn:E; [discriminate|].
  destruct (path_exists d (repo_dir base KRepo id)) eqn:X; [discriminate|]. intros H. injection H as <-. unfold registered, content.
  destruct (bake_files base id (Disk (id :: d_repos d) (d_dirs d) (d_files d))) as [-> ->]. cbn [d_files d_repos In].
  split; [intros x; intuition congruence|]. split; [tauto|]. intros q c B Hq.
  apply orb_false_iff in X as [_ X]. pose proof (existsb_no _ _ X _ Hq) as Z. cbn [fst] in Z. apply removed_by_spec in B. congruence.
Qed.

(** ** Histories *)
(** A file written into a repository with an ordinary name stays as long as
    that repository is neither deleted nor written to at that path, whatever
    else is created, deleted and written under ordinary names. *)
Definition deletes (id : string) (o : dop) : Prop := o = DDelete id.
Definition writes_to (base q : string) (o : dop) : Prop := match o with DWrite k i rel _ => join (repo_dir base k i) rel = q | _ => False end.
Theorem C98_files_survive : forall base id k q c l d,
  absolute base -> plain id -> plain_names l -> at_or_below (repo_dir base k id) q ->
  (forall o, In o l -> ~ deletes id o /\ ~ writes_to base q o) ->
  (content (fold_left (dstep base) l d) q c <-> content d q c).
Proof.
  intros base id k q c l d A P PN B. revert d. induction l as [|o l IH]; intros d H; cbn [fold_left]; [tauto|].
  rewrite IH; [| |intros o' Ho'; apply H; right; exact Ho'].
  2:{ intros o' i Ho' Hi. apply (PN o' i); [right; exact Ho'|exact Hi]. }
  destruct (H o (or_introl eq_refl)) as [Hd Hw]. unfold dstep. destruct o as [i|i|k' i rel c'].
  - destruct (create base i d) as [d'|] eqn:E; [|tauto]. destruct (C98_create_exact _ _ _ _ E) as (_ & X & _). apply X.
  - destruct (delete base i d) as [d'|] eqn:E; [|tauto].
    apply (C98_delete_leaves_others base i id d d' k q c A); [| | |exact E|exact B].
    + apply (PN (DDelete i) i); left; reflexivity.
    + exact P.
    + intros ->. apply Hd. reflexivity.
  - unfold write_file. destruct (existsb (seqb i) (d_repos d)); [|tauto]. unfold content. cbn [d_files In]. rewrite filter_In. cbn [fst].
    cbn [writes_to] in Hw. destruct (seqb_spec (join (repo_dir base k' i) rel) q); [contradiction|]. cbn [negb]. intuition congruence.
Qed.

(** ** With a slash in the name, which the clone request allows, it is false *)
Definition nested : list dop := [DCreate "stable"; DCreate "stable/x"; DWrite KRepo "stable/x" "n/nano/nano-1-1-1-x86_64.eopkg" "P"; DDelete "stable"].
Theorem C98_nested_repository_refuted :
  exists base l id id' k q c, absolute base /\ registered (drun base [] l) id' /\ id <> id'
    /\ at_or_below (repo_dir base k id') q /\ content (drun base [] l) q c
    /\ registered (drun base [] (l ++ [DDelete id])) id' /\ ~ content (drun base [] (l ++ [DDelete id])) q c.
Proof.
  exists "/srv", (removelast nested), "stable", "stable/x", KRepo, "/srv/repo/stable/x/n/nano/nano-1-1-1-x86_64.eopkg", "P".
  split; [exists ["srv"]; repeat split; try discriminate; repeat constructor; discriminate|].
  split; [vm_compute; auto|]. split; [discriminate|]. split; [right; exists "n/nano/nano-1-1-1-x86_64.eopkg"; reflexivity|].
  split; [vm_compute; auto|]. split; [vm_compute; auto|]. vm_compute. tauto.
Qed.
(** and with an upward component the files are not even in the repository trees *)
Theorem C98_upward_name_refuted :
  exists base l id q c, absolute base /\ registered (drun base [] l) id /\ content (drun base [] l) q c
    /\ at_or_below (repo_dir base KRepo id) q /\ (forall k, ~ at_or_below (join base (component k)) q).
Proof.
  exists "/srv", [DCreate "../../etc/x"; DWrite KRepo "../../etc/x" "f" "P"], "../../etc/x", "/etc/x/f", "P".
  split; [exists ["srv"]; repeat split; try discriminate; repeat constructor; discriminate|].
  split; [vm_compute; auto|]. split; [vm_compute; auto|]. split; [right; exists "f"; reflexivity|].
  intros k H. apply removed_by_spec in H. destruct k; vm_compute in H; discriminate.
Qed.

(** Non-vacuity: two repositories, one deleted, the other's package and asset stay. *)
Definition demo_l : list dop :=
  [DCreate "stable"; DCreate "stable2"; DWrite KRepo "stable2" "n/nano/a.eopkg" "P"; DWrite KAssets "stable2" "groups.xml" "G";
   DWrite KRepo "stable" "n/nano/a.eopkg" "Q"; DDelete "stable"; DCreate "stable"].
Example C98_demo :
  plain_names demo_l /\ plain "stable2" /\ absolute "/srv"
  /\ d_files (drun "/srv" [("/srv/pool/n/nano/a.eopkg", "P")] demo_l)
     = [("/srv/assets/stable2/groups.xml", "G"); ("/srv/repo/stable2/n/nano/a.eopkg", "P"); ("/srv/pool/n/nano/a.eopkg", "P")]
  /\ d_repos (drun "/srv" [] demo_l) = ["stable"; "stable2"].
Proof.
  assert (P1 : plain "stable") by (apply plain_normal; repeat split; discriminate).
  assert (P2 : plain "stable2") by (apply plain_normal; repeat split; discriminate).
  split; [|split; [exact P2|split; [exists ["srv"]; repeat split; try discriminate; repeat constructor; discriminate|split; reflexivity]]].
  intros o i Ho Hi. cbn in Ho. repeat (destruct Ho as [<-|Ho]; [cbn in Hi; destruct Hi as [<-|[]]; assumption|]). destruct Ho.
Qed.

Print Assumptions C98_delete_exact.
Print Assumptions C98_delete_leaves_others.
Print Assumptions C98_delete_stays_inside.
Print Assumptions C98_create_exact.
Print Assumptions C98_files_survive.
Print Assumptions C98_nested_repository_refuted.
Print Assumptions C98_upward_name_refuted.
