(** * PropsImport: properties C88, C89 and C90 - what an import does
    (theorems; proofs in Import.v and Same.v) *)
From Verif Require Import Model Spec Demo DemoOk DbInv DbOps Wp FsInv Pure IndexOps ApiOps History OpFacts2 IndexFacts Import Same PropsOps.
Open Scope string_scope. Open Scope list_scope.

(** ** Specification *)
(** where package [id] is kept: in the pool, and in repository [r] *)
Definition pool_file (cat : string -> meta) (s : state) (id : string) : option string :=
  file_content (st_fs s) (Loc TPool (comp_of (cat id)) id).
Definition published_file (cat : string -> meta) (s : state) (r id : string) : option string :=
  repo_file s r (comp_of (cat id)) id.
(** the bytes sent under the file name [id]; of two files with one name the first counts *)
Definition bytes_sent (s : state) (pkgs : list loc) (id : string) : option string :=
  match find (fun l => seqb (l_id l) id) pkgs with Some l => file_content (st_fs s) l | None => None end.

(** C88. A successful import adds exactly the packages sent; what was not listed
    before is served, and kept in the pool, with the bytes sent, or with the bytes
    the pool already had under that name; no existing file changes and no other
    file appears; other repositories keep their listings. *)
Theorem C88_import_exact :
  forall E cat s o r pkgs strict, good_catalog cat -> good_env E -> reachable_completed E cat s -> good_oracle o ->
    good_op (OpAdd r pkgs strict) -> succeeds E o (OpAdd r pkgs strict) s ->
    let s' := after E o (OpAdd r pkgs strict) s in
    (forall id, available s' r id <-> available s r id \/ In id (map l_id pkgs)) /\
    (forall x, x <> r -> same_listings x s s') /\
    (forall l c, file_content (st_fs s) l = Some c -> file_content (st_fs s') l = Some c) /\
    (forall l, file_content (st_fs s) l = None -> file_content (st_fs s') l <> None ->
       exists p, In p pkgs /\ l_id l = l_id p /\ l_comp l = comp_of (cat (l_id p)) /\ (l_tree l = TPool \/ l_tree l = TRepo r)) /\
    (forall id, In id (map l_id pkgs) -> ~ available s r id -> exists c,
       published_file cat s' r id = Some c /\ pool_file cat s' id = Some c /\
       (pool_at s id = None -> bytes_sent s pkgs id = Some c) /\
       (pool_at s id <> None -> pool_file cat s id = Some c)).
Proof.
  intros E cat s o r pkgs strict Hc HE (h & Hh & Hf & ->) Ho Hp Su s'. set (s := run_history E h) in *.
  pose proof (hist_fz E cat Hc HE h Hh Hf) as I. fold s in I.
  destruct (import_done E cat Hc HE false s o r pkgs strict I Ho Hp Su) as [[K Y B] R O A _]. fold s' in K, Y, B, R, O, A.
  unfold good_op in Hp. rewrite Forall_forall in Hp.
  split; [exact A|]. split.
  { intros x N. split; [unfold repo_exists; rewrite R; reflexivity|]. intros n. unfold entry_at. rewrite (O x N). reflexivity. }
  split; [exact K|]. split.
  { intros [t c id] F F'. destruct (existsb (fun p => loc_eqb (Loc t c id) (at_pool cat (l_id p)) || loc_eqb (Loc t c id) (at_repo cat r (l_id p))) pkgs) eqn:X.
    - apply existsb_exists in X. destruct X as (p & Hin & X). exists p. split; [exact Hin|]. apply orb_true_iff in X. destruct X as [X|X].
      + destruct (loc_eqb_spec (Loc t c id) (at_pool cat (l_id p))) as [Eq|]; [|discriminate]. injection Eq as -> -> ->. cbn. auto.
      + destruct (loc_eqb_spec (Loc t c id) (at_repo cat r (l_id p))) as [Eq|]; [|discriminate]. injection Eq as -> -> ->. cbn. auto.
    - exfalso. apply F'. rewrite Y; [exact F|]. intros p Hin.
      assert (Z : loc_eqb (Loc t c id) (at_pool cat (l_id p)) || loc_eqb (Loc t c id) (at_repo cat r (l_id p)) = false).
      { destruct (loc_eqb (Loc t c id) (at_pool cat (l_id p)) || loc_eqb (Loc t c id) (at_repo cat r (l_id p))) eqn:Z; [|reflexivity].
        rewrite <- X. symmetry. apply existsb_exists. exists p. auto. }
      apply orb_false_iff in Z. destruct Z as [Z1 Z2].
      destruct (loc_eqb_spec (Loc t c id) (at_pool cat (l_id p))); [discriminate|]. destruct (loc_eqb_spec (Loc t c id) (at_repo cat r (l_id p))); [discriminate|]. auto. }
  intros id Hin N. assert (N' : ~ In id (avail_db (st_db s) r (m_name (cat id)))).
  { intros X. apply N. unfold avail_db in X. destruct (mget (d_ents (st_db s) r) (m_name (cat id))) as [e|] eqn:G; [|destruct X]. exists (m_name (cat id)), e. auto. }
  destruct (B id Hin N') as (c & C1 & C2 & C3). exists c. split; [exact C1|]. split; [exact C2|]. split; [exact C3|].
  intros Gp. destruct (pool_at s id) as [p|] eqn:G; [|congruence].
  assert (D : is_delta_id id = false) by (apply in_map_iff in Hin; destruct Hin as (l & <- & Hl); apply Hp, Hl).
  destruct (fx_pool _ _ _ (i_fx _ _ _ _ _ _ I eq_refl) id p G D) as (c0 & D1 & _). pose proof (K _ _ D1) as D2.
  unfold at_pool in C2. rewrite C2 in D2. injection D2 as ->. exact D1.
Qed.
Print Assumptions C88_import_exact.
(** What is served need not be what was sent: a second, different file of the same
    name, sent to another repository, is accepted and ignored. *)
Definition other_copy : loc := Loc TExt "/elsewhere" "nano-2.eopkg".
Definition h_copy : list event := h_two ++ [EvPut other_copy "nano12"; EvOp demo_oracle (OpCreate "third")].
Lemma h_copy_good : good_history (demo_env true) demo_cat h_copy.
Proof. unfold h_copy, h_two; cbn [app]. unfold good_history. demo_hist. Qed.
Theorem C88_bytes_sent_are_served_refuted :
  exists E cat s o r l c, good_catalog cat /\ good_env E /\ reachable_delta_free E cat s /\ good_oracle o /\ good_op (OpAdd r [l] false) /\
    succeeds E o (OpAdd r [l] false) s /\ ~ available s r (l_id l) /\ file_content (st_fs s) l = Some c /\
    available (after E o (OpAdd r [l] false) s) r (l_id l) /\
    published_file cat (after E o (OpAdd r [l] false) s) r (l_id l) <> Some c.
Proof.
  exists (demo_env true), demo_cat, (run_history (demo_env true) h_copy), demo_oracle, "third", other_copy, "nano12".
  split; [apply demo_cat_good|]. split; [apply demo_env_good|]. split.
  { exists h_copy. split; [apply h_copy_good|]. split; [unfold crash_free, h_copy, h_two; repeat constructor|]. split; [unfold delta_free, h_copy, h_two; repeat constructor|reflexivity]. }
  split; [apply demo_oracle_good|]. split; [unfold good_op; demo_hist|]. split; [exists []; here|]. split.
  { intros (n & e & G & _). unfold entry_at in G. assert (X : mlist (d_ents (st_db (run_history (demo_env true) h_copy)) "third") = []) by (vm_compute; reflexivity).
    unfold mget in G. rewrite X in G. discriminate G. }
  split; [here|]. split; [exists "nano"; eexists; split; [here|left; reflexivity]|].
  intros X. assert (Y : published_file demo_cat (after (demo_env true) demo_oracle (OpAdd "third" [other_copy] false) (run_history (demo_env true) h_copy)) "third" "nano-2.eopkg" = Some "nano2") by (vm_compute; reflexivity).
  change (l_id other_copy) with "nano-2.eopkg" in X. rewrite Y in X. discriminate X.
Qed.
Print Assumptions C88_bytes_sent_are_served_refuted.

(** ** C89: only what is listed matters *)
(** no repository holds two versions of one package with the same release *)
Definition releases_differ (cat : string -> meta) (s : state) (r : string) : Prop :=
  forall id id', available s r id -> available s r id' -> m_name (cat id) = m_name (cat id') -> rel (cat id) = rel (cat id') -> id = id'.

(** C89. Whatever was done to get there: two sets of repositories that list the same
    packages agree on every record and every reference count, and, where the package
    files agree, on every pool record. *)
Theorem C89_listing_determines_records :
  forall E cat s t, good_catalog cat -> good_env E -> reachable_delta_free E cat s -> reachable_delta_free E cat t ->
    (forall r, repo_exists s r = repo_exists t r) -> (forall r id, available s r id <-> available t r id) -> (forall r, releases_differ cat s r) ->
    (forall r n, entry_at s r n = entry_at t r n) /\ (forall id, refcount s id = refcount t id) /\
    ((forall id, pool_at s id <> None -> pool_file cat s id = pool_file cat t id) -> forall id, pool_at s id = pool_at t id).
Proof.
  intros E cat s t Hc HE (h & Hh & Hf & Hd & ->) (k & Kh & Kf & Kd & ->) Re Av Ap.
  pose proof (hist_ex E cat Hc HE h Hh Hf Hd) as I. pose proof (hist_ex E cat Hc HE k Kh Kf Kd) as J.
  assert (En : forall r n, entry_at (run_history E h) r n = entry_at (run_history E k) r n).
  { intros r n. apply (entries_same E cat true true true true _ _ r r I J (Ap r) (Av r)). intros m. unfold delta_ids_of, entry_at.
    destruct (mget (d_ents (st_db (run_history E h)) r) m) eqn:G1; [rewrite (i_nod _ _ _ _ _ _ I eq_refl _ _ _ G1)|];
      (destruct (mget (d_ents (st_db (run_history E k)) r) m) eqn:G2; [rewrite (i_nod _ _ _ _ _ _ J eq_refl _ _ _ G2)|]); reflexivity. }
  pose proof (counts_same E cat _ _ I J Re En) as Cs. split; [exact En|]. split; [exact Cs|]. intros By.
  apply (pool_same E cat _ _ I J Cs); [|exact By]. intros id D. split; apply (no_pooled_delta E cat); assumption.
Qed.
Print Assumptions C89_listing_determines_records.

(** The same files in another order give the same records, pool, package files and
    index, byte for byte. *)
Theorem C89_import_order_is_irrelevant :
  forall E cat s o o' r pkgs pkgs' strict strict', good_catalog cat -> good_env E -> reachable_delta_free E cat s -> good_oracle o -> good_oracle o' ->
    good_op (OpAdd r pkgs strict) -> Permutation pkgs pkgs' -> NoDup (map l_id pkgs) ->
    succeeds E o (OpAdd r pkgs strict) s -> succeeds E o' (OpAdd r pkgs' strict') s ->
    let s1 := after E o (OpAdd r pkgs strict) s in
    let s2 := after E o' (OpAdd r pkgs' strict') s in
    releases_differ cat s1 r ->
    (forall x n, entry_at s1 x n = entry_at s2 x n) /\ (forall id, pool_at s1 id = pool_at s2 id) /\
    (forall l, file_content (st_fs s1) l = file_content (st_fs s2) l) /\
    (forall f, In f published_index_files -> index_file s1 r f = index_file s2 r f).
Proof.
  intros E cat s o o' r pkgs pkgs' strict strict' Hc HE (h & Hh & Hf & Hd & ->) Ho Ho' Hp Pm ND Su Su' s1 s2 Ap.
  pose proof (hist_ex E cat Hc HE h Hh Hf Hd) as I.
  assert (Hp' : good_op (OpAdd r pkgs' strict')).
  { unfold good_op in *. rewrite Forall_forall in *. intros l Hl. apply Hp. eapply Permutation_in; [apply Permutation_sym, Pm|exact Hl]. }
  pose proof (import_done E cat Hc HE true _ o r pkgs strict I Ho Hp Su) as M1. pose proof (import_done E cat Hc HE true _ o' r pkgs' strict' I Ho' Hp' Su') as M2.
  assert (I1 : Inv E cat true true [] s1) by (apply (after_inv E cat Hc HE); auto). assert (I2 : Inv E cat true true [] s2) by (apply (after_inv E cat Hc HE); auto).
  destruct (imports_agree E cat r pkgs pkgs' (run_history E h) s1 s2 I I1 I2 Hp M1 M2) as (A & B & C & D).
  - intros id. split; apply Permutation_in; [|apply Permutation_sym]; apply Permutation_map, Pm.
  - intros id. apply sent_perm; assumption.
  - exact Ap.
  - split; [exact A|]. split; [exact B|]. split; [exact C|]. intros f Hf'.
    destruct (request_text E cat Hc HE true true _ o (OpAdd r pkgs strict) r I Ho Hp eq_refl Su) as (t1 & T1 & F1).
    destruct (request_text E cat Hc HE true true _ o' (OpAdd r pkgs' strict') r I Ho' Hp' eq_refl Su') as (t2 & T2 & F2).
    fold s1 in T1, F1. fold s2 in T2, F2. rewrite F1, F2 by exact Hf'. congruence.
Qed.
Print Assumptions C89_import_order_is_irrelevant.

(** Nor does it matter whether the files are sent in one request or in two. *)
Theorem C89_batches_are_irrelevant :
  forall E cat s o o1 o2 r a b strict strict1 strict2, good_catalog cat -> good_env E -> reachable_delta_free E cat s ->
    good_oracle o -> good_oracle o1 -> good_oracle o2 -> good_op (OpAdd r (a ++ b) strict) ->
    succeeds E o (OpAdd r (a ++ b) strict) s -> succeeds E o1 (OpAdd r a strict1) s ->
    succeeds E o2 (OpAdd r b strict2) (after E o1 (OpAdd r a strict1) s) ->
    let s1 := after E o (OpAdd r (a ++ b) strict) s in
    let s2 := after E o2 (OpAdd r b strict2) (after E o1 (OpAdd r a strict1) s) in
    releases_differ cat s1 r ->
    (forall x n, entry_at s1 x n = entry_at s2 x n) /\ (forall id, pool_at s1 id = pool_at s2 id) /\
    (forall l, file_content (st_fs s1) l = file_content (st_fs s2) l) /\
    (forall f, In f published_index_files -> index_file s1 r f = index_file s2 r f).
Proof.
  intros E cat s o o1 o2 r a b strict strict1 strict2 Hc HE (h & Hh & Hf & Hd & ->) Ho Ho1 Ho2 Hp Su Su1 Su2 s1 s2 Ap.
  pose proof (hist_ex E cat Hc HE h Hh Hf Hd) as I. set (s := run_history E h) in *.
  assert (Hpa : good_op (OpAdd r a strict1)) by (unfold good_op in *; apply Forall_app in Hp; apply Hp).
  assert (Hpb : good_op (OpAdd r b strict2)) by (unfold good_op in *; apply Forall_app in Hp; apply Hp).
  set (u := after E o1 (OpAdd r a strict1) s) in *.
  assert (Iu : Inv E cat true true [] u) by (apply (after_inv E cat Hc HE); auto).
  assert (I1 : Inv E cat true true [] s1) by (apply (after_inv E cat Hc HE); auto). assert (I2 : Inv E cat true true [] s2) by (apply (after_inv E cat Hc HE); auto).
  pose proof (import_done E cat Hc HE true s o r (a ++ b) strict I Ho Hp Su) as M. pose proof (import_done E cat Hc HE true s o1 r a strict1 I Ho1 Hpa Su1) as M1.
  pose proof (import_done E cat Hc HE true u o2 r b strict2 Iu Ho2 Hpb Su2) as M2.
  pose proof (import_app E cat true r a b s u s2 I Iu Hp M1 M2) as M12.
  destruct (imports_agree E cat r (a ++ b) (a ++ b) s s1 s2 I I1 I2 Hp M M12) as (A & B & C & D); [tauto|reflexivity|exact Ap|].
  split; [exact A|]. split; [exact B|]. split; [exact C|]. intros f Hf'.
  destruct (request_text E cat Hc HE true true s o (OpAdd r (a ++ b) strict) r I Ho Hp eq_refl Su) as (t1 & T1 & F1).
  destruct (request_text E cat Hc HE true true u o2 (OpAdd r b strict2) r Iu Ho2 Hpb eq_refl Su2) as (t2 & T2 & F2).
  fold s1 in T1, F1. fold s2 in T2, F2. rewrite F1, F2 by exact Hf'. congruence.
Qed.
Print Assumptions C89_batches_are_irrelevant.

(** The condition on releases is needed: of two versions with one release number the
    one imported first is published. *)
Definition tie_cat (id : string) : meta := if seqb id "nano-2b.eopkg" then mk_meta "nano" "nano" 2 else demo_cat id.
Lemma tie_cat_good : good_catalog tie_cat.
Proof.
  intros id. unfold tie_cat. destruct (seqb id "nano-2b.eopkg"); [|apply demo_cat_good].
  change (mk_meta "nano" "nano" 2) with (demo_cat "nano-2.eopkg"). apply demo_cat_good.
Qed.
Definition h_tie : list event :=
  [ EvPut (ext "nano-2.eopkg") "nano2"; EvPut (ext "nano-2b.eopkg") "nano12"; EvOp demo_oracle (OpCreate "unstable") ].
Theorem C89_order_matters_between_equal_releases_refuted :
  exists E cat s o r pkgs pkgs' n, good_catalog cat /\ good_env E /\ reachable_delta_free E cat s /\ good_oracle o /\
    good_op (OpAdd r pkgs false) /\ Permutation pkgs pkgs' /\ NoDup (map l_id pkgs) /\
    succeeds E o (OpAdd r pkgs false) s /\ succeeds E o (OpAdd r pkgs' false) s /\
    published (after E o (OpAdd r pkgs false) s) r n <> published (after E o (OpAdd r pkgs' false) s) r n.
Proof.
  exists (demo_env true), tie_cat, (run_history (demo_env true) h_tie), demo_oracle, "unstable",
    [ext "nano-2.eopkg"; ext "nano-2b.eopkg"], [ext "nano-2b.eopkg"; ext "nano-2.eopkg"], "nano".
  split; [apply tie_cat_good|]. split; [apply demo_env_good|]. split.
  { exists h_tie. split; [unfold good_history, h_tie; demo_hist|]. split; [unfold crash_free, h_tie; repeat constructor|]. split; [unfold delta_free, h_tie; repeat constructor|reflexivity]. }
  split; [apply demo_oracle_good|]. split; [unfold good_op; demo_hist|]. split; [apply perm_swap|]. split.
  { cbn. repeat constructor; cbn; intuition discriminate. }
  split; [exists []; here|]. split; [exists []; here|].
  assert (X : published (after (demo_env true) demo_oracle (OpAdd "unstable" [ext "nano-2.eopkg"; ext "nano-2b.eopkg"] false) (run_history (demo_env true) h_tie)) "unstable" "nano" = Some "nano-2.eopkg") by (vm_compute; reflexivity).
  assert (Y : published (after (demo_env true) demo_oracle (OpAdd "unstable" [ext "nano-2b.eopkg"; ext "nano-2.eopkg"] false) (run_history (demo_env true) h_tie)) "unstable" "nano" = Some "nano-2b.eopkg") by (vm_compute; reflexivity).
  rewrite X, Y. clear. discriminate.
Qed.
Print Assumptions C89_order_matters_between_equal_releases_refuted.

Example C89_demo : let s := run_history (demo_env true)
    [ EvPut (ext "nano-1.eopkg") "nano1"; EvPut (ext "nano-2.eopkg") "nano2"; EvPut (ext "libx-1.eopkg") "libx1"; EvOp demo_oracle (OpCreate "unstable") ] in
  let a := [ext "nano-1.eopkg"; ext "libx-1.eopkg"] in let b := [ext "nano-2.eopkg"] in
  reachable_delta_free (demo_env true) demo_cat s /\ good_op (OpAdd "unstable" (a ++ b) false) /\ NoDup (map l_id (a ++ b)) /\ Permutation (a ++ b) (b ++ a) /\
  succeeds (demo_env true) demo_oracle (OpAdd "unstable" (a ++ b) false) s /\ succeeds (demo_env true) demo_oracle (OpAdd "unstable" (b ++ a) false) s /\
  succeeds (demo_env true) demo_oracle (OpAdd "unstable" a false) s /\
  succeeds (demo_env true) demo_oracle (OpAdd "unstable" b false) (after (demo_env true) demo_oracle (OpAdd "unstable" a false) s) /\
  published (after (demo_env true) demo_oracle (OpAdd "unstable" (a ++ b) false) s) "unstable" "nano" = Some "nano-2.eopkg".
Proof.
  split.
  { eexists. split; [|split; [|split; [|reflexivity]]]; [unfold good_history; demo_hist|unfold crash_free; repeat constructor|unfold delta_free; repeat constructor]. }
  split; [unfold good_op; cbn [app]; demo_hist|]. split.
  { cbn. repeat constructor; cbn; intuition discriminate. }
  split; [apply Permutation_app_comm|]. split; [exists []; here|]. split; [exists []; here|]. split; [exists []; here|]. split; [exists []; here|]. here.
Qed.

(** C90. An import that brings all packages of one source release, none of which was
    listed, is undone by removing that source release: records, reference counts,
    package files and index are what they were. *)
Theorem C90_import_can_be_undone :
  forall E cat s o o' r pkgs strict source rl, good_catalog cat -> good_env E -> reachable_delta_free E cat s -> good_oracle o -> good_oracle o' ->
    good_op (OpAdd r pkgs strict) -> succeeds E o (OpAdd r pkgs strict) s ->
    let s1 := after E o (OpAdd r pkgs strict) s in
    let s2 := after E o' (OpRemoveSource r source rl) s1 in
    (forall id, In id (map l_id pkgs) -> ~ available s r id) ->
    (forall id, from_source s1 r source rl id <-> In id (map l_id pkgs)) ->
    releases_differ cat s r ->
    (forall x n, entry_at s2 x n = entry_at s x n) /\ (forall id, pool_at s2 id = pool_at s id) /\
    (forall x c id, is_delta_id id = false -> repo_file s2 x c id = repo_file s x c id) /\
    (forall c id, is_delta_id id = false -> file_content (st_fs s2) (Loc TPool c id) = file_content (st_fs s) (Loc TPool c id)) /\
    (forall x a, asset_file s2 x a = asset_file s x a) /\
    (succeeds E o' (OpRemoveSource r source rl) s1 ->
       forall i, good_oracle i -> succeeds E i (OpIndex r) s ->
       forall f, In f published_index_files -> index_file s2 r f = index_file (after E i (OpIndex r) s) r f).
Proof.
  intros E cat s o o' r pkgs strict source rl Hc HE (h & Hh & Hf & Hd & ->) Ho Ho' Hp Su s1 s2 New Src Ap.
  pose proof (hist_ex E cat Hc HE h Hh Hf Hd) as I. set (s := run_history E h) in *.
  assert (I1 : Inv E cat true true [] s1) by (apply (after_inv E cat Hc HE); auto).
  destruct (undo E cat Hc HE r pkgs source rl o' s s1 I I1 Ho' Hp (import_done E cat Hc HE true s o r pkgs strict I Ho Hp Su) New Src Ap) as (A & B & C & D & F).
  fold s2 in A, B, C, D, F. split; [exact A|]. split; [exact B|]. split; [intros x c id Hid; apply C; [right; exists x; reflexivity|exact Hid]|].
  split; [intros c id Hid; apply C; [left; reflexivity|exact Hid]|]. split; [exact F|].
  intros Su2 i Hi Sui f Hf'.
  destruct (request_text E cat Hc HE true true s1 o' (OpRemoveSource r source rl) r I1 Ho' Logic.I eq_refl Su2) as (t1 & T1 & F1). fold s2 in T1, F1.
  destruct (request_text E cat Hc HE true true s i (OpIndex r) r I Hi Logic.I eq_refl Sui) as (t2 & T2 & F2).
  assert (X : run_text E cat (after E i (OpIndex r) s) r = run_text E cat s r).
  { destruct (index_facts E cat Hc HE true true s i r I Hi) as (_ & _ & Ed & _ & Ea & _). symmetry. apply text_same.
    - apply (pub_listed E cat true true), I.
    - rewrite Ed; reflexivity.
    - intros id _. unfold item, pool_at. rewrite Ed. reflexivity.
    - intros a _. symmetry. apply Ea. }
  rewrite F1, F2 by exact Hf'. congruence.
Qed.
Print Assumptions C90_import_can_be_undone.
Example C90_demo : let s := run_history (demo_env true) (h_two ++ [EvPut (ext "nano-3.eopkg") "nano3"]) in
  reachable_delta_free (demo_env true) demo_cat s /\ succeeds (demo_env true) demo_oracle (OpAdd "unstable" [ext "nano-3.eopkg"] false) s /\
  ~ available s "unstable" "nano-3.eopkg" /\
  (forall id, from_source (after (demo_env true) demo_oracle (OpAdd "unstable" [ext "nano-3.eopkg"] false) s) "unstable" "nano" 3 id <-> In id ["nano-3.eopkg"]) /\
  succeeds (demo_env true) demo_oracle (OpRemoveSource "unstable" "nano" 3) (after (demo_env true) demo_oracle (OpAdd "unstable" [ext "nano-3.eopkg"] false) s).
Proof.
  set (k := h_two ++ [EvPut (ext "nano-3.eopkg") "nano3"]).
  assert (Av : forall s r id, available s r id -> In id (flat_map (fun x => e_avail (snd x)) (mlist (d_ents (st_db s) r)))).
  { intros s r id (n & e & G & Hin). apply in_flat_map. exists (n, e). split; [|exact Hin]. apply in_mlist, G. }
  split; [|split; [|split; [|split]]].
  - exists k. split; [unfold good_history, k, h_two; cbn [app]; demo_hist|]. split; [unfold crash_free, k, h_two; repeat constructor|]. split; [unfold delta_free, k, h_two; repeat constructor|reflexivity].
  - exists []. here.
  - intros X. apply Av in X. vm_compute in X. clear - X. intuition discriminate.
  - intros id. split.
    + intros (X & p & Gp & _ & R). apply Av in X.
      assert (Y : In id ["libx-1.eopkg"; "nano-1.eopkg"; "nano-2.eopkg"; "nano-3.eopkg"]) by (revert X; vm_compute; clear; tauto).
      clear X. destruct Y as [<-|[<-|[<-|[<-|[]]]]]; [| | |left; reflexivity]; exfalso; vm_compute in Gp; injection Gp as <-; vm_compute in R; clear - R; destruct R as [R|R]; congruence.
    + intros [<-|[]]. split; [exists "nano"; eexists; split; [here|right; right; left; reflexivity]|]. eexists. split; [here|]. split; [here|]. right. here.
  - exists []. here.
Qed.
