(** * PropsOps: properties C11-C17, C19-C25 of the Manager's requests
    (theorems only; proofs in OpFacts*.v and Frame.v) *)
From Verif Require Import Model Spec Demo DemoOk DbInv History PoolFacts OpFacts OpFacts2 IndexFacts Frame OpFacts3 PropsPool PropsIndex.
Open Scope string_scope. Open Scope list_scope.

Ltac here := vm_compute; reflexivity.

(** C11. A request changes no listing, index file, asset or file name of another
    repository - not even for an instant... *)
Theorem C11_others_untouched_at_every_instant :
  forall E cat s o p x, good_catalog cat -> good_env E -> reachable E cat s -> target p <> Some x ->
    forall t, In t (after E o p s :: crash_points E o p s) ->
      same_listings x s t /\
      (forall f, index_file t x f = index_file s x f) /\ (forall f, asset_file t x f = asset_file s x f) /\
      (forall c id, repo_file t x c id = None <-> repo_file s x c id = None).
Proof.
  intros E cat s o p x Hc HE (h & Hh & ->) N t Ht. apply framed_obs.
  exact (frame_instants E o p _ x t (FsInv.i_batch _ _ _ _ _ _ (hist_inv E cat Hc HE h Hh)) N Ht).
Qed.
Print Assumptions C11_others_untouched_at_every_instant.
(** ... and what the other repository serves has the hash and size it had. *)
Theorem C11_others_still_served :
  forall E cat s o p x id, good_catalog cat -> good_env E -> reachable_completed E cat s -> good_oracle o -> good_op p ->
    target p <> Some x -> available s x id ->
    let s' := after E o p s in
    served E s' x id /\ exists q q', pool_at s id = Some q /\ pool_at s' id = Some q' /\ p_meta q' = p_meta q.
Proof.
  intros E cat s o p x id Hc HE (h & Hh & Hf & ->) Ho Hp N.
  exact (frame_facts E cat Hc HE false _ o p x (hist_fz E cat Hc HE h Hh Hf) Ho Hp ltac:(discriminate) N id).
Qed.
Print Assumptions C11_others_still_served.
Example C11_demo : let s := run_history (demo_env true) h_two in
  reachable_completed (demo_env true) demo_cat s /\ target (OpDelete "unstable") <> Some "stable" /\
  available s "stable" "nano-1.eopkg" /\ available s "unstable" "nano-1.eopkg".
Proof.
  split; [exists h_two; split; [apply h_two_good|split; [apply h_two_crash_free|reflexivity]]|]. split; [discriminate|].
  split; (exists "nano"; eexists; split; [here|left; reflexivity]).
Qed.

(** C12. Deleting a repository removes it, its listings and its files; an item is
    purged if the repository held its last reference, other items keep their
    records; other repositories keep their listings; created again it is empty. *)
Theorem C12_delete :
  forall E cat s o r, good_catalog cat -> good_env E -> reachable E cat s ->
    let s' := after E o (OpDelete r) s in
    (succeeds E o (OpDelete r) s <-> repo_exists s r = true) /\
    (repo_exists s r = false -> s' = s) /\
    (repo_exists s r = true ->
      repo_exists s' r = false /\ (forall n, entry_at s' r n = None) /\ (forall c id, repo_file s' r c id = None) /\
      (forall f, index_file s' r f = None) /\ (forall f, asset_file s' r f = None) /\ dir_exists s' r = false /\
      (forall x, x <> r -> same_listings x s s') /\
      (forall id, ~ listed s r id -> pool_at s' id = pool_at s id) /\
      (forall id, listed s r id -> (pool_at s' id = None <-> refcount s id = 1)) /\
      (forall x id, x <> r -> listed s x id -> pool_at s' id <> None) /\
      (forall o', good_oracle o' -> let s2 := after E o' (OpCreate r) s' in
         repo_exists s2 r = true /\ (forall n, entry_at s2 r n = None) /\ (forall c id, repo_file s2 r c id = None))).
Proof.
  intros E cat s o r Hc HE (h & Hh & ->) s'. set (s := run_history E h) in *.
  pose proof (hist_inv E cat Hc HE h Hh) as I. fold s in I.
  destruct (delete_facts E cat Hc false false s o r I) as (A & B & D). fold s' in B, D.
  split; [exact A|]. split; [exact B|]. intros R. destruct (D R) as (I' & D1 & D2 & D3 & D4 & D5 & D6 & D7 & D8 & D9 & _).
  repeat (split; [assumption|]). split; [|intros o' Ho'; exact (recreate E cat Hc HE false false s o o' r I Ho' R)].
  intros x id Nx (n & e & G & L). apply (proj2 (inv_safe E cat false false s' I') x id).
  exists n, e. split; [|exact L]. rewrite (proj2 (D7 x Nx)). exact G.
Qed.
Print Assumptions C12_delete.
(** Where the books are exact (no delta requests, C02) an item is purged iff no
    other repository lists it. *)
Theorem C12_purged_iff_last :
  forall E cat s o r id, good_catalog cat -> good_env E -> reachable_delta_free E cat s -> repo_exists s r = true -> listed s r id ->
    (pool_at (after E o (OpDelete r) s) id = None <-> forall x, x <> r -> ~ listed s x id).
Proof.
  intros E cat s o r id Hc HE Re R L. destruct (C02_no_leak_partial E cat s Hc HE Re) as [X _].
  destruct Re as (h & Hh & Hf & Hd & ->). set (s := run_history E h) in *.
  pose proof (hist_ex E cat Hc HE h Hh Hf Hd) as I. fold s in I.
  destruct (delete_facts E cat Hc true true s o r I) as (_ & _ & D). destruct (D R) as (_ & _ & _ & _ & _ & _ & _ & _ & _ & D9 & _).
  rewrite (D9 id L). destruct (X id) as (rs & ND & Hl & Er). rewrite Er. split.
  - intros E1 x Nx Lx. apply Hl in Lx. apply Hl in L. destruct rs as [|a [|b rs]]; try discriminate.
    destruct L as [->|[]]. destruct Lx as [->|[]]. contradiction.
  - intros N. apply Hl in L. destruct rs as [|a [|b rs]]; [destruct L|reflexivity|]. exfalso.
    inversion ND as [|? ? Na _]; subst.
    assert (Ha : a = r) by (destruct (seqb_spec a r); auto; exfalso; apply (N a n), Hl; left; reflexivity).
    assert (Hb : b = r) by (destruct (seqb_spec b r); auto; exfalso; apply (N b n), Hl; right; left; reflexivity).
    subst. apply Na. left; reflexivity.
Qed.
Print Assumptions C12_purged_iff_last.
Example C12_demo : let s := run_history (demo_env true) (h_two ++ [EvOp demo_oracle (OpRemoveSource "stable" "libx" 0)]) in
  reachable_delta_free (demo_env true) demo_cat s /\ repo_exists s "unstable" = true /\
  listed s "unstable" "libx-1.eopkg" /\ listed s "unstable" "nano-1.eopkg" /\ refcount s "libx-1.eopkg" = 1 /\ refcount s "nano-1.eopkg" = 2.
Proof.
  split; [|split; [here|]].
  - exists (h_two ++ [EvOp demo_oracle (OpRemoveSource "stable" "libx" 0)]). unfold h_two; simpl app.
    split; [unfold good_history; demo_hist|]. split; [unfold crash_free; repeat constructor|]. split; [unfold delta_free; repeat constructor|reflexivity].
  - split; [exists "libx"; eexists; split; [here|left; left; reflexivity]|].
    split; [exists "nano"; eexists; split; [here|left; left; reflexivity]|]. split; here.
Qed.

(** C13. Creating never clobbers. *)
Theorem C13_create :
  forall E cat s o r, good_catalog cat -> good_env E -> reachable E cat s -> good_oracle o ->
    let s' := after E o (OpCreate r) s in
    (repo_exists s r = true \/ dir_exists s r = true \/ reserved r = true ->
       outcome E o (OpCreate r) s = Err /\ unchanged s s') /\
    (repo_exists s r = false -> dir_exists s r = false -> reserved r = false ->
       repo_exists s' r = true /\ (forall n, entry_at s' r n = None) /\
       (forall x, x <> r -> same_listings x s s') /\
       (forall id, pool_at s' id = pool_at s id) /\
       (forall l, file_content (st_fs s') l = file_content (st_fs s) l)).
Proof. intros E cat s o r Hc HE (h & Hh & ->) Ho. exact (create_facts E cat Hc HE false false _ o r (hist_inv E cat Hc HE h Hh) Ho). Qed.
Print Assumptions C13_create.
Example C13_demo : let s := run_history (demo_env true) (h_two ++ [EvMkdir "stray"]) in
  repo_exists s "stable" = true /\ (repo_exists s "stray" = false /\ dir_exists s "stray" = true) /\
  (repo_exists s "fresh" = false /\ dir_exists s "fresh" = false /\ reserved "fresh" = false /\ succeeds (demo_env true) demo_oracle (OpCreate "fresh") s).
Proof. repeat split; try here. exists []. here. Qed.

(** C14. Clones are faithful. *)
Theorem C14_clone :
  forall E cat s o src new full, good_catalog cat -> good_env E -> reachable E cat s -> good_oracle o ->
    let s' := after E o (OpClone src new full) s in
    (repo_exists s src = false \/ repo_exists s new = true \/ dir_exists s new = true \/ reserved new = true \/ src = new ->
       outcome E o (OpClone src new full) s = Err /\ unchanged s s') /\
    (repo_exists s src = true -> repo_exists s new = false -> dir_exists s new = false -> reserved new = false ->
       repo_exists s' new = true /\
       (forall n, available_ids s' new n = if full then available_ids s src n
                                           else match published s src n with Some id => [id] | None => [] end) /\
       (forall n, delta_ids_of s' new n = if full then delta_ids_of s src n else []) /\
       (forall n, published_release s' new n = published_release s src n) /\
       (forall x, x <> new -> same_listings x s s') /\
       (forall a c, In a ["distribution.xml"; "components.xml"; "groups.xml"] -> asset_file s src a = Some c -> asset_file s' new a = Some c)).
Proof. intros E cat s o src new full Hc HE (h & Hh & ->) Ho. exact (clone_facts E cat Hc HE false false _ o src new full (hist_inv E cat Hc HE h Hh) Ho). Qed.
Print Assumptions C14_clone.
Example C14_demo : let s := run_history (demo_env true) h_delta in
  reachable (demo_env true) demo_cat s /\ available_ids s "unstable" "nano" = ["nano-1.eopkg"; "nano-2.eopkg"] /\
  delta_ids_of s "unstable" "nano" = ["nano-1-2.delta.eopkg"] /\ succeeds (demo_env true) demo_oracle (OpClone "unstable" "stable" true) s.
Proof. split; [exists h_delta; split; [apply h_delta_good|reflexivity]|]. split; [here|]. split; [here|]. exists []. here. Qed.

(** C15. Pull. *)
Theorem C15_pull :
  forall E cat s o src tgt, good_catalog cat -> good_env E -> reachable E cat s -> good_oracle o ->
    let p := OpPull src tgt in
    let s' := after E o p s in
    (repo_exists s src = false \/ repo_exists s tgt = false \/ (exists n, ahead s src tgt n) ->
       outcome E o p s = Err /\ (forall x, same_listings x s s') /\ (forall id, pool_at s' id = pool_at s id)) /\
    (repo_exists s src = true -> repo_exists s tgt = true -> (forall n, ~ ahead s src tgt n) ->
       (forall n a, published_release s src n = Some a -> exists b, published_release s' tgt n = Some b /\ (a <= b)%Z) /\
       (forall l, outcome E o p s = Ok l -> NoDup l /\ forall n, In n l <-> behind s src tgt n) /\
       (forall n, behind s src tgt n -> published s' tgt n = published s src n /\
          forall id, In id (available_ids s' tgt n) <-> In id (available_ids s tgt n) \/ published s src n = Some id) /\
       (forall n, ~ behind s src tgt n -> entry_at s' tgt n = entry_at s tgt n) /\
       (forall x, x <> tgt -> same_listings x s s')).
Proof.
  intros E cat s o src tgt Hc HE (h & Hh & ->) Ho p s'. pose proof (hist_inv E cat Hc HE h Hh) as I.
  destruct (pull_facts E cat Hc HE false false _ o src tgt I Ho) as [A B]. fold p s' in A, B. split.
  - intros X. destruct (A X) as (A1 & A2 & _). split; [exact A1|]. split.
    + intros x. unfold same_listings, repo_exists, entry_at. rewrite A2. auto.
    + intros id. unfold pool_at. rewrite A2. reflexivity.
  - intros R1 R2 N. split; [exact (pull_up_to_date E cat Hc HE false false _ o src tgt I Ho R1 R2 N)|exact (B R1 R2 N)].
Qed.
Print Assumptions C15_pull.
Definition h_pull : list event := h_two ++ [ EvPut (ext "nano-3.eopkg") "nano3"; EvOp demo_oracle (OpAdd "unstable" [ext "nano-3.eopkg"] false);
    EvOp demo_oracle (OpRemoveSource "stable" "libx" 0) ].
Example C15_demo : let s := run_history (demo_env true) h_pull in
  reachable (demo_env true) demo_cat s /\ behind s "unstable" "stable" "nano" /\ behind s "unstable" "stable" "libx" /\
  ahead s "stable" "unstable" "nano" /\ outcome (demo_env true) demo_oracle (OpPull "unstable" "stable") s = Ok ["libx"; "nano"].
Proof.
  split; [exists h_pull; split; [unfold good_history, h_pull, h_two; simpl app; demo_hist|reflexivity]|].
  split; [exists 3%Z; split; here|]. split; [exists 1%Z; split; [here|exact I]|].
  split; [exists 2%Z, 3%Z; repeat split; here|here].
Qed.

(** C16. Remove source. (A package name that loses its last version loses all its
    deltas as well.) *)
Theorem C16_remove_source :
  forall E cat s o r source release, good_catalog cat -> good_env E -> reachable E cat s -> good_oracle o ->
    let p := OpRemoveSource r source release in
    let s' := after E o p s in
    (repo_exists s r = false \/ (forall id, ~ from_source s r source release id) -> outcome E o p s = Err /\ unchanged s s') /\
    (repo_exists s r = true -> (exists id, from_source s r source release id) ->
       (forall id, available s' r id <-> available s r id /\ ~ from_source s r source release id) /\
       (forall n d, In d (delta_ids_of s' r n) <-> In d (delta_ids_of s r n) /\ available_ids s' r n <> [] /\
          ~ exists id, In id (available_ids s r n) /\ from_source s r source release id /\ delta_touches s d id) /\
       (forall x, x <> r -> same_listings x s s')).
Proof. intros E cat s o r source release Hc HE (h & Hh & ->) Ho. exact (remove_source_facts E cat Hc HE false false _ o r source release (hist_inv E cat Hc HE h Hh) Ho). Qed.
Print Assumptions C16_remove_source.
Example C16_demo : let s := run_history (demo_env true) h_delta in
  from_source s "unstable" "nano" 1 "nano-1.eopkg" /\ ~ from_source s "unstable" "nano" 1 "nano-2.eopkg" /\
  delta_touches s "nano-1-2.delta.eopkg" "nano-1.eopkg".
Proof.
  split; [|split].
  - split; [exists "nano"; eexists; split; [here|left; reflexivity]|]. eexists. split; [here|]. split; [here|]. right. here.
  - intros (_ & p & G & _ & [X|X]); [revert X; apply Z.lt_nge; reflexivity|]. vm_compute in G. injection G as <-. vm_compute in X. discriminate.
  - do 2 eexists. split; [here|]. split; [here|]. left. here.
Qed.

(** C17. Copy source. *)
Theorem C17_copy_source :
  forall E cat s o src tgt source release skip, good_catalog cat -> good_env E -> reachable E cat s -> good_oracle o ->
    let p := OpCopySource src tgt source release skip in
    let s' := after E o p s in
    (repo_exists s src = false \/ repo_exists s tgt = false \/ (forall id, ~ from_source s src source release id) ->
       outcome E o p s = Err /\ unchanged s s') /\
    (repo_exists s src = true -> repo_exists s tgt = true -> (exists id, from_source s src source release id) ->
       (forall id, available s' tgt id <-> available s tgt id \/ from_source s src source release id) /\
       (forall x, x <> tgt -> same_listings x s s')).
Proof.
  intros E cat s o src tgt source release skip Hc HE (h & Hh & ->) Ho p s'.
  destruct (copy_source_facts E cat Hc HE false false _ o src tgt source release skip (hist_inv E cat Hc HE h Hh) Ho) as (A & B & _). split; assumption.
Qed.
Print Assumptions C17_copy_source.
Example C17_demo : let s := run_history (demo_env true) h_copy in
  from_source s "unstable" "nano" 0 "nano-2.eopkg" /\ repo_exists s "empty" = true /\ ~ available s "empty" "nano-2.eopkg".
Proof.
  split; [|split; [here|]].
  - split; [exists "nano"; eexists; split; [here|right; left; reflexivity]|]. eexists. split; [here|]. split; [here|]. left. discriminate.
  - intros (n & e & G & _). vm_compute in G. discriminate.
Qed.

(** C19. Trim packages to [k]. *)
Theorem C19_trim_packages :
  forall E cat s o r k, good_catalog cat -> good_env E -> reachable E cat s -> good_oracle o ->
    let p := OpTrimPackages r k in
    let s' := after E o p s in
    (repo_exists s r = false \/ (k < 1)%Z -> outcome E o p s = Err /\ unchanged s s') /\
    (repo_exists s r = true -> (1 <= k)%Z -> forall n,
       let old := available_ids s r n in
       let new := available_ids s' r n in
       incl new old /\
       (forall q, published s r n = Some q -> In q new) /\
       published_release s' r n = published_release s r n /\
       ((Z.of_nat (List.length old) <= k)%Z -> new = old) /\
       ((k < Z.of_nat (List.length old))%Z -> (k <= Z.of_nat (List.length new) <= k + 1)%Z) /\
       ((k < Z.of_nat (List.length old))%Z ->
          (forall a b, In a old -> In b old -> pool_release s a = pool_release s b -> a = b) -> Z.of_nat (List.length new) = k) /\
       (forall a b ra rb, In a old -> ~ In a new -> In b new ->
          pool_release s a = Some ra -> pool_release s b = Some rb -> (ra <= rb)%Z)) /\
    (forall x, x <> r -> same_listings x s s').
Proof. intros E cat s o r k Hc HE (h & Hh & ->) Ho. exact (trim_packages_facts E cat Hc HE false false _ o r k (hist_inv E cat Hc HE h Hh) Ho). Qed.
Print Assumptions C19_trim_packages.
Example C19_demo : let s := run_history (demo_env true) h_pull in
  available_ids s "unstable" "nano" = ["nano-1.eopkg"; "nano-2.eopkg"; "nano-3.eopkg"] /\
  available_ids (after (demo_env true) demo_oracle (OpTrimPackages "unstable" 2) s) "unstable" "nano" = ["nano-2.eopkg"; "nano-3.eopkg"] /\
  succeeds (demo_env true) demo_oracle (OpTrimPackages "unstable" 2) s.
Proof. split; [here|]. split; [here|]. exists []. here. Qed.

(** C20 is false: after trimming, the obsolete package itself and all but one of
    its -dbginfo versions are still there. *)
Theorem C20_trim_obsolete_refuted :
  exists E cat s o r, good_catalog cat /\ good_env E /\ reachable E cat s /\ good_oracle o /\
    let s' := after E o (OpTrimObsolete r) s in
    succeeds E o (OpTrimObsolete r) s /\
    (In "old" (obsoletes E s r) /\ available s' r "old-1.eopkg" /\ available_ids s' r "old" = ["old-1.eopkg"]) /\
    available_ids s' r "old-dbginfo" = ["old-dbginfo-2.eopkg"].
Proof.
  exists (demo_env true), demo_cat, (run_history (demo_env true) h_obs), demo_oracle, "unstable".
  split; [apply demo_cat_good|]. split; [apply demo_env_good|]. split; [exists h_obs; split; [apply h_obs_good|reflexivity]|].
  split; [apply demo_oracle_good|]. intros s'. split; [exists []; here|]. split; [|here].
  split; [vm_compute; left; reflexivity|]. split; [|here]. exists "old". eexists. split; [here|]. left. reflexivity.
Qed.
Print Assumptions C20_trim_obsolete_refuted.
(** What it does: per "-dbginfo" name of an obsolete package, exactly the first
    available ID is removed; nothing else. *)
Theorem C20_trim_obsolete_partial :
  forall E cat s o r, good_catalog cat -> good_env E -> reachable E cat s -> good_oracle o ->
    let p := OpTrimObsolete r in
    let s' := after E o p s in
    let readable := exists c l, asset_file s r "distribution.xml" = Some c /\ E_dist E c = Some l in
    (repo_exists s r = false \/ ~ readable -> outcome E o p s = Err /\ unchanged s s') /\
    (repo_exists s r = true -> readable -> forall id,
       available s' r id <-> available s r id /\
         ~ exists n b, is_dbginfo_of n b /\ In b (obsoletes E s r) /\ hd_error (available_ids s r n) = Some id) /\
    (forall x, x <> r -> same_listings x s s').
Proof. intros E cat s o r Hc HE (h & Hh & ->) Ho. exact (trim_obsolete_facts E cat Hc HE false false _ o r (hist_inv E cat Hc HE h Hh) Ho). Qed.
Print Assumptions C20_trim_obsolete_partial.
(** In particular no package of a non-obsolete name is ever removed. *)
Theorem C20_spares_others_partial :
  forall E cat s o r n id, good_catalog cat -> good_env E -> reachable E cat s -> good_oracle o ->
    In id (available_ids s r n) -> ~ obsolete_name E s r n -> available (after E o (OpTrimObsolete r) s) r id.
Proof.
  intros E cat s o r n id Hc HE R Ho Hin Nob. destruct (C20_trim_obsolete_partial E cat s o r Hc HE R Ho) as (A & B & _).
  assert (Av : available s r id).
  { unfold available_ids in Hin. destruct (entry_at s r n) as [e|] eqn:G; [|destruct Hin]. exists n, e. auto. }
  assert (Keep : unchanged s (after E o (OpTrimObsolete r) s) -> available (after E o (OpTrimObsolete r) s) r id).
  { intros (Ed & _). destruct Av as (n0 & e & G & X). exists n0, e. unfold entry_at in *. rewrite Ed. auto. }
  destruct (repo_exists s r) eqn:Re; [|apply Keep, A; left; reflexivity].
  assert (D : (exists c l, asset_file s r "distribution.xml" = Some c /\ E_dist E c = Some l) \/
              ~ (exists c l, asset_file s r "distribution.xml" = Some c /\ E_dist E c = Some l)).
  { destruct (asset_file s r "distribution.xml") as [c|]; [|right; intros (c & l & X & _); discriminate].
    destruct (E_dist E c) as [l|] eqn:El; [left; exists c, l; auto|]. right. intros (c' & l & X & Y). injection X as <-. congruence. }
  destruct D as [D|D]; [|apply Keep, A; right; exact D].
  apply (B eq_refl D id). split; [exact Av|]. intros (n' & b & Nb & Hb & Hd).
  assert (n' = n).
  { destruct R as (h & Hh & ->). pose proof (hist_inv E cat Hc HE h Hh) as I.
    unfold available_ids in Hin, Hd. destruct (entry_at _ r n) as [e|] eqn:G; [|destruct Hin].
    destruct (entry_at _ r n') as [e'|] eqn:G'; [|discriminate].
    assert (Hin' : In id (e_avail e')) by (destruct (e_avail e'); [discriminate|injection Hd as ->; left; reflexivity]).
    destruct (inv_wf E cat false false _ r n e I G) as [_ _ _ _ _ _ W _].
    destruct (inv_wf E cat false false _ r n' e' I G') as [_ _ _ _ _ _ W' _].
    destruct (W _ Hin) as (q & Gq & Nq). destruct (W' _ Hin') as (q' & Gq' & Nq'). congruence. }
  subst n'. apply Nob. right. exists b. auto.
Qed.
Print Assumptions C20_spares_others_partial.

(** C21. Strict uploads. A package whose release is not above the published one is
    refused without effect; otherwise it becomes the published one. *)
Theorem C21_strict_upload :
  forall E cat s o r l m c, good_catalog cat -> good_env E -> reachable_completed E cat s -> good_oracle o ->
    good_op (OpAdd r [l] true) -> repo_exists s r = true -> file_content (st_fs s) l = Some c -> E_parse E c = Ok m ->
    let p := OpAdd r [l] true in
    let s' := after E o p s in
    ((exists a, published_release s r (m_name m) = Some a /\ (rel m <= a)%Z) -> outcome E o p s = Err /\ unchanged s s') /\
    ((forall a, published_release s r (m_name m) = Some a -> (a < rel m)%Z) ->
       published s' r (m_name m) = Some (l_id l) /\ published_release s' r (m_name m) = Some (rel m)).
Proof. intros E cat s o r l m c Hc HE (h & Hh & Hf & ->) Ho. exact (strict_facts E cat Hc HE false _ o r l m c (hist_fz E cat Hc HE h Hh Hf) Ho). Qed.
Print Assumptions C21_strict_upload.
(** A whole batch is accepted only if each of its packages is above what was
    published for its name before. *)
Theorem C21_strict_batch :
  forall E cat s o r pkgs, good_catalog cat -> good_env E -> reachable_completed E cat s -> good_oracle o ->
    good_op (OpAdd r pkgs true) -> succeeds E o (OpAdd r pkgs true) s ->
    forall l c m a, In l pkgs -> file_content (st_fs s) l = Some c -> E_parse E c = Ok m ->
      published_release s r (m_name m) = Some a -> (a < rel m)%Z.
Proof. intros E cat s o r pkgs Hc HE (h & Hh & Hf & ->) Ho. exact (strict_batch E cat Hc HE false _ o r pkgs (hist_fz E cat Hc HE h Hh Hf) Ho). Qed.
Print Assumptions C21_strict_batch.
(** Strict or not, successful or not: an import never lowers a published release. *)
Theorem C21_never_backwards :
  forall E cat s o r pkgs strict, good_catalog cat -> good_env E -> reachable_completed E cat s -> good_oracle o ->
    good_op (OpAdd r pkgs strict) ->
    forall n a, published_release s r n = Some a ->
      exists b, published_release (after E o (OpAdd r pkgs strict) s) r n = Some b /\ (a <= b)%Z.
Proof. intros E cat s o r pkgs strict Hc HE (h & Hh & Hf & ->) Ho. exact (add_monotone E cat Hc HE false _ o r pkgs strict (hist_fz E cat Hc HE h Hh Hf) Ho). Qed.
Print Assumptions C21_never_backwards.
Definition h_strict : list event := h_two ++ [ EvPut (ext "nano-3.eopkg") "nano3" ].
Example C21_demo : let s := run_history (demo_env true) h_strict in
  reachable_completed (demo_env true) demo_cat s /\ published_release s "stable" "nano" = Some 2%Z /\
  succeeds (demo_env true) demo_oracle (OpAdd "stable" [ext "nano-3.eopkg"] true) s /\
  outcome (demo_env true) demo_oracle (OpAdd "stable" [ext "nano-2.eopkg"] true) s = Err.
Proof.
  split; [exists h_strict; split; [unfold good_history, h_strict, h_two; simpl app; demo_hist|split; [unfold crash_free, h_strict, h_two; repeat constructor|reflexivity]]|].
  split; [here|]. split; [exists []; here|here].
Qed.

(** C22. At every crash point of an adding request counts are high enough and every
    listing resolves, whatever happened before; if nothing crashed before, every
    listed file is intact as well. *)
Theorem C22_crash_while_adding :
  forall E cat s o p, good_catalog cat -> good_env E -> reachable E cat s -> good_oracle o -> good_op p ->
    removes_packages p = false -> forall t, In t (crash_points E o p s) -> safe t.
Proof. intros E cat s o p Hc HE (h & Hh & ->) Ho Hp. exact (crash_safe E cat Hc HE false false _ o p (hist_inv E cat Hc HE h Hh) Ho Hp ltac:(discriminate)). Qed.
Print Assumptions C22_crash_while_adding.
Theorem C22_crash_keeps_files :
  forall E cat s o p, good_catalog cat -> good_env E -> reachable_completed E cat s -> good_oracle o -> good_op p ->
    removes_packages p = false -> (forall r, p <> OpDelete r) ->
    forall t, In t (crash_points E o p s) -> all_served E t.
Proof. intros E cat s o p Hc HE (h & Hh & Hf & ->) Ho Hp. exact (crash_served E cat Hc HE false _ o p (hist_fz E cat Hc HE h Hh Hf) Ho Hp ltac:(discriminate)). Qed.
Print Assumptions C22_crash_keeps_files.
Example C22_demo : let s := run_history (demo_env true) h_pull in
  reachable_completed (demo_env true) demo_cat s /\ 20 <= List.length (crash_points (demo_env true) demo_oracle (OpPull "unstable" "stable") s).
Proof.
  split; [exists h_pull; split; [unfold good_history, h_pull, h_two; simpl app; demo_hist|split; [unfold crash_free, h_pull, h_two; repeat constructor|reflexivity]]|].
  vm_compute. lia.
Qed.

(** C23 is false: a crash inside remove-source leaves a listing whose package is gone. *)
Theorem C23_crash_while_removing_refuted :
  exists E cat s o p t, good_catalog cat /\ good_env E /\ reachable_completed E cat s /\ good_oracle o /\ good_op p /\
    In t (crash_points E o p s) /\ available t "unstable" "libx-1.eopkg" /\ pool_at t "libx-1.eopkg" = None.
Proof.
  set (h := h_two ++ [EvOp demo_oracle (OpRemoveSource "stable" "libx" 0)]).
  exists (demo_env true), demo_cat, (run_history (demo_env true) h), demo_oracle, (OpRemoveSource "unstable" "libx" 0).
  exists (nth 2 (crash_points (demo_env true) demo_oracle (OpRemoveSource "unstable" "libx" 0) (run_history (demo_env true) h)) init).
  split; [apply demo_cat_good|]. split; [apply demo_env_good|]. split.
  { exists h. unfold h, h_two; simpl app. split; [unfold good_history; demo_hist|]. split; [unfold crash_free; repeat constructor|reflexivity]. }
  split; [apply demo_oracle_good|]. split; [exact I|]. split; [apply nth_In; vm_compute; lia|].
  split; [|here]. exists "libx". eexists. split; [here|left; reflexivity].
Qed.
Print Assumptions C23_crash_while_removing_refuted.
(** C23 (part). For DeleteRepo it holds: its database changes are one transaction. *)
Theorem C23_crash_in_delete_partial :
  forall E cat s o r, good_catalog cat -> good_env E -> reachable E cat s ->
    good_oracle o -> forall t, In t (crash_points E o (OpDelete r) s) -> safe t.
Proof. intros E cat s o r Hc HE R Ho. exact (C22_crash_while_adding E cat s o (OpDelete r) Hc HE R Ho I eq_refl). Qed.
Print Assumptions C23_crash_in_delete_partial.

(** C24 is false: the re-run copies the pool file onto its own hard link, which
    empties a package that another repository serves. *)
Definition h_retry : list event :=
  [ EvPut (ext "nano-1.eopkg") "nano1";
    EvOp demo_oracle (OpCreate "unstable"); EvOp demo_oracle (OpCreate "stable");
    EvOp demo_oracle (OpAdd "unstable" [ext "nano-1.eopkg"] false) ].
Theorem C24_retry_refuted :
  exists E cat s o p n r id, good_catalog cat /\ good_env E /\ reachable_completed E cat s /\ good_oracle o /\ good_op p /\
    served E s r id /\
    let crashed := ev_step E s (EvCrash o p n) in
    served E crashed r id /\
    let retried := after E o p crashed in
    available retried r id /\ repo_file retried r "n/nano" id = Some "" /\ ~ served E retried r id.
Proof.
  exists (demo_env true), demo_cat, (run_history (demo_env true) h_retry), demo_oracle, (OpPull "unstable" "stable"), 2, "unstable", "nano-1.eopkg".
  split; [apply demo_cat_good|]. split; [apply demo_env_good|]. split.
  { exists h_retry. split; [unfold good_history, h_retry; demo_hist|]. split; [unfold crash_free, h_retry; repeat constructor|reflexivity]. }
  split; [apply demo_oracle_good|]. split; [exact I|].
  split. { do 2 eexists. exists "nano1". split; [here|]. split; [instantiate (1 := "n/nano"); here|]. split; [here|]. split; here. }
  intros crashed. split. { do 2 eexists. exists "nano1". split; [here|]. split; [instantiate (1 := "n/nano"); here|]. split; [here|]. split; here. }
  intros retried. split; [exists "nano"; eexists; split; [here|left; reflexivity]|]. split; [here|].
  intros (p & comp & c & G & U & F & Hh & _). vm_compute in G. injection G as <-. cbn in U.
  assert (comp = "n/nano").
  { clear -U. change "n/nano/nano-1.eopkg" with ("n/nano" ++ "/nano-1.eopkg")%string in U. symmetry in U.
    apply (f_equal (fun z => stake (String.length z - 13) z)) in U.
    assert (L : forall a, stake (String.length (a ++ "/nano-1.eopkg")%string - 13) (a ++ "/nano-1.eopkg")%string = a).
    { intros a. rewrite slen_app. cbn [String.length]. replace (String.length a + 13 - 13) with (String.length a) by lia. apply stake_app. }
    change (comp ++ String "/" "nano-1.eopkg")%string with (comp ++ "/nano-1.eopkg")%string in U. rewrite !L in U. exact U. }
  subst comp. vm_compute in F. injection F as <-. vm_compute in Hh. discriminate.
Qed.
Print Assumptions C24_retry_refuted.

(** C25 is false: importing a version forgets the listed deltas of its name. *)
Theorem C25_deltas_kept_refuted :
  exists E cat s o, good_catalog cat /\ good_env E /\ reachable_completed E cat s /\ good_oracle o /\
    let p := OpAdd "unstable" [ext "nano-3.eopkg"] false in
    succeeds E o p s /\ delta_ids_of s "unstable" "nano" = ["nano-1-2.delta.eopkg"] /\
    delta_ids_of (after E o p s) "unstable" "nano" = [].
Proof.
  pose (h := h_delta ++ [EvPut (ext "nano-3.eopkg") "nano3"]).
  exists (demo_env true), demo_cat, (run_history (demo_env true) h), demo_oracle.
  split; [apply demo_cat_good|]. split; [apply demo_env_good|]. split.
  { exists h. split; [unfold h, good_history, h_delta; simpl app; demo_hist|]. split; [unfold h, crash_free, h_delta; repeat constructor|reflexivity]. }
  split; [apply demo_oracle_good|]. intros p. split; [exists []; here|]. split; here.
Qed.
Print Assumptions C25_deltas_kept_refuted.
(** C25 (part). Names of which the import brings no package keep their whole entry,
    and no version is ever lost. *)
Theorem C25_other_names_kept_partial :
  forall E cat s o r pkgs strict, good_catalog cat -> good_env E -> reachable_completed E cat s -> good_oracle o ->
    good_op (OpAdd r pkgs strict) ->
    let s' := after E o (OpAdd r pkgs strict) s in
    (forall n, (forall l c m, In l pkgs -> file_content (st_fs s) l = Some c -> E_parse E c = Ok m -> m_name m <> n) ->
       entry_at s' r n = entry_at s r n) /\
    (forall n id, In id (available_ids s r n) -> In id (available_ids s' r n)).
Proof.
  intros E cat s o r pkgs strict Hc HE (h & Hh & Hf & ->) Ho Hp s'.
  destruct (add_facts E cat Hc HE false _ o r pkgs strict (hist_fz E cat Hc HE h Hh Hf) Ho Hp) as (_ & G & _). split.
  - intros n Hn. apply (gr_names _ _ _ _ _ G). intros id (l & c & m & A & _ & B & C & D). exact (Hn l c m A B C D).
  - exact (gr_more _ _ _ _ _ G).
Qed.
Print Assumptions C25_other_names_kept_partial.

(** C59. No request makes the daemon panic, whatever happened before (crashes
    included), as long as package files are what [good_catalog] demands. *)
Theorem C59_no_panic :
  forall E cat s o p, good_catalog cat -> good_env E -> reachable E cat s -> good_oracle o -> good_op p -> outcome E o p s <> Panic.
Proof. intros E cat s o p Hc HE (h & Hh & ->) Ho Hp. exact (never_panics E cat Hc HE false false _ o p (hist_inv E cat Hc HE h Hh) Ho Hp ltac:(discriminate)). Qed.
Print Assumptions C59_no_panic.

(** C60. No orphans: every package file in a repository tree is listed by that
    repository, every package file in the pool tree is in the pool. *)
Theorem C60_no_orphans :
  forall E cat s, good_catalog cat -> good_env E -> reachable_completed E cat s ->
    (forall r c id, is_delta_id id = false -> repo_file s r c id <> None -> available s r id) /\
    (forall c id, is_delta_id id = false -> file_content (st_fs s) (Loc TPool c id) <> None -> pool_at s id <> None).
Proof. intros E cat s Hc HE (h & Hh & Hf & ->). exact (inv_orphans E cat false _ (hist_fz E cat Hc HE h Hh Hf)). Qed.
Print Assumptions C60_no_orphans.
Example C60_demo : repo_file (run_history (demo_env true) h_two) "stable" "n/nano" "nano-1.eopkg" <> None /\
  file_content (st_fs (run_history (demo_env true) h_two)) (Loc TPool "n/nano" "nano-1.eopkg") <> None.
Proof. split; vm_compute; discriminate. Qed.
