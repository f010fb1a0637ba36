(** * PropsIndex: properties C06-C10 and C18 (theorems only; proofs in IndexFacts.v) *)
From Verif Require Import Model Spec Demo DemoOk History PoolFacts OpFacts OpFacts2 IndexOps IndexFacts.
Open Scope string_scope. Open Scope list_scope.

(** C06. A successful index run writes a document with exactly one record per
    listed, non-obsolete name: the published version; in ascending ID order. *)
Theorem C06_index_lists_published :
  forall E cat s o r, good_catalog cat -> good_env E -> reachable E cat s -> good_oracle o ->
    succeeds E o (OpIndex r) s ->
    exists d, describes E s r d /\
      index_file (after E o (OpIndex r) s) r "eopkg-index.xml" = Some (E_render E d).
Proof.
  intros E cat s o r Hc HE (h & Hh & ->) Ho Su.
  destruct (proj1 (proj2 (index_facts E cat Hc HE false false _ o r (hist_inv E cat Hc HE h Hh) Ho)) Su) as (d & A & _ & B).
  exists d. split; [exact A|]. exact (B "eopkg-index.xml" (or_introl eq_refl)).
Qed.
Print Assumptions C06_index_lists_published.

(** The same for every request that rewrites an index: when it succeeds, all nine
    files describe the repository as it is afterwards. *)
Theorem C06_index_is_current_after_requests :
  forall E cat s o p r, good_catalog cat -> good_env E -> reachable E cat s -> good_oracle o -> good_op p ->
    reindexes p = Some r -> succeeds E o p s -> index_current E (after E o p s) r.
Proof.
  intros E cat s o p r Hc HE (h & Hh & ->) Ho. exact (request_current E cat Hc HE false false _ o p r (hist_inv E cat Hc HE h Hh) Ho).
Qed.
Print Assumptions C06_index_is_current_after_requests.

(** two names, one obsolete with its -dbginfo; the index shows only the other *)
Definition h_obs : list event :=
  [ EvPut (ext "nano-1.eopkg") "nano1"; EvPut (ext "nano-2.eopkg") "nano2";
    EvPut (ext "old-1.eopkg") "old1"; EvPut (ext "old-dbginfo-1.eopkg") "old-dbg1"; EvPut (ext "old-dbginfo-2.eopkg") "old-dbg2";
    EvOp demo_oracle (OpCreate "unstable");
    EvAsset "unstable" "distribution.xml" (Some "obsolete:old");
    EvOp demo_oracle (OpAdd "unstable" [ext "nano-1.eopkg"; ext "nano-2.eopkg"; ext "old-1.eopkg"; ext "old-dbginfo-1.eopkg"; ext "old-dbginfo-2.eopkg"] false) ].
Lemma h_obs_good b : good_history (demo_env b) demo_cat h_obs.
Proof. unfold good_history, h_obs. demo_hist. Qed.
Example C06_demo :
  let s := run_history (demo_env true) h_obs in
  reachable (demo_env true) demo_cat s /\ succeeds (demo_env true) demo_oracle (OpIndex "unstable") s /\
  index_file (after (demo_env true) demo_oracle (OpIndex "unstable") s) "unstable" "eopkg-index.xml"
    = Some "<PISI>n/nano/nano-2.eopkg;</PISI>".
Proof. split; [exists h_obs; split; [apply h_obs_good|reflexivity]|]. split; [exists []; vm_compute; reflexivity|vm_compute; reflexivity]. Qed.

(** C07. Each record offers exactly the applicable deltas. The package files
    themselves carry no delta records ([no_builtin_deltas]). *)
Theorem C07_index_offers_deltas :
  forall E cat s o r, good_catalog cat -> good_env E -> no_builtin_deltas cat -> reachable E cat s -> good_oracle o ->
    succeeds E o (OpIndex r) s ->
    exists d, describes E s r d /\ (forall m, In m (doc_pkgs d) -> right_deltas s r m) /\
      index_file (after E o (OpIndex r) s) r "eopkg-index.xml" = Some (E_render E d).
Proof.
  intros E cat s o r Hc HE NB (h & Hh & ->) Ho Su.
  destruct (proj1 (proj2 (index_facts E cat Hc HE false false _ o r (hist_inv E cat Hc HE h Hh) Ho)) Su) as (d & A & D & B).
  exists d. split; [exact A|]. split; [exact (D NB)|]. exact (B "eopkg-index.xml" (or_introl eq_refl)).
Qed.
Print Assumptions C07_index_offers_deltas.
Definition h_delta : list event :=
  [ EvPut (ext "nano-1.eopkg") "nano1"; EvPut (ext "nano-2.eopkg") "nano2";
    EvPut (Loc (TStage "unstable") "" "nano-1-2.delta.eopkg") "nano12";
    EvOp demo_oracle (OpCreate "unstable");
    EvOp demo_oracle (OpAdd "unstable" [ext "nano-1.eopkg"; ext "nano-2.eopkg"] false);
    EvOp demo_oracle (OpAddDelta "unstable" (Loc (TStage "unstable") "" "nano-1-2.delta.eopkg") "nano-1.eopkg" "nano-2.eopkg") ].
Lemma h_delta_good b : good_history (demo_env b) demo_cat h_delta.
Proof. unfold good_history, h_delta. demo_hist. Qed.
Lemma demo_no_builtin : no_builtin_deltas demo_cat.
Proof. intros id. unfold demo_cat. repeat match goal with |- context [if seqb id ?x then _ else _] => destruct (seqb id x) end; reflexivity. Qed.
Example C07_demo :
  let s := run_history (demo_env true) h_delta in
  reachable (demo_env true) demo_cat s /\ no_builtin_deltas demo_cat /\
  succeeds (demo_env true) demo_oracle (OpIndex "unstable") s /\
  delta_ids_of s "unstable" "nano" = ["nano-1-2.delta.eopkg"] /\ leads_to s "nano-1-2.delta.eopkg" 2.
Proof.
  split; [exists h_delta; split; [apply h_delta_good|reflexivity]|]. split; [apply demo_no_builtin|].
  split; [exists []; vm_compute; reflexivity|]. split; [vm_compute; reflexivity|]. do 2 eexists. vm_compute. auto.
Qed.

(** C08. At every instant of an index run, and after it - whatever fails, in
    whatever order the files are moved - each published file is the old one or
    the complete new one. *)
Theorem C08_index_never_partial :
  forall E cat s o r, good_catalog cat -> good_env E -> reachable E cat s -> good_oracle o ->
    forall t, In t (after E o (OpIndex r) s :: crash_points E o (OpIndex r) s) ->
      exists d, forall v, In v published_index_files ->
        index_file t r v = index_file s r v \/
        (describes E s r d /\ index_file t r v = Some (index_content E (E_render E d) v)).
Proof.
  intros E cat s o r Hc HE (h & Hh & ->) Ho. exact (index_instants E cat Hc HE false false _ o r (hist_inv E cat Hc HE h Hh) Ho).
Qed.
Print Assumptions C08_index_never_partial.
(** the run of the demo has many instants; in one of them both kinds of files occur *)
Example C08_demo :
  let s := run_history (demo_env true) h_obs in
  let s0 := run_history (demo_env true) (h_obs ++ [EvAsset "unstable" "distribution.xml" None]) in
  exists t, In t (crash_points (demo_env true) demo_oracle (OpIndex "unstable") s0) /\
    index_file t "unstable" "eopkg-index.xml" <> index_file s0 "unstable" "eopkg-index.xml" /\
    index_file t "unstable" "eopkg-index.xml.xz" = index_file s0 "unstable" "eopkg-index.xml.xz".
Proof.
  intros s s0. exists (nth 18 (crash_points (demo_env true) demo_oracle (OpIndex "unstable") s0) s0).
  split; [apply nth_In; vm_compute; lia|]. split; [vm_compute; discriminate|vm_compute; reflexivity].
Qed.

(** C09 is false: between two renames the checksum belongs to the other version. *)
Theorem C09_checksum_agrees_refuted :
  exists E cat s o r t x c, good_catalog cat /\ good_env E /\ reachable E cat s /\ good_oracle o /\
    In t (crash_points E o (OpIndex r) s) /\
    index_file s r "eopkg-index.xml.sha1sum" <> None /\
    index_file t r "eopkg-index.xml" = Some x /\ index_file t r "eopkg-index.xml.sha1sum" = Some c /\ c <> E_sha1 E x.
Proof.
  pose (s0 := run_history (demo_env true) (h_obs ++ [EvAsset "unstable" "distribution.xml" None])).
  exists (demo_env true), demo_cat, s0, demo_oracle, "unstable", (nth 18 (crash_points (demo_env true) demo_oracle (OpIndex "unstable") s0) s0).
  eexists. eexists.
  split; [apply demo_cat_good|]. split; [apply demo_env_good|]. split.
  { exists (h_obs ++ [EvAsset "unstable" "distribution.xml" None]). split; [|reflexivity].
    unfold good_history, h_obs. simpl app. demo_hist. }
  split; [apply demo_oracle_good|]. split; [apply nth_In; vm_compute; lia|]. split; [vm_compute; discriminate|].
  split; [vm_compute; reflexivity|]. split; [vm_compute; reflexivity|vm_compute; discriminate].
Qed.
Print Assumptions C09_checksum_agrees_refuted.
(** C09 (part). After every successful request that rewrites the index, the
    checksum files are those of the published index and its compressed forms. *)
Theorem C09_checksum_agrees_partial :
  forall E cat s o p r, good_catalog cat -> good_env E -> reachable E cat s -> good_oracle o -> good_op p ->
    reindexes p = Some r -> succeeds E o p s ->
    let s' := after E o p s in
    exists x, index_file s' r "eopkg-index.xml" = Some x /\
      index_file s' r "eopkg-index.xml.sha1sum" = Some (E_sha1 E x) /\
      index_file s' r "eopkg-index.xml.sha256sum" = Some (E_sha256 E x) /\
      index_file s' r "eopkg-index.xml.xz" = Some (E_xz E x) /\
      index_file s' r "eopkg-index.xml.xz.sha1sum" = Some (E_sha1 E (E_xz E x)) /\
      index_file s' r "eopkg-index.xml.xz.sha256sum" = Some (E_sha256 E (E_xz E x)) /\
      index_file s' r "eopkg-index.xml.zst" = Some (E_zst E x) /\
      index_file s' r "eopkg-index.xml.zst.sha1sum" = Some (E_sha1 E (E_zst E x)) /\
      index_file s' r "eopkg-index.xml.zst.sha256sum" = Some (E_sha256 E (E_zst E x)).
Proof.
  intros E cat s o p r Hc HE (h & Hh & ->) Ho Hp Hr Su s'.
  destruct (request_current E cat Hc HE false false _ o p r (hist_inv E cat Hc HE h Hh) Ho Hp Hr Su) as (d & _ & B).
  exists (E_render E d).
  repeat (split; [match goal with |- _ = ?rhs => refine (B _ _); simpl; auto 12 end|]); refine (B _ _); simpl; auto 12.
Qed.
Print Assumptions C09_checksum_agrees_partial.

(** C10 is false for the next run: files left by the crash make it fail. *)
Definition h_ix : list event :=
  [ EvOp demo_oracle (OpCreate "unstable"); EvCrash demo_oracle (OpIndex "unstable") 8 ].
Theorem C10_next_run_succeeds_refuted :
  exists E cat s o r, good_catalog cat /\ good_env E /\ sane_tools E /\ reachable E cat s /\ healthy o /\
    repo_exists s r = true /\ readable_assets E s r /\ outcome E o (OpIndex r) s = Err.
Proof.
  exists (demo_env true), demo_cat, (run_history (demo_env true) h_ix), demo_oracle, "unstable".
  split; [apply demo_cat_good|]. split; [apply demo_env_good|]. split; [repeat split; intros; discriminate|].
  split; [exists h_ix; split; [unfold good_history, h_ix; demo_hist|reflexivity]|].
  split; [split; [apply demo_oracle_good|auto]|]. split; [reflexivity|].
  split; [|vm_compute; reflexivity]. split; [|split]; intros c X; vm_compute in X; discriminate X.
Qed.
Print Assumptions C10_next_run_succeeds_refuted.
(** C10 (part). Whatever happened before - crashes included - of three index runs
    in a row without environment failures the third succeeds. *)
Theorem C10_index_recovers_partial :
  forall E cat s o1 o2 o3 r, good_catalog cat -> good_env E -> sane_tools E -> reachable E cat s ->
    healthy o1 -> healthy o2 -> healthy o3 -> repo_exists s r = true -> readable_assets E s r ->
    succeeds E o3 (OpIndex r) (after E o2 (OpIndex r) (after E o1 (OpIndex r) s)).
Proof.
  intros E cat s o1 o2 o3 r Hc HE T (h & Hh & ->) H1 H2 H3 Re Ra.
  exact (third_run E cat Hc HE false false _ o1 o2 o3 r (hist_inv E cat Hc HE h Hh) H1 H2 H3 T (conj Re Ra)).
Qed.
Print Assumptions C10_index_recovers_partial.

(** C18 is false: the flag is inverted. *)
Definition h_copy : list event := h_two ++ [ EvOp demo_oracle (OpCreate "empty") ].
Theorem C18_copy_source_reindexes_refuted :
  exists E cat s o, good_catalog cat /\ good_env E /\ reachable E cat s /\ good_oracle o /\
    let p := OpCopySource "unstable" "empty" "nano" 0 false in
    succeeds E o p s /\ available (after E o p s) "empty" "nano-2.eopkg" /\
    ~ index_current E (after E o p s) "empty".
Proof.
  exists (demo_env true), demo_cat, (run_history (demo_env true) h_copy), demo_oracle.
  split; [apply demo_cat_good|]. split; [apply demo_env_good|].
  split; [exists h_copy; split; [unfold good_history, h_copy, h_two; simpl app; demo_hist|reflexivity]|].
  split; [apply demo_oracle_good|]. intros p. split; [exists []; vm_compute; reflexivity|]. split.
  { exists "nano". eexists. split; [vm_compute; reflexivity|]. right. left. reflexivity. }
  intros (d & A & B). specialize (B "eopkg-index.xml" (or_introl eq_refl)).
  cbv beta iota delta [index_content] in B. rewrite seqb_refl in B.
  assert (V : index_file (after (demo_env true) demo_oracle p (run_history (demo_env true) h_copy)) "empty" "eopkg-index.xml" = Some "<PISI></PISI>")
    by (vm_compute; reflexivity).
  rewrite V in B. injection B as B.
  change (E_render (demo_env true) d) with ("<PISI>" ++ (demo_render_pkgs (doc_pkgs d) ++ "</PISI>"))%string in B. apply (f_equal String.length) in B.
  destruct (ds_pkgs _ _ _ _ A) as (ns & ND & Hn & F).
  assert (In "nano" ns) as Hin.
  { apply Hn. split; [eexists; vm_compute; reflexivity|].
    assert (O : obsoletes (demo_env true) (after (demo_env true) demo_oracle p (run_history (demo_env true) h_copy)) "empty" = []) by (vm_compute; reflexivity).
    intros [X|(b & _ & X)]; rewrite O in X; exact X. }
  destruct (doc_pkgs d) as [|m ms].
  - inversion F; subst. destruct Hin.
  - cbn [demo_render_pkgs] in B. rewrite !slen_app in B. cbn [String.length] in B. lia.
Qed.
Print Assumptions C18_copy_source_reindexes_refuted.
(** What the flag does: without it no index file changes; with it the target's
    index is brought up to date. *)
Theorem C18_flag_actual_partial :
  forall E cat s o src tgt source rl skip, good_catalog cat -> good_env E -> reachable E cat s -> good_oracle o ->
    let p := OpCopySource src tgt source rl skip in
    let s' := after E o p s in
    (skip = false -> forall r f, index_file s' r f = index_file s r f) /\
    (skip = true -> succeeds E o p s -> index_current E s' tgt).
Proof.
  intros E cat s o src tgt source rl skip Hc HE (h & Hh & ->) Ho p s'. pose proof (hist_inv E cat Hc HE h Hh) as I.
  split; [exact (proj1 (proj2 (proj2 (copy_source_facts E cat Hc HE false false _ o src tgt source rl skip I Ho))))|].
  intros -> Su. exact (request_current E cat Hc HE false false _ o p tgt I Ho Logic.I eq_refl Su).
Qed.
Print Assumptions C18_flag_actual_partial.
