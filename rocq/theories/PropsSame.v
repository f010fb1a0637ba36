(** * PropsSame: properties C91 and C92 - how long an index stays right, and
    what a clone publishes (theorems; proofs in Same.v) *)
From Verif Require Import Model Spec Demo DemoOk DbInv DbOps Wp FsInv Ops RepoOps Pure Loops Emit IndexOps ApiOps History PoolFacts OpFacts OpFacts2 IndexFacts Frame OpFacts3 Import Same PropsOps PropsImport.
Open Scope string_scope. Open Scope list_scope.

(** ** Specification *)
(** [e] is not about repository [r]: a request on, or the crash of a request on, another
    repository; the upload or removal of any file; a restart; assets of another repository *)
Definition about_others (r : string) (e : event) : Prop :=
  match e with
  | EvOp _ p | EvCrash _ p _ => target p <> Some r
  | EvAsset x _ _ => x <> r
  | _ => True
  end.
(** [r] was indexed by a successful request, and nothing was done to it since *)
Definition indexed_and_left_alone (E : env) (cat : string -> meta) (r : string) (s : state) : Prop :=
  exists s0 o p h, reachable E cat s0 /\ good_oracle o /\ good_op p /\ reindexes p = Some r /\ succeeds E o p s0 /\
    good_history E cat h /\ Forall (about_others r) h /\ s = fold_left (ev_step E) h (after E o p s0).

Lemma left_alone E cat r s : good_catalog cat -> good_env E -> indexed_and_left_alone E cat r s ->
  Inv E cat false false [] s /\ text_current E cat s r.
Proof.
  intros Hc HE (s0 & o & p & h & (h0 & Hh0 & ->) & Ho & Hp & Re & Su & Hh & Oth & ->).
  pose proof (hist_inv E cat Hc HE h0 Hh0) as I0.
  assert (I1 : Inv E cat false false [] (after E o p (run_history E h0))) by (apply (after_inv E cat Hc HE); auto; discriminate).
  destruct (request_text E cat Hc HE false false _ o p r I0 Ho Hp Re Su) as (txt & T & F).
  assert (Oth' : Forall (elsewhere r) h) by (eapply Forall_impl; [|exact Oth]; intros e; exact (fun x => x)).
  destruct (text_events E cat Hc HE h _ r I1 Hh Oth') as (A & B). split.
  - clear -Hc HE Hh I1. revert I1. generalize (after E o p (run_history E h0)). induction h as [|e h IH]; intros t It; [exact It|].
    inversion Hh; subst. cbn [fold_left]. apply IH; [assumption|]. apply (Inv_event E cat Hc HE); auto; discriminate.
  - exists txt. split; [congruence|]. intros v Hv. rewrite B. apply F, Hv.
Qed.

(** C91. Once a repository is indexed, no request, crash or upload that is not about it
    makes its index out of date: indexing it again publishes the same bytes. *)
Theorem C91_index_stays_current :
  forall E cat s o r, good_catalog cat -> good_env E -> indexed_and_left_alone E cat r s -> good_oracle o ->
    succeeds E o (OpIndex r) s ->
    forall f, In f published_index_files ->
      index_file s r f <> None /\ index_file (after E o (OpIndex r) s) r f = index_file s r f.
Proof.
  intros E cat s o r Hc HE L Ho Su f Hf. destruct (left_alone E cat r s Hc HE L) as [I T]. split.
  - destruct T as (txt & _ & F). rewrite (F f Hf). discriminate.
  - exact (text_fresh E cat Hc HE false false s o r I Ho T Su f Hf).
Qed.
Print Assumptions C91_index_stays_current.
Example C91_demo : exists s, indexed_and_left_alone (demo_env true) demo_cat "unstable" s /\ succeeds (demo_env true) demo_oracle (OpIndex "unstable") s /\
  index_file s "unstable" "eopkg-index.xml" <> None /\ available_ids s "stable" "nano" = ["nano-2.eopkg"].
Proof.
  set (h := [EvPut (ext "nano-3.eopkg") "nano3"; EvOp demo_oracle (OpTrimPackages "stable" 1); EvCrash demo_oracle (OpAdd "stable" [ext "nano-3.eopkg"] false) 3; EvRestart]).
  exists (fold_left (ev_step (demo_env true)) h (after (demo_env true) demo_oracle (OpIndex "unstable") (run_history (demo_env true) h_two))).
  split.
  - exists (run_history (demo_env true) h_two), demo_oracle, (OpIndex "unstable"), h.
    split; [exists h_two; split; [apply h_two_good|reflexivity]|]. split; [apply demo_oracle_good|]. split; [exact Logic.I|]. split; [reflexivity|].
    split; [exists []; here|]. split; [unfold good_history, h; demo_hist|]. split; [|reflexivity].
    unfold h. repeat constructor; cbn; clear; discriminate.
  - split; [exists []; here|]. split; [|here]. vm_compute. clear. discriminate.
Qed.

(** ** C92 ([releases_differ] is defined in PropsImport.v) *)
(** C92. A successful full clone of a repository whose index is up to date publishes,
    byte for byte, the index of the original. *)
Theorem C92_clone_publishes_the_same_index :
  forall E cat s o src new, good_catalog cat -> good_env E -> indexed_and_left_alone E cat src s -> good_oracle o ->
    let s' := after E o (OpClone src new true) s in
    succeeds E o (OpClone src new true) s -> releases_differ cat s src ->
    (forall a, In a ["distribution.xml"; "components.xml"; "groups.xml"] -> asset_file s src a = None -> asset_file s new a = None) ->
    forall f, In f published_index_files ->
      index_file s' new f <> None /\ index_file s' new f = index_file s' src f /\ index_file s' src f = index_file s src f.
Proof.
  intros E cat s o src new Hc HE L Ho s' Su Ap As f Hf. destruct (left_alone E cat src s Hc HE L) as [I (txt & T & F)].
  assert (I' : Inv E cat false false [] s') by (apply (after_inv E cat Hc HE); auto; discriminate || exact Logic.I).
  destruct (request_text E cat Hc HE false false s o (OpClone src new true) new I Ho Logic.I eq_refl Su) as (txt' & T' & F'). fold s' in T', F'.
  destruct (clone_facts E cat Hc HE false false s o src new true I Ho) as (Bad & Good). fold s' in Bad, Good.
  destruct (run_unit E (api_clone E o src new true) _ _ s o (OpClone src new true) eq_refl (wp_api_clone E cat Hc HE false false o src new true s I Ho)) as (res & (_ & Np & W) & Hout).
  fold s' in W. destruct Su as (l & Su). destruct res as [u| |]; [|congruence..].
  destruct W as [(X & _)|(s1 & I1 & C & X)]; [discriminate|]. destruct C as (C1 & C2 & C3 & C4 & C5 & C6 & C7).
  assert (N3 : reserved new = false).
  { apply (ok_rname _ _ (i_db _ _ _ _ _ _ I1)). rewrite C4, clone_repos. unfold mhas. rewrite mget_put_eq. reflexivity. }
  assert (N : src <> new) by (intros ->; congruence).
  destruct (Good C1 C2 C3 N3) as (_ & Av & De & _ & Ot & _).
  assert (Fr : framed src s s').
  { apply (frame_instants E o (OpClone src new true) s src s' (i_batch _ _ _ _ _ _ I)); [cbn; congruence|left; reflexivity]. }
  destruct (framed_obs _ _ _ Fr) as (Ls & Ai & Aa & _).
  assert (As' : forall a, asset_file s' new a = asset_file s1 new a).
  { intros a. unfold asset_file. inversion X as [Hr Es' Eres|s2 re Hr Q2 R2 Eres].
    rewrite (qr_asset _ _ _ (ir_quiet _ _ _ _ _ _ _ R2)), (qd_asset _ _ _ Q2). reflexivity. }
  assert (TT : run_text E cat s' src = run_text E cat s' new).
  { apply text_same.
    - apply (pub_listed E cat false false), I'.
    - apply (entries_same E cat false false false false s' s' src new I' I').
      + intros id id' A1 A2. apply Ap; [destruct A1 as (n & e & G & Hin)|destruct A2 as (n & e & G & Hin)];
          (exists n, e; split; [rewrite <- (proj2 Ls n); exact G|exact Hin]).
      + assert (Y : forall n, available_ids s' src n = available_ids s' new n).
        { intros n. rewrite Av. unfold available_ids. rewrite (proj2 Ls n). reflexivity. }
        intros id. rewrite !(avail_named E cat false false s' _ id I'). specialize (Y (m_name (cat id))). unfold available_ids, entry_at in Y.
        destruct (mget (d_ents (st_db s') src) (m_name (cat id))) as [e|], (mget (d_ents (st_db s') new) (m_name (cat id))) as [e'|];
          split; intros (z & Z & Hin); try discriminate; injection Z as <-;
          first [eexists; split; [reflexivity|rewrite <- Y; exact Hin]|eexists; split; [reflexivity|rewrite Y; exact Hin]|exfalso; rewrite Y in Hin; destruct Hin|exfalso; rewrite <- Y in Hin; destruct Hin].
      + intros n. rewrite De. unfold delta_ids_of. rewrite (proj2 Ls n). reflexivity.
    - reflexivity.
    - intros a Hin. rewrite As'. unfold asset_file. rewrite C7. unfold pulled. rewrite (proj2 (sin_In _ _) Hin).
      specialize (Aa a). unfold asset_file in Aa. rewrite Aa. specialize (As a Hin). unfold asset_file in As.
      destruct (f_asset (st_fs s) src a) as [c|] eqn:G; [destruct (seqb_spec new src); congruence|]. symmetry. apply As. reflexivity. }
  destruct (text_event E cat Hc HE s (EvOp o (OpClone src new true)) src I) as (Te & _); [cbn; auto|cbn; congruence|].
  assert (Te' : run_text E cat s' src = run_text E cat s src).
  { rewrite <- Te. unfold s', after. cbn [ev_step]. destruct (result_of (run_op E o (OpClone src new true) s)); reflexivity. }
  rewrite (F' f Hf), (Ai f), (F f Hf). split; [discriminate|]. split; [|reflexivity]. congruence.
Qed.
Print Assumptions C92_clone_publishes_the_same_index.

Example C92_demo : let s := after (demo_env true) demo_oracle (OpIndex "unstable") (run_history (demo_env true) h_two) in
  indexed_and_left_alone (demo_env true) demo_cat "unstable" s /\ succeeds (demo_env true) demo_oracle (OpClone "unstable" "copy" true) s /\
  (forall a, In a ["distribution.xml"; "components.xml"; "groups.xml"] -> asset_file s "copy" a = None) /\
  releases_differ demo_cat s "unstable" /\ available_ids s "unstable" "nano" = ["nano-1.eopkg"; "nano-2.eopkg"].
Proof.
  set (s0 := run_history (demo_env true) h_two). set (s := after (demo_env true) demo_oracle (OpIndex "unstable") s0).
  split; [|split; [|split; [|split]]].
  - exists s0, demo_oracle, (OpIndex "unstable"), [].
    split; [exists h_two; split; [apply h_two_good|reflexivity]|]. split; [apply demo_oracle_good|]. split; [exact Logic.I|]. split; [reflexivity|].
    split; [exists []; here|]. split; [constructor|]. split; [constructor|]. cbn [fold_left]. reflexivity.
  - exists []. here.
  - intros a [<-|[<-|[<-|[]]]]; here.
  - assert (Av : forall id, available s "unstable" id -> In id ["libx-1.eopkg"; "nano-1.eopkg"; "nano-2.eopkg"]).
    { assert (Av : forall s r id, available s r id -> In id (flat_map (fun x => e_avail (snd x)) (mlist (d_ents (st_db s) r)))).
      { clear. intros s r id (n & e & G & Hin). apply in_flat_map. exists (n, e). split; [|exact Hin]. apply in_mlist, G. }
      intros id A. apply Av in A. vm_compute in A. clear -A. exact A. }
    intros id id' A B. apply Av in A. apply Av in B. clear Av.
    destruct A as [<-|[<-|[<-|[]]]], B as [<-|[<-|[<-|[]]]]; vm_compute; clear; intros N R; first [reflexivity|discriminate N|discriminate R].
  - here.
Qed.

(** Where two versions have one release number, the clone may publish the other one. *)
Theorem C92_clone_between_equal_releases_refuted :
  exists E cat s o src new f, good_catalog cat /\ good_env E /\ indexed_and_left_alone E cat src s /\ good_oracle o /\
    succeeds E o (OpClone src new true) s /\
    (forall a, In a ["distribution.xml"; "components.xml"; "groups.xml"] -> asset_file s src a = None -> asset_file s new a = None) /\
    In f published_index_files /\ published (after E o (OpClone src new true) s) new "nano" <> published s src "nano" /\
    index_file (after E o (OpClone src new true) s) new f <> index_file s src f.
Proof.
  set (s0 := run_history (demo_env true) h_tie). set (p := OpAdd "unstable" [ext "nano-2b.eopkg"; ext "nano-2.eopkg"] false).
  exists (demo_env true), tie_cat, (after (demo_env true) demo_oracle p s0), demo_oracle, "unstable", "copy", "eopkg-index.xml".
  split; [apply tie_cat_good|]. split; [apply demo_env_good|]. split.
  { exists s0, demo_oracle, p, []. split; [exists h_tie; split; [unfold good_history, h_tie; demo_hist|reflexivity]|]. split; [apply demo_oracle_good|].
    split; [unfold good_op, p; demo_hist|]. split; [reflexivity|]. split; [exists []; here|]. split; [constructor|]. split; [constructor|]. cbn [fold_left]. reflexivity. }
  split; [apply demo_oracle_good|]. split; [exists []; here|]. split; [intros a [<-|[<-|[<-|[]]]] _; here|]. split; [left; reflexivity|].
  split; vm_compute; clear; discriminate.
Qed.
Print Assumptions C92_clone_between_equal_releases_refuted.
