(** * PropsAssets: properties C95 and C96 - components.xml and groups.xml in the index *)
From Verif Require Import Model Spec Demo DemoOk AssetFacts DbInv DbOps Wp FsInv Ops RepoOps Pure Loops Emit IndexOps ApiOps History PoolFacts OpFacts OpFacts2 IndexFacts Same PropsOps.
Open Scope string_scope. Open Scope list_scope.

(** ** C95: what the index carries *)

(** A successful index run publishes, for each of the two files, all its items and
    nothing else, sorted by name, the first text of each kind in English if it has no
    language; without the file nothing. *)
Theorem C95_index_carries_assets :
  forall E cat s o r, good_catalog cat -> good_env E -> reachable E cat s -> good_oracle o ->
    succeeds E o (OpIndex r) s ->
    exists d, index_file (after E o (OpIndex r) s) r "eopkg-index.xml" = Some (E_render E d) /\
      match asset_file s r "components.xml" with
      | None => doc_comps d = None
      | Some c => exists l out, E_comps E c = Some l /\ doc_comps d = Some out /\
          Permutation out (map component_en l) /\ StronglySorted (fun a b => sle (c_name a) (c_name b)) out
      end /\
      match asset_file s r "groups.xml" with
      | None => doc_groups d = None
      | Some c => exists l out, E_groups E c = Some l /\ doc_groups d = Some out /\
          Permutation out (map group_en l) /\ StronglySorted (fun a b => sle (g_name a) (g_name b)) out
      end.
Proof.
  intros E cat s o r Hc HE (h & Hh & ->) Ho Su.
  destruct (proj1 (proj2 (index_facts E cat Hc HE false false _ o r (hist_inv E cat Hc HE h Hh) Ho)) Su) as (d & A & _ & B).
  exists d. split; [exact (B "eopkg-index.xml" (or_introl eq_refl))|].
  pose proof (ds_comps _ _ _ _ A) as C. pose proof (ds_groups _ _ _ _ A) as G. unfold carries, sorted_by in C, G.
  split; assumption.
Qed.
Print Assumptions C95_index_carries_assets.

Lemma sorted_unique {A} (name : A -> string) l l' : NoDup (map name l) -> Permutation l' l ->
  StronglySorted (fun a b => sle (name a) (name b)) l -> StronglySorted (fun a b => sle (name a) (name b)) l' -> l = l'.
Proof.
  intros ND P S. revert l' P ND. induction S as [|x l S IH F]; intros l' P ND S'.
  - apply Permutation_sym, Permutation_nil in P. congruence.
  - destruct S' as [|y l' S' F'].
    { apply Permutation_nil in P. discriminate. }
    cbn [map] in ND. inversion ND as [|? ? Nx ND']; subst.
    assert (E : x = y).
    { assert (Hy : In y (x :: l)) by (apply (Permutation_in _ P); left; reflexivity). destruct Hy as [->|Hy]; [reflexivity|].
      assert (Hx : In x (y :: l')) by (apply (Permutation_in _ (Permutation_sym P)); left; reflexivity). destruct Hx as [->|Hx]; [reflexivity|].
      rewrite Forall_forall in F, F'. exfalso. apply Nx. rewrite (sle_antisym _ _ (F _ Hy) (F' _ Hx)). apply in_map, Hy. }
    subst y. f_equal. apply IH; auto. eapply Permutation_cons_inv; eauto.
Qed.

Lemma load_order E (HE : good_env E) c1 c2 l1 l2 : E_comps E c1 = Some l1 -> E_comps E c2 = Some l2 ->
  Permutation l1 l2 -> NoDup (map c_name l1) -> new_components E c1 = new_components E c2.
Proof.
  intros D1 D2 P ND. unfold new_components, load_asset. rewrite D1, D2. f_equal.
  destruct (ge_csort _ HE l1) as [P1 S1]. destruct (ge_csort _ HE l2) as [P2 S2].
  apply (sorted_unique c_name); auto.
  - apply (Permutation_NoDup (Permutation_sym (Permutation_map c_name P1)) ND).
  - rewrite P2, <- P, P1. reflexivity.
Qed.
Lemma load_gorder E (HE : good_env E) c1 c2 l1 l2 : E_groups E c1 = Some l1 -> E_groups E c2 = Some l2 ->
  Permutation l1 l2 -> NoDup (map g_name l1) -> new_groups E c1 = new_groups E c2.
Proof.
  intros D1 D2 P ND. unfold new_groups, load_asset. rewrite D1, D2. f_equal.
  destruct (ge_gsort _ HE l1) as [P1 S1]. destruct (ge_gsort _ HE l2) as [P2 S2].
  apply (sorted_unique g_name); auto.
  - apply (Permutation_NoDup (Permutation_sym (Permutation_map g_name P1)) ND).
  - rewrite P2, <- P, P1. reflexivity.
Qed.

(** two files with the same items in any order, no name twice *)
Definition same_items (E : env) (a c1 c2 : string) : Prop :=
  (a = "components.xml" /\ exists l1 l2, E_comps E c1 = Some l1 /\ E_comps E c2 = Some l2 /\ Permutation l1 l2 /\ NoDup (map c_name l1)) \/
  (a = "groups.xml" /\ exists l1 l2, E_groups E c1 = Some l1 /\ E_groups E c2 = Some l2 /\ Permutation l1 l2 /\ NoDup (map g_name l1)).

Lemma text_asset E cat (HE : good_env E) s r a c1 c2 : same_items E a c1 c2 ->
  run_text E cat (ev_step E s (EvAsset r a (Some c1))) r = run_text E cat (ev_step E s (EvAsset r a (Some c2))) r.
Proof.
  intros [(-> & l1 & l2 & D1 & D2 & P & ND)|(-> & l1 & l2 & D1 & D2 & P & ND)].
  - pose proof (load_order E HE c1 c2 l1 l2 D1 D2 P ND) as X.
    unfold run_text, dist_of, index_text, index_doc, assets_ok, asset_ok, asset_val. cbn. unfold fupd. rewrite seqb_refl. cbn. rewrite X. reflexivity.
  - pose proof (load_gorder E HE c1 c2 l1 l2 D1 D2 P ND) as X.
    unfold run_text, dist_of, index_text, index_doc, assets_ok, asset_ok, asset_val. cbn. unfold fupd. rewrite seqb_refl. cbn. rewrite X. reflexivity.
Qed.

(** The order of the items in the file does not matter: whichever of the two files is
    installed, a successful index run publishes the same nine files. *)
Theorem C95_item_order_is_irrelevant :
  forall E cat s o1 o2 r a c1 c2, good_catalog cat -> good_env E -> reachable E cat s -> good_oracle o1 -> good_oracle o2 ->
    good_asset E a c1 -> good_asset E a c2 -> same_items E a c1 c2 ->
    let s1 := ev_step E s (EvAsset r a (Some c1)) in
    let s2 := ev_step E s (EvAsset r a (Some c2)) in
    succeeds E o1 (OpIndex r) s1 -> succeeds E o2 (OpIndex r) s2 ->
    forall f, In f published_index_files ->
      index_file (after E o1 (OpIndex r) s1) r f = index_file (after E o2 (OpIndex r) s2) r f /\
      index_file (after E o1 (OpIndex r) s1) r f <> None.
Proof.
  intros E cat s o1 o2 r a c1 c2 Hc HE (h & Hh & ->) Ho1 Ho2 G1 G2 Sm s1 s2 Su1 Su2 f Hf.
  pose proof (hist_inv E cat Hc HE h Hh) as I. set (s := run_history E h) in *.
  assert (I1 : Inv E cat false false [] s1) by (apply Inv_asset; auto).
  assert (I2 : Inv E cat false false [] s2) by (apply Inv_asset; auto).
  destruct (request_text E cat Hc HE false false s1 o1 (OpIndex r) r I1 Ho1 Logic.I eq_refl Su1) as (t1 & T1 & F1).
  destruct (request_text E cat Hc HE false false s2 o2 (OpIndex r) r I2 Ho2 Logic.I eq_refl Su2) as (t2 & T2 & F2).
  assert (X1 : run_text E cat (after E o1 (OpIndex r) s1) r = run_text E cat s1 r).
  { destruct (index_facts E cat Hc HE false false s1 o1 r I1 Ho1) as (_ & _ & Ed & _ & Ea & _). symmetry. apply text_same; auto.
    - apply (pub_listed E cat false false), I1.
    - rewrite Ed; reflexivity.
    - intros id _. unfold item, pool_at. rewrite Ed. reflexivity. }
  assert (X2 : run_text E cat (after E o2 (OpIndex r) s2) r = run_text E cat s2 r).
  { destruct (index_facts E cat Hc HE false false s2 o2 r I2 Ho2) as (_ & _ & Ed & _ & Ea & _). symmetry. apply text_same; auto.
    - apply (pub_listed E cat false false), I2.
    - rewrite Ed; reflexivity.
    - intros id _. unfold item, pool_at. rewrite Ed. reflexivity. }
  rewrite X1 in T1. rewrite X2 in T2. pose proof (text_asset E cat HE s r a c1 c2 Sm) as Y. fold s1 s2 in Y.
  assert (t1 = t2) by congruence. subst t2. rewrite (F1 f Hf), (F2 f Hf). split; [reflexivity|discriminate].
Qed.
Print Assumptions C95_item_order_is_irrelevant.

(** both files installed, their items out of order *)
Definition h_assets : list event :=
  h_two ++ [ EvAsset "stable" "components.xml" (Some "two"); EvAsset "stable" "groups.xml" (Some "two") ].
Lemma h_assets_good : good_history (demo_env true) demo_cat h_assets.
Proof. apply Forall_app. split; [apply h_two_good|]. demo_hist. Qed.
Example C95_demo :
  let s := run_history (demo_env true) h_assets in
  reachable (demo_env true) demo_cat s /\ succeeds (demo_env true) demo_oracle (OpIndex "stable") s /\
  asset_file s "stable" "components.xml" = Some "two" /\
  new_components (demo_env true) "two" = Ok ([ Component "system.base" [LField "Base" "en"] [LField "B" "en"] [LField "B" "en"] "";
      Component "system.utils" [LField "Utils" "en"] [LField "U" "en"] [LField "U" "en"] "" ]) /\
  same_items (demo_env true) "components.xml" "two" "owt" /\
  good_asset (demo_env true) "components.xml" "two" /\ good_asset (demo_env true) "components.xml" "owt" /\
  succeeds (demo_env true) demo_oracle (OpIndex "stable") (ev_step (demo_env true) s (EvAsset "stable" "components.xml" (Some "owt"))).
Proof.
  split; [exists h_assets; split; [apply h_assets_good|reflexivity]|]. split; [eexists; vm_compute; reflexivity|]. split; [vm_compute; reflexivity|].
  split; [vm_compute; reflexivity|]. split.
  { left. split; [reflexivity|]. eexists. eexists. split; [vm_compute; reflexivity|]. split; [vm_compute; reflexivity|]. split; [apply perm_swap|].
    cbn. repeat constructor; cbn; intuition discriminate. }
  split; [demo_asset|]. split; [demo_asset|]. eexists. vm_compute. reflexivity.
Qed.

(** ** C96: an incomplete file *)

(** what index runs meet: an item of components.xml without a text, or, with a
    components.xml that can be read, an item of groups.xml without one *)
Definition incomplete_assets (E : env) (s : state) (r : string) : Prop :=
  (exists c l, asset_file s r "components.xml" = Some c /\ E_comps E c = Some l /\ ~ Forall complete_component l) \/
  ((forall c, asset_file s r "components.xml" = Some c -> E_comps E c <> None) /\
   exists c l, asset_file s r "groups.xml" = Some c /\ E_groups E c = Some l /\ ~ Forall complete_group l).
Definition readable_distribution (E : env) (s : state) (r : string) : Prop :=
  forall c, asset_file s r "distribution.xml" = Some c -> E_dist E c <> None.

(** the same world with unreadable asset files, for the invariants of everything else *)
Definition blind (E : env) : env :=
  Env (E_parse E) (E_sha1 E) (E_sha256 E) (E_linkable E) (E_dist E) (fun _ => None) (E_csort E) (fun _ => None) (E_gsort E)
      (E_xz E) (E_zst E) (E_render E).
Lemma good_blind E : good_env E -> good_env (blind E).
Proof. intros H. constructor; try reflexivity; [apply (ge_parse _ H)|apply (ge_csort _ H)|apply (ge_gsort _ H)]. Qed.
Lemma blind_asset E a c : good_asset (blind E) a c.
Proof. split; intros _ l X; discriminate. Qed.
Lemma blind_Inv E cat ex fz P s : Inv E cat ex fz P s -> Inv (blind E) cat ex fz P s.
Proof.
  intros [A B C [F1 F2 F3 F4 F5] D G H K]. constructor; auto; [constructor; auto; intros r a c _; right; apply blind_asset|]. intros Z. destruct (H Z). constructor; auto.
Qed.

Definition poisoned (E : env) (cat : string -> meta) (r : string) (s : state) : Prop :=
  Inv (blind E) cat false false [] s /\ repo_exists s r = true /\ readable_distribution E s r /\ incomplete_assets E s r.

Section Poison.
Variable E : env.
Variable cat : string -> meta.
Hypothesis Hcat : good_catalog cat.
Hypothesis HE : good_env E.
Notation BInv := (Inv (blind E) cat false false []).

Lemma poison_emit s r dist : BInv s -> incomplete_assets E s r -> emit_index E r dist s = ([], s, Panic).
Proof.
  intros H Inc. unfold emit_index, ent_list. rewrite !bind_gets.
  rewrite (bind_ok _ _ _ _ _ (emit_pkgs_eq (blind E) cat Hcat false false s r dist H)).
  unfold asset_part. cbn [app]. rewrite bind_assoc, bind_gets. unfold incomplete_assets, asset_file in Inc.
  destruct Inc as [(c & l & Gc & Dc & Nc)|(Rc & g & l & Gg & Dg & Ng)].
  - rewrite Gc. destruct (components_cases E HE c) as [[X _]|[(l' & X & Y & _)|(l' & _ & _ & ->)]]; [congruence| |reflexivity].
    exfalso. rewrite Dc in X. injection X as <-. contradiction.
  - assert (Pg : new_groups E g = Panic).
    { destruct (groups_cases E HE g) as [[X _]|[(l' & X & Y & _)|(l' & _ & _ & ->)]]; [congruence| |reflexivity].
      exfalso. rewrite Dg in X. injection X as <-. contradiction. }
    destruct (f_asset (st_fs s) r "components.xml") as [c|].
    + specialize (Rc c eq_refl). destruct (components_cases E HE c) as [[X _]|[(l' & _ & _ & ->)|(l' & _ & _ & ->)]]; [contradiction| |reflexivity].
      rewrite bind_assoc, bind_lift_ok, bind_ret, bind_assoc, bind_gets, Gg, Pg. reflexivity.
    + rewrite bind_ret, bind_assoc, bind_gets, Gg, Pg. reflexivity.
Qed.

Lemma poison_same r s s' : st_db s' = st_db s -> f_asset (st_fs s') = f_asset (st_fs s) ->
  readable_distribution E s r -> incomplete_assets E s r -> readable_distribution E s' r /\ incomplete_assets E s' r.
Proof. intros _ Q. unfold readable_distribution, incomplete_assets, asset_file. rewrite Q. auto. Qed.

Lemma poison_index o r s : poisoned E cat r s ->
  wp (api_index E o r) (fun _ => True)
     (fun s' res => res = Panic /\ poisoned E cat r s' /\ st_db s' = st_db s /\
        (forall l, file_content (st_fs s') l = file_content (st_fs s) l) /\ f_asset (st_fs s') = f_asset (st_fs s) /\
        forall x f, f <> "eopkg-index.xml.new" -> index_file s' x f = index_file s x f) s.
Proof.
  intros (H & R & Di & In_). unfold api_index. apply wp_bind.
  eapply wp_mono; [apply (wp_get_repo (blind E) cat false false [] r s H)|auto|].
  intros s1 res (I1 & Q1 & [(-> & Hr & Hc)|(-> & Hr & ->)]); [|unfold repo_exists in R; congruence].
  destruct (poison_same r s s1 (qd_db _ _ _ Q1) (qd_asset _ _ _ Q1) Di In_) as [D1 N1].
  unfold index. apply wp_bind. unfold wp at 1. rewrite init_dist_eq. split; [constructor|].
  unfold result_of, final_of. cbn [fst snd]. unfold dist_of.
  assert (K : forall dist, wp (mapping <- run_stages r [] (index_stages E o r dist) ;;
       on_err (forM (o_order o mapping) (fun kv => rename o r (fst kv) (snd kv)) ;;; lift (o_purge o)) (remove_all r (map fst mapping)))
     (fun _ => True) (fun s' res => res = Panic /\ poisoned E cat r s' /\ st_db s' = st_db s /\
        (forall l, file_content (st_fs s') l = file_content (st_fs s) l) /\ f_asset (st_fs s') = f_asset (st_fs s) /\
        forall x f, f <> "eopkg-index.xml.new" -> index_file s' x f = index_file s x f) s1).
  { intros dist. set (s2 := set_root_st r f_index (Some "") s1).
    assert (Q2 : quiet_root r s1 s2) by (apply quiet_root_set; constructor; auto; apply same_files_refl).
    assert (I2 : BInv s2) by (eapply Inv_quiet_root; eauto).
    destruct (poison_same r s1 s2 (qr_db _ _ _ Q2) (qr_asset _ _ _ Q2) D1 N1) as [D2 N2].
    assert (X : run_stages r [] (index_stages E o r dist) s1 = ([s2], s2, Panic)).
    { cbn [run_stages index_stages]. unfold bind at 1. unfold on_err at 1. unfold bind at 1, root_set, durable.
      change (on_fs (fun f => fs_set_root f r f_index (Some "")) s1) with s2.
      unfold bind at 1. rewrite (poison_emit s2 r dist I2 N2). reflexivity. }
    unfold wp, bind, result_of, final_of, trace_of. rewrite X. cbn [fst snd]. split; [repeat constructor|]. split; [reflexivity|].
    split; [|split; [|split; [|split]]].
    - split; [exact I2|]. split; [|auto]. unfold repo_exists. rewrite (qr_db _ _ _ Q2), (qd_db _ _ _ Q1). exact R.
    - rewrite (qr_db _ _ _ Q2), (qd_db _ _ _ Q1). reflexivity.
    - intros l. rewrite (same_files_content _ _ l (qr_files _ _ _ Q2)). apply same_files_content, (qd_files _ _ _ Q1).
    - rewrite (qr_asset _ _ _ Q2). apply (qd_asset _ _ _ Q1).
    - intros x f Nf. unfold index_file. destruct (seqb_spec x r) as [->|Nx].
      + unfold s2. rewrite set_root_get. destruct (seqb_spec f f_index); [contradiction|]. rewrite (qd_root _ _ _ Q1). reflexivity.
      + rewrite (qr_root _ _ _ Q2 x Nx), (qd_root _ _ _ Q1). reflexivity. }
  unfold readable_distribution, asset_file in D1. destruct (f_asset (st_fs s1) r "distribution.xml") as [c|]; [|apply K].
  specialize (D1 c eq_refl). destruct (E_dist E c) as [ob|]; [apply K|contradiction].
Qed.
End Poison.

(** C96 is false: a components.xml in which one text is missing does not make the index
    run fail, it kills the daemon. *)
Theorem C96_bad_asset_fails_cleanly_refuted :
  exists E cat s o r a c, good_catalog cat /\ good_env E /\ reachable E cat s /\ good_oracle o /\
    succeeds E o (OpIndex r) s /\ outcome E o (OpIndex r) (ev_step E s (EvAsset r a (Some c))) = Panic.
Proof.
  exists (demo_env true), demo_cat, (run_history (demo_env true) h_two), demo_oracle, "stable", "components.xml", "bare".
  split; [apply demo_cat_good|]. split; [apply demo_env_good|]. split; [exists h_two; split; [apply h_two_good|reflexivity]|]. split; [apply demo_oracle_good|].
  split; [eexists; vm_compute; reflexivity|vm_compute; reflexivity].
Qed.
Print Assumptions C96_bad_asset_fails_cleanly_refuted.

(** the daemon started again and asked for the index again, once per oracle *)
Definition retried (E : env) (r : string) (os : list oracle) (s : state) : state :=
  fold_left (fun s o => ev_step E (after E o (OpIndex r) s) EvRestart) os s.

(** Exactly: with an incomplete file in place every index run of that repository panics,
    now and after any number of restarts; it damages nothing published. (The converse,
    no panic with complete files, is C59.) *)
Theorem C96_incomplete_asset_always_kills :
  forall E cat s r a c, good_catalog cat -> good_env E -> reachable E cat s -> repo_exists s r = true ->
    let s1 := ev_step E s (EvAsset r a (Some c)) in
    readable_distribution E s1 r -> incomplete_assets E s1 r ->
    forall os o, let sn := retried E r os s1 in
      outcome E o (OpIndex r) sn = Panic /\
      st_db sn = st_db s /\ (forall l, file_content (st_fs sn) l = file_content (st_fs s) l) /\
      forall x f, In f published_index_files -> index_file sn x f = index_file s x f.
Proof.
  intros E cat s r a c Hc HE (h & Hh & ->) R s1 Di In_ os o.
  pose proof (blind_Inv E cat _ _ _ _ (hist_inv E cat Hc HE h Hh)) as I. set (s := run_history E h) in *.
  assert (P1 : poisoned E cat r s1).
  { split; [|auto]. apply Inv_asset; [exact I|apply blind_asset]. }
  assert (K : forall os u, poisoned E cat r u -> poisoned E cat r (retried E r os u) /\ st_db (retried E r os u) = st_db u /\
     (forall l, file_content (st_fs (retried E r os u)) l = file_content (st_fs u) l) /\
     forall x f, f <> "eopkg-index.xml.new" -> index_file (retried E r os u) x f = index_file u x f).
  { clear - Hc HE. induction os as [|o os IH]; intros u Pu; [cbn; auto|]. cbn [retried fold_left].
    destruct (run_unit E (api_index E o r) _ _ u o (OpIndex r) eq_refl (poison_index E cat Hc HE o r u Pu)) as (res & (_ & P & Ed & Ef & Ea & Ei) & _).
    set (u1 := after E o (OpIndex r) u) in *.
    assert (P2 : poisoned E cat r (ev_step E u1 EvRestart)).
    { destruct P as (J & A & B & D). split; [apply Inv_restart, J|]. auto. }
    destruct (IH _ P2) as (A & B & D & F). unfold retried in *. split; [exact A|]. split; [rewrite B; exact Ed|].
    split; [intros l; rewrite D; apply Ef|intros x f N; rewrite F by exact N; apply Ei, N]. }
  destruct (K os s1 P1) as (Pn & Ed & Ef & Ei). intros sn. fold sn in Pn, Ed, Ef, Ei.
  destruct (run_unit E (api_index E o r) _ _ sn o (OpIndex r) eq_refl (poison_index E cat Hc HE o r sn Pn)) as (res & (-> & _) & Hout).
  split; [exact Hout|]. split; [exact Ed|]. split; [exact Ef|].
  intros x f Hf. rewrite Ei; [reflexivity|]. intros ->. cbn in Hf. repeat (destruct Hf as [Hf|Hf]; [discriminate|]). destruct Hf.
Qed.
Print Assumptions C96_incomplete_asset_always_kills.

Example C96_demo :
  let E := demo_env true in
  let s := run_history E h_two in
  let s1 := ev_step E s (EvAsset "stable" "groups.xml" (Some "bare")) in
  reachable E demo_cat s /\ repo_exists s "stable" = true /\ readable_distribution E s1 "stable" /\ incomplete_assets E s1 "stable".
Proof.
  split; [exists h_two; split; [apply h_two_good|reflexivity]|]. split; [vm_compute; reflexivity|]. split.
  - intros c X. vm_compute in X. discriminate.
  - right. split; [intros c X; vm_compute in X; discriminate|].
    exists "bare", [Group "multimedia" [] "icon"]. split; [vm_compute; reflexivity|]. split; [vm_compute; reflexivity|].
    intros F. inversion F as [|? ? X _]. apply X. reflexivity.
Qed.
