(** * OpFacts3: frame, crash points, strict batches, orphans (proof artifact) *)
From Verif Require Import Model Spec DbInv DbOps Wp FsInv Ops UnrefOps RepoOps DeleteOps Pure Loops Emit IndexOps ApiOps History PoolFacts OpFacts OpFacts2 Frame.
Open Scope string_scope. Open Scope list_scope.

Section Facts.
Variable E : env.
Variable cat : string -> meta.
Hypothesis Hcat : good_catalog cat.
Hypothesis HE : good_env E.
Notation Inv := (Inv E cat).

Lemma inv_named ex fz P s : Inv ex fz P s -> pool_named (st_db s).
Proof. intros H id p G. apply (po_name _ _ _ (ok_pool _ _ (i_db _ _ _ _ _ _ H) _ _ G)). Qed.

(** ** frame *)
Lemma framed_refl x s : st_batch s = [] -> framed x s s.
Proof. intros B. constructor; auto. rewrite B. constructor. Qed.
Lemma framed_obs x s t : framed x s t ->
  same_listings x s t /\ (forall f, index_file t x f = index_file s x f) /\ (forall f, asset_file t x f = asset_file s x f) /\
  (forall c id, repo_file t x c id = None <-> repo_file s x c id = None).
Proof.
  intros [A1 A2 A3 A4 A5 _ _]. split; [|split; [|split]].
  - split; [exact A1|]. intros n. unfold entry_at. rewrite A2. reflexivity.
  - intros f. unfold index_file. rewrite A4. reflexivity.
  - intros f. unfold asset_file. rewrite A5. reflexivity.
  - intros c id. unfold repo_file, file_content. rewrite (A3 (Loc (TRepo x) c id) eq_refl).
    destruct (f_name (st_fs s) (Loc (TRepo x) c id)); split; congruence.
Qed.
Lemma frame_instants o p s x t : st_batch s = [] -> target p <> Some x ->
  In t (after E o p s :: crash_points E o p s) -> framed x s t.
Proof.
  intros B N. destruct (k_run E x s o p N s (framed_refl x s B)) as [F Q]. intros [<-|Hin]; [exact Q|].
  rewrite Forall_forall in F. apply F, Hin.
Qed.
Lemma frame_facts ex s o p x : Inv ex true [] s -> good_oracle o -> good_op p -> (ex = true -> delta_op p = false) -> target p <> Some x ->
  let s' := after E o p s in
  forall id, available s x id -> served E s' x id /\
    exists q q', pool_at s id = Some q /\ pool_at s' id = Some q' /\ p_meta q' = p_meta q.
Proof.
  intros H Ho Hp Hx N s' id Av.
  assert (I' : Inv ex true [] s') by (apply (after_inv E cat Hcat HE); auto).
  pose proof (frame_instants o p s x s' (i_batch _ _ _ _ _ _ H) N (or_introl eq_refl)) as F.
  destruct (framed_obs _ _ _ F) as ((_ & L) & _).
  assert (Av' : available s' x id).
  { destruct Av as (n & e & G & Hin). exists n, e. rewrite L. auto. }
  split; [apply (inv_served E cat ex s' x id I' Av')|].
  destruct Av as (n & e & G & Hin). destruct (avail_pool E cat ex true [] s x n e id H G Hin) as (q & Gq & _).
  destruct Av' as (n' & e' & G' & Hin'). destruct (avail_pool E cat ex true [] s' x n' e' id I' G' Hin') as (q' & Gq' & _).
  exists q, q'. split; [exact Gq|]. split; [exact Gq'|].
  apply (item_kept E o p s id q q' (inv_named _ _ _ _ H) (i_batch _ _ _ _ _ _ H) Gq Gq').
Qed.

(** ** crash points *)
Lemma served_fx s r id : Inv false false [] s -> FX E cat s -> available s r id -> served E s r id.
Proof.
  intros H X (n & e & G & Hin). destruct (avail_pool E cat false false [] s r n e id H G Hin) as (p & A & B & _).
  destruct (fx_repo _ _ _ X r n e id p G Hin A) as (c & Fc & _ & Hh & Hs).
  exists p, (comp_of (cat id)), c. split; [exact A|]. split; [|split; [exact Fc|split; assumption]].
  destruct (po_meta _ _ _ B) as (h & z & ->). reflexivity.
Qed.
Lemma crash_safe ex fz s o p : Inv ex fz [] s -> good_oracle o -> good_op p -> (ex = true -> delta_op p = false) -> removes_packages p = false ->
  forall t, In t (crash_points E o p s) -> safe t.
Proof.
  intros H Ho Hp Hx R t Hin. destruct (wp_run_op E cat Hcat HE ex fz o p s H Ho Hp Hx) as (F & _).
  rewrite Forall_forall in F. specialize (F t Hin). unfold crash_ok in F. rewrite R in F.
  exact (inv_safe E cat false false _ (proj1 F)).
Qed.
Lemma crash_served ex s o p : Inv ex true [] s -> good_oracle o -> good_op p -> (ex = true -> delta_op p = false) -> removes_packages p = false -> (forall r, p <> OpDelete r) ->
  forall t, In t (crash_points E o p s) -> all_served E t.
Proof.
  intros H Ho Hp Hx R D t Hin. destruct (wp_run_op E cat Hcat HE ex true o p s H Ho Hp Hx) as (F & _).
  rewrite Forall_forall in F. specialize (F t Hin). unfold crash_ok in F. rewrite R in F. destruct F as [A B].
  intros r id Av. exact (served_fx (restart t) r id A (B D eq_refl) Av).
Qed.
Lemma never_panics ex fz s o p : Inv ex fz [] s -> good_oracle o -> good_op p -> (ex = true -> delta_op p = false) -> outcome E o p s <> Panic.
Proof. intros H Ho Hp Hx. apply (wp_run_op E cat Hcat HE ex fz o p s H Ho Hp Hx). Qed.

(** ** strict batches *)
Lemma avail_mono_pub ex fz ex' fz' s s' r n a : Inv ex fz [] s -> Inv ex' fz' [] s' ->
  (forall id, In id (avail_db (st_db s) r n) -> In id (avail_db (st_db s') r n)) ->
  published_release s r n = Some a -> exists b, published_release s' r n = Some b /\ (a <= b)%Z.
Proof. intros H H' M. apply (pub_monotone E cat ex fz ex' fz' s s' r n H H' M). Qed.

Lemma offers_cat ex s pkgs n id : Inv ex true [] s -> offers E s pkgs n id -> n = m_name (cat id) /\ exists l c, In l pkgs /\ l_id l = id /\ file_content (st_fs s) l = Some c /\ E_parse E c = Ok (cat id).
Proof.
  intros H (l & c & m & Hl & <- & Fc & Pc & <-).
  assert (Hm : m = cat (l_id l)).
  { assert (Hg : good_file E cat (l_id l) c).
    { unfold file_content in Fc. destruct (f_name (st_fs s) l) as [i|] eqn:Gi; [|discriminate]. injection Fc as <-.
      apply (fo_good _ _ _ (i_fs _ _ _ _ _ _ H) _ _ Gi). }
    unfold good_file in Hg. rewrite Pc in Hg. exact Hg. }
  subst m. split; [reflexivity|]. exists l, c. auto.
Qed.
Lemma added_strict ex r pkgs s s' res : added E cat ex true r true pkgs s s' res -> Inv ex true [] s -> res = Ok tt ->
  forall l a, In l pkgs -> published_release s r (m_name (cat (l_id l))) = Some a -> (a < rel (cat (l_id l)))%Z.
Proof.
  induction 1 as [s|l ls s s1 s' res I1 R1 O1 A IH|l ls s s1 R1 O1]; intros H Er y a Hy Pa; [destruct Hy| |discriminate].
  destruct (grown_one E cat _ _ _ _ _ O1) as [G1 _].
  destruct Hy as [<-|Hy].
  - inversion O1 as [| | |c h z Fc Pm Ns Hz Po Ed]; subst. specialize (Ns eq_refl). unfold stale in Ns.
    destruct (mget (d_ents (st_db s) r) (m_name (cat (l_id l)))) as [e|] eqn:G; [|rewrite (pub_rel_none s) in Pa by exact G; discriminate].
    rewrite (pub_rel E cat ex true s r _ e H G) in Pa. injection Pa as <-. apply Z.leb_gt in Ns. lia.
  - destruct (avail_mono_pub ex true ex true s s1 r _ a H I1 (gr_more _ _ _ _ _ G1 _) Pa) as (b & Pb & Le).
    pose proof (IH I1 Er y b Hy Pb). lia.
Qed.
Lemma strict_batch ex s o r pkgs : Inv ex true [] s -> good_oracle o -> good_op (OpAdd r pkgs true) ->
  succeeds E o (OpAdd r pkgs true) s ->
  forall l c m a, In l pkgs -> file_content (st_fs s) l = Some c -> E_parse E c = Ok m ->
    published_release s r (m_name m) = Some a -> (a < rel m)%Z.
Proof.
  intros H Ho Hp (l0 & Su) l c m a Hl Fc Pc Pa.
  destruct (offers_cat ex s pkgs (m_name m) (l_id l) H) as (_ & l' & c' & Hl' & Ei & Fc' & Pc').
  { exists l, c, m. auto. }
  assert (Hm : m = cat (l_id l)).
  { assert (Hg : good_file E cat (l_id l) c).
    { unfold file_content in Fc. destruct (f_name (st_fs s) l) as [i|] eqn:Gi; [|discriminate]. injection Fc as <-.
      apply (fo_good _ _ _ (i_fs _ _ _ _ _ _ H) _ _ Gi). }
    unfold good_file in Hg. rewrite Pc in Hg. exact Hg. }
  subst m.
  destruct (run_unit E (api_add_packages E o r pkgs true) _ _ s o (OpAdd r pkgs true) eq_refl (wp_api_add E cat Hcat HE ex true o r pkgs true s H Ho Hp)) as (res & W & Hout).
  apply then_indexed_db in W. destruct W as [(-> & _)|(s1 & I1 & [(X & _)|(Hr & s0 & Q & A)] & _ & Ed)]; [congruence|discriminate|].
  assert (I0 : Inv ex true [] s0) by
    (apply (Inv_same E cat ex true [] s s0 H (qd_db _ _ _ Q) (qd_files _ _ _ Q));
     [rewrite (qd_batch _ _ _ Q); apply (i_batch _ _ _ _ _ _ H)|];
     intros y Hy; rewrite (qd_db _ _ _ Q); destruct (seqb_spec y r) as [->|Ny]; [exact Hr|];
     rewrite (qd_cache _ _ _ Q y Ny) in Hy; apply (i_cache _ _ _ _ _ _ H), Hy).
  apply (added_strict ex r pkgs s0 s1 (Ok tt) A I0 eq_refl l a Hl).
  unfold published_release, published, pool_release, pool_at, entry_at in *. rewrite (qd_db _ _ _ Q). exact Pa.
Qed.

(** ** published releases never go down while adding *)
Lemma add_monotone ex s o r pkgs strict : Inv ex true [] s -> good_oracle o -> good_op (OpAdd r pkgs strict) ->
  let s' := after E o (OpAdd r pkgs strict) s in
  forall n a, published_release s r n = Some a -> exists b, published_release s' r n = Some b /\ (a <= b)%Z.
Proof.
  intros H Ho Hp s' n a Pa. destruct (add_facts E cat Hcat HE ex s o r pkgs strict H Ho Hp) as (_ & G & _).
  assert (I' : Inv ex true [] s') by (apply (after_inv E cat Hcat HE); auto; intros _; reflexivity).
  apply (avail_mono_pub ex true ex true s s' r n a H I' (gr_more _ _ _ _ _ G n) Pa).
Qed.

(** ** no orphans *)
Lemma inv_orphans ex s : Inv ex true [] s ->
  (forall r c id, is_delta_id id = false -> repo_file s r c id <> None -> available s r id) /\
  (forall c id, is_delta_id id = false -> file_content (st_fs s) (Loc TPool c id) <> None -> pool_at s id <> None).
Proof.
  intros H. destruct (i_fz _ _ _ _ _ _ H eq_refl) as [A B]. split.
  - intros r c id D F. destruct (B r c id D) as (_ & e & G & Hin).
    { intros Z. apply F. unfold repo_file, file_content. rewrite Z. reflexivity. }
    exists (m_name (cat id)), e. auto.
  - intros c id D F. apply (A c id D). intros Z. apply F. unfold file_content. rewrite Z. reflexivity.
Qed.

(** ** releases of items are fixed *)
Lemma pool_release_cat ex fz s id p : Inv ex fz [] s -> pool_at s id = Some p -> pool_release s id = Some (rel (cat id)).
Proof.
  intros H G. unfold pool_release. rewrite G. f_equal. apply (meta_of_rel cat). apply (po_meta _ _ _ (ok_pool _ _ (i_db _ _ _ _ _ _ H) _ _ G)).
Qed.
Lemma pull_up_to_date ex fz s o src tgt : Inv ex fz [] s -> good_oracle o ->
  repo_exists s src = true -> repo_exists s tgt = true -> (forall n, ~ ahead s src tgt n) ->
  let s' := after E o (OpPull src tgt) s in
  forall n a, published_release s src n = Some a -> exists b, published_release s' tgt n = Some b /\ (a <= b)%Z.
Proof.
  intros H Ho R1 R2 Na s' n a Pa.
  assert (I' : Inv ex fz [] s') by (apply (after_inv E cat Hcat HE); auto; try exact I; intros _; reflexivity).
  destruct (pull_facts E cat Hcat HE ex fz s o src tgt H Ho) as [_ P]. fold s' in P. destruct (P R1 R2 Na) as (_ & Pb & Pn & _).
  destruct (entry_at s src n) as [e|] eqn:G; [|rewrite (pub_rel_none s) in Pa by exact G; discriminate].
  rewrite (pub_rel E cat ex fz s src n e H G) in Pa. injection Pa as <-.
  assert (D : behind s src tgt n \/ exists b, published_release s tgt n = Some b /\ (rel (cat (e_pub e)) <= b)%Z).
  { destruct (published_release s tgt n) as [b|] eqn:Pt.
    - destruct (Z.ltb_spec b (rel (cat (e_pub e)))).
      + left. exists (rel (cat (e_pub e))). split; [apply (pub_rel E cat ex fz s src n e H G)|]. rewrite Pt. exact H0.
      + right. exists b. auto.
    - left. exists (rel (cat (e_pub e))). split; [apply (pub_rel E cat ex fz s src n e H G)|]. rewrite Pt. exact I. }
  destruct D as [D|(b & Pt & Le)].
  - destruct (Pb n D) as [X _]. unfold published in X. rewrite G in X.
    destruct (entry_at s' tgt n) as [e'|] eqn:G'; [|discriminate]. injection X as X.
    rewrite (pub_rel E cat ex fz s' tgt n e' I' G'), X. eexists. split; [reflexivity|lia].
  - destruct (entry_at s tgt n) as [e2|] eqn:G2; [|rewrite (pub_rel_none s) in Pt by exact G2; discriminate].
    rewrite (pub_rel E cat ex fz s tgt n e2 H G2) in Pt. injection Pt as <-.
    assert (Nb : ~ behind s src tgt n).
    { intros (a & A1 & A2). rewrite (pub_rel E cat ex fz s src n e H G) in A1. injection A1 as <-.
      rewrite (pub_rel E cat ex fz s tgt n e2 H G2) in A2. lia. }
    specialize (Pn n Nb). rewrite G2 in Pn. rewrite (pub_rel E cat ex fz s' tgt n e2 I' Pn). eexists. split; [reflexivity|exact Le].
Qed.

(** ** deleting, then creating again *)
Lemma recreate ex fz s o o' r : Inv ex fz [] s -> good_oracle o' -> repo_exists s r = true ->
  let s1 := after E o (OpDelete r) s in let s2 := after E o' (OpCreate r) s1 in
  repo_exists s2 r = true /\ (forall n, entry_at s2 r n = None) /\ (forall c id, repo_file s2 r c id = None).
Proof.
  intros H Ho R s1 s2. destruct (delete_facts E cat Hcat ex fz s o r H) as (_ & _ & D). fold s1 in D.
  destruct (D R) as (I1 & A1 & _ & A2 & _ & _ & A3 & _).
  destruct (create_facts E cat Hcat HE ex fz s1 o' r I1 Ho) as (_ & C). fold s2 in C.
  assert (Rn : reserved r = false) by (apply (ok_rname _ _ (i_db _ _ _ _ _ _ H)); exact R).
  destruct (C A1 A3 Rn) as (B1 & B2 & _ & _ & B3). split; [exact B1|]. split; [exact B2|].
  intros c id. unfold repo_file. rewrite B3. apply A2.
Qed.
End Facts.
