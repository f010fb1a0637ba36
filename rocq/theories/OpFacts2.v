(** * OpFacts2: trims and imports in the vocabulary of Spec (proof artifact) *)
From Verif Require Import Model Spec DbInv DbOps Wp FsInv Ops UnrefOps RepoOps DeleteOps Pure Loops Emit IndexOps ApiOps History PoolFacts OpFacts.
Open Scope string_scope. Open Scope list_scope.

Lemma filter_ne_length (x : string) l : NoDup l ->
  List.length (filter (fun a => negb (seqb a x)) l) = List.length l - (if sin x l then 1 else 0) /\
  (sin x l = true -> 1 <= List.length l).
Proof.
  induction l as [|y l IH]; intros ND; [split; [reflexivity|discriminate]|]. inversion ND as [|? ? Ny ND']; subst.
  destruct (IH ND') as [A B]. cbn [filter sin existsb List.length]. split; [|intros _; lia].
  change (existsb (seqb x) l) with (sin x l).
  destruct (seqb x y) eqn:Exy.
  - apply seqb_eq in Exy. subst y. rewrite seqb_refl. cbn [negb orb]. rewrite A.
    destruct (sin x l) eqn:S; [apply sin_In in S; contradiction|]. lia.
  - assert (seqb y x = false) as -> by (apply seqb_neq; apply seqb_neq in Exy; congruence). cbn [negb orb List.length].
    rewrite A. destruct (sin x l); [pose proof (B eq_refl); lia|lia].
Qed.

Lemma NoDup_app_intro {X} (l1 l2 : list X) : NoDup l1 -> NoDup l2 -> (forall x, In x l1 -> ~ In x l2) -> NoDup (l1 ++ l2).
Proof.
  induction l1 as [|x l1 IH]; intros A B D; simpl; [exact B|]. inversion A; subst. constructor.
  - rewrite in_app_iff. intros [Y|Y]; [contradiction|]. apply (D x); [left; reflexivity|exact Y].
  - apply IH; auto. intros y Hy. apply D. right; exact Hy.
Qed.

Section Facts.
Variable E : env.
Variable cat : string -> meta.
Hypothesis Hcat : good_catalog cat.
Hypothesis HE : good_env E.
Notation Inv := (Inv E cat).

Definition ranked (o : oracle) (d : db) (e : entry) : list string :=
  map get_id (o_sort o (map (pm cat d) (e_avail e))).

Lemma ranked_desc ex fz s r n e o a b i j :
  Inv ex fz [] s -> good_oracle o -> mget (d_ents (st_db s) r) n = Some e ->
  i < j -> nth_error (ranked o (st_db s) e) i = Some a -> nth_error (ranked o (st_db s) e) j = Some b ->
  (rel (cat b) <= rel (cat a))%Z.
Proof.
  intros H Ho G Hij Ha Hb. unfold ranked in *. rewrite nth_error_map in Ha, Hb.
  set (l := o_sort o (map (pm cat (st_db s)) (e_avail e))) in *.
  destruct (nth_error l i) as [ma|] eqn:Ea; [|discriminate]. destruct (nth_error l j) as [mb|] eqn:Eb; [|discriminate].
  simpl in Ha, Hb. injection Ha as <-. injection Hb as <-.
  assert (R : forall m k, nth_error l k = Some m -> rel m = rel (cat (get_id m))).
  { intros m k Hk. apply nth_error_In in Hk. unfold l in Hk. apply (Permutation_in _ (go_sort_perm _ Ho _)) in Hk.
    apply in_map_iff in Hk. destruct Hk as (id & <- & Hid).
    destruct (pm_id E cat ex fz s r n e id H G Hid) as [X Y]. rewrite X, Y. reflexivity. }
  rewrite <- (R _ _ Ea), <- (R _ _ Eb). clear R.
  assert (S : descending l) by apply (go_sort_desc _ Ho).
  clearbody l. revert i j Hij Ea Eb. induction S as [|x l S IH F]; intros i j Hij Ea Eb; [destruct i; discriminate|].
  destruct j as [|j]; [lia|]. destruct i as [|i].
  - simpl in *. injection Ea as <-. rewrite Forall_forall in F. apply F. eapply nth_error_In; eauto.
  - simpl in *. apply (IH i j); [lia|assumption..].
Qed.

Lemma in_firstn_nth {A} (l : list A) k x : In x (firstn k l) -> exists i, i < k /\ nth_error l i = Some x.
Proof.
  revert k. induction l as [|y l IH]; intros [|k] Hx; simpl in *; try tauto. destruct Hx as [->|Hx].
  - exists 0. split; [lia|reflexivity].
  - destruct (IH k Hx) as (i & L & N). exists (S i). split; [lia|exact N].
Qed.
Lemma in_skipn_nth {A} (l : list A) k x : In x (skipn k l) -> exists i, k <= i /\ nth_error l i = Some x.
Proof.
  revert k. induction l as [|y l IH]; intros [|k] Hx; simpl in *; try tauto.
  - destruct Hx as [->|Hx]; [exists 0; split; [lia|reflexivity]|]. apply In_nth_error in Hx. destruct Hx as (i & N). exists (S i). split; [lia|exact N].
  - destruct (IH k Hx) as (i & L & N). exists (S i). split; [lia|exact N].
Qed.

(** what is dropped from one entry *)
Lemma old_ids_facts ex fz s r n e o k : Inv ex fz [] s -> good_oracle o -> mget (d_ents (st_db s) r) n = Some e -> (1 <= k)%Z ->
  let X := old_ids cat o (st_db s) k e in
  ~ In (e_pub e) X /\
  (Z.of_nat (List.length (e_avail e)) <= k -> X = [])%Z /\
  ((k < Z.of_nat (List.length (e_avail e)))%Z ->
     List.length (e_avail e) - Z.to_nat k - 1 <= List.length X <= List.length (e_avail e) - Z.to_nat k /\
     ((forall a b, In a (e_avail e) -> In b (e_avail e) -> rel (cat a) = rel (cat b) -> a = b) ->
        List.length X = List.length (e_avail e) - Z.to_nat k)) /\
  (forall a b, In a X -> In b (e_avail e) -> ~ In b X -> (rel (cat a) <= rel (cat b))%Z).
Proof.
  intros H Ho G Hk X.
  pose proof (sorted_ids E cat ex fz s r n e o H Ho G) as Pm. fold (ranked o (st_db s) e) in Pm.
  set (L := ranked o (st_db s) e) in *.
  pose proof (ok_ent _ _ (i_db _ _ _ _ _ _ H) _ _ _ G) as Eo.
  assert (NDa : NoDup (e_avail e)) by apply slt_sorted_nodup, (eo_sorted _ _ _ Eo).
  assert (NDL : NoDup L) by (eapply Permutation_NoDup; [apply Permutation_sym, Pm|exact NDa]).
  assert (LL : List.length L = List.length (e_avail e)) by apply Permutation_length, Pm.
  assert (EX : X = if Z.ltb (Z.of_nat (List.length (e_avail e))) k then [] else filter (fun id => negb (seqb id (e_pub e))) (skipn (Z.to_nat k) L)).
  { unfold X, old_ids, L, ranked. rewrite skipn_map. reflexivity. }
  assert (NDs : NoDup (skipn (Z.to_nat k) L)).
  { eapply proj2, nodup_app. rewrite firstn_skipn. exact NDL. }
  split; [|split; [|split]].
  - rewrite EX. destruct (Z.ltb _ _); [intros []|]. intros Y. apply filter_In in Y. rewrite seqb_refl in Y. destruct Y; discriminate.
  - intros Le. rewrite EX. destruct (Z.ltb_spec (Z.of_nat (List.length (e_avail e))) k); [reflexivity|].
    rewrite skipn_all2 by lia. reflexivity.
  - intros Lt. rewrite EX. destruct (Z.ltb_spec (Z.of_nat (List.length (e_avail e))) k); [lia|].
    destruct (filter_ne_length (e_pub e) _ NDs) as [A B]. rewrite A, skipn_length, LL.
    split; [destruct (sin (e_pub e) (skipn (Z.to_nat k) L)); lia|]. intros Dist.
    assert (sin (e_pub e) (skipn (Z.to_nat k) L) = false) as ->; [|lia].
    destruct (sin (e_pub e) (skipn (Z.to_nat k) L)) eqn:S; [|reflexivity]. exfalso. apply sin_In in S.
    apply in_skipn_nth in S. destruct S as (j & Lj & Nj).
    destruct L as [|x0 L0] eqn:EL; [destruct j; discriminate|].
    assert (Hx0 : In x0 (e_avail e)) by (eapply Permutation_in; [exact Pm|left; reflexivity]).
    assert (Rx : (rel (cat (e_pub e)) <= rel (cat x0))%Z).
    { eapply (ranked_desc ex fz s r n e o x0 (e_pub e) 0 j H Ho G); [lia| |]; fold L; rewrite EL; [reflexivity|exact Nj]. }
    destruct (eo_avail _ _ _ Eo _ Hx0) as (_ & _ & Ry).
    assert (x0 = e_pub e) by (apply Dist; [exact Hx0|apply (eo_pub _ _ _ Eo)|lia]). subst x0.
    destruct j as [|j]; [lia|]. simpl in Nj. inversion NDL as [|? ? Nin _]; subst. apply Nin. eapply nth_error_In; eauto.
  - intros a b Ha Hb Nb. rewrite EX in Ha, Nb. destruct (Z.ltb _ _); [destruct Ha|].
    apply filter_In in Ha. destruct Ha as [Ha _]. destruct (seqb b (e_pub e)) eqn:Sb.
    + apply seqb_eq in Sb. subst b. apply (Permutation_in (l' := e_avail e)) with (x := a) in Pm as Ha'.
      * apply (eo_avail _ _ _ Eo _ Ha').
      * rewrite <- (firstn_skipn (Z.to_nat k) L). apply in_or_app. right; exact Ha.
    + assert (Hb' : In b L) by (eapply Permutation_in; [apply Permutation_sym, Pm|exact Hb]).
      rewrite <- (firstn_skipn (Z.to_nat k) L) in Hb'. apply in_app_or in Hb'. destruct Hb' as [Hb'|Hb'].
      * apply in_firstn_nth in Hb'. apply in_skipn_nth in Ha. destruct Hb' as (i & Li & Ni), Ha as (j & Lj & Nj).
        apply (ranked_desc ex fz s r n e o b a i j H Ho G); [lia|assumption..].
      * exfalso. apply Nb. apply filter_In. rewrite Sb. auto.
Qed.

Lemma trim_ids_one ex fz s r n e o k id : Inv ex fz [] s -> good_oracle o -> mget (d_ents (st_db s) r) n = Some e ->
  m_name (cat id) = n -> In id (trim_ids cat o (st_db s) r k) <-> In id (old_ids cat o (st_db s) k e).
Proof.
  intros H Ho G Hn. unfold trim_ids. rewrite in_flat_map. split.
  - intros ([n' e'] & Hin & Hx). apply in_mlist in Hin. simpl in Hx.
    pose proof (old_ids_in E cat ex fz s r n' e' o k id H Ho Hin Hx) as Y.
    destruct (eo_avail _ _ _ (ok_ent _ _ (i_db _ _ _ _ _ _ H) _ _ _ Hin) _ Y) as (Z & _). rewrite Hn in Z. subst n'.
    rewrite G in Hin. injection Hin as <-. exact Hx.
  - intros Hx. exists (n, e). split; [apply in_mlist, G|exact Hx].
Qed.

Lemma pool_release_cat ex fz s r n id : Inv ex fz [] s -> In id (available_ids s r n) -> pool_release s id = Some (rel (cat id)).
Proof.
  intros H Hin. destruct (avail_in_pool E cat ex fz s r n id H Hin) as (p & G). unfold pool_release. rewrite G. f_equal.
  apply (pool_cat E cat ex fz s id p H G).
Qed.

Lemma after_inv ex fz o p s : Inv ex fz [] s -> good_oracle o -> good_op p -> (ex = true -> delta_op p = false) ->
  Inv ex fz [] (after E o p s).
Proof. intros H Ho Hp Hd. apply (wp_run_op E cat Hcat HE ex fz o p s H Ho Hp Hd). Qed.

Lemma trim_packages_facts ex fz s o r k : Inv ex fz [] s -> good_oracle o ->
  let p := OpTrimPackages r k in
  let s' := after E o p s in
  ((repo_exists s r = false \/ (k < 1)%Z) -> outcome E o p s = Err /\ unchanged s s') /\
  (repo_exists s r = true -> (1 <= k)%Z -> forall n,
     let old := available_ids s r n in
     let new := available_ids s' r n in
     incl new old /\
     (forall q, published s r n = Some q -> In q new) /\
     published_release s' r n = published_release s r n /\
     (Z.of_nat (List.length old) <= k -> new = old)%Z /\
     (k < Z.of_nat (List.length old) -> k <= Z.of_nat (List.length new) <= k + 1)%Z /\
     ((k < Z.of_nat (List.length old))%Z -> (forall a b, In a old -> In b old -> pool_release s a = pool_release s b -> a = b) ->
        Z.of_nat (List.length new) = k) /\
     (forall a b ra rb, In a old -> ~ In a new -> In b new -> pool_release s a = Some ra -> pool_release s b = Some rb -> (ra <= rb)%Z)) /\
  (forall x, x <> r -> same_listings x s s').
Proof.
  intros H Ho p s'.
  assert (I' : Inv ex fz [] s') by (apply after_inv; auto; simpl; auto).
  destruct (run_unit E (api_trim_packages E o r k) _ _ s o p eq_refl (wp_api_trim_packages E cat Hcat HE ex fz o r k s H Ho)) as (res & W & Hout).
  fold s' in W. apply then_indexed_db in W. split; [|split].
  - intros Ex. destruct W as [(-> & (Ed & Sf & _) & R1 & R2)|(s1 & I1 & ((C1 & C2 & C3) & _) & _)].
    + split; [exact Hout|]. apply unchanged_files; assumption.
    + exfalso. unfold repo_exists in Ex. destruct Ex as [X|X]; [congruence|]. apply C2, X.
  - intros N0 N1 n old new.
    assert (Ed : st_db s' = db_unref_pkgs cat r (trim_ids cat o (st_db s) r k) (st_db s)).
    { destruct W as [(-> & (Ed & Sf & Ex) & R1 & R2)|(s1 & I1 & ((C1 & C2 & C3) & _) & _ & Ed)]; [|congruence].
      exfalso. unfold repo_exists in N0. destruct Ex as [X|X]; [congruence|lia]. }
    destruct (removed_facts E cat Hcat ex fz s s' r (trim_ids cat o (st_db s) r k) (fun id => In id (trim_ids cat o (st_db s) r k)) H) as (_ & A & _ & _).
    + apply (trim_ids_nodup E cat ex fz); auto.
    + intros id. split; [|tauto]. intros X. split; [|exact X]. apply avail_in. exists (m_name (cat id)).
      apply (avail_ids_in cat); [apply (i_db _ _ _ _ _ _ H)|]. apply (trim_ids_in E cat ex fz _ _ o k); auto.
    + exact Ed.
    + specialize (A n). fold old new in A.
      destruct (entry_at s r n) as [e|] eqn:G.
      2:{ assert (Eold : old = []) by (unfold old, available_ids; rewrite G; reflexivity).
          assert (Enew : new = []).
          { destruct new as [|x l]; [reflexivity|]. exfalso. assert (X : In x old) by (apply (A x); left; reflexivity). rewrite Eold in X. destruct X. }
          rewrite Eold, Enew. unfold published. rewrite G. split; [intros ? []|]. split; [discriminate|].
          split; [apply (same_avail_pub E cat ex fz ex fz); auto; fold old new; congruence|].
          split; [reflexivity|]. simpl. split; [lia|]. split; [lia|]. intros ? ? ? ? []. }
      assert (Eold : old = e_avail e) by (unfold old, available_ids; rewrite G; reflexivity).
      pose proof (ok_ent _ _ (i_db _ _ _ _ _ _ H) _ _ _ G) as Eo.
      assert (NDo : NoDup old) by (rewrite Eold; apply slt_sorted_nodup, (eo_sorted _ _ _ Eo)).
      assert (Sn : StronglySorted slt new) by (apply (avail_sorted E cat ex fz); exact I').
      set (X := old_ids cat o (st_db s) k e).
      destruct (old_ids_facts ex fz s r n e o k H Ho G N1) as (F1 & F2 & F3 & F4). fold X in F1, F2, F3, F4.
      assert (A' : forall id, In id new <-> In id old /\ ~ In id X).
      { intros id. rewrite A. split; intros [P Q]; (split; [exact P|]); intros Z; apply Q;
          (apply (trim_ids_one ex fz s r n e o k id H Ho G); [apply (avail_name E cat ex fz s r n id H P)|exact Z]). }
      assert (Hpub : In (e_pub e) new) by (apply A'; split; [rewrite Eold; apply (eo_pub _ _ _ Eo)|exact F1]).
      assert (XO : incl X old) by (intros x Hx; rewrite Eold; apply (old_ids_in E cat ex fz s r n e o k x H Ho G); exact Hx).
      assert (Pm : Permutation old (new ++ X)).
      { apply NoDup_Permutation; [exact NDo| |].
        - apply NoDup_app_intro; [apply slt_sorted_nodup, Sn|apply (old_ids_nodup E cat ex fz s r n); auto|].
          intros x Hx1 Hx2. apply A' in Hx1. tauto.
        - intros x. rewrite in_app_iff, A'. split; [|intros [Y|Y]; [tauto|apply XO, Y]].
          intros Y. destruct (in_dec string_dec x X); tauto. }
      apply Permutation_length in Pm. rewrite app_length in Pm. rewrite <- Eold in F2, F3, F4.
      split; [intros x Hx; apply A', Hx|]. split.
      { intros q Hq. unfold published in Hq. rewrite G in Hq. injection Hq as <-. exact Hpub. }
      split.
      { destruct (entry_at s' r n) as [e'|] eqn:G'.
        - rewrite (pub_rel E cat ex fz s r n e H G), (pub_rel E cat ex fz s' r n e' I' G'). f_equal.
          assert (En : new = e_avail e') by (unfold new, available_ids; rewrite G'; reflexivity).
          pose proof (ok_ent _ _ (i_db _ _ _ _ _ _ I') _ _ _ G') as Eo'. rewrite En in Hpub.
          destruct (eo_avail _ _ _ Eo' _ Hpub) as (_ & _ & L1).
          assert (Hp' : In (e_pub e') old) by (apply A'; rewrite En; apply (eo_pub _ _ _ Eo')). rewrite Eold in Hp'.
          destruct (eo_avail _ _ _ Eo _ Hp') as (_ & _ & L2). lia.
        - exfalso. unfold new, available_ids in Hpub. rewrite G' in Hpub. destruct Hpub. }
      split.
      { intros Le. apply slt_ext; [exact Sn|rewrite Eold; apply (eo_sorted _ _ _ Eo)|]. intros x. rewrite A', (F2 Le). simpl. tauto. }
      split; [intros Lt; destruct (F3 Lt) as [F _]; lia|]. split.
      { intros Lt Dist. destruct (F3 Lt) as [_ F]. rewrite F in Pm; [lia|]. intros a b Ha Hb Er. apply Dist; auto.
        unfold old in Ha, Hb. rewrite (pool_release_cat ex fz s r n a H Ha), (pool_release_cat ex fz s r n b H Hb), Er. reflexivity. }
      intros a b ra rb Ha Na Hb Ra Rb. pose proof (proj1 (A' b) Hb) as [Hb1 Hb2].
      unfold old in Ha, Hb1. rewrite (pool_release_cat ex fz s r n a H Ha) in Ra. rewrite (pool_release_cat ex fz s r n b H Hb1) in Rb.
      injection Ra as <-. injection Rb as <-. apply F4; [|exact Hb1|exact Hb2].
      destruct (in_dec string_dec a X) as [Y|Y]; [exact Y|]. exfalso. apply Na, A'. auto.
  - intros x Nx. destruct W as [(-> & (Ed & Sf & Ex) & R1 & R2)|(s1 & I1 & ((C1 & C2 & C3) & _) & _ & Ed)]; [apply same_listings_eq, Ed|].
    rewrite C3 in Ed.
    destruct (removed_facts E cat Hcat ex fz s s' r (trim_ids cat o (st_db s) r k) (fun id => In id (trim_ids cat o (st_db s) r k)) H) as (_ & _ & _ & A).
    + apply (trim_ids_nodup E cat ex fz); auto.
    + intros id. split; [|tauto]. intros X. split; [|exact X]. apply avail_in. exists (m_name (cat id)).
      apply (avail_ids_in cat); [apply (i_db _ _ _ _ _ _ H)|]. apply (trim_ids_in E cat ex fz _ _ o k); auto.
    + exact Ed.
    + apply A, Nx.
Qed.

(** ** trim obsolete *)
Lemma strip_suffix b : strip_dbginfo (b ++ "-dbginfo")%string = b.
Proof.
  unfold strip_dbginfo. rewrite has_suffix_app. rewrite slen_app. simpl String.length.
  replace (String.length b + 8 - 8) with (String.length b) by lia. apply stake_app.
Qed.
Lemma strip_other n : (forall b, ~ is_dbginfo_of n b) -> strip_dbginfo n = n.
Proof.
  intros H. unfold strip_dbginfo. destruct (has_suffix "-dbginfo" n) eqn:S; [|reflexivity].
  apply has_suffix_spec in S. destruct S as (b & S). destruct (H b S).
Qed.
Lemma strip_ne b : seqb b (b ++ "-dbginfo")%string = false.
Proof.
  apply seqb_neq. intros X. apply (f_equal String.length) in X. rewrite slen_app in X. simpl in X. lia.
Qed.
Lemma dist_obsoletes s r : obs_dist E s r <> None -> forall n, is_obsolete (obs_dist E s r) n = true <-> In n (obsoletes E s r).
Proof.
  unfold obs_dist, dist_of, obsoletes, asset_file. intros N n.
  destruct (f_asset (st_fs s) r "distribution.xml") as [c|]; [|congruence].
  destruct (E_dist E c) as [l|]; [|congruence]. simpl. apply sin_In.
Qed.

Lemma obs_ids_spec ex fz s r id : Inv ex fz [] s -> obs_dist E s r <> None ->
  In id (obs_ids (obs_dist E s r) (st_db s) r) <->
  exists n b, is_dbginfo_of n b /\ In b (obsoletes E s r) /\ hd_error (available_ids s r n) = Some id.
Proof.
  intros H N. unfold obs_ids. rewrite in_flat_map. split.
  - intros ([n e] & Hin & Hx). apply in_mlist in Hin. simpl in Hx.
    destruct (is_obsolete (obs_dist E s r) (strip_dbginfo n) && negb (seqb (strip_dbginfo n) n)) eqn:C; [|destruct Hx].
    apply andb_true_iff in C. destruct C as [C1 C2]. apply negb_true_iff, seqb_neq in C2.
    assert (Hb : exists b, is_dbginfo_of n b).
    { destruct (has_suffix "-dbginfo" n) eqn:S; [apply has_suffix_spec in S; exact S|].
      exfalso. apply C2. unfold strip_dbginfo. rewrite S. reflexivity. }
    destruct Hb as (b & Hb). exists n, b. split; [exact Hb|]. split.
    + apply dist_obsoletes; [exact N|]. unfold is_dbginfo_of in Hb. rewrite Hb, strip_suffix in C1. exact C1.
    + unfold available_ids, entry_at. rewrite Hin. destruct (e_avail e); simpl in *; [destruct Hx|]. destruct Hx as [->|[]]. reflexivity.
  - intros (n & b & -> & Hb & Hh). unfold available_ids, entry_at in Hh.
    destruct (mget (d_ents (st_db s) r) (b ++ "-dbginfo")%string) as [e|] eqn:G; [|discriminate].
    exists ((b ++ "-dbginfo")%string, e). split; [apply in_mlist, G|]. simpl. rewrite strip_suffix, strip_ne.
    rewrite (proj2 (dist_obsoletes s r N b) Hb). simpl. destruct (e_avail e); [discriminate|]. injection Hh as ->. left. reflexivity.
Qed.

Lemma trim_obsolete_facts ex fz s o r : Inv ex fz [] s -> good_oracle o ->
  let p := OpTrimObsolete r in
  let s' := after E o p s in
  let ok := exists c l, asset_file s r "distribution.xml" = Some c /\ E_dist E c = Some l in
  (repo_exists s r = false \/ ~ ok -> outcome E o p s = Err /\ unchanged s s') /\
  (repo_exists s r = true -> ok ->
     forall id, available s' r id <-> available s r id /\
       ~ exists n b, is_dbginfo_of n b /\ In b (obsoletes E s r) /\ hd_error (available_ids s r n) = Some id) /\
  (forall x, x <> r -> same_listings x s s').
Proof.
  intros H Ho p s' ok.
  assert (Hok : ok <-> obs_dist E s r <> None).
  { unfold ok, obs_dist, dist_of, asset_file. split.
    - intros (c & l & -> & ->). discriminate.
    - destruct (f_asset (st_fs s) r "distribution.xml") as [c|]; [|congruence]. destruct (E_dist E c) as [l|] eqn:D; [|congruence]. eauto. }
  destruct (run_unit E (api_trim_obsolete E o r) _ _ s o p eq_refl (wp_api_trim_obsolete E cat Hcat HE ex fz o r s H Ho)) as (res & W & Hout).
  fold s' in W. apply then_indexed_db in W.
  set (sel := fun id => exists n b, is_dbginfo_of n b /\ In b (obsoletes E s r) /\ hd_error (available_ids s r n) = Some id).
  assert (RF : st_db s' = db_unref_pkgs cat r (obs_ids (obs_dist E s r) (st_db s) r) (st_db s) -> obs_dist E s r <> None ->
     (forall id, available s' r id <-> available s r id /\ ~ sel id) /\ (forall x, x <> r -> same_listings x s s')).
  { intros Ed Hd.
    destruct (removed_facts E cat Hcat ex fz s s' r (obs_ids (obs_dist E s r) (st_db s) r) sel H (obs_ids_nodup cat _ _ _ (i_db _ _ _ _ _ _ H))) as (A & _ & _ & B); auto.
    intros id. rewrite (obs_ids_spec ex fz s r id H Hd). fold (sel id). split; [|tauto]. intros X. split; [|exact X].
    apply avail_in. exists (m_name (cat id)). apply (avail_ids_in cat); [apply (i_db _ _ _ _ _ _ H)|].
    apply (obs_ids_in cat _ _ (obs_dist E s r)); [apply (i_db _ _ _ _ _ _ H)|]. apply (obs_ids_spec ex fz s r id H Hd), X. }
  split; [|split].
  - intros Ex. destruct W as [(-> & (Ed & Sf & _) & R1 & R2)|(s1 & I1 & ((C1 & C2 & C3) & _) & _)].
    + split; [exact Hout|]. apply unchanged_files; assumption.
    + exfalso. unfold repo_exists in Ex. destruct Ex as [X|X]; [congruence|]. apply X, Hok, C2.
  - intros N0 N1. apply Hok in N1. destruct W as [(-> & (Ed & Sf & Ex) & R1 & R2)|(s1 & I1 & ((C1 & C2 & C3) & _) & _ & Ed)].
    { exfalso. unfold repo_exists in N0. destruct Ex as [X|X]; congruence. }
    rewrite C3 in Ed. apply (RF Ed N1).
  - intros x Nx. destruct W as [(-> & (Ed & Sf & Ex) & R1 & R2)|(s1 & I1 & ((C1 & C2 & C3) & _) & _ & Ed)]; [apply same_listings_eq, Ed|].
    rewrite C3 in Ed. apply (RF Ed C2), Nx.
Qed.

(** ** imports *)
Definition offers (s : state) (pkgs : list loc) (n id : string) : Prop :=
  exists l c m, In l pkgs /\ l_id l = id /\ file_content (st_fs s) l = Some c /\ E_parse E c = Ok m /\ m_name m = n.

Record grown (r : string) (pkgs : list loc) (s s' : state) : Prop := {
  gr_repos : d_repos (st_db s') = d_repos (st_db s);
  gr_others : forall x, x <> r -> d_ents (st_db s') x = d_ents (st_db s) x;
  gr_more : forall n id, In id (avail_db (st_db s) r n) -> In id (avail_db (st_db s') r n);
  gr_only : forall n id, In id (avail_db (st_db s') r n) -> In id (avail_db (st_db s) r n) \/ offers s pkgs n id;
  gr_names : forall n, (forall id, ~ offers s pkgs n id) -> mget (d_ents (st_db s') r) n = mget (d_ents (st_db s) r) n
}.

Lemma grown_refl r pkgs s s' : st_db s' = st_db s -> grown r pkgs s s'.
Proof. intros Ed. constructor; rewrite ?Ed; auto. Qed.

Lemma grown_one r l strict s s1 : add_outcome E cat true r l strict s s1 (Ok tt) -> grown r [l] s s1 /\
  (exists n, offers s [l] n (l_id l) /\ In (l_id l) (avail_db (st_db s1) r n)).
Proof.
  intros O. inversion O as [| | |c h z Fc Pm Ns Hz Po Ed]; subst.
  set (q := new_pentry cat (l_id l) h z None) in *.
  assert (Et : d_ents (db_touch q (st_db s)) = d_ents (st_db s)) by apply touch_ents.
  rewrite (db_add_put cat) in Ed. change (p_name q) with (l_id l) in Ed.
  assert (Of : offers s [l] (m_name (cat (l_id l))) (l_id l)).
  { exists l, c, (cat (l_id l)). simpl. auto. }
  split.
  - constructor; rewrite Ed.
    + apply put_repos, touch_repos.
    + intros x N. unfold db_put. destruct (sane cat (st_db s) r (l_id l)); [|reflexivity]. simpl. unfold fupd.
      rewrite Et. destruct (seqb_spec x r); [contradiction|reflexivity].
    + intros n id Hin. apply (put_avail cat); auto.
    + intros n id Hin. apply (put_avail cat) in Hin; [|exact Et]. destruct Hin as [Hin|[-> ->]]; auto.
    + intros n Hn. rewrite (put_ents cat) by exact Et. rewrite seqb_refl. simpl.
      destruct (seqb_spec n (m_name (cat (l_id l)))) as [->|]; [|reflexivity]. destruct (Hn _ Of).
  - exists (m_name (cat (l_id l))). split; [exact Of|]. rewrite Ed. apply (put_avail cat); auto.
Qed.

Lemma add_err_db r l strict s s1 : add_outcome E cat true r l strict s s1 Err -> st_db s1 = st_db s.
Proof. intros O. inversion O; subst; congruence. Qed.

Lemma offers_rest r s s1 pkgs n id : rest true r s s1 ->
  Forall (fun l => upload_tree (l_tree l) = true /\ is_delta_id (l_id l) = false) pkgs ->
  offers s1 pkgs n id <-> offers s pkgs n id.
Proof.
  intros R F. unfold offers. rewrite Forall_forall in F.
  assert (X : forall l, In l pkgs -> file_content (st_fs s1) l = file_content (st_fs s) l).
  { intros l Hl. destruct (F l Hl) as [U D]. apply (rs_data _ _ _ _ R eq_refl); auto; intros Y; rewrite Y in U; discriminate. }
  split; intros (l & c & m & A & B & C & D); exists l, c, m; [rewrite X in C by exact A|rewrite X by exact A]; auto.
Qed.

Lemma added_grown ex r strict pkgs s s' res : added E cat ex true r strict pkgs s s' res ->
  Forall (fun l => upload_tree (l_tree l) = true /\ is_delta_id (l_id l) = false) pkgs ->
  grown r pkgs s s' /\
  (res = Ok tt -> forall l, In l pkgs -> exists n, offers s pkgs n (l_id l) /\ In (l_id l) (avail_db (st_db s') r n)).
Proof.
  induction 1 as [s|l ls s s1 s' res I1 R1 O1 A IH|l ls s s1 R1 O1]; intros F.
  - split; [apply grown_refl; reflexivity|]. intros _ l [].
  - inversion F as [|? ? [U D] F']; subst. destruct (IH F') as [G2 K2]. destruct (grown_one _ _ _ _ _ O1) as [G1 (n1 & Of1 & K1)].
    assert (OF : forall n id, offers s1 ls n id -> offers s (l :: ls) n id).
    { intros n id X. apply (offers_rest r s s1 ls n id R1 F') in X. destruct X as (y & c & m & Y1 & Y2). exists y, c, m. split; [right; exact Y1|exact Y2]. }
    assert (OF1 : forall n id, offers s [l] n id -> offers s (l :: ls) n id).
    { intros n id (y & c & m & [->|[]] & Y2). exists y, c, m. split; [left; reflexivity|exact Y2]. }
    split.
    + constructor.
      * rewrite (gr_repos _ _ _ _ G2). apply (gr_repos _ _ _ _ G1).
      * intros x N. rewrite (gr_others _ _ _ _ G2 x N). apply (gr_others _ _ _ _ G1 x N).
      * intros n id X. apply (gr_more _ _ _ _ G2), (gr_more _ _ _ _ G1), X.
      * intros n id X. apply (gr_only _ _ _ _ G2) in X. destruct X as [X|X]; [|right; apply OF, X].
        apply (gr_only _ _ _ _ G1) in X. destruct X as [X|X]; [left; exact X|right; apply OF1, X].
      * intros n Hn. rewrite (gr_names _ _ _ _ G2); [apply (gr_names _ _ _ _ G1)|]; intros id X; apply (Hn id); auto.
    + intros Er y [<-|Hy].
      * exists n1. split; [apply OF1, Of1|]. apply (gr_more _ _ _ _ G2), K1.
      * destruct (K2 Er y Hy) as (n & X & Y). exists n. split; [apply OF, X|exact Y].
  - split; [apply grown_refl; eapply add_err_db; eauto|discriminate].
Qed.

Lemma pub_monotone ex fz ex' fz' s s' r n : Inv ex fz [] s -> Inv ex' fz' [] s' ->
  (forall id, In id (available_ids s r n) -> In id (available_ids s' r n)) ->
  forall a, published_release s r n = Some a -> exists b, published_release s' r n = Some b /\ (a <= b)%Z.
Proof.
  intros H H' M a Pa. destruct (entry_at s r n) as [e|] eqn:G; [|rewrite pub_rel_none in Pa by exact G; discriminate].
  rewrite (pub_rel E cat ex fz s r n e H G) in Pa. injection Pa as <-.
  assert (X : In (e_pub e) (available_ids s r n)).
  { unfold available_ids. rewrite G. apply (eo_pub _ _ _ (ok_ent _ _ (i_db _ _ _ _ _ _ H) _ _ _ G)). }
  apply M in X. unfold available_ids in X. destruct (entry_at s' r n) as [e'|] eqn:G'; [|destruct X].
  rewrite (pub_rel E cat ex' fz' s' r n e' H' G'). eexists. split; [reflexivity|].
  apply (eo_avail _ _ _ (ok_ent _ _ (i_db _ _ _ _ _ _ H') _ _ _ G') _ X).
Qed.

Lemma quiet_offers r s s0 pkgs n id : quiet_dir r s s0 -> offers s0 pkgs n id <-> offers s pkgs n id.
Proof.
  intros Q. unfold offers. split; intros (l & c & m & A & B & C & D); exists l, c, m; [|];
    [rewrite (same_files_content _ _ _ (qd_files _ _ _ Q)) in C|rewrite (same_files_content _ _ _ (qd_files _ _ _ Q))]; auto.
Qed.

(* the listings after an import *)
Lemma add_facts ex s o r pkgs strict : Inv ex true [] s -> good_oracle o -> good_op (OpAdd r pkgs strict) ->
  let p := OpAdd r pkgs strict in
  let s' := after E o p s in
  (repo_exists s r = false -> outcome E o p s = Err /\ unchanged s s') /\
  grown r pkgs s s' /\
  (succeeds E o p s -> forall l, In l pkgs -> exists n, offers s pkgs n (l_id l) /\ In (l_id l) (available_ids s' r n)).
Proof.
  intros H Ho Hp p s'.
  destruct (run_unit E (api_add_packages E o r pkgs strict) _ _ s o p eq_refl (wp_api_add E cat Hcat HE ex true o r pkgs strict s H Ho Hp)) as (res & W & Hout).
  fold s' in W. apply then_indexed_db in W.
  assert (QG : forall s0 s1, quiet_dir r s s0 -> grown r pkgs s0 s1 -> st_db s' = st_db s1 -> grown r pkgs s s').
  { intros s0 s1 Q [A1 A2 A3 A4 A5] Ed. pose proof (qd_db _ _ _ Q) as E0. constructor; rewrite Ed.
    - congruence.
    - intros x N. rewrite A2 by exact N. congruence.
    - intros n id X. apply A3. rewrite E0. exact X.
    - intros n id X. apply A4 in X. rewrite E0, (quiet_offers r s s0) in X by exact Q. exact X.
    - intros n Hn. rewrite A5; [congruence|]. intros id X. apply (quiet_offers r s s0) in X; [|exact Q]. apply (Hn id X). }
  split; [|split].
  - intros N0. destruct W as [(-> & [(_ & Hr & Es)|(Hr & _)])|(s1 & I1 & [(X & _)|(Hr & _)] & _)]; unfold repo_exists in N0; try congruence.
    split; [exact Hout|]. rewrite Es. apply unchanged_refl.
  - destruct W as [(-> & [(_ & Hr & Es)|(Hr & s0 & Q & A)])|(s1 & I1 & [(X & _)|(Hr & s0 & Q & A)] & _ & Ed)]; try discriminate.
    + apply grown_refl. congruence.
    + apply (QG s0 s' Q); [|reflexivity]. apply (added_grown _ _ _ _ _ _ _ A Hp).
    + apply (QG s0 s1 Q); [|exact Ed]. apply (added_grown _ _ _ _ _ _ _ A Hp).
  - intros (l0 & Su) l Hl. destruct W as [(-> & _)|(s1 & I1 & [(X & _)|(Hr & s0 & Q & A)] & _ & Ed)]; [congruence|discriminate|].
    destruct (added_grown _ _ _ _ _ _ _ A Hp) as [_ K]. destruct (K eq_refl l Hl) as (n & X & Y).
    exists n. split; [apply (quiet_offers r s s0); assumption|]. change (available_ids s' r n) with (avail_db (st_db s') r n). rewrite Ed. exact Y.
Qed.

Lemma strict_facts ex s o r l m c : Inv ex true [] s -> good_oracle o -> good_op (OpAdd r [l] true) ->
  repo_exists s r = true -> file_content (st_fs s) l = Some c -> E_parse E c = Ok m ->
  let p := OpAdd r [l] true in
  let s' := after E o p s in
  ((exists a, published_release s r (m_name m) = Some a /\ (rel m <= a)%Z) -> outcome E o p s = Err /\ unchanged s s') /\
  ((forall a, published_release s r (m_name m) = Some a -> (a < rel m)%Z) ->
     published s' r (m_name m) = Some (l_id l) /\ published_release s' r (m_name m) = Some (rel m)).
Proof.
  intros H Ho Hp Hr Fc Pc p s'.
  assert (Hm : m = cat (l_id l)).
  { assert (Hg : good_file E cat (l_id l) c).
    { unfold file_content in Fc. destruct (f_name (st_fs s) l) as [i|] eqn:Gi; [|discriminate]. injection Fc as <-.
      apply (fo_good _ _ _ (i_fs _ _ _ _ _ _ H) _ _ Gi). }
    unfold good_file in Hg. rewrite Pc in Hg. exact Hg. }
  assert (I' : Inv ex true [] s') by (apply after_inv; auto; intros _; reflexivity).
  destruct (run_unit E (api_add_packages E o r [l] true) _ _ s o p eq_refl (wp_api_add E cat Hcat HE ex true o r [l] true s H Ho Hp)) as (res & W & Hout).
  fold s' in W. apply then_indexed_db in W. unfold repo_exists in Hr.
  assert (W' : (res = Err /\ unchanged s s' /\ stale cat (st_db s) r (l_id l) = true) \/
    (stale cat (st_db s) r (l_id l) = false /\ exists h z, st_db s' = db_add cat r (new_pentry cat (l_id l) h z None) (st_db s))).
  { assert (One : forall s0 s1 r0, quiet_dir r s s0 -> add_outcome E cat true r l true s0 s1 r0 ->
       (r0 = Err /\ s1 = s0 /\ stale cat (st_db s) r (l_id l) = true) \/
       (stale cat (st_db s) r (l_id l) = false /\ exists h z, st_db s1 = db_add cat r (new_pentry cat (l_id l) h z None) (st_db s))).
    { intros s0 s1 r0 Q O. pose proof (qd_db _ _ _ Q) as E0. inversion O as [Un Es|_ St Es|Z|c' h z Fc' Pm Ns Hz Po Ed]; subst r0.
      - exfalso. rewrite (same_files_content _ _ _ (qd_files _ _ _ Q)) in Un. specialize (Un c Fc). congruence.
      - left. rewrite E0 in St. auto.
      - discriminate.
      - right. rewrite E0 in *. split; [apply Ns; reflexivity|]. exists h, z. exact Ed. }
    destruct W as [(-> & [(_ & Hr' & Es)|(_ & s0 & Q & A)])|(s1 & I1 & [(X & _)|(_ & s0 & Q & A)] & _ & Ed)]; [congruence| |discriminate|].
    - inversion A as [|? ? ? s2 ? ? I2 R2 O2 A2|? ? ? ? R2 O2]; subst; [inversion A2|].
      destruct (One _ _ _ Q O2) as [(_ & Es & St)|X]; [left|right; exact X].
      split; [reflexivity|]. split; [|exact St]. rewrite Es. eapply unchanged_dir, Q.
    - inversion A as [|? ? ? s2 ? ? I2 R2 O2 A2|]; subst. inversion A2; subst.
      destruct (One _ _ _ Q O2) as [(X & _)|(St & h & z & X)]; [discriminate|right]. split; [exact St|]. exists h, z. congruence. }
  clear W. subst m. unfold stale in W'. split.
  - intros (a & Pa & Le). destruct W' as [(-> & U & _)|(St & _)]; [split; [exact Hout|exact U]|].
    exfalso. destruct (mget (d_ents (st_db s) r) (m_name (cat (l_id l)))) as [e|] eqn:G; [|rewrite (pub_rel_none s) in Pa by exact G; discriminate].
    rewrite (pub_rel E cat ex true s r _ e H G) in Pa. injection Pa as <-. apply Z.leb_gt in St. lia.
  - intros Ha. destruct W' as [(-> & U & St)|(St & h & z & Ed)].
    { exfalso. destruct (mget (d_ents (st_db s) r) (m_name (cat (l_id l)))) as [e|] eqn:G; [|discriminate].
      specialize (Ha _ (pub_rel E cat ex true s r _ e H G)). apply Z.leb_le in St. lia. }
    assert (Pb : published s' r (m_name (cat (l_id l))) = Some (l_id l)).
    { unfold published, entry_at. rewrite Ed, (db_add_put cat), (put_ents cat) by apply touch_ents. simpl p_name. rewrite !seqb_refl. simpl.
      destruct (sane cat (st_db s) r (l_id l)) as [e|] eqn:S.
      - destruct (sane_some cat _ _ _ _ S) as (_ & _ & _ & _ & ->).
        destruct (mget (d_ents (st_db s) r) (m_name (cat (l_id l)))) as [e0|]; [|reflexivity].
        apply Z.leb_gt in St. destruct (Z.ltb_spec (rel (cat (e_pub e0))) (rel (cat (l_id l)))); [reflexivity|lia].
      - apply sane_none in S. unfold avail_db in S.
        destruct (mget (d_ents (st_db s) r) (m_name (cat (l_id l)))) as [e0|] eqn:G; [|destruct S].
        apply Z.leb_gt in St. destruct (eo_avail _ _ _ (ok_ent _ _ (i_db _ _ _ _ _ _ H) _ _ _ G) _ S) as (_ & _ & L). lia. }
    split; [exact Pb|]. unfold published in Pb. destruct (entry_at s' r (m_name (cat (l_id l)))) as [e'|] eqn:G'; [|discriminate].
    injection Pb as Eq. rewrite (pub_rel E cat ex true s' r _ e' I' G'), Eq. reflexivity.
Qed.
End Facts.
