(** * PoolFacts: from the invariants to the pool properties (proof artifact) *)
From Verif Require Import Model Spec DbInv DbOps Wp FsInv Ops UnrefOps RepoOps DeleteOps Pure Loops Emit IndexOps ApiOps History.
Open Scope string_scope. Open Scope list_scope.

Section Facts.
Variable E : env.
Variable cat : string -> meta.
Notation Inv := (Inv E cat).

Lemma listed_lists s r id : db_ok cat (st_db s) -> listed s r id <-> lists_db (st_db s) r id = true.
Proof.
  intros H. unfold lists_db. rewrite existsb_exists. split.
  - intros (n & e & G & L). exists (n, e). split; [apply in_mlist, G|]. simpl. apply orb_true_iff. rewrite !sin_In. exact L.
  - intros ([n e] & G & L). simpl in L. apply orb_true_iff in L. rewrite !sin_In in L. exists n, e. split; [apply in_mlist, G|exact L].
Qed.
Lemma listed_repo s r id : db_ok cat (st_db s) -> listed s r id -> In r (mkeys (d_repos (st_db s))).
Proof. intros H (n & e & G & _). apply mhas_keys. apply (ok_repo _ _ H _ _ _ G). Qed.

Lemma nodup_incl_le (l l' : list string) : NoDup l -> (forall x, In x l -> In x l') -> List.length l <= List.length l'.
Proof. intros ND H. apply NoDup_incl_length; assumption. Qed.

Lemma inv_safe ex fz s : Inv ex fz [] s -> safe s.
Proof.
  intros H. pose proof (i_db _ _ _ _ _ _ H) as D. split.
  - intros id rs ND Hl. pose proof (refs_drop ex _ _ (i_refs _ _ _ _ _ _ H) id) as R. simpl in R.
    enough (List.length rs <= count_db (st_db s) id) by (unfold refcount; lia).
    apply nodup_incl_le; [exact ND|]. intros r Hr. apply filter_In. specialize (Hl r Hr).
    split; [eapply listed_repo; eauto|apply listed_lists; auto].
  - intros r id (n & e & G & L).
    destruct (listed_in_pool cat ex (st_db s) r n e id D (i_refs _ _ _ _ _ _ H) G) as (p & Gp).
    { unfold lst. apply orb_true_iff. rewrite !sin_In. exact L. }
    unfold pool_at. congruence.
Qed.
Lemma inv_exact fz s : Inv true fz [] s -> exact s.
Proof.
  intros H. pose proof (i_db _ _ _ _ _ _ H) as D.
  assert (X : forall id, exists rs, NoDup rs /\ (forall r, In r rs <-> listed s r id) /\ refcount s id = List.length rs).
  { intros id. exists (filter (fun r => lists_db (st_db s) r id) (mkeys (d_repos (st_db s)))).
    split; [apply NoDup_filter, mkeys_nodup|]. split.
    - intros r. rewrite filter_In, <- (listed_lists s r id D). split; [tauto|]. intros L. split; [eapply listed_repo; eauto|exact L].
    - pose proof (i_refs _ _ _ _ _ _ H id) as R. simpl in R. unfold refcount. fold (count_db (st_db s) id). lia. }
  split; [exact X|]. intros id. split.
  - intros N. destruct (X id) as (rs & ND & Hl & Hr). unfold refcount, rc_db in Hr.
    unfold pool_at in N. destruct (mget (d_pool (st_db s)) id) as [p|] eqn:G; [|congruence].
    pose proof (po_rc _ _ _ (ok_pool _ _ D _ _ G)). destruct rs as [|r rs]; [simpl in Hr; lia|].
    exists r. apply Hl. left; reflexivity.
  - intros (r & L). eapply (proj2 (inv_safe _ _ _ H)); eauto.
Qed.

Lemma inv_wf ex fz s r n e : Inv ex fz [] s -> entry_at s r n = Some e -> well_formed s r n e.
Proof.
  intros H G. pose proof (i_db _ _ _ _ _ _ H) as D. pose proof (ok_ent _ _ D _ _ _ G) as Eo.
  constructor.
  - apply (ok_repo _ _ D _ _ _ G).
  - apply (eo_name _ _ _ Eo).
  - apply (eo_nonempty _ _ _ Eo).
  - apply (eo_sorted _ _ _ Eo).
  - apply slt_sorted_nodup, (eo_sorted _ _ _ Eo).
  - apply (eo_pub _ _ _ Eo).
  - intros id Hin. destruct (avail_pool E cat ex fz [] s r n e id H G Hin) as (p & A & B & D' & _).
    exists p. split; [exact A|]. rewrite (meta_of_name cat id _ (po_meta _ _ _ B)). exact D'.
  - intros id Hin. destruct (eo_deltas _ _ _ Eo id Hin) as [Hn Hd].
    destruct (listed_in_pool cat ex (st_db s) r n e id D (i_refs _ _ _ _ _ _ H) G) as (p & Gp).
    { unfold lst. apply orb_true_iff. right. apply sin_In, Hin. }
    exists p. split; [exact Gp|]. pose proof (ok_pool _ _ D _ _ Gp) as Po. split; [rewrite (meta_of_name cat id _ (po_meta _ _ _ Po)); exact Hn|]. apply (po_delta _ _ _ Po), Hd.
Qed.
Lemma inv_pub ex fz s r n e id p q :
  Inv ex fz [] s -> entry_at s r n = Some e -> In id (e_avail e) ->
  pool_at s id = Some p -> pool_at s (e_pub e) = Some q -> (rel (p_meta p) <= rel (p_meta q))%Z.
Proof.
  intros H G Hin Gp Gq. pose proof (i_db _ _ _ _ _ _ H) as D. pose proof (ok_ent _ _ D _ _ _ G) as Eo.
  destruct (eo_avail _ _ _ Eo id Hin) as (_ & _ & L).
  pose proof (po_meta _ _ _ (ok_pool _ _ D _ _ Gp)) as Mp. pose proof (po_meta _ _ _ (ok_pool _ _ D _ _ Gq)) as Mq.
  rewrite (meta_of_rel cat _ _ Mp), (meta_of_rel cat _ _ Mq). exact L.
Qed.
Lemma inv_newest ex fz s r n e : Inv ex fz [] s -> entry_at s r n = Some e ->
  In (e_pub e) (e_avail e) /\
  exists q, pool_at s (e_pub e) = Some q /\
    forall id p, In id (e_avail e) -> pool_at s id = Some p -> (rel (p_meta p) <= rel (p_meta q))%Z.
Proof.
  intros H G. destruct (inv_wf ex fz s r n e H G) as [_ _ _ _ _ P W _]. split; [exact P|].
  destruct (W _ P) as (q & Gq & _). exists q. split; [exact Gq|]. intros id p Hin Gp. eapply inv_pub; eauto.
Qed.
Lemma inv_served ex s r id : Inv ex true [] s -> available s r id -> served E s r id.
Proof.
  intros H (n & e & G & Hin). destruct (avail_pool E cat ex true [] s r n e id H G Hin) as (p & A & B & _).
  destruct (fx_repo _ _ _ (i_fx _ _ _ _ _ _ H eq_refl) r n e id p G Hin A) as (c & Fc & _ & Hh & Hs).
  exists p, (comp_of (cat id)), c. split; [exact A|]. split; [|split; [exact Fc|split; assumption]].
  destruct (po_meta _ _ _ B) as (h & z & ->). reflexivity.
Qed.
End Facts.
