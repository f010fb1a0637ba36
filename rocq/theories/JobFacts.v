(** * JobFacts: invariants of the job store and the worker pool *)
From Verif Require Import Model.
From Verif Require Import Base LibDb LibDbFacts Jobs JobSpec.
Open Scope string_scope. Open Scope list_scope.

Record Inv (c : N) (Q : queue -> smap job) (W : list worker) (up : bool) (A : list (queue * job)) (R : list nat) : Prop := {
  iv_keys : forall q, exists ns, mkeys (Q q) = map be64 ns /\ Forall (fun n => (n < c)%N) ns;
  iv_content : forall q, map ident (map snd (mlist (Q q))) = map ident (pending_in q A R);
  iv_nos : map (fun x => j_no (snd x)) A = seq 0 (List.length A);
  iv_ret : forall n, In n R -> n < List.length A;
  iv_held : forall i q k j, nth_error W i = Some (Worker q (Some (k, j))) -> mget (Q q) k = Some j /\ j_claimed j = true;
  iv_excl : forall i i' q k j j', nth_error W i = Some (Worker q (Some (k, j))) ->
              nth_error W i' = Some (Worker q (Some (k, j'))) -> i = i';
  iv_claimed : up = true -> forall q k j, mget (Q q) k = Some j -> j_claimed j = true ->
              exists i, nth_error W i = Some (Worker q (Some (k, j)));
  iv_down : up = false -> forall i w, nth_error W i = Some w -> w_job w = None
}.

(** ** Lists keyed by sequence numbers *)
Lemma lput_end {A} (l : list (string * A)) k v :
  (forall x, In x (map fst l) -> slt x k) -> lput k v l = l ++ [(k, v)].
Proof.
  induction l as [|[k2 v2] l IH]; intros H; simpl; [reflexivity|].
  assert (L : slt k2 k) by (apply H; left; reflexivity).
  destruct (seqb_spec k k2) as [->|N]; [destruct (slt_irrefl _ L)|].
  apply sltb_slt in L. rewrite L. f_equal. apply IH. intros x Hx. apply H. right. exact Hx.
Qed.
Lemma lput_over {A B} (f : A -> B) k v v0 (l : list (string * A)) : sorted_keys l = true ->
  lget k l = Some v0 -> f v = f v0 -> map fst (lput k v l) = map fst l /\ map f (map snd (lput k v l)) = map f (map snd l).
Proof.
  intros S. apply sorted_keys_strong in S.
  induction S as [|[k2 v2] l S IH F]; simpl; [discriminate|]. intros G E.
  destruct (seqb_spec k k2) as [->|N].
  - injection G as ->. simpl. rewrite E. auto.
  - assert (L : sltb k2 k = true).
    { apply sltb_slt. apply lget_In in G; [|apply sorted_keys_strong; exact S].
      rewrite Forall_forall in F. exact (F _ G). }
    rewrite L. simpl. destruct (IH G E) as [E1 E2]. rewrite E1, E2. auto.
Qed.
Lemma ldel_filter {A} k (l : list (string * A)) : NoDup (map fst l) ->
  ldel k l = filter (fun x => negb (seqb k (fst x))) l.
Proof.
  induction l as [|[k2 v2] l IH]; simpl; intros N; [reflexivity|]. inversion N as [|? ? N1 N2]; subst.
  destruct (seqb_spec k k2) as [->|NE]; simpl.
  - symmetry. clear IH N. induction l as [|[k3 v3] l IH]; simpl; [reflexivity|].
    destruct (seqb_spec k2 k3) as [->|]; simpl; [exfalso; apply N1; left; reflexivity|].
    f_equal. apply IH; [intros H; apply N1; right; exact H|]. inversion N2; assumption.
  - f_equal. apply IH. exact N2.
Qed.
Lemma filter_ext_in' {A} (f g : A -> bool) l : (forall x, In x l -> f x = g x) -> filter f l = filter g l.
Proof. apply filter_ext_in. Qed.
Lemma filter_map {A B} (f : A -> B) (g : B -> bool) l : filter g (map f l) = map f (filter (fun x => g (f x)) l).
Proof. induction l as [|x l IH]; simpl; [reflexivity|]. destruct (g (f x)); simpl; rewrite IH; reflexivity. Qed.
Lemma NoDup_map_inj {A B} (f : A -> B) l x y : NoDup (map f l) -> In x l -> In y l -> f x = f y -> x = y.
Proof.
  induction l as [|a l IH]; simpl; intros N Hx Hy E; [destruct Hx|]. inversion N as [|? ? N1 N2]; subst.
  destruct Hx as [->|Hx], Hy as [->|Hy]; auto.
  - exfalso. apply N1. rewrite E. apply in_map. exact Hy.
  - exfalso. apply N1. rewrite <- E. apply in_map. exact Hx.
Qed.
Lemma NoDup_filter_map {A B} (f : A -> B) g l : NoDup (map f l) -> NoDup (map f (filter g l)).
Proof.
  induction l as [|a l IH]; simpl; intros N; [constructor|]. inversion N as [|? ? N1 N2]; subst.
  destruct (g a); simpl; [|auto]. constructor; [|auto]. intros H. apply N1.
  apply in_map_iff in H as (b & E & H). apply filter_In in H as [H _]. rewrite <- E. apply in_map. exact H.
Qed.
Lemma find_split {A} (f : A -> bool) l x : find f l = Some x ->
  exists l1 l2, l = l1 ++ x :: l2 /\ f x = true /\ Forall (fun y => f y = false) l1.
Proof.
  induction l as [|a l IH]; simpl; [discriminate|]. destruct (f a) eqn:E; intros H.
  - injection H as ->. exists [], l. auto.
  - destruct (IH H) as (l1 & l2 & -> & F & G). exists (a :: l1), l2. split; [reflexivity|]. split; [exact F|]. constructor; assumption.
Qed.

Lemma be64_not_reserved n : (n < 2 ^ 62)%N -> reserved (be64 n) = false.
Proof.
  intros B. unfold be64. cbn [be].
  set (x := (n / 256 ^ N.of_nat 7 mod 256)%N).
  assert (Bx : (x < 64)%N).
  { unfold x. change (256 ^ N.of_nat 7)%N with (2 ^ 56)%N.
    assert (Q : (n / 2 ^ 56 < 64)%N) by (apply N.div_lt_upper_bound; [discriminate|exact B]).
    rewrite N.mod_small; lia. }
  clearbody x.
  assert (E : Ascii.eqb "|"%char (ascii_of_N x) = false).
  { apply Ascii.eqb_neq. intros E. apply (f_equal N_of_ascii) in E. rewrite (N_ascii x) in E by lia. change (N_of_ascii "|"%char) with 124%N in E. lia. }
  unfold reserved. cbn [has_prefix]. rewrite E. reflexivity.
Qed.

(** ** Facts from the invariant *)
Section FromInv.
Variables (c : N) (Q : queue -> smap job) (W : list worker) (up : bool) (A : list (queue * job)) (R : list nat).
Hypothesis I : Inv c Q W up A R.
Hypothesis Hc : (c < 2 ^ 62)%N.

Lemma nos_nodup : NoDup (map (fun x => j_no (snd x)) A).
Proof. rewrite (iv_nos _ _ _ _ _ _ I). apply seq_NoDup. Qed.
Lemma accepted_nodup q : NoDup (map j_no (accepted_in q A)).
Proof. unfold accepted_in. rewrite map_map. apply NoDup_filter_map. exact nos_nodup. Qed.
Lemma pending_nodup q : NoDup (map j_no (pending_in q A R)).
Proof. unfold pending_in. apply NoDup_filter_map. apply accepted_nodup. Qed.
Lemma map_ident_no (l : list job) : map j_no l = map (fun x => fst (fst x)) (map ident l).
Proof. rewrite map_map. reflexivity. Qed.
Lemma queue_nodup q : NoDup (map j_no (map snd (mlist (Q q)))).
Proof. rewrite map_ident_no, (iv_content _ _ _ _ _ _ I), <- map_ident_no. apply pending_nodup. Qed.
Lemma keys_not_reserved q k v : mget (Q q) k = Some v -> reserved k = false.
Proof.
  intros G. destruct (iv_keys _ _ _ _ _ _ I q) as (ns & E & F).
  assert (K : In k (mkeys (Q q))) by (apply in_mkeys; exists v; exact G).
  rewrite E in K. apply in_map_iff in K as (n & <- & Hn). rewrite Forall_forall in F. specialize (F n Hn).
  apply be64_not_reserved. lia.
Qed.
Lemma next_seq_facts q : exists n, next_seq (Q q) = be64 n /\ (n <= c)%N /\ reserved (be64 n) = false /\
  forall x, In x (mkeys (Q q)) -> slt x (be64 n).
Proof.
  destruct (iv_keys _ _ _ _ _ _ I q) as (ns & E & F).
  unfold next_seq. destruct (rev (mkeys (Q q))) as [|k r] eqn:Er.
  - exists 0%N. split; [reflexivity|]. split; [lia|]. split; [reflexivity|].
    apply (f_equal (@rev _)) in Er. rewrite rev_involutive in Er. rewrite Er. intros x [].
  - apply (f_equal (@rev _)) in Er. rewrite rev_involutive in Er. cbn [rev] in Er.
    assert (Hk : In k (mkeys (Q q))) by (rewrite Er, in_app_iff; right; left; reflexivity).
    rewrite E in Hk. apply in_map_iff in Hk as (n & <- & Hn).
    assert (Bn : (n < c)%N) by (rewrite Forall_forall in F; exact (F n Hn)).
    unfold be64 at 1. rewrite be_length. cbn [Nat.eqb]. rewrite be64_value by lia.
    unfold uint64. rewrite N.mod_small by lia.
    exists (n + 1)%N. split; [reflexivity|]. split; [lia|]. split; [apply be64_not_reserved; lia|].
    pose proof (mlist_sorted (Q q)) as S. intros x Hx.
    assert (L : slt (be64 n) (be64 (n + 1))) by (apply be64_lt; lia).
    assert (Sk : StronglySorted slt (mkeys (Q q))).
    { unfold mkeys. clear - S. induction S as [|a l S IH Fa]; simpl; [constructor|]. constructor; [exact IH|].
      rewrite Forall_forall in *. intros y Hy. apply in_map_iff in Hy as (z & <- & Hz). exact (Fa z Hz). }
    rewrite Er in Sk, Hx. apply last_sorted in Sk. rewrite in_app_iff in Hx. rewrite Forall_forall in Sk.
    destruct Hx as [Hx|[<-|[]]]; [exact (slt_trans _ _ _ (Sk x Hx) L)|exact L].
Qed.
End FromInv.

(** ** Transitions preserve the invariant *)
Lemma queue_eqb_eq a b : queue_eqb a b = true <-> a = b.
Proof. destruct a, b; simpl; split; congruence. Qed.
Lemma inv_ext c c' Q Q' W up A R : (c <= c')%N -> (forall q, Q' q = Q q) -> Inv c Q W up A R -> Inv c' Q' W up A R.
Proof.
  intros L E I. constructor.
  - intros q. rewrite E. destruct (iv_keys _ _ _ _ _ _ I q) as (ns & E2 & F). exists ns. split; [exact E2|].
    eapply Forall_impl; [|exact F]. simpl. lia.
  - intros q. rewrite E. exact (iv_content _ _ _ _ _ _ I q).
  - exact (iv_nos _ _ _ _ _ _ I).
  - exact (iv_ret _ _ _ _ _ _ I).
  - intros i q k j. rewrite E. exact (iv_held _ _ _ _ _ _ I i q k j).
  - exact (iv_excl _ _ _ _ _ _ I).
  - intros U q k j. rewrite E. exact (iv_claimed _ _ _ _ _ _ I U q k j).
  - exact (iv_down _ _ _ _ _ _ I).
Qed.
Lemma set_nth_eq {X} (l : list X) i (x y : X) : nth_error l i = Some y -> nth_error (set_nth i x l) i = Some x.
Proof. revert i; induction l as [|z l IH]; intros [|i]; simpl; try discriminate; auto. Qed.
Lemma set_nth_ne {X} (l : list X) i i' (x : X) : i <> i' -> nth_error (set_nth i x l) i' = nth_error l i'.
Proof. revert i i'; induction l as [|z l IH]; intros [|i] [|i'] N; simpl; try reflexivity; [congruence|apply IH; congruence]. Qed.

Lemma inv_down_of c Q W up A R : Inv c Q W up A R -> Inv c Q (map idle W) false A R.
Proof.
  intros I. assert (H : forall i w, nth_error (map idle W) i = Some w -> w_job w = None).
  { intros i w E. rewrite nth_error_map in E. destruct (nth_error W i); [|discriminate]. injection E as <-. reflexivity. }
  destruct I as [I1 I2 I3 I4 I5 I6 I7 I8]. constructor; try assumption.
  - intros i q k j E. apply H in E. discriminate.
  - intros i i' q k j j' E. apply H in E. discriminate.
  - discriminate.
  - intros _. exact H.
Qed.

Lemma accepted_app q A x : accepted_in q (A ++ [x]) = accepted_in q A ++ (if queue_eqb q (fst x) then [snd x] else []).
Proof. unfold accepted_in. rewrite filter_app, map_app. simpl. destruct (queue_eqb q (fst x)); reflexivity. Qed.

Lemma inv_push c Q Q' W A R q ty ps : (c < 2 ^ 62)%N -> Inv c Q W true A R ->
  let j := Job (List.length A) ty ps false in
  (forall q', Q' q' = if queue_eqb q q' then mput (Q q) (next_seq (Q q)) j else Q q') ->
  Inv (c + 1) Q' W true (A ++ [(q, j)]) R.
Proof.
  intros Hc I j EQ. destruct (next_seq_facts c Q W true A R I Hc q) as (n & En & Bn & Rn & Hlt).
  assert (ML : mlist (mput (Q q) (next_seq (Q q)) j) = mlist (Q q) ++ [(next_seq (Q q), j)]).
  { apply lput_end. rewrite En. exact Hlt. }
  assert (NR : not_retired R j = true).
  { unfold not_retired. apply negb_true_iff. destruct (existsb _ R) eqn:E; [|reflexivity]. exfalso.
    apply existsb_exists in E as (x & Hx & Ex). apply Nat.eqb_eq in Ex. apply (iv_ret _ _ _ _ _ _ I) in Hx. simpl in Ex. lia. }
  assert (GE : forall q' k j0, mget (Q q') k = Some j0 -> mget (Q' q') k = Some j0).
  { intros q' k j0 G. rewrite EQ. destruct (queue_eqb q q') eqn:E; [|exact G]. apply queue_eqb_eq in E; subst q'.
    rewrite mget_put_ne; [exact G|]. intros ->. rewrite En in G.
    assert (K : In (be64 n) (mkeys (Q q))) by (apply in_mkeys; eexists; exact G).
    exact (slt_irrefl _ (Hlt _ K)). }
  constructor.
  - intros q'. rewrite EQ. destruct (queue_eqb q q') eqn:E.
    + apply queue_eqb_eq in E; subst q'. destruct (iv_keys _ _ _ _ _ _ I q) as (ns & E1 & F).
      exists (ns ++ [n]). split.
      * unfold mkeys in *. rewrite ML, !map_app, E1. simpl. rewrite En. reflexivity.
      * apply Forall_app. split; [eapply Forall_impl; [|exact F]; simpl; lia|]. constructor; [lia|constructor].
    + destruct (iv_keys _ _ _ _ _ _ I q') as (ns & E1 & F). exists ns. split; [exact E1|].
      eapply Forall_impl; [|exact F]. simpl. lia.
  - intros q'. unfold pending_in. rewrite EQ, accepted_app, filter_app, map_app. cbn [fst snd].
    destruct (queue_eqb q q') eqn:E.
    + apply queue_eqb_eq in E; subst q'. replace (queue_eqb q q) with true by (destruct q; reflexivity).
      rewrite ML, !map_app, (iv_content _ _ _ _ _ _ I q). cbn [filter]. rewrite NR. reflexivity.
    + replace (queue_eqb q' q) with false by (destruct q, q'; simpl in *; congruence).
      cbn. rewrite app_nil_r. exact (iv_content _ _ _ _ _ _ I q').
  - rewrite map_app, app_length, (iv_nos _ _ _ _ _ _ I). simpl. rewrite Nat.add_1_r, seq_S. reflexivity.
  - intros x Hx. rewrite app_length. apply (iv_ret _ _ _ _ _ _ I) in Hx. lia.
  - intros i q' k j0 H. destruct (iv_held _ _ _ _ _ _ I i q' k j0 H) as [G C]. split; [apply GE; exact G|exact C].
  - exact (iv_excl _ _ _ _ _ _ I).
  - intros _ q' k j0 G C. rewrite EQ in G. destruct (queue_eqb q q') eqn:E.
    + apply queue_eqb_eq in E; subst q'. rewrite mget_put in G. destruct (seqb k (next_seq (Q q))); [injection G as <-; discriminate C|].
      exact (iv_claimed _ _ _ _ _ _ I eq_refl q k j0 G C).
    + exact (iv_claimed _ _ _ _ _ _ I eq_refl q' k j0 G C).
  - discriminate.
Qed.

Lemma first_unclaimed_get m k j : first_unclaimed (mlist m) = Some (k, j) -> mget m k = Some j /\ j_claimed j = false.
Proof.
  unfold first_unclaimed. intros H. apply find_some in H as [H1 H2]. apply in_mlist in H1. split; [exact H1|].
  apply negb_true_iff. exact H2.
Qed.
Lemma inv_claim c Q Q' W A R q i k j : Inv c Q W true A R ->
  nth_error W i = Some (Worker q None) -> first_unclaimed (mlist (Q q)) = Some (k, j) ->
  (forall q', Q' q' = if queue_eqb q q' then mput (Q q) k (set_claimed true j) else Q q') ->
  Inv c Q' (set_nth i (Worker q (Some (k, set_claimed true j))) W) true A R.
Proof.
  intros I Hi Hf EQ. apply first_unclaimed_get in Hf as [G Cj].
  assert (LP : map fst (mlist (mput (Q q) k (set_claimed true j))) = map fst (mlist (Q q)) /\
               map ident (map snd (mlist (mput (Q q) k (set_claimed true j)))) = map ident (map snd (mlist (Q q)))).
  { apply (lput_over ident k (set_claimed true j) j (mlist (Q q))); [apply mlist_ok|exact G|reflexivity]. }
  destruct LP as [LP1 LP2].
  assert (NH : forall i' j', nth_error W i' <> Some (Worker q (Some (k, j')))).
  { intros i' j' H. destruct (iv_held _ _ _ _ _ _ I _ _ _ _ H) as [G2 C2]. rewrite G in G2. injection G2 as <-. congruence. }
  assert (W' : forall i' q' k' j', nth_error (set_nth i (Worker q (Some (k, set_claimed true j))) W) i' = Some (Worker q' (Some (k', j'))) ->
            (i' = i /\ q' = q /\ k' = k /\ j' = set_claimed true j) \/ (i' <> i /\ nth_error W i' = Some (Worker q' (Some (k', j'))))).
  { intros i' q' k' j' H. destruct (Nat.eq_dec i i') as [<-|N].
    - rewrite (set_nth_eq W i _ _ Hi) in H. injection H as <- <- <-. left. auto.
    - rewrite set_nth_ne in H by exact N. right. auto. }
  constructor.
  - intros q'. rewrite EQ. destruct (queue_eqb q q') eqn:E; [|exact (iv_keys _ _ _ _ _ _ I q')].
    apply queue_eqb_eq in E; subst q'. unfold mkeys. rewrite LP1. exact (iv_keys _ _ _ _ _ _ I q).
  - intros q'. rewrite EQ. destruct (queue_eqb q q') eqn:E; [|exact (iv_content _ _ _ _ _ _ I q')].
    apply queue_eqb_eq in E; subst q'. rewrite LP2. exact (iv_content _ _ _ _ _ _ I q).
  - exact (iv_nos _ _ _ _ _ _ I).
  - exact (iv_ret _ _ _ _ _ _ I).
  - intros i' q' k' j' H. destruct (W' _ _ _ _ H) as [(-> & -> & -> & ->)|(N & H2)].
    + rewrite EQ. replace (queue_eqb q q) with true by (destruct q; reflexivity). split; [apply mget_put_eq|reflexivity].
    + destruct (iv_held _ _ _ _ _ _ I _ _ _ _ H2) as [G2 C2]. split; [|exact C2]. rewrite EQ.
      destruct (queue_eqb q q') eqn:E; [|exact G2]. apply queue_eqb_eq in E; subst q'.
      rewrite mget_put_ne; [exact G2|]. intros ->. exact (NH _ _ H2).
  - intros i1 i2 q' k' j1 j2 H1 H2.
    destruct (W' _ _ _ _ H1) as [(E1 & F1 & K1 & _)|(N1 & H1')], (W' _ _ _ _ H2) as [(E2 & F2 & K2 & _)|(N2 & H2')]; subst; auto.
    + exfalso. exact (NH _ _ H2').
    + exfalso. exact (NH _ _ H1').
    + exact (iv_excl _ _ _ _ _ _ I _ _ _ _ _ _ H1' H2').
  - intros _ q' k' j' G' C'. rewrite EQ in G'.
    assert (OLD : mget (Q q') k' = Some j' -> exists i0, nth_error (set_nth i (Worker q (Some (k, set_claimed true j))) W) i0 = Some (Worker q' (Some (k', j')))).
    { intros G2. destruct (iv_claimed _ _ _ _ _ _ I eq_refl q' k' j' G2 C') as (i0 & H0). exists i0.
      rewrite set_nth_ne; [exact H0|]. intros ->. rewrite Hi in H0. discriminate. }
    destruct (queue_eqb q q') eqn:E; [|exact (OLD G')]. apply queue_eqb_eq in E; subst q'.
    rewrite mget_put in G'. destruct (seqb_spec k' k) as [->|N]; [|exact (OLD G')].
    injection G' as <-. exists i. exact (set_nth_eq W i _ _ Hi).
  - discriminate.
Qed.

Lemma not_retired_app R n j : not_retired (R ++ [n]) j = not_retired R j && negb (Nat.eqb (j_no j) n).
Proof. unfold not_retired. rewrite existsb_app. simpl. rewrite orb_false_r, negb_orb. reflexivity. Qed.
Lemma pending_retire q A R n : pending_in q A (R ++ [n]) = filter (fun j => negb (Nat.eqb (j_no j) n)) (pending_in q A R).
Proof.
  unfold pending_in. induction (accepted_in q A) as [|j l IH]; simpl; [reflexivity|]. rewrite not_retired_app.
  destruct (not_retired R j); simpl; [|exact IH]. destruct (negb (j_no j =? n)%nat); rewrite IH; reflexivity.
Qed.
Lemma filter_all {X} (f : X -> bool) l : (forall x, In x l -> f x = true) -> filter f l = l.
Proof. induction l as [|a l IH]; simpl; intros H; [reflexivity|]. rewrite (H a (or_introl eq_refl)), IH; auto. Qed.
Lemma in_accepted q A j : In j (accepted_in q A) <-> In (q, j) A.
Proof.
  unfold accepted_in. rewrite in_map_iff. split.
  - intros ([q' j'] & <- & H). apply filter_In in H as [H E]. apply queue_eqb_eq in E. simpl in E. subst. exact H.
  - intros H. exists (q, j). split; [reflexivity|]. apply filter_In. split; [exact H|]. destruct q; reflexivity.
Qed.

Lemma inv_retire c Q Q' W up A R q i k j : Inv c Q W up A R ->
  nth_error W i = Some (Worker q (Some (k, j))) ->
  (forall q', Q' q' = if queue_eqb q q' then mdel (Q q) k else Q q') ->
  Inv c Q' (set_nth i (Worker q None) W) up A (R ++ [j_no j]).
Proof.
  intros I Hi EQ. destruct (iv_held _ _ _ _ _ _ I _ _ _ _ Hi) as [G Cj].
  pose proof (mkeys_nodup (Q q)) as KN. pose proof (queue_nodup c Q W up A R I q) as NN.
  assert (LD : mlist (mdel (Q q) k) = filter (fun x => negb (seqb k (fst x))) (mlist (Q q))) by (apply ldel_filter; exact KN).
  assert (In0 : In (k, j) (mlist (Q q))) by (apply in_mlist; exact G).
  assert (FE : filter (fun x => negb (seqb k (fst x))) (mlist (Q q)) = filter (fun x => negb (Nat.eqb (j_no (snd x)) (j_no j))) (mlist (Q q))).
  { apply filter_ext_in. intros [k2 j2] H. cbn [fst snd]. f_equal.
    destruct (seqb_spec k k2) as [<-|N].
    - apply in_mlist in H. rewrite G in H. injection H as <-. symmetry. apply Nat.eqb_refl.
    - symmetry. apply Nat.eqb_neq. intros E. apply N.
      assert (X : (k2, j2) = (k, j)).
      { apply (NoDup_map_inj (fun x => j_no (snd x)) (mlist (Q q))); auto. rewrite map_map in NN. exact NN. }
      congruence. }
  assert (JP : exists j', In (q, j') A /\ j_no j' = j_no j).
  { assert (H : In (ident j) (map ident (map snd (mlist (Q q))))) by (apply in_map; apply (in_map snd) in In0; exact In0).
    rewrite (iv_content _ _ _ _ _ _ I q) in H. apply in_map_iff in H as (j' & E & H).
    apply filter_In in H as [H _]. exists j'. split; [apply in_accepted; exact H|]. unfold ident in E. congruence. }
  destruct JP as (ja & Ha & Ea).
  assert (W' : forall i' q' k' j', nth_error (set_nth i (Worker q None) W) i' = Some (Worker q' (Some (k', j'))) ->
            i' <> i /\ nth_error W i' = Some (Worker q' (Some (k', j')))).
  { intros i' q' k' j' H. destruct (Nat.eq_dec i i') as [<-|N].
    - rewrite (set_nth_eq W i _ _ Hi) in H. discriminate.
    - rewrite set_nth_ne in H by exact N. auto. }
  constructor.
  - intros q'. rewrite EQ. destruct (queue_eqb q q') eqn:E; [|exact (iv_keys _ _ _ _ _ _ I q')].
    apply queue_eqb_eq in E; subst q'. destruct (iv_keys _ _ _ _ _ _ I q) as (ns & E1 & F).
    exists (filter (fun n => negb (seqb k (be64 n))) ns). split.
    + unfold mkeys in *. rewrite LD. rewrite <- (filter_map fst (fun x => negb (seqb k x))), E1, filter_map. reflexivity.
    + apply Forall_forall. intros x Hx. apply filter_In in Hx as [Hx _]. rewrite Forall_forall in F. exact (F x Hx).
  - intros q'. rewrite EQ, pending_retire. destruct (queue_eqb q q') eqn:E.
    + apply queue_eqb_eq in E; subst q'. rewrite LD, FE.
      transitivity (filter (fun x => negb (Nat.eqb (fst (fst x)) (j_no j))) (map ident (map snd (mlist (Q q))))).
      * rewrite !filter_map. reflexivity.
      * rewrite (iv_content _ _ _ _ _ _ I q), filter_map. reflexivity.
    + rewrite (iv_content _ _ _ _ _ _ I q'). f_equal. symmetry. apply filter_all. intros x Hx.
      apply filter_In in Hx as [Hx _]. apply in_accepted in Hx. apply negb_true_iff, Nat.eqb_neq. intros E2.
      assert (X : (q', x) = (q, ja)).
      { apply (NoDup_map_inj (fun x => j_no (snd x)) A); [exact (nos_nodup c Q W up A R I)|exact Hx|exact Ha|]. simpl. congruence. }
      injection X as -> _. destruct q; discriminate E.
  - exact (iv_nos _ _ _ _ _ _ I).
  - intros n Hn. apply in_app_iff in Hn as [Hn|[<-|[]]]; [exact (iv_ret _ _ _ _ _ _ I n Hn)|].
    assert (H : In (j_no ja) (map (fun x => j_no (snd x)) A)) by (apply (in_map (fun x => j_no (snd x))) in Ha; exact Ha).
    rewrite (iv_nos _ _ _ _ _ _ I), in_seq in H. lia.
  - intros i' q' k' j' H. apply W' in H as [N H]. destruct (iv_held _ _ _ _ _ _ I _ _ _ _ H) as [G2 C2]. split; [|exact C2].
    rewrite EQ. destruct (queue_eqb q q') eqn:E; [|exact G2]. apply queue_eqb_eq in E; subst q'.
    rewrite mget_del_ne; [exact G2|]. intros ->. apply N. exact (iv_excl _ _ _ _ _ _ I _ _ _ _ _ _ H Hi).
  - intros i1 i2 q' k' j1 j2 H1 H2. apply W' in H1 as [_ H1]. apply W' in H2 as [_ H2].
    exact (iv_excl _ _ _ _ _ _ I _ _ _ _ _ _ H1 H2).
  - intros U q' k' j' G' C'. rewrite EQ in G'.
    assert (G2 : mget (Q q') k' = Some j' /\ (q' = q -> k' <> k)).
    { destruct (queue_eqb q q') eqn:E.
      - apply queue_eqb_eq in E; subst q'. rewrite mget_del in G'. destruct (seqb_spec k' k); [discriminate|auto].
      - split; [exact G'|]. intros ->. destruct q; discriminate E. }
    destruct G2 as [G2 N2]. destruct (iv_claimed _ _ _ _ _ _ I U q' k' j' G2 C') as (i0 & H0). exists i0.
    rewrite set_nth_ne; [exact H0|]. intros ->. rewrite Hi in H0. injection H0 as E1 E2 _. exact (N2 (eq_sym E1) (eq_sym E2)).
  - intros U i' w H. destruct (Nat.eq_dec i i') as [<-|N].
    + rewrite (set_nth_eq W i _ _ Hi) in H. injection H as <-. reflexivity.
    + rewrite set_nth_ne in H by exact N. exact (iv_down _ _ _ _ _ _ I U i' w H).
Qed.

(** ** Start-up *)
Lemma unclaim_get (l : list (string * job)) acc k : NoDup (map fst l) ->
  mget (fold_left (fun acc kj => if j_claimed (snd kj) then mput acc (fst kj) (set_claimed false (snd kj)) else acc) l acc) k =
  match lget k l with Some j => if j_claimed j then Some (set_claimed false j) else mget acc k | None => mget acc k end.
Proof.
  revert acc; induction l as [|[k2 j2] l IH]; intros acc N; simpl; [reflexivity|].
  inversion N as [|? ? N1 N2]; subst. rewrite IH by exact N2.
  destruct (seqb_spec k k2) as [->|NE].
  - rewrite lget_not_key by exact N1. destruct (j_claimed j2); [apply mget_put_eq|reflexivity].
  - destruct (lget k l) as [j|] eqn:E; destruct (j_claimed j2); try (rewrite mget_put_ne by exact NE); reflexivity.
Qed.
Lemma set_claimed_same j : j_claimed j = false -> set_claimed false j = j.
Proof. destruct j; simpl. intros ->. reflexivity. Qed.
Lemma unclaim_list m : mlist (unclaim_all m) = map (fun kj => (fst kj, set_claimed false (snd kj))) (mlist m).
Proof.
  assert (S : StronglySorted klt (map (fun kj => (fst kj, set_claimed false (snd kj))) (mlist m))).
  { pose proof (mlist_sorted m) as S. induction S as [|a l S IH F]; simpl; [constructor|]. constructor; [exact IH|].
    rewrite Forall_forall in *. intros x Hx. apply in_map_iff in Hx as (y & <- & Hy). exact (F y Hy). }
  apply klt_list_ext; [apply mlist_sorted|exact S|].
  intros [k j]. rewrite in_mlist. unfold unclaim_all. rewrite unclaim_get by apply mkeys_nodup.
  change (lget k (mlist m)) with (mget m k). rewrite in_map_iff. split.
  - intros H. destruct (mget m k) as [j0|] eqn:G.
    + exists (k, j0). split; [|apply in_mlist; exact G]. cbn [fst snd].
      destruct (j_claimed j0) eqn:C; [injection H as <-; reflexivity|]. injection H as <-. rewrite set_claimed_same by exact C. reflexivity.
    + discriminate.
  - intros ([k0 j0] & E & H). cbn [fst snd] in E. injection E as -> <-. apply in_mlist in H. rewrite H.
    destruct (j_claimed j0) eqn:C; [reflexivity|]. rewrite set_claimed_same by exact C. reflexivity.
Qed.
Lemma unclaim_idents m : map fst (mlist (unclaim_all m)) = map fst (mlist m) /\ map ident (map snd (mlist (unclaim_all m))) = map ident (map snd (mlist m)).
Proof. rewrite unclaim_list. rewrite !map_map. split; reflexivity. Qed.
Lemma unclaim_none m k j : mget (unclaim_all m) k = Some j -> j_claimed j = false.
Proof.
  intros H. apply in_mlist in H. rewrite unclaim_list in H. apply in_map_iff in H as (x & E & _). injection E as _ <-. reflexivity.
Qed.
(** [b q] = the entries of [q] were unclaimed *)
Lemma inv_start c Q Q' W A R up (b : queue -> bool) : Inv c Q W false A R ->
  (forall q, Q' q = if b q then unclaim_all (Q q) else Q q) -> (up = true -> forall q, b q = true) ->
  Inv c Q' W up A R.
Proof.
  intros I EQ U. pose proof (iv_down _ _ _ _ _ _ I eq_refl) as D.
  constructor.
  - intros q. rewrite EQ. destruct (b q); [|exact (iv_keys _ _ _ _ _ _ I q)]. unfold mkeys. rewrite (proj1 (unclaim_idents (Q q))).
    exact (iv_keys _ _ _ _ _ _ I q).
  - intros q. rewrite EQ. destruct (b q); [|exact (iv_content _ _ _ _ _ _ I q)]. rewrite (proj2 (unclaim_idents (Q q))).
    exact (iv_content _ _ _ _ _ _ I q).
  - exact (iv_nos _ _ _ _ _ _ I).
  - exact (iv_ret _ _ _ _ _ _ I).
  - intros i q k j H. apply D in H. discriminate.
  - intros i i' q k j j' H. apply D in H. discriminate.
  - intros Hu q k j G C. rewrite EQ, (U Hu q) in G. apply unclaim_none in G. congruence.
  - intros _. exact D.
Qed.

(** ** Every reachable state *)
Definition sysInv (c : N) (y : sys) : Prop :=
  Inv c (fun q => get_queue q (y_store y)) (y_workers y) (y_up y) (y_accepted y) (y_retired y).

Lemma get_set_queue q q' s m : get_queue q' (set_queue q s m) = if queue_eqb q q' then m else get_queue q' s.
Proof. destruct q, q'; reflexivity. Qed.
Lemma get_set_hist q b s h : get_queue q (set_hist b s h) = get_queue q s.
Proof. destruct q, b; reflexivity. Qed.

(** the queues after a prefix of the writes of an action *)
Definition queues_after (y : sys) (a : act) (q' : queue) : smap job :=
  match a with
  | APush q ty ps =>
      if queue_eqb q q' then mput (get_queue q (y_store y)) (next_seq (get_queue q (y_store y))) (Job (List.length (y_accepted y)) ty ps false)
      else get_queue q' (y_store y)
  | AClaim i =>
      match nth_error (y_workers y) i with
      | Some (Worker q None) =>
          match first_unclaimed (mlist (get_queue q (y_store y))) with
          | Some (k, j) => if queue_eqb q q' then mput (get_queue q (y_store y)) k (set_claimed true j) else get_queue q' (y_store y)
          | None => get_queue q' (y_store y)
          end
      | _ => get_queue q' (y_store y)
      end
  | AFinish i _ _ =>
      match nth_error (y_workers y) i with
      | Some (Worker q (Some (k, _))) => if queue_eqb q q' then mdel (get_queue q (y_store y)) k else get_queue q' (y_store y)
      | _ => get_queue q' (y_store y)
      end
  | AReset _ => get_queue q' (y_store y)
  end.
Lemma writes_queues y a n : firstn n (writes_of y a) <> [] ->
  forall q', get_queue q' (last (firstn n (writes_of y a)) (y_store y)) = queues_after y a q'.
Proof.
  intros NE q'. destruct a as [q ty ps|i|i d f|b]; cbn [writes_of queues_after] in *.
  - unfold push in *. destruct (reserved _); [destruct n; destruct (NE eq_refl)|].
    destruct n; [destruct (NE eq_refl)|]. cbn [fst firstn]. destruct n; cbn [firstn last]; rewrite get_set_queue; reflexivity.
  - destruct (nth_error (y_workers y) i) as [[q [kj|]]|]; try (destruct n; destruct (NE eq_refl)).
    unfold claim in *. destruct (first_unclaimed _) as [[k j]|]; [|destruct n; destruct (NE eq_refl)].
    destruct (reserved k); [destruct n; destruct (NE eq_refl)|].
    destruct n; [destruct (NE eq_refl)|]. cbn [fst firstn]. destruct n; cbn [firstn last]; rewrite get_set_queue; reflexivity.
  - destruct (nth_error (y_workers y) i) as [[q [[k j]|]]|]; try (destruct n; destruct (NE eq_refl)).
    unfold retire in *. destruct (reserved k); [destruct n; destruct (NE eq_refl)|].
    destruct n; [destruct (NE eq_refl)|]. unfold mark_completion. cbn [fst snd firstn].
    destruct n; [|destruct n; [|destruct n]]; cbn [firstn last]; rewrite ?get_set_hist, get_set_queue; reflexivity.
  - unfold reset in *. cbn [fst] in *.
    destruct (h_ptr (get_hist b (y_store y))); destruct n; try (destruct (NE eq_refl)); cbn [app firstn]; destruct n; try destruct n; cbn [firstn last];
      rewrite ?get_set_hist; reflexivity.
Qed.

(** the effect of a whole action, with at least one write if it has any *)
Lemma act_inv c y a : (c < 2 ^ 62)%N -> sysInv c y -> y_up y = true ->
  Inv (c + 1) (queues_after y a) (workers_after y a) true (accepted_after y a 1) (retired_after y a 1).
Proof.
  unfold sysInv. intros Hc I U. rewrite U in I.
  assert (W : forall Q', (forall q, Q' q = get_queue q (y_store y)) -> Inv (c + 1) Q' (y_workers y) true (y_accepted y) (y_retired y)).
  { intros Q' E. apply (inv_ext c (c + 1)%N (fun q => get_queue q (y_store y)) Q'); [lia|exact E|exact I]. }
  destruct a as [q ty ps|i|i d f|b]; unfold queues_after, workers_after, accepted_after, retired_after; cbn [Nat.leb andb].
  - destruct (next_seq_facts _ _ _ _ _ _ I Hc q) as (n & En & _ & Rn & _). cbn beta in En. rewrite (eq_trans (f_equal reserved En) Rn). cbn [negb].
    apply (inv_push c (fun q => get_queue q (y_store y)) _ (y_workers y) (y_accepted y) (y_retired y) q ty ps Hc I). reflexivity.
  - destruct (nth_error (y_workers y) i) as [[q [kj|]]|] eqn:Hi; try (apply W; reflexivity).
    unfold claim. destruct (first_unclaimed _) as [[k j]|] eqn:Hf; [|apply W; reflexivity].
    destruct (first_unclaimed_get _ _ _ Hf) as [G _].
    rewrite (keys_not_reserved _ _ _ _ _ _ I Hc q k j G). cbn [snd].
    apply (inv_ext c (c + 1)%N (fun q' => if queue_eqb q q' then mput (get_queue q (y_store y)) k (set_claimed true j) else get_queue q' (y_store y)));
      [lia|reflexivity|].
    apply (inv_claim c (fun q => get_queue q (y_store y)) _ (y_workers y) (y_accepted y) (y_retired y) q i k j I Hi Hf). reflexivity.
  - destruct (nth_error (y_workers y) i) as [[q [[k j]|]]|] eqn:Hi; try (apply W; reflexivity).
    destruct (iv_held _ _ _ _ _ _ I _ _ _ _ Hi) as [G _].
    rewrite (keys_not_reserved _ _ _ _ _ _ I Hc q k j G). cbn [negb].
    apply (inv_ext c (c + 1)%N (fun q' => if queue_eqb q q' then mdel (get_queue q (y_store y)) k else get_queue q' (y_store y)));
      [lia|reflexivity|].
    apply (inv_retire c (fun q => get_queue q (y_store y)) _ (y_workers y) true (y_accepted y) (y_retired y) q i k j I Hi). reflexivity.
  - apply W. reflexivity.
Qed.
(** when an action writes nothing it changes nothing *)
Lemma no_writes y a : writes_of y a = [] ->
  (forall q, queues_after y a q = get_queue q (y_store y)) \/
  (exists q k, reserved k = true /\ (k = next_seq (get_queue q (y_store y)) \/ exists j, mget (get_queue q (y_store y)) k = Some j)) \/
  (exists i q k j, nth_error (y_workers y) i = Some (Worker q (Some (k, j))) /\ reserved k = true).
Proof.
  intros E. destruct a as [q ty ps|i|i d f|b]; cbn [writes_of queues_after] in *.
  - unfold push in E. destruct (reserved _) eqn:R; [|discriminate]. right. left. exists q. eexists. split; [exact R|left; reflexivity].
  - destruct (nth_error (y_workers y) i) as [[q [kj|]]|]; try (left; reflexivity).
    unfold claim in E. destruct (first_unclaimed _) as [[k j]|] eqn:F; [|left; reflexivity].
    destruct (reserved k) eqn:R; [|discriminate]. right. left. exists q, k. split; [exact R|]. right. exists j.
    exact (proj1 (first_unclaimed_get _ _ _ F)).
  - destruct (nth_error (y_workers y) i) as [[q [[k j]|]]|] eqn:H; try (left; reflexivity).
    unfold retire in E. destruct (reserved k) eqn:R; [|discriminate]. right. right. exists i, q, k, j. auto.
  - left. reflexivity.
Qed.
Lemma after_ge1 y a n : (1 <= n)%nat -> accepted_after y a n = accepted_after y a 1 /\ retired_after y a n = retired_after y a 1.
Proof. intros H. assert (E : (1 <=? n)%nat = true) by (apply Nat.leb_le; exact H). destruct a; cbn [accepted_after retired_after]; rewrite ?E; auto. Qed.
Lemma after_0 y a : accepted_after y a 0 = y_accepted y /\ retired_after y a 0 = y_retired y.
Proof. destruct a; cbn; auto. destruct (nth_error (y_workers y) i) as [[q [[k j]|]]|]; auto. Qed.

Lemma step_inv c y e : (c < 2 ^ 62)%N -> sysInv c y -> sysInv (c + 1) (step y e).
Proof.
  intros Hc I.
  assert (Same : sysInv (c + 1) y) by (apply (inv_ext c (c + 1)%N (fun q => get_queue q (y_store y))); [lia|reflexivity|exact I]).
  destruct e as [a|a n| |n]; cbn [step].
  - destruct (y_up y) eqn:U; [|exact Same].
    pose proof (act_inv c y a Hc I U) as J. unfold sysInv; cbn [y_store y_workers y_up y_accepted y_retired].
    destruct (writes_of y a) as [|w ws] eqn:E.
    + cbn [last List.length]. destruct (after_0 y a) as [-> ->].
      unfold sysInv in I. rewrite U in I.
      assert (WA : workers_after y a = y_workers y \/ exists i, match nth_error (y_workers y) i with Some (Worker q (Some (k,_))) => reserved k = true | _ => False end).
      { destruct a as [q ty ps|i|i d f|b]; cbn [writes_of workers_after] in *; try (left; reflexivity).
        - destruct (nth_error (y_workers y) i) as [[q [kj|]]|]; try (left; reflexivity). unfold claim in *.
          destruct (first_unclaimed _) as [[k j]|]; [|left; reflexivity]. destruct (reserved k); [left; reflexivity|discriminate].
        - destruct (nth_error (y_workers y) i) as [[q [[k j]|]]|] eqn:H; try (left; reflexivity). right. exists i. rewrite H.
          unfold retire in E. destruct (reserved k); [reflexivity|discriminate]. }
      destruct WA as [->|(i & X)].
      * unfold sysInv in Same. rewrite U in Same. exact Same.
      * exfalso. destruct (nth_error (y_workers y) i) as [[q [[k j]|]]|] eqn:H; try contradiction.
        destruct (iv_held _ _ _ _ _ _ I _ _ _ _ H) as [G _].
        rewrite (keys_not_reserved _ _ _ _ _ _ I Hc q k j G) in X. discriminate.
    + destruct (after_ge1 y a (List.length (w :: ws))) as [-> ->]; [simpl; lia|].
      apply (inv_ext (c + 1)%N (c + 1)%N (queues_after y a)); [lia| |exact J].
      intros q. pose proof (writes_queues y a (List.length (w :: ws))) as X. rewrite E, firstn_all in X. apply X. discriminate.
  - destruct (y_up y) eqn:U; [|exact Same].
    pose proof (act_inv c y a Hc I U) as J. unfold sysInv; cbn [y_store y_workers y_up y_accepted y_retired].
    destruct (firstn n (writes_of y a)) as [|w ws] eqn:E.
    + cbn [last List.length]. destruct (after_0 y a) as [-> ->]. apply inv_down_of with (up := y_up y). exact Same.
    + destruct (after_ge1 y a (List.length (w :: ws))) as [-> ->]; [simpl; lia|].
      assert (M : map idle (y_workers y) = map idle (workers_after y a)).
      { clear. assert (G : forall l i q x y0, nth_error l i = Some (Worker q y0) -> map idle (set_nth i (Worker q x) l) = map idle l).
        { induction l as [|w l IH]; intros [|i] q x y0 H; simpl in *; try discriminate.
          - injection H as ->. reflexivity.
          - f_equal. exact (IH _ _ _ _ H). }
        destruct a as [q ty ps|i|i d f|b]; cbn [workers_after]; try reflexivity.
        - destruct (nth_error (y_workers y) i) as [[q [kj|]]|] eqn:H; try reflexivity.
          destruct (snd (claim q (y_store y))) as [[kj|]| |]; try reflexivity. symmetry. exact (G _ _ _ _ _ H).
        - destruct (nth_error (y_workers y) i) as [[q [kj|]]|] eqn:H; try reflexivity. symmetry. exact (G _ _ _ _ _ H). }
      rewrite M. apply inv_down_of with (up := true).
      apply (inv_ext (c + 1)%N (c + 1)%N (queues_after y a)); [lia| |exact J].
      intros q. pose proof (writes_queues y a n) as X. rewrite E in X. apply X. discriminate.
  - destruct (y_up y) eqn:U; [exact Same|].
    unfold sysInv in *; cbn [y_store y_workers y_up y_accepted y_retired]. rewrite U in Same.
    apply (inv_start (c + 1)%N _ _ _ _ _ true (fun _ => true) Same); [|reflexivity].
    intros q. unfold setup, final, unclaim. cbn [fst last]. rewrite !get_set_queue. destruct q; reflexivity.
  - destruct (y_up y) eqn:U; [exact Same|].
    unfold sysInv in *; cbn [y_store y_workers y_up y_accepted y_retired]. rewrite U in Same.
    apply (inv_start (c + 1)%N _ _ _ _ _ false (fun q => match q with QSync => (1 <=? n)%nat | QAsync => (2 <=? n)%nat end) Same); [|discriminate].
    intros q. unfold setup, final, unclaim. cbn [fst last].
    destruct n as [|[|n]]; [|cbn [firstn last]; rewrite get_set_queue; destruct q; reflexivity|cbn [firstn last]; destruct n; rewrite !get_set_queue; destruct q; reflexivity].
    destruct q; reflexivity.
Qed.

Lemma boot_inv kinds : sysInv 0 (boot kinds).
Proof.
  assert (D : forall i w, nth_error (start_workers kinds) i = Some w -> w_job w = None).
  { intros i w H. unfold start_workers in H. rewrite nth_error_map in H. destruct (nth_error kinds i); [|discriminate]. injection H as <-. reflexivity. }
  unfold sysInv; cbn. constructor; try (intros; discriminate).
  - intros q. exists []. destruct q; split; constructor.
  - intros q. destruct q; reflexivity.
  - reflexivity.
  - intros n [].
  - intros i q k j H. apply D in H. discriminate.
  - intros i i' q k j j' H. apply D in H. discriminate.
  - intros _ q k j G. destruct q; vm_compute in G; discriminate G.
Qed.
Lemma fold_inv h y c : sysInv c y -> (c + N.of_nat (List.length h) < 2 ^ 62)%N -> sysInv (c + N.of_nat (List.length h)) (fold_left step h y).
Proof.
  revert y c; induction h as [|e h IH]; intros y c I B.
  - simpl. rewrite N.add_0_r. exact I.
  - cbn [fold_left List.length] in *. replace (c + N.of_nat (S (List.length h)))%N with ((c + 1) + N.of_nat (List.length h))%N in * by lia.
    apply IH; [apply step_inv; [lia|exact I]|lia].
Qed.
Lemma run_inv kinds h : bounded h -> sysInv (N.of_nat (List.length h)) (run kinds h).
Proof. intros B. apply (fold_inv h (boot kinds) 0 (boot_inv kinds)). exact B. Qed.
