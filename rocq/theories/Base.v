(** * Base: error values, byte strings, sorted string maps, sorting.

    Library part: nothing here models ferryd code, except that [smap]
    mirrors the iteration order of goleveldb (ascending byte order of keys)
    and [sort_strings] mirrors Go's [sort.Strings] (ascending byte order). *)
From Coq Require Export List String Ascii ZArith NArith Arith Bool Lia.
From Coq Require Export Sorting.Sorted Sorting.Permutation.
From Coq Require Import Eqdep_dec OrderedTypeEx.
Export ListNotations.
Open Scope string_scope.
Open Scope list_scope.
Open Scope nat_scope.

(** A Go call either returns normally, returns a non-nil error, or panics. *)
Inductive res (A : Type) : Type :=
| Ok (a : A)
| Err
| Panic.
Arguments Ok {A} _.
Arguments Err {A}.
Arguments Panic {A}.

Definition is_ok {A} (r : res A) : bool := match r with Ok _ => true | _ => false end.

(** ** Byte strings *)

Definition seqb (a b : string) : bool := String.eqb a b.

Lemma seqb_spec a b : reflect (a = b) (seqb a b).
Proof. apply String.eqb_spec. Qed.
Lemma seqb_eq a b : seqb a b = true <-> a = b.
Proof. apply String.eqb_eq. Qed.
Lemma seqb_refl a : seqb a a = true.
Proof. apply String.eqb_refl. Qed.
Lemma seqb_neq a b : seqb a b = false <-> a <> b.
Proof. apply String.eqb_neq. Qed.
Lemma seqb_sym a b : seqb a b = seqb b a.
Proof. apply String.eqb_sym. Qed.

Definition slt (a b : string) : Prop := String_as_OT.lt a b.
Definition sltb (a b : string) : bool :=
  match String_as_OT.cmp a b with Lt => true | _ => false end.

Lemma sltb_slt a b : sltb a b = true <-> slt a b.
Proof.
  unfold sltb, slt. rewrite <- String_as_OT.cmp_lt.
  destruct (String_as_OT.cmp a b); split; intros H; congruence.
Qed.
Lemma slt_trans a b c : slt a b -> slt b c -> slt a c.
Proof. apply String_as_OT.lt_trans. Qed.
Lemma slt_irrefl a : ~ slt a a.
Proof. intros H. exact (String_as_OT.lt_not_eq a a H eq_refl). Qed.
Lemma slt_neq a b : slt a b -> a <> b.
Proof. intros H ->. exact (slt_irrefl _ H). Qed.
Lemma slt_total a b : slt a b \/ a = b \/ slt b a.
Proof.
  destruct (String_as_OT.compare a b) as [H|H|H]; auto.
Qed.
Lemma sltb_irrefl a : sltb a a = false.
Proof.
  destruct (sltb a a) eqn:E; [|reflexivity].
  apply sltb_slt in E. destruct (slt_irrefl _ E).
Qed.
Lemma sltb_false a b : sltb a b = false -> a = b \/ slt b a.
Proof.
  intros H. destruct (slt_total a b) as [L|[L|L]]; auto.
  apply sltb_slt in L. congruence.
Qed.

Definition sin (x : string) (l : list string) : bool := existsb (seqb x) l.
Lemma sin_In x l : sin x l = true <-> In x l.
Proof.
  unfold sin. rewrite existsb_exists. split.
  - intros (y & Hy & E). apply seqb_eq in E. subst. exact Hy.
  - intros H. exists x. split; [exact H|apply seqb_refl].
Qed.
Lemma sin_not_In x l : sin x l = false <-> ~ In x l.
Proof. rewrite <- sin_In. destruct (sin x l); split; congruence. Qed.

Fixpoint has_prefix (p s : string) : bool :=
  match p, s with
  | EmptyString, _ => true
  | String a p', String b s' => Ascii.eqb a b && has_prefix p' s'
  | String _ _, EmptyString => false
  end.
Lemma has_prefix_spec p s : has_prefix p s = true <-> exists t, s = (p ++ t)%string.
Proof.
  revert s; induction p as [|a p IH]; intros s; simpl.
  - split; [intros _; exists s; reflexivity|reflexivity].
  - destruct s as [|b s].
    + split; [discriminate|intros (t & H); discriminate].
    + rewrite andb_true_iff, IH, Ascii.eqb_eq. split.
      * intros (-> & t & ->). exists t. reflexivity.
      * intros (t & H). injection H as -> ->. split; [reflexivity|exists t; reflexivity].
Qed.

Fixpoint sdrop (n : nat) (s : string) : string :=
  match n, s with
  | O, _ => s
  | S n', String _ s' => sdrop n' s'
  | S _, EmptyString => EmptyString
  end.
Fixpoint stake (n : nat) (s : string) : string :=
  match n, s with
  | O, _ => EmptyString
  | S n', String a s' => String a (stake n' s')
  | S _, EmptyString => EmptyString
  end.
(* strings.HasSuffix *)
Definition has_suffix (p s : string) : bool :=
  (String.length p <=? String.length s)
  && seqb (sdrop (String.length s - String.length p) s) p.

Lemma sapp_assoc (a b c : string) : ((a ++ b) ++ c = a ++ (b ++ c))%string.
Proof. induction a as [|x a IH]; simpl; [reflexivity|rewrite IH; reflexivity]. Qed.
Lemma sapp_nil_r (a : string) : (a ++ "" = a)%string.
Proof. induction a as [|x a IH]; simpl; [reflexivity|rewrite IH; reflexivity]. Qed.
Lemma slen_app (a b : string) : String.length (a ++ b) = String.length a + String.length b.
Proof. induction a as [|x a IH]; simpl; [reflexivity|rewrite IH; reflexivity]. Qed.
Lemma sdrop_app (a b : string) : sdrop (String.length a) (a ++ b) = b.
Proof. induction a as [|x a IH]; simpl; [reflexivity|exact IH]. Qed.
Lemma stake_app (a b : string) : stake (String.length a) (a ++ b) = a.
Proof. induction a as [|x a IH]; simpl; [reflexivity|rewrite IH; reflexivity]. Qed.
Lemma stake_sdrop n s : (stake n s ++ sdrop n s)%string = s.
Proof.
  revert s; induction n as [|n IH]; intros [|a s]; simpl; try reflexivity.
  rewrite IH; reflexivity.
Qed.
Lemma sapp_inj_l (a b c : string) : (a ++ b = a ++ c)%string -> b = c.
Proof. induction a as [|x a IH]; simpl; intros H; [exact H|injection H; exact IH]. Qed.
Lemma sapp_inj_len (a b c d : string) :
  String.length a = String.length c -> (a ++ b = c ++ d)%string -> a = c /\ b = d.
Proof.
  revert c; induction a as [|x a IH]; intros [|y c]; simpl; intros L H; try discriminate.
  - auto.
  - injection H as -> H. injection L as L. destruct (IH _ L H) as [-> ->]. auto.
Qed.
Lemma has_suffix_spec p s : has_suffix p s = true <-> exists t, s = (t ++ p)%string.
Proof.
  unfold has_suffix. rewrite andb_true_iff, Nat.leb_le, seqb_eq. split.
  - intros [L H]. exists (stake (String.length s - String.length p) s).
    rewrite <- H at 2. symmetry; apply stake_sdrop.
  - intros (t & ->). rewrite slen_app. split; [lia|].
    replace (String.length t + String.length p - String.length p) with (String.length t) by lia.
    apply sdrop_app.
Qed.
Lemma has_suffix_app t p : has_suffix p (t ++ p) = true.
Proof. apply has_suffix_spec. exists t; reflexivity. Qed.

(** ** Insertion sort on strings: sort.Strings (byte order; equal strings are
    indistinguishable, so the algorithm does not matter). *)
Fixpoint sinsert (x : string) (l : list string) : list string :=
  match l with
  | [] => [x]
  | y :: l' => if sltb y x then y :: sinsert x l' else x :: l
  end.
Fixpoint sort_strings (l : list string) : list string :=
  match l with
  | [] => []
  | x :: l' => sinsert x (sort_strings l')
  end.

Definition sle (a b : string) : Prop := a = b \/ slt a b.
Lemma sle_trans a b c : sle a b -> sle b c -> sle a c.
Proof.
  intros [->|H1] [->|H2]; unfold sle; auto. right; exact (slt_trans _ _ _ H1 H2).
Qed.

Lemma sinsert_perm x l : Permutation (sinsert x l) (x :: l).
Proof.
  induction l as [|y l IH]; simpl; [reflexivity|].
  destruct (sltb y x); [|reflexivity].
  rewrite IH. apply perm_swap.
Qed.
Lemma sort_strings_perm l : Permutation (sort_strings l) l.
Proof.
  induction l as [|x l IH]; simpl; [reflexivity|].
  rewrite sinsert_perm, IH. reflexivity.
Qed.
Lemma sinsert_sorted x l : StronglySorted sle l -> StronglySorted sle (sinsert x l).
Proof.
  induction 1 as [|y l Hs IH Hf]; simpl.
  - repeat constructor.
  - destruct (sltb y x) eqn:E.
    + constructor; [exact IH|]. rewrite Forall_forall in *. intros z Hz.
      apply (Permutation_in _ (sinsert_perm x l)) in Hz. destruct Hz as [<-|Hz].
      * right. apply sltb_slt; exact E.
      * auto.
    + apply sltb_false in E.
      assert (Hxy : sle x y) by (destruct E as [->|E]; [left; reflexivity|right; exact E]).
      constructor; [constructor; assumption|].
      constructor; [exact Hxy|]. rewrite Forall_forall in *. intros z Hz.
      eapply sle_trans; [exact Hxy|auto].
Qed.
Lemma sort_strings_sorted l : StronglySorted sle (sort_strings l).
Proof. induction l; simpl; [constructor|apply sinsert_sorted; assumption]. Qed.
Lemma sort_strings_In x l : In x (sort_strings l) <-> In x l.
Proof.
  split; apply Permutation_in; [|symmetry]; apply sort_strings_perm.
Qed.
Lemma sle_antisym a b : sle a b -> sle b a -> a = b.
Proof.
  intros [->|H1] [H2|H2]; auto. destruct (slt_irrefl a). eapply slt_trans; eauto.
Qed.
Lemma sorted_perm_eq l1 l2 :
  StronglySorted sle l1 -> StronglySorted sle l2 -> Permutation l1 l2 -> l1 = l2.
Proof.
  revert l2; induction l1 as [|x l1 IH]; intros l2 S1 S2 P.
  - apply Permutation_nil in P. auto.
  - destruct l2 as [|y l2]; [symmetry in P; apply Permutation_nil in P; discriminate|].
    inversion S1 as [|? ? S1' F1]; inversion S2 as [|? ? S2' F2]; subst.
    assert (x = y) as ->.
    { rewrite Forall_forall in *.
      assert (Hx : In x (y :: l2)) by (eapply Permutation_in; [exact P|left; reflexivity]).
      assert (Hy : In y (x :: l1)) by (eapply Permutation_in; [symmetry; exact P|left; reflexivity]).
      destruct Hx as [->|Hx]; [reflexivity|]. destruct Hy as [->|Hy]; [reflexivity|].
      apply sle_antisym; auto. }
    f_equal. apply IH; auto. eapply Permutation_cons_inv; exact P.
Qed.
Lemma sort_strings_id l : StronglySorted sle l -> sort_strings l = l.
Proof.
  intros H. apply sorted_perm_eq; [apply sort_strings_sorted|exact H|apply sort_strings_perm].
Qed.
Lemma sort_strings_nodup l : NoDup l -> NoDup (sort_strings l).
Proof. intros H. eapply Permutation_NoDup; [symmetry; apply sort_strings_perm|exact H]. Qed.
Lemma sort_strings_length l : List.length (sort_strings l) = List.length l.
Proof. apply Permutation_length, sort_strings_perm. Qed.
Lemma sort_strings_nil l : sort_strings l = [] <-> l = [].
Proof.
  split; [|intros ->; reflexivity]. intros H.
  pose proof (sort_strings_length l) as L. rewrite H in L. destruct l; [reflexivity|discriminate].
Qed.
Lemma filter_sorted {A} (R : A -> A -> Prop) f l :
  StronglySorted R l -> StronglySorted R (filter f l).
Proof.
  induction 1 as [|x l Hs IH Hf]; simpl; [constructor|].
  destruct (f x); [|exact IH]. constructor; [exact IH|].
  rewrite Forall_forall in *. intros y Hy. apply filter_In in Hy. apply Hf, Hy.
Qed.

(** Number of occurrences *)
Fixpoint socc (x : string) (l : list string) : nat :=
  match l with [] => 0 | y :: l' => (if seqb x y then 1 else 0) + socc x l' end.
Lemma socc_app x l1 l2 : socc x (l1 ++ l2) = socc x l1 + socc x l2.
Proof. induction l1; simpl; lia. Qed.
Lemma socc_perm x l1 l2 : Permutation l1 l2 -> socc x l1 = socc x l2.
Proof. induction 1; simpl; lia. Qed.
Lemma socc_In x l : In x l <-> socc x l > 0.
Proof.
  induction l as [|y l IH]; simpl; [lia|]. destruct (seqb_spec x y) as [->|N].
  - split; [lia|auto].
  - rewrite IH. split; [intros [E|H]; [congruence|lia]|intros H; right; lia].
Qed.
Lemma socc_not_In x l : ~ In x l <-> socc x l = 0.
Proof. rewrite socc_In. lia. Qed.
Lemma socc_nodup x l : NoDup l -> socc x l = if sin x l then 1 else 0.
Proof.
  induction 1 as [|y l Hy Hn IH]; simpl; [reflexivity|].
  unfold sin in *; simpl. destruct (seqb_spec x y) as [->|N]; simpl.
  - apply socc_not_In in Hy. lia.
  - exact IH.
Qed.
Lemma socc_sort x l : socc x (sort_strings l) = socc x l.
Proof. apply socc_perm, sort_strings_perm. Qed.

(** ** Finite maps with string keys, kept in ascending key order *)

Fixpoint sorted_keys {A} (l : list (string * A)) : bool :=
  match l with
  | [] => true
  | (k, _) :: l' =>
      match l' with [] => true | (k', _) :: _ => sltb k k' end && sorted_keys l'
  end.

Record smap (A : Type) : Type := SMap {
  mlist : list (string * A);
  mlist_ok : sorted_keys mlist = true
}.
Arguments SMap {A} _ _.
Arguments mlist {A} _.
Arguments mlist_ok {A} _.

Definition mempty {A} : smap A := SMap [] eq_refl.

Fixpoint lget {A} (k : string) (l : list (string * A)) : option A :=
  match l with
  | [] => None
  | (k', v) :: l' => if seqb k k' then Some v else lget k l'
  end.
Fixpoint lput {A} (k : string) (v : A) (l : list (string * A)) : list (string * A) :=
  match l with
  | [] => [(k, v)]
  | (k', v') :: l' =>
      if seqb k k' then (k, v) :: l'
      else if sltb k' k then (k', v') :: lput k v l'
      else (k, v) :: l
  end.
Fixpoint ldel {A} (k : string) (l : list (string * A)) : list (string * A) :=
  match l with
  | [] => []
  | (k', v') :: l' => if seqb k k' then l' else (k', v') :: ldel k l'
  end.

Definition klt {A} (a b : string * A) : Prop := slt (fst a) (fst b).
Lemma sorted_keys_strong {A} (l : list (string * A)) :
  sorted_keys l = true <-> StronglySorted klt l.
Proof.
  induction l as [|[k v] l IH]; simpl.
  - split; [constructor|reflexivity].
  - rewrite andb_true_iff, IH. split.
    + intros [H1 H2]. constructor; [exact H2|].
      destruct l as [|[k' v'] l]; [constructor|].
      apply sltb_slt in H1. inversion H2 as [|? ? H3 H4]; subst.
      constructor; [exact H1|]. rewrite Forall_forall in *.
      intros x Hx. specialize (H4 x Hx). unfold klt in *; simpl in *.
      eapply slt_trans; eauto.
    + inversion 1 as [|? ? H1 H2]; subst. split; [|exact H1].
      destruct l as [|[k' v'] l]; [reflexivity|].
      inversion H2; subst. apply sltb_slt. assumption.
Qed.

Lemma lput_keys {A} k (v : A) l x : In x (map fst (lput k v l)) <-> x = k \/ In x (map fst l).
Proof.
  induction l as [|[k' v'] l IH]; simpl.
  - intuition.
  - destruct (seqb_spec k k') as [->|N]; simpl.
    + intuition.
    + destruct (sltb k' k); simpl; [rewrite IH|]; intuition.
Qed.
Lemma lput_sorted {A} k (v : A) l : sorted_keys l = true -> sorted_keys (lput k v l) = true.
Proof.
  rewrite !sorted_keys_strong. induction 1 as [|[k' v'] l Hs IH Hf]; simpl.
  - repeat constructor.
  - rewrite Forall_forall in Hf. destruct (seqb_spec k k') as [->|N].
    + constructor; [exact Hs|]. rewrite Forall_forall. intros x Hx. apply Hf in Hx. exact Hx.
    + destruct (sltb k' k) eqn:E.
      * constructor; [exact IH|]. rewrite Forall_forall. intros [x w] Hx.
        unfold klt; simpl. apply (in_map fst) in Hx. apply lput_keys in Hx. simpl in Hx.
        destruct Hx as [->|Hx]; [apply sltb_slt; exact E|].
        apply in_map_iff in Hx. destruct Hx as ([x' w'] & <- & Hx). exact (Hf _ Hx).
      * apply sltb_false in E. destruct E as [->|E]; [congruence|].
        constructor; [constructor; [exact Hs|rewrite Forall_forall; exact Hf]|].
        constructor; [exact E|]. rewrite Forall_forall. intros x Hx. apply Hf in Hx.
        unfold klt in *; simpl in *. eapply slt_trans; eauto.
Qed.
Lemma ldel_incl {A} k (l : list (string * A)) x : In x (ldel k l) -> In x l.
Proof.
  induction l as [|[k' v'] l IH]; simpl; [tauto|].
  destruct (seqb k k'); simpl; intuition.
Qed.
Lemma ldel_sorted {A} k (l : list (string * A)) : sorted_keys l = true -> sorted_keys (ldel k l) = true.
Proof.
  rewrite !sorted_keys_strong. induction 1 as [|[k' v'] l Hs IH Hf]; simpl; [constructor|].
  destruct (seqb k k'); [exact Hs|].
  constructor; [exact IH|]. rewrite Forall_forall in *. intros x Hx. apply Hf, (ldel_incl _ _ _ Hx).
Qed.

Definition mget {A} (m : smap A) (k : string) : option A := lget k (mlist m).
Definition mput {A} (m : smap A) (k : string) (v : A) : smap A :=
  SMap (lput k v (mlist m)) (lput_sorted k v (mlist m) (mlist_ok m)).
Definition mdel {A} (m : smap A) (k : string) : smap A :=
  SMap (ldel k (mlist m)) (ldel_sorted k (mlist m) (mlist_ok m)).
Definition mkeys {A} (m : smap A) : list string := map fst (mlist m).
Definition mhas {A} (m : smap A) (k : string) : bool :=
  match mget m k with Some _ => true | None => false end.

Lemma lget_lput_eq {A} k (v : A) l : lget k (lput k v l) = Some v.
Proof.
  induction l as [|[k' v'] l IH]; simpl.
  - rewrite seqb_refl. reflexivity.
  - destruct (seqb_spec k k') as [->|N]; simpl.
    + rewrite seqb_refl. reflexivity.
    + destruct (sltb k' k); simpl.
      * destruct (seqb_spec k k'); [congruence|exact IH].
      * rewrite seqb_refl. reflexivity.
Qed.
Lemma lget_lput_ne {A} k k2 (v : A) l : k2 <> k -> lget k2 (lput k v l) = lget k2 l.
Proof.
  intros N. induction l as [|[k' v'] l IH]; simpl.
  - destruct (seqb_spec k2 k); [congruence|reflexivity].
  - destruct (seqb_spec k k') as [->|N']; simpl.
    + destruct (seqb_spec k2 k'); [congruence|reflexivity].
    + destruct (sltb k' k); simpl.
      * rewrite IH. reflexivity.
      * destruct (seqb_spec k2 k); [congruence|reflexivity].
Qed.
Lemma lget_not_key {A} k (l : list (string * A)) : ~ In k (map fst l) -> lget k l = None.
Proof.
  induction l as [|[k' v'] l IH]; simpl; [reflexivity|]. intros H.
  destruct (seqb_spec k k') as [->|N]; [tauto|]. tauto.
Qed.
Lemma strong_nodup_keys {A} (l : list (string * A)) : StronglySorted klt l -> NoDup (map fst l).
Proof.
  induction 1 as [|[k v] l Hs IH Hf]; simpl; constructor; [|exact IH].
  intros H. apply in_map_iff in H. destruct H as ([k' v'] & E & H). simpl in E; subst.
  rewrite Forall_forall in Hf. apply Hf in H. exact (slt_irrefl _ H).
Qed.
Lemma lget_In {A} k (v : A) l : sorted_keys l = true -> (In (k, v) l <-> lget k l = Some v).
Proof.
  intros H. apply sorted_keys_strong, strong_nodup_keys in H.
  induction l as [|[k' v'] l IH]; simpl in *.
  - split; [tauto|discriminate].
  - inversion H as [|? ? Hn Hd]; subst. destruct (seqb_spec k k') as [->|N].
    + split.
      * intros [E|E]; [injection E as ->; reflexivity|].
        exfalso. apply Hn. apply (in_map fst) in E. exact E.
      * intros E; injection E as ->; left; reflexivity.
    + rewrite <- (IH Hd). split; [intros [E|E]; [congruence|exact E]|auto].
Qed.
Lemma lget_ldel_eq {A} k (l : list (string * A)) : sorted_keys l = true -> lget k (ldel k l) = None.
Proof.
  intros H. apply sorted_keys_strong, strong_nodup_keys in H.
  induction l as [|[k' v'] l IH]; simpl in *; [reflexivity|].
  inversion H as [|? ? Hn Hd]; subst. destruct (seqb_spec k k') as [->|N]; simpl.
  - apply lget_not_key, Hn.
  - destruct (seqb_spec k k'); [congruence|auto].
Qed.
Lemma lget_ldel_ne {A} k k2 (l : list (string * A)) : k2 <> k -> lget k2 (ldel k l) = lget k2 l.
Proof.
  intros N. induction l as [|[k' v'] l IH]; simpl; [reflexivity|].
  destruct (seqb_spec k k') as [->|N']; simpl.
  - destruct (seqb_spec k2 k'); [congruence|reflexivity].
  - rewrite IH. reflexivity.
Qed.

Section MapLemmas.
Context {A : Type}.
Implicit Types (m : smap A) (k : string) (v : A).

Lemma mget_empty k : mget (@mempty A) k = None.
Proof. reflexivity. Qed.
Lemma mget_put_eq m k v : mget (mput m k v) k = Some v.
Proof. apply lget_lput_eq. Qed.
Lemma mget_put_ne m k k2 v : k2 <> k -> mget (mput m k v) k2 = mget m k2.
Proof. apply lget_lput_ne. Qed.
Lemma mget_del_eq m k : mget (mdel m k) k = None.
Proof. apply lget_ldel_eq, mlist_ok. Qed.
Lemma mget_del_ne m k k2 : k2 <> k -> mget (mdel m k) k2 = mget m k2.
Proof. apply lget_ldel_ne. Qed.
Lemma mget_put m k k2 v : mget (mput m k v) k2 = if seqb k2 k then Some v else mget m k2.
Proof.
  destruct (seqb_spec k2 k) as [->|N]; [apply mget_put_eq|apply mget_put_ne; exact N].
Qed.
Lemma mget_del m k k2 : mget (mdel m k) k2 = if seqb k2 k then None else mget m k2.
Proof.
  destruct (seqb_spec k2 k) as [->|N]; [apply mget_del_eq|apply mget_del_ne; exact N].
Qed.
Lemma in_mlist m k v : In (k, v) (mlist m) <-> mget m k = Some v.
Proof. apply lget_In, mlist_ok. Qed.
Lemma mlist_sorted m : StronglySorted klt (mlist m).
Proof. apply sorted_keys_strong, mlist_ok. Qed.
Lemma mkeys_nodup m : NoDup (mkeys m).
Proof. apply strong_nodup_keys, mlist_sorted. Qed.
Lemma in_mkeys m k : In k (mkeys m) <-> exists v, mget m k = Some v.
Proof.
  unfold mkeys. rewrite in_map_iff. split.
  - intros ([k' v] & <- & H). exists v. apply in_mlist; exact H.
  - intros (v & H). exists (k, v). split; [reflexivity|apply in_mlist; exact H].
Qed.
Lemma mhas_keys m k : mhas m k = true <-> In k (mkeys m).
Proof.
  unfold mhas. rewrite in_mkeys. destruct (mget m k) as [v|].
  - split; [exists v; reflexivity|reflexivity].
  - split; [discriminate|intros (v & H); discriminate].
Qed.

Lemma klt_list_ext (l1 l2 : list (string * A)) :
  StronglySorted klt l1 -> StronglySorted klt l2 ->
  (forall x, In x l1 <-> In x l2) -> l1 = l2.
Proof.
  revert l2. induction l1 as [|[k v] l1 IH]; intros [|[k2 v2] l2] S1 S2 E.
  - reflexivity.
  - exfalso. apply (E (k2, v2)). left; reflexivity.
  - exfalso. apply (E (k, v)). left; reflexivity.
  - inversion S1 as [|? ? S1' F1]; inversion S2 as [|? ? S2' F2]; subst.
    rewrite Forall_forall in *.
    assert (EQ : (k, v) = (k2, v2)).
    { destruct (proj1 (E (k, v)) (or_introl eq_refl)) as [H|H]; [auto|].
      destruct (proj2 (E (k2, v2)) (or_introl eq_refl)) as [H2|H2]; [auto|].
      apply F2 in H. apply F1 in H2. unfold klt in *; simpl in *.
      exfalso. apply (slt_irrefl k). eapply slt_trans; eauto. }
    injection EQ as <- <-. f_equal. apply IH; auto.
    intros x. specialize (E x). simpl in E. split; intros H.
    + destruct (proj1 E (or_intror H)) as [<-|H']; [|exact H'].
      apply F1 in H. exfalso. exact (slt_irrefl _ H).
    + destruct (proj2 E (or_intror H)) as [<-|H']; [|exact H'].
      apply F2 in H. exfalso. exact (slt_irrefl _ H).
Qed.

Lemma smap_eq m1 m2 : mlist m1 = mlist m2 -> m1 = m2.
Proof.
  destruct m1 as [l1 p1], m2 as [l2 p2]; simpl. intros ->.
  f_equal. apply UIP_dec, bool_dec.
Qed.
Lemma mext m1 m2 : (forall k, mget m1 k = mget m2 k) -> m1 = m2.
Proof.
  intros H. apply smap_eq, klt_list_ext; try apply mlist_sorted.
  intros [k v]. rewrite !in_mlist, H. reflexivity.
Qed.
Lemma mput_same m k v : mget m k = Some v -> mput m k v = m.
Proof.
  intros H. apply mext. intros k2. rewrite mget_put.
  destruct (seqb_spec k2 k) as [->|N]; [symmetry; exact H|reflexivity].
Qed.
Lemma mdel_none m k : mget m k = None -> mdel m k = m.
Proof.
  intros H. apply mext. intros k2. rewrite mget_del.
  destruct (seqb_spec k2 k) as [->|N]; [symmetry; exact H|reflexivity].
Qed.

(** Sum of a measure over all bindings *)
Fixpoint lsum (f : string -> A -> nat) (l : list (string * A)) : nat :=
  match l with [] => 0 | (k, v) :: l' => f k v + lsum f l' end.
Definition msum (f : string -> A -> nat) (m : smap A) : nat := lsum f (mlist m).
Definition mval (f : string -> A -> nat) (m : smap A) (k : string) : nat :=
  match mget m k with Some v => f k v | None => 0 end.

Lemma lsum_put f k v l : sorted_keys l = true ->
  lsum f (lput k v l) + match lget k l with Some v0 => f k v0 | None => 0 end = lsum f l + f k v.
Proof.
  intros H. apply sorted_keys_strong in H.
  induction H as [|[k' v'] l Hs IH Hf]; simpl; [lia|].
  destruct (seqb_spec k k') as [->|N]; simpl; [lia|].
  destruct (sltb k' k) eqn:E; simpl; [lia|].
  apply sltb_false in E. destruct E as [->|E]; [congruence|].
  rewrite (lget_not_key k l); [lia|].
  intros H. apply in_map_iff in H. destruct H as ([x w] & Ex & H). simpl in Ex; subst.
  rewrite Forall_forall in Hf. apply Hf in H. unfold klt in H; simpl in H.
  apply (slt_irrefl k). eapply slt_trans; eauto.
Qed.
Lemma lsum_del f k l :
  lsum f (ldel k l) + match lget k l with Some v0 => f k v0 | None => 0 end = lsum f l.
Proof.
  induction l as [|[k' v'] l IH]; simpl; [lia|].
  destruct (seqb_spec k k') as [->|N]; simpl; lia.
Qed.
Lemma msum_put f m k v : msum f (mput m k v) + mval f m k = msum f m + f k v.
Proof. apply lsum_put, mlist_ok. Qed.
Lemma msum_del f m k : msum f (mdel m k) + mval f m k = msum f m.
Proof. apply lsum_del. Qed.
Lemma msum_empty f : msum f mempty = 0.
Proof. reflexivity. Qed.
Lemma lsum_ge f k v l : In (k, v) l -> f k v <= lsum f l.
Proof.
  induction l as [|[k' v'] l IH]; simpl; [tauto|]. intros [E|H].
  - injection E as -> ->. lia.
  - apply IH in H. lia.
Qed.
Lemma msum_ge f m k v : mget m k = Some v -> f k v <= msum f m.
Proof. intros H. apply lsum_ge. apply in_mlist; exact H. Qed.
Lemma lsum_ext f g l : (forall k v, In (k, v) l -> f k v = g k v) -> lsum f l = lsum g l.
Proof.
  induction l as [|[k v] l IH]; simpl; intros H; [reflexivity|].
  rewrite (H k v (or_introl eq_refl)), IH; [reflexivity|intros; apply H; right; assumption].
Qed.
Lemma msum_ext f g m : (forall k v, mget m k = Some v -> f k v = g k v) -> msum f m = msum g m.
Proof. intros H. apply lsum_ext. intros k v Hin. apply H, in_mlist, Hin. Qed.
Lemma lsum_zero f l : lsum f l = 0 <-> forall k v, In (k, v) l -> f k v = 0.
Proof.
  induction l as [|[k v] l IH]; simpl.
  - split; [intros _ ? ? []|reflexivity].
  - split.
    + intros H k' v' [E|Hin]; [injection E as -> ->; lia|].
      apply (proj1 IH); [lia|exact Hin].
    + intros H. rewrite (H k v (or_introl eq_refl)).
      apply (proj2 IH). intros; apply H; right; assumption.
Qed.
Lemma msum_zero f m : msum f m = 0 <-> forall k v, mget m k = Some v -> f k v = 0.
Proof.
  unfold msum. rewrite lsum_zero. split; intros H k v Hg; apply H, in_mlist, Hg.
Qed.

End MapLemmas.

(** ** Functional maps on strings *)
Definition fupd {B} (f : string -> B) (k : string) (v : B) : string -> B :=
  fun k' => if seqb k' k then v else f k'.
Lemma fupd_eq {B} (f : string -> B) k v : fupd f k v k = v.
Proof. unfold fupd. rewrite seqb_refl. reflexivity. Qed.
Lemma fupd_ne {B} (f : string -> B) k v k' : k' <> k -> fupd f k v k' = f k'.
Proof. unfold fupd. intros N. apply seqb_neq in N. rewrite N. reflexivity. Qed.
