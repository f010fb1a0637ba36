(** * DemoOk: the demo world satisfies every domain hypothesis (non-vacuity) *)
From Verif Require Import Model Spec Demo.
Open Scope string_scope. Open Scope list_scope.

Lemma mk_good name src r c : (1 <= r)%Z -> path_component src = Ok c -> reserved name = false -> good_meta (mk_meta name src r).
Proof. intros A B D. constructor; [discriminate|exact A|exists c; exact B|exact D]. Qed.

Lemma demo_cat_good : good_catalog demo_cat.
Proof.
  intros id. unfold demo_cat.
  repeat match goal with |- context [if seqb id ?x then _ else _] => destruct (seqb id x) end;
    (eapply mk_good; [lia|reflexivity|reflexivity]).
Qed.
Lemma ninsert_perm {A} (name : A -> string) m l : Permutation (ninsert name m l) (m :: l).
Proof.
  induction l as [|x l IH]; simpl; [reflexivity|]. destruct (sltb (name x) (name m)); [|reflexivity].
  rewrite IH. apply perm_swap.
Qed.
Lemma nsort_sorted {A} (name : A -> string) l : sorted_by name l (nsort name l).
Proof.
  unfold sorted_by, nsort. induction l as [|x l [P S]]; simpl; [split; [reflexivity|constructor]|].
  split; [rewrite ninsert_perm; constructor; exact P|]. clear P. revert S. generalize (fold_right (ninsert name) [] l). clear l.
  induction 1 as [|y l Hs IH Hf]; simpl; [constructor; constructor|].
  destruct (sltb (name y) (name x)) eqn:L.
  - constructor; [exact IH|]. apply (Permutation_Forall (Permutation_sym (ninsert_perm name x l))).
    constructor; [right; apply sltb_slt, L|exact Hf].
  - assert (Q : sle (name x) (name y)).
    { destruct (slt_total (name x) (name y)) as [H|[H|H]]; [right; exact H|left; exact H|apply sltb_slt in H; congruence]. }
    constructor; [constructor; auto|]. constructor; [exact Q|].
    eapply Forall_impl; [|exact Hf]. intros z Hz. eapply sle_trans; eauto.
Qed.
Lemma demo_env_good b : good_env (demo_env b).
Proof. constructor; try reflexivity; apply nsort_sorted. Qed.

Lemma rinsert_perm m l : Permutation (rinsert m l) (m :: l).
Proof.
  induction l as [|x l IH]; simpl; [reflexivity|]. destruct (Z.leb (rel x) (rel m)); [reflexivity|].
  rewrite IH. apply perm_swap.
Qed.
Lemma rsort_perm l : Permutation (rsort l) l.
Proof. induction l as [|x l IH]; simpl; [reflexivity|]. rewrite rinsert_perm. constructor. exact IH. Qed.
Lemma rinsert_desc m l : descending l -> descending (rinsert m l).
Proof.
  induction 1 as [|x l Hs IH Hf]; simpl; [constructor; constructor|].
  destruct (Z.leb_spec (rel x) (rel m)) as [H|H].
  - constructor; [constructor; auto|]. constructor; [exact H|].
    eapply Forall_impl; [|exact Hf]. simpl. intros; lia.
  - constructor; [exact IH|]. apply (Permutation_Forall (Permutation_sym (rinsert_perm m l))).
    constructor; [lia|exact Hf].
Qed.
Lemma rsort_desc l : descending (rsort l).
Proof. induction l; simpl; [constructor|apply rinsert_desc; assumption]. Qed.
Lemma demo_oracle_good : good_oracle demo_oracle.
Proof. constructor; [discriminate|reflexivity|apply rsort_perm|apply rsort_desc]. Qed.

Ltac demo_asset :=
  let X := fresh in let l := fresh in let Hl := fresh in
  split; intros X l Hl; try discriminate X; vm_compute in Hl;
  try discriminate Hl; injection Hl as <-; repeat apply Forall_cons; try apply Forall_nil; repeat split; discriminate.
Ltac demo_hist :=
  repeat (apply Forall_cons; [|]); try apply Forall_nil;
  cbn [good_event good_op removes_packages];
  repeat match goal with
  | |- _ /\ _ => split
  | |- good_oracle demo_oracle => apply demo_oracle_good
  | |- good_asset _ _ _ => demo_asset
  | |- Forall _ _ => repeat (apply Forall_cons); try apply Forall_nil
  | |- True => exact I
  end; try reflexivity; try (vm_compute; exact I).

Lemma h_two_good b : good_history (demo_env b) demo_cat h_two.
Proof. unfold good_history, h_two. demo_hist. Qed.
Lemma h_two_crash_free : crash_free h_two.
Proof. unfold crash_free, h_two. repeat constructor. Qed.
Lemma h_two_delta_free : delta_free h_two.
Proof. unfold delta_free, h_two. repeat constructor. Qed.
