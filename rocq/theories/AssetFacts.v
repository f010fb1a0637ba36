(** * AssetFacts: what loading an asset file gives (proof artifact) *)
From Verif Require Import Model Spec.

Lemma fix_language_ok l : l <> [] -> fix_language l = Ok (first_en l).
Proof. destruct l; [congruence|reflexivity]. Qed.
Lemma fix_language_panic l : l = [] -> fix_language l = Panic.
Proof. intros ->. reflexivity. Qed.
Lemma fix_language_cases l : (l <> [] /\ fix_language l = Ok (first_en l)) \/ (l = [] /\ fix_language l = Panic).
Proof. destruct l; [right; auto|left; split; [discriminate|reflexivity]]. Qed.

Lemma fix_component_cases c :
  (complete_component c /\ fix_component c = Ok (component_en c)) \/ (~ complete_component c /\ fix_component c = Panic).
Proof.
  unfold complete_component, fix_component, component_en.
  destruct (fix_language_cases (c_lname c)) as [[A ->]|[A ->]]; [|right; tauto].
  destruct (fix_language_cases (c_summary c)) as [[B ->]|[B ->]]; [|right; tauto].
  destruct (fix_language_cases (c_descr c)) as [[D ->]|[D ->]]; [left; tauto|right; tauto].
Qed.
Lemma fix_group_cases g :
  (complete_group g /\ fix_group g = Ok (group_en g)) \/ (~ complete_group g /\ fix_group g = Panic).
Proof.
  unfold complete_group, fix_group, group_en.
  destruct (fix_language_cases (g_lname g)) as [[A ->]|[A ->]]; [left|right]; tauto.
Qed.

Section Load.
Context {A : Type}.
Variable fix1 : A -> res A.
Variable complete : A -> Prop.
Variable en : A -> A.
Variable name : A -> string.
Hypothesis Cases : forall x, (complete x /\ fix1 x = Ok (en x)) \/ (~ complete x /\ fix1 x = Panic).
Hypothesis Name : forall x, name (en x) = name x.

Lemma fix_all_cases l : (Forall complete l /\ fix_all fix1 l = Ok (map en l)) \/ (~ Forall complete l /\ fix_all fix1 l = Panic).
Proof.
  induction l as [|x l IH]; simpl; [left; auto|].
  destruct (Cases x) as [[C ->]|[C ->]].
  - destruct IH as [[F ->]|[F ->]]; [left; auto|right]. split; [|reflexivity]. intros X. inversion X; auto.
  - right. split; [|reflexivity]. intros X. inversion X; auto.
Qed.
Lemma load_cases decode sort c : (forall l, sorted_by name l (sort l)) ->
  (decode c = None /\ load_asset decode sort fix1 c = Err) \/
  (exists l, decode c = Some l /\ Forall complete l /\ load_asset decode sort fix1 c = Ok (map en (sort l))) \/
  (exists l, decode c = Some l /\ ~ Forall complete l /\ load_asset decode sort fix1 c = Panic).
Proof.
  intros Hs. unfold load_asset. destruct (decode c) as [l|]; [|left; auto]. right.
  destruct (Hs l) as [P _].
  destruct (fix_all_cases (sort l)) as [[F ->]|[F ->]]; [left|right]; exists l; (split; [reflexivity|]); (split; [|reflexivity]).
  - apply (Permutation_Forall P F).
  - intros X. apply F. apply (Permutation_Forall (Permutation_sym P) X).
Qed.
Lemma sorted_by_map l l' : sorted_by name l l' -> sorted_by name (map en l) (map en l').
Proof.
  intros [P S]. split; [apply Permutation_map, P|]. clear P. induction S as [|x l' S IH F]; simpl; constructor; [exact IH|].
  rewrite Forall_forall in *. intros y Hy. apply in_map_iff in Hy. destruct Hy as (z & <- & Hz). rewrite !Name. auto.
Qed.
End Load.

Section Env.
Variable E : env.
Hypothesis HE : good_env E.

Lemma components_cases c :
  (E_comps E c = None /\ new_components E c = Err) \/
  (exists l, E_comps E c = Some l /\ Forall complete_component l /\ new_components E c = Ok (map component_en (E_csort E l))) \/
  (exists l, E_comps E c = Some l /\ ~ Forall complete_component l /\ new_components E c = Panic).
Proof. unfold new_components. apply (load_cases _ _ _ c_name fix_component_cases), (ge_csort _ HE). Qed.
Lemma groups_cases c :
  (E_groups E c = None /\ new_groups E c = Err) \/
  (exists l, E_groups E c = Some l /\ Forall complete_group l /\ new_groups E c = Ok (map group_en (E_gsort E l))) \/
  (exists l, E_groups E c = Some l /\ ~ Forall complete_group l /\ new_groups E c = Panic).
Proof. unfold new_groups. apply (load_cases _ _ _ g_name fix_group_cases), (ge_gsort _ HE). Qed.
Lemma good_components c : good_asset E "components.xml" c -> new_components E c <> Panic.
Proof.
  intros [G _]. destruct (components_cases c) as [[_ ->]|[(l & _ & _ & ->)|(l & D & N & _)]]; try discriminate.
  exfalso. apply N, (G eq_refl), D.
Qed.
Lemma good_groups c : good_asset E "groups.xml" c -> new_groups E c <> Panic.
Proof.
  intros [_ G]. destruct (groups_cases c) as [[_ ->]|[(l & _ & _ & ->)|(l & D & N & _)]]; try discriminate.
  exfalso. apply N, (G eq_refl), D.
Qed.
Lemma components_carried c l' : new_components E c = Ok l' -> carries (E_comps E) c_name component_en (Some c) (Some l').
Proof.
  intros H. destruct (components_cases c) as [[_ X]|[(l & D & _ & X)|(l & _ & _ & X)]]; rewrite X in H; try discriminate.
  injection H as <-. exists l, (map component_en (E_csort E l)). split; [exact D|]. split; [reflexivity|].
  apply sorted_by_map; [reflexivity|apply (ge_csort _ HE)].
Qed.
Lemma groups_carried c l' : new_groups E c = Ok l' -> carries (E_groups E) g_name group_en (Some c) (Some l').
Proof.
  intros H. destruct (groups_cases c) as [[_ X]|[(l & D & _ & X)|(l & _ & _ & X)]]; rewrite X in H; try discriminate.
  injection H as <-. exists l, (map group_en (E_gsort E l)). split; [exact D|]. split; [reflexivity|].
  apply sorted_by_map; [reflexivity|apply (ge_gsort _ HE)].
Qed.
End Env.
