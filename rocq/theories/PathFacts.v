(** * PathFacts: lemmas on cleaned paths (proof artifact) *)
From Verif Require Import Base Paths.
Open Scope string_scope. Open Scope list_scope.

Fixpoint has_slash (s : string) : bool :=
  match s with EmptyString => false | String c s' => Ascii.eqb c slash || has_slash s' end.

Lemma split_nonempty s : split_slash s <> [].
Proof. induction s as [|c s IH]; cbn [split_slash]; [discriminate|]. destruct (Ascii.eqb c slash); [discriminate|]. destruct (split_slash s); discriminate. Qed.
Lemma split_no_slash s : Forall (fun x => has_slash x = false) (split_slash s).
Proof.
  induction s as [|c s IH]; cbn [split_slash]; [repeat constructor|].
  destruct (Ascii.eqb c slash) eqn:C; [constructor; auto|].
  destruct (split_slash s) as [|h t]; [constructor; [cbn [has_slash]; rewrite C; reflexivity|constructor]|].
  inversion IH; subst. constructor; [cbn [has_slash]; rewrite C; assumption|assumption].
Qed.
Lemma split_one s : has_slash s = false -> split_slash s = [s].
Proof.
  induction s as [|c s IH]; cbn [has_slash split_slash]; [reflexivity|]. intros H. apply orb_false_iff in H as [C H].
  rewrite C, (IH H). reflexivity.
Qed.
Lemma split_app a b : split_slash (a ++ "/" ++ b) = split_slash a ++ split_slash b.
Proof.
  induction a as [|c a IH]; [reflexivity|].
  change ((String c a ++ "/" ++ b)%string) with (String c (a ++ "/" ++ b)). cbn [split_slash].
  destruct (Ascii.eqb c slash); [rewrite IH; reflexivity|].
  rewrite IH. pose proof (split_nonempty a) as N. destruct (split_slash a); [congruence|reflexivity].
Qed.
Lemma join_cons x y l : join_slash (x :: y :: l) = (x ++ "/" ++ join_slash (y :: l))%string.
Proof. reflexivity. Qed.
Lemma split_join l : l <> [] -> Forall (fun x => has_slash x = false) l -> split_slash (join_slash l) = l.
Proof.
  intros N F. induction F as [|x l Hx F IH]; [congruence|]. destruct l as [|y l].
  - cbn [join_slash]. apply split_one, Hx.
  - rewrite join_cons, split_app, IH by discriminate. rewrite split_one by exact Hx. reflexivity.
Qed.
Lemma join_app a b : a <> [] -> b <> [] -> join_slash (a ++ b) = (join_slash a ++ "/" ++ join_slash b)%string.
Proof.
  intros Na Nb. induction a as [|x a IH]; [congruence|]. destruct a as [|y a].
  - cbn [app]. destruct b; [congruence|reflexivity].
  - cbn [app] in *. rewrite !join_cons, IH by discriminate. rewrite !sapp_assoc. reflexivity.
Qed.

(** an ordinary path component *)
Definition normal (x : string) : Prop := x <> "" /\ x <> "." /\ x <> ".." /\ has_slash x = false.
Lemma clean_normals rooted l st : Forall normal l -> fold_left (clean_step rooted) l st = rev l ++ st.
Proof.
  intros F. revert st. induction F as [|x l (N1 & N2 & N3 & _) F IH]; intros st; [reflexivity|]. cbn [fold_left rev].
  rewrite IH. unfold clean_step. apply seqb_neq in N1, N2, N3. rewrite N1, N2, N3. cbn [orb]. rewrite <- app_assoc. reflexivity.
Qed.
(** components none of which goes up: cleaning drops the empty ones and the dots *)
Definition keepc (x : string) : bool := negb (seqb x "" || seqb x ".").
Lemma clean_noup rooted l st : ~ In ".." l -> fold_left (clean_step rooted) l st = rev (filter keepc l) ++ st.
Proof.
  revert st; induction l as [|x l IH]; intros st N; [reflexivity|]. cbn [fold_left filter].
  rewrite IH by (intros H; apply N; right; exact H). unfold clean_step, keepc at 2.
  destruct (seqb x "" || seqb x ".") eqn:C; [reflexivity|]. cbn [negb]. destruct (seqb_spec x ".."); [subst; destruct N; left; reflexivity|].
  cbn [rev]. rewrite <- app_assoc. reflexivity.
Qed.
Lemma keepc_normal l : ~ In ".." l -> Forall (fun x => has_slash x = false) l -> Forall normal (filter keepc l).
Proof.
  intros N F. apply Forall_forall. intros x Hx. apply filter_In in Hx as [Hx K]. rewrite Forall_forall in F.
  unfold keepc in K. apply negb_true_iff, orb_false_iff in K as [K1 K2]. apply seqb_neq in K1, K2. repeat split; auto. intros ->. contradiction.
Qed.
(** absolute path with the given components *)
Definition abs (l : list string) : string := ("/" ++ join_slash l)%string.
Lemma abs_split l : l <> [] -> Forall normal l -> split_slash (abs l) = "" :: l.
Proof.
  intros N F. unfold abs. change ("/" ++ join_slash l)%string with ("" ++ "/" ++ join_slash l)%string. rewrite split_app.
  rewrite split_join; [reflexivity|exact N|]. eapply Forall_impl; [|exact F]. intros x (_ & _ & _ & H). exact H.
Qed.
Lemma abs_ne l : seqb (abs l) "" = false.
Proof. reflexivity. Qed.
Lemma fold_empty rooted st : clean_step rooted st "" = st.
Proof. reflexivity. Qed.
Lemma prefix_slash s : has_prefix "/" ("/" ++ s) = true.
Proof. apply has_prefix_spec. exists s. reflexivity. Qed.

(** joining a path without upward components to a directory stays below it *)
Lemma join_inside root p :
  root <> [] -> Forall normal root -> ~ In ".." (split_slash p) ->
  join (abs root) p = abs (root ++ filter keepc (split_slash p)).
Proof.
  intros N F U. unfold join. rewrite abs_ne. destruct (seqb_spec p "") as [->|Np].
  - cbn [split_slash filter]. change (keepc "") with false. cbn match. rewrite app_nil_r.
    unfold clean. rewrite abs_ne. unfold abs at 1. rewrite prefix_slash. rewrite abs_split by assumption.
    cbn [fold_left]. rewrite fold_empty, clean_normals, app_nil_r, rev_involutive by assumption. reflexivity.
  - assert (E : (abs root ++ "/" ++ p = "/" ++ (join_slash root ++ "/" ++ p))%string) by reflexivity.
    unfold clean. rewrite E. rewrite prefix_slash. change (seqb ("/" ++ (join_slash root ++ "/" ++ p)) "") with false. cbn match.
    rewrite <- E. rewrite split_app, abs_split by assumption. cbn [app fold_left]. rewrite fold_empty, fold_left_app, (clean_normals true root) by assumption. rewrite app_nil_r.
    rewrite clean_noup by exact U. rewrite rev_app_distr, !rev_involutive. reflexivity.
Qed.
Lemma base_abs l x : normal x -> base (abs (l ++ [x])) = x.
Proof.
  intros (N1 & _ & _ & H). unfold base. rewrite abs_ne.
  unfold abs. change ("/" ++ join_slash (l ++ [x]))%string with ("" ++ "/" ++ join_slash (l ++ [x]))%string. rewrite split_app.
  destruct l as [|y l].
  - cbn [app join_slash]. rewrite (split_one x H). cbn. destruct (seqb_spec x ""); [congruence|reflexivity].
  - rewrite join_app by discriminate. rewrite split_app. cbn [join_slash]. rewrite (split_one x H).
    rewrite app_assoc, rev_app_distr. cbn [rev app strip_trailing]. destruct (seqb_spec x ""); [congruence|reflexivity].
Qed.
(** cleaning a relative path without upward components *)
Lemma clean_rel p : ~ In ".." (split_slash p) -> has_prefix "/" p = false ->
  clean p = match filter keepc (split_slash p) with [] => "." | l => join_slash l end.
Proof.
  intros U R. unfold clean. destruct (seqb_spec p "") as [->|Np]; [reflexivity|]. rewrite R.
  rewrite clean_noup by exact U. rewrite app_nil_r, rev_involutive.
  pose proof (keepc_normal _ U (split_no_slash p)) as F. destruct (filter keepc (split_slash p)) as [|x l]; [reflexivity|].
  inversion F as [|? ? (N1 & _) _]; subst. destruct l as [|y l].
  - cbn [join_slash]. destruct (seqb_spec x ""); [congruence|reflexivity].
  - rewrite join_cons. destruct (seqb_spec (x ++ "/" ++ join_slash (y :: l)) "") as [E|]; [|reflexivity]. destruct x; discriminate.
Qed.
Lemma clean_abs p : ~ In ".." (split_slash p) -> has_prefix "/" p = true ->
  clean p = abs (filter keepc (split_slash p)).
Proof.
  intros U R. unfold clean. destruct (seqb_spec p "") as [->|Np]; [discriminate|]. rewrite R.
  rewrite clean_noup by exact U. rewrite app_nil_r, rev_involutive. reflexivity.
Qed.
(** what is left of a cleaned path: same ordinary components *)
Lemma clean_comps p : ~ In ".." (split_slash p) ->
  ~ In ".." (split_slash (clean p)) /\ filter keepc (split_slash (clean p)) = filter keepc (split_slash p).
Proof.
  intros U. pose proof (keepc_normal _ U (split_no_slash p)) as F.
  assert (Fk : filter keepc (filter keepc (split_slash p)) = filter keepc (split_slash p)).
  { induction (split_slash p) as [|x l IH]; [reflexivity|]. cbn [filter]. destruct (keepc x) eqn:K; [cbn [filter]; rewrite K; f_equal|]; apply IH.
    - intros H; apply U; right; exact H.
    - cbn [filter] in F. rewrite K in F. inversion F; assumption.
    - intros H; apply U; right; exact H.
    - cbn [filter] in F. rewrite K in F. exact F. }
  assert (Nn : ~ In ".." (filter keepc (split_slash p))) by (intros H; apply filter_In in H as [H _]; contradiction).
  assert (Fs : Forall (fun x => has_slash x = false) (filter keepc (split_slash p))) by (eapply Forall_impl; [|exact F]; intros x (_ & _ & _ & H); exact H).
  destruct (has_prefix "/" p) eqn:R.
  - rewrite (clean_abs p U R). destruct (filter keepc (split_slash p)) as [|x l] eqn:Q.
    + cbn. split; [intros [H|[H|[]]]; discriminate|reflexivity].
    + unfold abs. change ("/" ++ join_slash (x :: l))%string with ("" ++ "/" ++ join_slash (x :: l))%string. rewrite split_app, split_join by (discriminate || assumption).
      cbn [split_slash app]. split; [intros [H|H]; [discriminate|contradiction]|]. cbn [filter] in *. change (keepc "") with false. cbn match. exact Fk.
  - rewrite (clean_rel p U R). destruct (filter keepc (split_slash p)) as [|x l] eqn:Q.
    + cbn. split; [intros [H|[]]; discriminate|reflexivity].
    + rewrite split_join by (discriminate || assumption). split; [exact Nn|exact Fk].
Qed.
