(** * UnxmlFacts: the decoder, field by field

    What a value becomes when elements are decoded into it one after the other
    ([feed]); every field of a struct takes exactly the elements with its path. *)
From Coq Require Import List NArith ZArith Bool String Ascii Lia.
From Verif Require Import Escape Xml Unxml.
From Verif Require XmlSpec XmlFacts.
Import ListNotations.
Open Scope N_scope. Open Scope list_scope.
Import XmlSpec(item, Ch, El).

(** ** Elements by local name *)
Definition is_local (n : string) (i : item) : bool := match i with El m _ _ => same_text (local m) (txt n) | Ch _ => false end.
Definition body (i : item) : list item := match i with El _ _ b => b | Ch _ => [] end.
Definition attrs_of (i : item) : list (text * text) := match i with El _ a _ => a | Ch _ => [] end.
Definition elem (i : item) : Prop := match i with El _ _ _ => True | Ch _ => False end.
Definition kids (n : string) (l : list item) : list item := flat_map (fun i => filter (is_local n) (body i)) l.
Fixpoint below (ps : list string) (n : string) (l : list item) : list item :=
  match ps with [] => kids n l | p :: ps' => below ps' n (kids p l) end.
Definition attr_values (x : bool) (n : string) (l : list item) : list text :=
  flat_map (fun i => map snd (filter (fun a => same_text (local (fst a)) (txt n) && (negb x || xml_space (fst a))) (attrs_of i))) l.
Fixpoint feed (t : ty) (v : val) (l : list item) : option val :=
  match l with [] => Some v | i :: l' => match unmarshal t v i with Some v' => feed t v' l' | None => None end end.
Fixpoint feed_text (t : ty) (v : val) (l : list text) : option val :=
  match l with [] => Some v | d :: l' => match of_text t d with Some v' => feed_text t v' l' | None => None end end.
(** what elements [l], decoded in turn, make of a field *)
Definition field_result (l : list item) (f : field) (v : val) : option val :=
  match f_place f with
  | ByElem => feed (f_ty f) v (below (f_parents f) (f_name f) l)
  | ByAttr x => feed_text (f_ty f) v (attr_values x (f_name f) l)
  | ByText => feed_text (f_ty f) v (map (fun i => text_of (body i)) l)
  end.

(** no name is the beginning of two fields, no path is longer than two *)
Definition key (f : field) : string := match f_parents f with [] => f_name f | p :: _ => p end.
Definition is_elem (f : field) : bool := match f_place f with ByElem => true | _ => false end.
Fixpoint no_dup (l : list string) : bool := match l with [] => true | a :: l' => negb (existsb (String.eqb a) l') && no_dup l' end.
Definition good_fields (fs : list field) : bool :=
  forallb (fun f => (List.length (f_parents f) <=? 1)%nat) fs && no_dup (map key (filter is_elem fs)).

Lemma bind_some {A B} (o : option A) (g : A -> option B) x : match o with Some y => g y | None => None end = Some x -> exists y, o = Some y /\ g y = Some x.
Proof. destruct o as [y|]; [exists y; auto|discriminate]. Qed.
Lemma feed_app t v a b : feed t v (a ++ b) = match feed t v a with Some v' => feed t v' b | None => None end.
Proof. revert v. induction a as [|i a IH]; intros v; [reflexivity|]. cbn. destruct (unmarshal t v i); [apply IH|reflexivity]. Qed.
Lemma feed_text_app t v a b : feed_text t v (a ++ b) = match feed_text t v a with Some v' => feed_text t v' b | None => None end.
Proof. revert v. induction a as [|i a IH]; intros v; [reflexivity|]. cbn. destruct (of_text t i); [apply IH|reflexivity]. Qed.
Lemma kids_app n a b : kids n (a ++ b) = kids n a ++ kids n b.
Proof. apply flat_map_app. Qed.
Lemma below_app ps n a b : below ps n (a ++ b) = below ps n a ++ below ps n b.
Proof. revert a b. induction ps as [|p ps IH]; intros a b; cbn; [apply kids_app|rewrite kids_app; apply IH]. Qed.
Lemma field_result_app a b f v : field_result (a ++ b) f v = match field_result a f v with Some v' => field_result b f v' | None => None end.
Proof.
  unfold field_result. destruct (f_place f).
  - rewrite below_app. apply feed_app.
  - unfold attr_values. rewrite flat_map_app. apply feed_text_app.
  - rewrite map_app. apply feed_text_app.
Qed.

(** ** Passes over fields *)
Lemma each_id g fs vs : List.length vs = List.length fs -> (forall f v, In f fs -> g f v = Some v) -> each_field g fs vs = Some vs.
Proof.
  revert vs. induction fs as [|f fs IH]; intros [|v vs] L H; try discriminate L; [reflexivity|]. cbn. rewrite (H f v) by (left; reflexivity).
  rewrite IH; [reflexivity|injection L; auto|intros; apply H; right; assumption].
Qed.
Lemma each_ext g g' fs vs : (forall f v, In f fs -> g f v = g' f v) -> each_field g fs vs = each_field g' fs vs.
Proof.
  revert vs. induction fs as [|f fs IH]; intros [|v vs] H; try reflexivity. cbn. rewrite (H f v) by (left; reflexivity). rewrite IH by (intros; apply H; right; assumption). reflexivity.
Qed.
Lemma each_length g fs vs vs' : List.length vs = List.length fs -> each_field g fs vs = Some vs' -> List.length vs' = List.length fs.
Proof.
  revert vs vs'. induction fs as [|f fs IH]; intros [|v vs] vs' L E; try discriminate L; [injection E as <-; reflexivity|].
  cbn in E. destruct (g f v) as [x|]; [|discriminate]. destruct (each_field g fs vs) as [l|] eqn:E'; [|discriminate]. injection E as <-. cbn. f_equal. apply (IH vs); [injection L; auto|exact E'].
Qed.
Lemma each_seq g h fs vs : List.length vs = List.length fs ->
  match each_field g fs vs with Some vs' => each_field h fs vs' | None => None end = each_field (fun f v => match g f v with Some v' => h f v' | None => None end) fs vs.
Proof.
  revert vs. induction fs as [|f fs IH]; intros [|v vs] L; try discriminate L; [reflexivity|]. injection L as L. specialize (IH vs L). cbn.
  destruct (g f v) as [x|]; [|reflexivity]. cbn. destruct (each_field g fs vs) as [l|] eqn:E; cbn.
  - rewrite <- IH. reflexivity.
  - rewrite <- IH. destruct (h f x); reflexivity.
Qed.

(** ** Attributes and text *)
Lemma set_attrs_each a fs vs : List.length vs = List.length fs ->
  set_attrs a fs vs = each_field (fun f v => match f_place f with ByAttr x => feed_text (f_ty f) v (map snd (filter (fun a => same_text (local (fst a)) (txt (f_name f)) && (negb x || xml_space (fst a))) a)) | _ => Some v end) fs vs.
Proof.
  revert vs. induction a as [|[n w] a IH]; intros vs L.
  - cbn. symmetry. apply each_id; [exact L|]. intros f v _. destruct (f_place f); reflexivity.
  - set (F := fun a f v => match f_place f with ByAttr x => feed_text (f_ty f) v (map snd (filter (fun a => same_text (local (fst a)) (txt (f_name f)) && (negb x || xml_space (fst a))) a)) | _ => Some v end) in *.
    rewrite (each_ext (F ((n, w) :: a)) (fun f v => match set_attr (n, w) f v with Some v' => F a f v' | None => None end)).
    + rewrite <- (each_seq (set_attr (n, w)) (F a) fs vs L). cbn [set_attrs]. destruct (each_field (set_attr (n, w)) fs vs) as [vs'|] eqn:E; [|reflexivity].
      apply IH. exact (each_length _ _ _ _ L E).
    + intros f v _. unfold F, set_attr. destruct (f_place f) as [|x|]; try reflexivity. cbn [filter fst snd].
      destruct (same_text (local n) (txt (f_name f)) && (negb x || xml_space n)); reflexivity.
Qed.

(** ** The path of an element *)
Lemma local_dec n m : is_local n (El m [] []) = same_text (local m) (txt n).
Proof. reflexivity. Qed.
Lemma key_unique fs i j f g : no_dup (map key (filter is_elem fs)) = true -> nth_error fs i = Some f -> nth_error fs j = Some g ->
  is_elem f = true -> is_elem g = true -> key f = key g -> i = j.
Proof.
  revert i j. induction fs as [|h fs IH]; intros i j N A B Ef Eg K; [destruct i; discriminate A|].
  assert (X : forall k f', nth_error fs k = Some f' -> is_elem f' = true -> In (key f') (map key (filter is_elem fs))).
  { intros k f' H1 H2. apply in_map, filter_In. split; [exact (nth_error_In _ _ H1)|exact H2]. }
  assert (Y : forall l a, no_dup (a :: l) = true -> ~ In a l).
  { intros l a H I. cbn in H. apply andb_prop in H as [H _]. apply negb_true_iff in H. assert (existsb (String.eqb a) l = true) by (apply existsb_exists; exists a; split; [exact I|apply String.eqb_refl]). congruence. }
  destruct i as [|i], j as [|j]; cbn in A, B; [reflexivity| | |].
  - injection A as ->. cbn in N. rewrite Ef in N. exfalso. apply (Y _ _ N). rewrite K. exact (X j g B Eg).
  - injection B as ->. cbn in N. rewrite Eg in N. exfalso. apply (Y _ _ N). rewrite <- K. exact (X i f A Ef).
  - f_equal. apply (IH i j); auto. cbn in N. destruct (is_elem h); [cbn in N; apply andb_prop in N; tauto|exact N].
Qed.
Lemma each_put g fs vs i f v : List.length vs = List.length fs -> nth_error fs i = Some f -> nth_error vs i = Some v ->
  (forall j h w, j <> i -> nth_error fs j = Some h -> g h w = Some w) ->
  each_field g fs vs = option_map (fun x => put i x vs) (g f v).
Proof.
  revert vs i. induction fs as [|h fs IH]; intros [|w vs] [|i] L A B H; try discriminate; cbn in A, B; injection L as L.
  - injection A as ->. injection B as ->. cbn. rewrite (each_id g fs vs L).
    + destruct (g f v); reflexivity.
    + intros h w I. apply In_nth_error in I as (j & I). apply (H (S j)); [discriminate|exact I].
  - cbn. rewrite (H 0%nat h w) by (discriminate || reflexivity). rewrite (IH vs i L A B).
    + destruct (g f v); reflexivity.
    + intros j h' w' N I. apply (H (S j)); [congruence|exact I].
Qed.
Lemma same_local n q : same_text (txt q) n = same_text n (txt q).
Proof.
  revert n. induction (txt q) as [|c t IH]; intros [|d n]; try reflexivity. cbn. rewrite IH, N.eqb_sym. reflexivity.
Qed.
Lemma same_eq a b : same_text a b = true -> a = b.
Proof.
  revert b. induction a as [|c a IH]; intros [|d b] H; try discriminate H; [reflexivity|]. cbn in H. apply andb_prop in H as [H1 H2].
  apply N.eqb_eq in H1 as ->. f_equal. exact (IH b H2).
Qed.
Lemma txt_inj a b : txt a = txt b -> a = b.
Proof.
  unfold txt. intros H. rewrite <- (string_of_list_ascii_of_string a), <- (string_of_list_ascii_of_string b). f_equal.
  revert H. generalize (list_ascii_of_string b). induction (list_ascii_of_string a) as [|c l IH]; intros [|d l'] H; try discriminate H; [reflexivity|].
  cbn in H. injection H as H1 H2. f_equal; [|exact (IH l' H2)]. rewrite <- (ascii_N_embedding c), <- (ascii_N_embedding d), H1. reflexivity.
Qed.
Lemma same_key n p q : same_text n (txt p) = true -> same_text n (txt q) = true -> p = q.
Proof. intros A B. apply txt_inj. rewrite <- (same_eq _ _ A). apply same_eq, B. Qed.

(** at the top: the field whose key is the name *)
Lemma scan_top n fs : forall k,
  (forall f, In f fs -> (List.length (f_parents f) <= 1)%nat) ->
  match scan n [] fs k with
  | Miss => forall f, In f fs -> is_elem f = true -> same_text n (txt (key f)) = false
  | Perfect i t => exists j f, i = (k + j)%nat /\ nth_error fs j = Some f /\ f_ty f = t /\ is_elem f = true /\ f_parents f = [] /\ same_text n (txt (f_name f)) = true
  | Deeper q => exists j f, nth_error fs j = Some f /\ is_elem f = true /\ f_parents f = [q] /\ same_text n (txt q) = true
  end.
Proof.
  induction fs as [|f fs IH]; intros k S; cbn [scan]; [intros f []|].
  assert (S' : forall f, In f fs -> (List.length (f_parents f) <= 1)%nat) by (intros; apply S; right; assumption).
  specialize (IH (Datatypes.S k) S'). specialize (S f (or_introl eq_refl)).
  assert (Next : (is_elem f = true -> same_text n (txt (key f)) = false) -> match scan n [] fs (Datatypes.S k) with
  | Miss => forall h, In h (f :: fs) -> is_elem h = true -> same_text n (txt (key h)) = false
  | Perfect i t => exists j h, i = (k + j)%nat /\ nth_error (f :: fs) j = Some h /\ f_ty h = t /\ is_elem h = true /\ f_parents h = [] /\ same_text n (txt (f_name h)) = true
  | Deeper q => exists j h, nth_error (f :: fs) j = Some h /\ is_elem h = true /\ f_parents h = [q] /\ same_text n (txt q) = true
  end).
  { intros X. destruct (scan n [] fs (Datatypes.S k)) as [|i t|q].
    - intros h [->|I]; [exact X|exact (IH h I)].
    - destruct IH as (j & h & -> & R). exists (Datatypes.S j), h. split; [lia|exact R].
    - destruct IH as (j & h & R). exists (Datatypes.S j), h. exact R. }
  unfold is_elem in *. destruct (f_place f) eqn:Pf; [|apply Next; discriminate|apply Next; discriminate].
  cbn [is_prefix]. unfold key in Next. destruct (f_parents f) as [|p ps] eqn:Ps; cbn [List.length Nat.eqb andb nth_error].
  - rewrite same_local. destruct (same_text n (txt (f_name f))) eqn:B; [|apply Next; intros _; first [exact B|reflexivity]].
    exists 0%nat, f. rewrite Pf. repeat split; auto.
  - destruct ps as [|? ?]; [|cbn in S; lia]. rewrite same_local. destruct (same_text n (txt p)) eqn:B; [|apply Next; intros _; first [exact B|reflexivity]].
    exists 0%nat, f. rewrite Pf. repeat split; auto.
Qed.
(** below a parent: the field with that parent and name *)
Lemma scan_below n q fs i f : (forall f, In f fs -> (List.length (f_parents f) <= 1)%nat) ->
  no_dup (map key (filter is_elem fs)) = true -> nth_error fs i = Some f -> is_elem f = true -> f_parents f = [q] ->
  scan n [q] fs 0 = if same_text n (txt (f_name f)) then Perfect i (f_ty f) else Miss.
Proof.
  intros S N A Ef Pf.
  assert (G : forall l k, (forall j h, nth_error l j = Some h -> is_elem h = true -> is_prefix [q] (f_parents h) = true -> (k + j)%nat = i /\ h = f) ->
    (forall f, In f l -> (List.length (f_parents f) <= 1)%nat) ->
    scan n [q] l k = if (k <=? i)%nat && (i <? k + List.length l)%nat && same_text n (txt (f_name f)) && match nth_error l (i - k) with Some h => is_elem h && is_prefix [q] (f_parents h) | None => false end then Perfect i (f_ty f) else Miss).
  { induction l as [|h l IH]; intros k U Sl.
    - cbn [scan]. destruct (nth_error [] (i - k)) as [h|] eqn:X; [destruct (i - k)%nat; discriminate X|]. rewrite andb_false_r. reflexivity.
    - assert (IH' := IH (Datatypes.S k) ltac:(intros j h' B1 B2 B3; destruct (U (Datatypes.S j) h' B1 B2 B3); split; [lia|assumption]) ltac:(intros; apply Sl; right; assumption)).
      assert (Next : is_elem h && is_prefix [q] (f_parents h) = false -> scan n [q] l (Datatypes.S k) = if (k <=? i)%nat && (i <? k + List.length (h :: l))%nat && same_text n (txt (f_name f)) && match nth_error (h :: l) (i - k) with Some h => is_elem h && is_prefix [q] (f_parents h) | None => false end then Perfect i (f_ty f) else Miss).
      { intros X. rewrite IH'. destruct (Nat.eq_dec i k) as [->|Nk].
        - rewrite Nat.sub_diag. cbn [nth_error]. rewrite X, andb_false_r. replace (Datatypes.S k <=? k)%nat with false by (symmetry; apply Nat.leb_gt; lia). reflexivity.
        - destruct (Nat.leb_spec k i) as [L|L].
          + replace (Datatypes.S k <=? i)%nat with true by (symmetry; apply Nat.leb_le; lia). replace (i - k)%nat with (Datatypes.S (i - Datatypes.S k)) by lia. cbn [nth_error List.length].
            replace (k + Datatypes.S (List.length l))%nat with (Datatypes.S k + List.length l)%nat by lia. reflexivity.
          + replace (Datatypes.S k <=? i)%nat with false by (symmetry; apply Nat.leb_gt; lia). reflexivity. }
      cbn [scan]. unfold is_elem in *. specialize (U 0%nat h eq_refl). destruct (f_place h) eqn:Ph; [|apply Next; reflexivity|apply Next; reflexivity].
      destruct (is_prefix [q] (f_parents h)) eqn:Ip; [|apply Next; reflexivity].
      destruct (U eq_refl eq_refl) as [Ei ->]. rewrite Pf in *. cbn [List.length Nat.eqb andb]. rewrite same_local. rewrite Nat.add_0_r in Ei. subst k.
      rewrite Nat.sub_diag. cbn [nth_error]. rewrite Ph, Pf, Ip. rewrite Nat.leb_refl. replace (i <? i + Datatypes.S (List.length l))%nat with true by (symmetry; apply Nat.ltb_lt; lia).
      cbn [andb]. rewrite andb_true_r. destruct (same_text n (txt (f_name f))) eqn:B; [reflexivity|]. rewrite IH'.
      replace (Datatypes.S i <=? i)%nat with false by (symmetry; apply Nat.leb_gt; lia). reflexivity. }
  rewrite (G fs 0%nat); [|intros j h B1 B2 B3|exact S].
  - rewrite Nat.sub_0_r, A, Ef, Pf. cbn [is_prefix]. rewrite String.eqb_refl. cbn [andb]. replace (i <? 0 + List.length fs)%nat with true.
    + rewrite andb_true_r. cbn. reflexivity.
    + symmetry. apply Nat.ltb_lt. apply nth_error_Some. cbn. congruence.
  - assert (j = i).
    { apply (key_unique fs j i h f N B1 A B2 Ef). unfold key. rewrite Pf. cbn in B3. destruct (f_parents h) as [|p ps]; [discriminate B3|].
      apply andb_prop in B3 as [B3 _]. apply String.eqb_eq in B3. congruence. }
    subst j. split; [reflexivity|congruence].
Qed.

(** ** An element handed to the fields *)
Lemma put_same i v vs : nth_error vs i = Some v -> put i v vs = vs.
Proof. revert i. induction vs as [|w vs IH]; intros [|i] H; try discriminate; cbn in *; [injection H as ->; reflexivity|f_equal; auto]. Qed.
Lemma put_put i x y vs : put i y (put i x vs) = put i y vs.
Proof. revert i. induction vs as [|w vs IH]; intros [|i]; cbn; auto. f_equal. apply IH. Qed.
Lemma put_nth i x vs v : nth_error vs i = Some v -> nth_error (put i x vs) i = Some x.
Proof. revert i. induction vs as [|w vs IH]; intros [|i] H; try discriminate; cbn in *; auto. Qed.
Lemma put_length i x vs : List.length (put i x vs) = List.length vs.
Proof. revert i. induction vs as [|w vs IH]; intros [|i]; cbn; auto. Qed.
(** the elements for a field among the children [b] of its struct *)
Definition among (f : field) (b : list item) : list item :=
  match f_parents f with [] => filter (is_local (f_name f)) b | p :: _ => kids (f_name f) (filter (is_local p) b) end.
Lemma among_app f a b : among f (a ++ b) = among f a ++ among f b.
Proof. unfold among. destruct (f_parents f); rewrite filter_app; [reflexivity|apply kids_app]. Qed.
Lemma among_below f i : (List.length (f_parents f) <= 1)%nat -> below (f_parents f) (f_name f) [i] = among f (body i).
Proof.
  unfold among. destruct (f_parents f) as [|p [|? ?]]; cbn [List.length below]; [| |lia]; intros _; unfold kids; cbn [flat_map]; rewrite app_nil_r; reflexivity.
Qed.
Lemma feed_one t v i : feed t v [i] = unmarshal t v i.
Proof. cbn. destruct (unmarshal t v i); reflexivity. Qed.

Section Path.
Variable fs : list field.
Hypothesis Short : forall f, In f fs -> (List.length (f_parents f) <= 1)%nat.
Hypothesis Uniq : no_dup (map key (filter is_elem fs)) = true.
Lemma offers_below q j f : nth_error fs j = Some f -> is_elem f = true -> f_parents f = [q] -> forall l vs v, nth_error vs j = Some v ->
  offers fs [q] (map visit l) vs = option_map (fun x => put j x vs) (feed (f_ty f) v (filter (is_local (f_name f)) l)).
Proof.
  intros A Ef Pf. induction l as [|c l IH]; intros vs v B; cbn [map offers filter feed option_map].
  - rewrite (put_same _ _ _ B). reflexivity.
  - destruct c as [c|n a b]; [cbn [visit offer is_local]; apply IH, B|]. cbn [visit offer v_path is_local]. unfold path.
    rewrite (scan_below (local n) q fs j f Short Uniq A Ef Pf). destruct (same_text (local n) (txt (f_name f))) eqn:S.
    + rewrite B. cbn [feed]. unfold unmarshal. cbn [visit v_into]. destruct (into a (text_of b) (map visit b) (f_ty f) v) as [x|] eqn:X; cbn [option_map]; [|reflexivity].
      rewrite (IH (put j x vs) x (put_nth _ _ _ _ B)). unfold option_map. destruct (feed (f_ty f) x _); [|reflexivity]. rewrite put_put. reflexivity.
    + apply IH, B.
Qed.
Definition child_result (b : list item) (f : field) (v : val) : option val := if is_elem f then feed (f_ty f) v (among f b) else Some v.
Lemma offer_top c vs : List.length vs = List.length fs -> offer fs [] (visit c) vs = each_field (child_result [c]) fs vs.
Proof.
  intros L. destruct c as [c|n a b].
  { cbn. symmetry. apply each_id; [exact L|]. intros f v _. unfold child_result, among. destruct (is_elem f), (f_parents f); reflexivity. }
  assert (Other : forall f v, same_text (local n) (txt (key f)) = false -> child_result [El n a b] f v = Some v).
  { intros f v H. unfold child_result, among, key in *. destruct (is_elem f); [|reflexivity]. destruct (f_parents f) as [|p ps]; cbn [filter is_local]; rewrite H; reflexivity. }
  cbn [visit offer v_path]. unfold path. pose proof (scan_top (local n) fs 0 Short) as S. destruct (scan (local n) [] fs 0) as [|i t|q].
  - symmetry. apply each_id; [exact L|]. intros f v I. destruct (is_elem f) eqn:Ef; [apply Other, S; assumption|unfold child_result; rewrite Ef; reflexivity].
  - destruct S as (j & f & -> & A & <- & Ef & Pf & Sn). cbn [Nat.add].
    destruct (nth_error vs j) as [v|] eqn:B; [|exfalso; apply nth_error_None in B; rewrite L in B; assert (nth_error fs j <> None) by congruence; apply nth_error_Some in H; lia].
    rewrite (each_put (child_result [El n a b]) fs vs j f v L A B).
    + unfold child_result, among. rewrite Ef, Pf. cbn [filter is_local]. rewrite Sn. rewrite feed_one. unfold unmarshal. cbn [visit v_into].
      destruct (into a (text_of b) (map visit b) (f_ty f) v); reflexivity.
    + intros k h w N Ah. destruct (is_elem h) eqn:Eh; [|unfold child_result; rewrite Eh; reflexivity]. apply Other.
      destruct (same_text (local n) (txt (key h))) eqn:Sh; [|reflexivity]. exfalso. apply N. apply (key_unique fs k j h f Uniq Ah A Eh Ef).
      apply (same_key _ _ _ Sh). unfold key. rewrite Pf. exact Sn.
  - destruct S as (j & f & A & Ef & Pf & Sn). cbn [app].
    destruct (nth_error vs j) as [v|] eqn:B; [|exfalso; apply nth_error_None in B; rewrite L in B; assert (nth_error fs j <> None) by congruence; apply nth_error_Some in H; lia].
    rewrite (offers_below q j f A Ef Pf b vs v B). rewrite (each_put (child_result [El n a b]) fs vs j f v L A B).
    + unfold child_result, among. rewrite Ef, Pf. cbn [filter is_local]. rewrite Sn. unfold kids. cbn [flat_map body]. rewrite app_nil_r.
      destruct (feed (f_ty f) v (filter (is_local (f_name f)) b)); reflexivity.
    + intros k h w N Ah. destruct (is_elem h) eqn:Eh; [|unfold child_result; rewrite Eh; reflexivity]. apply Other.
      destruct (same_text (local n) (txt (key h))) eqn:Sh; [|reflexivity]. exfalso. apply N. apply (key_unique fs k j h f Uniq Ah A Eh Ef).
      apply (same_key _ _ _ Sh). unfold key. rewrite Pf. exact Sn.
Qed.
Lemma offers_top b : forall vs, List.length vs = List.length fs -> offers fs [] (map visit b) vs = each_field (child_result b) fs vs.
Proof.
  induction b as [|c b IH]; intros vs L; cbn [map offers].
  - symmetry. apply each_id; [exact L|]. intros f v _. unfold child_result, among. destruct (is_elem f), (f_parents f); reflexivity.
  - rewrite (offer_top c vs L). rewrite (each_ext (child_result (c :: b)) (fun f v => match child_result [c] f v with Some v' => child_result b f v' | None => None end)).
    + rewrite <- (each_seq (child_result [c]) (child_result b) fs vs L). destruct (each_field (child_result [c]) fs vs) as [vs'|] eqn:E; [|reflexivity].
      apply IH. exact (each_length _ _ _ _ L E).
    + intros f v _. change (c :: b) with ([c] ++ b). unfold child_result. rewrite among_app. destruct (is_elem f); [apply feed_app|reflexivity].
Qed.
End Path.

Lemma good_short fs : good_fields fs = true -> forall f, In f fs -> (List.length (f_parents f) <= 1)%nat.
Proof. intros G f I. apply andb_prop in G as [G _]. rewrite forallb_forall in G. apply Nat.leb_le, G, I. Qed.
Lemma good_uniq fs : good_fields fs = true -> no_dup (map key (filter is_elem fs)) = true.
Proof. intros G. apply andb_prop in G as [_ G]. exact G. Qed.

(** one element into a struct: each field by itself *)
Theorem unmarshal_struct fs vs i : good_fields fs = true -> List.length vs = List.length fs -> elem i ->
  unmarshal (TStruct fs) (VStruct vs) i = option_map VStruct (each_field (field_result [i]) fs vs).
Proof.
  intros G L K. destruct i as [c|n a b]; [destruct K|]. unfold unmarshal. cbn [visit v_into into].
  rewrite (set_attrs_each a fs vs L).
  set (A := fun (f : field) (v : val) => match f_place f with ByAttr x => feed_text (f_ty f) v (map snd (filter (fun a => same_text (local (fst a)) (txt (f_name f)) && (negb x || xml_space (fst a))) a)) | _ => Some v end).
  transitivity (option_map VStruct (match match each_field A fs vs with Some vs1 => each_field (child_result b) fs vs1 | None => None end with Some vs2 => each_field (set_text (text_of b)) fs vs2 | None => None end)).
  { destruct (each_field A fs vs) as [vs1|] eqn:E; [|reflexivity].
    rewrite (offers_top fs (good_short fs G) (good_uniq fs G) b vs1 (each_length _ _ _ _ L E)). destruct (each_field (child_result b) fs vs1); reflexivity. }
  f_equal. rewrite each_seq by exact L. rewrite each_seq by exact L. apply each_ext. intros f v I. unfold A, child_result, set_text, field_result, is_elem.
  destruct (f_place f) as [|x|].
  - rewrite (among_below f _ (good_short fs G f I)). cbn [body]. destruct (feed (f_ty f) v (among f b)); reflexivity.
  - unfold attr_values. cbn [flat_map attrs_of]. rewrite app_nil_r. destruct (feed_text (f_ty f) v _); reflexivity.
  - cbn [map body feed_text]. destruct (of_text (f_ty f) (text_of b)); reflexivity.
Qed.
(** several elements, one after the other *)
Theorem feed_struct fs : good_fields fs = true -> forall l vs, List.length vs = List.length fs -> Forall elem l ->
  feed (TStruct fs) (VStruct vs) l = option_map VStruct (each_field (field_result l) fs vs).
Proof.
  intros G. induction l as [|i l IH]; intros vs L F.
  - cbn [feed]. rewrite each_id; [reflexivity|exact L|]. intros f v _. unfold field_result. destruct (f_place f); [|reflexivity|reflexivity].
    replace (below (f_parents f) (f_name f) []) with (@nil item); [reflexivity|]. induction (f_parents f) as [|p ps IHp]; [reflexivity|exact IHp].
  - inversion F as [|? ? Ki F']; subst. cbn [feed]. rewrite (unmarshal_struct fs vs i G L Ki).
    rewrite (each_ext (field_result (i :: l)) (fun f v => match field_result [i] f v with Some v' => field_result l f v' | None => None end)).
    + rewrite <- (each_seq (field_result [i]) (field_result l) fs vs L). destruct (each_field (field_result [i]) fs vs) as [vs'|] eqn:E; [|reflexivity].
      cbn [option_map]. apply IH; [exact (each_length _ _ _ _ L E)|exact F'].
    + intros f v _. apply (field_result_app [i] l).
Qed.
(** strings: the last; slices: one after the other; pointers: nil without elements *)
Lemma feed_slice t l : forall o, feed (TSlice t) (VList o) l = option_map (fun x => VList (o ++ x))
  ((fix go l := match l with [] => Some [] | i :: l' => match unmarshal t (zero t) i with Some v => option_map (cons v) (go l') | None => None end end) l).
Proof.
  induction l as [|i l IH]; intros o; cbn [feed option_map]; [rewrite app_nil_r; reflexivity|].
  assert (X : unmarshal (TSlice t) (VList o) i = option_map (fun x => VList (o ++ [x])) (unmarshal t (zero t) i)).
  { unfold unmarshal. destruct (visit i) as [w|] eqn:V; [|reflexivity]. destruct i as [c|n a b]; [discriminate V|]. cbn in V. injection V as <-. reflexivity. }
  rewrite X. destruct (unmarshal t (zero t) i) as [v|]; [|reflexivity]. cbn [option_map]. rewrite IH.
  destruct ((fix go l := match l with [] => Some [] | i :: l' => match unmarshal t (zero t) i with Some v => option_map (cons v) (go l') | None => None end end) l); cbn [option_map]; [|reflexivity].
  rewrite <- app_assoc. reflexivity.
Qed.
Lemma unmarshal_ptr t o i : unmarshal (TPtr t) (VPtr o) i = option_map (fun x => VPtr (Some x)) (unmarshal t (match o with Some x => x | None => zero t end) i).
Proof. unfold unmarshal. destruct i as [c|n a b]; [reflexivity|]. cbn [visit v_into into]. destruct o; reflexivity. Qed.
Lemma feed_ptr_some t x l : feed (TPtr t) (VPtr (Some x)) l = option_map (fun x => VPtr (Some x)) (feed t x l).
Proof. revert x. induction l as [|i l IH]; intros x; [reflexivity|]. cbn [feed]. rewrite unmarshal_ptr. destruct (unmarshal t x i); cbn [option_map]; [apply IH|reflexivity]. Qed.
Lemma feed_ptr t l : feed (TPtr t) (VPtr None) l = match l with [] => Some (VPtr None) | _ => option_map (fun x => VPtr (Some x)) (feed t (zero t) l) end.
Proof. destruct l as [|i l]; [reflexivity|]. cbn [feed]. rewrite unmarshal_ptr. destruct (unmarshal t (zero t) i); cbn [option_map]; [apply feed_ptr_some|reflexivity]. Qed.
Lemma below_elem ps n l : Forall elem (below ps n l).
Proof.
  revert l. induction ps as [|p ps IH]; intros l; cbn [below]; [|apply IH]. apply Forall_flat_map, Forall_forall. intros i _. apply Forall_forall. intros x I.
  apply filter_In in I as [_ I]. destruct x; [discriminate I|exact Logic.I].
Qed.

(** ** When decoding succeeds: every text in the place of a number is one *)
Definition is_int (t : text) : bool := match of_text TInt t with Some _ => true | None => false end.
Fixpoint good_ty (t : ty) : bool :=
  match t with
  | TStr | TInt => true
  | TSlice t' => good_ty t' | TPtr t' => good_ty t'
  | TStruct fs => good_fields fs && forallb (fun f => match snd (fst f) with ByElem => good_ty (snd f) | _ => match snd f with TStr | TInt => true | _ => false end end) fs
  end.
Fixpoint ints (t : ty) (l : list item) : list text :=
  match t with
  | TStr => [] | TInt => map (fun i => text_of (body i)) l
  | TSlice t' => flat_map (fun i => ints t' [i]) l | TPtr t' => ints t' l
  | TStruct fs => flat_map (fun f => match snd (fst f) with
      | ByElem => ints (snd f) (below (fst (fst (fst f))) (snd (fst (fst f))) l)
      | ByAttr x => match snd f with TInt => attr_values x (snd (fst (fst f))) l | _ => [] end
      | ByText => match snd f with TInt => map (fun i => text_of (body i)) l | _ => [] end end) fs
  end.
Section Ind.
Variable P : ty -> Prop.
Hypothesis HS : P TStr.
Hypothesis HI : P TInt.
Hypothesis HL : forall t, P t -> P (TSlice t).
Hypothesis HP : forall t, P t -> P (TPtr t).
Hypothesis HT : forall fs, Forall (fun f : field => P (snd f)) fs -> P (TStruct fs).
Fixpoint ty_induct (t : ty) : P t :=
  match t with
  | TStr => HS | TInt => HI | TSlice t' => HL t' (ty_induct t') | TPtr t' => HP t' (ty_induct t')
  | TStruct fs => HT fs ((fix go l : Forall (fun f : field => P (snd f)) l := match l with [] => Forall_nil _ | f :: l' => Forall_cons f (ty_induct (snd f)) (go l') end) fs)
  end.
End Ind.
(** values of a type *)
Fixpoint has_ty (t : ty) (v : val) : bool :=
  match t, v with
  | TStr, VStr _ => true | TInt, VInt _ => true | TSlice _, VList _ => true
  | TPtr t', VPtr None => true | TPtr t', VPtr (Some x) => has_ty t' x
  | TStruct fs, VStruct vs => (fix go fs vs := match fs, vs with [], [] => true | f :: fs', v :: vs' => has_ty (snd f) v && go fs' vs' | _, _ => false end) fs vs
  | _, _ => false
  end.
Fixpoint have_tys (fs : list field) (vs : list val) : bool :=
  match fs, vs with [], [] => true | f :: fs', v :: vs' => has_ty (snd f) v && have_tys fs' vs' | _, _ => false end.
Lemma has_struct fs vs : has_ty (TStruct fs) (VStruct vs) = have_tys fs vs.
Proof. reflexivity. Qed.
Lemma zero_has t : has_ty t (zero t) = true.
Proof.
  induction t as [| |t _|t _|fs F] using ty_induct; try reflexivity. cbn [zero]. rewrite has_struct. induction F as [|f fs H F IH]; [reflexivity|]. cbn. rewrite H. exact IH.
Qed.
Lemma have_length fs vs : have_tys fs vs = true -> List.length vs = List.length fs.
Proof. revert vs. induction fs as [|f fs IH]; intros [|v vs] H; try discriminate H; [reflexivity|]. cbn in *. apply andb_prop in H as [_ H]. f_equal. apply IH, H. Qed.

(** [o] has a result of the type exactly if all of [l] are numbers *)
Definition result_if (t : ty) (o : option val) (l : list text) : Prop :=
  match o with Some v => has_ty t v = true /\ forallb is_int l = true | None => forallb is_int l = false end.
Lemma text_result t v l : (match t with TStr | TInt => true | _ => false end) = true -> has_ty t v = true ->
  result_if t (feed_text t v l) (match t with TInt => l | _ => [] end).
Proof.
  intros S. revert v. induction l as [|w l IH]; intros v H; cbn [feed_text].
  - destruct t; try discriminate S; cbn; auto.
  - destruct t; try discriminate S.
    + cbn [of_text]. apply (IH (VStr w)). reflexivity.
    + destruct (of_text TInt w) as [x|] eqn:O; cbn [result_if forallb].
      * assert (X : has_ty TInt x = true). { destruct w as [|c w]; cbn [of_text] in O; [injection O as <-; reflexivity|]. destruct (parse_int (trim (c :: w))); [|discriminate]. injection O as <-. reflexivity. }
        specialize (IH x X). destruct (feed_text TInt x l) as [y|]; cbn [result_if forallb] in *; unfold is_int in *; rewrite O; exact IH.
      * unfold result_if. cbn [forallb]. unfold is_int at 1. rewrite O. reflexivity.
Qed.
Theorem feed_result t : good_ty t = true -> forall l v, Forall elem l -> has_ty t v = true -> result_if t (feed t v l) (ints t l).
Proof.
  induction t as [| |t IH|t IH|fs IH] using ty_induct; intros G l v F H.
  - replace (feed TStr v l) with (feed_text TStr v (map (fun i => text_of (body i)) l)); [apply (text_result TStr); [reflexivity|exact H]|].
    clear H. revert v. induction F as [|i l K F IH]; intros v; [reflexivity|]. cbn [map feed_text feed]. destruct i as [c|n a b]; [destruct K|]. unfold unmarshal. cbn [visit v_into into body].
    destruct (of_text TStr (text_of b)); [apply IH|reflexivity].
  - replace (feed TInt v l) with (feed_text TInt v (map (fun i => text_of (body i)) l)); [apply (text_result TInt); [reflexivity|exact H]|].
    clear H. revert v. induction F as [|i l K F IH]; intros v; [reflexivity|]. cbn [map feed_text feed]. destruct i as [c|n a b]; [destruct K|]. unfold unmarshal. cbn [visit v_into into body].
    destruct (of_text TInt (text_of b)); [apply IH|reflexivity].
  - destruct v as [| |o| |]; try discriminate H. rewrite feed_slice. cbn [ints].
    assert (X : match (fix go l := match l with [] => Some [] | i :: l' => match unmarshal t (zero t) i with Some v => option_map (cons v) (go l') | None => None end end) l with
                | Some _ => forallb is_int (flat_map (fun i => ints t [i]) l) = true | None => forallb is_int (flat_map (fun i => ints t [i]) l) = false end).
    { induction F as [|i l K F IHl]; [reflexivity|]. cbn [flat_map]. rewrite forallb_app. specialize (IH G [i] (zero t) ltac:(constructor; [exact K|constructor]) (zero_has t)).
      rewrite feed_one in IH. destruct (unmarshal t (zero t) i) as [x|]; cbn [result_if] in IH.
      - destruct IH as [_ ->]. match goal with |- context [option_map _ ?o] => destruct o end; exact IHl.
      - rewrite IH. reflexivity. }
    match goal with |- context [option_map _ ?o] => destruct o end; cbn [option_map result_if]; [split; [reflexivity|exact X]|exact X].
  - destruct v as [| | |[x|]|]; try discriminate H; cbn [ints].
    + rewrite feed_ptr_some. specialize (IH G l x F H). destruct (feed t x l); exact IH.
    + rewrite feed_ptr. specialize (IH G l (zero t) F (zero_has t)). destruct l as [|i l].
      * cbn [feed result_if] in *. split; [reflexivity|tauto].
      * destruct (feed t (zero t) (i :: l)); exact IH.
  - destruct v as [| | | |vs]; try discriminate H. rewrite has_struct in H. cbn [good_ty] in G. apply andb_prop in G as [G1 G2]. rewrite (feed_struct fs G1 l vs (have_length _ _ H) F).
    cbn [ints]. clear G1.
    assert (X : match each_field (field_result l) fs vs with Some vs' => have_tys fs vs' = true /\ forallb is_int (ints (TStruct fs) l) = true | None => forallb is_int (ints (TStruct fs) l) = false end).
    { revert vs H. induction IH as [|f fs Hf IHf IHl]; intros [|v vs] H; try discriminate H; [split; reflexivity|]. cbn [have_tys] in H. apply andb_prop in H as [H1 H2].
      cbn [forallb] in G2. apply andb_prop in G2 as [G G2]. specialize (IHl G2 vs H2). cbn [each_field ints flat_map]. cbn [ints] in IHl. rewrite forallb_app.
      assert (Q : result_if (snd f) (field_result l f v) (match snd (fst f) with
        | ByElem => ints (snd f) (below (fst (fst (fst f))) (snd (fst (fst f))) l)
        | ByAttr x => match snd f with TInt => attr_values x (snd (fst (fst f))) l | _ => [] end
        | ByText => match snd f with TInt => map (fun i => text_of (body i)) l | _ => [] end end)).
      { unfold field_result, f_place, f_ty, f_parents, f_name. destruct (snd (fst f)) as [|x|].
        - apply Hf; [exact G|apply below_elem|exact H1].
        - apply text_result; assumption.
        - pose proof (text_result (snd f) v (map (fun i => text_of (body i)) l) G H1) as R. exact R. }
      destruct (field_result l f v) as [y|]; cbn [result_if] in Q.
      - destruct Q as [Q1 Q2]. rewrite Q2. cbn [andb]. destruct (each_field (field_result l) fs vs) as [vs'|]; cbn [option_map]; [|exact IHl]. destruct IHl as [I1 I2]. split; [cbn [have_tys]; rewrite Q1, I1; reflexivity|exact I2].
      - rewrite Q. reflexivity. }
    cbn [ints] in X. destruct (each_field (field_result l) fs vs) as [vs'|]; cbn [option_map result_if]; [|exact X]. rewrite has_struct. exact X.
Qed.
(** types without numbers *)
Fixpoint no_int (t : ty) : bool :=
  match t with TStr => true | TInt => false | TSlice t' | TPtr t' => no_int t' | TStruct fs => forallb (fun f => no_int (snd f)) fs end.
Lemma no_ints t : no_int t = true -> forall l, ints t l = [].
Proof.
  induction t as [| |t IH|t IH|fs IH] using ty_induct; intros N l; cbn [ints]; try reflexivity; try discriminate N.
  - induction l as [|i l IHl]; [reflexivity|]. cbn [flat_map]. rewrite IHl, (IH N). reflexivity.
  - exact (IH N l).
  - cbn [no_int] in N. induction IH as [|f fs H IH IHf]; [reflexivity|]. cbn [flat_map forallb] in *. apply andb_prop in N as [N1 N2]. rewrite (IHf N2), app_nil_r.
    destruct (snd (fst f)); [apply H, N1| |]; destruct (snd f); try reflexivity; discriminate N1.
Qed.
