(** * PropsUnxml: metadata.xml is read as it is written (C107) *)
From Coq Require Import List NArith ZArith Bool String Ascii Lia.
From Verif Require Import Escape Xml Unxml UnxmlFacts UnxmlSpec.
From Verif Require XmlSpec.
Import ListNotations.
Open Scope N_scope. Open Scope list_scope.
Import XmlSpec(item, Ch, El, text_in).

(** ** The questions of the specification and those of UnxmlFacts *)
Lemma inner_kids n l : inner n l = kids n l.
Proof. unfold inner, kids. apply flat_map_ext. intros [c|m a b]; reflexivity. Qed.
Lemma values_attr x n l : values x n l = attr_values x n l.
Proof. unfold values, attr_values. apply flat_map_ext. intros [c|m a b]; reflexivity. Qed.
Lemma text_body i : elem i -> text_of (body i) = text_in i.
Proof. destruct i as [c|n a b]; [intros []|reflexivity]. Qed.
Lemma kids_elem n l : Forall elem (kids n l).
Proof. exact (below_elem [] n l). Qed.
Lemma elem_body l : Forall elem l -> map (fun i => text_of (body i)) l = map text_in l.
Proof. intros F. apply map_ext_in. intros i I. rewrite Forall_forall in F. apply text_body, F, I. Qed.

(** ** Scalars *)
Lemma last_cons {A} (d x : A) l : last (x :: l) d = last l x.
Proof. revert d x. induction l as [|y l IH]; intros d x; [reflexivity|]. change (last (x :: y :: l) d) with (last (y :: l) d). rewrite (IH d y), (IH x y). reflexivity. Qed.
Lemma feed_text_str l : forall d, feed_text TStr (VStr d) l = Some (VStr (newest d l)).
Proof. unfold newest. induction l as [|w l IH]; intros d; [reflexivity|]. cbn [feed_text of_text]. rewrite IH, last_cons. reflexivity. Qed.
Lemma int_text w z : of_text TInt w = Some (VInt z) <-> int_of w z.
Proof.
  unfold int_of. destruct w as [|c w]; cbn [of_text].
  - split; [intros H; injection H as <-; left; auto|]. intros [[_ ->]|H]; [reflexivity|discriminate H].
  - split.
    + intros H. right. destruct (parse_int (trim (c :: w))) as [y|]; [|discriminate H]. injection H as ->. reflexivity.
    + intros [[H _]|H]; [discriminate H|]. rewrite H. reflexivity.
Qed.
Lemma int_shape w v : of_text TInt w = Some v -> exists z, v = VInt z.
Proof. destruct w as [|c w]; cbn [of_text]; [intros H; injection H as <-; eexists; reflexivity|]. destruct (parse_int (trim (c :: w))); [|discriminate]. intros H. injection H as <-. eexists; reflexivity. Qed.
Lemma feed_text_int l : forall z0 v, feed_text TInt (VInt z0) l = Some v -> exists z, v = VInt z /\ Forall (fun w => exists y, int_of w y) l /\ match rev l with [] => z = z0 | w :: _ => int_of w z end.
Proof.
  induction l as [|w l IH]; intros z0 v H; cbn [feed_text] in H.
  - injection H as <-. exists z0. split; [reflexivity|]. split; [constructor|reflexivity].
  - destruct (of_text TInt w) as [x|] eqn:O; [|discriminate]. destruct (int_shape _ _ O) as (y & ->). destruct (IH y v H) as (z & -> & F & L).
    exists z. split; [reflexivity|]. apply int_text in O. split; [constructor; [exists y; exact O|exact F]|]. cbn [rev]. destruct (rev l) as [|u r]; cbn [app]; [subst z; exact O|exact L].
Qed.
Lemma feed_scalar t v l : t = TStr \/ t = TInt -> Forall elem l -> feed t v l = feed_text t v (map text_in l).
Proof.
  intros S. revert v. induction l as [|i l IH]; intros v F; [reflexivity|]. inversion F as [|? ? K F']; subst. cbn [feed map feed_text].
  assert (X : unmarshal t v i = of_text t (text_in i)).
  { destruct i as [c|n a b]; [destruct K|]. destruct S as [->| ->]; reflexivity. }
  rewrite X. destruct (of_text t (text_in i)); [apply IH, F'|reflexivity].
Qed.

(** ** Fields *)
Lemma each_inv g f fs v vs r : each_field g (f :: fs) (v :: vs) = Some r -> exists x r', r = x :: r' /\ g f v = Some x /\ each_field g fs vs = Some r'.
Proof. cbn. destruct (g f v) as [x|]; [|discriminate]. destruct (each_field g fs vs) as [l|]; [|discriminate]. intros H. injection H as <-. exists x, l. auto. Qed.
Lemma each_nil g r : each_field g [] [] = Some r -> r = [].
Proof. cbn. intros H. injection H as <-. reflexivity. Qed.
Lemma r_text l v : Forall elem l -> field_result l ft (VStr []) = Some v -> v = VStr (newest [] (map text_in l)).
Proof. intros F. unfold field_result, ft, f_place, f_ty. cbn [fst snd]. rewrite (elem_body l F), feed_text_str. intros H. injection H as <-. reflexivity. Qed.
Lemma r_str n l v : field_result l (fe n TStr) (VStr []) = Some v -> v = VStr (text_below n l).
Proof.
  unfold field_result, fe, f_place, f_ty, f_parents, f_name. cbn [fst snd below]. rewrite feed_scalar by (auto; apply kids_elem). rewrite feed_text_str.
  intros H. injection H as <-. unfold text_below. rewrite inner_kids. reflexivity.
Qed.
Lemma r_int n l v : field_result l (fe n TInt) (VInt 0) = Some v -> exists z, v = VInt z /\ int_below n l z.
Proof.
  unfold field_result, fe, f_place, f_ty, f_parents, f_name. cbn [fst snd below]. rewrite feed_scalar by (auto; apply kids_elem). intros H.
  apply feed_text_int in H as (z & -> & A & B). exists z. split; [reflexivity|]. unfold int_below. rewrite inner_kids. split; assumption.
Qed.
Lemma r_astr n x l v : field_result l ([], n, ByAttr x, TStr) (VStr []) = Some v -> v = VStr (value x n l).
Proof.
  unfold field_result, f_place, f_ty, f_name. cbn [fst snd]. rewrite feed_text_str. intros H. injection H as <-. unfold value. rewrite values_attr. reflexivity.
Qed.
Lemma r_aint n l v : field_result l (fa n TInt) (VInt 0) = Some v -> exists z, v = VInt z /\ int_value n l z.
Proof.
  unfold field_result, fa, f_place, f_ty, f_name. cbn [fst snd]. intros H. apply feed_text_int in H as (z & -> & A & B). exists z. split; [reflexivity|].
  unfold int_value. rewrite values_attr. split; assumption.
Qed.
(** lists: one value for each element *)
Section Lists.
Context {A : Type}.
Variable t : ty.
Variable dec : val -> A.
Variable S : item -> A -> Prop.
Hypothesis Sound : forall i v, elem i -> unmarshal t (zero t) i = Some v -> S i (dec v).
Lemma slice_sound l v : Forall elem l -> feed (TSlice t) (VList []) l = Some v -> Forall2 S l (as_list dec v).
Proof.
  intros F H. rewrite feed_slice in H.
  destruct ((fix go l := match l with [] => Some [] | i :: l' => match unmarshal t (zero t) i with Some v => option_map (cons v) (go l') | None => None end end) l) as [xs|] eqn:G; [|discriminate].
  cbn [option_map app] in H. injection H as <-. cbn [as_list]. revert xs G. induction F as [|i l K F IH]; intros xs G.
  - injection G as <-. constructor.
  - destruct (unmarshal t (zero t) i) as [x|] eqn:U; [|discriminate].
    match type of G with option_map _ ?o = _ => destruct o as [ys|] eqn:G'; [|discriminate] end. cbn [option_map] in G. injection G as <-. cbn [map]. constructor; [apply Sound; assumption|apply IH; reflexivity].
Qed.
Lemma ptr_slice_sound l v : Forall elem l -> feed (TPtr (TSlice t)) (VPtr None) l = Some v -> some_if S l (as_ptr (as_list dec) v).
Proof.
  intros F H. rewrite feed_ptr in H. unfold some_if. destruct l as [|i l]; [injection H as <-; reflexivity|].
  cbn [zero] in H. destruct (feed (TSlice t) (VList []) (i :: l)) as [x|] eqn:G; [|discriminate]. cbn [option_map] in H. injection H as <-. cbn [as_ptr].
  exists (as_list dec x). split; [reflexivity|]. apply slice_sound; assumption.
Qed.
Lemma r_slice n l v : field_result l (fe n (TSlice t)) (VList []) = Some v -> Forall2 S (inner n l) (as_list dec v).
Proof. unfold field_result, fe, f_place, f_ty, f_parents, f_name. cbn [fst snd below]. rewrite inner_kids. apply slice_sound, kids_elem. Qed.
Lemma r_pslice p n l v : field_result l (fp p n (TSlice t)) (VList []) = Some v -> Forall2 S (inner n (inner p l)) (as_list dec v).
Proof. unfold field_result, fp, f_place, f_ty, f_parents, f_name. cbn [fst snd below]. rewrite !inner_kids. apply slice_sound, kids_elem. Qed.
Lemma r_ptr p n l v : field_result l (fp p n (TPtr (TSlice t))) (VPtr None) = Some v -> some_if S (inner n (inner p l)) (as_ptr (as_list dec) v).
Proof. unfold field_result, fp, f_place, f_ty, f_parents, f_name. cbn [fst snd below]. rewrite !inner_kids. apply ptr_slice_sound, kids_elem. Qed.
End Lists.
Lemma str_sound i v : elem i -> unmarshal TStr (zero TStr) i = Some v -> is_text i (as_str v).
Proof. intros K H. rewrite <- feed_one in H. rewrite (feed_scalar TStr) in H; [|left; reflexivity|constructor; [exact K|constructor]]. cbn in H. injection H as <-. reflexivity. Qed.
Lemma texts_map l x : Forall2 is_text l x -> x = map text_in l.
Proof. induction 1 as [|i t l x H F IH]; [reflexivity|]. cbn. rewrite H, IH. reflexivity. Qed.

(** a struct: its fields, one after the other *)
Ltac fields H := apply each_inv in H as (? & ? & -> & ? & H).
Ltac struct H fs :=
  rewrite (feed_struct fs) in H by (reflexivity || assumption);
  match type of H with option_map _ ?o = _ => destruct o as [?r|] eqn:?E; [|discriminate H] end;
  cbn [option_map] in H; injection H as <-;
  match goal with E : each_field _ _ _ = Some _ |- _ => repeat fields E; apply each_nil in E as -> end.
Ltac value :=
  match goal with
  | H : field_result _ ft _ = Some _ |- _ => apply r_text in H; [rewrite H in *; clear H|assumption]
  | H : field_result _ (fe _ TStr) _ = Some _ |- _ => apply r_str in H; rewrite H in *; clear H
  | H : field_result _ (fa _ TStr) _ = Some _ |- _ => apply r_astr in H; rewrite H in *; clear H
  | H : field_result _ ([], _, ByAttr true, TStr) _ = Some _ |- _ => apply r_astr in H; rewrite H in *; clear H
  | H : field_result _ (fe _ TInt) _ = Some _ |- _ => let Q := fresh in apply r_int in H as (? & Q & H); rewrite Q in *; clear Q
  | H : field_result _ (fa _ TInt) _ = Some _ |- _ => let Q := fresh in apply r_aint in H as (? & Q & H); rewrite Q in *; clear Q
  end.
Lemma one_elem i : elem i -> Forall elem [i].
Proof. intros K. constructor; [exact K|constructor]. Qed.

Lemma lfield_sound i v : elem i -> unmarshal T_lfield (zero T_lfield) i = Some v -> states_lfield true i (as_lfield v).
Proof.
  intros K H. rewrite <- feed_one in H. apply one_elem in K. cbn [zero T_lfield map snd ft] in H.
  struct H [ft; ([], "lang"%string, ByAttr true, TStr)]. repeat value. split; reflexivity.
Qed.
Lemma dfield_sound i v : elem i -> unmarshal T_dfield (zero T_dfield) i = Some v -> states_lfield false i (as_lfield v).
Proof.
  intros K H. rewrite <- feed_one in H. apply one_elem in K. cbn [zero T_dfield map snd ft] in H.
  struct H [ft; fa "lang" TStr]. repeat value. split; reflexivity.
Qed.
Lemma inner_elem n l : Forall elem (inner n l).
Proof. rewrite inner_kids. apply kids_elem. Qed.
Lemma r_sub n t l v0 : field_result l (fe n t) v0 = feed t v0 (inner n l).
Proof. rewrite inner_kids. reflexivity. Qed.
Local Open Scope string_scope.
Local Open Scope list_scope.
Lemma packager_sound l v : Forall elem l -> feed T_packager (zero T_packager) l = Some v ->
  as_str (as_field v 0) = text_below "Name" l /\ as_str (as_field v 1) = text_below "Email" l.
Proof.
  intros K H. cbn [zero T_packager map snd fe] in H. struct H [fe "Name" TStr; fe "Email" TStr]. repeat value. split; reflexivity.
Qed.
Lemma source_sound l v : Forall elem l -> feed T_source (zero T_source) l = Some v -> states_source l (as_source v).
Proof.
  intros K H. cbn [zero T_source map snd fe] in H. struct H [fe "Name" TStr; fe "Homepage" TStr; fe "Packager" T_packager].
  match goal with X : field_result _ (fe _ T_packager) _ = Some _ |- _ => rewrite r_sub in X; apply packager_sound in X; [destruct X|apply inner_elem] end.
  repeat value. unfold states_source, as_source. cbn [as_field nth s_name s_homepage s_packager pk_name pk_email as_str]. auto.
Qed.
Ltac fin := repeat (split; [first [reflexivity|assumption]|]); first [reflexivity|assumption].
Lemma dep_sound i v : elem i -> unmarshal T_dep (zero T_dep) i = Some v -> states_dep i (as_dep v).
Proof.
  intros K H. rewrite <- feed_one in H. apply one_elem in K. cbn [zero T_dep map snd ft fa] in H.
  struct H [ft; fa "releaseFrom" TInt; fa "releaseTo" TInt; fa "release" TInt; fa "versionFrom" TStr; fa "versionTo" TStr; fa "version" TStr].
  repeat value. fin.
Qed.
Lemma action_sound i v : elem i -> unmarshal T_action (zero T_action) i = Some v -> states_action i (as_action v).
Proof.
  intros K H. rewrite <- feed_one in H. apply one_elem in K. cbn [zero T_action map snd ft fa] in H.
  struct H [ft; fa "package" TStr]. repeat value. fin.
Qed.
Lemma comar_sound i v : elem i -> unmarshal T_comar (zero T_comar) i = Some v -> states_comar i (as_comar v).
Proof.
  intros K H. rewrite <- feed_one in H. apply one_elem in K. cbn [zero T_comar map snd ft fa] in H.
  struct H [ft; fa "script" TStr]. repeat value. fin.
Qed.
Lemma note_sound l v : Forall elem l -> feed (TStruct [ft]) (VStruct [VStr []]) l = Some v -> as_str (as_field v 0) = newest [] (map text_in l).
Proof. intros K H. struct H [ft]. repeat value. reflexivity. Qed.
Lemma update_sound i v : elem i -> unmarshal T_update (zero T_update) i = Some v -> states_update i (as_update v).
Proof.
  intros K H. rewrite <- feed_one in H. apply one_elem in K. cbn [zero T_update map snd ft fa fe fp] in H.
  struct H [fa "release" TInt; fa "type" TStr; fe "Date" TStr; fe "Version" TStr; fe "Comment" (TStruct [ft]); fe "Name" (TStruct [ft]);
    fe "Email" TStr; fp "Requires" "Action" (TPtr (TSlice T_action))].
  repeat match goal with X : field_result _ (fe _ (TStruct _)) _ = Some _ |- _ => rewrite r_sub in X; apply note_sound in X; [|apply inner_elem] end.
  match goal with X : field_result _ (fp _ _ _) _ = Some _ |- _ => apply (r_ptr T_action as_action states_action action_sound) in X end.
  repeat value. fin.
Qed.
Lemma delta_sound i v : elem i -> unmarshal T_delta (zero T_delta) i = Some v -> states_delta i (as_delta v).
Proof.
  intros K H. rewrite <- feed_one in H. apply one_elem in K. cbn [zero T_delta map snd ft fa fe fp] in H.
  struct H [fa "releaseFrom" TInt; fe "PackageURI" TStr; fe "PackageSize" TInt; fe "PackageHash" TStr]. repeat value. fin.
Qed.
Lemma provides_sound l v : Forall elem l -> feed (TPtr T_provides) (VPtr None) l = Some v -> states_provides l (as_ptr as_provides v).
Proof.
  intros K H. rewrite feed_ptr in H. unfold states_provides. destruct l as [|i l]; [injection H as <-; reflexivity|].
  destruct (feed T_provides (zero T_provides) (i :: l)) as [x|] eqn:G; [|discriminate H]. cbn [option_map] in H. injection H as <-. cbn [as_ptr].
  cbn [zero T_provides map snd fe] in G. exists (as_provides x). split; [reflexivity|].
  struct G [fe "COMAR" (TSlice T_comar); fe "PkgConfig" (TSlice TStr); fe "PkgConfig32" (TSlice TStr)].
  match goal with X : field_result _ (fe "COMAR" _) _ = Some _ |- _ => apply (r_slice T_comar as_comar states_comar comar_sound) in X end.
  repeat match goal with X : field_result _ (fe _ (TSlice TStr)) _ = Some _ |- _ => apply (r_slice TStr as_str is_text str_sound), texts_map in X end.
  fin.
Qed.
Lemma package_sound l v : Forall elem l -> feed T_package (zero T_package) l = Some v -> states_package l (as_package v).
Proof.
  intros K H.
  set (fs := [fe "Name" TStr; fe "Summary" (TSlice T_lfield); fe "Description" (TSlice T_lfield); fe "IsA" TStr; fe "PartOf" TStr;
  fe "License" (TSlice TStr); fp "RuntimeDependencies" "Dependency" (TPtr (TSlice T_dep)); fp "Conflicts" "Package" (TPtr (TSlice TStr));
  fp "Replaces" "Package" (TPtr (TSlice TStr)); fe "Provides" (TPtr T_provides); fp "History" "Update" (TSlice T_update);
  fe "BuildHost" TStr; fe "Distribution" TStr; fe "DistributionRelease" TStr; fe "Architecture" TStr; fe "InstalledSize" TInt; fe "PackageSize" TInt;
  fe "PackageHash" TStr; fe "PackageURI" TStr; fp "DeltaPackages" "Delta" (TPtr (TSlice T_delta)); fe "PackageFormat" TStr; fe "Source" T_source]).
  change T_package with (TStruct fs) in H. change (zero (TStruct fs)) with (VStruct (map (fun f => zero (snd f)) fs)) in H.
  rewrite (feed_struct fs) in H by (reflexivity || assumption).
  destruct (each_field (field_result l) fs (map (fun f => zero (snd f)) fs)) as [r|] eqn:E; [|discriminate H]. cbn [option_map] in H. injection H as <-.
  unfold fs in E. cbn [map] in E. do 22 fields E. apply each_nil in E as ->.
  repeat match goal with
  | X : field_result _ (fe _ (TSlice T_lfield)) _ = Some _ |- _ => apply (r_slice T_lfield as_lfield (states_lfield true) lfield_sound) in X
  | X : field_result _ (fe _ (TSlice TStr)) _ = Some _ |- _ => apply (r_slice TStr as_str is_text str_sound), texts_map in X
  | X : field_result _ (fp _ _ (TPtr (TSlice T_dep))) _ = Some _ |- _ => apply (r_ptr T_dep as_dep states_dep dep_sound) in X
  | X : field_result _ (fp _ _ (TPtr (TSlice TStr))) _ = Some _ |- _ => apply (r_ptr TStr as_str is_text str_sound) in X
  | X : field_result _ (fp _ _ (TPtr (TSlice T_delta))) _ = Some _ |- _ => apply (r_ptr T_delta as_delta states_delta delta_sound) in X
  | X : field_result _ (fp _ _ (TSlice T_update)) _ = Some _ |- _ => apply (r_pslice T_update as_update states_update update_sound) in X
  | X : field_result _ (fe _ (TPtr T_provides)) _ = Some _ |- _ => rewrite r_sub in X; apply provides_sound in X; [|apply inner_elem]
  | X : field_result _ (fe _ T_source) _ = Some _ |- _ => rewrite r_sub in X; apply source_sound in X; [|apply inner_elem]
  end.
  repeat value. fin.
Qed.
Lemma component_sound i v : elem i -> unmarshal T_component (zero T_component) i = Some v -> states_component i (as_component v).
Proof.
  intros K H. rewrite <- feed_one in H. apply one_elem in K. cbn [zero T_component map snd fe] in H.
  struct H [fe "Name" TStr; fe "LocalName" (TSlice T_lfield); fe "Summary" (TSlice T_lfield); fe "Description" (TSlice T_lfield); fe "Group" TStr; fe "Maintainer" T_packager].
  repeat match goal with
  | X : field_result _ (fe _ (TSlice T_lfield)) _ = Some _ |- _ => apply (r_slice T_lfield as_lfield (states_lfield true) lfield_sound) in X
  | X : field_result _ (fe _ T_packager) _ = Some _ |- _ => rewrite r_sub in X; apply packager_sound in X; [destruct X|apply inner_elem]
  end.
  repeat value. fin.
Qed.
Lemma group_sound i v : elem i -> unmarshal T_group (zero T_group) i = Some v -> states_group i (as_group v).
Proof.
  intros K H. rewrite <- feed_one in H. apply one_elem in K. cbn [zero T_group map snd fe] in H.
  struct H [fe "Name" TStr; fe "LocalName" (TSlice T_lfield); fe "Icon" TStr].
  repeat match goal with X : field_result _ (fe _ (TSlice T_lfield)) _ = Some _ |- _ => apply (r_slice T_lfield as_lfield (states_lfield true) lfield_sound) in X end.
  repeat value. fin.
Qed.

(** ** Success: numbers *)
Lemma int_is_number t : is_int t = true <-> is_number t.
Proof.
  unfold is_int, is_number. split.
  - destruct (of_text TInt t) as [v|] eqn:O; [|discriminate]. intros _. destruct (int_shape _ _ O) as (z & ->). exists z. apply int_text, O.
  - intros (z & H). apply int_text in H. rewrite H. reflexivity.
Qed.
Lemma decodes t i : good_ty t = true -> elem i -> (exists v, unmarshal t (zero t) i = Some v) <-> Forall is_number (ints t [i]).
Proof.
  intros G K. pose proof (feed_result t G [i] (zero t) (one_elem i K) (zero_has t)) as R. rewrite feed_one in R.
  assert (X : forallb is_int (ints t [i]) = true <-> Forall is_number (ints t [i])).
  { rewrite forallb_forall, Forall_forall. split; intros H x I; apply int_is_number, H, I. }
  rewrite <- X. unfold result_if in R. destruct (unmarshal t (zero t) i) as [v|].
  - destruct R as [_ R]. split; [intros _; exact R|intros _; exists v; reflexivity].
  - split; [intros (v & H); discriminate H|congruence].
Qed.
Lemma flat_nil {A B} (l : list A) : flat_map (fun _ => @nil B) l = [].
Proof. induction l; auto. Qed.
Lemma body_texts n l : map (fun i => text_of (body i)) (kids n l) = map text_in (inner n l).
Proof. rewrite inner_kids. apply elem_body, kids_elem. Qed.
Lemma metadata_ints i : Forall is_number (ints T_metadata [i]) <-> Forall is_number (numbers (inner "Package" [i])).
Proof.
  assert (E : ints T_metadata [i] = numbers (inner "Package" [i])); [|rewrite E; tauto].
  rewrite inner_kids. unfold numbers. rewrite !inner_kids.
  cbn [ints T_metadata T_package T_source T_packager T_provides T_comar T_lfield T_dep T_update T_action T_delta fe fp fa ft fst snd flat_map below app].
  rewrite ?flat_nil, ?app_nil_r. cbn [app]. set (l := kids "Package" [i]).
  rewrite !body_texts, !inner_kids.
  f_equal; [|f_equal; [|f_equal; f_equal]]; apply flat_map_ext; intros d; rewrite ?values_attr, ?app_nil_r; try reflexivity.
  - rewrite flat_nil, app_nil_r. reflexivity.
  - rewrite body_texts. reflexivity.
Qed.
Lemma number_dec t : {is_number t} + {~ is_number t}.
Proof. destruct (is_int t) eqn:E; [left; apply int_is_number, E|right; intros H; apply int_is_number in H; congruence]. Qed.
Lemma not_all l : ~ Forall is_number l -> exists w, In w l /\ ~ is_number w.
Proof.
  induction l as [|t l IH]; intros H; [destruct H; constructor|]. destruct (number_dec t) as [Y|N].
  - destruct IH as (w & I & N); [intros F; apply H; constructor; assumption|]. exists w. split; [right; exact I|exact N].
  - exists t. split; [left; reflexivity|exact N].
Qed.
Lemma fix_tidy q s' : fix_lang (map trim_field q) = Some s' -> tidy q s'.
Proof.
  destruct q as [|f t]; [discriminate|]. cbn [map fix_lang]. intros H. injection H as H.
  assert (T : Forall2 (fun a b => f_value b = trim (f_value a) /\ f_lang b = f_lang a) t (map trim_field t)).
  { clear. induction t as [|g t IH]; constructor; [split; reflexivity|exact IH]. }
  destruct f as [v g]. cbn [trim_field f_lang f_value] in H. destruct g as [|c g]; subst s'; cbn [tidy f_value f_lang]; (split; [reflexivity|split; [reflexivity|exact T]]).
Qed.
Lemma fix_none q : fix_lang (map trim_field q) = None -> q = [].
Proof. destruct q; [reflexivity|discriminate]. Qed.

(** ** C107: reading a package's metadata.xml *)
(** every element of the document is where it belongs, with its text; reading fails
    exactly if some text in the place of a number is none, and panics exactly if
    there is no summary or no description *)
Theorem C107_metadata_is_read : forall i, elem i ->
  let l := inner "Package" [i] in
  match read_metadata i with
  | Read p => Forall is_number (numbers l) /\
      exists q, states_package l q /\ tidy (m_summary q) (m_summary p) /\ tidy (m_descr q) (m_descr p) /\ p = retext q (m_summary p) (m_descr p)
  | Fails => exists w, In w (numbers l) /\ ~ is_number w
  | Panics => Forall is_number (numbers l) /\ (inner "Summary" l = [] \/ inner "Description" l = [])
  end.
Proof.
  intros i K l. unfold read_metadata. pose proof (decodes T_metadata i eq_refl K) as D. rewrite metadata_ints in D. fold l in D.
  destruct (unmarshal T_metadata (zero T_metadata) i) as [v|] eqn:U.
  2:{ apply not_all. intros F. apply D in F as (v & F). discriminate F. }
  assert (N : Forall is_number (numbers l)) by (apply D; exists v; reflexivity).
  assert (S : states_package l (as_package (as_field v 1))).
  { rewrite <- feed_one in U. pose proof (one_elem i K) as K1. change (zero T_metadata) with (VStruct [zero T_source; zero T_package]) in U.
    change T_metadata with (TStruct [fe "Source" T_source; fe "Package" T_package]) in U.
    struct U [fe "Source" T_source; fe "Package" T_package]. cbn [as_field nth].
    match goal with X : field_result _ (fe "Package" _) _ = Some _ |- _ => rewrite r_sub in X; apply package_sound in X; [exact X|apply inner_elem] end. }
  cbv zeta. set (q := as_package (as_field v 1)) in *.
  assert (Em : forall n (m : list lfield), Forall2 (states_lfield true) (inner n l) m -> m = [] -> inner n l = []).
  { intros n m F ->. inversion F. reflexivity. }
  destruct (fix_lang (map trim_field (m_summary q))) as [s|] eqn:E1.
  - destruct (fix_lang (map trim_field (m_descr q))) as [d|] eqn:E2.
    + split; [exact N|]. exists q. split; [exact S|]. split; [apply fix_tidy, E1|]. split; [apply fix_tidy, E2|]. reflexivity.
    + split; [exact N|]. right. apply fix_none in E2. destruct S as (_ & _ & S & _). exact (Em _ _ S E2).
  - split; [exact N|]. left. apply fix_none in E1. destruct S as (_ & S & _). exact (Em _ _ S E1).
Qed.
Print Assumptions C107_metadata_is_read.

(** the assets; without numbers, reading them does not fail *)
Theorem C107_assets_are_read : forall i, elem i ->
  (exists x, read_distribution i = Some x /\ states_distribution i x) /\
  (exists l, read_components i = Some l /\ Forall2 states_component (inner "Component" (inner "Components" [i])) l) /\
  (exists l, read_groups i = Some l /\ Forall2 states_group (inner "Group" (inner "Groups" [i])) l).
Proof.
  intros i K. pose proof (one_elem i K) as K1. split; [|split].
  - destruct (proj2 (decodes T_distribution i eq_refl K)) as (v & U).
    { rewrite no_ints by reflexivity. constructor. }
    exists (as_distribution v). unfold read_distribution. rewrite U. split; [reflexivity|]. rewrite <- feed_one in U. cbn [zero T_distribution map snd fe fp] in U.
    struct U [fe "SourceName" TStr; fe "Description" (TSlice T_dfield); fe "Version" TStr; fe "Type" TStr; fe "BinaryName" TStr; fp "Obsoletes" "Package" (TSlice TStr)].
    repeat match goal with
    | X : field_result _ (fe _ (TSlice T_dfield)) _ = Some _ |- _ => apply (r_slice T_dfield as_lfield (states_lfield false) dfield_sound) in X
    | X : field_result _ (fp _ _ (TSlice TStr)) _ = Some _ |- _ => apply (r_pslice TStr as_str is_text str_sound), texts_map in X
    end.
    repeat value. fin.
  - destruct (proj2 (decodes T_components i eq_refl K)) as (v & U).
    { rewrite no_ints by reflexivity. constructor. }
    unfold read_components. rewrite U. eexists. split; [reflexivity|]. rewrite <- feed_one in U. cbn [zero T_components map snd fe fp] in U.
    struct U [fp "Components" "Component" (TSlice T_component)].
    match goal with X : field_result _ (fp _ _ _) _ = Some _ |- _ => exact (r_pslice T_component as_component states_component component_sound _ _ _ _ X) end.
  - destruct (proj2 (decodes T_groups i eq_refl K)) as (v & U).
    { rewrite no_ints by reflexivity. constructor. }
    unfold read_groups. rewrite U. eexists. split; [reflexivity|]. rewrite <- feed_one in U. cbn [zero T_groups map snd fe fp] in U.
    struct U [fp "Groups" "Group" (TSlice T_group)].
    match goal with X : field_result _ (fp _ _ _) _ = Some _ |- _ => exact (r_pslice T_group as_group states_group group_sound _ _ _ _ X) end.
Qed.
Print Assumptions C107_assets_are_read.

(** a document that is read, one whose number is wrong, one without a summary *)
Definition demo_text (release summary : string) : text := txt (
  "<PISI><Source><Name>src</Name></Source><Package><Name>nano</Name>" ++ summary ++
  "<Description xml:lang=""de""> Ein Editor </Description><License>GPL</License><License>BSD</License>" ++
  "<RuntimeDependencies><Dependency releaseFrom=""" ++ release ++ """>ncurses</Dependency></RuntimeDependencies>" ++
  "<InstalledSize> +12 </InstalledSize><Conflicts></Conflicts></Package></PISI>").
Definition demo_read (release summary : string) : option (item * outcome package) :=
  option_map (fun i => (i, read_metadata i)) (XmlSpec.read_xml (demo_text release summary)).
Example C107_demo :
  (exists i p, demo_read "3" "<Summary> small </Summary>" = Some (i, Read p) /\ elem i /\
     m_name p = txt "nano" /\ m_summary p = [LField (txt "small") (txt "en")] /\ m_descr p = [LField (txt "Ein Editor") (txt "de")] /\
     m_license p = [txt "GPL"; txt "BSD"] /\ m_deps p = Some [Dep (txt "ncurses") 3 0 0 [] [] []] /\ m_isize p = 12%Z /\ m_conflicts p = None) /\
  option_map snd (demo_read "x3" "<Summary>small</Summary>") = Some Fails /\
  option_map snd (demo_read "3" "") = Some Panics.
Proof.
  split; [|vm_compute; split; reflexivity].
  destruct (demo_read "3" "<Summary> small </Summary>") as [[i o]|] eqn:E; [|vm_compute in E; discriminate E].
  vm_compute in E. injection E as <- <-. do 2 eexists. split; [reflexivity|]. vm_compute. auto 10.
Qed.
