(** * PropsDecoded: what a reader of the index decodes (C110) *)
From Coq Require Import List NArith ZArith Bool String Ascii Lia.
From Verif Require Import Escape Xml Unxml UnxmlFacts UnxmlWords UnxmlSpec PropsNumbers PropsRelay.
From Verif Require XmlSpec XmlTree XmlDoc XmlSays PropsXml PropsUnxml.
Import ListNotations.
Open Scope N_scope. Open Scope list_scope.
Import XmlSpec(item, Ch, El, children, text_in, attribute, number, attr_number, says_number, file_says).

(** ** Elements without prefixes, but for xml:lang, and without repeated attributes *)
Definition nocolon (t : text) : bool := forallb (fun c => negb (c =? 58)) t.
Definition name_ok (t : text) : bool := nocolon t || same_text t (txt "xml:lang").
Fixpoint distinct (l : list text) : bool := match l with [] => true | t :: l' => negb (existsb (same_text t) l') && distinct l' end.
Definition names_ok (l : list text) : bool := forallb name_ok l && distinct l.
Fixpoint clean (i : item) : bool :=
  match i with Ch _ => true | El n a b => nocolon n && names_ok (map fst a) && forallb clean b end.
Fixpoint cleanx (x : xnode) : bool :=
  match x with
  | XLeaf n a _ _ => nocolon (txt n) && names_ok (map (fun p => txt (fst p)) a)
  | XTree n a l => nocolon (txt n) && names_ok (map (fun p => txt (fst p)) a) && forallb cleanx l
  end.

Lemma nocolon_in t : nocolon t = true -> ~ In 58 t.
Proof. unfold nocolon. rewrite forallb_forall. intros H I. specialize (H _ I). discriminate H. Qed.
Lemma local_clean t : nocolon t = true -> local t = t /\ xml_space t = false.
Proof. intros H. apply C107_words, nocolon_in, H. Qed.
Lemma local_lang : local (txt "xml:lang") = txt "lang" /\ xml_space (txt "xml:lang") = true.
Proof. split; reflexivity. Qed.

Section Clean.
Variable symbol : N -> bool.
Variable lossy : bool.
Lemma attrs_names a a' : XmlTree.attrs_shown symbol lossy a a' -> map fst a' = map (fun p => txt (fst p)) a.
Proof. induction 1 as [|[m v] [m' v'] a a' [E H] A IH]; [reflexivity|]. cbn [map fst] in *. subst. f_equal. exact IH. Qed.
Lemma shows_clean x : forall i, XmlTree.shows symbol lossy x i -> cleanx x = true -> clean i = true.
Proof.
  induction x as [n a cd v|n a l IH] using XmlTree.xnode_ind'; intros i S K; inversion S as [? ? ? ? a' v' A V|? ? ? a' b A F B]; subst; cbn [cleanx clean] in *.
  - rewrite (attrs_names _ _ A), K. clear. induction v'; [reflexivity|]. cbn. exact IHv'.
  - apply andb_true_iff in K as [K1 K2]. rewrite (attrs_names _ _ A), K1. cbn [andb].
    assert (G : forallb clean (filter XmlSpec.is_element b) = true).
    { clear - IH F K2. revert IH K2. induction F as [|x i l is S F G]; intros IH K2; [reflexivity|]. inversion IH; subst. cbn [forallb] in *. apply andb_true_iff in K2 as [Ka Kb].
      rewrite (H1 i S Ka). apply G; assumption. }
    clear - G. induction b as [|[c|n a l] b H]; [reflexivity|apply H, G|]. cbn [filter XmlSpec.is_element forallb] in *. apply andb_true_iff in G as [G1 G2]. rewrite G1. apply H, G2.
Qed.
End Clean.

Lemma children_clean n i j : clean i = true -> In j (children n i) -> clean j = true.
Proof.
  destruct i as [c|m a b]; [intros _ []|]. cbn [clean children]. rewrite !andb_true_iff, forallb_forall. intros [_ H] I. apply filter_In in I as [I _]. auto.
Qed.
Lemma inner_children n i : clean i = true -> inner n [i] = children n i.
Proof.
  destruct i as [c|m a b]; [reflexivity|]. cbn [clean inner flat_map children]. rewrite app_nil_r, !andb_true_iff, forallb_forall. intros [_ H].
  apply filter_ext_in. intros j I. destruct j as [c|k a' b']; [reflexivity|]. cbn [XmlSpec.named]. specialize (H _ I). cbn [clean] in H. rewrite !andb_true_iff in H.
  destruct (local_clean k) as [-> _]; tauto.
Qed.
Lemma clean_attrs n a b : clean (El n a b) = true -> forallb name_ok (map fst a) = true /\ distinct (map fst a) = true.
Proof. cbn [clean]. unfold names_ok. rewrite !andb_true_iff. tauto. Qed.
Lemma same_sym a b : same_text a b = same_text b a.
Proof. destruct (same_text b a) eqn:E; [apply XmlTree.same_text_iff in E; subst; apply XmlTree.same_text_iff; reflexivity|]. destruct (same_text a b) eqn:F; [|reflexivity]. apply XmlTree.same_text_iff in F. subst. rewrite (proj2 (XmlTree.same_text_iff _ _) eq_refl) in E. discriminate E. Qed.
Lemma find_all (f : text * text -> bool) n a : (forall x, In x a -> f x = same_text (fst x) n) -> distinct (map fst a) = true ->
  map snd (filter f a) = match option_map snd (find (fun x => same_text (fst x) n) a) with Some w => [w] | None => [] end.
Proof.
  induction a as [|x a IH]; intros H D; [reflexivity|]. cbn [map distinct] in D. apply andb_true_iff in D as [D1 D2]. cbn [filter find].
  rewrite (H x (or_introl eq_refl)). destruct (same_text (fst x) n) eqn:E.
  - cbn [map option_map]. f_equal. apply XmlTree.same_text_iff in E. subst n. apply negb_true_iff in D1.
    replace (filter f a) with (@nil (text * text)); [reflexivity|]. clear IH D2. induction a as [|y a IH]; [reflexivity|]. cbn [map existsb] in D1. apply orb_false_iff in D1 as [Da Db].
    cbn [filter]. rewrite (H y) by (right; left; reflexivity). rewrite same_sym, Da. apply IH; [|exact Db]. intros z [Z|Z]; apply H; [left; exact Z|right; right; exact Z].
  - apply IH; [|exact D2]. intros y I. apply H. right. exact I.
Qed.
Lemma values_attribute n i : clean i = true -> nocolon (txt n) = true -> same_text (txt "lang") (txt n) = false ->
  values false n [i] = match attribute n i with Some w => [w] | None => [] end.
Proof.
  destruct i as [c|m a b]; [reflexivity|]. intros K N L. apply clean_attrs in K as [K D]. cbn [values flat_map attribute]. rewrite app_nil_r. apply find_all; [|exact D].
  intros x I. rewrite andb_true_r. rewrite forallb_forall in K. specialize (K (fst x) (in_map fst _ _ I)). unfold name_ok in K. apply orb_true_iff in K as [K|K].
  - destruct (local_clean _ K) as [-> _]. reflexivity.
  - apply XmlTree.same_text_iff in K. rewrite K. destruct local_lang as [-> _]. rewrite L. symmetry. destruct (same_text (txt "xml:lang") (txt n)) eqn:E; [|reflexivity].
    apply XmlTree.same_text_iff in E. rewrite <- E in N. discriminate N.
Qed.
Lemma values_lang i : clean i = true -> values true "lang" [i] = match attribute "xml:lang" i with Some w => [w] | None => [] end.
Proof.
  destruct i as [c|m a b]; [reflexivity|]. intros K. apply clean_attrs in K as [K D]. cbn [values flat_map attribute]. rewrite app_nil_r. apply find_all; [|exact D].
  intros x I. rewrite forallb_forall in K. specialize (K (fst x) (in_map fst _ _ I)). unfold name_ok in K. apply orb_true_iff in K as [K|K].
  - destruct (local_clean _ K) as [-> ->]. cbn [negb orb]. rewrite andb_false_r. symmetry. destruct (same_text (fst x) (txt "xml:lang")) eqn:E; [|reflexivity].
    apply XmlTree.same_text_iff in E. rewrite E in K. discriminate K.
  - rewrite K. apply XmlTree.same_text_iff in K. rewrite K. reflexivity.
Qed.

(** ** The elements of a package are such *)
Lemma cleanx_app a b : forallb cleanx a = true -> forallb cleanx b = true -> forallb cleanx (a ++ b) = true.
Proof. intros H K. rewrite forallb_app, H, K. reflexivity. Qed.
Lemma cleanx_el n v : nocolon (txt n) = true -> forallb cleanx (el n v) = true.
Proof. intros H. cbn [el forallb cleanx]. rewrite H. reflexivity. Qed.
Lemma cleanx_el_opt n v : nocolon (txt n) = true -> forallb cleanx (el_opt n v) = true.
Proof. destruct v; [reflexivity|apply cleanx_el]. Qed.
Lemma cleanx_els n l : nocolon (txt n) = true -> forallb cleanx (els n l) = true.
Proof. intros H. induction l as [|v l IH]; [reflexivity|]. unfold els in *. cbn [flat_map]. apply cleanx_app; [apply cleanx_el, H|exact IH]. Qed.
Lemma cleanx_map {A} (f : A -> xnode) l : (forall x, cleanx (f x) = true) -> forallb cleanx (map f l) = true.
Proof. intros H. induction l as [|x l IH]; [reflexivity|]. cbn [map forallb]. rewrite H. exact IH. Qed.
Lemma cleanx_under a l : nocolon (txt a) = true -> forallb cleanx l = true -> forallb cleanx (under a l) = true.
Proof. intros H K. cbn [under forallb cleanx]. rewrite H, K. reflexivity. Qed.
Lemma cleanx_under_opt {A} a (f : A -> list xnode) o : nocolon (txt a) = true -> (forall x, forallb cleanx (f x) = true) -> forallb cleanx (under_opt a f o) = true.
Proof. intros H K. destruct o; [apply cleanx_under; auto|reflexivity]. Qed.
Lemma cleanx_lfields n l : nocolon (txt n) = true -> forallb cleanx (marshal_lfields n l) = true.
Proof. intros H. apply cleanx_map. intros f. unfold marshal_lfield. cbn [cleanx]. rewrite H. destruct (f_lang f); reflexivity. Qed.
Lemma cleanx_dep d : cleanx (marshal_dep d) = true.
Proof.
  unfold marshal_dep, at_int, at_opt. destruct (d_relfrom d =? 0)%Z, (d_relto d =? 0)%Z, (d_rel d =? 0)%Z, (d_verfrom d), (d_verto d), (d_ver d); reflexivity.
Qed.
Ltac cleans := repeat apply cleanx_app; try (apply cleanx_el; reflexivity); try (apply cleanx_el_opt; reflexivity); try (apply cleanx_els; reflexivity); try (apply cleanx_lfields; reflexivity).
Lemma cleanx_tree n a l : nocolon (txt n) = true -> names_ok (map (fun p => txt (fst p)) a) = true -> forallb cleanx l = true -> cleanx (XTree n a l) = true.
Proof. intros H K L. cbn [cleanx]. rewrite H, K, L. reflexivity. Qed.
Lemma cleanx_update u : cleanx (marshal_update u) = true.
Proof.
  apply cleanx_tree; [reflexivity|unfold at_opt; destruct (u_type u); reflexivity|]. cleans; try reflexivity.
  apply cleanx_under_opt; [reflexivity|]. intros l. apply cleanx_map. intros a. unfold marshal_action, at_opt. destruct (ac_package a); reflexivity.
Qed.
Lemma cleanx_package m : cleanx (marshal_package m) = true.
Proof.
  apply cleanx_tree; [reflexivity|reflexivity|]. cleans.
  - apply cleanx_under_opt; [reflexivity|]. intros l. apply cleanx_map, cleanx_dep.
  - apply cleanx_under_opt; [reflexivity|]. intros l. apply cleanx_els. reflexivity.
  - apply cleanx_under_opt; [reflexivity|]. intros l. apply cleanx_els. reflexivity.
  - destruct (m_provides m) as [p|]; [|reflexivity]. cbn [forallb]. rewrite andb_true_r. apply cleanx_tree; [reflexivity|reflexivity|]. cleans.
    apply cleanx_map. intros c. unfold at_opt. destruct (co_script c); reflexivity.
  - apply cleanx_under; [reflexivity|]. apply cleanx_map, cleanx_update.
  - apply cleanx_under_opt; [reflexivity|]. intros l. apply cleanx_map. intros d. apply cleanx_tree; [reflexivity|unfold at_int; destruct (dl_from d =? 0)%Z; reflexivity|]. cleans.
  - unfold marshal_source. cbn [forallb]. rewrite andb_true_r. apply cleanx_tree; [reflexivity|reflexivity|]. cleans. cbn [forallb]. rewrite andb_true_r.
    apply cleanx_tree; [reflexivity|reflexivity|]. cleans.
Qed.

(** ** Specification *)
(** a decoder gives no list where there is no element: an empty list that is
    referred to is encoded like none *)
Definition none_if_empty {A} (o : option (list A)) : option (list A) := match o with Some [] => None | _ => o end.
Definition reread_update (u : update) : update :=
  Update (u_release u) (u_type u) (u_date u) (u_version u) (u_comment u) (u_name u) (u_email u) (none_if_empty (u_requires u)).
Definition reread (p : package) : package :=
  Package (m_name p) (m_summary p) (m_descr p) (m_isa p) (m_partof p) (m_license p) (none_if_empty (m_deps p)) (none_if_empty (m_conflicts p))
    (none_if_empty (m_replaces p)) (m_provides p) (map reread_update (m_history p))
    (m_host p) (m_distro p) (m_distrel p) (m_arch p) (m_isize p) (m_psize p) (m_hash p) (m_uri p) (none_if_empty (m_deltas p)) (m_format p) (m_source p).
(** the numbers of a package; Go's are of 64 bits *)
Definition package_numbers (p : package) : list Z :=
  [m_isize p; m_psize p] ++ flat_map (fun d => [d_relfrom d; d_relto d; d_rel d]) (XmlSpec.opt_list (m_deps p)) ++
  map u_release (m_history p) ++ flat_map (fun d => [dl_from d; dl_size d]) (XmlSpec.opt_list (m_deltas p)).

(** ** A package's element states the package *)
Notation says := (XmlSpec.says eq).
Lemma says_map e n vs : says e n vs -> map text_in (children n e) = vs.
Proof. unfold XmlSpec.says. induction 1 as [|v i vs l H F IH]; [reflexivity|]. cbn [map]. rewrite <- H, IH. reflexivity. Qed.
Lemma below_one e n v : clean e = true -> says e n [v] -> v = text_below n [e].
Proof. intros K H. unfold text_below. rewrite (inner_children n e K), (says_map _ _ _ H). reflexivity. Qed.
Lemma below_opt e n v : clean e = true -> XmlSpec.says_opt eq e n v -> v = text_below n [e].
Proof.
  intros K H. unfold XmlSpec.says_opt in H. destruct v; [|apply below_one; assumption]. unfold text_below. rewrite (inner_children n e K), (says_map _ _ _ H). reflexivity.
Qed.
Lemma below_texts e n vs : clean e = true -> says e n vs -> vs = map text_in (inner n [e]).
Proof. intros K H. rewrite (inner_children n e K), (says_map _ _ _ H). reflexivity. Qed.
Lemma below_c e n v : clean e = true -> XmlSpec.each (fun v i => v = text_in i) e n [v] -> v = text_below n [e].
Proof. exact (below_one e n v). Qed.
Lemma below_number e n z : clean e = true -> word64 z -> says_number e n z -> int_below n [e] z.
Proof.
  intros K W (i & E & N). unfold int_below. rewrite (inner_children n e K), E. pose proof (proj2 C108_numbers _ _ N W) as I.
  split; [constructor; [exists z; exact I|constructor]|exact I].
Qed.
Lemma attr_text n i v : clean i = true -> nocolon (txt n) = true -> same_text (txt "lang") (txt n) = false -> XmlSpec.attr_opt eq i n v -> v = value false n [i].
Proof.
  intros K N L H. unfold value. rewrite (values_attribute n i K N L). unfold XmlSpec.attr_opt in H. destruct v; [rewrite H; reflexivity|].
  destruct H as (w & -> & <-). reflexivity.
Qed.
Lemma lang_text i v : clean i = true -> XmlSpec.attr_opt eq i "xml:lang" v -> v = value true "lang" [i].
Proof.
  intros K H. unfold value. rewrite (values_lang i K). unfold XmlSpec.attr_opt in H. destruct v; [rewrite H; reflexivity|].
  destruct H as (w & -> & <-). reflexivity.
Qed.
Lemma attr_int n i z : clean i = true -> nocolon (txt n) = true -> same_text (txt "lang") (txt n) = false -> word64 z -> attr_number i n z -> int_value n [i] z.
Proof.
  intros K N L W H. unfold int_value. rewrite (values_attribute n i K N L). unfold XmlSpec.attr_number in H. destruct (z =? 0)%Z eqn:E.
  - rewrite H. apply Z.eqb_eq in E. split; [constructor|exact E].
  - destruct H as (w & -> & H). pose proof (proj2 C108_numbers _ _ H W) as I. split; [constructor; [exists z; exact I|constructor]|exact I].
Qed.
Lemma attr_int_there n i z : clean i = true -> nocolon (txt n) = true -> same_text (txt "lang") (txt n) = false -> word64 z ->
  (exists w, attribute n i = Some w /\ number w = Some z) -> int_value n [i] z.
Proof.
  intros K N L W (w & E & H). unfold int_value. rewrite (values_attribute n i K N L), E. pose proof (proj2 C108_numbers _ _ H W) as I.
  split; [constructor; [exists z; exact I|constructor]|exact I].
Qed.
(** lists of elements *)
Lemma each_states {A B} (D : A -> item -> Prop) (S : item -> B -> Prop) (f : A -> B) e n l : clean e = true ->
  (forall a i, In a l -> clean i = true -> D a i -> S i (f a)) -> XmlSpec.each D e n l -> Forall2 S (inner n [e]) (map f l).
Proof.
  intros K H F. rewrite (inner_children n e K). unfold XmlSpec.each in F.
  assert (G : forall i, In i (children n e) -> clean i = true) by (intros i; apply children_clean, K). revert G H.
  induction F as [|a i l is X F IH]; intros G H; [constructor|]. cbn [map]. constructor.
  - apply H; [left; reflexivity|apply G; left; reflexivity|exact X].
  - apply IH; [intros j I; apply G; right; exact I|intros b j I; apply H; right; exact I].
Qed.
Lemma each_states1 {A} (D : A -> item -> Prop) (S : item -> A -> Prop) e n l : clean e = true ->
  (forall a i, In a l -> clean i = true -> D a i -> S i a) -> XmlSpec.each D e n l -> Forall2 S (inner n [e]) l.
Proof. intros K H F. rewrite <- (map_id l). eapply each_states; eassumption. Qed.
Lemma inside_states {A} (D : A -> item -> Prop) (S : item -> A -> Prop) e a n o : clean e = true ->
  (forall x i, In x (XmlSpec.opt_list o) -> clean i = true -> D x i -> S i x) ->
  XmlSpec.inside_opt e a o (fun l i => XmlSpec.each D i n l) -> some_if S (inner n (inner a [e])) (none_if_empty o).
Proof.
  intros K H F. rewrite (inner_children a e K). unfold XmlSpec.inside_opt in F. destruct o as [l|].
  - destruct F as (i & E & F). rewrite E. assert (Ki : clean i = true) by (apply (children_clean a e i K); rewrite E; left; reflexivity).
    pose proof (each_states1 D S i n l Ki H F) as G. unfold some_if. destruct G as [|j x js l X G]; [reflexivity|]. cbn [none_if_empty]. eexists; split; [reflexivity|]. constructor; assumption.
  - rewrite F. reflexivity.
Qed.
Lemma texts_states e n l : clean e = true -> XmlSpec.translations eq eq "xml:lang" e n l -> Forall2 (states_lfield true) (inner n [e]) l.
Proof. intros K. apply each_states1; [exact K|]. intros f i _ Ki [V L]. split; [exact V|apply lang_text; assumption]. Qed.
Lemma dep_states d i : clean i = true -> Forall word64 [d_relfrom d; d_relto d; d_rel d] -> XmlSpec.describes_dep eq d i -> states_dep i d.
Proof.
  intros K W (A1 & A2 & A3 & A4 & A5 & A6 & A7). inversion W as [|? ? W1 W']; subst. inversion W' as [|? ? W2 W'']; subst. inversion W'' as [|? ? W3 _]; subst.
  split; [exact A1|]. split; [apply attr_int; auto|]. split; [apply attr_int; auto|]. split; [apply attr_int; auto|].
  split; [apply attr_text; auto|]. split; apply attr_text; auto.
Qed.
Lemma action_states a i : clean i = true -> XmlSpec.describes_action eq a i -> states_action i a.
Proof. intros K (A1 & A2). split; [exact A1|apply attr_text; auto]. Qed.
Lemma update_states u i : clean i = true -> word64 (u_release u) -> XmlSpec.describes_update eq eq u i -> states_update i (reread_update u).
Proof.
  intros K W (A1 & A2 & A3 & A4 & A5 & A6 & A7 & A8). unfold states_update, reread_update.
  cbn [u_release u_type u_date u_version u_comment u_name u_email u_requires].
  split; [apply attr_int_there; auto|]. split; [apply attr_text; auto|]. split; [apply below_one; auto|]. split; [apply below_one; auto|].
  split; [apply below_c; auto|]. split; [apply below_c; auto|]. split; [apply below_one; auto|].
  eapply inside_states; [exact K| |exact A8]. intros a j _. apply action_states.
Qed.
Lemma delta_states d i : clean i = true -> word64 (dl_from d) -> word64 (dl_size d) -> XmlSpec.describes_delta eq d i -> states_delta i d.
Proof.
  intros K W1 W2 (A1 & A2 & A3 & A4). split; [apply attr_int; auto|]. split; [apply below_one; auto|]. split; [apply below_number; auto|apply below_one; auto].
Qed.
Lemma package_states p e : clean e = true -> Forall word64 (package_numbers p) -> XmlSpec.describes_package eq eq p e -> states_package [e] (reread p).
Proof.
  intros K W D. unfold package_numbers in W. rewrite !Forall_app in W. destruct W as (W1 & W2 & W3 & W4). rewrite Forall_forall in W2, W3, W4.
  inversion W1 as [|? ? Wa W1']; subst. inversion W1' as [|? ? Wb _]; subst. clear W1 W1'.
  destruct D as (D1 & D2 & D3 & D4 & D5 & D6 & D7 & D8 & D9 & D10 & D11 & D12 & D13 & D14 & D15 & D16 & D17 & D18 & D19 & D20 & D21 & D22).
  assert (Sub : forall a i, children a e = [i] -> clean i = true /\ inner a [e] = [i]).
  { intros a i E. split; [apply (children_clean a e i K); rewrite E; left; reflexivity|rewrite (inner_children a e K); exact E]. }
  unfold states_package, reread. cbn [m_name m_summary m_descr m_isa m_partof m_license m_deps m_conflicts m_replaces m_provides m_history m_host m_distro m_distrel m_arch m_isize m_psize m_hash m_uri m_deltas m_format m_source].
  split; [apply below_one; auto|]. split; [apply texts_states; auto|]. split; [apply texts_states; auto|]. split; [apply below_opt; auto|]. split; [apply below_opt; auto|].
  split; [apply below_texts; auto|].
  split; [eapply inside_states; [exact K| |exact D7]; intros d i I Ki; apply dep_states; [exact Ki|]; apply Forall_forall; intros z J; apply W2; apply in_flat_map; exists d; split; assumption|].
  split; [eapply inside_states; [exact K| |exact D8]; intros v i _ _ E; exact E|]. split; [eapply inside_states; [exact K| |exact D9]; intros v i _ _ E; exact E|].
  split. { unfold states_provides. destruct (m_provides p) as [pr|].
    - destruct D10 as (i & E & (A1 & A2 & A3)). destruct (Sub _ _ E) as [Ki ->]. exists pr. split; [reflexivity|]. split; [|split; [apply below_texts; auto|apply below_texts; auto]].
      eapply each_states1; [exact Ki| |exact A1]. intros c j _ Kj [B1 B2]. split; [exact B1|apply attr_text; auto].
    - rewrite (inner_children _ e K), D10. reflexivity. }
  split. { destruct D11 as (i & E & A). destruct (Sub _ _ E) as [Ki ->]. eapply each_states; [exact Ki| |exact A]. intros u j I Kj. apply update_states; [exact Kj|]. apply W3, in_map, I. }
  split; [apply below_one; auto|]. split; [apply below_one; auto|]. split; [apply below_one; auto|]. split; [apply below_one; auto|].
  split; [apply below_number; auto|]. split; [apply below_number; auto|]. split; [apply below_one; auto|]. split; [apply below_one; auto|].
  split. { eapply inside_states; [exact K| |exact D20]. intros d i I Ki. apply delta_states; [exact Ki| |]; apply W4; apply in_flat_map; exists d; (split; [assumption|cbn; tauto]). }
  split; [apply below_one; auto|].
  destruct D22 as (i & E & A). destruct (Sub _ _ E) as [Ki ->]. destruct A as (A1 & A2 & (j & Ej & A3 & A4)). unfold states_source. rewrite (inner_children _ i Ki), Ej.
  assert (Kj : clean j = true) by (apply (children_clean "Packager" i j Ki); rewrite Ej; left; reflexivity).
  split; [apply below_one; auto|]. split; [apply below_opt; auto|]. split; apply below_one; auto.
Qed.

(** ** ASCII texts are read as they are *)
Definition if_ascii (v w : text) : Prop := XmlSpec.ascii_text v -> v = w.
Section Ascii.
Notation asc := XmlSpec.ascii_text.
Lemma ascii_says e n l : Forall asc l -> XmlSpec.says if_ascii e n l -> says e n l.
Proof. intros A. rewrite Forall_forall in A. apply PropsXml.f2_in. intros v i I H. apply H, A, I. Qed.
Lemma ascii_one e n v : asc v -> XmlSpec.says if_ascii e n [v] -> says e n [v].
Proof. intros A. apply ascii_says. constructor; [exact A|constructor]. Qed.
Lemma ascii_opt e n v : asc v -> XmlSpec.says_opt if_ascii e n v -> XmlSpec.says_opt eq e n v.
Proof. intros A. unfold XmlSpec.says_opt. destruct v; apply ascii_says; [constructor|]. constructor; [exact A|constructor]. Qed.
Lemma ascii_attr i n v : asc v -> XmlSpec.attr_opt if_ascii i n v -> XmlSpec.attr_opt eq i n v.
Proof. intros A. unfold XmlSpec.attr_opt. destruct v; [auto|]. intros (w & E & H). exists w. split; [exact E|apply H, A]. Qed.
Lemma ascii_translations e n l : Forall asc (map f_value l) -> Forall asc (map f_lang l) ->
  XmlSpec.translations if_ascii if_ascii "xml:lang" e n l -> XmlSpec.translations eq eq "xml:lang" e n l.
Proof.
  intros A B. rewrite Forall_forall in A, B. apply PropsXml.f2_in. intros f i I [V L]. split; [apply V, A, in_map, I|]. apply ascii_attr; [apply B, in_map, I|exact L].
Qed.
Lemma ascii_inside {A} (D D' : A -> item -> Prop) e a n o : (forall x i, In x (XmlSpec.opt_list o) -> D x i -> D' x i) ->
  XmlSpec.inside_opt e a o (fun l i => XmlSpec.each D i n l) -> XmlSpec.inside_opt e a o (fun l i => XmlSpec.each D' i n l).
Proof. intros H. unfold XmlSpec.inside_opt. destruct o as [l|]; [|auto]. intros (i & E & F). exists i. split; [exact E|]. revert F. apply PropsXml.f2_in. intros x j I. apply H, I. Qed.
Lemma ascii_package p e : Forall asc (XmlSpec.plain_texts_package p ++ XmlSpec.free_texts_package p) ->
  XmlSpec.describes_package if_ascii if_ascii p e -> XmlSpec.describes_package eq eq p e.
Proof.
  intros A D. apply Forall_app in A as [Ap Af]. unfold XmlSpec.plain_texts_package in Ap. unfold XmlSpec.free_texts_package in Af.
  repeat match type of Ap with Forall _ (?a ++ ?b) => let B := fresh "B" in apply Forall_app in Ap as [B Ap] end. rewrite !Forall_app in Af. rename Ap into B10, B7 into B9, B6 into B8, B5 into B7, B4 into B6, B3 into B5, B2 into B4, B1 into B3, B0 into B2, B into B1. destruct Af as (F1 & F2 & F3).
  repeat match type of B1 with Forall _ (_ :: _) => let X := fresh "One" in pose proof (Forall_inv B1) as X; apply Forall_inv_tail in B1 end.
  rewrite Forall_forall in B5, B9, B10, F3.
  destruct D as (D1 & D2 & D3 & D4 & D5 & D6 & D7 & D8 & D9 & D10 & D11 & D12 & D13 & D14 & D15 & D16 & D17 & D18 & D19 & D20 & D21 & D22).
  unfold XmlSpec.describes_package.
  split; [apply ascii_one; assumption|]. split; [apply ascii_translations; assumption|]. split; [apply ascii_translations; assumption|].
  split; [apply ascii_opt; assumption|]. split; [apply ascii_opt; assumption|]. split; [apply ascii_says; assumption|].
  split. { revert D7. apply ascii_inside. intros d i I (C1 & C2 & C3 & C4 & C5 & C6 & C7).
    assert (Q : forall v, In v [d_name d; d_verfrom d; d_verto d; d_ver d] -> asc v) by (intros v J; apply B5, in_flat_map; exists d; split; assumption).
    split; [apply C1, Q; cbn; tauto|]. split; [exact C2|]. split; [exact C3|]. split; [exact C4|].
    split; [apply ascii_attr; [apply Q; cbn; tauto|exact C5]|]. split; (apply ascii_attr; [apply Q; cbn; tauto|assumption]). }
  split. { revert D8. unfold XmlSpec.inside_opt. destruct (m_conflicts p) as [l|]; [|auto]. intros (i & E & F). exists i. split; [exact E|]. apply ascii_says; assumption. }
  split. { revert D9. unfold XmlSpec.inside_opt. destruct (m_replaces p) as [l|]; [|auto]. intros (i & E & F). exists i. split; [exact E|]. apply ascii_says; assumption. }
  split. { destruct (m_provides p) as [pr|]; [|exact D10]. rewrite !Forall_app in B8. destruct B8 as (G1 & G2 & G3). rewrite Forall_forall in G1.
    destruct D10 as (i & E & (C1 & C2 & C3)). exists i. split; [exact E|]. split; [|split; apply ascii_says; assumption]. revert C1. apply PropsXml.f2_in.
    intros c j I [V L]. assert (Q : forall v, In v [co_value c; co_script c] -> asc v) by (intros v J; apply G1, in_flat_map; exists c; split; assumption).
    split; [apply V, Q; cbn; tauto|]. apply ascii_attr; [apply Q; cbn; tauto|exact L]. }
  split. { destruct D11 as (i & E & F). exists i. split; [exact E|]. revert F. apply PropsXml.f2_in. intros u j I (C1 & C2 & C3 & C4 & C5 & C6 & C7 & C8).
    assert (Q : forall v, In v ([u_type u; u_date u; u_version u; u_email u] ++ flat_map (fun a => [ac_value a; ac_package a]) (XmlSpec.opt_list (u_requires u))) -> asc v)
      by (intros v J; apply B9, in_flat_map; exists u; split; assumption).
    assert (R : forall v, In v [u_comment u; u_name u] -> asc v) by (intros v J; apply F3, in_flat_map; exists u; split; assumption).
    split; [exact C1|]. split; [apply ascii_attr; [apply Q; cbn; tauto|exact C2]|]. split; [apply ascii_one; [apply Q; cbn; tauto|exact C3]|].
    split; [apply ascii_one; [apply Q; cbn; tauto|exact C4]|]. split; [apply ascii_one; [apply Q; cbn; tauto|exact C5]|].
    split; [apply (ascii_one j "Comment"); [apply R; cbn; tauto|exact C6]|]. split; [apply (ascii_one j "Name"); [apply R; cbn; tauto|exact C7]|].
    revert C8. apply ascii_inside. intros a k J [V L].
    assert (T : forall v, In v [ac_value a; ac_package a] -> asc v) by (intros v Jv; apply Q, in_or_app; right; apply in_flat_map; exists a; split; assumption).
    split; [apply V, T; cbn; tauto|]. apply ascii_attr; [apply T; cbn; tauto|exact L]. }
  split; [apply ascii_one; assumption|]. split; [apply ascii_one; assumption|]. split; [apply ascii_one; assumption|]. split; [apply ascii_one; assumption|].
  split; [exact D16|]. split; [exact D17|]. split; [apply ascii_one; assumption|]. split; [apply ascii_one; assumption|].
  split. { revert D20. apply ascii_inside. intros d i I (C1 & C2 & C3 & C4).
    assert (Q : forall v, In v [dl_uri d; dl_hash d] -> asc v) by (intros v J; apply B10, in_flat_map; exists d; split; assumption).
    split; [exact C1|]. split; [apply ascii_one; [apply Q; cbn; tauto|exact C2]|]. split; [exact C3|]. apply ascii_one; [apply Q; cbn; tauto|exact C4]. }
  split; [apply ascii_one; assumption|].
  destruct D22 as (i & E & (C1 & C2 & (j & Ej & C3 & C4))). exists i. split; [exact E|]. split; [apply ascii_one; assumption|]. split; [apply ascii_opt; assumption|].
  exists j. split; [exact Ej|]. split; apply ascii_one; assumption.
Qed.
End Ascii.

(** ** C110: whoever decodes the index gets the packages *)
(** the texts and sizes for which C105 says that a package's element is read exactly *)
Definition exact_package (symbol : N -> bool) (x : index) (p : package) : Prop :=
  Forall XmlSpec.ascii_text (XmlSpec.plain_texts_package p ++ XmlSpec.free_texts_package p) \/
  (XmlSpec.fits x /\ Forall (XmlSpec.no_symbols symbol) (XmlSpec.free_texts_package p)).
Definition decodes_to (i : item) (p : package) : Prop := exists v, unmarshal T_package (zero T_package) i = Some v /\ as_package v = p.

(** what an element states is one package *)
Lemma int_one t y z : int_of t y -> int_of t z -> y = z.
Proof. intros [[-> ->]|A] [[E ->]|B]; [reflexivity|discriminate B|subst; discriminate A|congruence]. Qed.
Lemma ints_one l y z : ints_of l y -> ints_of l z -> y = z.
Proof. intros [_ A] [_ B]. destruct (rev l); [congruence|exact (int_one _ _ _ A B)]. Qed.
Lemma f2_one {A B} (S : A -> B -> Prop) l x y : (forall i a b, S i a -> S i b -> a = b) -> Forall2 S l x -> Forall2 S l y -> x = y.
Proof. intros H F. revert y. induction F as [|i a l x X F IH]; intros y G; inversion G; subst; [reflexivity|]. f_equal; [eapply H; eassumption|apply IH; assumption]. Qed.
Lemma some_one {A} (S : item -> A -> Prop) l x y : (forall i a b, S i a -> S i b -> a = b) -> some_if S l x -> some_if S l y -> x = y.
Proof.
  intros H F G. unfold some_if in *. destruct l as [|i l]; [congruence|]. destruct F as (a & -> & F), G as (b & -> & G). f_equal. exact (f2_one S _ _ _ H F G).
Qed.
Ltac ints := match goal with A : ints_of ?l ?y, B : ints_of ?l ?z |- _ => pose proof (ints_one _ _ _ A B); clear B end.
Lemma lfield_one b i x y : states_lfield b i x -> states_lfield b i y -> x = y.
Proof. destruct x, y. unfold states_lfield. cbn. intros (A1 & A2) (B1 & B2). congruence. Qed.
Lemma dep_one i x y : states_dep i x -> states_dep i y -> x = y.
Proof.
  destruct x, y. unfold states_dep, int_value. cbn [Xml.d_name Xml.d_relfrom Xml.d_relto Xml.d_rel Xml.d_verfrom Xml.d_verto Xml.d_ver]. intros (A1 & A2 & A3 & A4 & A5 & A6 & A7) (B1 & B2 & B3 & B4 & B5 & B6 & B7).
  pose proof (ints_one _ _ _ A2 B2). pose proof (ints_one _ _ _ A3 B3). pose proof (ints_one _ _ _ A4 B4). congruence.
Qed.
Lemma action_one i x y : states_action i x -> states_action i y -> x = y.
Proof. destruct x, y. unfold states_action. cbn. intros (A1 & A2) (B1 & B2). congruence. Qed.
Lemma update_one i x y : states_update i x -> states_update i y -> x = y.
Proof.
  destruct x, y. unfold states_update, int_value. cbn [Xml.u_release Xml.u_type Xml.u_date Xml.u_version Xml.u_comment Xml.u_name Xml.u_email Xml.u_requires].
  intros (A1 & A2 & A3 & A4 & A5 & A6 & A7 & A8) (B1 & B2 & B3 & B4 & B5 & B6 & B7 & B8).
  pose proof (ints_one _ _ _ A1 B1). pose proof (some_one _ _ _ _ action_one A8 B8). congruence.
Qed.
Lemma comar_one i x y : states_comar i x -> states_comar i y -> x = y.
Proof. destruct x, y. unfold states_comar. cbn. intros (A1 & A2) (B1 & B2). congruence. Qed.
Lemma delta_one i x y : states_delta i x -> states_delta i y -> x = y.
Proof.
  destruct x, y. unfold states_delta, int_value, int_below. cbn [Xml.dl_from Xml.dl_uri Xml.dl_size Xml.dl_hash]. intros (A1 & A2 & A3 & A4) (B1 & B2 & B3 & B4).
  pose proof (ints_one _ _ _ A1 B1). pose proof (ints_one _ _ _ A3 B3). congruence.
Qed.
Lemma source_one l x y : states_source l x -> states_source l y -> x = y.
Proof. destruct x as [a b [c d]], y as [a' b' [c' d']]. unfold states_source. cbn [Xml.s_name Xml.s_homepage Xml.s_packager Xml.pk_name Xml.pk_email]. intros (A1 & A2 & A3 & A4) (B1 & B2 & B3 & B4). congruence. Qed.
Lemma provides_one l x y : states_provides l x -> states_provides l y -> x = y.
Proof.
  unfold states_provides. destruct l as [|i l]; [congruence|]. intros (a & -> & A1 & A2 & A3) (b & -> & B1 & B2 & B3). f_equal. destruct a, b. cbn [Xml.pr_comar Xml.pr_pc Xml.pr_pc32] in *.
  pose proof (f2_one _ _ _ _ comar_one A1 B1). congruence.
Qed.
Lemma text_one i (x y : text) : is_text i x -> is_text i y -> x = y.
Proof. unfold is_text. congruence. Qed.
Lemma package_one l x y : states_package l x -> states_package l y -> x = y.
Proof.
  unfold states_package, int_below. intros (A1 & A2 & A3 & A4 & A5 & A6 & A7 & A8 & A9 & A10 & A11 & A12 & A13 & A14 & A15 & A16 & A17 & A18 & A19 & A20 & A21 & A22)
    (B1 & B2 & B3 & B4 & B5 & B6 & B7 & B8 & B9 & B10 & B11 & B12 & B13 & B14 & B15 & B16 & B17 & B18 & B19 & B20 & B21 & B22).
  pose proof (f2_one _ _ _ _ (lfield_one true) A2 B2). pose proof (f2_one _ _ _ _ (lfield_one true) A3 B3). pose proof (some_one _ _ _ _ dep_one A7 B7).
  pose proof (some_one _ _ _ _ text_one A8 B8). pose proof (some_one _ _ _ _ text_one A9 B9). pose proof (provides_one _ _ _ A10 B10).
  pose proof (f2_one _ _ _ _ update_one A11 B11). pose proof (ints_one _ _ _ A16 B16). pose proof (ints_one _ _ _ A17 B17). pose proof (some_one _ _ _ _ delta_one A20 B20).
  pose proof (source_one _ _ _ A22 B22). destruct x, y.
  cbn [Xml.m_name Xml.m_summary Xml.m_descr Xml.m_isa Xml.m_partof Xml.m_license Xml.m_deps Xml.m_conflicts Xml.m_replaces Xml.m_provides Xml.m_history Xml.m_host Xml.m_distro Xml.m_distrel Xml.m_arch Xml.m_isize Xml.m_psize Xml.m_hash Xml.m_uri Xml.m_deltas Xml.m_format Xml.m_source] in *.
  clear - A1 A4 A5 A6 A12 A13 A14 A15 A18 A19 A21 B1 B4 B5 B6 B12 B13 B14 B15 B18 B19 B21 H H0 H1 H2 H3 H4 H5 H6 H7 H8 H9. subst. reflexivity.
Qed.
(** and every number in it is one *)
Lemma states_numbers l p : states_package l p -> Forall is_number (numbers l).
Proof.
  intros (_ & _ & _ & _ & _ & _ & A7 & _ & _ & _ & A11 & _ & _ & _ & _ & A16 & A17 & _ & _ & A20 & _ & _).
  assert (L : forall B (S : item -> B -> Prop) (g : item -> list text) js o, (forall i b, S i b -> Forall is_number (g i)) -> Forall2 S js o -> Forall is_number (flat_map g js)).
  { clear. intros B S g js o H F. induction F as [|i b js o X F IH]; [constructor|]. cbn [flat_map]. apply Forall_app. split; [eapply H, X|exact IH]. }
  unfold numbers. apply Forall_app; split; [|apply Forall_app; split; [|apply Forall_app; split; [apply A16|apply Forall_app; split; [apply A17|]]]].
  - apply some_if_list in A7. eapply L; [|exact A7]. intros i d (_ & [H1 _] & [H2 _] & [H3 _] & _). rewrite !Forall_app. auto.
  - eapply L; [|exact A11]. intros i u ([H _] & _). exact H.
  - apply some_if_list in A20. eapply L; [|exact A20]. intros i d ([H1 _] & _ & [H2 _] & _). rewrite !Forall_app. auto.
Qed.
Lemma package_ints l : ints T_package l = numbers l.
Proof.
  unfold numbers. rewrite !PropsUnxml.inner_kids.
  cbn [ints T_package T_source T_packager T_provides T_comar T_lfield T_dep T_update T_action T_delta fe fp fa ft fst snd flat_map below app].
  rewrite ?PropsUnxml.flat_nil, ?app_nil_r. cbn [app].
  rewrite !PropsUnxml.body_texts, !PropsUnxml.inner_kids.
  f_equal; [|f_equal; [|f_equal; f_equal]]; apply flat_map_ext; intros d; rewrite ?PropsUnxml.values_attr, ?app_nil_r; try reflexivity.
  - rewrite PropsUnxml.flat_nil, app_nil_r. reflexivity.
  - rewrite PropsUnxml.body_texts. reflexivity.
Qed.
Lemma states_decodes i p : elem i -> states_package [i] p -> decodes_to i p.
Proof.
  intros E S. destruct (proj2 (PropsUnxml.decodes T_package i eq_refl E)) as (v & U); [rewrite package_ints; exact (states_numbers _ _ S)|].
  exists v. split; [exact U|]. apply (package_one [i]); [|exact S]. apply PropsUnxml.package_sound; [constructor; [exact E|constructor]|]. rewrite feed_one. exact U.
Qed.

Lemma only_packages x : XmlSays.only "Package" (XmlDoc.all_elements x) = map marshal_package (i_packages x).
Proof.
  unfold XmlDoc.all_elements, elements_of. rewrite !XmlSays.only_app.
  rewrite (XmlSays.only_are "Package" "Distribution") by (destruct (i_dist x); [constructor; [reflexivity|constructor]|constructor]).
  rewrite (XmlSays.only_are "Package" "Package") by (apply XmlSays.are_map; reflexivity).
  rewrite (XmlSays.only_are "Package" "Component") by (apply XmlSays.are_map; reflexivity).
  rewrite (XmlSays.only_are "Package" "Group") by (apply XmlSays.are_map; reflexivity).
  cbn [String.eqb Ascii.eqb Bool.eqb app]. apply app_nil_r.
Qed.
Lemma packages_shown symbol lossy x e : XmlSpec.decoded x -> file_says (render symbol x) e -> (lossy = false -> XmlSpec.fits x) ->
  Forall2 (fun p i => XmlTree.shows symbol lossy (marshal_package p) i) (i_packages x) (children "Package" e).
Proof.
  intros D S L. destruct (PropsXml.file_read symbol lossy x D) as (w & b & Sw & R & F); [intros E; apply PropsXml.fits_aligned; auto|].
  rewrite (PropsXml.file_says_one _ _ _ S (ex_intro _ w (conj Sw R))). cbn [children].
  pose proof (XmlSays.shows_only symbol lossy "Package" _ _ F) as G. rewrite XmlSays.named_element, only_packages in G.
  revert G. generalize (filter (XmlSpec.named "Package") b). generalize (i_packages x). clear. induction l as [|p l IH]; intros is G; inversion G; subst; constructor; auto.
Qed.
Lemma f2_when {A B} (F : Prop) (R S : A -> B -> Prop) l l' : Forall2 R l l' -> (F -> Forall2 S l l') -> Forall2 (fun a b => R a b /\ (F -> S a b)) l l'.
Proof. intros G. induction G as [|a b l l' X G IH]; intros H; constructor; [split; [exact X|intros Y; specialize (H Y); inversion H; assumption]|apply IH; intros Y; specialize (H Y); inversion H; assumption]. Qed.
Theorem C110_index_package_decodes : forall symbol x e, XmlSpec.decoded x -> file_says (render symbol x) e ->
  Forall2 (fun p i => Forall word64 (package_numbers p) -> exact_package symbol x p -> decodes_to i (reread p)) (i_packages x) (children "Package" e).
Proof.
  intros symbol x e D S. pose proof (f2_when (XmlSpec.fits x) _ _ _ _ (packages_shown symbol true x e D S ltac:(discriminate)) (fun F => packages_shown symbol false x e D S (fun _ => F))) as G.
  revert G. apply PropsXml.f2_in. intros p i _ [Sh Sf] W Ex.
  assert (E : elem i) by (inversion Sh; exact I).
  assert (K : clean i = true) by (apply (shows_clean _ _ _ _ Sh), cleanx_package).
  apply states_decodes; [exact E|]. apply package_states; [exact K|exact W|]. destruct Ex as [A|[Fi N]].
  - apply ascii_package; [exact A|]. apply (XmlSays.says_package symbol true); [| |exact Sh]; intros u v H; apply XmlSays.garbles in H; intros Au; apply (PropsXml.garbled_ascii _ _ _ _ _ H Au).
  - apply (PropsXml.package_other eq (fun v w => XmlSpec.garbled symbol false true v w /\ (XmlSpec.no_symbols symbol v -> v = w)) eq).
    + intros v w I [_ H]. apply H. rewrite Forall_forall in N. apply N, I.
    + apply (XmlSays.says_package symbol false); [| |exact (Sf Fi)]; intros u v H; apply XmlSays.garbles in H; [exact (PropsXml.garbled_plain symbol u v H)|].
      split; [exact H|]. apply PropsXml.garbled_clean. exact H.
Qed.
Print Assumptions C110_index_package_decodes.
(** a package whose metadata.xml was read, indexed with a delta, comes back from the
    bytes of the index; and an empty list of replaced packages comes back as none *)
Lemma demo_back (p : package) : Forall word64 (package_numbers p) -> Forall XmlSpec.ascii_text (XmlSpec.plain_texts_package p ++ XmlSpec.free_texts_package p) ->
  XmlSpec.decoded (Index None [p] [] []) -> exists e i, file_says (render (fun _ => false) (Index None [p] [] [])) e /\ children "Package" e = [i] /\ decodes_to i (reread p).
Proof.
  intros W A D. destruct (PropsXml.C105_index_readable_partial (fun _ => false) _ D) as (e & S & _). pose proof (C110_index_package_decodes _ _ e D S) as F.
  cbn [i_packages] in F. inversion F as [|? i ? l H G E1 E2]; subst. inversion G; subst. exists e, i. split; [exact S|]. split; [congruence|]. apply H; [exact W|]. left. exact A.
Qed.
Example C110_demo :
  (exists e i, file_says (render (fun _ => false) demo_relay) e /\ children "Package" e = [i] /\ decodes_to i demo_indexed) /\
  m_name demo_indexed = txt "nano" /\ m_deltas demo_indexed = Some [Delta 1 (txt "d") 100 (txt "h")] /\
  m_replaces (reread (Package [] [] [] [] [] [] None None (Some []) None [] [] [] [] [] 0 0 [] [] None [] (Source [] [] (Packager [] [])))) = None.
Proof.
  split; [|split; [vm_compute; reflexivity|split; reflexivity]]. destruct C108_demo as (_ & _ & _ & D & A).
  replace demo_indexed with (reread demo_indexed) by (vm_compute; reflexivity). apply demo_back; [| |exact D].
  - apply Forall_forall. intros z I. vm_compute in I. repeat (destruct I as [<-|I]; [vm_compute; split; congruence|]). destruct I.
  - unfold XmlSpec.plain_texts, XmlSpec.free_texts in A. cbn [demo_relay i_dist i_packages i_components i_groups flat_map app] in A. rewrite !app_nil_r in A. exact A.
Qed.
