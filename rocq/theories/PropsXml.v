(** * PropsXml: the file of the index says what the metadata says (C105) *)
From Coq Require Import List NArith ZArith ZifyN Bool String Ascii Lia Arith.
From Verif Require Import Escape PropsEscape Xml XmlSpec XmlFacts XmlTree XmlDoc XmlSays.
Import ListNotations.
Open Scope N_scope. Open Scope list_scope.

(** ** What can be encoded *)
Definition plain_ok (v : text) : Prop := xml_text v.
Definition free_ok (v : text) : Prop := xml_text v /\ Forall (fun c => c <> 13) v.
Ltac nm := eexists; eexists; split; [reflexivity|split; reflexivity].
Lemma attrs_none : attrs_good [].
Proof. split; constructor. Qed.
Lemma nodup_app (a b : list (string * text)) : NoDup (map (fun x => txt (fst x)) a) -> NoDup (map (fun x => txt (fst x)) b) ->
  (forall x y, In x a -> In y b -> fst x <> fst y) -> NoDup (map (fun x => txt (fst x)) (a ++ b)).
Proof.
  intros A B D. induction a as [|x a IH]; [exact B|]. cbn [app map]. inversion A as [|? ? N A']; subst. constructor.
  - rewrite map_app, in_app_iff. intros [I|I]; [exact (N I)|]. apply in_map_iff in I as (y & E & I). apply (D x y (or_introl eq_refl) I).
    apply String.eqb_eq. rewrite <- txt_eq. apply same_text_iff. symmetry. exact E.
  - apply IH; [exact A'|]. intros u v I J. apply D; [right; exact I|exact J].
Qed.
Lemma good_app (a b : list (string * text)) : attrs_good a -> attrs_good b -> (forall x y, In x a -> In y b -> fst x <> fst y) -> attrs_good (a ++ b).
Proof. intros [A1 A2] [B1 B2] D. split; [apply Forall_app; split; assumption|apply nodup_app; assumption]. Qed.
Lemma good_one n v : name_ok n -> plain_ok v -> attrs_good [(n, v)].
Proof. intros K V. split; [constructor; [split; assumption|constructor]|]. constructor; [intros []|constructor]. Qed.
Lemma good_opt n v : name_ok n -> plain_ok v -> attrs_good (at_opt n v).
Proof. intros K V. destruct v; [apply attrs_none|apply good_one; assumption]. Qed.
Lemma good_int n z : name_ok n -> attrs_good (at_int n z).
Proof. intros K. unfold at_int. destruct (z =? 0)%Z; [apply attrs_none|apply good_one; [exact K|apply decimal_xml]]. Qed.
Lemma in_opt x n v : In x (at_opt n v) -> fst x = n.
Proof. destruct v; [intros []|]. intros [<-|[]]. reflexivity. Qed.
Lemma in_int x n z : In x (at_int n z) -> fst x = n.
Proof. unfold at_int. destruct (z =? 0)%Z; [intros []|]. intros [<-|[]]. reflexivity. Qed.

Definition goods (l : list xnode) : Prop := Forall good l.
Lemma goods_app a b : goods a -> goods b -> goods (a ++ b).
Proof. intros A B. apply Forall_app. split; assumption. Qed.
Lemma goods_el n v : name_ok n -> plain_ok v -> goods (el n v).
Proof. intros K V. constructor; [|constructor]. constructor; [exact K|apply attrs_none|exact V|discriminate]. Qed.
Lemma goods_el_opt n v : name_ok n -> plain_ok v -> goods (el_opt n v).
Proof. intros K V. destruct v; [constructor|apply goods_el; assumption]. Qed.
Lemma goods_el_int n z : name_ok n -> goods (el_int n z).
Proof. intros K. apply goods_el; [exact K|apply decimal_xml]. Qed.
Lemma goods_els n l : name_ok n -> Forall plain_ok l -> goods (els n l).
Proof. intros K F. induction F as [|v l V F IH]; [constructor|]. apply (goods_app (el n v)); [apply goods_el; assumption|exact IH]. Qed.
Lemma goods_tree n a l : name_ok n -> attrs_good a -> goods l -> good (XTree n a l).
Proof. intros K A G. constructor; assumption. Qed.
Lemma goods_single x : good x -> goods [x].
Proof. intros G. constructor; [exact G|constructor]. Qed.
Lemma goods_under n l : name_ok n -> goods l -> goods (under n l).
Proof. intros K G. apply goods_single, goods_tree; [exact K|apply attrs_none|exact G]. Qed.
Lemma goods_under_opt {A} n (f : A -> list xnode) o : name_ok n -> (forall x, o = Some x -> goods (f x)) -> goods (under_opt n f o).
Proof. intros K G. destruct o; [apply goods_under; [exact K|apply G; reflexivity]|constructor]. Qed.
Lemma goods_map {A} (f : A -> xnode) l : (forall x, In x l -> good (f x)) -> goods (map f l).
Proof. intros G. apply Forall_forall. intros y I. apply in_map_iff in I as (x & <- & I). apply G, I. Qed.
Lemma goods_translations lang n l : name_ok lang -> name_ok n -> (forall f, In f l -> free_ok (f_value f) /\ plain_ok (f_lang f)) ->
  goods (map (fun f => XLeaf n (at_opt lang (f_lang f)) true (f_value f)) l).
Proof.
  intros L K G. apply goods_map. intros f I. destruct (G f I) as [[V C] La]. constructor; [exact K|apply good_opt; assumption|exact V|intros _; exact C].
Qed.
Lemma goods_lfields n l : name_ok n -> (forall f, In f l -> free_ok (f_value f) /\ plain_ok (f_lang f)) -> goods (marshal_lfields n l).
Proof. intros K G. apply (goods_translations "xml:lang" n l); [nm|exact K|exact G]. Qed.

Section Good.
(** the texts of a structure are fine *)
Variable plain free : text -> Prop.
Hypothesis PX : forall v, plain v -> plain_ok v.
Hypothesis FX : forall v, free v -> free_ok v.
Ltac inn := repeat (rewrite in_app_iff); cbn [In]; tauto.
Lemma good_lfields n l : name_ok n -> (forall v, In v (langs l) -> plain v) -> (forall v, In v (texts_lfields l) -> free v) -> goods (marshal_lfields n l).
Proof.
  intros K L V. apply goods_lfields; [exact K|]. intros f I. split; [apply FX, V|apply PX, L]; apply in_map; exact I.
Qed.
Lemma good_package m : (forall v, In v (plain_texts_package m) -> plain v) -> (forall v, In v (free_texts_package m) -> free v) -> good (marshal_package m).
Proof.
  unfold plain_texts_package, free_texts_package. intros HPl HFr.
  assert (L1 : forall v, In v (langs (m_summary m)) -> plain v) by (intros v I; apply HPl; inn).
  assert (L2 : forall v, In v (langs (m_descr m)) -> plain v) by (intros v I; apply HPl; inn).
  assert (T1 : forall v, In v (texts_lfields (m_summary m)) -> free v) by (intros v I; apply HFr; inn).
  assert (T2 : forall v, In v (texts_lfields (m_descr m)) -> free v) by (intros v I; apply HFr; inn).
  assert (Li : Forall plain_ok (m_license m)) by (apply Forall_forall; intros v I; apply PX, HPl; inn).
  assert (De : forall d, In d (opt_list (m_deps m)) -> forall v, In v [d_name d; d_verfrom d; d_verto d; d_ver d] -> plain_ok v).
  { intros d I v J. apply PX, HPl. rewrite !in_app_iff. do 4 right. left. apply in_flat_map. exists d. split; assumption. }
  assert (Co : Forall plain_ok (opt_list (m_conflicts m))) by (apply Forall_forall; intros v I; apply PX, HPl; inn).
  assert (Re : Forall plain_ok (opt_list (m_replaces m))) by (apply Forall_forall; intros v I; apply PX, HPl; inn).
  assert (Pr : forall v, In v (match m_provides m with None => [] | Some p => flat_map (fun c => [co_value c; co_script c]) (pr_comar p) ++ pr_pc p ++ pr_pc32 p end) -> plain_ok v)
    by (intros v I; apply PX, HPl; inn).
  assert (Up : forall u, In u (m_history m) -> forall v, In v ([u_type u; u_date u; u_version u; u_email u] ++ flat_map (fun a => [ac_value a; ac_package a]) (opt_list (u_requires u))) -> plain_ok v).
  { intros u I v J. apply PX, HPl. rewrite !in_app_iff. do 8 right. left. apply in_flat_map. exists u. split; assumption. }
  assert (Uf : forall u, In u (m_history m) -> forall v, In v [u_comment u; u_name u] -> free_ok v).
  { intros u I v J. apply FX, HFr. rewrite !in_app_iff. do 2 right. apply in_flat_map. exists u. split; assumption. }
  assert (Dl : forall d, In d (opt_list (m_deltas m)) -> forall v, In v [dl_uri d; dl_hash d] -> plain_ok v).
  { intros d I v J. apply PX, HPl. rewrite !in_app_iff. do 9 right. apply in_flat_map. exists d. split; assumption. }
  assert (Pl : forall v, In v [m_name m; m_isa m; m_partof m; m_host m; m_distro m; m_distrel m; m_arch m; m_hash m; m_uri m; m_format m;
    s_name (m_source m); s_homepage (m_source m); pk_name (s_packager (m_source m)); pk_email (s_packager (m_source m))] -> plain_ok v)
    by (intros v I; apply PX, HPl; rewrite !in_app_iff; left; exact I).
  clear HPl HFr. unfold marshal_package. apply goods_tree; [nm|apply attrs_none|].
  repeat apply goods_app.
  - apply goods_el; [nm|apply Pl; inn].
  - apply good_lfields; [nm|exact L1|exact T1].
  - apply good_lfields; [nm|exact L2|exact T2].
  - apply goods_el_opt; [nm|apply Pl; inn].
  - apply goods_el_opt; [nm|apply Pl; inn].
  - apply goods_els; [nm|exact Li].
  - apply goods_under_opt; [nm|]. intros l E. apply goods_map. intros d I. rewrite E in De. specialize (De d I). cbn [opt_list] in De.
    constructor; [nm| |apply De; inn|discriminate].
    repeat (apply good_app; [(apply good_int; nm) || (apply good_opt; [nm|apply De; inn])| |
      intros x y I1 I2; repeat rewrite in_app_iff in I2; repeat (destruct I2 as [I2|I2]);
      (apply in_int in I1 || apply in_opt in I1); (apply in_int in I2 || apply in_opt in I2); rewrite I1, I2; discriminate]).
    apply good_opt; [nm|apply De; inn].
  - apply goods_under_opt; [nm|]. intros l E. rewrite E in Co. apply goods_els; [nm|exact Co].
  - apply goods_under_opt; [nm|]. intros l E. rewrite E in Re. apply goods_els; [nm|exact Re].
  - destruct (m_provides m) as [p|]; [|constructor]. apply goods_single. unfold marshal_provides. apply goods_tree; [nm|apply attrs_none|]. repeat apply goods_app.
    + apply goods_map. intros c I. assert (Q : forall v, In v [co_value c; co_script c] -> plain_ok v).
      { intros v J. apply Pr. rewrite in_app_iff. left. apply in_flat_map. exists c. split; assumption. }
      constructor; [nm|apply good_opt; [nm|apply Q; inn]|apply Q; inn|discriminate].
    + apply goods_els; [nm|]. apply Forall_forall. intros v I. apply Pr. inn.
    + apply goods_els; [nm|]. apply Forall_forall. intros v I. apply Pr. inn.
  - apply goods_under; [nm|]. apply goods_map. intros u I. specialize (Up u I). specialize (Uf u I). unfold marshal_update. apply goods_tree; [nm| |].
    + apply (good_app [("release"%string, decimal (u_release u))]); [apply good_one; [nm|apply decimal_xml]|apply good_opt; [nm|apply Up; inn]|].
      intros x y [<-|[]] J. apply in_opt in J. rewrite J. discriminate.
    + repeat apply goods_app.
      * apply goods_el; [nm|apply Up; inn].
      * apply goods_el; [nm|apply Up; inn].
      * apply goods_single. destruct (Uf (u_comment u) ltac:(inn)). constructor; [nm|apply attrs_none|assumption|intros _; assumption].
      * apply goods_single. destruct (Uf (u_name u) ltac:(inn)). constructor; [nm|apply attrs_none|assumption|intros _; assumption].
      * apply goods_el; [nm|apply Up; inn].
      * apply goods_under_opt; [nm|]. intros l E. apply goods_map. intros a J.
        assert (Q : forall v, In v [ac_value a; ac_package a] -> plain_ok v).
        { intros v Iv. apply Up. rewrite in_app_iff. right. rewrite E. apply in_flat_map. exists a. split; assumption. }
        constructor; [nm|apply good_opt; [nm|apply Q; inn]|apply Q; inn|discriminate].
  - apply goods_el; [nm|apply Pl; inn].
  - apply goods_el; [nm|apply Pl; inn].
  - apply goods_el; [nm|apply Pl; inn].
  - apply goods_el; [nm|apply Pl; inn].
  - apply goods_el_int; nm.
  - apply goods_el_int; nm.
  - apply goods_el; [nm|apply Pl; inn].
  - apply goods_el; [nm|apply Pl; inn].
  - apply goods_under_opt; [nm|]. intros l E. apply goods_map. intros d I. rewrite E in Dl. specialize (Dl d I). unfold marshal_delta.
    apply goods_tree; [nm|apply good_int; nm|]. repeat apply goods_app.
    + apply goods_el; [nm|apply Dl; inn].
    + apply goods_el_int; nm.
    + apply goods_el; [nm|apply Dl; inn].
  - apply goods_el; [nm|apply Pl; inn].
  - unfold marshal_source. apply goods_single, goods_tree; [nm|apply attrs_none|]. repeat apply goods_app.
    + apply goods_el; [nm|apply Pl; inn].
    + apply goods_el_opt; [nm|apply Pl; inn].
    + apply goods_single, goods_tree; [nm|apply attrs_none|]. apply goods_app; (apply goods_el; [nm|apply Pl; inn]).
Qed.
End Good.

Lemma good_index x : decoded x -> Forall good (all_elements x).
Proof.
  intros [A B]. apply Forall_app in A as [A1 A2]. rewrite Forall_forall in A1, A2, B.
  set (plain := fun v => In v (plain_texts x)). set (free := fun v => In v (free_texts x)).
  assert (PX : forall v, plain v -> plain_ok v) by (intros v I; apply A1; exact I).
  assert (FX : forall v, free v -> free_ok v) by (intros v I; split; [apply A2; exact I|apply B; exact I]).
  clear A1 A2 B. unfold all_elements, elements_of. apply Forall_app. split; [|apply Forall_app; split; [|apply Forall_app; split]].
  - unfold plain_texts in plain. unfold free_texts in free. destruct (i_dist x) as [d|]; [|constructor]. apply goods_single. unfold marshal_distribution.
    apply goods_tree; [nm|apply attrs_none|].
    assert (Q : forall v, In v ([x_source d; x_version d; x_type d; x_binary d] ++ langs (x_descr d) ++ x_obsoletes d) -> plain_ok v) by (intros v I; apply PX; unfold plain; rewrite in_app_iff; left; exact I).
    assert (R : forall v, In v (texts_lfields (x_descr d)) -> free_ok v) by (intros v I; apply FX; unfold free; rewrite in_app_iff; left; exact I).
    repeat apply goods_app.
    + apply goods_el; [nm|apply Q; cbn [app In]; tauto].
    + apply goods_translations; [nm|nm|]. intros f I. split; [apply R; apply in_map; exact I|]. apply Q. rewrite !in_app_iff. right; left. apply in_map. exact I.
    + apply goods_el; [nm|apply Q; cbn [app In]; tauto].
    + apply goods_el; [nm|apply Q; cbn [app In]; tauto].
    + apply goods_el; [nm|apply Q; cbn [app In]; tauto].
    + apply goods_under; [nm|]. apply goods_els; [nm|]. apply Forall_forall. intros v I. apply Q. rewrite !in_app_iff. do 2 right. exact I.
  - apply goods_map. intros m I. apply (good_package plain free PX FX); intros v J.
    + unfold plain, plain_texts. rewrite !in_app_iff. right; left. apply in_flat_map. exists m. split; assumption.
    + unfold free, free_texts. rewrite !in_app_iff. right; left. apply in_flat_map. exists m. split; assumption.
  - apply goods_map. intros c I.
    assert (Q : forall v, In v ([c_name c; c_group c; c_mname c; c_mmail c] ++ langs (c_lname c) ++ langs (c_summary c) ++ langs (c_descr c)) -> plain v).
    { intros v J. unfold plain, plain_texts. apply in_or_app; right; apply in_or_app; right; apply in_or_app; left. apply in_flat_map. exists c. split; assumption. }
    assert (R : forall v, In v (texts_lfields (c_lname c) ++ texts_lfields (c_summary c) ++ texts_lfields (c_descr c)) -> free v).
    { intros v J. unfold free, free_texts. apply in_or_app; right; apply in_or_app; right; apply in_or_app; left. apply in_flat_map. exists c. split; assumption. }
    unfold marshal_component. apply goods_tree; [nm|apply attrs_none|]. repeat apply goods_app.
    + apply goods_el; [nm|apply PX, Q; cbn [app In]; tauto].
    + apply (good_lfields plain free PX FX); [nm|intros v J; apply Q; rewrite !in_app_iff; tauto|intros v J; apply R; rewrite !in_app_iff; tauto].
    + apply (good_lfields plain free PX FX); [nm|intros v J; apply Q; rewrite !in_app_iff; tauto|intros v J; apply R; rewrite !in_app_iff; tauto].
    + apply (good_lfields plain free PX FX); [nm|intros v J; apply Q; rewrite !in_app_iff; tauto|intros v J; apply R; rewrite !in_app_iff; tauto].
    + apply goods_el; [nm|apply PX, Q; cbn [app In]; tauto].
    + apply goods_single, goods_tree; [nm|apply attrs_none|]. apply goods_app; (apply goods_el; [nm|apply PX, Q; cbn [app In]; tauto]).
  - apply goods_map. intros g I.
    assert (Q : forall v, In v ([g_name g; g_icon g] ++ langs (g_lname g)) -> plain v).
    { intros v J. unfold plain, plain_texts. apply in_or_app; right; apply in_or_app; right; apply in_or_app; right. apply in_flat_map. exists g. split; assumption. }
    assert (R : forall v, In v (texts_lfields (g_lname g)) -> free v).
    { intros v J. unfold free, free_texts. apply in_or_app; right; apply in_or_app; right; apply in_or_app; right. apply in_flat_map. exists g. split; assumption. }
    unfold marshal_group. apply goods_tree; [nm|apply attrs_none|]. repeat apply goods_app.
    + apply goods_el; [nm|apply PX, Q; cbn [app In]; tauto].
    + apply (good_lfields plain free PX FX); [nm|intros v J; apply Q; rewrite !in_app_iff; tauto|exact R].
    + apply goods_el; [nm|apply PX, Q; cbn [app In]; tauto].
Qed.

(** ** Reading the file *)
Lemma file_read symbol lossy x : decoded x -> (lossy = false -> Forall aligned_flush (flushes x)) ->
  exists w b, spells (render symbol x) w /\ read_xml w = Some (El (txt "PISI") [] b) /\ Forall2 (shows symbol lossy) (all_elements x) (filter is_element b).
Proof.
  intros D A. pose proof (good_index x D) as G. destruct (flushes_sent symbol lossy x A (proj2 (fine_file symbol x G))) as (w & S & T).
  destruct (read_file symbol lossy x w G T) as (b & R & F & _). exists w, b. split; [exact S|]. split; [exact R|exact F].
Qed.
Lemma file_says_one f e e' : file_says f e -> file_says f e' -> e = e'.
Proof.
  intros (w & S & R) (w' & S' & R'). assert (w = w') as -> by (apply (C46_spelling_is_unique f f w w' S S'); reflexivity). congruence.
Qed.
Lemma fits_aligned x : decoded x -> fits x -> Forall aligned_flush (flushes x).
Proof.
  intros D F. pose proof (proj2 (fine_file (fun _ => false) x (good_index x D))) as V. unfold file_text in V. rewrite Forall_forall in *.
  intros l I. apply small_aligned; [exact (F l I)|]. apply Forall_forall. intros c J. apply V. apply in_flat_map. exists l. split; assumption.
Qed.
Lemma garbled_plain symbol v w : garbled symbol false false v w -> v = w.
Proof. intros G. induction G as [|c v w D G IH|c r v w D|c k v w D]; [reflexivity|congruence|discriminate..]. Qed.
Lemma garbled_clean symbol v w : garbled symbol false true v w -> no_symbols symbol v -> v = w.
Proof.
  intros G F. induction G as [|c v w D G IH|c r v w D B S K R G IH|c k v w D]; [reflexivity| | |discriminate]; inversion F as [|? ? X F']; subst.
  - f_equal. apply IH, F'.
  - destruct X as [X|[X|X]]; [lia|congruence|contradiction].
Qed.
Lemma garbled_longer symbol v w : garbled symbol false true v w -> (List.length v <= List.length w)%nat.
Proof.
  intros G. induction G as [|c v w D G IH|c r v w D B S K R G IH|c k v w D]; [reflexivity| | |discriminate]; cbn [List.length]; [lia|].
  rewrite app_length. cbn [List.length]. lia.
Qed.
Lemma garbled_same_clean symbol v w : garbled symbol false true v w -> v = w -> no_symbols symbol v.
Proof.
  intros G. induction G as [|c v w D G IH|c r v w D B S K R G IH|c k v w D]; intros E; [constructor| | |discriminate].
  - injection E as E. apply Forall_cons; [|apply IH; exact E]. destruct D as [D|D]; [discriminate|exact D].
  - exfalso. apply (f_equal (@List.length N)) in E. apply garbled_longer in G. cbn [List.length] in E. rewrite app_length in E. cbn [List.length] in E. lia.
Qed.
Lemma garbled_ascii symbol lossy cd v w : garbled symbol lossy cd v w -> ascii_text v -> v = w.
Proof.
  intros G F. induction G as [|c v w D G IH|c r v w D B S K R G IH|c k v w D L K G IH]; [reflexivity| | |]; inversion F as [|? ? X F']; subst; [|lia..].
  f_equal. apply IH, F'.
Qed.

(** ** Descriptions with other relations for CDATA *)
Lemma f2_in {A B} (R S : A -> B -> Prop) l l' : (forall x y, In x l -> R x y -> S x y) -> Forall2 R l l' -> Forall2 S l l'.
Proof. intros H F. induction F as [|x y l l' X F IH]; constructor; [apply H; [left; reflexivity|exact X]|apply IH; intros a b I; apply H; right; exact I]. Qed.
Lemma f2_both {A B} (R S : A -> B -> Prop) l l' : Forall2 R l l' -> Forall2 S l l' -> forall x, In x l -> exists y, R x y /\ S x y.
Proof.
  intros F. induction F as [|x y l l' X F IH]; intros G z I; [destruct I|]. inversion G; subst. destruct I as [<-|I]; [exists y; split; assumption|].
  apply IH; assumption.
Qed.
Section Other.
Variable P C C' : text -> text -> Prop.
Variable lang : string.
Lemma translations_other e n l : (forall v w, In v (texts_lfields l) -> C v w -> C' v w) -> translations P C lang e n l -> translations P C' lang e n l.
Proof. intros H. unfold translations, each. apply f2_in. intros f i I [V L]. split; [apply H; [apply in_map; exact I|exact V]|exact L]. Qed.
Lemma translations_both e n l : translations P C lang e n l -> translations P C' lang e n l -> forall v, In v (texts_lfields l) -> exists w, C v w /\ C' v w.
Proof.
  intros A B v I. apply in_map_iff in I as (f & <- & I). destruct (f2_both _ _ _ _ A B f I) as (i & [V _] & [V' _]). exists (text_in i). split; assumption.
Qed.
End Other.
Section Others.
Variable P C C' : text -> text -> Prop.
Ltac inn := rewrite ?in_app_iff; tauto.
Lemma update_other u e : (forall v w, In v [u_comment u; u_name u] -> C v w -> C' v w) -> describes_update P C u e -> describes_update P C' u e.
Proof.
  unfold describes_update. intros H (A & B & D & E & F & G & K & L). split; [exact A|]. split; [exact B|]. split; [exact D|]. split; [exact E|]. split; [exact F|].
  split; [|split; [|exact L]].
  - unfold each in *. revert G. apply f2_in. intros v i [<-|[]] V. apply H; [left; reflexivity|exact V].
  - unfold each in *. revert K. apply f2_in. intros v i [<-|[]] V. apply H; [right; left; reflexivity|exact V].
Qed.
Lemma update_both u e : describes_update P C u e -> describes_update P C' u e -> forall v, In v [u_comment u; u_name u] -> exists w, C v w /\ C' v w.
Proof.
  intros (_ & _ & _ & _ & _ & A & B & _) (_ & _ & _ & _ & _ & A' & B' & _) v [<-|[<-|[]]].
  - destruct (f2_both _ _ _ _ A A' _ (or_introl eq_refl)) as (i & V & V'). exists (text_in i). split; assumption.
  - destruct (f2_both _ _ _ _ B B' _ (or_introl eq_refl)) as (i & V & V'). exists (text_in i). split; assumption.
Qed.
Lemma package_other m e : (forall v w, In v (free_texts_package m) -> C v w -> C' v w) -> describes_package P C m e -> describes_package P C' m e.
Proof.
  unfold describes_package, free_texts_package. intros H (A1 & A2 & A3 & A4 & A5 & A6 & A7 & A8 & A9 & A10 & A11 & A12).
  split; [exact A1|]. split; [|split; [|split; [exact A4|split; [exact A5|split; [exact A6|split; [exact A7|split; [exact A8|split; [exact A9|split; [exact A10|split; [|exact A12]]]]]]]]]].
  - revert A2. apply translations_other. intros v w I. apply H. inn.
  - revert A3. apply translations_other. intros v w I. apply H. inn.
  - destruct A11 as (i & K & F). exists i. split; [exact K|]. unfold each in *. revert F. apply f2_in. intros u j I. apply update_other.
    intros v w J. apply H. rewrite !in_app_iff. right; right. apply in_flat_map. exists u. split; assumption.
Qed.
Lemma package_both m e : describes_package P C m e -> describes_package P C' m e -> forall v, In v (free_texts_package m) -> exists w, C v w /\ C' v w.
Proof.
  intros (_ & A2 & A3 & _ & _ & _ & _ & _ & _ & _ & A11 & _) (_ & B2 & B3 & _ & _ & _ & _ & _ & _ & _ & B11 & _) v I. unfold free_texts_package in I.
  rewrite !in_app_iff in I. destruct I as [I|[I|I]].
  - exact (translations_both P C C' _ _ _ _ A2 B2 v I).
  - exact (translations_both P C C' _ _ _ _ A3 B3 v I).
  - apply in_flat_map in I as (u & I & J). destruct A11 as (i & K & F), B11 as (i' & K' & F'). assert (i' = i) as -> by congruence.
    destruct (f2_both _ _ _ _ F F' u I) as (j & U & U'). exact (update_both u j U U' v J).
Qed.
Lemma component_other c e : (forall v w, In v (texts_lfields (c_lname c) ++ texts_lfields (c_summary c) ++ texts_lfields (c_descr c)) -> C v w -> C' v w) ->
  describes_component P C c e -> describes_component P C' c e.
Proof.
  intros H (A1 & A2 & A3 & A4 & A5). split; [exact A1|]. split; [|split; [|split; [|exact A5]]]; eapply translations_other; try eassumption; intros v w I; apply H; inn.
Qed.
Lemma component_both c e : describes_component P C c e -> describes_component P C' c e ->
  forall v, In v (texts_lfields (c_lname c) ++ texts_lfields (c_summary c) ++ texts_lfields (c_descr c)) -> exists w, C v w /\ C' v w.
Proof.
  intros (_ & A2 & A3 & A4 & _) (_ & B2 & B3 & B4 & _) v I. rewrite !in_app_iff in I. destruct I as [I|[I|I]];
    [exact (translations_both P C C' _ _ _ _ A2 B2 v I)|exact (translations_both P C C' _ _ _ _ A3 B3 v I)|exact (translations_both P C C' _ _ _ _ A4 B4 v I)].
Qed.
Lemma index_other lang x e : (forall v w, In v (free_texts x) -> C v w -> C' v w) -> describes_index P C lang x e -> describes_index P C' lang x e.
Proof.
  unfold free_texts. intros H (A1 & A2 & A3 & A4 & A5). split; [exact A1|]. unfold each in *. split; [|split; [|split]].
  - revert A2. apply f2_in. intros d i I (B1 & B2 & B3). split; [exact B1|]. split; [|exact B3]. revert B2. apply translations_other.
    intros v w J. apply H. apply in_or_app; left. destruct (i_dist x) as [d'|]; [destruct I as [<-|[]]; exact J|destruct I].
  - revert A3. apply f2_in. intros m i I. apply package_other. intros v w J. apply H. apply in_or_app; right; apply in_or_app; left. apply in_flat_map. exists m. split; assumption.
  - revert A4. apply f2_in. intros c i I. apply component_other. intros v w J. apply H.
    apply in_or_app; right; apply in_or_app; right; apply in_or_app; left. apply in_flat_map. exists c. split; assumption.
  - revert A5. apply f2_in. intros g i I (B1 & B2 & B3). split; [exact B1|]. split; [|exact B3]. revert B2. apply translations_other.
    intros v w J. apply H. apply in_or_app; right; apply in_or_app; right; apply in_or_app; right. apply in_flat_map. exists g. split; assumption.
Qed.
Lemma index_both lang x e : describes_index P C lang x e -> describes_index P C' lang x e -> forall v, In v (free_texts x) -> exists w, C v w /\ C' v w.
Proof.
  intros (_ & A2 & A3 & A4 & A5) (_ & B2 & B3 & B4 & B5) v I. unfold free_texts in I. unfold each in *.
  apply in_app_or in I as [I|I]; [|apply in_app_or in I as [I|I]; [|apply in_app_or in I as [I|I]]].
  - destruct (i_dist x) as [d|]; [|destruct I]. destruct (f2_both _ _ _ _ A2 B2 d (or_introl eq_refl)) as (i & (_ & U & _) & (_ & U' & _)).
    exact (translations_both P C C' _ _ _ _ U U' v I).
  - apply in_flat_map in I as (m & I & J). destruct (f2_both _ _ _ _ A3 B3 m I) as (i & U & U'). exact (package_both m i U U' v J).
  - apply in_flat_map in I as (c & I & J). destruct (f2_both _ _ _ _ A4 B4 c I) as (i & U & U'). exact (component_both c i U U' v J).
  - apply in_flat_map in I as (g & I & J). destruct (f2_both _ _ _ _ A5 B5 g I) as (i & (_ & U & _) & (_ & U' & _)).
    exact (translations_both P C C' _ _ _ _ U U' v J).
Qed.
End Others.

(** ** C105: the file of the index is well-formed and describes what was encoded *)
(** every file: well-formed XML with all elements, attributes and numbers; texts are
    exact as far as they are ASCII *)
Theorem C105_index_readable_partial :
  forall symbol x, decoded x -> exists e, file_says (render symbol x) e /\
    describes_index (fun v w => garbled symbol true false v w /\ (ascii_text v -> v = w))
                    (fun v w => garbled symbol true true v w /\ (ascii_text v -> v = w)) "lang" x e.
Proof.
  intros symbol x D. destruct (file_read symbol true x D) as (w & b & S & R & F); [discriminate|]. exists (El (txt "PISI") [] b).
  split; [exists w; split; assumption|]. apply (says_index symbol true); [| |exact F]; intros u v A; apply garbles in A; (split; [exact A|apply (garbled_ascii _ _ _ _ _ A)]).
Qed.
Print Assumptions C105_index_readable_partial.
(** elements of up to 4096 bytes: all is exact, but for references in CDATA *)
Theorem C105_small_elements_exact_partial :
  forall symbol x, decoded x -> fits x -> exists e, file_says (render symbol x) e /\
    describes_index eq (fun v w => garbled symbol false true v w /\ (no_symbols symbol v -> v = w)) "lang" x e.
Proof.
  intros symbol x D Fi. destruct (file_read symbol false x D) as (w & b & S & R & F); [intros _; apply fits_aligned; assumption|]. exists (El (txt "PISI") [] b).
  split; [exists w; split; assumption|].
  apply (says_index symbol false); [| |exact F]; intros u v A; apply garbles in A; [exact (garbled_plain symbol u v A)|]. split; [exact A|]. apply garbled_clean. exact A.
Qed.
Print Assumptions C105_small_elements_exact_partial.
(** they are exact altogether just when no text in CDATA has a symbol *)
Theorem C105_small_elements_exact_iff_no_symbols :
  forall symbol x e, decoded x -> fits x -> file_says (render symbol x) e ->
    (describes_index eq eq "lang" x e <-> Forall (no_symbols symbol) (free_texts x)).
Proof.
  intros symbol x e D Fi S. destruct (C105_small_elements_exact_partial symbol x D Fi) as (e' & S' & H). rewrite <- (file_says_one _ _ _ S S') in H. split.
  - intros G. apply Forall_forall. intros v I. destruct (index_both _ _ _ "lang" x e G H v I) as (w & <- & A & _). exact (garbled_same_clean symbol v v A eq_refl).
  - intros G. rewrite Forall_forall in G. revert H. apply index_other. intros v w I [_ H]. apply H, G, I.
Qed.
Print Assumptions C105_small_elements_exact_iff_no_symbols.

(** ** Where it does not *)
Definition one_group (name lname icon : text) : index := Index None [] [] [Group name [LField lname []] icon].
Lemma ascii_written symbol a rest : ascii_text a -> write symbol (a ++ rest) = a ++ write symbol rest.
Proof.
  intros A. induction A as [|c a L A IH]; [reflexivity|]. cbn [app]. change (c :: a ++ rest) with ([c] ++ (a ++ rest)).
  rewrite (write_spelling symbol c [c]); [|left; lia|left; split; [lia|reflexivity]]. rewrite IH.
  unfold append_rune. unfold must_escape. rewrite (proj2 (N.ltb_ge 127 c)) by lia. cbn [andb].
  assert (Ne : (c =? rune_error) = false) by (apply N.eqb_neq; unfold rune_error; lia). rewrite Ne.
  unfold encode. rewrite (proj2 (N.leb_le c 127)) by lia. reflexivity.
Qed.
(** a symbol, for example the trade mark sign, in a CDATA section: the reader sees
    the reference as it stands *)
Theorem C105_symbol_refuted :
  exists x, decoded x /\ fits x /\ forall symbol e, symbol 8482 = true -> file_says (render symbol x) e -> ~ describes_index eq eq "lang" x e.
Proof.
  set (x := one_group [65] [8482] [66]). assert (D : decoded x) by (split; repeat constructor; discriminate).
  assert (Fi : fits x) by (intros l I; repeat (destruct I as [<-|I]; [apply Nat.leb_le; vm_compute; reflexivity|]); destruct I).
  exists x. split; [exact D|]. split; [exact Fi|]. intros symbol e Sy S H. apply (C105_small_elements_exact_iff_no_symbols symbol x e D Fi S) in H.
  inversion H as [|? ? Q _]; subst. inversion Q as [|? ? [L|[L|L]] _]; subst; [destruct (L eq_refl)|congruence|discriminate].
Qed.
Print Assumptions C105_symbol_refuted.
(** a carriage return in a CDATA section is read as a line feed *)
Theorem C105_carriage_return_refuted :
  exists x, Forall (Forall (fun c => xml_char c = true)) (plain_texts x ++ free_texts x) /\ fits x /\
    forall symbol e, file_says (render symbol x) e -> ~ describes_index eq eq "lang" x e.
Proof.
  set (x := one_group [65] [13] [66]). exists x. split; [repeat constructor|].
  split; [intros l I; repeat (destruct I as [<-|I]; [apply Nat.leb_le; vm_compute; reflexivity|]); destruct I|]. intros symbol e S H.
  set (f := render (fun _ => false) x). assert (Ef : render symbol x = f) by (vm_compute; reflexivity). rewrite Ef in S.
  assert (Af : spells f f) by (apply spells_ascii; vm_compute; repeat constructor).
  assert (R : exists e', read_xml f = Some e') by (eexists; vm_compute; reflexivity). destruct R as (e' & R).
  assert (e = e') as -> by (eapply file_says_one; [exact S|exists f; split; [exact Af|exact R]]).
  vm_compute in R. injection R as <-. destruct H as (_ & _ & _ & _ & G). inversion G as [|g i gs is (_ & T & _) _ E1 E2]; subst. unfold translations, each in T.
  inversion T as [|a b l' m' [V _] _ E3 E4]; subst. vm_compute in V. discriminate V.
Qed.
Print Assumptions C105_carriage_return_refuted.
(** the language of a distribution's description is not where xml:lang is looked for *)
Theorem C105_distribution_language_refuted :
  exists x, decoded x /\ fits x /\ forall symbol e, file_says (render symbol x) e -> ~ describes_index eq eq "xml:lang" x e.
Proof.
  set (x := Index (Some (Distribution [65] [LField [66] [102; 114]] [49] [67] [68] [])) [] [] []). exists x.
  assert (D : decoded x) by (split; repeat constructor; discriminate). split; [exact D|].
  assert (Fi : fits x) by (intros l I; repeat (destruct I as [<-|I]; [apply Nat.leb_le; vm_compute; reflexivity|]); destruct I). split; [exact Fi|].
  intros symbol e S H. destruct (C105_small_elements_exact_partial symbol x D Fi) as (e' & S' & G). rewrite <- (file_says_one _ _ _ S S') in G. clear S'.
  set (f := render (fun _ => false) x). assert (Ef : render symbol x = f) by (vm_compute; reflexivity). rewrite Ef in S.
  assert (Af : spells f f) by (apply spells_ascii; vm_compute; repeat constructor).
  assert (R : exists e', read_xml f = Some e') by (eexists; vm_compute; reflexivity). destruct R as (e2 & R).
  assert (e = e2) as -> by (eapply file_says_one; [exact S|exists f; split; [exact Af|exact R]]). clear G.
  vm_compute in R. injection R as <-. destruct H as (_ & A & _). inversion A as [|g i gs is (_ & T & _) _ E1 E2]; subst. unfold translations, each in T.
  inversion T as [|a b l' m' [_ V] _ E3 E4]; subst. destruct V as (w & V & _). vm_compute in V. discriminate V.
Qed.
Print Assumptions C105_distribution_language_refuted.

(** a character in two pieces of the buffer *)
Lemma escape_plain v : Forall (fun c => escaped c = None) v -> forall acc, escape_calls acc v = [(false, acc ++ v)].
Proof.
  induction 1 as [|c v E F IH]; intros acc; cbn [escape_calls]; [rewrite app_nil_r; reflexivity|]. rewrite E, IH, <- app_assoc. reflexivity.
Qed.
Lemma buffered_front a : forall buf l, (List.length buf + List.length (bytes_of a) <= buffer_size)%nat -> buffered buf (a ++ l) = buffered (buf ++ bytes_of a) l.
Proof.
  induction a as [|[d v] a IH]; intros buf l L; cbn [app bytes_of flat_map snd] in *; [rewrite app_nil_r; reflexivity|].
  rewrite app_length in L. cbn [buffered buffer]. rewrite (proj2 (Nat.leb_le _ _)) by lia. cbn [app]. fold (bytes_of a) in *.
  rewrite IH by (rewrite app_length; lia). rewrite <- app_assoc. reflexivity.
Qed.
Lemma buffered_split buf v l u s : utf8 v = u ++ s -> (List.length buf + List.length u = buffer_size)%nat -> buf <> [] -> s <> [] ->
  (List.length s + List.length (bytes_of l) <= buffer_size)%nat -> buffered buf ((false, v) :: l) = [buf ++ u; s ++ bytes_of l].
Proof.
  intros E L Nb Ns Ls. cbn [buffered]. rewrite E. cbn [buffer].
  rewrite (proj2 (Nat.leb_gt _ _)) by (rewrite app_length; destruct s; [congruence|cbn [List.length]; lia]).
  destruct buf as [|b buf]; [congruence|]. set (B := b :: buf) in *.
  assert (K : (buffer_size - List.length B = List.length u)%nat) by lia. rewrite K.
  rewrite (skipn_app (List.length u) u s), skipn_all, Nat.sub_diag. rewrite (firstn_app (List.length u) u s), firstn_all, Nat.sub_diag. cbn [firstn skipn app]. rewrite app_nil_r.
  assert (G : forall f, buffer (S f) false [] s = ([], s)) by (intros f; cbn [buffer]; rewrite (proj2 (Nat.leb_le _ _)) by (cbn [List.length]; lia); reflexivity).
  destruct (List.length (u ++ s)) as [|f] eqn:Lf; [rewrite app_length in Lf; destruct s; [congruence|cbn [List.length] in Lf; lia]|].
  rewrite (G f). rewrite buffered_small by lia. destruct s as [|c s]; [congruence|]. reflexivity.
Qed.
Definition before_name : list call := newline 1 ++ emit_start "Group" [] ++ newline 2 ++ emit_start "Name" [].
Definition after_name : list call := emit_end "Name" ++ flat_map (emit 2) (marshal_lfields "LocalName" [LField [66] []] ++ el "Icon" [67]) ++ newline 1 ++ emit_end "Group".
Lemma read_run run : (forall c, In c run -> c = 97) -> forall h e o,
  read_chars (Reader InText h (e :: o)) run = Some (Reader InText (h ++ map Ch run) (e :: o)).
Proof.
  induction run as [|c run IH]; intros A h e o; [cbn [map]; rewrite app_nil_r; reflexivity|]. rewrite (A c (or_introl eq_refl)). cbn [map].
  change (read_chars (Reader InText h (e :: o)) (97 :: run)) with (read_chars (Reader InText (h ++ [Ch 97]) (e :: o)) run).
  rewrite IH by (intros d I; apply A; right; exact I). rewrite <- app_assoc. reflexivity.
Qed.
Theorem C105_split_character_refuted :
  exists x, decoded x /\ Forall ascii_text (free_texts x) /\
    forall symbol e, symbol 233 = false -> file_says (render symbol x) e -> ~ describes_index eq eq "lang" x e.
Proof.
  remember (repeat 97 (N.to_nat 4060)) as run eqn:Er.
  assert (Lr : List.length run = N.to_nat 4060) by (subst run; apply repeat_length).
  assert (Ar : forall c, In c run -> c = 97) by (intros c I; subst run; exact (repeat_spec _ _ _ I)). clear Er.
  assert (A97 : ascii_text run) by (apply Forall_forall; intros c I; apply Ar in I as ->; reflexivity).
  set (x := one_group (run ++ [233]) [66] [67]). exists x.
  assert (X97 : xml_text (run ++ [233])) by (apply Forall_app; split; [apply Forall_forall; intros c I; apply Ar in I as ->; reflexivity|repeat constructor]).
  split; [split; [apply Forall_cons; [exact X97|repeat constructor]|repeat constructor; discriminate]|]. split; [repeat constructor|].
  intros symbol e Sy S H.
  assert (Ec : flushes x = [head_calls x; before_name ++ (false, run ++ [233]) :: after_name; tail_calls x]).
  { unfold flushes, x, one_group. cbn [elements_of i_packages i_components i_groups map app]. f_equal. f_equal.
    unfold marshal_group. cbn [g_name g_lname g_icon emit app el flat_map]. unfold emit_text at 1. rewrite (escape_plain (run ++ [233])).
    - unfold before_name, after_name. rewrite <- !app_assoc. cbn [app]. reflexivity.
    - apply Forall_app. split; [apply Forall_forall; intros c I; apply Ar in I as ->; reflexivity|repeat constructor]. }
  set (B := bytes_of before_name). assert (LB : List.length B = 35%nat) by (vm_compute; reflexivity).
  assert (Eb : buffered [] (before_name ++ (false, run ++ [233]) :: after_name) = [B ++ run ++ [195]; [169] ++ bytes_of after_name]).
  { rewrite buffered_front by (fold B; rewrite LB; cbn [List.length]; unfold buffer_size; lia). fold B. cbn [app].
    refine (buffered_split B (run ++ [233]) after_name (run ++ [195]) [169] _ _ _ _ _).
    - unfold utf8. rewrite flat_map_app. rewrite <- app_assoc. f_equal. clear -Ar.
      induction run as [|c run IH]; [reflexivity|]. cbn [flat_map]. rewrite (Ar c (or_introl eq_refl)). cbn [app]. change (encode 97) with [97]. cbn [app].
      f_equal. apply IH. intros d I. apply Ar. right. exact I.
    - rewrite LB, app_length, Lr. cbn [List.length]. unfold buffer_size. lia.
    - intros Z. rewrite Z in LB. discriminate LB.
    - discriminate.
    - assert (Z : List.length (bytes_of after_name) = 100%nat) by (vm_compute; reflexivity). rewrite Z. cbn [List.length]. unfold buffer_size. lia. }
  set (F1 := writes symbol (buffered [] (head_calls x))). set (F3 := writes symbol (buffered [] (tail_calls x))).
  assert (E1 : F1 = txt "    <PISI>") by (vm_compute; reflexivity).
  assert (E3 : F3 = 10 :: txt "    </PISI>") by (vm_compute; reflexivity).
  assert (Er : render symbol x = (txt "    <PISI>" ++ B ++ run) ++ encode rune_error ++ encode rune_error ++ (bytes_of after_name ++ 10 :: txt "    </PISI>")).
  { unfold render. rewrite Ec. cbn [flat_map]. fold F1 F3. rewrite E1, E3, Eb. cbn [writes flat_map app].
    replace (write symbol (B ++ run ++ [195])) with (B ++ run ++ encode rune_error).
    2:{ rewrite ascii_written by (vm_compute; repeat constructor). rewrite ascii_written by exact A97. reflexivity. }
    replace (write symbol (169 :: bytes_of after_name)) with (encode rune_error ++ bytes_of after_name).
    2:{ rewrite write_error by reflexivity. rewrite <- (app_nil_r (bytes_of after_name)) at 2. rewrite ascii_written by (vm_compute; repeat constructor).
        change (write symbol []) with (@nil N). rewrite app_nil_r. reflexivity. }
    rewrite !app_nil_r, <- !app_assoc. reflexivity. }
  set (w := (txt "    <PISI>" ++ B ++ run) ++ [rune_error; rune_error] ++ (bytes_of after_name ++ 10 :: txt "    </PISI>")).
  assert (Sw : spells (render symbol x) w).
  { rewrite Er. unfold w. apply spells_app; [apply spells_ascii; apply Forall_app; split; [repeat constructor|apply Forall_app; split; [vm_compute; repeat constructor|exact A97]]|].
    cbn [app]. constructor; [right; split; [reflexivity|discriminate]|apply encode_spec; right; split; [reflexivity|discriminate]|].
    constructor; [right; split; [reflexivity|discriminate]|apply encode_spec; right; split; [reflexivity|discriminate]|].
    apply spells_ascii. vm_compute. repeat constructor. }
  assert (NC : lines w = w).
  { apply lines_same. unfold w. apply Forall_app. split; [apply Forall_app; split; [repeat constructor; discriminate|apply Forall_app; split; [vm_compute; repeat constructor; discriminate|]]|vm_compute; repeat constructor; discriminate].
    apply Forall_forall. intros c I. apply Ar in I as ->. discriminate. }
  assert (R1 : exists e1 o1, read_chars (Reader InText [] []) (txt "    <PISI>" ++ B) = Some (Reader InText [] (e1 :: o1)) /\
    forall h, read_chars (Reader InText h (e1 :: o1)) ([rune_error; rune_error] ++ (bytes_of after_name ++ 10 :: txt "    </PISI>")) =
      Some (Reader InText (map Ch (txt "    ") ++ [El (txt "PISI") [] (map Ch (newline_text 1) ++ [El (txt "Group") [] (map Ch (newline_text 2) ++
        [El (txt "Name") [] ((h ++ [Ch rune_error]) ++ [Ch rune_error])] ++ map Ch (newline_text 2) ++ [El (txt "LocalName") [] [Ch 66]] ++
        map Ch (newline_text 2) ++ [El (txt "Icon") [] [Ch 67]] ++ map Ch (newline_text 1))] ++ map Ch (newline_text 0))]) [])).
  { eexists; eexists; split; [vm_compute; reflexivity|]. intros h. vm_compute. reflexivity. }
  destruct R1 as (e1 & o1 & R1 & R2).
  assert (R : exists i, read_xml w = Some (El (txt "PISI") [] i) /\ exists j, filter (named "Group") i = [El (txt "Group") [] j] /\
    filter (named "Name") j = [El (txt "Name") [] ((map Ch run ++ [Ch rune_error]) ++ [Ch rune_error])]).
  { eexists. split; [|eexists; split].
    - unfold read_xml. rewrite NC. unfold w. rewrite read_app, app_assoc, read_app, R1, (read_run run Ar), R2. cbn [app]. reflexivity.
    - reflexivity.
    - reflexivity. }
  destruct R as (i & R & j & Gi & Gj). assert (e = El (txt "PISI") [] i) as -> by (eapply file_says_one; [exact S|exists w; split; [exact Sw|exact R]]).
  destruct H as (_ & _ & _ & _ & G). unfold each in G. cbn [children] in G. rewrite Gi in G. inversion G as [|g k gs is (A & _) _ E4 E5]; subst.
  unfold says in A. cbn [children] in A. rewrite Gj in A. inversion A as [|a b l' m' V _ E6 E7]; subst.
  assert (T : forall r, flat_map (fun x => match x with Ch c => [c] | El _ _ _ => [] end) (map Ch r) = r) by (induction r as [|c r IH]; [reflexivity|]; cbn [map flat_map app]; rewrite IH; reflexivity).
  cbn [text_in g_name] in V. rewrite !flat_map_app, T in V. cbn [flat_map app] in V. rewrite <- app_assoc in V. apply app_inv_head in V. discriminate V.
Qed.
Print Assumptions C105_split_character_refuted.

(** ** A concrete index: it meets the hypotheses; the bytes of a small one *)
Local Open Scope string_scope. Local Open Scope N_scope. Local Open Scope list_scope.
Definition demo_package : package :=
  Package (txt "nano") [LField (txt "A small editor & more") (txt "en"); LField ([233] ++ txt "diteur <petit>")%list (txt "fr")] [LField (txt "ends with ]]> here") []]
    (txt "app") (txt "system.devel") [txt "GPL-3.0"; txt "MIT"]
    (Some [Dep (txt "ncurses") 12 0 0 [] [] []; Dep (txt "zlib") 0 0 3 [] [] (txt "1.2")]) (Some [txt "pico"]) None
    (Some (Provides [Comar (txt "System.Package") (txt "package.py")] [txt "nano"] []))
    [Update 105 (txt "security") (txt "2019-01-02") (txt "2.9.8") (txt "fix ""all""") (txt "Ann") (txt "ann@x") (Some [Action (txt "reboot") (txt "nano")]);
     Update 104 [] (txt "2018-01-02") (txt "2.9.7") [] (txt "Bob") (txt "bob@x") None]
    (txt "host") (txt "Solus") (txt "1") (txt "x86_64") 2000 700 (txt "abc") (txt "n/nano/nano-2.9.8-105-1-x86_64.eopkg")
    (Some [Delta 104 (txt "d") 100 (txt "h")]) (txt "1.2") (Source (txt "nano") (txt "https://x") (Packager (txt "P") (txt "p@x"))).
Definition demo_index : index :=
  Index (Some (Distribution (txt "Solus") [LField (txt "the distribution") []] (txt "1") (txt "main") (txt "Solus") [txt "old"])) [demo_package]
    [Component (txt "system.devel") [LField (txt "Development") (txt "en")] [] [] (txt "system") (txt "M") (txt "m@x")] [Group (txt "system") [LField (txt "System") (txt "en")] (txt "i")].
Example C105_demo :
  decoded demo_index /\ fits demo_index /\ Forall (no_symbols (fun c => c =? 8482)) (free_texts demo_index) /\ ~ Forall ascii_text (free_texts demo_index).
Proof.
  assert (X : forall l, forallb (forallb xml_char) l = true -> Forall (Forall (fun c => xml_char c = true)) l).
  { intros l H. rewrite forallb_forall in H. apply Forall_forall. intros v I. specialize (H v I). rewrite forallb_forall in H. apply Forall_forall. exact H. }
  assert (Y : forall (p : N -> bool) l, forallb (forallb p) l = true -> Forall (Forall (fun c => p c = true)) l).
  { intros p l H. rewrite forallb_forall in H. apply Forall_forall. intros v I. specialize (H v I). rewrite forallb_forall in H. apply Forall_forall. exact H. }
  split; [split|split; [|split]].
  - apply X. vm_compute. reflexivity.
  - eapply Forall_impl; [|apply (Y (fun c => negb (c =? 13))); vm_compute; reflexivity]. intros v F. eapply Forall_impl; [|exact F]. intros c H. cbn beta in H.
    apply N.eqb_neq. destruct (c =? 13); [discriminate|reflexivity].
  - intros l I. repeat (destruct I as [<-|I]; [apply Nat.leb_le; vm_compute; reflexivity|]). destruct I.
  - eapply Forall_impl; [|apply (Y (fun c => c <=? 255)); vm_compute; reflexivity]. intros v F. eapply Forall_impl; [|exact F]. intros c H. cbn beta in H.
    apply N.leb_le in H. right; left. apply N.eqb_neq. lia.
  - intros F. rewrite Forall_forall in F. specialize (F ([233] ++ txt "diteur <petit>")%list). assert (I : In ([233] ++ txt "diteur <petit>")%list (free_texts demo_index)) by (vm_compute; tauto).
    apply F in I. inversion I as [|? ? L _]; subst. discriminate L.
Qed.
Example C105_bytes_demo :
  render (fun c => c =? 8482) (one_group (txt "a<b") ([8482] ++ txt " ]]>")%list (txt "i")) = (txt "    <PISI>" ++ [10] ++
    txt "        <Group>" ++ [10] ++ txt "            <Name>a&lt;b</Name>" ++ [10] ++
    txt "            <LocalName><![CDATA[&#x2122; ]]]]><![CDATA[>]]></LocalName>" ++ [10] ++ txt "            <Icon>i</Icon>" ++ [10] ++
    txt "        </Group>" ++ [10] ++ txt "    </PISI>")%list.
Proof. vm_compute. reflexivity. Qed.
