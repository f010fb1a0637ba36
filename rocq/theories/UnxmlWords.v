(** * UnxmlWords: the words C107 uses for texts: blanks around, numbers, names *)
From Coq Require Import List NArith ZArith Bool String Ascii Lia.
From Verif Require Import Escape Xml Unxml.
From Verif Require XmlTree.
Import ListNotations.
Open Scope N_scope. Open Scope list_scope.

(** ** Specification *)
(** the characters with Unicode's property White_Space *)
Definition blanks : list N :=
  [9; 10; 11; 12; 13; 32; 133; 160; 5760; 8192; 8193; 8194; 8195; 8196; 8197; 8198; 8199; 8200; 8201; 8202; 8232; 8233; 8239; 8287; 12288].
Definition blank (c : N) : Prop := In c blanks.
(** [w] is [t] without the blanks around it *)
Definition stripped (t w : text) : Prop :=
  exists a b, t = a ++ w ++ b /\ Forall blank a /\ Forall blank b /\
    (forall c u, w = c :: u -> ~ blank c) /\ (forall c u, w = u ++ [c] -> ~ blank c).
(** decimal notation: the last digit counts ones *)
Inductive digits : text -> N -> Prop :=
| digit_one d : d < 10 -> digits [48 + d] d
| digit_more l n d : digits l n -> d < 10 -> digits (l ++ [48 + d]) (10 * n + d).
(** an integer in decimal notation, perhaps with a sign *)
Inductive integer : text -> Z -> Prop :=
| int_plain l n : digits l n -> integer l (Z.of_N n)
| int_plus l n : digits l n -> integer (43 :: l) (Z.of_N n)
| int_minus l n : digits l n -> integer (45 :: l) (- Z.of_N n).
Definition word64 (z : Z) : Prop := (- 2 ^ 63 <= z < 2 ^ 63)%Z.

(** ** Blanks *)
Lemma space_blank c : space c = true <-> blank c.
Proof.
  unfold space, within, blank, blanks. rewrite !orb_true_iff, !andb_true_iff, !N.leb_le, !N.eqb_eq. cbn [In].
  split; intros H; repeat match goal with X : _ \/ _ |- _ => destruct X end; subst; lia || tauto || idtac.
Qed.
Lemma trim_left_split t : exists a, t = a ++ trim_left t /\ Forall blank a /\ (forall c u, trim_left t = c :: u -> ~ blank c).
Proof.
  induction t as [|c t (a & E & F & H)]; cbn [trim_left].
  - exists []. split; [reflexivity|]. split; [constructor|]. discriminate.
  - destruct (space c) eqn:S.
    + exists (c :: a). split; [cbn [app]; f_equal; exact E|]. split; [constructor; [apply space_blank, S|exact F]|exact H].
    + exists []. split; [reflexivity|]. split; [constructor|]. intros c' u [= <- <-] B. apply space_blank in B. congruence.
Qed.
Lemma trim_stripped t : stripped t (trim t).
Proof.
  unfold trim. destruct (trim_left_split t) as (a & E & Fa & Ha). set (m := trim_left t) in *.
  destruct (trim_left_split (rev m)) as (b & E2 & Fb & Hb). set (w := trim_left (rev m)) in *.
  assert (E3 : m = rev w ++ rev b) by (rewrite <- rev_app_distr, <- E2, rev_involutive; reflexivity).
  exists a, (rev b). split; [rewrite E, E3 at 1; reflexivity|]. split; [exact Fa|]. split; [apply Forall_rev, Fb|]. split.
  - intros c u Ew. rewrite Ew in E3. cbn [app] in E3. exact (Ha _ _ E3).
  - intros c u Ew. apply (Hb c (rev u)). rewrite <- (rev_involutive w), Ew, rev_app_distr. reflexivity.
Qed.
(** what is stripped is unique *)
Lemma strip_front a x b y : Forall blank a -> Forall blank b -> a ++ x = b ++ y ->
  (forall c u, x = c :: u -> ~ blank c) -> (forall c u, y = c :: u -> ~ blank c) -> a = b /\ x = y.
Proof.
  intros Fa. revert b. induction Fa as [|c a B Fa IH]; intros b Fb E Hx Hy.
  - destruct Fb as [|d b B Fb]; [auto|]. cbn in E. exfalso. exact (Hx _ _ E B).
  - destruct Fb as [|d b Bd Fb]; cbn in E.
    + exfalso. symmetry in E. exact (Hy _ _ E B).
    + injection E as -> E. destruct (IH b Fb E Hx Hy). subst. auto.
Qed.
Lemma stripped_unique t v w : stripped t v -> stripped t w -> v = w.
Proof.
  intros (a & b & E & Fa & Fb & H1 & H2) (a' & b' & E' & Fa' & Fb' & H1' & H2').
  assert (X : forall v b, Forall blank b -> (forall c u, v = u ++ [c] -> ~ blank c) -> forall c u, rev v = c :: u -> ~ blank c).
  { clear. intros v b _ H c u Ev. apply (H c (rev u)). rewrite <- (rev_involutive v), Ev. reflexivity. }
  assert (AllB : forall a v b, Forall blank a -> Forall blank b -> v = [] -> Forall blank (a ++ v ++ b)).
  { clear. intros a v b Fa Fb ->. apply Forall_app. auto. }
  assert (Mid : forall a v b, Forall blank (a ++ v ++ b) -> (forall c u, v = c :: u -> ~ blank c) -> v = []).
  { clear. intros a v b F H. apply Forall_app in F as [_ F]. apply Forall_app in F as [F _]. destruct v as [|c v]; [reflexivity|].
    inversion F; subst. destruct (H _ _ eq_refl). assumption. }
  destruct v as [|c v].
  { symmetry. apply (Mid a' w b'); [|exact H1']. rewrite <- E', E. apply AllB; auto. }
  destruct w as [|d w].
  { apply (Mid a (c :: v) b); [|exact H1]. rewrite <- E, E'. apply AllB; auto. }
  rewrite E in E'. destruct (strip_front a ((c :: v) ++ b) a' ((d :: w) ++ b') Fa Fa' E') as [_ E2].
  - intros c' u [= <- <-]. exact (H1 _ _ eq_refl).
  - intros c' u [= <- <-]. exact (H1' _ _ eq_refl).
  - apply (f_equal (@rev N)) in E2. rewrite !rev_app_distr in E2.
    destruct (strip_front (rev b) (rev (c :: v)) (rev b') (rev (d :: w))) as [_ E3]; auto using Forall_rev.
    + exact (X _ _ Fb H2).
    + exact (X _ _ Fb' H2').
    + rewrite <- (rev_involutive (c :: v)), E3. apply rev_involutive.
Qed.

(** ** Numbers *)
Lemma parse_app l c acc : parse_digits (l ++ [c]) acc =
  match parse_digits l acc with Some n => if within 48 57 c then Some (n * 10 + (c - 48)) else None | None => None end.
Proof.
  revert acc. induction l as [|d l IH]; intros acc; cbn [app parse_digits].
  - destruct (within 48 57 c); reflexivity.
  - destruct (within 48 57 d); [apply IH|reflexivity].
Qed.
Lemma within_digit c : within 48 57 c = true <-> exists d, d < 10 /\ c = 48 + d.
Proof.
  unfold within. rewrite andb_true_iff, !N.leb_le. split; [intros H; exists (c - 48); lia|intros (d & H & ->); lia].
Qed.
Lemma digits_parse l n : digits l n <-> l <> [] /\ parse_digits l 0 = Some n.
Proof.
  split.
  - induction 1 as [d H|l n d D [N IH] H].
    + split; [discriminate|]. cbn [parse_digits]. destruct (within 48 57 (48 + d)) eqn:W; [f_equal; lia|]. rewrite (proj2 (within_digit _)) in W by eauto. discriminate W.
    + split; [destruct l; discriminate|]. rewrite parse_app, IH. destruct (within 48 57 (48 + d)) eqn:W; [f_equal; lia|]. rewrite (proj2 (within_digit _)) in W by eauto. discriminate W.
  - revert n. induction l as [|c l IH] using rev_ind; intros n [N E]; [congruence|]. rewrite parse_app in E.
    destruct (parse_digits l 0) as [k|] eqn:P; [|discriminate E]. destruct (within 48 57 c) eqn:W; [|discriminate E]. injection E as <-.
    apply within_digit in W as (d & H & ->). destruct l as [|x l].
    + cbn [parse_digits] in P. injection P as <-. cbn [app]. replace (0 * 10 + (48 + d - 48)) with d by lia. constructor. exact H.
    + replace (k * 10 + (48 + d - 48)) with (10 * k + d) by lia. constructor; [apply IH; split; [discriminate|reflexivity]|exact H].
Qed.
Lemma digits_first l n : digits l n -> exists c u, l = c :: u /\ 48 <= c.
Proof.
  induction 1 as [d H|l n d D (c & u & -> & L) H]; [do 2 eexists; split; [reflexivity|lia]|]. exists c, (u ++ [48 + d]). auto.
Qed.
Lemma int64_word z : int64 z = true <-> word64 z.
Proof. unfold int64, word64. rewrite andb_true_iff, !Z.leb_le. change (2 ^ 63)%Z with 9223372036854775808%Z. lia. Qed.
Lemma parse_int_integer t z : parse_int t = Some z <-> integer t z /\ word64 z.
Proof.
  rewrite <- int64_word. unfold parse_int. split.
  - destruct t as [|c u]; [discriminate|]. destruct (c =? 45) eqn:M; [|destruct (c =? 43) eqn:Q].
    + apply N.eqb_eq in M. subst. destruct u as [|x u]; [discriminate|]. destruct (parse_digits (x :: u) 0) as [n|] eqn:P; [|discriminate].
      cbn [option_map]. destruct (int64 _) eqn:I; [|discriminate]. intros [= <-]. split; [|exact I]. apply int_minus, digits_parse. split; [discriminate|exact P].
    + apply N.eqb_eq in Q. subst. destruct u as [|x u]; [discriminate|]. destruct (parse_digits (x :: u) 0) as [n|] eqn:P; [|discriminate].
      cbn [option_map]. destruct (int64 _) eqn:I; [|discriminate]. intros [= <-]. split; [|exact I]. apply int_plus, digits_parse. split; [discriminate|exact P].
    + destruct (parse_digits (c :: u) 0) as [n|] eqn:P; [|discriminate]. cbn [option_map]. destruct (int64 _) eqn:I; [|discriminate]. intros [= <-]. split; [|exact I].
      apply int_plain, digits_parse. split; [discriminate|exact P].
  - intros [H I]. destruct H as [l n D|l n D|l n D].
    + destruct (digits_first _ _ D) as (c & u & -> & L). apply digits_parse in D as [_ P].
      destruct (c =? 45) eqn:M; [apply N.eqb_eq in M; lia|]. destruct (c =? 43) eqn:Q; [apply N.eqb_eq in Q; lia|]. rewrite P. cbn [option_map]. rewrite I. reflexivity.
    + cbn [N.eqb Pos.eqb]. destruct (digits_first _ _ D) as (c & u & -> & L). apply digits_parse in D as [_ P]. rewrite P. cbn [option_map]. rewrite I. reflexivity.
    + cbn [N.eqb Pos.eqb]. destruct (digits_first _ _ D) as (c & u & -> & L). apply digits_parse in D as [_ P]. rewrite P. cbn [option_map]. rewrite I. reflexivity.
Qed.

(** ** Names *)
Lemma cut_none acc n : ~ In 58 n -> cut_colon acc n = None.
Proof.
  revert acc. induction n as [|c n IH]; intros acc H; [reflexivity|]. cbn [cut_colon]. destruct (c =? 58) eqn:E.
  - apply N.eqb_eq in E. subst. destruct H. left. reflexivity.
  - apply IH. intros I. apply H. right. exact I.
Qed.
Lemma cut_some acc p l : ~ In 58 p -> cut_colon acc (p ++ 58 :: l) = Some (acc ++ p, l).
Proof.
  revert acc. induction p as [|c p IH]; intros acc H; cbn [app cut_colon].
  - rewrite app_nil_r. reflexivity.
  - destruct (c =? 58) eqn:E.
    + apply N.eqb_eq in E. subst. destruct H. left. reflexivity.
    + rewrite IH by (intros I; apply H; right; exact I). rewrite <- app_assoc. reflexivity.
Qed.

(** ** C107: what the words of the specification mean *)
Theorem C107_words :
  (forall t w, trim t = w <-> stripped t w) /\
  (forall t z, parse_int t = Some z <-> integer t z /\ word64 z) /\
  (forall n, ~ In 58 n -> local n = n /\ xml_space n = false) /\
  (forall p l, ~ In 58 p -> p <> [] -> l <> [] -> local (p ++ 58 :: l) = l /\ (xml_space (p ++ 58 :: l) = true <-> p = txt "xml")).
Proof.
  split; [|split; [exact parse_int_integer|split]].
  - intros t w. split; [intros <-; apply trim_stripped|]. intros S. exact (stripped_unique _ _ _ (trim_stripped t) S).
  - intros n H. unfold local, xml_space. rewrite cut_none by exact H. auto.
  - intros p l H Np Nl. unfold local, xml_space. rewrite cut_some by exact H. cbn [app]. destruct p as [|c p]; [congruence|]. destruct l as [|d l]; [congruence|].
    split; [reflexivity|]. apply XmlTree.same_text_iff.
Qed.
Print Assumptions C107_words.
(** " +042" with blanks around, xml:lang *)
Example C107_words_demo : stripped (txt "  a b ") (txt "a b") /\ integer (txt "-042") (-42) /\ ~ (exists z, integer (txt "4x") z) /\ local (txt "xml:lang") = txt "lang".
Proof.
  split; [apply C107_words; vm_compute; reflexivity|]. split; [apply parse_int_integer; vm_compute; reflexivity|]. split; [|vm_compute; reflexivity].
  intros (z & H). assert (D : ~ exists n, digits (txt "4x") n).
  { intros (n & D). apply digits_parse in D as [_ D]. vm_compute in D. discriminate D. }
  inversion H; subst. apply D. eauto.
Qed.
