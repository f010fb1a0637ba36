(** * XmlTree: reading back elements, and whole files *)
From Coq Require Import List NArith ZArith ZifyN Bool String Ascii Lia Arith.
From Verif Require Import Escape PropsEscape Xml XmlSpec XmlFacts.
Import ListNotations.
Open Scope N_scope. Open Scope list_scope.

Definition name_ok (n : string) : Prop := exists c t, txt n = c :: t /\ name_start c = true /\ forallb name_char t = true.
Lemma name_char_facts c : name_char c = true -> xml_char c = true /\ c < 128 /\ (c =? 62) = false /\ (c =? 13) = false /\ (c =? 61) = false.
Proof.
  intros H. assert (L : c < 128 /\ 45 <= c /\ c <> 62 /\ c <> 61).
  { unfold name_char, name_start in H. rewrite !orb_true_iff in H. repeat destruct H as [H|H]; bools; lia. }
  split; [|repeat split; [lia|apply N.eqb_neq; lia..]].
  unfold xml_char. rewrite !orb_true_iff. left; left; right. apply within_iff. lia.
Qed.
Lemma name_start_char c : name_start c = true -> name_char c = true.
Proof. intros H. unfold name_char. rewrite H. reflexivity. Qed.

Section Tree.
Variable symbol : N -> bool.
Variable lossy : bool.
Notation sent := (sent symbol lossy).
Notation altered := (altered symbol lossy).
Notation R := Reader.

Lemma name_ascii n : name_ok n -> ascii (txt n) /\ Forall (fun c => c <> 13) (txt n).
Proof.
  intros (c & t & -> & S & T). split; (constructor; [|rewrite Forall_forall; intros x I; rewrite forallb_forall in T; specialize (T x I)]).
  1: apply name_start_char, name_char_facts in S. 3: apply name_start_char, name_char_facts in S.
  2, 4: apply name_char_facts in T. all: try tauto. all: intros ->; destruct S, T; try discriminate. all: intuition discriminate.
Qed.
Lemma step1 m h o c rest r : read_char (R m h o) c = Some r -> read_chars (R m h o) (c :: rest) = read_chars r rest.
Proof. intros E. cbn [read_chars]. rewrite E. reflexivity. Qed.
Lemma read_name h o u rest : forallb name_char u = true -> forall m, read_chars (R (InName m) h o) (u ++ rest) = read_chars (R (InName (m ++ u)) h o) rest.
Proof.
  induction u as [|c u IH]; intros F m; [rewrite app_nil_r; reflexivity|]. cbn [forallb] in F. apply andb_true_iff in F as [A B].
  cbn [app]. rewrite (step1 _ _ _ _ _ (R (InName (m ++ [c])) h o)); [rewrite IH by exact B; rewrite <- app_assoc; reflexivity|].
  unfold read_char. destruct (name_char_facts c A) as [X _]. rewrite X. cbn [negb r_mode]. rewrite A. reflexivity.
Qed.
Lemma read_attr_name h o n a u rest : forallb name_char u = true -> forall m, read_chars (R (InAttr n a m) h o) (u ++ rest) = read_chars (R (InAttr n a (m ++ u)) h o) rest.
Proof.
  induction u as [|c u IH]; intros F m; [rewrite app_nil_r; reflexivity|]. cbn [forallb] in F. apply andb_true_iff in F as [A B].
  cbn [app]. rewrite (step1 _ _ _ _ _ (R (InAttr n a (m ++ [c])) h o)); [rewrite IH by exact B; rewrite <- app_assoc; reflexivity|].
  unfold read_char. destruct (name_char_facts c A) as [X _]. rewrite X. cbn [negb r_mode]. rewrite A. reflexivity.
Qed.
Lemma read_close_name h o u rest : forallb name_char u = true -> forall m, read_chars (R (InClose m) h o) (u ++ rest) = read_chars (R (InClose (m ++ u)) h o) rest.
Proof.
  induction u as [|c u IH]; intros F m; [rewrite app_nil_r; reflexivity|]. cbn [forallb] in F. apply andb_true_iff in F as [A B].
  cbn [app]. rewrite (step1 _ _ _ _ _ (R (InClose (m ++ [c])) h o)); [rewrite IH by exact B; rewrite <- app_assoc; reflexivity|].
  unfold read_char. destruct (name_char_facts c A) as (X & _ & Y & _). rewrite X. cbn [negb r_mode]. rewrite Y. reflexivity.
Qed.
Lemma open_name h o n rest : name_ok n -> read_chars (R InText h o) (txt "<" ++ txt n ++ rest) = read_chars (R (InName (txt n)) h o) rest.
Proof.
  intros (c & t & -> & S & T). cbn [txt list_ascii_of_string map app]. change (N_of_ascii "<") with 60.
  rewrite (step1 _ _ _ 60 _ (R AfterLt h o)) by reflexivity.
  rewrite (step1 _ _ _ c _ (R (InName [c]) h o)).
  - rewrite read_name by exact T. reflexivity.
  - unfold read_char. destruct (name_char_facts c (name_start_char c S)) as [X _]. rewrite X. cbn [negb r_mode].
    assert (C : (c =? 47) = false /\ (c =? 33) = false).
    { unfold name_start in S. rewrite !orb_true_iff in S. repeat destruct S as [S|S]; bools; split; apply N.eqb_neq; lia. }
    destruct C as [-> ->]. rewrite S. reflexivity.
Qed.
(** where the reader is after [k] attributes *)
Definition tag_mode (n : text) (a : list (text * text)) : mode := match a with [] => InName n | _ => AfterVal n a end.
Lemma tag_blank h o n a rest : read_chars (R (tag_mode n a) h o) (32 :: rest) = read_chars (R (InTag n a) h o) rest.
Proof. destruct a; reflexivity. Qed.
Lemma tag_close h o n a rest : read_chars (R (tag_mode n a) h o) (62 :: rest) = read_chars (R InText [] ((n, a, h) :: o)) rest.
Proof. destruct a; reflexivity. Qed.
Lemma tag_mode_app n a x : tag_mode n (a ++ [x]) = AfterVal n (a ++ [x]).
Proof. destruct a; reflexivity. Qed.

Definition calls_text (l : list call) : text := flat_map snd l.
Lemma calls_text_app a b : calls_text (a ++ b) = calls_text a ++ calls_text b.
Proof. apply flat_map_app. Qed.
Lemma emit_text_text v : calls_text (emit_text v) = esc_text v.
Proof. exact (escape_calls_text [] v). Qed.
Definition attr_text (x : string * text) : text := 32 :: txt (fst x) ++ txt "=""" ++ esc_text (snd x) ++ [34].
Lemma emit_attr_text x : calls_text (emit_attr x) = attr_text x.
Proof.
  unfold emit_attr, attr_text. cbn [calls_text flat_map snd str]. fold (calls_text (emit_text (snd x) ++ [str """"])).
  rewrite calls_text_app, emit_text_text. reflexivity.
Qed.
Definition start_text (n : string) (a : list (string * text)) : text := txt "<" ++ txt n ++ flat_map attr_text a ++ [62].
Lemma emit_start_text n a : calls_text (emit_start n a) = start_text n a.
Proof.
  unfold emit_start, start_text. cbn [calls_text flat_map snd str]. fold (calls_text (flat_map emit_attr a ++ [str ">"])).
  rewrite calls_text_app. do 2 f_equal. f_equal. induction a as [|x a IH]; [reflexivity|]. cbn [flat_map]. rewrite calls_text_app, emit_attr_text, IH. reflexivity.
Qed.
Definition end_text (n : string) : text := txt "</" ++ txt n ++ [62].
Lemma emit_end_text n : calls_text (emit_end n) = end_text n.
Proof. unfold emit_end, end_text. cbn [calls_text flat_map snd str]. rewrite app_nil_r. reflexivity. Qed.

Definition attr_shown (x : string * text) (y : text * text) : Prop := fst y = txt (fst x) /\ altered false (snd x) (snd y).
Definition attrs_shown := Forall2 attr_shown.
Definition attrs_good (a : list (string * text)) : Prop :=
  Forall (fun x => name_ok (fst x) /\ xml_text (snd x)) a /\ NoDup (map (fun x => txt (fst x)) a).
Lemma same_text_iff a b : same_text a b = true <-> a = b.
Proof.
  revert b; induction a as [|c a IH]; intros [|d b]; cbn [same_text]; split; try congruence; try discriminate; intros H.
  - apply andb_true_iff in H as [A B]. bools. apply IH in B. congruence.
  - injection H as -> ->. rewrite N.eqb_refl. apply IH. reflexivity.
Qed.
Lemma fresh_name (a : list (text * text)) an : ~ In an (map fst a) -> existsb (fun x => same_text (fst x) an) a = false.
Proof.
  intros N. destruct (existsb _ a) eqn:E; [|reflexivity]. exfalso. apply N. apply existsb_exists in E as (x & I & S).
  apply same_text_iff in S. rewrite <- S. apply in_map. exact I.
Qed.
Lemma read_attrs a : Forall (fun x => name_ok (fst x) /\ xml_text (snd x)) a -> forall w, sent (flat_map attr_text a) w ->
  forall a0 h o n, NoDup (map fst a0 ++ map (fun x => txt (fst x)) a) ->
  exists a', attrs_shown a a' /\ forall rest, read_chars (R (tag_mode n a0) h o) (w ++ rest) = read_chars (R (tag_mode n (a0 ++ a')) h o) rest.
Proof.
  induction 1 as [|[k v] a [K V] F IH]; intros w H a0 h o n ND.
  - apply sent_nil_inv in H as ->. exists []. split; [constructor|]. intros rest. rewrite app_nil_r. reflexivity.
  - cbn [flat_map] in H. unfold attr_text at 1 in H. cbn [fst snd] in *.
    replace ((32 :: txt k ++ txt "=""" ++ esc_text v ++ [34]) ++ flat_map attr_text a) with
      ((32 :: txt k ++ txt "=""") ++ esc_text v ++ [34] ++ flat_map attr_text a) in H by (cbn [app]; rewrite <- !app_assoc; reflexivity).
    destruct (name_ascii k K) as [Ak _].
    apply sent_ascii_app in H as (w1 & -> & H).
    2: { constructor; [lia|]. apply Forall_app. split; [exact Ak|]. repeat constructor. }
    apply sent_app_inv in H as (w2 & w3 & -> & H2 & H3). apply sent_ascii_app in H3 as (w4 & -> & H4); [|repeat constructor].
    cbn [map] in ND. destruct (read_value symbol lossy v V w2 H2 n a0 (txt k) [] h o) as (v' & Av & Ev).
    destruct (IH w4 H4 (a0 ++ [(txt k, v')]) h o n) as (a' & Sa & Ea).
    { rewrite map_app, <- app_assoc. exact ND. }
    exists ((txt k, v') :: a'). split; [constructor; [split; [reflexivity|exact Av]|exact Sa]|].
    intros rest. cbn [app]. rewrite <- !app_assoc. rewrite tag_blank. destruct K as (c & t & Ek & S & T).
    assert (Fr : existsb (fun x => same_text (fst x) (txt k)) a0 = false).
    { apply fresh_name. intros I.
      apply in_split in I as (l1 & l2 & E). rewrite E in ND. rewrite <- app_assoc in ND. cbn [app] in ND. apply NoDup_remove_2 in ND.
      apply ND. apply in_or_app. right. apply in_or_app. right. left. reflexivity. }
    rewrite Ek in *. cbn [app]. rewrite (step1 _ _ _ c _ (R (InAttr n a0 [c]) h o)).
    2: { unfold read_char. destruct (name_char_facts c (name_start_char c S)) as [X _]. rewrite X. cbn [negb r_mode]. rewrite S. reflexivity. }
    rewrite read_attr_name by exact T. cbn [app]. change (txt "=""") with [61; 34]. cbn [app].
    rewrite (step1 _ _ _ 61 _ (R (AfterEq n a0 (c :: t)) h o)).
    2: { unfold read_char. cbn [negb r_mode]. change (xml_char 61) with true. cbn [negb]. change (name_char 61) with false. cbn match. rewrite Fr. reflexivity. }
    rewrite (step1 _ _ _ 34 _ (R (InVal n a0 (c :: t) []) h o)) by reflexivity.
    rewrite Ev. cbn [app]. rewrite (step1 _ _ _ 34 _ (R (AfterVal n (a0 ++ [(c :: t, v')])) h o)) by reflexivity.
    rewrite <- tag_mode_app. rewrite Ea. rewrite <- app_assoc. reflexivity.
Qed.
Lemma read_start n a w h o : name_ok n -> attrs_good a -> sent (start_text n a) w ->
  exists a', attrs_shown a a' /\ forall rest, read_chars (R InText h o) (w ++ rest) = read_chars (R InText [] ((txt n, a', h) :: o)) rest.
Proof.
  intros K [F ND] H. unfold start_text in H. destruct (name_ascii n K) as [An _].
  apply sent_ascii_app in H as (w1 & -> & H); [|repeat constructor]. apply sent_ascii_app in H as (w2 & -> & H); [|exact An].
  apply sent_app_inv in H as (w3 & w4 & -> & H3 & H4). apply sent_ascii in H4 as ->; [|repeat constructor].
  destruct (read_attrs a F w3 H3 [] h o (txt n) ND) as (a' & Sa & Ea). exists a'. split; [exact Sa|].
  intros rest. rewrite <- !app_assoc. rewrite open_name by exact K. change (InName (txt n)) with (tag_mode (txt n) []). rewrite Ea. cbn [app]. apply tag_close.
Qed.
Lemma read_end n w h a b o : name_ok n -> sent (end_text n) w -> forall rest,
  read_chars (R InText b ((txt n, a, h) :: o)) (w ++ rest) = read_chars (R InText (h ++ [El (txt n) a b]) o) rest.
Proof.
  intros K H rest. destruct (name_ascii n K) as [An _]. apply sent_ascii in H as ->.
  2: { apply Forall_app. split; [repeat constructor|]. apply Forall_app. split; [exact An|repeat constructor]. }
  unfold end_text. rewrite <- !app_assoc. change (txt "</") with [60; 47]. cbn [app].
  rewrite (step1 _ _ _ 60 _ (R AfterLt b ((txt n, a, h) :: o))) by reflexivity.
  rewrite (step1 _ _ _ 47 _ (R (InClose []) b ((txt n, a, h) :: o))) by reflexivity.
  assert (T : forallb name_char (txt n) = true).
  { destruct K as (c & t & -> & S & T). cbn [forallb]. rewrite T, (name_start_char c S). reflexivity. }
  rewrite read_close_name by exact T. cbn [app]. cbn [read_chars]. unfold read_char. cbn [negb r_mode r_open r_here]. change (xml_char 62) with true. cbn [negb].
  change (62 =? 62) with true. cbn match. rewrite (proj2 (same_text_iff _ _) eq_refl). reflexivity.
Qed.

(** ** Elements *)
Inductive good : xnode -> Prop :=
| good_leaf n a cd v : name_ok n -> attrs_good a -> xml_text v -> (cd = true -> Forall (fun c => c <> 13) v) -> good (XLeaf n a cd v)
| good_tree n a l : name_ok n -> attrs_good a -> Forall good l -> good (XTree n a l).
Inductive shows : xnode -> item -> Prop :=
| shows_leaf n a cd v a' v' : attrs_shown a a' -> altered cd v v' -> shows (XLeaf n a cd v) (El (txt n) a' (map Ch v'))
| shows_tree n a l a' b : attrs_shown a a' -> Forall2 shows l (filter is_element b) ->
    (forall c, In (Ch c) b -> blank c = true) -> shows (XTree n a l) (El (txt n) a' b).
Lemma xnode_ind' (P : xnode -> Prop) :
  (forall n a cd v, P (XLeaf n a cd v)) -> (forall n a l, Forall P l -> P (XTree n a l)) -> forall x, P x.
Proof.
  intros A B. fix IH 1. intros [n a cd v|n a l]; [apply A|]. apply B. induction l as [|x l IHl]; constructor; [apply IH|exact IHl].
Qed.
Definition newline_text (d : nat) : text := 10 :: txt "    " ++ List.concat (repeat (txt "    ") d).
Lemma newline_calls d : calls_text (newline d) = newline_text d.
Proof.
  unfold newline, newline_text. cbn [calls_text flat_map snd str]. cbn [app]. f_equal. f_equal.
  induction d as [|d IH]; [reflexivity|]. cbn [repeat List.concat flat_map snd str]. rewrite IH. reflexivity.
Qed.
Definition blank_text (u : text) : Prop := Forall (fun c => c = 32 \/ c = 10) u.
Lemma newline_blank d : blank_text (newline_text d).
Proof.
  constructor; [right; reflexivity|]. apply Forall_app. split; [repeat constructor|]. induction d as [|d IH]; [constructor|]. cbn [repeat List.concat].
  apply Forall_app. split; [repeat constructor|exact IH].
Qed.
Lemma blank_ascii u : blank_text u -> ascii u.
Proof. intros F. eapply Forall_impl; [|exact F]. intros c [->| ->]; reflexivity. Qed.
Lemma read_blanks u : blank_text u -> forall h o rest, read_chars (R InText h o) (u ++ rest) = read_chars (R InText (h ++ map Ch u) o) rest.
Proof.
  induction 1 as [|c u C F IH]; intros h o rest; [cbn [map app]; rewrite app_nil_r; reflexivity|]. cbn [app map].
  rewrite (step1 _ _ _ c _ (R InText (h ++ [Ch c]) o)).
  - rewrite IH, <- app_assoc. reflexivity.
  - destruct C as [->| ->], o; reflexivity.
Qed.
Lemma blank_chars u c : blank_text u -> In (Ch c) (map Ch u) -> blank c = true.
Proof.
  intros F I. apply in_map_iff in I as (d & E & I). injection E as <-. unfold blank_text in F. rewrite Forall_forall in F.
  destruct (F d I) as [->| ->]; reflexivity.
Qed.
Lemma no_elements u : filter is_element (map Ch u) = [].
Proof. induction u as [|c u IH]; [reflexivity|exact IH]. Qed.

(** an element with the line break before it is read as it should *)
Definition reads (x : xnode) (d : nat) : Prop := forall w, sent (calls_text (emit d x)) w -> forall h e o, exists i u, shows x i /\ blank_text u /\
  forall rest, read_chars (R InText h (e :: o)) (w ++ rest) = read_chars (R InText (h ++ map Ch u ++ [i]) (e :: o)) rest.
Lemma read_list l d : Forall (fun x => reads x d) l -> forall w, sent (calls_text (flat_map (emit d) l)) w -> forall h e o, exists b,
  Forall2 shows l (filter is_element b) /\ (forall c, In (Ch c) b -> blank c = true) /\
  forall rest, read_chars (R InText h (e :: o)) (w ++ rest) = read_chars (R InText (h ++ b) (e :: o)) rest.
Proof.
  induction 1 as [|x l X F IH]; intros w H h e o.
  - apply sent_nil_inv in H as ->. exists []. split; [constructor|]. split; [intros c []|]. intros rest. rewrite app_nil_r. reflexivity.
  - cbn [flat_map] in H. rewrite calls_text_app in H. apply sent_app_inv in H as (w1 & w2 & -> & H1 & H2).
    destruct (X w1 H1 h e o) as (i & u & Si & U & E1). destruct (IH w2 H2 (h ++ map Ch u ++ [i]) e o) as (b & Sb & Bb & E2).
    exists (map Ch u ++ i :: b). split; [|split].
    + rewrite filter_app, no_elements. cbn [app filter]. inversion Si; subst; cbn [is_element]; (constructor; [exact Si|exact Sb]).
    + intros c I. apply in_app_or in I as [I|[I|I]]; [eapply blank_chars; eauto|inversion Si; subst; discriminate|apply Bb; exact I].
    + intros rest. rewrite <- app_assoc, E1, E2, <- !app_assoc. reflexivity.
Qed.
Lemma emit_cdata_text v : calls_text (emit_cdata v) = match v with [] => [] | _ => txt "<![CDATA[" ++ cd_text v ++ txt "]]>" end.
Proof.
  unfold emit_cdata. destruct v as [|c v]; [reflexivity|]. set (t := c :: v). cbn [calls_text flat_map snd]. fold (calls_text (cdata_calls [] t ++ [(true, txt "]]>")])).
  rewrite calls_text_app. f_equal. unfold calls_text at 1. rewrite (cdata_calls_text symbol (List.length t) t [] (le_n _)). reflexivity.
Qed.
Lemma read_tree x : good x -> forall d, reads x d.
Proof.
  induction x as [n a cd v|n a l IH] using xnode_ind'; intros G d w H h e o; inversion G as [n' a' cd' v' K A V C|n' a' l' K A L]; subst.
  - cbn [emit] in H. rewrite !calls_text_app, newline_calls, emit_start_text, emit_end_text in H.
    apply sent_ascii_app in H as (w1 & -> & H); [|apply blank_ascii, newline_blank].
    apply sent_app_inv in H as (w2 & w3 & -> & H2 & H3). apply sent_app_inv in H3 as (w4 & w5 & -> & H4 & H5).
    destruct (read_start n a w2 (h ++ map Ch (newline_text d)) (e :: o) K A H2) as (a' & Sa & Ea).
    assert (B : exists v', altered cd v v' /\ forall rest, read_chars (R InText [] ((txt n, a', h ++ map Ch (newline_text d)) :: e :: o)) (w4 ++ rest) =
      read_chars (R InText (map Ch v') ((txt n, a', h ++ map Ch (newline_text d)) :: e :: o)) rest).
    { destruct cd.
      - rewrite emit_cdata_text in H4. destruct v as [|c v]; [apply sent_nil_inv in H4 as ->; exists []; split; [constructor|reflexivity]|].
        set (t := c :: v) in *. apply sent_ascii_app in H4 as (w6 & -> & H6); [|repeat constructor].
        destruct (read_cdata symbol lossy (List.length t) t (le_n _) V 0%nat ltac:(split; [lia|split; lia]) w6 H6 [] (txt n, a', h ++ map Ch (newline_text d)) (e :: o)) as (v' & Av & Ev).
        exists v'. split; [exact Av|]. intros rest. rewrite <- app_assoc.
        change (read_chars (R InText [] ((txt n, a', h ++ map Ch (newline_text d)) :: e :: o)) (txt "<![CDATA[" ++ w6 ++ rest)) with
          (read_chars (R (InCdata 0) [] ((txt n, a', h ++ map Ch (newline_text d)) :: e :: o)) (w6 ++ rest)). apply Ev.
      - rewrite emit_text_text in H4. destruct (read_content symbol lossy v V w4 H4 [] (txt n, a', h ++ map Ch (newline_text d)) (e :: o)) as (v' & Av & Ev).
        exists v'. split; [exact Av|exact Ev]. }
    destruct B as (v' & Av & Ev). exists (El (txt n) a' (map Ch v')), (newline_text d). split; [constructor; assumption|]. split; [apply newline_blank|].
    intros rest. rewrite <- !app_assoc. rewrite read_blanks by apply newline_blank. rewrite Ea, Ev. rewrite read_end by assumption. rewrite <- app_assoc. reflexivity.
  - cbn [emit] in H. rewrite !calls_text_app, newline_calls, emit_start_text, emit_end_text in H.
    apply sent_ascii_app in H as (w1 & -> & H); [|apply blank_ascii, newline_blank].
    apply sent_app_inv in H as (w2 & w3 & -> & H2 & H3). apply sent_app_inv in H3 as (w4 & w5 & -> & H4 & H5).
    apply sent_app_inv in H5 as (w6 & w7 & -> & H6 & H7).
    destruct (read_start n a w2 (h ++ map Ch (newline_text d)) (e :: o) K A H2) as (a' & Sa & Ea).
    assert (IH' : Forall (fun x => reads x (S d)) l).
    { rewrite Forall_forall in *. intros x I. apply (IH x I (L x I)). }
    destruct (read_list l (S d) IH' w4 H4 [] (txt n, a', h ++ map Ch (newline_text d)) (e :: o)) as (b & Sb & Bb & Eb).
    assert (U : exists u, blank_text u /\ w6 = u).
    { destruct l as [|x l]; [apply sent_nil_inv in H6 as ->; exists []; split; [constructor|reflexivity]|].
      rewrite newline_calls in H6. exists (newline_text d). split; [apply newline_blank|apply sent_ascii in H6; [exact H6|apply blank_ascii, newline_blank]]. }
    destruct U as (u & U & ->). exists (El (txt n) a' (b ++ map Ch u)), (newline_text d). split; [|split; [apply newline_blank|]].
    + constructor; [exact Sa| |].
      * rewrite filter_app, no_elements, app_nil_r. exact Sb.
      * intros c I. apply in_app_or in I as [I|I]; [apply Bb; exact I|eapply blank_chars; eauto].
    + intros rest. rewrite <- !app_assoc. rewrite read_blanks by apply newline_blank. rewrite Ea, Eb. rewrite read_blanks by exact U. cbn [app].
      rewrite read_end by assumption. rewrite <- app_assoc. reflexivity.
Qed.
End Tree.
