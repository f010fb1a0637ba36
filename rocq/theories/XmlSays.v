(** * XmlSays: the elements of the index describe the structures *)
From Coq Require Import List NArith ZArith ZifyN Bool String Ascii Lia Arith.
From Verif Require Import Escape PropsEscape Xml XmlSpec XmlFacts XmlTree XmlDoc.
Import ListNotations.
Open Scope N_scope. Open Scope list_scope.

(** ** Numbers *)
Lemma digit_value n : n < 10 -> dec_of (48 + n) = Some n.
Proof. intros L. unfold dec_of. rewrite (proj2 (within_iff 48 57 (48 + n))) by lia. f_equal. lia. Qed.
Lemma dec_number f n acc : n < 2 ^ N.of_nat f -> number_in 10 dec_of (dec_digits (S f) n acc) 0 = number_in 10 dec_of acc n.
Proof.
  revert n acc; induction f as [|f IH]; intros n acc B.
  - assert (n = 0) as -> by (change (2 ^ N.of_nat 0) with 1 in B; lia). reflexivity.
  - cbn [dec_digits]. destruct (n <? 10) eqn:C; bools.
    + cbn [number_in]. rewrite (digit_value n C). f_equal; lia.
    + change (number_in 10 dec_of (dec_digits (S f) (n / 10) ((48 + n mod 10) :: acc)) 0 = number_in 10 dec_of acc n). rewrite IH.
      * cbn [number_in]. rewrite digit_value by (apply N.mod_lt; discriminate). f_equal. lia.
      * rewrite Nat2N.inj_succ, N.pow_succ_r' in B. apply N.div_lt_upper_bound; [discriminate|]. set (x := 2 ^ N.of_nat f) in *. clearbody x. lia.
Qed.
Lemma dec_ascii f : forall n acc, ascii acc -> ascii (dec_digits f n acc).
Proof.
  induction f as [|f IH]; intros n acc A; [exact A|]. cbn [dec_digits]. destruct (n <? 10) eqn:C; bools.
  - apply Forall_cons; [lia|exact A].
  - apply IH. apply Forall_cons; [|exact A]. pose proof (N.mod_lt n 10). lia.
Qed.
Lemma dec_digit f : forall n acc, (forall c, In c acc -> 48 <= c <= 57) -> forall c, In c (dec_digits f n acc) -> 48 <= c <= 57.
Proof.
  induction f as [|f IH]; intros n acc A c I; [apply A; exact I|]. cbn [dec_digits] in I. destruct (n <? 10) eqn:C; bools.
  - destruct I as [<-|I]; [lia|apply A; exact I].
  - apply IH in I; [exact I|]. intros d [<-|J]; [|apply A; exact J]. pose proof (N.mod_lt n 10). lia.
Qed.
Lemma dec_nonempty f n acc : dec_digits (S f) n acc <> [].
Proof.
  assert (G : forall f n acc, acc <> [] -> dec_digits f n acc <> []).
  { clear. induction f as [|f IH]; intros n acc H; [exact H|]. cbn [dec_digits]. destruct (_ <? _); [discriminate|]. apply IH. discriminate. }
  cbn [dec_digits]. destruct (_ <? _); [discriminate|]. apply G. discriminate.
Qed.
Lemma number_pos p : number (dec_digits (S (N.to_nat (N.size (Npos p)))) (Npos p) []) = Some (Zpos p) /\
  number (45 :: dec_digits (S (N.to_nat (N.size (Npos p)))) (Npos p) []) = Some (Zneg p).
Proof.
  set (l := dec_digits _ _ _). assert (E : number_in 10 dec_of l 0 = Some (Npos p)).
  { unfold l. rewrite dec_number; [reflexivity|]. rewrite N2Nat.id. apply N.size_gt. }
  assert (D : forall c, In c l -> 48 <= c <= 57) by (apply dec_digit; intros c []).
  assert (Ne : l <> []) by apply dec_nonempty. clearbody l. destruct l as [|c u]; [congruence|].
  assert (C : (c =? 45) = false) by (apply N.eqb_neq; pose proof (D c (or_introl eq_refl)); lia).
  split.
  - unfold number. rewrite C, E. reflexivity.
  - unfold number. rewrite N.eqb_refl, E. reflexivity.
Qed.
Lemma number_decimal z : number (decimal z) = Some z.
Proof. destruct z as [|p|p]; [reflexivity|exact (proj1 (number_pos p))|exact (proj2 (number_pos p))]. Qed.
Lemma decimal_chars z c : In c (decimal z) -> c = 45 \/ 48 <= c <= 57.
Proof.
  destruct z as [|p|p]; cbn [decimal]; intros I.
  - destruct I as [<-|[]]. right; lia.
  - right. revert I. apply dec_digit. intros d [].
  - destruct I as [<-|I]; [left; reflexivity|]. right. revert I. apply dec_digit. intros d [].
Qed.
Lemma decimal_ascii z : ascii (decimal z).
Proof. apply Forall_forall. intros c I. apply decimal_chars in I. lia. Qed.
Lemma decimal_xml z : xml_text (decimal z).
Proof.
  apply Forall_forall. intros c I. apply decimal_chars in I. unfold xml_char, within.
  rewrite (proj2 (N.leb_le 32 c)) by lia. rewrite (proj2 (N.leb_le c 55295)) by lia. cbn [andb]. rewrite !orb_true_r. reflexivity.
Qed.

Lemma txt_eq a b : same_text (txt a) (txt b) = String.eqb a b.
Proof.
  destruct (String.eqb_spec a b) as [->|D]; [apply same_text_iff; reflexivity|]. destruct (same_text (txt a) (txt b)) eqn:E; [|reflexivity].
  exfalso. apply D. apply same_text_iff in E. unfold txt in E.
  rewrite <- (string_of_list_ascii_of_string a), <- (string_of_list_ascii_of_string b). f_equal.
  assert (G : forall l m, map N_of_ascii l = map N_of_ascii m -> l = m).
  { induction l as [|x l IH]; intros [|y m] H; try discriminate; [reflexivity|]. injection H as H1 H2. f_equal; [|apply IH; exact H2].
    rewrite <- (ascii_N_embedding x), <- (ascii_N_embedding y). f_equal. exact H1. }
  apply G. exact E.
Qed.

(** ** Lists of elements by name *)
Definition xname (x : xnode) : string := match x with XLeaf n _ _ _ => n | XTree n _ _ => n end.
Definition only (n : string) (l : list xnode) : list xnode := filter (fun x => String.eqb (xname x) n) l.
Definition are (n : string) (l : list xnode) : Prop := Forall (fun x => xname x = n) l.
Lemma only_app n a b : only n (a ++ b) = only n a ++ only n b.
Proof. apply filter_app. Qed.
Lemma only_are n m l : are m l -> only n l = if String.eqb m n then l else [].
Proof.
  intros A. induction A as [|x l X A IH]; [destruct (String.eqb m n); reflexivity|]. cbn [only filter]. fold (only n l). rewrite X, IH.
  destruct (String.eqb m n); reflexivity.
Qed.
Lemma are_el n v : are n (el n v).
Proof. constructor; [reflexivity|constructor]. Qed.
Lemma are_el_opt n v : are n (el_opt n v).
Proof. destruct v; [constructor|apply are_el]. Qed.
Lemma are_els n l : are n (els n l).
Proof. induction l as [|v l IH]; [constructor|]. constructor; [reflexivity|exact IH]. Qed.
Lemma are_map {A} n (f : A -> xnode) l : (forall x, xname (f x) = n) -> are n (map f l).
Proof. intros H. induction l as [|x l IH]; constructor; [apply H|exact IH]. Qed.
Lemma are_lfields n l : are n (marshal_lfields n l).
Proof. apply are_map. reflexivity. Qed.
Lemma are_under n l : are n (under n l).
Proof. constructor; [reflexivity|constructor]. Qed.
Lemma are_under_opt {A} n (f : A -> list xnode) o : are n (under_opt n f o).
Proof. destruct o; [apply are_under|constructor]. Qed.
Lemma only_el k n v : only k (el n v) = if String.eqb n k then el n v else []. Proof. apply only_are, are_el. Qed.
Lemma only_el_int k n v : only k (el_int n v) = if String.eqb n k then el_int n v else []. Proof. apply only_are, are_el. Qed.
Lemma only_el_opt k n v : only k (el_opt n v) = if String.eqb n k then el_opt n v else []. Proof. apply only_are, are_el_opt. Qed.
Lemma only_els k n v : only k (els n v) = if String.eqb n k then els n v else []. Proof. apply only_are, are_els. Qed.
Lemma only_lfields k n v : only k (marshal_lfields n v) = if String.eqb n k then marshal_lfields n v else []. Proof. apply only_are, are_lfields. Qed.
Lemma only_under k n v : only k (under n v) = if String.eqb n k then under n v else []. Proof. apply only_are, are_under. Qed.
Lemma only_under_opt {A} k n (f : A -> list xnode) v : only k (under_opt n f v) = if String.eqb n k then under_opt n f v else []. Proof. apply only_are, are_under_opt. Qed.
Lemma only_leaf k n a cd v : only k [XLeaf n a cd v] = if String.eqb n k then [XLeaf n a cd v] else []. Proof. apply only_are. constructor; [reflexivity|constructor]. Qed.
Lemma only_tree k n a v : only k [XTree n a v] = if String.eqb n k then [XTree n a v] else []. Proof. apply only_are. constructor; [reflexivity|constructor]. Qed.
Lemma only_dist_descr k l : only k (map (fun f => XLeaf "Description" (at_opt "lang" (f_lang f)) true (f_value f)) l) =
  if String.eqb "Description" k then map (fun f => XLeaf "Description" (at_opt "lang" (f_lang f)) true (f_value f)) l else [].
Proof. apply only_are, are_map. reflexivity. Qed.
Lemma only_comar k l : only k (map (fun c => XLeaf "COMAR" (at_opt "script" (co_script c)) false (co_value c)) l) =
  if String.eqb "COMAR" k then map (fun c => XLeaf "COMAR" (at_opt "script" (co_script c)) false (co_value c)) l else [].
Proof. apply only_are, are_map. reflexivity. Qed.
Lemma only_source k s : only k (marshal_source s) = if String.eqb "Source" k then marshal_source s else [].
Proof. apply only_tree. Qed.
Lemma only_provides k o : only k (match o with None => [] | Some p => [marshal_provides p] end) =
  if String.eqb "Provides" k then match o with None => [] | Some p => [marshal_provides p] end else [].
Proof. destruct o; [apply only_tree|destruct (String.eqb "Provides" k); reflexivity]. Qed.
Lemma only_all k n l : (forall x, In x l -> xname x = n) -> only k l = if String.eqb n k then l else [].
Proof. intros H. apply only_are. apply Forall_forall. exact H. Qed.

(** ** Attributes by name *)
Definition lookup (n : string) (a : list (string * text)) : option text := option_map snd (find (fun x => String.eqb (fst x) n) a).
Lemma lookup_opt k n v r : lookup k (at_opt n v ++ r) = if String.eqb n k then match v with [] => lookup k r | _ => Some v end else lookup k r.
Proof. unfold lookup. destruct v as [|c v]; cbn [at_opt app find fst]; destruct (String.eqb n k); reflexivity. Qed.
Lemma lookup_int k n z r : lookup k (at_int n z ++ r) = if String.eqb n k then if (z =? 0)%Z then lookup k r else Some (decimal z) else lookup k r.
Proof. unfold lookup, at_int. destruct (z =? 0)%Z; cbn [app find fst]; destruct (String.eqb n k); reflexivity. Qed.
Lemma lookup_opt1 k n v : lookup k (at_opt n v) = if String.eqb n k then match v with [] => None | _ => Some v end else None.
Proof. rewrite <- (app_nil_r (at_opt n v)). rewrite lookup_opt. reflexivity. Qed.
Lemma lookup_int1 k n z : lookup k (at_int n z) = if String.eqb n k then if (z =? 0)%Z then None else Some (decimal z) else None.
Proof. rewrite <- (app_nil_r (at_int n z)). rewrite lookup_int. reflexivity. Qed.
Lemma lookup_cons k n v r : lookup k ((n, v) :: r) = if String.eqb n k then Some v else lookup k r.
Proof. unfold lookup. cbn [find fst]. destruct (String.eqb n k); reflexivity. Qed.

Section Says.
Variable symbol : N -> bool.
Variable lossy : bool.
Notation shows := (shows symbol lossy).
Notation altered := (altered symbol lossy).
Lemma altered_ascii cd v w : ascii v -> altered cd v w -> w = v.
Proof.
  intros F A. induction A as [|c v w D A IH|c v w D X A IH|c v w k L C K A IH]; [reflexivity| | |]; inversion F; subst.
  - f_equal. apply IH. assumption.
  - rewrite esc_ascii1 by assumption. cbn [app]. f_equal. apply IH. assumption.
  - lia.
Qed.
Lemma garbles cd v w : altered cd v w -> garbled symbol lossy cd v w.
Proof.
  intros A. induction A as [|c v w D A IH|c v w D X A IH|c v w k L C K A IH].
  - constructor.
  - apply garbled_same; [|exact IH]. apply andb_false_iff in D as [D|D]; [apply andb_false_iff in D as [D|D]; [left; exact D|right; right; right; destruct (c =? rune_error) eqn:E; [bools; assumption|discriminate]]|].
    unfold must_escape in D. apply andb_false_iff in D as [D|D]; [right; left; bools; lia|right; right; left; exact D].
  - destruct (esc_dec symbol c) as [[A1 B]|B].
    + rewrite (esc_ref symbol c A1 B). cbn [app]. unfold must_escape in B. apply andb_true_iff in B as [B1 B2].
      change (38 :: 35 :: 120 :: (print_hex c ++ [59]) ++ w) with (38 :: ([35; 120] ++ print_hex c ++ [59]) ++ w).
      rewrite <- !app_assoc. cbn [app]. change (35 :: 120 :: print_hex c ++ 59 :: w) with (([35; 120] ++ print_hex c) ++ 59 :: w).
      apply garbled_ref; [exact D|bools; lia|exact B2|bools; exact A1|apply (meaning_hex symbol); exact X|exact IH].
    + rewrite (esc_same symbol c B). cbn [app]. apply garbled_same; [|exact IH]. destruct B as [B|B]; [right; right; right; bools; assumption|].
      unfold must_escape in B. apply andb_false_iff in B as [B|B]; [right; left; bools; lia|right; right; left; exact B].
  - apply garbled_lost; assumption.
Qed.

(** ** What is found at an element *)
Lemma shows_name x i : shows x i -> forall k, named k i = String.eqb (xname x) k.
Proof. intros S k. inversion S; subst; cbn [named xname]; apply txt_eq. Qed.
Lemma shows_only k l is : Forall2 shows l is -> Forall2 shows (only k l) (filter (named k) is).
Proof.
  induction 1 as [|x i l is S F IH]; [constructor|]. cbn [only filter]. fold (only k l). rewrite (shows_name x i S k).
  destruct (String.eqb (xname x) k); [constructor; assumption|exact IH].
Qed.
Lemma named_element k b : filter (named k) (filter is_element b) = filter (named k) b.
Proof. induction b as [|[c|n a l] b IH]; [reflexivity|exact IH|]. cbn [filter is_element]. destruct (named k _); [f_equal|]; exact IH. Qed.
Lemma shows_children k n a l i : shows (XTree n a l) i -> Forall2 shows (only k l) (children k i).
Proof.
  intros S. inversion S as [|n' a' l' a1 b A F B]; subst. cbn [children]. rewrite <- named_element. apply shows_only. exact F.
Qed.
Lemma shows_text n a cd v i : shows (XLeaf n a cd v) i -> altered cd v (text_in i).
Proof.
  intros S. inversion S as [n' a' cd' v' a1 w A F|]; subst. cbn [text_in]. replace (flat_map _ (map Ch w)) with w; [exact F|].
  clear. induction w as [|c w IH]; [reflexivity|]. cbn [map flat_map app]. f_equal. exact IH.
Qed.
Lemma shows_lookup k x i : shows x i -> match lookup k (match x with XLeaf _ a _ _ => a | XTree _ a _ => a end) with
  None => attribute k i = None | Some v => exists w, attribute k i = Some w /\ altered false v w end.
Proof.
  assert (G : forall n b a a', attrs_shown symbol lossy a a' -> match lookup k a with None => attribute k (El n a' b) = None
    | Some v => exists w, attribute k (El n a' b) = Some w /\ altered false v w end).
  { intros n b a a' A. unfold lookup. cbn [attribute]. induction A as [|[m v] [m' v'] a a' [E H] A IH]; [reflexivity|]. cbn [fst snd] in *. subst m'.
    cbn [find fst]. rewrite txt_eq. destruct (String.eqb m k); [exists v'; split; [reflexivity|exact H]|exact IH]. }
  intros S. inversion S; subst; apply G; assumption.
Qed.

Variable P C : text -> text -> Prop.
Hypothesis HP : forall v w, altered false v w -> P v w.
Hypothesis HC : forall v w, altered true v w -> C v w.

Lemma f2_map {A} (f : A -> xnode) (D : A -> item -> Prop) l is : (forall x i, shows (f x) i -> D x i) -> Forall2 shows (map f l) is -> Forall2 D l is.
Proof. intros H. revert is; induction l as [|x l IH]; intros is F; inversion F; subst; constructor; [apply H; assumption|apply IH; assumption]. Qed.
Lemma f2_els n l is : Forall2 shows (els n l) is -> Forall2 (fun v i => P v (text_in i)) l is.
Proof.
  assert (E : els n l = map (XLeaf n [] false) l) by (induction l as [|v l IH]; [reflexivity|]; cbn [map els flat_map el app]; f_equal; exact IH).
  rewrite E. apply f2_map. intros v i S. apply HP. exact (shows_text _ _ _ _ _ S).
Qed.
Lemma says_els n v x is : children n x = is -> Forall2 shows (els n v) is -> says P x n v.
Proof. intros <- F. apply (f2_els n v _ F). Qed.
Lemma says_el n v x : Forall2 shows (el n v) (children n x) -> says P x n [v].
Proof. intros F. apply (f2_els n [v]). exact F. Qed.
Lemma says_el_opt n v x : Forall2 shows (el_opt n v) (children n x) -> says_opt P x n v.
Proof. intros F. unfold says_opt. destruct v as [|c v]; [apply (f2_els n []); exact F|apply (f2_els n [c :: v]); exact F]. Qed.
Lemma says_el_int n z x : Forall2 shows (el_int n z) (children n x) -> says_number x n z.
Proof.
  intros F. unfold says_number. inversion F as [|y i l is S F' E1 E2]; subst. inversion F'; subst. exists i. split; [reflexivity|].
  apply shows_text in S. apply (altered_ascii false _ _ (decimal_ascii z)) in S. rewrite S. apply number_decimal.
Qed.
Lemma says_under n l x (Q : item -> Prop) : Forall2 shows (under n l) (children n x) -> (forall i, shows (XTree n [] l) i -> Q i) -> inside x n Q.
Proof. intros F H. inversion F as [|y i l' is S F' E1 E2]; subst. inversion F'; subst. exists i. split; [congruence|]. apply H. exact S. Qed.
Lemma says_under_opt {A} n (f : A -> list xnode) o x (Q : A -> item -> Prop) : Forall2 shows (under_opt n f o) (children n x) ->
  (forall a i, shows (XTree n [] (f a)) i -> Q a i) -> inside_opt x n o Q.
Proof. intros F H. destruct o as [a|]; cbn [under_opt inside_opt] in *; [eapply says_under; eauto|inversion F; reflexivity]. Qed.

Lemma attr_says_opt n x i v : shows x i ->
  lookup n (match x with XLeaf _ a _ _ => a | XTree _ a _ => a end) = match v with [] => None | _ => Some v end -> attr_opt P i n v.
Proof.
  intros S E. pose proof (shows_lookup n x i S) as L. rewrite E in L. unfold attr_opt. destruct v as [|c v]; [exact L|].
  destruct L as (w & A & B). exists w. split; [exact A|apply HP; exact B].
Qed.
Lemma attr_says_number n x i z : shows x i ->
  lookup n (match x with XLeaf _ a _ _ => a | XTree _ a _ => a end) = (if (z =? 0)%Z then None else Some (decimal z)) -> attr_number i n z.
Proof.
  intros S E. pose proof (shows_lookup n x i S) as L. rewrite E in L. unfold attr_number. destruct (z =? 0)%Z; [exact L|].
  destruct L as (w & A & B). exists w. split; [exact A|]. apply (altered_ascii false _ _ (decimal_ascii z)) in B. rewrite B. apply number_decimal.
Qed.
Lemma says_translations lang k x l : Forall2 shows (map (fun f => XLeaf k (at_opt lang (f_lang f)) true (f_value f)) l) (children k x) ->
  translations P C lang x k l.
Proof.
  intros F. unfold translations, each. revert F. apply f2_map. intros f i S. split; [apply HC; eapply shows_text; eauto|].
  apply (attr_says_opt lang _ _ _ S). cbn. rewrite lookup_opt1. rewrite String.eqb_refl. reflexivity.
Qed.

Ltac onl := rewrite ?only_app, ?only_el, ?only_el_int, ?only_el_opt, ?only_els, ?only_lfields, ?only_under, ?only_under_opt, ?only_leaf, ?only_tree,
  ?only_dist_descr, ?only_comar, ?only_source, ?only_provides.
(** the children of that name *)
Ltac kids S k := let F := fresh "F" in pose proof (shows_children k _ _ _ _ S) as F; revert F; onl; cbn [String.eqb Ascii.eqb Bool.eqb app]; rewrite ?app_nil_r; intros F.
Ltac look := cbv beta iota; rewrite ?lookup_cons, ?lookup_int, ?lookup_opt, ?lookup_int1, ?lookup_opt1; cbn [String.eqb Ascii.eqb Bool.eqb].
Ltac looked := look; repeat match goal with |- context [match ?v with [] => _ | _ :: _ => _ end] => destruct v | |- context [if (?z =? 0)%Z then _ else _] => destruct (z =? 0)%Z end; reflexivity.

Lemma says_dep d i : shows (marshal_dep d) i -> describes_dep P d i.
Proof.
  intros S. unfold describes_dep. unfold marshal_dep in S. split; [apply HP; eapply shows_text; eauto|].
  repeat split; (eapply attr_says_number || eapply attr_says_opt); try exact S; looked.
Qed.
Lemma says_action a i : shows (marshal_action a) i -> describes_action P a i.
Proof. intros S. unfold marshal_action in S. split; [apply HP; eapply shows_text; eauto|]. eapply attr_says_opt; [exact S|]. looked. Qed.
Lemma says_update u i : shows (marshal_update u) i -> describes_update P C u i.
Proof.
  intros S. unfold marshal_update in S. unfold describes_update. split; [|split; [|split; [|split; [|split; [|split; [|split]]]]]].
  - pose proof (shows_lookup "release" _ _ S) as L. cbv beta iota in L. rewrite lookup_cons in L. cbn [String.eqb Ascii.eqb Bool.eqb] in L.
    destruct L as (w & A & B). exists w. split; [exact A|]. apply (altered_ascii false _ _ (decimal_ascii _)) in B. rewrite B. apply number_decimal.
  - eapply attr_says_opt; [exact S|]. looked.
  - kids S "Date"%string. apply says_el. exact F.
  - kids S "Version"%string. apply says_el. exact F.
  - kids S "Email"%string. apply says_el. exact F.
  - kids S "Comment"%string. unfold each. apply (f2_map (fun v => XLeaf "Comment" [] true v)); [intros v j Sj; apply HC; eapply shows_text; eauto|exact F].
  - kids S "Name"%string. unfold each. apply (f2_map (fun v => XLeaf "Name" [] true v)); [intros v j Sj; apply HC; eapply shows_text; eauto|exact F].
  - kids S "Requires"%string. eapply says_under_opt; [exact F|]. intros l j Sj. unfold each. pose proof (shows_children "Action" _ _ _ _ Sj) as G.
    rewrite (only_are _ "Action") in G by (apply are_map; reflexivity). cbn [String.eqb Ascii.eqb Bool.eqb] in G. revert G. apply f2_map. apply says_action.
Qed.
Lemma says_provides p i : shows (marshal_provides p) i -> describes_provides P p i.
Proof.
  intros S. unfold marshal_provides in S. unfold describes_provides. split; [|split].
  - kids S "COMAR"%string. unfold each. revert F. apply f2_map. intros c j Sj. split; [apply HP; eapply shows_text; eauto|]. eapply attr_says_opt; [exact Sj|]. looked.
  - kids S "PkgConfig"%string. eapply says_els; [reflexivity|exact F].
  - kids S "PkgConfig32"%string. eapply says_els; [reflexivity|exact F].
Qed.
Lemma says_delta d i : shows (marshal_delta d) i -> describes_delta P d i.
Proof.
  intros S. unfold marshal_delta in S. unfold describes_delta. split; [|split; [|split]].
  - eapply attr_says_number; [exact S|]. looked.
  - kids S "PackageURI"%string. apply says_el. exact F.
  - kids S "PackageSize"%string. apply says_el_int. exact F.
  - kids S "PackageHash"%string. apply says_el. exact F.
Qed.
Lemma says_packages n a l i : shows (XTree n a (els "Package" l)) i -> says P i "Package" l.
Proof. intros S. kids S "Package"%string. eapply says_els; [reflexivity|exact F]. Qed.
Lemma says_list {A} k (f : A -> xnode) (D : A -> item -> Prop) l n a i : (forall x, xname (f x) = k) -> (forall x i, shows (f x) i -> D x i) ->
  shows (XTree n a (map f l)) i -> each D i k l.
Proof.
  intros K H S. pose proof (shows_children k _ _ _ _ S) as G. rewrite (only_are _ k) in G by (apply are_map; exact K).
  rewrite String.eqb_refl in G. revert G. apply f2_map. exact H.
Qed.
Lemma says_source x m : Forall2 shows (marshal_source m) (children "Source" x) -> inside x "Source" (describes_source P m).
Proof.
  intros F. eapply says_under; [exact F|]. intros i S. unfold describes_source. split; [|split].
  - kids S "Name"%string. apply says_el. assumption.
  - kids S "Homepage"%string. apply says_el_opt. assumption.
  - kids S "Packager"%string. eapply says_under; [eassumption|]. intros j Sj. split.
    + kids Sj "Name"%string. apply says_el. assumption.
    + kids Sj "Email"%string. apply says_el. assumption.
Qed.
Lemma says_package m i : shows (marshal_package m) i -> describes_package P C m i.
Proof.
  intros S. unfold marshal_package in S. unfold describes_package.
  split; [kids S "Name"%string; apply says_el; exact F|].
  split; [kids S "Summary"%string; apply says_translations; exact F|].
  split; [kids S "Description"%string; apply says_translations; exact F|].
  split; [kids S "IsA"%string; apply says_el_opt; exact F|].
  split; [kids S "PartOf"%string; apply says_el_opt; exact F|].
  split; [kids S "License"%string; eapply says_els; [reflexivity|exact F]|].
  split; [kids S "RuntimeDependencies"%string; eapply says_under_opt; [exact F|]; intros l j; apply says_list; [reflexivity|apply says_dep]|].
  split; [kids S "Conflicts"%string; eapply says_under_opt; [exact F|]; intros l j; apply says_packages|].
  split; [kids S "Replaces"%string; eapply says_under_opt; [exact F|]; intros l j; apply says_packages|].
  split; [kids S "Provides"%string; destruct (m_provides m) as [p|]; [eapply says_under; [|intros j Sj; exact (says_provides p j Sj)]; exact F|inversion F; reflexivity]|].
  split; [kids S "History"%string; eapply says_under; [exact F|]; intros j; apply says_list; [reflexivity|apply says_update]|].
  split; [kids S "BuildHost"%string; apply says_el; exact F|].
  split; [kids S "Distribution"%string; apply says_el; exact F|].
  split; [kids S "DistributionRelease"%string; apply says_el; exact F|].
  split; [kids S "Architecture"%string; apply says_el; exact F|].
  split; [kids S "InstalledSize"%string; apply says_el_int; exact F|].
  split; [kids S "PackageSize"%string; apply says_el_int; exact F|].
  split; [kids S "PackageHash"%string; apply says_el; exact F|].
  split; [kids S "PackageURI"%string; apply says_el; exact F|].
  split; [kids S "DeltaPackages"%string; eapply says_under_opt; [exact F|]; intros l j; apply says_list; [reflexivity|apply says_delta]|].
  split; [kids S "PackageFormat"%string; apply says_el; exact F|].
  kids S "Source"%string. apply says_source. exact F.
Qed.
Lemma says_component c i : shows (marshal_component c) i -> describes_component P C c i.
Proof.
  intros S. unfold marshal_component in S. unfold describes_component.
  split; [kids S "Name"%string; apply says_el; exact F|].
  split; [kids S "LocalName"%string; apply says_translations; exact F|].
  split; [kids S "Summary"%string; apply says_translations; exact F|].
  split; [kids S "Description"%string; apply says_translations; exact F|].
  split; [kids S "Group"%string; apply says_el; exact F|].
  kids S "Maintainer"%string. eapply says_under; [exact F|]. intros j Sj. split.
  - kids Sj "Name"%string. apply says_el. assumption.
  - kids Sj "Email"%string. apply says_el. assumption.
Qed.
Lemma says_group g i : shows (marshal_group g) i -> describes_group P C g i.
Proof.
  intros S. unfold marshal_group in S. unfold describes_group.
  split; [kids S "Name"%string; apply says_el; exact F|].
  split; [kids S "LocalName"%string; apply says_translations; exact F|].
  kids S "Icon"%string; apply says_el; exact F.
Qed.
Lemma says_distribution x i : shows (marshal_distribution x) i -> describes_distribution P C "lang" x i.
Proof.
  intros S. unfold marshal_distribution in S. unfold describes_distribution.
  split; [kids S "SourceName"%string; apply says_el; exact F|].
  split; [kids S "Description"%string; apply says_translations; exact F|].
  split; [kids S "Version"%string; apply says_el; exact F|].
  split; [kids S "Type"%string; apply says_el; exact F|].
  split; [kids S "BinaryName"%string; apply says_el; exact F|].
  kids S "Obsoletes"%string. eapply says_under; [exact F|]. intros j. apply says_packages.
Qed.
Lemma says_index x b : Forall2 shows (all_elements x) (filter is_element b) -> describes_index P C "lang" x (El (txt "PISI") [] b).
Proof.
  intros F. unfold describes_index, each. cbn [children].
  assert (K : forall k, Forall2 shows (only k (all_elements x)) (filter (named k) b)) by (intros k; rewrite <- named_element; apply shows_only; exact F).
  assert (D : forall k, only k (all_elements x) = (if String.eqb "Distribution" k then match i_dist x with None => [] | Some d => [marshal_distribution d] end else []) ++
    (if String.eqb "Package" k then map marshal_package (i_packages x) else []) ++ (if String.eqb "Component" k then map marshal_component (i_components x) else []) ++
    (if String.eqb "Group" k then map marshal_group (i_groups x) else [])).
  { intros k. unfold all_elements, elements_of. rewrite !only_app. f_equal; [|f_equal; [|f_equal]].
    - apply only_are. destruct (i_dist x); [constructor; [reflexivity|constructor]|constructor].
    - apply only_are, are_map. reflexivity.
    - apply only_are, are_map. reflexivity.
    - apply only_are, are_map. reflexivity. }
  split; [cbn [named]; rewrite txt_eq; reflexivity|]. split; [|split; [|split]].
  - specialize (K "Distribution"%string). rewrite D in K. cbn [String.eqb Ascii.eqb Bool.eqb app] in K. rewrite app_nil_r in K.
    destruct (i_dist x) as [d|]; [apply (f2_map marshal_distribution _ [d]); [apply says_distribution|exact K]|inversion K; constructor].
  - specialize (K "Package"%string). rewrite D in K. cbn [String.eqb Ascii.eqb Bool.eqb app] in K. rewrite app_nil_r in K. revert K. apply f2_map, says_package.
  - specialize (K "Component"%string). rewrite D in K. cbn [String.eqb Ascii.eqb Bool.eqb app] in K. rewrite app_nil_r in K. revert K. apply f2_map, says_component.
  - specialize (K "Group"%string). rewrite D in K. cbn [String.eqb Ascii.eqb Bool.eqb app] in K. revert K. apply f2_map, says_group.
Qed.
End Says.
