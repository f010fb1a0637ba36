(** * XmlFacts: reading back what the encoder wrote *)
From Coq Require Import List NArith ZArith ZifyN Bool String Ascii Lia Arith.
From Verif Require Import Escape PropsEscape Xml XmlSpec.
Import ListNotations.
Open Scope N_scope. Open Scope list_scope.

(** ** From the characters written to the characters in the file *)
(** [sent symbol lossy v w]: the escaping writer makes [w] of [v]; with [lossy],
    characters beyond ASCII may have become replacement characters *)
Inductive sent (symbol : N -> bool) (lossy : bool) : text -> text -> Prop :=
| sent_nil : sent symbol lossy [] []
| sent_char c v w : sent symbol lossy v w -> sent symbol lossy (c :: v) (esc symbol c ++ w)
| sent_lost c v w k : lossy = true -> 127 < c -> (1 <= k)%nat -> sent symbol lossy v w ->
    sent symbol lossy (c :: v) (repeat rune_error k ++ w).

Lemma sent_cons_inv symbol lossy c v w : sent symbol lossy (c :: v) w ->
  exists w1 w2, w = w1 ++ w2 /\ sent symbol lossy v w2 /\ (w1 = esc symbol c \/ (lossy = true /\ 127 < c /\ exists k, (1 <= k)%nat /\ w1 = repeat rune_error k)).
Proof.
  intros H. inversion H as [|c' v' w' H' E1 E2|c' v' w' k L C K H' E1 E2].
  - exists (esc symbol c), w'. split; [reflexivity|]. split; [exact H'|]. left; reflexivity.
  - exists (repeat rune_error k), w'. split; [reflexivity|]. split; [exact H'|]. right. split; [exact L|]. split; [exact C|]. exists k. split; [exact K|reflexivity].
Qed.
Lemma sent_nil_inv symbol lossy w : sent symbol lossy [] w -> w = [].
Proof. intros H. inversion H. reflexivity. Qed.

Section Facts.
Variable symbol : N -> bool.
Variable lossy : bool.
Notation esc := (esc symbol).
Notation sent := (sent symbol lossy).

Lemma sent_app_inv u v w : sent (u ++ v) w -> exists w1 w2, w = w1 ++ w2 /\ sent u w1 /\ sent v w2.
Proof.
  revert w; induction u as [|c u IH]; intros w H; [exists [], w; split; [reflexivity|]; split; [constructor|exact H]|].
  cbn [app] in H. apply sent_cons_inv in H as (w0 & w' & -> & H' & D). destruct (IH _ H') as (w1 & w2 & -> & A & B).
  exists (w0 ++ w1), w2. rewrite <- app_assoc. split; [reflexivity|]. split; [|exact B].
  destruct D as [->|(L & C & k & K & ->)]; [apply sent_char; exact A|apply sent_lost; assumption].
Qed.
Lemma sent_app u v w1 w2 : sent u w1 -> sent v w2 -> sent (u ++ v) (w1 ++ w2).
Proof. intros A B. induction A; cbn [app]; [exact B| |]; rewrite <- app_assoc; [apply sent_char|apply sent_lost]; assumption. Qed.
Lemma esc_ascii1 c : c < 128 -> esc c = [c].
Proof.
  intros L. unfold PropsEscape.esc, must_escape. destruct (c =? rune_error) eqn:E; [reflexivity|].
  rewrite (proj2 (N.ltb_ge 127 c)) by lia. reflexivity.
Qed.
Definition ascii (u : text) : Prop := Forall (fun c => c < 128) u.
Lemma sent_ascii u w : ascii u -> sent u w -> w = u.
Proof.
  intros F H. induction H as [|c v w H IH|c v w k L C K H IH]; [reflexivity| |]; inversion F; subst.
  - rewrite esc_ascii1 by assumption. cbn [app]. f_equal. apply IH; assumption.
  - lia.
Qed.
Lemma sent_ascii_app u v w : ascii u -> sent (u ++ v) w -> exists w2, w = u ++ w2 /\ sent v w2.
Proof.
  intros F H. destruct (sent_app_inv _ _ _ H) as (w1 & w2 & -> & A & B). exists w2. rewrite (sent_ascii u w1 F A). split; [reflexivity|exact B].
Qed.

(** ** Values *)
Definition xml_text (v : text) : Prop := Forall (fun c => xml_char c = true) v.
(** what is read for a value, outside ([cd = false]) or inside a CDATA section *)
Inductive altered (cd : bool) : text -> text -> Prop :=
| al_nil : altered cd [] []
| al_same c v w : cd && negb (c =? rune_error) && must_escape symbol c = false -> altered cd v w -> altered cd (c :: v) (c :: w)
| al_ref c v w : cd = true -> xml_char c = true -> altered cd v w -> altered cd (c :: v) (esc c ++ w)
| al_lost c v w k : lossy = true -> 127 < c -> (1 <= k)%nat -> altered cd v w -> altered cd (c :: v) (repeat rune_error k ++ w).

Lemma read_app r a b : read_chars r (a ++ b) = match read_chars r a with Some r' => read_chars r' b | None => None end.
Proof. revert r; induction a as [|c a IH]; intros r; [reflexivity|]. cbn [app read_chars]. destruct (read_char r c); [apply IH|reflexivity]. Qed.

Lemma hex_number f n acc : n < 2 ^ N.of_nat f -> number_in 16 hex_of (hex (S f) n acc) 0 = number_in 16 hex_of acc n.
Proof.
  revert n acc; induction f as [|f IH]; intros n acc B.
  - assert (n = 0) as -> by (change (2 ^ N.of_nat 0) with 1 in B; lia). reflexivity.
  - cbn [hex]. destruct (n <? 16) eqn:C; bools.
    + cbn [number_in]. change hex_of with hex_value. rewrite (hex_value_digit n C). f_equal; lia.
    + change (number_in 16 hex_of (hex (S f) (n / 16) (hex_digit (n mod 16) :: acc)) 0 = number_in 16 hex_of acc n). rewrite IH.
      * cbn [number_in]. change (hex_of (hex_digit (n mod 16))) with (hex_value (hex_digit (n mod 16))). rewrite hex_value_digit by (apply N.mod_lt; discriminate). f_equal. lia.
      * rewrite Nat2N.inj_succ, N.pow_succ_r' in B. apply N.div_lt_upper_bound; [discriminate|]. set (x := 2 ^ N.of_nat f) in *. clearbody x. lia.
Qed.
Lemma meaning_hex c : xml_char c = true -> meaning ([35; 120] ++ print_hex c) = Some c.
Proof.
  intros X. change (meaning ([35; 120] ++ print_hex c)) with
    (match number_in 16 hex_of (print_hex c) 0 with Some v => if xml_char v then Some v else None | None => None end).
  unfold print_hex. rewrite hex_number by (rewrite N2Nat.id; apply N.size_gt). cbn [number_in]. rewrite X. reflexivity.
Qed.
(** a hexadecimal digit is a plain character of every context *)
Definition plain_digit (c : N) : Prop := within 48 57 c = true \/ within 65 70 c = true.
Lemma hex_plain f n acc : Forall plain_digit acc -> Forall plain_digit (hex f n acc).
Proof.
  revert n acc; induction f as [|f IH]; intros n acc F; cbn [hex]; [exact F|].
  assert (D : forall m, m < 16 -> plain_digit (hex_digit m)).
  { intros m L. unfold hex_digit, plain_digit. destruct (m <? 10) eqn:C; bools; [left|right]; apply within_iff; lia. }
  destruct (n <? 16) eqn:C; bools; [constructor; [apply D; exact C|exact F]|]. apply IH. constructor; [apply D, N.mod_lt; discriminate|exact F].
Qed.
Lemma print_hex_plain c : Forall plain_digit (print_hex c).
Proof. unfold print_hex. apply hex_plain. constructor. Qed.
Lemma plain_digit_facts c : plain_digit c -> xml_char c = true /\ c <> 59 /\ c <> 93 /\ c <> 62 /\ c < 128 /\ c <> 13.
Proof.
  intros [H|H]; bools; repeat split; try lia; unfold xml_char; rewrite !orb_true_iff; left; left; right; apply within_iff; lia.
Qed.
Lemma xml_scalar c : xml_char c = true -> scalar c.
Proof. unfold xml_char, scalar. intros H. rewrite !orb_true_iff in H. repeat destruct H as [H|H]; bools; lia. Qed.

(** what EscapeText writes *)
Definition esc_char (c : N) : text := match escaped c with Some e => e | None => [c] end.
Definition esc_text (v : text) : text := flat_map esc_char v.
Lemma escape_calls_text acc v : flat_map snd (escape_calls acc v) = acc ++ esc_text v.
Proof.
  revert acc; induction v as [|c v IH]; intros acc; cbn [escape_calls flat_map snd esc_text]; [reflexivity|].
  unfold esc_char at 1. destruct (escaped c) as [e|]; cbn [flat_map snd]; rewrite IH; cbn [app]; [rewrite <- ?app_assoc; reflexivity|].
  rewrite <- app_assoc. reflexivity.
Qed.
(** the cases of a character *)
Inductive kind : N -> Prop :=
| k_mark c m : In (c, m) [(34, "#34"); (39, "#39"); (38, "amp"); (60, "lt"); (62, "gt"); (9, "#x9"); (10, "#xA"); (13, "#xD")]%string ->
    esc_char c = 38 :: txt m ++ [59] -> kind c
| k_plain c : esc_char c = [c] -> ~ In c [34; 39; 38; 60; 62; 9; 10; 13] -> kind c.
Lemma kind_of c : xml_char c = true -> kind c.
Proof.
  intros X.
  destruct (in_dec N.eq_dec c [34; 39; 38; 60; 62; 9; 10; 13]) as [I|I].
  - cbn [In] in I. destruct I as [<-|[<-|[<-|[<-|[<-|[<-|[<-|[<-|[]]]]]]]]];
      [apply (k_mark _ "#34")|apply (k_mark _ "#39")|apply (k_mark _ "amp")|apply (k_mark _ "lt")|apply (k_mark _ "gt")|apply (k_mark _ "#x9")
      |apply (k_mark _ "#xA")|apply (k_mark _ "#xD")]; (reflexivity || (cbn [In]; tauto)).
  - apply k_plain; [|exact I]. unfold esc_char, escaped. cbn [In] in I.
    repeat match goal with |- context [?a =? ?b] => destruct (N.eqb_spec a b) as [->|_]; [exfalso; apply I; tauto|] end.
    rewrite X. reflexivity.
Qed.

Notation R := Reader.
(** references and plain characters in the two places *)
Lemma read_ref_text h o r rest : Forall (fun c => xml_char c = true /\ c <> 59) r -> forall acc,
  read_chars (R (InRef acc) h o) (r ++ rest) = read_chars (R (InRef (acc ++ r)) h o) rest.
Proof.
  induction 1 as [|c r [X N] F IH]; intros acc; [rewrite app_nil_r; reflexivity|]. cbn [app read_chars].
  unfold read_char. rewrite X. cbn [negb r_mode]. rewrite (proj2 (N.eqb_neq c 59) N). unfold goto. cbn [r_here r_open].
  rewrite IH, <- app_assoc. reflexivity.
Qed.
Lemma read_ref_val h o n a an v r rest : Forall (fun c => xml_char c = true /\ c <> 59) r -> forall acc,
  read_chars (R (InValRef n a an v acc) h o) (r ++ rest) = read_chars (R (InValRef n a an v (acc ++ r)) h o) rest.
Proof.
  induction 1 as [|c r [X N] F IH]; intros acc; [rewrite app_nil_r; reflexivity|]. cbn [app read_chars].
  unfold read_char. rewrite X. cbn [negb r_mode]. rewrite (proj2 (N.eqb_neq c 59) N). unfold goto. cbn [r_here r_open].
  rewrite IH, <- app_assoc. reflexivity.
Qed.
Lemma ref_whole_text h o e r v rest : Forall (fun c => xml_char c = true /\ c <> 59) r -> meaning r = Some v ->
  read_chars (R InText h (e :: o)) (38 :: r ++ 59 :: rest) = read_chars (R InText (h ++ [Ch v]) (e :: o)) rest.
Proof.
  intros F M. cbn [read_chars]. change (read_char (R InText h (e :: o)) 38) with (Some (R (InRef []) h (e :: o))). cbn match.
  rewrite (read_ref_text h (e :: o) r (59 :: rest) F []). cbn [app read_chars]. unfold read_char. cbn [negb r_mode]. change (xml_char 59) with true. cbn [negb]. change (59 =? 59) with true. cbn match. rewrite M. reflexivity.
Qed.
Lemma ref_whole_val h o n a an u r v rest : Forall (fun c => xml_char c = true /\ c <> 59) r -> meaning r = Some v ->
  read_chars (R (InVal n a an u) h o) (38 :: r ++ 59 :: rest) = read_chars (R (InVal n a an (u ++ [v])) h o) rest.
Proof.
  intros F M. cbn [read_chars]. change (read_char (R (InVal n a an u) h o) 38) with (Some (R (InValRef n a an u []) h o)). cbn match.
  rewrite (read_ref_val h o n a an u r (59 :: rest) F []). cbn [app read_chars]. unfold read_char. cbn [negb r_mode]. change (xml_char 59) with true. cbn [negb]. change (59 =? 59) with true. cbn match. rewrite M. reflexivity.
Qed.
Lemma plain_text h o e c rest : xml_char c = true -> ~ In c [38; 60; 62] ->
  read_chars (R InText h (e :: o)) (c :: rest) = read_chars (R InText (h ++ [Ch c]) (e :: o)) rest.
Proof.
  intros X N. cbn [In] in N. cbn [read_chars]. unfold read_char. rewrite X. cbn [negb r_mode r_open].
  repeat match goal with |- context [c =? ?b] => destruct (N.eqb_spec c b) as [->|_]; [exfalso; apply N; tauto|] end. reflexivity.
Qed.
Lemma plain_val h o n a an u c rest : xml_char c = true -> ~ In c [34; 38; 60; 32; 9; 10; 13] ->
  read_chars (R (InVal n a an u) h o) (c :: rest) = read_chars (R (InVal n a an (u ++ [c])) h o) rest.
Proof.
  intros X N. cbn [In] in N. cbn [read_chars]. unfold read_char. rewrite X. cbn [negb r_mode r_open]. unfold blank.
  repeat match goal with |- context [c =? ?b] => destruct (N.eqb_spec c b) as [->|_]; [exfalso; apply N; tauto|] end. reflexivity.
Qed.
Lemma blank_val h o n a an u rest : read_chars (R (InVal n a an u) h o) (32 :: rest) = read_chars (R (InVal n a an (u ++ [32])) h o) rest.
Proof. reflexivity. Qed.
Lemma mark_ok c m : In (c, m) [(34, "#34"); (39, "#39"); (38, "amp"); (60, "lt"); (62, "gt"); (9, "#x9"); (10, "#xA"); (13, "#xD")]%string ->
  Forall (fun c => xml_char c = true /\ c <> 59) (txt m) /\ meaning (txt m) = Some c /\ ascii (38 :: txt m ++ [59]).
Proof.
  cbn [In]. intros H. repeat destruct H as [H|H]; try contradiction; injection H as <- <-; (split; [|split]); try reflexivity;
    cbv [txt list_ascii_of_string map N_of_ascii N_of_digits]; repeat constructor; try reflexivity; discriminate.
Qed.
Lemma esc_ref c : (c =? rune_error) = false -> must_escape symbol c = true -> esc c = 38 :: ([35; 120] ++ print_hex c) ++ [59].
Proof. intros A B. unfold PropsEscape.esc. rewrite A, B. cbn [app]. reflexivity. Qed.
Lemma esc_same c : (c =? rune_error) = true \/ must_escape symbol c = false -> esc c = [c].
Proof. intros [A|B]; unfold PropsEscape.esc; [rewrite A; reflexivity|rewrite B; destruct (c =? rune_error); reflexivity]. Qed.
Lemma esc_dec c : ((c =? rune_error) = false /\ must_escape symbol c = true) \/ ((c =? rune_error) = true \/ must_escape symbol c = false).
Proof. destruct (c =? rune_error), (must_escape symbol c); auto. Qed.
Lemma hexref_ok c : Forall (fun c => xml_char c = true /\ c <> 59) ([35; 120] ++ print_hex c).
Proof.
  constructor; [split; [reflexivity|discriminate]|]. constructor; [split; [reflexivity|discriminate]|].
  eapply Forall_impl; [|apply print_hex_plain]. intros d D. destruct (plain_digit_facts d D) as (A & B & _). split; assumption.
Qed.
Lemma sent_one c w : sent [c] w -> w = esc c \/ (lossy = true /\ 127 < c /\ exists k, (1 <= k)%nat /\ w = repeat rune_error k).
Proof.
  intros H. apply sent_cons_inv in H as (w1 & w2 & -> & H' & D). apply sent_nil_inv in H' as ->. rewrite app_nil_r. exact D.
Qed.
Lemma errors_val h o n a an k : forall u rest, read_chars (R (InVal n a an u) h o) (repeat rune_error k ++ rest) = read_chars (R (InVal n a an (u ++ repeat rune_error k)) h o) rest.
Proof.
  induction k as [|k IH]; intros u rest; [cbn [repeat app]; rewrite app_nil_r; reflexivity|].
  change (repeat rune_error (S k) ++ rest) with (rune_error :: repeat rune_error k ++ rest). rewrite plain_val; [|reflexivity|].
  - rewrite IH, <- app_assoc. reflexivity.
  - cbn [In]. unfold rune_error. intros H. repeat destruct H as [H|H]; try discriminate; contradiction.
Qed.
Lemma errors_text h o e k : forall rest, read_chars (R InText h (e :: o)) (repeat rune_error k ++ rest) = read_chars (R InText (h ++ map Ch (repeat rune_error k)) (e :: o)) rest.
Proof.
  revert h; induction k as [|k IH]; intros h rest; [cbn [repeat app map]; rewrite app_nil_r; reflexivity|].
  change (repeat rune_error (S k) ++ rest) with (rune_error :: repeat rune_error k ++ rest). rewrite plain_text; [|reflexivity|].
  - rewrite IH, <- app_assoc. reflexivity.
  - cbn [In]. unfold rune_error. intros H. repeat destruct H as [H|H]; try discriminate; contradiction.
Qed.

Lemma read_value v : xml_text v -> forall w, sent (esc_text v) w -> forall n a an u h o, exists v', altered false v v' /\
  forall rest, read_chars (R (InVal n a an u) h o) (w ++ rest) = read_chars (R (InVal n a an (u ++ v')) h o) rest.
Proof.
  induction 1 as [|c v X F IH]; intros w H n a an u h o.
  - apply sent_nil_inv in H as ->. exists []. split; [constructor|]. intros rest. rewrite app_nil_r. reflexivity.
  - cbn [esc_text flat_map] in H. fold (esc_text v) in H. apply sent_app_inv in H as (w1 & w2 & -> & H1 & H2).
    assert (S1 : exists v1, (v1 = [c] \/ (lossy = true /\ 127 < c /\ exists k, (1 <= k)%nat /\ v1 = repeat rune_error k)) /\
      forall rest, read_chars (R (InVal n a an u) h o) (w1 ++ rest) = read_chars (R (InVal n a an (u ++ v1)) h o) rest).
    { destruct (kind_of c X) as [c m I E|c E N].
      - destruct (mark_ok c m I) as (O & M & As). rewrite E in H1. apply sent_ascii in H1; [|exact As]. subst w1. exists [c]. split; [left; reflexivity|].
        intros rest. cbn [app]. rewrite <- app_assoc. cbn [app]. apply ref_whole_val; assumption.
      - rewrite E in H1. destruct (sent_one c w1 H1) as [->|(L & C & k & K & ->)].
        + exists [c]. split; [left; reflexivity|]. intros rest. destruct (esc_dec c) as [[A B]|A].
          * rewrite (esc_ref c A B). cbn [app]. rewrite <- app_assoc. cbn [app]. change (35 :: 120 :: print_hex c ++ 59 :: rest) with (([35; 120] ++ print_hex c) ++ 59 :: rest).
            apply ref_whole_val; [apply hexref_ok|apply meaning_hex; exact X].
          * rewrite (esc_same c A). cbn [app]. destruct (N.eq_dec c 32) as [->|Z]; [apply blank_val|]. apply plain_val; [exact X|]. cbn [In] in *. intuition congruence.
        + exists (repeat rune_error k). split; [right; split; [exact L|split; [exact C|exists k; split; [exact K|reflexivity]]]|]. intros rest. apply errors_val. }
    destruct S1 as (v1 & V1 & S1). destruct (IH w2 H2 n a an (u ++ v1) h o) as (v2 & A2 & S2). exists (v1 ++ v2). split.
    + destruct V1 as [->|(L & C & k & K & ->)]; [apply al_same; [reflexivity|exact A2]|apply al_lost; assumption].
    + intros rest. rewrite <- app_assoc, S1, S2, <- app_assoc. reflexivity.
Qed.
Lemma read_content v : xml_text v -> forall w, sent (esc_text v) w -> forall h e o, exists v', altered false v v' /\
  forall rest, read_chars (R InText h (e :: o)) (w ++ rest) = read_chars (R InText (h ++ map Ch v') (e :: o)) rest.
Proof.
  induction 1 as [|c v X F IH]; intros w H h e o.
  - apply sent_nil_inv in H as ->. exists []. split; [constructor|]. intros rest. cbn [map]. rewrite app_nil_r. reflexivity.
  - cbn [esc_text flat_map] in H. fold (esc_text v) in H. apply sent_app_inv in H as (w1 & w2 & -> & H1 & H2).
    assert (S1 : exists v1, (v1 = [c] \/ (lossy = true /\ 127 < c /\ exists k, (1 <= k)%nat /\ v1 = repeat rune_error k)) /\
      forall rest, read_chars (R InText h (e :: o)) (w1 ++ rest) = read_chars (R InText (h ++ map Ch v1) (e :: o)) rest).
    { destruct (kind_of c X) as [c m I E|c E N].
      - destruct (mark_ok c m I) as (O & M & As). rewrite E in H1. apply sent_ascii in H1; [|exact As]. subst w1. exists [c]. split; [left; reflexivity|].
        intros rest. cbn [app]. rewrite <- app_assoc. cbn [app map]. apply ref_whole_text; assumption.
      - rewrite E in H1. destruct (sent_one c w1 H1) as [->|(L & C & k & K & ->)].
        + exists [c]. split; [left; reflexivity|]. intros rest. destruct (esc_dec c) as [[A B]|A].
          * rewrite (esc_ref c A B). cbn [app map]. rewrite <- app_assoc. cbn [app]. change (35 :: 120 :: print_hex c ++ 59 :: rest) with (([35; 120] ++ print_hex c) ++ 59 :: rest).
            apply ref_whole_text; [apply hexref_ok|apply meaning_hex; exact X].
          * rewrite (esc_same c A). cbn [app map]. apply plain_text; [exact X|]. cbn [In] in *. intuition congruence.
        + exists (repeat rune_error k). split; [right; split; [exact L|split; [exact C|exists k; split; [exact K|reflexivity]]]|]. intros rest. apply errors_text. }
    destruct S1 as (v1 & V1 & S1). destruct (IH w2 H2 (h ++ map Ch v1) e o) as (v2 & A2 & S2). exists (v1 ++ v2). split.
    + destruct V1 as [->|(L & C & k & K & ->)]; [apply al_same; [reflexivity|exact A2]|apply al_lost; assumption].
    + intros rest. rewrite <- app_assoc, S1, S2, <- app_assoc, map_app. reflexivity.
Qed.

(** ** CDATA sections *)
Fixpoint cd_text (v : text) : text :=
  match v with
  | [] => []
  | c :: t =>
      match t with
      | d :: e :: t' => if (c =? 93) && (d =? 93) && (e =? 62) then txt "]]]]><![CDATA[>" ++ cd_text t' else c :: cd_text t
      | _ => c :: cd_text t
      end
  end.
Lemma cdata_calls_text n : forall v acc, (List.length v <= n)%nat -> flat_map snd (cdata_calls acc v) = acc ++ cd_text v.
Proof.
  induction n as [|n IH]; intros v acc L.
  - destruct v; [cbn; reflexivity|cbn in L; lia].
  - destruct v as [|c t]; [reflexivity|]. cbn [cdata_calls cd_text].
    destruct t as [|d [|e t']].
    + rewrite IH by (cbn in *; lia). rewrite <- app_assoc. reflexivity.
    + rewrite IH by (cbn in *; lia). rewrite <- app_assoc. reflexivity.
    + destruct ((c =? 93) && (d =? 93) && (e =? 62)).
      * cbn [flat_map snd]. rewrite IH by (cbn in *; lia). reflexivity.
      * rewrite IH by (cbn in *; lia). rewrite <- app_assoc. reflexivity.
Qed.
Definition starts_gt (v : text) : bool := match v with c :: _ => c =? 62 | [] => false end.
Definition starts_bgt (v : text) : bool := match v with c :: t => (c =? 93) && starts_gt t | [] => false end.
Definition starts_bbgt (v : text) : bool := match v with c :: t => (c =? 93) && starts_bgt t | [] => false end.
(** brackets pending before the rest of a text, in which no end mark begins earlier *)
Definition pending (k : nat) (v : text) : Prop :=
  (k <= 2)%nat /\ ((2 <= k)%nat -> starts_gt v = false) /\ ((1 <= k)%nat -> starts_bgt v = false).
Lemma cd_text_cons c t : starts_bbgt (c :: t) = false -> cd_text (c :: t) = c :: cd_text t.
Proof.
  intros H. cbn [cd_text]. destruct t as [|d [|e t']]; try reflexivity. cbn [starts_bbgt starts_bgt starts_gt] in H.
  rewrite andb_assoc in H. rewrite H. reflexivity.
Qed.
Lemma cd_text_mark t : cd_text (93 :: 93 :: 62 :: t) = txt "]]]]><![CDATA[>" ++ cd_text t.
Proof. reflexivity. Qed.
Lemma cd_plain h e o rest u : forall k c, xml_text (c :: u) -> Forall (fun c => c <> 93 /\ c <> 62) (c :: u) ->
  read_chars (R (InCdata k) h (e :: o)) (c :: u ++ rest) = read_chars (R (InCdata 0) (h ++ map Ch (repeat 93 k ++ c :: u)) (e :: o)) rest.
Proof.
  revert h. induction u as [|d u IH]; intros h k c X F.
  - inversion X; subst. inversion F as [|? ? [A B]]; subst. cbn [app read_chars]. unfold read_char. rewrite H1. cbn [negb r_mode].
    rewrite (proj2 (N.eqb_neq c 93) A), (proj2 (N.eqb_neq c 62) B). cbn [andb]. unfold push. cbn [r_here r_open]. rewrite map_app.
    do 4 f_equal. clear. induction k as [|k IH]; [reflexivity|]. cbn [repeat map]. rewrite <- IH. reflexivity.
  - inversion X as [|? ? X1 X2]; subst. inversion F as [|? ? [A B] F2]; subst. cbn [app].
    assert (E : forall r, read_chars (R (InCdata k) h (e :: o)) (c :: r) = read_chars (R (InCdata 0) (h ++ map Ch (repeat 93 k ++ [c])) (e :: o)) r).
    { intros r. cbn [read_chars]. unfold read_char. rewrite X1. cbn [negb r_mode].
      rewrite (proj2 (N.eqb_neq c 93) A), (proj2 (N.eqb_neq c 62) B). cbn [andb]. unfold push. cbn [r_here r_open]. rewrite map_app.
      replace (repeat (Ch 93) k) with (map Ch (repeat 93 k)); [reflexivity|]. clear. induction k as [|k IH]; [reflexivity|]. cbn [repeat map]. rewrite <- IH. reflexivity. }
    rewrite E. rewrite (IH _ 0%nat d X2 F2). f_equal. f_equal. rewrite <- app_assoc. f_equal. rewrite <- map_app. f_equal. rewrite <- app_assoc. reflexivity.
Qed.
Lemma al_repeat k v w : altered true v w -> altered true (repeat 93 k ++ v) (repeat 93 k ++ w).
Proof. intros A. induction k as [|k IH]; [exact A|]. cbn [repeat app]. apply al_same; [reflexivity|exact IH]. Qed.
Lemma step_bracket_low h o k rest : (k < 2)%nat -> read_chars (R (InCdata k) h o) (93 :: rest) = read_chars (R (InCdata (S k)) h o) rest.
Proof. intros L. destruct k as [|[|k]]; [reflexivity|reflexivity|lia]. Qed.
Lemma step_bracket_high h o rest : read_chars (R (InCdata 2) h o) (93 :: rest) = read_chars (R (InCdata 2) (h ++ [Ch 93]) o) rest.
Proof. reflexivity. Qed.
Lemma step_gt h o k rest : (k < 2)%nat -> read_chars (R (InCdata k) h o) (62 :: rest) = read_chars (R (InCdata 0) (h ++ map Ch (repeat 93 k ++ [62])) o) rest.
Proof. intros L. destruct k as [|[|k]]; [reflexivity|reflexivity|lia]. Qed.
Lemma close_cdata h o k rest : (k <= 2)%nat -> read_chars (R (InCdata k) h o) (txt "]]>" ++ rest) = read_chars (R InText (h ++ map Ch (repeat 93 k)) o) rest.
Proof.
  intros L. destruct k as [|[|[|k]]]; [|change (read_chars (R (InCdata 1) h o) (txt "]]>" ++ rest)) with (read_chars (R InText (h ++ [Ch 93]) o) rest)
    |change (read_chars (R (InCdata 2) h o) (txt "]]>" ++ rest)) with (read_chars (R InText ((h ++ [Ch 93]) ++ [Ch 93]) o) rest)|lia].
  - cbn [repeat map]. rewrite app_nil_r. reflexivity.
  - reflexivity.
  - rewrite <- app_assoc. reflexivity.
Qed.
Lemma split_cdata h e o k rest : (k <= 2)%nat ->
  read_chars (R (InCdata k) h (e :: o)) (txt "]]]]><![CDATA[>" ++ rest) = read_chars (R (InCdata 0) (h ++ map Ch (repeat 93 k ++ [93; 93; 62])) (e :: o)) rest.
Proof.
  intros L. destruct k as [|[|[|k]]]; [| | |lia].
  - change (read_chars (R (InCdata 0) h (e :: o)) (txt "]]]]><![CDATA[>" ++ rest)) with (read_chars (R (InCdata 0) (((h ++ [Ch 93]) ++ [Ch 93]) ++ [Ch 62]) (e :: o)) rest).
    rewrite <- !app_assoc. reflexivity.
  - change (read_chars (R (InCdata 1) h (e :: o)) (txt "]]]]><![CDATA[>" ++ rest)) with (read_chars (R (InCdata 0) ((((h ++ [Ch 93]) ++ [Ch 93]) ++ [Ch 93]) ++ [Ch 62]) (e :: o)) rest).
    rewrite <- !app_assoc. reflexivity.
  - change (read_chars (R (InCdata 2) h (e :: o)) (txt "]]]]><![CDATA[>" ++ rest)) with (read_chars (R (InCdata 0) (((((h ++ [Ch 93]) ++ [Ch 93]) ++ [Ch 93]) ++ [Ch 93]) ++ [Ch 62]) (e :: o)) rest).
    rewrite <- !app_assoc. reflexivity.
Qed.
Lemma repeat_shift {A} (x : A) k v : repeat x (S k) ++ v = repeat x k ++ x :: v.
Proof. induction k as [|k IH]; [reflexivity|]. change (x :: repeat x (S k) ++ v = x :: repeat x k ++ x :: v). rewrite IH. reflexivity. Qed.
Lemma read_cdata n : forall v, (List.length v <= n)%nat -> xml_text v -> forall k, pending k v -> forall w, sent (cd_text v ++ txt "]]>") w ->
  forall h e o, exists v', altered true v v' /\
  forall rest, read_chars (R (InCdata k) h (e :: o)) (w ++ rest) = read_chars (R InText (h ++ map Ch (repeat 93 k ++ v')) (e :: o)) rest.
Proof.
  assert (Amark : ascii (txt "]]>")) by (repeat constructor).
  induction n as [|n IH]; intros v L X k P w H h e o.
  - destruct v; [|cbn in L; lia]. cbn [cd_text app] in H. apply sent_ascii in H; [|exact Amark]. subst w. exists []. split; [constructor|].
    intros rest. rewrite app_nil_r. apply close_cdata. apply P.
  - destruct v as [|c t].
    + cbn [cd_text app] in H. apply sent_ascii in H; [|exact Amark]. subst w. exists []. split; [constructor|].
      intros rest. rewrite app_nil_r. apply close_cdata. apply P.
    + destruct (starts_bbgt (c :: t)) eqn:M.
      * cbn [starts_bbgt] in M. apply andb_true_iff in M as [M1 M2]. destruct t as [|d t]; [discriminate M2|]. cbn [starts_bgt] in M2. apply andb_true_iff in M2 as [M2 M3].
        destruct t as [|g t]; [discriminate M3|]. cbn [starts_gt] in M3. bools. subst c d g. rewrite cd_text_mark, <- app_assoc in H.
        apply sent_ascii_app in H as (w2 & -> & H2); [|repeat constructor].
        inversion X as [|? ? _ X']; subst. inversion X' as [|? ? _ X'']; subst. inversion X'' as [|? ? _ X3]; subst.
        destruct (IH t ltac:(cbn in L; lia) X3 0%nat ltac:(split; [lia|split; lia]) w2 H2 (h ++ map Ch (repeat 93 k ++ [93; 93; 62])) e o) as (v' & A & E).
        exists (93 :: 93 :: 62 :: v'). split; [repeat (apply al_same; [reflexivity|]); exact A|].
        intros rest. rewrite <- app_assoc, split_cdata by apply P. rewrite E. f_equal. f_equal. rewrite <- app_assoc. f_equal. rewrite <- map_app. f_equal.
        cbn [repeat app]. rewrite <- app_assoc. reflexivity.
      * rewrite (cd_text_cons c t M) in H. cbn [app] in H. apply sent_cons_inv in H as (w1 & w2 & -> & H2 & D).
        inversion X as [|? ? Xc Xt]; subst. destruct P as (P1 & P2 & P3).
        destruct (N.eq_dec c 93) as [->|N93].
        { assert (w1 = [93]) as -> by (destruct D as [->|(_ & C & _)]; [apply esc_ascii1; lia|lia]).
          assert (Pn : pending (Nat.min 2 (S k)) t).
          { split; [lia|]. cbn [starts_bbgt starts_bgt] in *. change (93 =? 93) with true in *. cbn [andb] in *. split; [intros G; apply P3; lia|intros _; exact M]. }
          destruct (Nat.eq_dec k 2) as [->|K2].
          - destruct (IH t ltac:(cbn in L; lia) Xt 2%nat Pn w2 H2 (h ++ [Ch 93]) e o) as (v' & A & E). exists (93 :: v'). split; [apply al_same; [reflexivity|exact A]|].
            intros rest. rewrite <- app_assoc. cbn [app]. rewrite step_bracket_high, E. rewrite <- app_assoc. reflexivity.
          - replace (Nat.min 2 (S k)) with (S k) in Pn by lia.
            destruct (IH t ltac:(cbn in L; lia) Xt (S k) Pn w2 H2 h e o) as (v' & A & E). exists (93 :: v'). split; [apply al_same; [reflexivity|exact A]|].
            intros rest. rewrite <- app_assoc. cbn [app]. rewrite step_bracket_low by lia. rewrite E. rewrite repeat_shift. reflexivity. }
        assert (Pn : pending 0 t) by (split; [lia|split; lia]).
        destruct (N.eq_dec c 62) as [->|N62].
        { assert (w1 = [62]) as -> by (destruct D as [->|(_ & C & _)]; [apply esc_ascii1; lia|lia]).
          assert (k < 2)%nat by (destruct (Nat.eq_dec k 2) as [->|]; [|lia]; specialize (P2 (le_n _)); discriminate P2).
          destruct (IH t ltac:(cbn in L; lia) Xt 0%nat Pn w2 H2 (h ++ map Ch (repeat 93 k ++ [62])) e o) as (v' & A & E). exists (62 :: v').
          split; [apply al_same; [reflexivity|exact A]|]. intros rest. rewrite <- app_assoc. cbn [app]. rewrite step_gt by assumption. rewrite E.
          do 2 f_equal. rewrite <- app_assoc, <- map_app, <- app_assoc. reflexivity. }
        assert (S1 : exists d u, w1 = d :: u /\ xml_text w1 /\ Forall (fun c => c <> 93 /\ c <> 62) w1 /\
          forall v', altered true t v' -> altered true (c :: t) (w1 ++ v')).
        { destruct D as [->|(Lo & C & j & J & ->)].
          - destruct (esc_dec c) as [[A B]|A].
            + exists 38, ([35; 120] ++ print_hex c ++ [59]). split; [rewrite (esc_ref c A B); cbn [app]; reflexivity|].
              split; [|split].
              * rewrite (esc_ref c A B). constructor; [reflexivity|]. apply Forall_app. split; [|repeat constructor]. eapply Forall_impl; [|apply hexref_ok]. intros x [G _]; exact G.
              * rewrite (esc_ref c A B). cbn [app]. repeat (constructor; [split; discriminate|]). apply Forall_app. split; [|repeat constructor; discriminate].
                eapply Forall_impl; [|apply print_hex_plain]. intros x G. apply plain_digit_facts in G. tauto.
              * intros v' Av. apply al_ref; [reflexivity|inversion X; assumption|exact Av].
            + exists c, []. rewrite (esc_same c A). split; [reflexivity|]. split; [repeat constructor; exact Xc|]. split; [repeat constructor; assumption|].
              intros v' Av. apply al_same; [|exact Av]. destruct A as [->| ->]; [reflexivity|]. apply andb_false_r.
          - destruct j as [|j]; [lia|]. exists rune_error, (repeat rune_error j). split; [reflexivity|]. split; [|split].
            + apply Forall_forall. intros x I. apply repeat_spec in I as ->. reflexivity.
            + apply Forall_forall. intros x I. apply repeat_spec in I as ->. split; discriminate.
            + intros v' Av. apply al_lost; assumption. }
        destruct S1 as (d & u & Ew & Xw & Fw & Aw). destruct (IH t ltac:(cbn in L; lia) Xt 0%nat Pn w2 H2 (h ++ map Ch (repeat 93 k ++ w1)) e o) as (v' & A & E).
        exists (w1 ++ v'). split; [apply Aw; exact A|]. intros rest. rewrite <- app_assoc. rewrite Ew in *. cbn [app]. rewrite cd_plain by assumption. rewrite E.
        do 2 f_equal. rewrite <- app_assoc, <- map_app. cbn [repeat app]. rewrite <- app_assoc. reflexivity.
Qed.
End Facts.
