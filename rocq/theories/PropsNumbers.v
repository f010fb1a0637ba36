(** * PropsNumbers: C108, the numbers of the index are numbers to the decoder of the metadata *)
From Coq Require Import List NArith ZArith Bool String Ascii Lia.
From Verif Require Import Escape Xml Unxml UnxmlWords.
From Verif Require XmlTree XmlSpec UnxmlSpec.
Import ListNotations UnxmlSpec.
Open Scope N_scope. Open Scope list_scope.

(** ** C108: the numbers of the index are numbers to the decoder of the metadata *)
Lemma number_digits l n : XmlSpec.number_in 10 XmlSpec.dec_of l 0 = Some n <-> parse_digits l 0 = Some n.
Proof.
  assert (G : forall l acc, XmlSpec.number_in 10 XmlSpec.dec_of l acc = parse_digits l acc).
  { clear. induction l as [|c l IH]; intros acc; cbn [XmlSpec.number_in parse_digits]; [reflexivity|]. unfold XmlSpec.dec_of.
    destruct (within 48 57 c); [apply IH|reflexivity]. }
  rewrite G. reflexivity.
Qed.
Theorem C108_numbers :
  (forall t z, XmlSpec.number t = Some z <-> integer t z /\ (forall u, t <> 43 :: u)) /\
  (forall t z, XmlSpec.number t = Some z -> word64 z -> int_of t z).
Proof.
  assert (M : forall t z, XmlSpec.number t = Some z <-> integer t z /\ (forall u, t <> 43 :: u)).
  { intros t z. unfold XmlSpec.number. split.
    - destruct t as [|c u]; [discriminate|]. destruct (c =? 45) eqn:E.
      + apply N.eqb_eq in E. subst. destruct u as [|x u]; [discriminate|]. destruct (XmlSpec.number_in _ _ _ _) as [n|] eqn:P; [|discriminate].
        cbn [option_map]. intros [= <-]. apply number_digits in P. split; [apply int_minus, digits_parse; split; [discriminate|exact P]|discriminate].
      + destruct (XmlSpec.number_in _ _ _ _) as [n|] eqn:P; [|discriminate]. cbn [option_map]. intros [= <-]. apply number_digits in P.
        split; [apply int_plain, digits_parse; split; [discriminate|exact P]|]. intros v [= -> ->]. vm_compute in P. discriminate P.
    - intros [I H]. destruct I as [l n D|l n D|l n D].
      + destruct (digits_first _ _ D) as (c & u & -> & L). apply digits_parse in D as [_ P]. destruct (c =? 45) eqn:E; [apply N.eqb_eq in E; lia|].
        apply number_digits in P. rewrite P. reflexivity.
      + destruct (H l eq_refl).
      + cbn [N.eqb Pos.eqb]. destruct (digits_first _ _ D) as (c & u & -> & L). apply digits_parse in D as [_ P]. apply number_digits in P. rewrite P. reflexivity. }
  split; [exact M|]. intros t z H W. right. apply M in H as [I _].
  assert (S : forall t, (forall c, In c t -> c = 43 \/ 45 <= c <= 57) -> trim t = t).
  { clear. intros t H. apply (stripped_unique t); [apply trim_stripped|]. exists [], []. cbn [app]. rewrite app_nil_r.
    split; [reflexivity|]. split; [constructor|]. split; [constructor|].
    assert (B : forall c, In c t -> ~ blank c). { intros c I B. specialize (H c I). unfold blank, blanks in B. cbn [In] in B. repeat destruct B as [B|B]; lia. }
    split; intros c u ->; apply B; [left; reflexivity|apply in_or_app; right; left; reflexivity]. }
  rewrite S; [apply parse_int_integer; auto|].
  assert (Dg : forall l n, digits l n -> forall c, In c l -> 48 <= c <= 57).
  { clear. induction 1 as [d L|l n d D IH L]; intros c I; [destruct I as [<-|[]]; lia|]. apply in_app_or in I as [I|[<-|[]]]; [auto|lia]. }
  destruct I as [l n D|l n D|l n D]; intros c I; [pose proof (Dg _ _ D c I); lia| |]; (destruct I as [<-|I]; [lia|pose proof (Dg _ _ D c I); lia]).
Qed.
Print Assumptions C108_numbers.
(** a number as it is written, and one the index has no need for *)
Example C108_numbers_demo : XmlSpec.number (txt "-9000") = Some (-9000)%Z /\ word64 (-9000) /\ integer (txt "+7") 7 /\ XmlSpec.number (txt "+7") = None.
Proof. split; [reflexivity|]. split; [vm_compute; split; congruence|]. split; [apply parse_int_integer; vm_compute; reflexivity|reflexivity]. Qed.
