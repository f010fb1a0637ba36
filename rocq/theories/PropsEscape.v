(** * PropsEscape: properties C46 and C47 of the escaping writer *)
From Verif Require Import Escape.
From Coq Require Import List NArith ZArith ZifyN Bool Lia Arith.
Import ListNotations.
Open Scope N_scope. Open Scope list_scope.

(** ** Specification *)
(** a Unicode scalar value *)
Definition scalar (r : N) : Prop := r < 55296 \/ (57343 < r /\ r <= 1114111).
(** UTF-8 of a scalar value (RFC 3629), by bit fields *)
Definition utf8_of (r : N) (bs : list N) : Prop :=
  (r < 128 /\ bs = [r]) \/
  (exists a b, 128 <= r < 2048 /\ b < 64 /\ r = a * 64 + b /\ bs = [192 + a; 128 + b]) \/
  (exists a b c, 2048 <= r < 65536 /\ b < 64 /\ c < 64 /\ r = (a * 64 + b) * 64 + c /\ bs = [224 + a; 128 + b; 128 + c]) \/
  (exists a b c d, 65536 <= r /\ b < 64 /\ c < 64 /\ d < 64 /\ r = ((a * 64 + b) * 64 + c) * 64 + d /\
     bs = [240 + a; 128 + b; 128 + c; 128 + d]).
(** [spells bs rs]: the bytes are the UTF-8 of that text *)
Inductive spells : list N -> list N -> Prop :=
| spells_nil : spells [] []
| spells_cons r bs rs rest : scalar r -> utf8_of r bs -> spells rest rs -> spells (bs ++ rest) (r :: rs).
Definition valid_utf8 (bs : list N) : Prop := exists rs, spells bs rs.

(** what an XML reader makes of hexadecimal character references: [&#x]
    digits [;] stands for one character, everything else for itself. [ref] reads
    one after the ampersand and gives value and length. *)
Definition hex_value (c : N) : option N :=
  if within 48 57 c then Some (c - 48) else if within 65 70 c then Some (c - 55) else if within 97 102 c then Some (c - 87) else None.
Fixpoint ref_digits (l : list N) (acc : N) (n : nat) : option (N * nat) :=
  match l with
  | [] => None
  | c :: t => match hex_value c with
              | Some v => ref_digits t (acc * 16 + v) (S n)
              | None => if (c =? 59) && (0 <? n)%nat then Some (acc, (n + 3)%nat) else None
              end
  end.
Definition ref (l : list N) : option (N * nat) :=
  match l with 35 :: 120 :: t => ref_digits t 0 0 | _ => None end.
Fixpoint resolve (skip : nat) (l : list N) : list N :=
  match l with
  | [] => []
  | c :: t => match skip with
              | S k => resolve k t
              | O => if c =? 38 then match ref t with Some (v, k) => v :: resolve k t | None => c :: resolve 0 t end
                     else c :: resolve 0 t
              end
  end.
Definition read (text : list N) : list N := resolve 0 text.

(** ** Proofs *)
Ltac Zify.zify_post_hook ::= Z.div_mod_to_equations.

Lemma within_iff lo hi b : within lo hi b = true <-> lo <= b <= hi.
Proof. unfold within. rewrite andb_true_iff, !N.leb_le. tauto. Qed.
Ltac bools :=
  repeat match goal with
  | H : within _ _ _ = true |- _ => apply within_iff in H
  | H : (_ && _)%bool = true |- _ => apply andb_true_iff in H; destruct H
  | H : (_ || _)%bool = false |- _ => apply orb_false_iff in H; destruct H
  | H : (_ <? _) = true |- _ => apply N.ltb_lt in H
  | H : (_ <? _) = false |- _ => apply N.ltb_ge in H
  | H : (_ <=? _) = true |- _ => apply N.leb_le in H
  | H : (_ <=? _) = false |- _ => apply N.leb_gt in H
  | H : (_ =? _) = true |- _ => apply N.eqb_eq in H
  | H : (_ =? _) = false |- _ => apply N.eqb_neq in H
  end.
Lemma within_false lo hi b : within lo hi b = false -> b < lo \/ hi < b.
Proof. unfold within. intros H. apply andb_false_iff in H as [H|H]; bools; lia. Qed.

(** decoding always yields a scalar value and consumes at least one byte *)
Lemma decode_scalar b : scalar (fst (decode_rune b)).
Proof.
  unfold decode_rune, scalar. assert (E : rune_error < 55296 \/ 57343 < rune_error <= 1114111) by (right; split; [reflexivity|discriminate]).
  destruct b as [|b0 t]; [exact E|].
  destruct (b0 <? 128) eqn:C0; [bools; cbn [fst]; lia|].
  destruct (within 194 223 b0) eqn:C1.
  { destruct t as [|b1 t]; [exact E|]. destruct (within 128 191 b1) eqn:C2; [|exact E]. bools; cbn [fst]. lia. }
  destruct (within 224 239 b0) eqn:C2.
  { destruct t as [|b1 [|b2 t]]; try exact E.
    destruct (_ && _) eqn:C3; [|exact E]. bools. cbn [fst].
    destruct (b0 =? 224) eqn:X1, (b0 =? 237) eqn:X2; bools; lia. }
  destruct (within 240 244 b0) eqn:C3; [|exact E].
  destruct t as [|b1 [|b2 [|b3 t]]]; try exact E.
  destruct (_ && _) eqn:C4; [|exact E]. bools. cbn [fst].
  destruct (b0 =? 240) eqn:X1, (b0 =? 244) eqn:X2; bools; lia.
Qed.
Lemma decode_size b : b <> [] -> (1 <= snd (decode_rune b))%nat.
Proof.
  unfold decode_rune. destruct b as [|b0 t]; [congruence|]. intros _.
  destruct (b0 <? 128); [cbn; lia|]. destruct (within 194 223 b0); [destruct t; [cbn; lia|]; destruct (within _ _ _); cbn; lia|].
  destruct (within 224 239 b0); [destruct t as [|? [|? ?]]; try (cbn; lia); destruct (_ && _); cbn; lia|].
  destruct (within 240 244 b0); [destruct t as [|? [|? [|? ?]]]; try (cbn; lia); destruct (_ && _); cbn; lia|cbn; lia].
Qed.

(** encoding follows the bit fields *)
Lemma encode_spec r : scalar r -> utf8_of r (encode r).
Proof.
  intros S. unfold encode, utf8_of.
  destruct (r <=? 127) eqn:C0; [bools; left; split; [lia|reflexivity]|]. right.
  destruct (r <=? 2047) eqn:C1; [bools; left; exists (r / 64), (r mod 64); repeat split; try reflexivity; lia|]. right.
  destruct (_ || _) eqn:C2.
  { exfalso. apply orb_true_iff in C2 as [C2|C2]; bools; unfold scalar in S; lia. }
  bools. destruct (r <=? 65535) eqn:C3; bools.
  - left. exists (r / 4096), (r / 64 mod 64), (r mod 64). repeat split; try reflexivity; lia.
  - right. exists (r / 262144), (r / 4096 mod 64), (r / 64 mod 64), (r mod 64). repeat split; try reflexivity; lia.
Qed.
(** decoding undoes any correct spelling, whatever follows *)
Lemma decode_spelling r bs rest : scalar r -> utf8_of r bs -> decode_rune (bs ++ rest) = (r, List.length bs).
Proof.
  intros S [[L ->]|[(a & b & R & B & E & ->)|[(a & b & c & R & B & C & E & ->)|(a & b & c & d & R & B & C & D & E & ->)]]];
    unfold scalar in S; cbn [app List.length]; unfold decode_rune.
  - rewrite (proj2 (N.ltb_lt _ _) L). reflexivity.
  - rewrite (proj2 (N.ltb_ge (192 + a) 128)) by lia. rewrite (proj2 (within_iff 194 223 (192 + a))) by lia.
    rewrite (proj2 (within_iff 128 191 (128 + b))) by lia. f_equal. lia.
  - rewrite (proj2 (N.ltb_ge (224 + a) 128)) by lia.
    destruct (within 194 223 (224 + a)) eqn:X; [bools; lia|].
    rewrite (proj2 (within_iff 224 239 (224 + a))) by lia.
    assert (W : within (if 224 + a =? 224 then 160 else 128) (if 224 + a =? 237 then 159 else 191) (128 + b) = true).
    { apply within_iff. destruct (224 + a =? 224) eqn:X1, (224 + a =? 237) eqn:X2; bools; lia. }
    rewrite W. rewrite (proj2 (within_iff 128 191 (128 + c))) by lia. cbn [andb]. f_equal. lia.
  - rewrite (proj2 (N.ltb_ge (240 + a) 128)) by lia.
    destruct (within 194 223 (240 + a)) eqn:X; [bools; lia|].
    destruct (within 224 239 (240 + a)) eqn:X'; [bools; lia|].
    rewrite (proj2 (within_iff 240 244 (240 + a))) by lia.
    assert (W : within (if 240 + a =? 240 then 144 else 128) (if 240 + a =? 244 then 143 else 191) (128 + b) = true).
    { apply within_iff. destruct (240 + a =? 240) eqn:X1, (240 + a =? 244) eqn:X2; bools; lia. }
    rewrite W. rewrite (proj2 (within_iff 128 191 (128 + c))) by lia. rewrite (proj2 (within_iff 128 191 (128 + d))) by lia. cbn [andb]. f_equal. lia.
Qed.
Lemma spelling_unique r bs bs' : scalar r -> utf8_of r bs -> utf8_of r bs' -> bs = bs'.
Proof.
  intros S. unfold utf8_of.
  intros [[L ->]|[(a & b & R & B & E & ->)|[(a & b & c & R & B & C & E & ->)|(a & b & c & d & R & B & C & D & E & ->)]]]
         [[L' ->]|[(a' & b' & R' & B' & E' & ->)|[(a' & b' & c' & R' & B' & C' & E' & ->)|(a' & b' & c' & d' & R' & B' & C' & D' & E' & ->)]]];
    try lia; repeat (f_equal; try lia).
Qed.
Lemma spelling_nonempty r bs : utf8_of r bs -> bs <> [].
Proof. intros [[L ->]|[(a & b & R & B & E & ->)|[(a & b & c & R & B & C & E & ->)|(a & b & c & d & R & B & C & D & E & ->)]]]; discriminate. Qed.
Lemma spells_app a ra b rb : spells a ra -> spells b rb -> spells (a ++ b) (ra ++ rb).
Proof. induction 1; intros H'; cbn [app]; [exact H'|]. rewrite <- app_assoc. constructor; auto. Qed.
Lemma spells_ascii l : Forall (fun c => c < 128) l -> spells l l.
Proof.
  induction l as [|c l IH]; intros F; [constructor|]. inversion F; subst. apply (spells_cons c [c] l l); [left; lia|left; auto|auto].
Qed.

(** hexadecimal digits *)
Lemma hex_ascii f n acc : Forall (fun c => c < 128) acc -> Forall (fun c => c < 128) (hex f n acc).
Proof.
  revert n acc; induction f as [|f IH]; intros n acc F; cbn [hex]; [exact F|].
  assert (D : forall m, m < 16 -> hex_digit m < 128) by (intros m L; unfold hex_digit; destruct (m <? 10) eqn:X; bools; lia).
  destruct (n <? 16) eqn:C; bools; [constructor; auto|]. apply IH. constructor; [apply D; lia|exact F].
Qed.
Lemma hex_value_digit m : m < 16 -> hex_value (hex_digit m) = Some m.
Proof.
  intros L. unfold hex_value, hex_digit. destruct (m <? 10) eqn:C; bools.
  - rewrite (proj2 (within_iff 48 57 (48 + m))) by lia. f_equal. lia.
  - destruct (within 48 57 (55 + m)) eqn:X; [bools; lia|]. rewrite (proj2 (within_iff 65 70 (55 + m))) by lia. f_equal. lia.
Qed.
Lemma hex_read f n acc k : n < 2 ^ N.of_nat f -> exists m, ref_digits (hex (S f) n acc) 0 k = ref_digits acc n (k + S m)%nat /\ List.length (hex (S f) n acc) = (S m + List.length acc)%nat.
Proof.
  revert n acc; induction f as [|f IH]; intros n acc B.
  - exists 0%nat. assert (n = 0) as -> by (change (2 ^ N.of_nat 0) with 1 in B; lia).
    cbn [hex N.ltb N.compare ref_digits]. change (hex_value (hex_digit 0)) with (Some 0). cbn match. split; [f_equal; lia|reflexivity].
  - cbn [hex]. destruct (n <? 16) eqn:C.
    + bools. exists 0%nat. cbn [ref_digits]. rewrite (hex_value_digit n C). cbn [N.mul N.add]. split; [f_equal; lia|reflexivity].
    + bools. destruct (IH (n / 16) (hex_digit (n mod 16) :: acc)) as (m & E & L).
      { rewrite Nat2N.inj_succ, N.pow_succ_r' in B. apply N.div_lt_upper_bound; [discriminate|]. set (x := 2 ^ N.of_nat f) in *. clearbody x. lia. }
      exists (S m). split.
      * change (ref_digits (hex (S f) (n / 16) (hex_digit (n mod 16) :: acc)) 0 k = ref_digits acc n (k + S (S m))%nat). rewrite E.
        cbn [ref_digits]. rewrite hex_value_digit by (apply N.mod_lt; discriminate).
        replace (n / 16 * 16 + n mod 16) with n by lia. f_equal. lia.
      * change (List.length (hex (S f) (n / 16) (hex_digit (n mod 16) :: acc)) = (S (S m) + List.length acc)%nat). rewrite L. cbn [List.length]. lia.
Qed.
Lemma ref_of_hex r rest : ref ([35; 120] ++ print_hex r ++ [59] ++ rest) = Some (r, (List.length (print_hex r) + 3)%nat).
Proof.
  cbn [app ref]. unfold print_hex.
  assert (G : forall acc, hex (S (N.to_nat (N.size r))) r acc = hex (S (N.to_nat (N.size r))) r [] ++ acc).
  { generalize (S (N.to_nat (N.size r))). intros f. revert r. induction f as [|f IH]; intros r acc; [reflexivity|]. cbn [hex].
    destruct (r <? 16); [reflexivity|]. rewrite IH. rewrite (IH _ [_]). rewrite <- app_assoc. reflexivity. }
  rewrite <- (G (59 :: rest)).
  destruct (hex_read (N.to_nat (N.size r)) r (59 :: rest) 0) as (m & E & L); [rewrite N2Nat.id; apply N.size_gt|].
  rewrite E. cbn [ref_digits]. change (hex_value 59) with (@None N). change ((59 =? 59) && (0 <? 0 + S m)%nat) with true. cbn match.
  rewrite (G (59 :: rest)), app_length in L. cbn [List.length] in L. do 2 f_equal. lia.
Qed.

Section Props.
Variable symbol : N -> bool.
Notation write := (write symbol). Notation append_rune := (append_rune symbol). Notation must_escape := (must_escape symbol).

(** the text a rune becomes *)
Definition esc (r : N) : list N := if r =? rune_error then [r] else if must_escape r then [38; 35; 120] ++ print_hex r ++ [59] else [r].
Lemma append_spells r : scalar r -> spells (append_rune r) (esc r).
Proof.
  intros S. unfold Escape.append_rune, esc. destruct (r =? rune_error) eqn:C; bools.
  - subst r. rewrite <- (app_nil_r (encode rune_error)). constructor; [exact S|apply encode_spec; exact S|constructor].
  - destruct (must_escape r).
    + apply spells_ascii. apply Forall_app. split; [repeat constructor|]. apply Forall_app. split; [|repeat constructor].
      unfold print_hex. apply hex_ascii. constructor.
    + rewrite <- (app_nil_r (encode r)). constructor; [exact S|apply encode_spec; exact S|constructor].
Qed.
Lemma loop_fuel f f' b : (List.length b <= f)%nat -> (List.length b <= f')%nat -> write_loop symbol f b = write_loop symbol f' b.
Proof.
  revert f' b; induction f as [|f IH]; intros f' b L L'; [destruct b; [destruct f'; reflexivity|cbn in L; lia]|].
  destruct b as [|c b]; [destruct f'; reflexivity|]. destruct f' as [|f']; [cbn in L'; lia|]. cbn [write_loop].
  pose proof (decode_size (c :: b) ltac:(discriminate)) as Z. destruct (decode_rune (c :: b)) as [r z]. cbn [snd] in Z. f_equal.
  apply IH; rewrite skipn_length; cbn [List.length] in *; lia.
Qed.
Lemma write_nil : write [] = [].
Proof. reflexivity. Qed.
Lemma write_cons b : b <> [] -> write b = append_rune (fst (decode_rune b)) ++ write (skipn (snd (decode_rune b)) b).
Proof.
  intros H. pose proof (decode_size b H) as Z. unfold Escape.write. destruct b as [|c b]; [congruence|]. cbn [List.length write_loop].
  destruct (decode_rune (c :: b)) as [r z] eqn:E. cbn [fst snd] in *. f_equal. apply loop_fuel; rewrite skipn_length; cbn [List.length] in *; lia.
Qed.
Lemma write_spelling r bs rest : scalar r -> utf8_of r bs -> write (bs ++ rest) = append_rune r ++ write rest.
Proof.
  intros S U. rewrite write_cons by (destruct bs; [destruct (spelling_nonempty _ _ U eq_refl)|discriminate]).
  rewrite (decode_spelling r bs rest S U). cbn [fst snd]. f_equal. f_equal. rewrite skipn_app, Nat.sub_diag, skipn_all. reflexivity.
Qed.
Lemma write_spells bs rs : spells bs rs -> spells (write bs) (flat_map esc rs).
Proof.
  induction 1 as [|r bs rs rest S U H IH]; [constructor|]. rewrite (write_spelling r bs rest S U). cbn [flat_map].
  apply spells_app; [apply append_spells; exact S|exact IH].
Qed.
Lemma write_valid_len n bs : (List.length bs <= n)%nat -> valid_utf8 (write bs).
Proof.
  revert bs; induction n as [|n IH]; intros bs L.
  - destruct bs; [|cbn in L; lia]. exists []. constructor.
  - destruct bs as [|c bs]; [exists []; constructor|].
    rewrite write_cons by discriminate.
    pose proof (decode_size (c :: bs) ltac:(discriminate)) as Z.
    destruct (IH (skipn (snd (decode_rune (c :: bs))) (c :: bs))) as [rs H]; [rewrite skipn_length; cbn [List.length] in *; lia|].
    exists (esc (fst (decode_rune (c :: bs))) ++ rs). apply spells_app; [apply append_spells; apply decode_scalar|exact H].
Qed.

(** reading *)
Lemma hex_value_ascii c v : hex_value c = Some v -> c < 128.
Proof. unfold hex_value. destruct (within 48 57 c) eqn:A; [bools; lia|]. destruct (within 65 70 c) eqn:B; [bools; lia|]. destruct (within 97 102 c) eqn:C; [bools; lia|discriminate]. Qed.
Lemma esc_cases r : (esc r = [r]) \/ (127 < r /\ esc r = [38; 35; 120] ++ print_hex r ++ [59]).
Proof.
  unfold esc. destruct (r =? rune_error) eqn:C; [left; reflexivity|]. unfold Escape.must_escape. destruct (127 <? r) eqn:D; [|left; reflexivity].
  destruct (symbol r); [right; bools; auto|left; reflexivity].
Qed.
Lemma ref_digits_esc rs acc n : ref_digits (flat_map esc rs) acc n = ref_digits rs acc n.
Proof.
  revert acc n; induction rs as [|r rs IH]; intros acc n; [reflexivity|]. cbn [flat_map].
  destruct (esc_cases r) as [E|[L E]]; rewrite E.
  - cbn [app ref_digits]. destruct (hex_value r); [apply IH|reflexivity].
  - cbn [app ref_digits]. change (hex_value 38) with (@None N). change (38 =? 59) with false. cbn [andb].
    destruct (hex_value r) as [v|] eqn:V; [apply hex_value_ascii in V; lia|].
    destruct (r =? 59) eqn:X; [bools; lia|reflexivity].
Qed.
Lemma ref_esc rs : ref (flat_map esc rs) = ref rs.
Proof.
  destruct rs as [|r rs]; [reflexivity|]. cbn [flat_map]. destruct (esc_cases r) as [E|[L E]]; rewrite E; cbn [app].
  - destruct rs as [|r' rs]; [reflexivity|]. cbn [flat_map].
    destruct (N.eq_dec r 35) as [->|Nr]; [|].
    + destruct (esc_cases r') as [E'|[L' E']]; rewrite E'; cbn [app].
      * destruct (N.eq_dec r' 120) as [->|Nr']; [exact (ref_digits_esc rs 0 0)|].
        transitivity (@None (N * nat)); [|symmetry]; unfold ref; destruct r' as [|p]; try reflexivity; repeat (destruct p as [p|p|]; try reflexivity); congruence.
      * transitivity (@None (N * nat)); [reflexivity|symmetry]. unfold ref. destruct r' as [|p]; try reflexivity; repeat (destruct p as [p|p|]; try reflexivity); lia.
    + transitivity (@None (N * nat)); [|symmetry]; unfold ref; destruct r as [|p]; try reflexivity; repeat (destruct p as [p|p|]; try reflexivity); congruence.
  - transitivity (@None (N * nat)); [reflexivity|symmetry]. unfold ref. destruct r as [|p]; try reflexivity; repeat (destruct p as [p|p|]; try reflexivity); lia.
Qed.
Lemma ref_digits_len rs acc n v k : ref_digits rs acc n = Some (v, k) -> exists m, k = (n + m + 3)%nat /\ Forall (fun c => c < 128) (firstn (m + 1) rs) /\ (m + 1 <= List.length rs)%nat.
Proof.
  revert acc n; induction rs as [|c rs IH]; intros acc n H; [discriminate|]. cbn [ref_digits] in H.
  destruct (hex_value c) as [x|] eqn:V.
  - destruct (IH _ _ H) as (m & E & F & L). exists (S m). split; [lia|]. split; [|cbn [List.length]; lia].
    cbn [Nat.add firstn]. constructor; [exact (hex_value_ascii _ _ V)|exact F].
  - destruct (_ && _) eqn:C; [|discriminate]. injection H as _ <-. bools. exists 0%nat. split; [lia|]. split; [|cbn [List.length]; lia].
    cbn. constructor; [lia|constructor].
Qed.
Lemma ref_len rs v k : ref rs = Some (v, k) -> Forall (fun c => c < 128) (firstn k rs) /\ (k <= List.length rs)%nat.
Proof.
  unfold ref. intros H.
  destruct rs as [|r [|r' rs]]; try discriminate; [destruct r as [|p]; try discriminate; repeat (destruct p as [p|p|]; try discriminate)|].
  assert (Er : r = 35 /\ r' = 120 /\ ref_digits rs 0 0 = Some (v, k)).
  { destruct r as [|p]; try discriminate; repeat (destruct p as [p|p|]; try discriminate).
    destruct r' as [|p]; try discriminate; repeat (destruct p as [p|p|]; try discriminate). auto. }
  destruct Er as (-> & -> & Hd). destruct (ref_digits_len _ _ _ _ _ Hd) as (m & -> & F & L).
  replace (0 + m + 3)%nat with (S (S (m + 1))) by lia. cbn [firstn List.length]. split; [|lia]. constructor; [reflexivity|constructor; [reflexivity|exact F]].
Qed.
Lemma resolve_skip k l : (k <= List.length l)%nat -> resolve k l = resolve 0 (skipn k l).
Proof.
  revert k; induction l as [|c l IH]; intros k L; [destruct k; reflexivity|]. destruct k as [|k]; [reflexivity|]. cbn [resolve skipn]. apply IH. cbn in L. lia.
Qed.
Lemma resolve_cons c t : resolve 0 (c :: t) = if c =? 38 then match ref t with Some (v, k) => v :: resolve k t | None => c :: resolve 0 t end else c :: resolve 0 t.
Proof. reflexivity. Qed.
Lemma esc_ascii rs : Forall (fun c => c < 128) rs -> flat_map esc rs = rs.
Proof.
  induction 1 as [|c rs L F IH]; [reflexivity|]. cbn [flat_map]. destruct (esc_cases c) as [->|[L' _]]; [|lia]. cbn [app]. rewrite IH. reflexivity.
Qed.
Lemma read_esc n rs : (List.length rs <= n)%nat -> resolve 0 (flat_map esc rs) = resolve 0 rs.
Proof.
  revert rs; induction n as [|n IH]; intros rs L; [destruct rs; [reflexivity|cbn in L; lia]|].
  destruct rs as [|r rs]; [reflexivity|]. cbn [List.length] in L. cbn [flat_map]. destruct (esc_cases r) as [E|[Lr E]]; rewrite E; cbn [app]; [rewrite !resolve_cons|rewrite (resolve_cons 38), (resolve_cons r)].
  - destruct (r =? 38); [|rewrite IH by lia; reflexivity]. rewrite ref_esc. destruct (ref rs) as [[v k]|] eqn:R; [|rewrite IH by lia; reflexivity].
    f_equal. destruct (ref_len _ _ _ R) as [F Lk].
    assert (S : flat_map esc rs = firstn k rs ++ flat_map esc (skipn k rs)).
    { rewrite <- (firstn_skipn k rs) at 1. rewrite flat_map_app. rewrite (esc_ascii _ F). reflexivity. }
    assert (Lf : List.length (firstn k rs) = k) by (rewrite firstn_length; lia).
    rewrite resolve_skip by (rewrite S, app_length, Lf; lia).
    rewrite (resolve_skip k rs) by exact Lk.
    rewrite S, skipn_app, Lf, Nat.sub_diag, skipn_all2 by lia. cbn [app skipn].
    apply IH. rewrite skipn_length. lia.
  - change (38 =? 38) with true. cbn match.
    pose proof (ref_of_hex r (flat_map esc rs)) as R. cbn [app] in R. rewrite <- app_assoc. cbn [app]. rewrite R.
    destruct (r =? 38) eqn:X; [bools; lia|]. f_equal.
    rewrite resolve_skip by (cbn [List.length]; rewrite app_length; cbn [List.length]; lia).
    replace (skipn (List.length (print_hex r) + 3) (35 :: 120 :: print_hex r ++ 59 :: flat_map esc rs)) with (flat_map esc rs).
    { apply IH. lia. }
    replace (List.length (print_hex r) + 3)%nat with (S (S (List.length (print_hex r) + 1))) by lia. cbn [skipn].
    rewrite skipn_app. rewrite skipn_all2 by lia. replace (List.length (print_hex r) + 1 - List.length (print_hex r))%nat with 1%nat by lia. reflexivity.
Qed.
End Props.

(** ** C46 *)
(** The output of every write is valid UTF-8, whatever the bytes and whatever the
    classification of characters. *)
Theorem C46_output_is_valid : forall symbol bs, valid_utf8 (write symbol bs).
Proof. intros symbol bs. exact (write_valid_len symbol (List.length bs) bs (le_n _)). Qed.
Print Assumptions C46_output_is_valid.
(** ASCII passes unchanged ... *)
Theorem C46_ascii_unchanged : forall symbol bs, Forall (fun b => b < 128) bs -> write symbol bs = bs.
Proof.
  intros symbol bs F. induction F as [|b bs L F IH]; [reflexivity|].
  change (b :: bs) with ([b] ++ bs) at 1. rewrite (write_spelling symbol b [b] bs); [|left; lia|left; auto].
  rewrite IH. unfold append_rune, must_escape. rewrite (proj2 (N.eqb_neq b rune_error)) by (intros ->; discriminate L).
  rewrite (proj2 (N.ltb_ge 127 b)) by lia. cbn [andb]. unfold encode. rewrite (proj2 (N.leb_le b 127)) by lia. reflexivity.
Qed.
Print Assumptions C46_ascii_unchanged.
(** ... and a reader that resolves character references gets the same text from
    the output as from valid input: nothing is lost or changed. *)
Theorem C46_lossless :
  forall symbol bs text, spells bs text -> exists text', spells (write symbol bs) text' /\ read text' = read text.
Proof.
  intros symbol bs text S. exists (flat_map (esc symbol) text). split; [exact (write_spells symbol bs text S)|].
  exact (read_esc symbol (List.length text) text (le_n _)).
Qed.
Print Assumptions C46_lossless.
(** a text has only one spelling and vice versa, so this determines the output *)
Theorem C46_spelling_is_unique :
  forall bs bs' text text', spells bs text -> spells bs' text' -> (bs = bs' <-> text = text').
Proof.
  intros bs bs' text text' H H'. split.
  - intros <-. revert text' H'. induction H as [|r b rs rest S U H IH]; intros text' H'.
    + inversion H' as [|? ? ? ? _ U' _ E]; [reflexivity|]. apply app_eq_nil in E as [-> _]. destruct (spelling_nonempty _ _ U' eq_refl).
    + inversion H' as [E|r' b' rs' rest' S' U' H'' E]; [destruct b; [destruct (spelling_nonempty _ _ U eq_refl)|discriminate]|]. subst.
      pose proof (decode_spelling r b rest S U) as D. rewrite <- E, (decode_spelling r' b' rest' S' U') in D. injection D as -> L.
      assert (b' = b) as -> by (exact (spelling_unique r b' b S U' U)).
      apply app_inv_head in E. subst rest'. f_equal. apply IH. exact H''.
  - intros <-. revert bs' H'. induction H as [|r b rs rest S U H IH]; intros bs' H'; inversion H' as [|? b' ? rest' S' U' H'']; subst; [reflexivity|].
    rewrite (spelling_unique r b b' S U U'). f_equal. apply IH. assumption.
Qed.
Print Assumptions C46_spelling_is_unique.
(** text without references comes back literally *)
Fixpoint no_refs (l : list N) : Prop := match l with [] => True | c :: t => (c = 38 -> ref t = None) /\ no_refs t end.
Theorem C46_literal :
  forall symbol bs text, spells bs text -> no_refs text -> exists text', spells (write symbol bs) text' /\ read text' = text.
Proof.
  intros symbol bs text S NR. destruct (C46_lossless symbol bs text S) as (t' & S' & E). exists t'. split; [exact S'|].
  rewrite E. unfold read. clear -NR. induction text as [|c t IH]; [reflexivity|]. destruct NR as [N1 N2]. cbn [resolve].
  destruct (c =? 38) eqn:C; [bools; rewrite (N1 C)|]; f_equal; apply IH; exact N2.
Qed.
Print Assumptions C46_literal.
(** a demo: the trade mark sign, in the Symbol class, between ASCII *)
Theorem C46_demo :
  spells [65; 226; 132; 162; 66] [65; 8482; 66] /\
  write (fun r => r =? 8482) [65; 226; 132; 162; 66] = [65; 38; 35; 120; 50; 49; 50; 50; 59; 66] /\
  read [65; 38; 35; 120; 50; 49; 50; 50; 59; 66] = [65; 8482; 66].
Proof.
  split; [|split; vm_compute; reflexivity].
  apply (spells_cons 65 [65]); [left; reflexivity|left; split; reflexivity|].
  apply (spells_cons 8482 [226; 132; 162]); [left; reflexivity|right; right; left; exists 2, 4, 34; repeat split; reflexivity || discriminate|].
  apply (spells_cons 66 [66]); [left; reflexivity|left; split; reflexivity|constructor].
Qed.

(** ** C47 *)
(** False in general: a character split between two writes becomes two
    replacement characters. *)
Theorem C47_split_refuted :
  exists symbol a b, valid_utf8 (a ++ b) /\ writes symbol [a; b] <> write symbol (a ++ b) /\
    writes symbol [a; b] = [239; 191; 189; 239; 191; 189] /\ write symbol (a ++ b) = [195; 169].
Proof.
  exists (fun _ => false), [195], [169]. split.
  - exists [233]. apply (spells_cons 233 [195; 169] [] []); [left; reflexivity|right; left; exists 3, 41; repeat split; reflexivity || discriminate|constructor].
  - split; [discriminate|]. split; reflexivity.
Qed.
Print Assumptions C47_split_refuted.
(** It holds whenever the pieces end between characters. *)
Theorem C47_aligned_split_partial :
  forall symbol pieces last, Forall valid_utf8 pieces ->
    writes symbol (pieces ++ [last]) = write symbol (concat pieces ++ last).
Proof.
  intros symbol pieces last F. induction F as [|p ps [rs S] F IH]; cbn [app writes flat_map concat]; [apply app_nil_r|].
  fold (writes symbol (ps ++ [last])). rewrite IH. rewrite <- app_assoc. generalize (concat ps ++ last). intros rest. clear -S.
  induction S as [|r b rs t S U H IHs]; [reflexivity|]. rewrite <- app_assoc, !(write_spelling symbol r b) by assumption.
  rewrite <- app_assoc, IHs. reflexivity.
Qed.
Print Assumptions C47_aligned_split_partial.
