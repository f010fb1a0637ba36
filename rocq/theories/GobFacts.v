(** * GobFacts: what is written can be read back *)
From Verif Require Import Base Model LibDb LibDbFacts Gob.
Open Scope string_scope. Open Scope list_scope.

Scheme ty_mut := Induction for ty Sort Prop with flds_mut := Induction for flds Sort Prop.
Combined Scheme ty_flds_ind from ty_mut, flds_mut.

(** ** Integers and strings *)
Lemma nbytes_big n : (128 <= n)%N -> (n < 256 ^ N.of_nat (nbytes n))%N.
Proof.
  intros B. unfold nbytes. rewrite N2Nat.id. change 256%N with (2 ^ 8)%N. rewrite <- N.pow_mul_r.
  apply N.log2_lt_pow2; [lia|]. pose proof (N.mul_succ_div_gt (N.log2 n) 8 ltac:(lia)) as G. rewrite <- N.add_1_r in G. exact G.
Qed.
Lemma nbytes_le n : (128 <= n)%N -> (n < 2 ^ 64)%N -> (1 <= nbytes n <= 8)%nat.
Proof.
  intros B L. assert (G : (N.log2 n < 64)%N) by (apply N.log2_lt_pow2; [lia|exact L]). unfold nbytes.
  assert (G2 : (N.log2 n / 8 < 8)%N) by (apply N.div_lt_upper_bound; [discriminate|exact G]). revert G2. generalize (N.log2 n / 8)%N. intros q Q. lia.
Qed.
Lemma dec_uint_enc n r : (n < 2 ^ 64)%N -> dec_uint (enc_uint n ++ r) = Some (n, r).
Proof.
  intros L. unfold enc_uint. destruct (N.ltb_spec n 128) as [B|B].
  - cbn [append dec_uint]. rewrite N_ascii_embedding by lia. apply N.ltb_lt in B. rewrite B. reflexivity.
  - pose proof (nbytes_le n B L) as K. pose proof (nbytes_big n B) as G. set (k := nbytes n) in *.
    cbn [append dec_uint]. rewrite N_ascii_embedding by lia.
    assert (E1 : N.ltb (256 - N.of_nat k) 128 = false) by (apply N.ltb_ge; lia). rewrite E1.
    replace (N.to_nat (256 - (256 - N.of_nat k))) with k by lia.
    assert (E2 : Nat.ltb 8 k = false) by (apply Nat.ltb_ge; lia).
    assert (E3 : Nat.ltb (String.length (be k n ++ r)) k = false) by (apply Nat.ltb_ge; rewrite slen_app, be_length; lia).
    rewrite E2, E3. cbn [orb].
    assert (E4 : stake k (be k n ++ r) = be k n) by (rewrite <- (be_length k n) at 1; apply stake_app).
    assert (E5 : sdrop k (be k n ++ r) = r) by (rewrite <- (be_length k n) at 1; apply sdrop_app).
    rewrite E4, E5, be_value_be, N.mod_small by exact G. reflexivity.
Qed.
Lemma enc_uint_len n : (1 <= String.length (enc_uint n))%nat.
Proof. unfold enc_uint. destruct (N.ltb n 128); cbn [String.length]; lia. Qed.
Definition int64 (z : Z) : Prop := (- 2 ^ 63 <= z < 2 ^ 63)%Z.
Lemma dec_int_enc z r : int64 z -> dec_int (enc_int z ++ r) = Some (z, r).
Proof.
  unfold int64, dec_int, enc_int. intros B. destruct (Z.ltb_spec z 0) as [L|L].
  - rewrite dec_uint_enc by (change (2 ^ 64)%N with 18446744073709551616%N; change (2 ^ 63)%Z with 9223372036854775808%Z in B; lia).
    rewrite N.add_comm, N.odd_add_mul_2. change (N.odd 1) with true. cbn iota.
    rewrite N.mul_comm, N.div_add by lia. change (1 / 2)%N with 0%N. f_equal. f_equal. lia.
  - rewrite dec_uint_enc by (change (2 ^ 64)%N with 18446744073709551616%N; change (2 ^ 63)%Z with 9223372036854775808%Z in B; lia).
    rewrite N.odd_mul. change (N.odd 2) with false. cbn [andb]. rewrite N.mul_comm, N.div_mul by lia. f_equal. f_equal. lia.
Qed.
Lemma dec_str_enc s r : (N.of_nat (String.length s) < 2 ^ 64)%N -> dec_str (enc_str s ++ r) = Some (s, r).
Proof.
  intros L. unfold dec_str, enc_str. rewrite sapp_assoc, dec_uint_enc by exact L.
  assert (E : N.ltb (N.of_nat (String.length (s ++ r))) (N.of_nat (String.length s)) = false) by (apply N.ltb_ge; rewrite slen_app; lia).
  rewrite E, Nat2N.id, stake_app, sdrop_app. reflexivity.
Qed.

(** ** Types *)
Fixpoint nf (f : flds) : nat := match f with FNil => 0 | FCons _ _ f' => S (nf f') end.
Fixpoint fnames (f : flds) : list string := match f with FNil => [] | FCons n _ f' => n :: fnames f' end.
(** distinct field names, fewer than 2^32 fields, short names *)
Fixpoint decent (t : ty) : bool :=
  match t with
  | TySlice t' | TyPtr t' => decent t'
  | TyStruct f => decent_flds f && N.ltb (N.of_nat (nf f)) (2 ^ 32)
  | _ => true
  end
with decent_flds (f : flds) : bool :=
  match f with
  | FNil => true
  | FCons n t f' => decent t && negb (sin n (fnames f')) && N.ltb (N.of_nat (String.length n)) (2 ^ 32) && decent_flds f'
  end.
Fixpoint pointerless (t : ty) : bool :=
  match t with TyPtr _ => false | TySlice t' => pointerless t' | TyStruct f => pointerless_flds f | _ => true end
with pointerless_flds (f : flds) : bool := match f with FNil => true | FCons _ t f' => pointerless t && pointerless_flds f' end.

Lemma flat_pointerless : (forall t, pointerless (flat_ty t) = true) /\ (forall f, pointerless_flds (flat_flds f) = true).
Proof. apply ty_flds_ind; intros; cbn; try reflexivity; try assumption. rewrite H, H0. reflexivity. Qed.
Lemma flat_nf f : nf (flat_flds f) = nf f.
Proof. induction f as [|n t f IH]; cbn; [reflexivity|rewrite IH; reflexivity]. Qed.
Lemma flat_fnames f : fnames (flat_flds f) = fnames f.
Proof. induction f as [|n t f IH]; cbn; [reflexivity|rewrite IH; reflexivity]. Qed.
Lemma flat_decent : (forall t, decent t = true -> decent (flat_ty t) = true) /\ (forall f, decent_flds f = true -> decent_flds (flat_flds f) = true).
Proof.
  apply ty_flds_ind; cbn [decent decent_flds flat_ty flat_flds]; intros; try reflexivity; auto.
  - apply andb_true_iff in H0 as [A B]. rewrite flat_nf, H, B by exact A. reflexivity.
  - rewrite !andb_true_iff in H1. destruct H1 as [[[A B] C] D]. rewrite flat_fnames, H, B, C, H0 by assumption. reflexivity.
Qed.

Lemma small32 n : (n < 2 ^ 32)%N -> (n < 2 ^ 64)%N.
Proof. intros H. apply N.lt_le_trans with (1 := H). apply N.pow_le_mono_r; lia. Qed.
Lemma enc_ty_len : (forall t, (1 <= String.length (enc_ty t))%nat) /\ (forall f, (1 <= String.length (enc_flds f))%nat).
Proof.
  apply ty_flds_ind; intros; cbn [enc_ty enc_flds]; try (rewrite slen_app; cbn; lia); try (cbn; lia); auto.
Qed.
(** reading a definition *)
Lemma dec_ty_enc :
  (forall t, pointerless t = true -> decent t = true ->
     forall k r, (String.length (enc_ty t) <= k)%nat -> dec_ty k (enc_ty t ++ r) = Some (t, r)) /\
  (forall f, pointerless_flds f = true -> decent_flds f = true ->
     forall k r, (String.length (enc_flds f) <= k)%nat -> dec_flds k (enc_flds f ++ r) = Some (f, r)).
Proof.
  apply ty_flds_ind; cbn [pointerless pointerless_flds decent decent_flds enc_ty enc_flds].
  - intros _ _ [|k] r L; [cbn in L; lia|]. cbn [dec_ty]. rewrite dec_uint_enc by reflexivity. reflexivity.
  - intros _ _ [|k] r L; [cbn in L; lia|]. cbn [dec_ty]. rewrite dec_uint_enc by reflexivity. reflexivity.
  - intros _ _ [|k] r L; [cbn in L; lia|]. cbn [dec_ty]. rewrite dec_uint_enc by reflexivity. reflexivity.
  - intros _ _ [|k] r L; [cbn in L; lia|]. cbn [dec_ty]. rewrite dec_uint_enc by reflexivity. reflexivity.
  - intros _ _ [|k] r L; [cbn in L; lia|]. cbn [dec_ty]. rewrite dec_uint_enc by reflexivity. reflexivity.
  - intros t IH P D [|k] r L; [rewrite slen_app in L; cbn in L; lia|]. cbn [dec_ty]. rewrite sapp_assoc, dec_uint_enc by reflexivity.
    rewrite slen_app in L. change (String.length (enc_uint 6)) with 1%nat in L. rewrite IH by (assumption || lia). reflexivity.
  - discriminate.
  - intros f IH P D [|k] r L; [rewrite slen_app in L; cbn in L; lia|]. cbn [dec_ty]. rewrite sapp_assoc, dec_uint_enc by reflexivity.
    rewrite slen_app in L. change (String.length (enc_uint 7)) with 1%nat in L. apply andb_true_iff in D as [D _].
    rewrite IH by (assumption || lia). reflexivity.
  - intros _ _ [|k] r L; [cbn in L; lia|]. cbn [dec_flds]. rewrite dec_uint_enc by reflexivity. reflexivity.
  - intros n t IHt f IHf P D [|k] r L; [rewrite slen_app in L; cbn in L; lia|].
    rewrite !andb_true_iff in D. destruct D as [[[D1 D2] D3] D4]. apply andb_true_iff in P as [P1 P2]. apply N.ltb_lt in D3.
    rewrite !slen_app in L. change (String.length (enc_uint 1)) with 1%nat in L. pose proof (proj1 enc_ty_len t). pose proof (proj2 enc_ty_len f).
    cbn [dec_flds]. rewrite !sapp_assoc, dec_uint_enc by reflexivity.
    rewrite dec_str_enc by (apply small32; exact D3). rewrite IHt by (assumption || lia). rewrite IHf by (assumption || lia). reflexivity.
Qed.

(** ** Values as sent *)
Fixpoint wok (t : ty) (w : wire) {struct t} : Prop :=
  match t, w with
  | TyBool, WBool _ => True
  | TyInt, WInt i | TyTime, WTime i => int64 i
  | TyUint, WUint n => (n < 2 ^ 64)%N
  | TyStr, WStr _ => True
  | TySlice t', WList l => Forall (wok t') l
  | TyStruct f, WRec l => wok_fields f l
  | _, _ => False
  end
with wok_fields (f : flds) (l : list (option wire)) {struct f} : Prop :=
  match f, l with
  | FNil, [] => True
  | FCons _ t f', o :: l' => (match o with Some w => wok t w | None => True end) /\ wok_fields f' l'
  | _, _ => False
  end.

Lemma concat_empty l : String.concat "" l = fold_right append "" l.
Proof.
  induction l as [|a [|b l] IH]; [reflexivity|cbn; rewrite sapp_nil_r; reflexivity|].
  change (String.concat "" (a :: b :: l)) with (a ++ ("" ++ String.concat "" (b :: l)))%string. rewrite IH. reflexivity.
Qed.
Lemma enc_wire_len : (forall t w, wok t w -> (1 <= String.length (enc_wire t w))%nat) /\
  (forall f l g, (1 <= String.length (enc_fields f l g))%nat).
Proof.
  apply ty_flds_ind; intros; try (destruct w; cbn [wok] in *; try contradiction; cbn [enc_wire]).
  - apply enc_uint_len.
  - apply enc_uint_len.
  - apply enc_uint_len.
  - unfold enc_str. rewrite slen_app. pose proof (enc_uint_len (N.of_nat (String.length s))). lia.
  - apply enc_uint_len.
  - rewrite slen_app. pose proof (enc_uint_len (N.of_nat (List.length l))). lia.
  - apply H.
  - cbn. lia.
  - destruct l as [|[w|] l]; cbn [enc_fields]; [apply enc_uint_len| |apply H0].
    rewrite slen_app. pose proof (enc_uint_len g). lia.
Qed.
Definition fits (s : string) : Prop := (N.of_nat (String.length s) < 2 ^ 64)%N.
Lemma fits_app a b : fits (a ++ b) -> fits a /\ fits b.
Proof. unfold fits. rewrite slen_app. lia. Qed.

Lemma dec_wire_enc :
  (forall t, decent t = true -> forall w r, wok t w -> fits (enc_wire t w) -> dec_wire t (enc_wire t w ++ r) = Some (w, r)) /\
  (forall f, decent_flds f = true -> forall l g r, wok_fields f l -> (1 <= g)%N -> (g + N.of_nat (nf f) < 2 ^ 64)%N ->
     fits (enc_fields f l g) ->
     exists d s1, dec_uint (enc_fields f l g ++ r) = Some (d, s1) /\ (d = 0 \/ g <= d)%N /\ dec_fields f (d - (g - 1)) s1 = Some (l, r)).
Proof.
  apply ty_flds_ind; cbn [decent decent_flds].
  - intros _ [] r W F; cbn [wok] in W; try contradiction. cbn [enc_wire dec_wire]. rewrite dec_uint_enc by (destruct b; reflexivity). destruct b; reflexivity.
  - intros _ [] r W F; cbn [wok] in W; try contradiction. cbn [enc_wire dec_wire]. rewrite dec_int_enc by exact W. reflexivity.
  - intros _ [] r W F; cbn [wok] in W; try contradiction. cbn [enc_wire dec_wire]. rewrite dec_uint_enc by exact W. reflexivity.
  - intros _ [] r W F; cbn [wok] in W; try contradiction. cbn [enc_wire dec_wire] in *. unfold enc_str in F. apply fits_app in F as [_ F].
    rewrite dec_str_enc by exact F. reflexivity.
  - intros _ [] r W F; cbn [wok] in W; try contradiction. cbn [enc_wire dec_wire]. rewrite dec_int_enc by exact W. reflexivity.
  - intros t IH D [] r W F; cbn [wok] in W; try contradiction. cbn [enc_wire dec_wire] in *. rewrite concat_empty in *.
    apply fits_app in F as [_ F].
    assert (K : (List.length l <= String.length (fold_right append "" (map (enc_wire t) l)))%nat).
    { clear -W. induction W as [|w l Hw W IHl]; cbn [map fold_right List.length]; [lia|]. rewrite slen_app.
      pose proof (proj1 enc_wire_len t w Hw). lia. }
    rewrite sapp_assoc, dec_uint_enc by (unfold fits in F; lia).
    match goal with |- context [N.ltb ?a ?b] => assert (E : N.ltb a b = false) by (apply N.ltb_ge; rewrite slen_app; lia); rewrite E end.
    rewrite Nat2N.id.
    assert (G : dec_n (dec_wire t) (List.length l) (fold_right append "" (map (enc_wire t) l) ++ r) = Some (l, r)).
    { clear K E. induction W as [|w l Hw W IHl]; [reflexivity|]. cbn [map fold_right List.length dec_n] in *.
      apply fits_app in F as [F1 F2]. rewrite sapp_assoc, IH by assumption. rewrite IHl by exact F2. reflexivity. }
    rewrite G. reflexivity.
  - intros t IH D w r W F. destruct w; cbn [wok] in W; contradiction.
  - intros f IH D [] r W F; cbn [wok] in W; try contradiction. cbn [enc_wire dec_wire] in *. apply andb_true_iff in D as [D1 D2]. apply N.ltb_lt in D2.
    assert (G : (1 + N.of_nat (nf f) < 2 ^ 64)%N) by (change (2 ^ 64)%N with 18446744073709551616%N; change (2 ^ 32)%N with 4294967296%N in D2; lia).
    destruct (IH D1 l 1%N r W ltac:(lia) G F) as (d & s1 & E1 & _ & E2). rewrite E1. rewrite N.sub_0_r in E2. rewrite E2. reflexivity.
  - intros _ [|o l] g r W G B F; cbn [wok_fields] in W; try contradiction. cbn [enc_fields]. exists 0%N, r.
    split; [apply dec_uint_enc; reflexivity|]. split; [left; reflexivity|]. cbn [dec_fields]. destruct g; reflexivity.
  - intros n t IHt f IHf D [|o l] g r W G B F; cbn [wok_fields] in W; try contradiction. destruct W as [Wo Wl].
    rewrite !andb_true_iff in D. destruct D as [[[D1 _] _] D4]. cbn [nf] in B. destruct o as [w|]; cbn [enc_fields] in *.
    + apply fits_app in F as [_ F]. apply fits_app in F as [F1 F2].
      exists g, (enc_wire t w ++ enc_fields f l 1 ++ r)%string. split; [rewrite !sapp_assoc; apply dec_uint_enc; lia|]. split; [right; lia|].
      cbn [dec_fields]. assert (E : (g - (g - 1) = 1)%N) by lia. rewrite E, N.eqb_refl. rewrite IHt by assumption.
      destruct (IHf D4 l 1%N r Wl ltac:(lia) ltac:(lia) F2) as (d & s1 & E1 & _ & E2). rewrite N.sub_0_r in E2. rewrite E1, E2. reflexivity.
    + destruct (IHf D4 l (g + 1)%N r Wl ltac:(lia) ltac:(lia) F) as (d & s1 & E1 & E3 & E2). exists d, s1. split; [exact E1|].
      split; [lia|]. cbn [dec_fields]. assert (E : N.eqb (d - (g - 1)) 1 = false) by (apply N.eqb_neq; lia). rewrite E.
      replace (d - (g - 1) - 1)%N with (d - (g + 1 - 1))%N by lia. rewrite E2. reflexivity.
Qed.

(** ** From values to what is sent and back *)

(** a value of a type, with machine integers *)
Fixpoint typed (t : ty) (v : val) {struct t} : Prop :=
  match t, v with
  | TyBool, VBool _ | TyStr, VStr _ => True
  | TyInt, VInt i | TyTime, VTime i => int64 i
  | TyUint, VUint n => (n < 2 ^ 64)%N
  | TySlice _, VNone | TyPtr _, VNil => True
  | TySlice t', VList l => Forall (typed t') l
  | TyPtr t', VRef v' => typed t' v'
  | TyStruct f, VRec vs => typed_fields f vs
  | _, _ => False
  end
with typed_fields (f : flds) (vs : list val) {struct f} : Prop :=
  match f, vs with
  | FNil, [] => True
  | FCons _ t f', v :: vs' => typed t v /\ typed_fields f' vs'
  | _, _ => False
  end.

(** what gob does not tell apart from nil when it hangs off a pointer *)
Inductive blank : val -> Prop :=
| BlBool : blank (VBool false)
| BlInt : blank (VInt 0)
| BlUint : blank (VUint 0)
| BlStr : blank (VStr "")
| BlTime : blank (VTime 0)
| BlNil : blank VNil
| BlNone : blank VNone
| BlList : blank (VList [])
| BlRef v : blank v -> blank (VRef v).
(** the same value, up to nil and empty slices, and pointers to nothing *)
Inductive same : val -> val -> Prop :=
| SmRefl v : same v v
| SmNilList : same VNone (VList [])
| SmListNil : same (VList []) VNone
| SmList l l' : Forall2 same l l' -> same (VList l) (VList l')
| SmRef v v' : same v v' -> same (VRef v) (VRef v')
| SmBlank v : blank v -> same (VRef v) VNil
| SmRec l l' : Forall2 same l l' -> same (VRec l) (VRec l').

Lemma send_wok :
  (forall t z v w, typed t v -> send z t v = Some (Some w) -> wok (flat_ty t) w) /\
  (forall f vs ws, typed_fields f vs -> send_fields f vs = Some ws -> wok_fields (flat_flds f) ws).
Proof.
  apply ty_flds_ind.
  - intros z [] w T H; cbn [typed] in T; try contradiction. cbn [send] in H. destruct (negb z && _); [discriminate|]. injection H as <-. exact Logic.I.
  - intros z [] w T H; cbn [typed] in T; try contradiction. cbn [send] in H. destruct (negb z && _); [discriminate|]. injection H as <-. exact T.
  - intros z [] w T H; cbn [typed] in T; try contradiction. cbn [send] in H. destruct (negb z && _); [discriminate|]. injection H as <-. exact T.
  - intros z [] w T H; cbn [typed] in T; try contradiction. cbn [send] in H. destruct (negb z && _); [discriminate|]. injection H as <-. exact Logic.I.
  - intros z [] w T H; cbn [typed] in T; try contradiction. cbn [send] in H. destruct (negb z && _); [discriminate|]. injection H as <-. exact T.
  - intros t IH z v w T H. destruct v; cbn [typed] in T; try contradiction; cbn [send] in H.
    + destruct (negb z && _); [discriminate|]. injection H as <-. constructor.
    + destruct l as [|v l]; [destruct (negb z && _); [discriminate|]; injection H as <-; constructor|].
      destruct (send_all (send true t) (v :: l)) as [ws|] eqn:E; [|discriminate]. injection H as <-. cbn [flat_ty wok].
      revert ws E. induction T as [|x xs Tx Txs IHx]; intros ws E; cbn [send_all] in E; [injection E as <-; constructor|].
      destruct (send true t x) as [[w|]|] eqn:E1; try discriminate. destruct (send_all (send true t) xs) as [ws'|]; [|discriminate].
      injection E as <-. constructor; [exact (IH _ _ _ Tx E1)|apply IHx; reflexivity].
  - intros t IH z v w T H. destruct v; cbn [typed] in T; try contradiction; cbn [send] in H; [destruct z; discriminate|].
    cbn [flat_ty]. exact (IH _ _ _ T H).
  - intros f IH z v w T H. destruct v; cbn [typed] in T; try contradiction; cbn [send] in H.
    destruct (send_fields f l) as [ws|] eqn:E; [|discriminate]. injection H as <-. cbn [flat_ty wok]. exact (IH _ _ T E).
  - intros vs ws T H. destruct vs; cbn [typed_fields] in T; try contradiction. injection H as <-. exact Logic.I.
  - intros n t IHt f IHf vs ws T H. destruct vs as [|v vs]; cbn [typed_fields] in T; try contradiction. destruct T as [T1 T2].
    cbn [send_fields] in H. destruct (send false t v) as [o|] eqn:E1; [|discriminate]. destruct (send_fields f vs) as [ws'|] eqn:E2; [|discriminate].
    injection H as <-. cbn [flat_flds wok_fields]. split; [destruct o as [w|]; [exact (IHt _ _ _ T1 E1)|exact Logic.I]|exact (IHf _ _ T2 E2)].
Qed.

(** looking up by name finds the field at the same place *)
Fixpoint fapp (a b : flds) : flds := match a with FNil => b | FCons n t a' => FCons n t (fapp a' b) end.
Lemma fapp_last a n t f : fapp a (FCons n t f) = fapp (fapp a (FCons n t FNil)) f.
Proof. induction a as [|m u a IH]; cbn; [reflexivity|rewrite IH; reflexivity]. Qed.
Lemma find_skip n a f pre ws : nf a = List.length pre -> ~ In n (fnames a) -> find_field n (fapp a f) (pre ++ ws) = find_field n f ws.
Proof.
  revert pre. induction a as [|m t a IH]; intros [|o pre] L N; cbn in *; try discriminate; [reflexivity|].
  destruct (seqb_spec n m) as [->|_]; [exfalso; apply N; left; reflexivity|]. apply IH; [lia|]. intros K. apply N. right. exact K.
Qed.
Lemma fnames_app a f : fnames (fapp a f) = fnames a ++ fnames f.
Proof. induction a as [|n t a IH]; cbn; [reflexivity|rewrite IH; reflexivity]. Qed.
Lemma nf_app a f : nf (fapp a f) = nf a + nf f.
Proof. induction a as [|n t a IH]; cbn; [reflexivity|rewrite IH; reflexivity]. Qed.
Lemma decent_nodup f : decent_flds f = true -> NoDup (fnames f).
Proof.
  induction f as [|n t f IH]; cbn; intros D; [constructor|]. rewrite !andb_true_iff in D. destruct D as [[[_ D2] _] D4].
  constructor; [|apply IH, D4]. apply negb_true_iff in D2. apply sin_not_In, D2.
Qed.
Lemma wok_len f ws : wok_fields f ws -> List.length ws = nf f.
Proof. revert ws. induction f as [|n t f IH]; intros [|o ws]; cbn; intros H; try contradiction; [reflexivity|rewrite (IH ws); [reflexivity|apply H]]. Qed.

Lemma store_sent :
  (forall t, decent t = true -> forall z v w, send z t v = Some (Some w) ->
     exists v', store (flat_ty t) t (zero t) w = Some v' /\ same v v') /\
  (forall f, decent_flds f = true -> forall pre wpre vs ws, nf pre = List.length wpre -> send_fields f vs = Some ws ->
     (forall n, In n (fnames f) -> ~ In n (fnames pre)) ->
     exists vs', store_fields (fapp pre (flat_flds f)) (wpre ++ ws) f (zeros f) = Some vs' /\ Forall2 same vs vs').
Proof.
  assert (Om : (forall t, forall z v, send z t v = Some None -> same v (zero t) /\ (forall f, t <> TyStruct f) /\ blank v) /\ (flds -> True)).
  { split; [|trivial]. induction t; intros z v H.
    - destruct v; cbn [send] in H; try discriminate. destruct b; destruct z; cbn in H; try discriminate.
      split; [constructor|]. split; [discriminate|constructor].
    - destruct v; cbn [send] in H; try discriminate. destruct (negb z && _) eqn:E; [|discriminate]. apply andb_true_iff in E as [_ E].
      apply Z.eqb_eq in E. subst. split; [constructor|]. split; [discriminate|constructor].
    - destruct v; cbn [send] in H; try discriminate. destruct (negb z && _) eqn:E; [|discriminate]. apply andb_true_iff in E as [_ E].
      apply N.eqb_eq in E. subst. split; [constructor|]. split; [discriminate|constructor].
    - destruct v; cbn [send] in H; try discriminate. destruct (negb z && _) eqn:E; [|discriminate]. apply andb_true_iff in E as [_ E].
      apply seqb_eq in E. subst. split; [constructor|]. split; [discriminate|constructor].
    - destruct v; cbn [send] in H; try discriminate. destruct (negb z && _) eqn:E; [|discriminate]. apply andb_true_iff in E as [_ E].
      apply Z.eqb_eq in E. subst. split; [constructor|]. split; [discriminate|constructor].
    - destruct v; cbn [send] in H; try discriminate.
      + split; [constructor|]. split; [discriminate|constructor].
      + destruct l as [|x l]; [|destruct (send_all _ _); discriminate]. split; [constructor|]. split; [discriminate|constructor].
    - destruct v; cbn [send] in H; try discriminate.
      + split; [constructor|]. split; [discriminate|constructor].
      + destruct (IHt z v H) as (A & B & C). split; [constructor; exact C|]. split; [discriminate|constructor; exact C].
    - destruct v; cbn [send] in H; try discriminate. destruct (send_fields f l); discriminate. }
  destruct Om as [Om _].
  apply ty_flds_ind; cbn [decent decent_flds].
  - intros _ z [] w H; cbn [send] in H; try discriminate. destruct (negb z && _); [discriminate|]. injection H as <-. eexists. split; [reflexivity|constructor].
  - intros _ z [] w H; cbn [send] in H; try discriminate. destruct (negb z && _); [discriminate|]. injection H as <-. eexists. split; [reflexivity|constructor].
  - intros _ z [] w H; cbn [send] in H; try discriminate. destruct (negb z && _); [discriminate|]. injection H as <-. eexists. split; [reflexivity|constructor].
  - intros _ z [] w H; cbn [send] in H; try discriminate. destruct (negb z && _); [discriminate|]. injection H as <-. eexists. split; [reflexivity|constructor].
  - intros _ z [] w H; cbn [send] in H; try discriminate. destruct (negb z && _); [discriminate|]. injection H as <-. eexists. split; [reflexivity|constructor].
  - intros t IH D z v w H. destruct v; cbn [send] in H; try discriminate.
    + destruct (negb z && _); [discriminate|]. injection H as <-. exists (VList []). split; [reflexivity|constructor].
    + assert (G : exists ws, w = WList ws /\ send_all (send true t) l = Some ws).
      { destruct l as [|x l]; [destruct (negb z && _); [discriminate|]; injection H as <-; exists []; split; reflexivity|].
        destruct (send_all (send true t) (x :: l)) as [ws|]; [|discriminate]. injection H as <-. exists ws. split; reflexivity. }
      destruct G as (ws & -> & G). clear H. cbn [flat_ty store zero].
      assert (K : exists vs, store_all (store (flat_ty t) t) (zero t) [] ws = Some vs /\ Forall2 same l vs).
      { revert ws G. induction l as [|x l IHl]; intros ws G; cbn [send_all] in G; [injection G as <-; exists []; split; [reflexivity|constructor]|].
        destruct (send true t x) as [[w|]|] eqn:E1; try discriminate. destruct (send_all (send true t) l) as [ws'|]; [|discriminate].
        injection G as <-. destruct (IH D _ _ _ E1) as (v' & S1 & S2). destruct (IHl ws' eq_refl) as (vs & S3 & S4).
        exists (v' :: vs). cbn [store_all tl]. rewrite S1, S3. split; [reflexivity|constructor; assumption]. }
      destruct K as (vs & K1 & K2). rewrite K1. exists (VList vs). split; [reflexivity|constructor; exact K2].
  - intros t IH D z v w H. destruct v; cbn [send] in H; try discriminate; [destruct z; discriminate|].
    destruct (IH D z v w H) as (v' & S1 & S2). cbn [flat_ty zero]. exists (VRef v').
    assert (E : store (flat_ty t) (TyPtr t) VNil w = match store (flat_ty t) t (zero t) w with Some v0 => Some (VRef v0) | None => None end)
      by (destruct w; reflexivity).
    rewrite E, S1. split; [reflexivity|constructor; exact S2].
  - intros f IH D z v w H. destruct v; cbn [send] in H; try discriminate. destruct (send_fields f l) as [ws|] eqn:E; [|discriminate].
    injection H as <-. apply andb_true_iff in D as [D _].
    destruct (IH D FNil [] l ws eq_refl E (fun n _ (K : False) => K)) as (vs & S1 & S2). cbn [fapp app] in S1.
    cbn [flat_ty store zero]. rewrite S1. exists (VRec vs). split; [reflexivity|constructor; exact S2].
  - intros _ pre wpre [|v vs] ws L H N; cbn [send_fields] in H; try discriminate. exists []. split; [reflexivity|constructor].
  - intros n t IHt f IHf D pre wpre [|v vs] ws L H N; cbn [send_fields] in H; try discriminate.
    pose proof (decent_nodup (FCons n t f) D) as Nd. cbn [fnames] in Nd. inversion Nd as [|? ? Nn Nd']; subst.
    rewrite !andb_true_iff in D. destruct D as [[[D1 D2] _] D4].
    destruct (send false t v) as [o|] eqn:E1; [|discriminate]. destruct (send_fields f vs) as [ws'|] eqn:E2; [|discriminate].
    injection H as <-. cbn [flat_flds zeros store_fields].
    rewrite (find_skip n pre (FCons n (flat_ty t) (flat_flds f)) wpre (o :: ws') L) by (apply N; left; reflexivity).
    cbn [find_field]. rewrite seqb_refl.
    assert (A : exists v', (match (match o with Some w => Some (flat_ty t, w) | None => None end) with
                            | Some (wt, w) => store wt t (zero t) w | None => Some (zero t) end) = Some v' /\ same v v').
    { destruct o as [w|]; [exact (IHt D1 _ _ _ E1)|]. exists (zero t). split; [reflexivity|]. exact (proj1 (Om _ _ _ E1)). }
    destruct A as (v' & A1 & A2). rewrite A1.
    destruct (IHf D4 (fapp pre (FCons n (flat_ty t) FNil)) (wpre ++ [o]) vs ws') as (vs' & B1 & B2).
    + rewrite nf_app, app_length. cbn. lia.
    + exact E2.
    + intros m M. rewrite fnames_app, in_app_iff. intros [K|[<-|[]]]; [exact (N m (or_intror M) K)|]. exact (Nn M).
    + rewrite <- fapp_last, <- app_assoc in B1. cbn [app] in B1. rewrite B1. exists (v' :: vs'). split; [reflexivity|constructor; assumption].
Qed.

(** ** A whole record *)
Lemma enc_msg_some b m : enc_msg b = Some m -> m = (enc_uint (N.of_nat (String.length b)) ++ b)%string /\ (N.of_nat (String.length b) < 2 ^ 33)%N.
Proof.
  unfold enc_msg. destruct (N.leb_spec too_big (N.of_nat (String.length b))) as [L|L]; intros H; [discriminate|]. injection H as <-.
  split; [reflexivity|exact L].
Qed.
Lemma small33 n : (n < 2 ^ 33)%N -> (n < 2 ^ 64)%N.
Proof. intros H. apply N.lt_le_trans with (1 := H). apply N.pow_le_mono_r; lia. Qed.
Definition small_ids (ids : ty -> positive) : Prop := forall t, (Zpos (ids t) < 2 ^ 63)%Z.

Lemma object_bytes_inv ids t v b : object_bytes ids t v = Some b ->
  exists w, send true t v = Some (Some w) /\
    (N.of_nat (String.length (enc_int (- Zpos (ids t)) ++ enc_ty (flat_ty t))) < 2 ^ 33)%N /\
    (N.of_nat (String.length (enc_int (Zpos (ids t)) ++ enc_wire (flat_ty t) w)) < 2 ^ 33)%N /\
    b = (enc_str (enc_int (- Zpos (ids t)) ++ enc_ty (flat_ty t)) ++ enc_str (enc_int (Zpos (ids t)) ++ enc_wire (flat_ty t) w))%string.
Proof.
  unfold object_bytes, encode_type, encode, new_encoder. cbn [g_ids g_sent existsb].
  destruct (send true t v) as [[w|]|]; try discriminate.
  destruct (enc_msg (enc_int (- Zpos (ids t)) ++ enc_ty (flat_ty t))) as [def|] eqn:E1; [|discriminate].
  destruct (enc_msg (enc_int (Zpos (ids t)) ++ enc_wire (flat_ty t) w)) as [value|] eqn:E2; [|discriminate].
  cbn [snd]. intros H. injection H as <-. apply enc_msg_some in E1 as [-> L1]. apply enc_msg_some in E2 as [-> L2].
  exists w. repeat split; assumption.
Qed.

(** reading the bytes of a record into any destination *)
Lemma read_object_bytes ids t v w b t' dest :
  small_ids ids -> decent t = true -> typed t v -> object_bytes ids t v = Some b -> send true t v = Some (Some w) ->
  read_object t' dest b = store (flat_ty t) t' dest w.
Proof.
  intros Ids D T H Ew. destruct (object_bytes_inv ids t v b H) as (w' & Ew' & L1 & L2 & ->). rewrite Ew in Ew'. injection Ew' as <-.
  pose proof (proj1 send_wok t true v w T Ew) as W. specialize (Ids t).
  assert (B1 : int64 (- Zpos (ids t))) by (unfold int64; lia). assert (B2 : int64 (Zpos (ids t))) by (unfold int64; lia).
  pose proof (proj1 flat_pointerless t) as P. pose proof (proj1 flat_decent t D) as D'.
  set (A := (enc_int (- Zpos (ids t)) ++ enc_ty (flat_ty t))%string) in *. set (B := (enc_int (Zpos (ids t)) ++ enc_wire (flat_ty t) w)%string) in *.
  unfold read_object, decode_type.
  assert (F : exists k, String.length (enc_str A ++ enc_str B) = S k).
  { exists (pred (String.length (enc_str A ++ enc_str B))). rewrite slen_app. unfold enc_str at 1 3. rewrite slen_app.
    pose proof (enc_uint_len (N.of_nat (String.length A))). lia. }
  destruct F as (k & F). rewrite F. cbn [decode]. unfold dec_msg. rewrite dec_str_enc by (apply small33; exact L1).
  unfold A at 1. rewrite dec_int_enc by exact B1. cbn [Z.opp known_type new_decoder].
  rewrite <- (sapp_nil_r (enc_ty (flat_ty t))) at 2.
  rewrite (proj1 dec_ty_enc) by (assumption || (try rewrite sapp_nil_r; lia)).
  rewrite <- (sapp_nil_r (enc_str B)). rewrite dec_str_enc by (apply small33; exact L2).
  unfold B at 1. rewrite dec_int_enc by exact B2. cbn [known_type]. rewrite Pos.eqb_refl.
  rewrite <- (sapp_nil_r (enc_wire (flat_ty t) w)).
  rewrite (proj1 dec_wire_enc); [reflexivity|exact D'|exact W|]. unfold fits. apply small33. unfold B in L2. rewrite slen_app in L2. lia.
Qed.
