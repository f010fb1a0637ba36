(** * PropsGob: property C101 (stored records read back as they were stored) *)
From Verif Require Import Base Model LibDb LibDbFacts Gob GobFacts.
Open Scope string_scope. Open Scope list_scope.

(** ** Specification

    [typed t v]: [v] is a Go value of type [t] (GobFacts.v: integers of 64
    bits, as many fields as the struct has). [same v v'] (GobFacts.v): equal, except that
    nil and empty slices count as the same, and a pointer to a zero number,
    string or empty slice as nil. *)
Lemma stored_decent t : In t stored_types -> decent t = true.
Proof. intros H. repeat destruct H as [<-|H]; try reflexivity. destruct H. Qed.

(** ** Every record of every run reads back.

    [ids] is the numbering of types of the run that wrote it (it differs from run
    to run); the reader needs nothing but the bytes. *)
Theorem C101_record_reads_back :
  forall ids t v b, small_ids ids -> In t stored_types -> typed t v -> object_bytes ids t v = Some b ->
    exists v', read_object t (zero t) b = Some v' /\ same v v'.
Proof.
  intros ids t v b Ids Ht T H. pose proof (stored_decent t Ht) as D. destruct (object_bytes_inv ids t v b H) as (w & Ew & _).
  rewrite (read_object_bytes ids t v w b t (zero t) Ids D T H Ew). exact (proj1 store_sent t D true v w Ew).
Qed.
Print Assumptions C101_record_reads_back.

(** in the database: whatever is written or deleted elsewhere afterwards *)
Theorem C101_database_reads_back :
  forall ids db prefix id t v db1 later, small_ids ids -> In t stored_types -> typed t v ->
    put_object ids db prefix id t v = Some db1 ->
    (forall w, In w later -> fst w <> real_key prefix id) ->
    exists v', get_object (fold_left apply_write later db1) prefix id t (zero t) = Some v' /\ same v v'.
Proof.
  intros ids db prefix id t v db1 later Ids Ht T H L. unfold put_object in H. destruct (reserved id) eqn:Er; [discriminate|].
  destruct (object_bytes ids t v) as [b|] eqn:Eb; [|discriminate]. unfold ldb_put in H. rewrite Er in H. injection H as <-.
  assert (G : ldb_get (fold_left apply_write later (apply_write db (real_key prefix id, Some b))) prefix id = Some b).
  { assert (G0 : ldb_get (apply_write db (real_key prefix id, Some b)) prefix id = Some b) by (rewrite get_put_same, seqb_refl; reflexivity).
    revert G0. generalize (apply_write db (real_key prefix id, Some b)). induction later as [|w later IH]; intros d G0; [exact G0|].
    cbn [fold_left]. apply IH; [intros x Hx; apply L; right; exact Hx|]. rewrite get_out; [exact G0|].
    intros E. exact (L w (or_introl eq_refl) (eq_sym E)). }
  unfold get_object. rewrite G. exact (C101_record_reads_back ids t v b Ids Ht T Eb).
Qed.
Print Assumptions C101_database_reads_back.

(** ** Storing fails only for records of 8 GB and more *)
Fixpoint no_pointer_slices (t : ty) : bool :=
  match t with
  | TySlice (TyPtr _) => false
  | TySlice t' | TyPtr t' => no_pointer_slices t'
  | TyStruct f => no_pointer_slices_f f
  | _ => true
  end
with no_pointer_slices_f (f : flds) : bool := match f with FNil => true | FCons _ t f' => no_pointer_slices t && no_pointer_slices_f f' end.
Lemma send_total :
  (forall t, no_pointer_slices t = true -> forall v, typed t v ->
     (exists o, send false t v = Some o) /\ ((forall t', t <> TyPtr t') -> exists w, send true t v = Some (Some w))) /\
  (forall f, no_pointer_slices_f f = true -> forall vs, typed_fields f vs -> exists ws, send_fields f vs = Some ws).
Proof.
  apply ty_flds_ind.
  - intros _ [] T; cbn [typed] in T; try contradiction. split; [cbn [send]; destruct (_ && _)|intros _]; eexists; reflexivity.
  - intros _ [] T; cbn [typed] in T; try contradiction. split; [cbn [send]; destruct (_ && _)|intros _]; eexists; reflexivity.
  - intros _ [] T; cbn [typed] in T; try contradiction. split; [cbn [send]; destruct (_ && _)|intros _]; eexists; reflexivity.
  - intros _ [] T; cbn [typed] in T; try contradiction. split; [cbn [send]; destruct (_ && _)|intros _]; eexists; reflexivity.
  - intros _ [] T; cbn [typed] in T; try contradiction. split; [cbn [send]; destruct (_ && _)|intros _]; eexists; reflexivity.
  - intros t IH P v T.
    assert (Pt : no_pointer_slices t = true /\ forall t', t <> TyPtr t') by (cbn in P; destruct t; try discriminate P; split; (exact P || discriminate)).
    destruct Pt as [P1 P2]. destruct v; cbn [typed] in T; try contradiction; [split; [|intros _]; eexists; reflexivity|].
    assert (G : exists ws, send_all (send true t) l = Some ws).
    { induction T as [|x l Tx T IHl]; [exists []; reflexivity|]. destruct IHl as (ws & E). destruct (proj2 (IH P1 x Tx) P2) as (w & E1).
      exists (w :: ws). cbn [send_all]. rewrite E1, E. reflexivity. }
    destruct G as (ws & E). split; [|intros _]; destruct l as [|x l]; cbn [send]; try (eexists; reflexivity); rewrite E; eexists; reflexivity.
  - intros t IH P v T. split; [|intros N; destruct (N t eq_refl)]. destruct v; cbn [typed] in T; try contradiction; [eexists; reflexivity|].
    exact (proj1 (IH P v T)).
  - intros f IH P v T. destruct v; cbn [typed] in T; try contradiction. destruct (IH P l T) as (ws & E).
    split; [|intros _]; cbn [send]; rewrite E; eexists; reflexivity.
  - intros _ [|v vs] T; cbn [typed_fields] in T; try contradiction. exists []. reflexivity.
  - intros n t IHt f IHf P [|v vs] T; cbn [typed_fields] in T; try contradiction. destruct T as [T1 T2]. cbn in P. apply andb_true_iff in P as [P1 P2].
    destruct (IHt P1 v T1) as [(o & E1) _]. destruct (IHf P2 vs T2) as (ws & E2). exists (o :: ws). cbn [send_fields]. rewrite E1, E2. reflexivity.
Qed.
Lemma id_len i : (Zpos i < 2 ^ 63)%Z -> (String.length (enc_int (- Zpos i)) <= 9)%nat /\ (String.length (enc_int (Zpos i)) <= 9)%nat.
Proof.
  assert (G : forall n, (n < 2 ^ 64)%N -> (String.length (enc_uint n) <= 9)%nat).
  { intros n L. unfold enc_uint. destruct (N.ltb_spec n 128) as [B|B]; cbn [String.length]; [lia|]. rewrite be_length. pose proof (nbytes_le n B L). lia. }
  intros L. change (2 ^ 63)%Z with 9223372036854775808%Z in L. unfold enc_int. split; apply G; change (2 ^ 64)%N with 18446744073709551616%N.
  - change (Z.ltb (- Zpos i) 0) with true. cbn iota. lia.
  - change (Z.ltb (Zpos i) 0) with false. cbn iota. lia.
Qed.
Theorem C101_only_size_can_fail :
  forall ids t v, small_ids ids -> In t stored_types -> typed t v ->
    (exists b, object_bytes ids t v = Some b) \/
    (exists w, send true t v = Some (Some w) /\ (2 ^ 33 <= N.of_nat (String.length (enc_wire (flat_ty t) w)) + 9)%N).
Proof.
  intros ids t v Ids Ht T.
  assert (P : no_pointer_slices t = true /\ (forall t', t <> TyPtr t') /\ (N.of_nat (String.length (enc_ty (flat_ty t))) < 2 ^ 20)%N).
  { repeat destruct Ht as [<-|Ht]; [..|destruct Ht]; (split; [reflexivity|]; split; [discriminate|vm_compute; reflexivity]). }
  destruct P as (P1 & P2 & P3). destruct (proj1 send_total t P1 v T) as [_ G]. destruct (G P2) as (w & E). specialize (Ids t).
  destruct (id_len (ids t) Ids) as [I1 I2]. change (2 ^ 20)%N with 1048576%N in P3.
  destruct (N.lt_ge_cases (N.of_nat (String.length (enc_wire (flat_ty t) w)) + 9) (2 ^ 33)) as [L|L]; [left|right; exists w; split; [exact E|exact L]].
  unfold object_bytes, encode_type, encode, new_encoder. cbn [g_ids g_sent existsb]. rewrite E. unfold enc_msg, too_big.
  change (2 ^ 33)%N with 8589934592%N in *.
  assert (B1 : N.leb 8589934592 (N.of_nat (String.length (enc_int (- Zpos (ids t)) ++ enc_ty (flat_ty t)))) = false) by (apply N.leb_gt; rewrite slen_app; lia).
  assert (B2 : N.leb 8589934592 (N.of_nat (String.length (enc_int (Zpos (ids t)) ++ enc_wire (flat_ty t) w))) = false) by (apply N.leb_gt; rewrite slen_app; lia).
  rewrite B1, B2. cbn [snd]. eexists. reflexivity.
Qed.
Print Assumptions C101_only_size_can_fail.

(** ** A release with other fields reads the records of this one.

    Fields with the same name and type have the value stored; new fields have
    their zero value; fields that are gone are skipped. *)
Fixpoint field_of (f : flds) (vs : list val) (n : string) : option (ty * val) :=
  match f, vs with
  | FCons m t f', v :: vs' => if seqb n m then Some (t, v) else field_of f' vs' n
  | _, _ => None
  end.
Lemma field_sent f vs ws n : send_fields f vs = Some ws ->
  match field_of f vs n with
  | Some (t, v) => exists o, send false t v = Some o /\ find_field n (flat_flds f) ws = match o with Some w => Some (flat_ty t, w) | None => None end
  | None => find_field n (flat_flds f) ws = None
  end.
Proof.
  revert vs ws. induction f as [|m t f IH]; intros [|v vs] ws H; cbn [send_fields] in H; try discriminate; [injection H as <-; reflexivity|].
  destruct (send false t v) as [o|] eqn:E1; [|discriminate]. destruct (send_fields f vs) as [ws'|] eqn:E2; [|discriminate]. injection H as <-.
  cbn [field_of flat_flds find_field]. destruct (seqb n m); [exists o; split; [exact E1|reflexivity]|]. exact (IH vs ws' E2).
Qed.
Lemma omitted_zero t v : decent t = true -> send false t v = Some None -> same v (zero t).
Proof.
  intros D E. destruct (proj2 store_sent (FCons "" t FNil)) with (pre := FNil) (wpre := @nil (option wire)) (vs := [v]) (ws := [@None wire]) as (vs' & A & B).
  - cbn. rewrite D. reflexivity.
  - reflexivity.
  - cbn [send_fields]. rewrite E. reflexivity.
  - intros n _ [].
  - cbn [app fapp flat_flds zeros store_fields find_field] in A. rewrite seqb_refl in A. injection A as <-. inversion B; subst. assumption.
Qed.
Lemma decent_field f vs n t v : decent_flds f = true -> field_of f vs n = Some (t, v) -> decent t = true.
Proof.
  revert vs. induction f as [|m u f IH]; intros [|x vs] D H; cbn in *; try discriminate. rewrite !andb_true_iff in D. destruct D as [[[D1 _] _] D4].
  destruct (seqb n m); [injection H as <- <-; exact D1|exact (IH vs D4 H)].
Qed.
Theorem C101_other_release_reads_it :
  forall ids f f' vs b, small_ids ids -> decent (TyStruct f) = true -> NoDup (fnames f') -> typed (TyStruct f) (VRec vs) ->
    object_bytes ids (TyStruct f) (VRec vs) = Some b ->
    (forall n t t' x, field_of f vs n = Some (t, x) -> (exists y, field_of f' (zeros f') n = Some (t', y)) -> t' = t) ->
    exists vs', read_object (TyStruct f') (zero (TyStruct f')) b = Some (VRec vs') /\
      forall n t' x', field_of f' vs' n = Some (t', x') ->
        match field_of f vs n with
        | Some (_, x) => same x x'
        | None => x' = zero t'
        end.
Proof.
  intros ids f f' vs b Ids D Nd T H C. destruct (object_bytes_inv _ _ _ _ H) as (w & Ew & _).
  rewrite (read_object_bytes ids _ _ w b (TyStruct f') (zero (TyStruct f')) Ids D T H Ew). cbn [decent] in D. apply andb_true_iff in D as [D _].
  cbn [send] in Ew. destruct (send_fields f vs) as [ws|] eqn:E; [|discriminate]. injection Ew as <-. cbn [flat_ty zero store].
  enough (G : exists vs', store_fields (flat_flds f) ws f' (zeros f') = Some vs' /\
                forall n t' x', field_of f' vs' n = Some (t', x') -> match field_of f vs n with Some (_, x) => same x x' | None => x' = zero t' end)
    by (destruct G as (vs' & -> & G); exists vs'; split; [reflexivity|exact G]).
  clear H T b ids Ids. induction f' as [|m t' f' IH]; [exists []; split; [reflexivity|discriminate]|].
  cbn [fnames] in Nd. inversion Nd as [|? ? Nm Nd']; subst.
  destruct IH as (vs' & A & B); [exact Nd'| |].
  { intros n t u x F (y & Y). apply (C n t u x F). exists y. cbn [zeros field_of]. destruct (seqb_spec n m) as [->|N]; [|exact Y].
    exfalso. apply Nm. clear -Y. revert Y. generalize (zeros f'). induction f' as [|k a f' IH]; intros [|z zs] Y; cbn in *; try discriminate.
    destruct (seqb_spec m k) as [->|_]; [left; reflexivity|right; exact (IH zs Y)]. }
  cbn [zeros store_fields]. pose proof (field_sent f vs ws m E) as Fm. rewrite A.
  destruct (field_of f vs m) as [[t x]|] eqn:Ef.
  - destruct Fm as (o & Eo & Fo). assert (Et : t' = t) by (apply (C m t t' x Ef); exists (zero t'); cbn [zeros field_of]; rewrite seqb_refl; reflexivity).
    subst t'. pose proof (decent_field f vs m t x D Ef) as Dt. rewrite Fo. destruct o as [w|].
    + destruct (proj1 store_sent t Dt false x w Eo) as (x' & S1 & S2). rewrite S1. exists (x' :: vs'). split; [reflexivity|].
      intros n t0 x0 Hn. cbn [field_of] in Hn. destruct (seqb_spec n m) as [->|_]; [|exact (B n t0 x0 Hn)]. injection Hn as <- <-. rewrite Ef. exact S2.
    + exists (zero t :: vs'). split; [reflexivity|]. intros n t0 x0 Hn. cbn [field_of] in Hn. destruct (seqb_spec n m) as [->|_]; [|exact (B n t0 x0 Hn)].
      injection Hn as <- <-. rewrite Ef. apply omitted_zero; assumption.
  - rewrite Fm. exists (zero t' :: vs'). split; [reflexivity|]. intros n t0 x0 Hn. cbn [field_of] in Hn. destruct (seqb_spec n m) as [->|_]; [|exact (B n t0 x0 Hn)].
    injection Hn as <- <-. rewrite Ef. reflexivity.
Qed.
Print Assumptions C101_other_release_reads_it.

(** ** The records of the model, through the bytes of the database *)
Lemma same_str s v : same (VStr s) v -> v = VStr s.
Proof. intros H; inversion H; reflexivity. Qed.
Lemma same_int i v : same (VInt i) v -> v = VInt i.
Proof. intros H; inversion H; reflexivity. Qed.
Lemma same_uint n v : same (VUint n) v -> v = VUint n.
Proof. intros H; inversion H; reflexivity. Qed.
Lemma same_bool b v : same (VBool b) v -> v = VBool b.
Proof. intros H; inversion H; reflexivity. Qed.
Lemma same_time b v : same (VTime b) v -> v = VTime b.
Proof. intros H; inversion H; reflexivity. Qed.
Lemma same_refl_all l : Forall2 same l l.
Proof. induction l; constructor; [constructor|assumption]. Qed.
Lemma same_rec l v : same (VRec l) v -> exists l', v = VRec l' /\ Forall2 same l l'.
Proof. intros H; inversion H; subst; [exists l; split; [reflexivity|apply same_refl_all]|eexists; split; [reflexivity|assumption]]. Qed.
Lemma same_refrec l v : same (VRef (VRec l)) v -> exists l', v = VRef (VRec l') /\ Forall2 same l l'.
Proof.
  intros H; inversion H as [| | | |? ? K|? K|]; subst; [exists l; split; [reflexivity|apply same_refl_all]| |inversion K].
  destruct (same_rec _ _ K) as (l' & -> & F). exists l'. split; [reflexivity|exact F].
Qed.
Section ListOf.
Context {A : Type} (enc : A -> val) (dec : val -> option A) (ok : forall x v, same (enc x) v -> dec v = Some x).
Fixpoint dec_all (l : list val) : option (list A) :=
  match l with
  | [] => Some []
  | v :: l' => match dec v, dec_all l' with Some a, Some r => Some (a :: r) | _, _ => None end
  end.
Definition list_of (v : val) : option (list A) := match v with VNone => Some [] | VList l => dec_all l | _ => None end.
(** a pointer to a slice, nil for the empty list *)
Definition ref_list (l : list A) : val := match l with [] => VNil | _ => VRef (VList (map enc l)) end.
Definition ref_list_of (v : val) : option (list A) := match v with VNil => Some [] | VRef v' => list_of v' | _ => None end.
Lemma dec_all_same l l' : Forall2 same (map enc l) l' -> dec_all l' = Some l.
Proof.
  revert l'. induction l as [|x l IH]; cbn [map]; intros l' H; inversion H; subst; [reflexivity|]. cbn [dec_all].
  rewrite (ok x _ ltac:(eassumption)). rewrite IH by assumption. reflexivity.
Qed.
Lemma list_of_same l v : same (VList (map enc l)) v -> list_of v = Some l.
Proof.
  intros H. inversion H; subst.
  - apply dec_all_same, same_refl_all.
  - destruct l; [reflexivity|discriminate].
  - cbn [list_of]. apply dec_all_same. assumption.
Qed.
Lemma ref_list_of_same l v : same (ref_list l) v -> ref_list_of v = Some l.
Proof.
  destruct l as [|x l]; cbn [ref_list]; intros H; inversion H as [| | | |? ? K|? K|]; subst; try reflexivity.
  - cbn [ref_list_of]. apply list_of_same. constructor.
  - cbn [ref_list_of]. apply list_of_same. assumption.
  - inversion K.
Qed.
End ListOf.
Definition str_of (v : val) : option string := match v with VStr s => Some s | _ => None end.
Lemma str_ok x v : same (VStr x) v -> str_of v = Some x.
Proof. intros H. rewrite (same_str _ _ H). reflexivity. Qed.

Definition schema : val := VStr "1.0".
Definition entry_val (e : entry) : val :=
  VRec [schema; VStr (e_name e); VList (map VStr (e_avail e)); VStr (e_pub e); VList (map VStr (e_deltas e))].
Definition entry_of (v : val) : option entry :=
  match v with
  | VRec [_; VStr n; a; VStr p; d] =>
      match list_of str_of a, list_of str_of d with Some a', Some d' => Some (Entry n a' p d') | _, _ => None end
  | _ => None
  end.
Definition dinfo_val (d : dinfo) : val := VRec [VInt (d_frel d); VStr (d_from d); VInt (d_trel d); VStr (d_to d)].
Definition dinfo_of (v : val) : option dinfo :=
  match v with VRec [VInt a; VStr b; VInt c; VStr d] => Some (DInfo a b c d) | _ => None end.
Definition sentry_val (k : sentry) : val := VRec [schema; VStr (k_name k); dinfo_val (k_delta k)].
Definition sentry_of (v : val) : option sentry :=
  match v with VRec [_; VStr n; d] => match dinfo_of d with Some i => Some (SEntry n i) | None => None end | _ => None end.
Definition update_val (u : update) : val := VRec [VInt (u_rel u); VStr (u_ver u)].
Definition update_of (v : val) : option update := match v with VRec [VInt a; VStr b] => Some (Update a b) | _ => None end.
Definition drec_val (d : drec) : val := VRec [VInt (dr_from d); VStr (dr_uri d); VInt (Z.of_N (dr_size d)); VStr (dr_hash d)].
Definition drec_of (v : val) : option drec :=
  match v with VRec [VInt a; VStr b; VInt c; VStr d] => Some (DRec a b (Z.to_N c) d) | _ => None end.
(** the model's metadata: the fields it knows, and one string for all that are carried along (Model.v) *)
Definition meta_val (m : meta) : val :=
  VRec [VStr (m_name m); VStr (m_src m); VList (map update_val (m_hist m)); VStr (m_drel m); VStr (m_arch m); VStr (m_rest m);
        ref_list drec_val (m_deltas m); VInt (Z.of_N (m_size m)); VStr (m_hash m); VStr (m_uri m)].
Definition meta_of (v : val) : option meta :=
  match v with
  | VRec [VStr n; VStr s; h; VStr dr; VStr ar; VStr re; ds; VInt z; VStr ha; VStr u] =>
      match list_of update_of h, ref_list_of drec_of ds with
      | Some h', Some ds' => Some (Meta n s h' dr ar re ds' (Z.to_N z) ha u)
      | _, _ => None
      end
  | _ => None
  end.
Definition ty_meta_model : ty :=
  struct [("Name", TyStr); ("SourceName", TyStr); ("History", TySlice (struct [("Release", TyInt); ("Version", TyStr)])); ("DistributionRelease", TyStr);
          ("Architecture", TyStr); ("Rest", TyStr); ("DeltaPackages", TyPtr (TySlice ty_delta)); ("PackageSize", TyInt);
          ("PackageHash", TyStr); ("PackageURI", TyStr)].
Definition ty_pentry : ty :=
  struct [("SchemaVersion", TyStr); ("Name", TyStr); ("RefCount", TyUint); ("Meta", TyPtr ty_meta_model); ("Delta", TyPtr ty_delta_information)].
Definition pentry_val (p : pentry) : val :=
  VRec [schema; VStr (p_name p); VUint (p_rc p); VRef (meta_val (p_meta p)); match p_delta p with Some d => VRef (dinfo_val d) | None => VNil end].
Definition pentry_of (v : val) : option pentry :=
  match v with
  | VRec [_; VStr n; VUint c; VRef m; d] =>
      match meta_of m, (match d with VNil => Some None | VRef i => match dinfo_of i with Some x => Some (Some x) | None => None end | _ => None end) with
      | Some m', Some d' => Some (PEntry n c m' d')
      | _, _ => None
      end
  | _ => None
  end.

Ltac peel := repeat match goal with
  | H : Forall2 same (_ :: _) _ |- _ => inversion H; clear H; subst
  | H : Forall2 same [] _ |- _ => inversion H; clear H; subst
  | H : same (VStr _) _ |- _ => apply same_str in H; subst
  | H : same (VInt _) _ |- _ => apply same_int in H; subst
  | H : same (VUint _) _ |- _ => apply same_uint in H; subst
  | H : same (VBool _) _ |- _ => apply same_bool in H; subst
  | H : same (VTime _) _ |- _ => apply same_time in H; subst
  end.
Lemma dinfo_ok d v : same (dinfo_val d) v -> dinfo_of v = Some d.
Proof. intros H. apply same_rec in H as (l & -> & F). peel. destruct d; reflexivity. Qed.
Lemma update_ok d v : same (update_val d) v -> update_of v = Some d.
Proof. intros H. apply same_rec in H as (l & -> & F). peel. destruct d; reflexivity. Qed.
Lemma drec_ok d v : same (drec_val d) v -> drec_of v = Some d.
Proof. intros H. apply same_rec in H as (l & -> & F). peel. cbn [drec_of]. rewrite N2Z.id. destruct d; reflexivity. Qed.
Lemma meta_ok m v : same (meta_val m) v -> meta_of v = Some m.
Proof.
  intros H. apply same_rec in H as (l & -> & F). peel. cbn [meta_of].
  rewrite (list_of_same update_val update_of update_ok (m_hist m)) by assumption.
  rewrite (ref_list_of_same drec_val drec_of drec_ok (m_deltas m)) by assumption. rewrite N2Z.id. destruct m; reflexivity.
Qed.
Lemma entry_ok e v : same (entry_val e) v -> entry_of v = Some e.
Proof.
  intros H. apply same_rec in H as (l & -> & F). unfold schema in F. peel. cbn [entry_of].
  rewrite (list_of_same VStr str_of str_ok (e_avail e)) by assumption. rewrite (list_of_same VStr str_of str_ok (e_deltas e)) by assumption. destruct e; reflexivity.
Qed.
Lemma sentry_ok e v : same (sentry_val e) v -> sentry_of v = Some e.
Proof.
  intros H. apply same_rec in H as (l & -> & F). unfold schema in F. peel. cbn [sentry_of].
  rewrite (dinfo_ok (k_delta e)) by assumption. destruct e; reflexivity.
Qed.
Lemma pentry_ok p v : same (pentry_val p) v -> pentry_of v = Some p.
Proof.
  intros H. apply same_rec in H as (l & -> & F). unfold schema in F. peel.
  match goal with H : same (VRef (meta_val _)) _ |- _ => unfold meta_val in H; apply same_refrec in H as (lm & -> & Fm) end.
  cbn [pentry_of]. rewrite (meta_ok (p_meta p)) by (constructor; exact Fm). destruct (p_delta p) as [d|] eqn:Ed.
  - match goal with H : same (VRef (dinfo_val _)) _ |- _ => unfold dinfo_val in H; apply same_refrec in H as (ld & -> & Fd) end.
    rewrite (dinfo_ok d) by (constructor; exact Fd). destruct p; cbn in *; subst; reflexivity.
  - match goal with H : same VNil ?y |- _ => assert (Y : y = VNil) by (inversion H; reflexivity); subst end. destruct p; cbn in *; subst; reflexivity.
Qed.

(** numbers fit into 64 bits *)
Definition dinfo_fits (d : dinfo) : Prop := int64 (d_frel d) /\ int64 (d_trel d).
Definition meta_fits (m : meta) : Prop :=
  (forall u, In u (m_hist m) -> int64 (u_rel u)) /\ int64 (Z.of_N (m_size m)) /\
  (forall d, In d (m_deltas m) -> int64 (dr_from d) /\ int64 (Z.of_N (dr_size d))).
Definition pentry_fits (p : pentry) : Prop :=
  (p_rc p < 2 ^ 64)%N /\ meta_fits (p_meta p) /\ match p_delta p with Some d => dinfo_fits d | None => True end.
(** a write of the manager that PutObject does not refuse *)
Definition storable (ids : ty -> positive) (o : dbop) : Prop :=
  match o with
  | PutRepo id => object_bytes ids ty_repository (VRec [VStr id]) <> None
  | PutEnt _ e => object_bytes ids ty_repo_entry (entry_val e) <> None
  | PutPool p => pentry_fits p /\ object_bytes ids ty_pentry (pentry_val p) <> None
  | PutSkip k => dinfo_fits (k_delta k) /\ object_bytes ids ty_delta_skip (sentry_val k) <> None
  | _ => True
  end.
Definition bytes_of (ids : ty -> positive) (t : ty) (v : val) : string := match object_bytes ids t v with Some b => b | None => "" end.
Definition gob_raw (ids : ty -> positive) : dbop -> write :=
  raw (fun id => bytes_of ids ty_repository (VRec [VStr id])) (fun e => bytes_of ids ty_repo_entry (entry_val e))
      (fun p => bytes_of ids ty_pentry (pentry_val p)) (fun k => bytes_of ids ty_delta_skip (sentry_val k)).

Lemma entry_typed e : typed ty_repo_entry (entry_val e).
Proof.
  assert (G : forall l, Forall (fun v => match v with VStr _ => True | _ => False end) (map VStr l)) by (induction l; constructor; [exact Logic.I|assumption]).
  cbn. split; [exact Logic.I|]. split; [exact Logic.I|]. split; [apply G|]. split; [exact Logic.I|]. split; [apply G|exact Logic.I].
Qed.
Lemma dinfo_typed d : dinfo_fits d -> typed ty_delta_information (dinfo_val d).
Proof. intros [A B]. cbn. auto. Qed.
Lemma sentry_typed k : dinfo_fits (k_delta k) -> typed ty_delta_skip (sentry_val k).
Proof. intros H. split; [exact Logic.I|]. split; [exact Logic.I|]. split; [exact (dinfo_typed _ H)|exact Logic.I]. Qed.
Lemma all_typed {A} t (enc : A -> val) l : (forall x, In x l -> typed t (enc x)) -> Forall (typed t) (map enc l).
Proof. intros H. apply Forall_forall. intros v Hv. apply in_map_iff in Hv as (x & <- & Hx). exact (H x Hx). Qed.
Lemma meta_typed m : meta_fits m -> typed ty_meta_model (meta_val m).
Proof.
  intros (A & B & C). unfold ty_meta_model, struct, meta_val. cbn [fields typed typed_fields].
  split; [exact Logic.I|]. split; [exact Logic.I|].
  split; [apply (all_typed (struct [("Release", TyInt); ("Version", TyStr)])); intros u Hu; cbn; split; [exact (A u Hu)|split; exact Logic.I]|].
  split; [exact Logic.I|]. split; [exact Logic.I|]. split; [exact Logic.I|].
  split; [|split; [exact B|]; split; [exact Logic.I|]; split; exact Logic.I].
  destruct (m_deltas m) as [|d ds] eqn:E; [exact Logic.I|]. unfold ref_list.
  change (typed (TySlice ty_delta) (VList (map drec_val (d :: ds)))). cbn [typed]. apply all_typed. intros x Hx.
  cbn. specialize (C x Hx). destruct C as [C1 C2]. auto.
Qed.
Lemma pentry_typed p : pentry_fits p -> typed ty_pentry (pentry_val p).
Proof.
  intros (A & B & C). unfold ty_pentry, struct, pentry_val. cbn [fields typed typed_fields].
  split; [exact Logic.I|]. split; [exact Logic.I|]. split; [exact A|]. split; [exact (meta_typed _ B)|]. split; [|exact Logic.I].
  destruct (p_delta p); [exact (dinfo_typed _ C)|exact Logic.I].
Qed.
Definition reads (t : ty) (b : string) : option val := read_object t (zero t) b.
Lemma reads_back ids t v A (of : val -> option A) (x : A) :
  small_ids ids -> decent t = true -> typed t v -> object_bytes ids t v <> None -> (forall v', same v v' -> of v' = Some x) ->
  match reads t (bytes_of ids t v) with Some v' => of v' | None => None end = Some x.
Proof.
  intros Ids D T H K. unfold reads, bytes_of. destruct (object_bytes ids t v) as [b|] eqn:E; [|contradiction].
  destruct (object_bytes_inv ids t v b E) as (w & Ew & _). rewrite (read_object_bytes ids t v w b t (zero t) Ids D T E Ew).
  destruct (proj1 store_sent t D true v w Ew) as (v' & S1 & S2). rewrite S1. exact (K v' S2).
Qed.
Lemma held_storable ids ops : Forall (storable ids) ops ->
  let d := fold_left apply_op ops init_db in
  (forall id p, mget (d_pool d) id = Some p -> storable ids (PutPool p)) /\
  (forall r n e, mget (d_ents d r) n = Some e -> storable ids (PutEnt r e)) /\
  (forall n k, mget (d_skip d) n = Some k -> storable ids (PutSkip k)) /\
  (forall id x, mget (d_repos d) id = Some x -> storable ids (PutRepo id)).
Proof.
  intros F. cbn zeta. induction ops as [|o ops IH] using rev_ind.
  - split; [|split; [|split]]; intros; discriminate.
  - apply Forall_app in F as [F1 F2]. inversion F2 as [|? ? Fo _]; subst. specialize (IH F1). rewrite fold_left_app. cbn [fold_left].
    set (d := fold_left apply_op ops init_db) in *. destruct IH as (A & B & C & D).
    destruct o as [i|i|r2 e2|r2 n2|p2|i|k2]; cbn [apply_op d_pool d_ents d_skip d_repos].
    + split; [exact A|]. split; [exact B|]. split; [exact C|]. intros id x H. rewrite mget_put in H. destruct (seqb_spec id i) as [->|_]; [exact Fo|exact (D id x H)].
    + split; [exact A|]. split; [exact B|]. split; [exact C|]. intros id x H. rewrite mget_del in H. destruct (seqb id i); [discriminate|exact (D id x H)].
    + split; [exact A|]. split; [|split; [exact C|exact D]]. intros r n e H. destruct (string_dec r2 r) as [->|N].
      * rewrite fupd_eq, mget_put in H. destruct (seqb n (e_name e2)); [injection H as <-; exact Fo|exact (B r n e H)].
      * rewrite fupd_ne in H by congruence. exact (B r n e H).
    + split; [exact A|]. split; [|split; [exact C|exact D]]. intros r n e H. destruct (string_dec r2 r) as [->|N].
      * rewrite fupd_eq, mget_del in H. destruct (seqb n n2); [discriminate|exact (B r n e H)].
      * rewrite fupd_ne in H by congruence. exact (B r n e H).
    + split; [|split; [exact B|split; [exact C|exact D]]]. intros id p H. rewrite mget_put in H. destruct (seqb id (p_name p2)); [injection H as <-; exact Fo|exact (A id p H)].
    + split; [|split; [exact B|split; [exact C|exact D]]]. intros id p H. rewrite mget_del in H. destruct (seqb id i); [discriminate|exact (A id p H)].
    + split; [exact A|]. split; [exact B|]. split; [|exact D]. intros n k H. rewrite mget_put in H. destruct (seqb n (k_name k2)); [injection H as <-; exact Fo|exact (C n k H)].
Qed.

(** Whatever the manager writes and deletes, reading the bytes in the database
    gives exactly the records the other theorems are about. *)
Definition record_at {A} (fl : flat) (path : list string) (id : string) (t : ty) (of : val -> option A) : option A :=
  match get_object fl (handle_prefix path) id t (zero t) with Some v => of v | None => None end.
Theorem C101_manager_database :
  forall ids ops, small_ids ids -> forallb safe_op ops = true -> Forall (storable ids) ops ->
    let fl := fold_left apply_write (map (gob_raw ids) ops) mempty in
    let d := fold_left apply_op ops init_db in
    (forall id, record_at fl ["pool"] id ty_pentry pentry_of = mget (d_pool d) id) /\
    (forall r n, safe_repo r = true -> record_at fl ["repo"; r; "package"] n ty_repo_entry entry_of = mget (d_ents d r) n) /\
    (forall n, record_at fl ["deltaSkip"] n ty_delta_skip sentry_of = mget (d_skip d) n) /\
    (forall id, record_at fl ["repo"] id ty_repository (fun v => match v with VRec [VStr s] => Some s | _ => None end)
                = if mhas (d_repos d) id then Some id else None).
Proof.
  intros ids ops Ids S F fl d. destruct (held_storable ids ops F) as (A & B & C & D). fold d in A, B, C, D.
  pose proof (repr_batch (fun id => bytes_of ids ty_repository (VRec [VStr id])) (fun e => bytes_of ids ty_repo_entry (entry_val e))
    (fun p => bytes_of ids ty_pentry (pentry_val p)) (fun k => bytes_of ids ty_delta_skip (sentry_val k)) ops mempty init_db (repr_init _ _ _ _) S) as R.
  fold (gob_raw ids) in R. fold fl d in R.
  split; [|split; [|split]].
  - intros id. unfold record_at, get_object. rewrite (rp_pool _ _ _ _ _ _ R id). unfold held. destruct (mget (d_pool d) id) as [p|] eqn:E; [|reflexivity].
    destruct (A id p E) as [A1 A2]. exact (reads_back ids ty_pentry (pentry_val p) _ pentry_of p Ids eq_refl (pentry_typed p A1) A2 (pentry_ok p)).
  - intros r n Sr. unfold record_at, get_object. rewrite (rp_ents _ _ _ _ _ _ R r Sr n). unfold held. destruct (mget (d_ents d r) n) as [e|] eqn:E; [|reflexivity].
    exact (reads_back ids ty_repo_entry (entry_val e) _ entry_of e Ids eq_refl (entry_typed e) (B r n e E) (entry_ok e)).
  - intros n. unfold record_at, get_object. rewrite (rp_skip _ _ _ _ _ _ R n). unfold held. destruct (mget (d_skip d) n) as [k|] eqn:E; [|reflexivity].
    destruct (C n k E) as [C1 C2]. exact (reads_back ids ty_delta_skip (sentry_val k) _ sentry_of k Ids eq_refl (sentry_typed k C1) C2 (sentry_ok k)).
  - intros id. unfold record_at, get_object. rewrite (rp_repo _ _ _ _ _ _ R id). unfold held, mhas. unfold mget. destruct (lget id (mlist (d_repos d))) as [x|] eqn:E; [|reflexivity].
    refine (reads_back ids ty_repository (VRec [VStr id]) _ _ id Ids eq_refl _ (D id x E) _); [cbn; auto|].
    intros v' Hs. apply same_rec in Hs as (l & -> & Fl). peel. reflexivity.
Qed.
Print Assumptions C101_manager_database.

(** a job of the queue: type, claimed, parameters, three times *)
Theorem C101_job_reads_back :
  forall ids ty claimed params q b e bytes, small_ids ids -> int64 q -> int64 b -> int64 e ->
    object_bytes ids ty_job_entry (VRec [VStr ty; VBool claimed; VList (map VStr params); VRec [VTime q; VTime b; VTime e]]) = Some bytes ->
    exists ps, read_object ty_job_entry (zero ty_job_entry) bytes = Some (VRec [VStr ty; VBool claimed; ps; VRec [VTime q; VTime b; VTime e]]) /\
      (ps = VList (map VStr params) \/ params = [] /\ ps = VNone).
Proof.
  intros ids ty c ps q b e bytes Ids Q B E H.
  assert (T : typed ty_job_entry (VRec [VStr ty; VBool c; VList (map VStr ps); VRec [VTime q; VTime b; VTime e]])).
  { split; [exact Logic.I|]. split; [exact Logic.I|]. split; [apply (all_typed TyStr); intros x _; exact Logic.I|]. split; [cbn; auto|exact Logic.I]. }
  destruct (C101_record_reads_back ids ty_job_entry _ bytes Ids ltac:(cbn; tauto) T H) as (v' & R & S).
  apply same_rec in S as (l & -> & F). peel.
  match goal with H : same (VRec _) _ |- _ => apply same_rec in H as (l2 & -> & F2) end. peel.
  eexists. split; [exact R|]. match goal with H : same (VList (map VStr ps)) _ |- _ => inversion H as [| |K| ? l' K | | |]; subst end.
  - left. reflexivity.
  - right. destruct ps; [split; reflexivity|discriminate].
  - left. f_equal. clear -K. revert l' K. induction ps as [|p ps IH]; cbn [map]; intros l' K; inversion K; subst; [reflexivity|]. peel. f_equal. apply IH. assumption.
Qed.
Print Assumptions C101_job_reads_back.

(** ** What does not hold of the API itself (ferryd's own calls avoid all four) *)
Definition demo_ids : ty -> positive := fun _ => 65%positive.
Definition demo_job (claimed : bool) : val := VRec [VStr "Delta"; VBool claimed; VList [VStr "unstable"; VStr "nano"]; VRec [VTime 7; VTime 0; VTime 0]].
Definition demo_bytes (v : val) : string := bytes_of demo_ids ty_job_entry v.
(** reading into a variable that is not fresh keeps what the record has zero *)
Theorem C101_stale_destination_refuted :
  ~ (forall ids t v dest b, small_ids ids -> In t stored_types -> typed t v -> typed t dest -> object_bytes ids t v = Some b ->
       exists v', read_object t dest b = Some v' /\ same v v').
Proof.
  intros H. destruct (H demo_ids ty_job_entry (demo_job false) (demo_job true) (demo_bytes (demo_job false))) as (v' & R & S).
  - intros t. reflexivity.
  - cbn; tauto.
  - cbn. repeat constructor; discriminate.
  - cbn. repeat constructor; discriminate.
  - vm_compute. reflexivity.
  - vm_compute in R. injection R as <-. apply same_rec in S as (l & E & F). injection E as <-. peel.
    match goal with H : VBool true = VBool false |- _ => discriminate H | H : VBool false = VBool true |- _ => discriminate H end.
Qed.
Print Assumptions C101_stale_destination_refuted.
(** an encoder used twice: the second record cannot be read on its own *)
Theorem C101_reused_encoder_refuted :
  ~ (forall ids t v1 v2 b, small_ids ids -> In t stored_types -> typed t v1 -> typed t v2 ->
       snd (encode_type (fst (encode_type (new_encoder ids) t v1)) t v2) = Some b ->
       exists v', read_object t (zero t) b = Some v').
Proof.
  intros H. destruct (H demo_ids ty_job_entry (demo_job false) (demo_job true)
    (match snd (encode_type (fst (encode_type (new_encoder demo_ids) ty_job_entry (demo_job false))) ty_job_entry (demo_job true)) with Some b => b | None => "" end)) as (v' & R).
  - intros t. reflexivity.
  - cbn; tauto.
  - cbn. repeat constructor; discriminate.
  - cbn. repeat constructor; discriminate.
  - vm_compute. reflexivity.
  - vm_compute in R. discriminate R.
Qed.
Print Assumptions C101_reused_encoder_refuted.
(** ... and the bytes returned for the first one are overwritten *)
Theorem C101_returned_bytes_stay_refuted :
  ~ (forall ids t v1 v2 g1 g2 b1 b2, small_ids ids -> In t stored_types -> typed t v1 -> typed t v2 ->
       encode_type (new_encoder ids) t v1 = (g1, Some b1) -> encode_type g1 t v2 = (g2, Some b2) -> reread g1 g2 b1 = b1).
Proof.
  intros H.
  set (g1 := fst (encode_type (new_encoder demo_ids) ty_job_entry (demo_job false))).
  set (b1 := demo_bytes (demo_job false)).
  set (g2 := fst (encode_type g1 ty_job_entry (demo_job true))).
  set (b2 := match snd (encode_type g1 ty_job_entry (demo_job true)) with Some b => b | None => "" end).
  assert (T : forall c, typed ty_job_entry (demo_job c)) by (intros c; cbn; repeat constructor; discriminate).
  specialize (H demo_ids ty_job_entry (demo_job false) (demo_job true) g1 g2 b1 b2 (fun t => eq_refl) ltac:(cbn; tauto) (T false) (T true)).
  assert (E : reread g1 g2 b1 = b1) by (apply H; vm_compute; reflexivity).
  vm_compute in E. discriminate E.
Qed.
Print Assumptions C101_returned_bytes_stay_refuted.
(** a decoder used twice: it refuses the second record, which defines its type again *)
Theorem C101_reused_decoder_refuted :
  ~ (forall ids t v1 v2 b1 b2, small_ids ids -> In t stored_types -> typed t v1 -> typed t v2 ->
       object_bytes ids t v1 = Some b1 -> object_bytes ids t v2 = Some b2 ->
       exists v', snd (decode_type (fst (decode_type new_decoder b1 t (zero t))) b2 t (zero t)) = Some v').
Proof.
  intros H. destruct (H demo_ids ty_job_entry (demo_job false) (demo_job true) (demo_bytes (demo_job false)) (demo_bytes (demo_job true))) as (v' & R).
  - intros t. reflexivity.
  - cbn; tauto.
  - cbn. repeat constructor; discriminate.
  - cbn. repeat constructor; discriminate.
  - vm_compute. reflexivity.
  - vm_compute. reflexivity.
  - vm_compute in R. discriminate R.
Qed.
Print Assumptions C101_reused_decoder_refuted.

(** the hypotheses hold for a pool entry with metadata, and for a job without parameters *)
Definition demo_pool_entry : pentry :=
  PEntry "nano-2.eopkg" 0 (Meta "nano" "nano" [Update 300 "2"; Update 1 ""] "1" "x86_64" "rest" [] 300 "hash" "n/nano/nano-2.eopkg") (Some (DInfo 0 "" 2 "b")).
Example C101_demo :
  small_ids demo_ids /\ pentry_fits demo_pool_entry /\
  record_at (fold_left apply_write (map (gob_raw demo_ids) [PutPool demo_pool_entry; PutRepo "unstable"; PutEnt "unstable" (Entry "nano" [] "" [])]) mempty)
            ["pool"] "nano-2.eopkg" ty_pentry pentry_of = Some demo_pool_entry /\
  Forall (storable demo_ids) [PutPool demo_pool_entry; PutRepo "unstable"; PutEnt "unstable" (Entry "nano" [] "" [])] /\
  typed ty_meta_package (zero ty_meta_package).
Proof.
  split; [intros t; reflexivity|].
  assert (P : pentry_fits demo_pool_entry).
  { split; [reflexivity|]. split; [|split; split; (discriminate || reflexivity)].
    split; [|split; [split; (discriminate || reflexivity)|intros d []]]. intros u [<-|[<-|[]]]; split; (discriminate || reflexivity). }
  split; [exact P|]. split; [vm_compute; reflexivity|]. split; [|cbn; repeat split; discriminate].
  constructor; [split; [exact P|vm_compute; discriminate]|]. constructor; [vm_compute; discriminate|]. constructor; [vm_compute; discriminate|constructor].
Qed.
