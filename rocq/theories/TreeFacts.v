(** * TreeFacts: proofs about directory trees (proof artifact) *)
From Verif Require Import OpFacts2.
From Verif Require Import Base Paths PathFacts Transit TransitFacts Trees.
Open Scope string_scope. Open Scope list_scope.

(** names in a directory are ordinary and distinct (what a kernel guarantees) *)
Definition proper (n : node) : Prop :=
  forall l b es, find n l = Some (Dir b es) -> NoDup (map fst es) /\ Forall normal (map fst es).

Lemma node_rect' (P : node -> Prop) :
  (forall b, P (File b)) ->
  (forall b es, Forall (fun e => P (snd e)) es -> P (Dir b es)) ->
  forall n, P n.
Proof.
  intros HF HD. fix IH 1. intros [b|b es]; [apply HF|]. apply HD.
  induction es as [|[x m] es IHes]; constructor; [apply IH|exact IHes].
Qed.

Lemma find_app n a b : find n (a ++ b) = match find n a with Some m => find m b | None => None end.
Proof.
  revert n. induction a as [|x a IH]; intros n; [reflexivity|]. cbn [app find]. destruct n as [|r es]; [reflexivity|].
  destruct (lookup x es); [apply IH|reflexivity].
Qed.
Lemma proper_sub n l m : proper n -> find n l = Some m -> proper m.
Proof. intros P F q b es Q. apply (P (l ++ q) b es). rewrite find_app, F. exact Q. Qed.

Lemma lookup_in x es m : lookup x es = Some m -> In (x, m) es.
Proof.
  induction es as [|[y k] es IH]; cbn [lookup]; [discriminate|]. destruct (seqb_spec x y) as [->|]; [intros [= ->]; left; reflexivity|].
  intros H. right. apply IH, H.
Qed.
Lemma in_lookup x es m : NoDup (map fst es) -> In (x, m) es -> lookup x es = Some m.
Proof.
  induction es as [|[y k] es IH]; cbn [map fst lookup]; [intros _ []|]. intros N [[= -> ->]|H].
  - rewrite seqb_refl. reflexivity.
  - inversion N as [|? ? Nx Nd]; subst. destruct (seqb_spec x y) as [->|]; [|apply IH; assumption].
    exfalso. apply Nx. apply (in_map fst) in H. exact H.
Qed.

Fixpoint walk (path : string) (es : list (string * node)) : list string * bool :=
  match es with
  | [] => ([], false)
  | (x, m) :: es' =>
      let '(fs, e) := get_eopkgs (join path x) m in
      let '(fs', e') := walk path es' in
      if e then (fs', true) else (fs ++ fs', e')
  end.
Lemma get_dir path es : get_eopkgs path (Dir true es) = walk path es.
Proof. cbn [get_eopkgs]. induction es as [|[x m] es IH]; cbn [walk]; [reflexivity|]. destruct (get_eopkgs (join path x) m) as [fs e]. rewrite IH. reflexivity. Qed.

(** what a directory with these entries contains, entry by entry *)
Definition sees (l : list string) (es : list (string * node)) (p : string) : Prop :=
  exists x m q, In (x, m) es /\ find m q = Some (File true) /\ p = abs (l ++ x :: q)
    /\ has_suffix eopkg_suffix (last (l ++ x :: q) "") = true.

Lemma abs_inj a b : Forall normal a -> Forall normal b -> abs a = abs b -> a = b.
Proof.
  intros Fa Fb E. destruct a as [|x a], b as [|y b]; [reflexivity| | |].
  - exfalso. assert (S : split_slash (abs []) = split_slash (abs (y :: b))) by (rewrite E; reflexivity).
    rewrite (abs_split (y :: b)) in S by (discriminate || assumption). cbn in S. injection S as S _. inversion Fb as [|? ? (N & _) _]; subst. congruence.
  - exfalso. assert (S : split_slash (abs (x :: a)) = split_slash (abs [])) by (rewrite E; reflexivity).
    rewrite (abs_split (x :: a)) in S by (discriminate || assumption). cbn in S. injection S as S _. inversion Fa as [|? ? (N & _) _]; subst. congruence.
  - assert (S : split_slash (abs (x :: a)) = split_slash (abs (y :: b))) by (rewrite E; reflexivity).
    rewrite !abs_split in S by (discriminate || assumption). injection S as -> ->. reflexivity.
Qed.

Lemma join_name l x : Forall normal l -> normal x -> join (abs l) x = abs (l ++ [x]).
Proof.
  intros F (N1 & N2 & N3 & H). destruct l as [|y l].
  - cbn [app]. unfold join. change (seqb (abs []) "") with false. cbn match. destruct (seqb_spec x ""); [congruence|].
    assert (S : split_slash (abs [] ++ "/" ++ x) = ["";"";x]).
    { rewrite split_app, (split_one x H). reflexivity. }
    rewrite clean_abs; rewrite ?S.
    + cbn [filter]. change (keepc "") with false. cbn match. unfold keepc.
      apply seqb_neq in N1, N2. rewrite N1, N2. reflexivity.
    + intros [A|[A|[A|[]]]]; congruence.
    + reflexivity.
  - rewrite join_inside; [|discriminate|exact F|rewrite (split_one x H); intros [A|[]]; congruence].
    rewrite (split_one x H). cbn [filter]. unfold keepc. apply seqb_neq in N1, N2. rewrite N1, N2. reflexivity.
Qed.

Lemma find_normal n q m : proper n -> find n q = Some m -> Forall normal q.
Proof.
  revert n. induction q as [|x q IH]; intros n P Q; [constructor|]. cbn [find] in Q. destruct n as [|b es]; [discriminate|].
  destruct (lookup x es) as [k|] eqn:L; [|discriminate]. constructor.
  - destruct (P [] b es eq_refl) as [_ F]. rewrite Forall_forall in F. apply F. apply lookup_in, (in_map fst) in L. exact L.
  - apply (IH k); [|exact Q]. apply (proper_sub (Dir b es) [x]); [exact P|]. cbn [find]. rewrite L. reflexivity.
Qed.

Definition bad (n : node) : Prop := exists q m, find n q = Some m /\ readable m = false.
Definition packs (l : list string) (n : node) (p : string) : Prop :=
  exists q, find n q = Some (File true) /\ p = abs (l ++ q) /\ has_suffix eopkg_suffix (last (l ++ q) "") = true.

Lemma last_app_ne (a b : list string) d : b <> [] -> last (a ++ b) d = last b d.
Proof.
  intros N. induction a as [|x a IH]; [reflexivity|]. cbn [app last]. rewrite IH. destruct (a ++ b) eqn:E; [|reflexivity].
  apply app_eq_nil in E as [_ E]. congruence.
Qed.

Lemma get_spec n : forall l, proper n -> Forall normal l ->
  let '(fs, e) := get_eopkgs (abs l) n in
  (e = true <-> bad n) /\ (e = false -> (forall p, In p fs <-> packs l n p) /\ NoDup fs).
Proof.
  induction n as [b|b es IH] using node_rect'; intros l P F.
  - cbn [get_eopkgs]. destruct b.
    + split; [split; [discriminate|]|].
      { intros (q & m & Q & R). destruct q; [injection Q as <-; discriminate|discriminate]. }
      intros _. assert (E : has_suffix eopkg_suffix (base (abs l)) = has_suffix eopkg_suffix (last l "")).
      { destruct l as [|y l] using rev_ind; [reflexivity|]. apply Forall_app in F as [_ F]. inversion F; subst.
        rewrite base_abs by assumption. rewrite last_last. reflexivity. }
      rewrite E. split.
      * intros p. split.
        -- destruct (has_suffix eopkg_suffix (last l "")) eqn:S; [|intros []]. intros [<-|[]]. exists []. rewrite app_nil_r. auto.
        -- intros (q & Q & -> & S). destruct q; [|discriminate]. rewrite app_nil_r in *. rewrite S. left. reflexivity.
      * destruct (has_suffix eopkg_suffix (last l "")); [constructor; [intros []|constructor]|constructor].
    + split; [|discriminate]. split; [|reflexivity]. intros _. exists [], (File false). auto.
  - destruct b; [|cbn [get_eopkgs]; split; [|discriminate]; split; [|reflexivity]; intros _; exists [], (Dir false es); auto].
    rewrite get_dir. destruct (P [] true es eq_refl) as [Nd Nn].
    assert (Sub : forall x m, In (x, m) es -> proper m).
    { intros x m H. apply (proper_sub (Dir true es) [x]); [exact P|]. cbn [find]. rewrite (in_lookup x es m Nd H). reflexivity. }
    assert (W : forall es', incl es' es -> NoDup (map fst es') ->
      let '(fs, e) := walk (abs l) es' in
      (e = true <-> exists x m, In (x, m) es' /\ bad m) /\
      (e = false -> (forall p, In p fs <-> sees l es' p) /\ NoDup fs)).
    { induction es' as [|[x m] es' IHe]; intros I N; cbn [walk].
      - split; [split; [discriminate|intros (x & m & [] & _)]|]. intros _. split; [|constructor].
        intros p. split; [intros []|intros (x & m & q & [] & _)].
      - cbn [map fst] in N. inversion N as [|? ? Nx N']; subst.
        assert (Hin : In (x, m) es) by (apply I; left; reflexivity).
        assert (Hx : normal x) by (rewrite Forall_forall in Nn; apply Nn; apply (in_map fst) in Hin; exact Hin).
        specialize (IHe (fun y H => I y (or_intror H)) N').
        rewrite Forall_forall in IH. pose proof (IH (x, m) Hin (l ++ [x]) (Sub x m Hin)) as IHm. cbn [snd] in IHm.
        rewrite <- (join_name l x F Hx) in IHm. specialize (IHm (proj2 (Forall_app _ _ _) (conj F (Forall_cons _ Hx (Forall_nil _))))).
        destruct (get_eopkgs (join (abs l) x) m) as [fs e]. destruct (walk (abs l) es') as [fs' e'].
        destruct IHm as [B1 G1], IHe as [B2 G2].
        destruct e.
        { split; [|discriminate]. split; [|reflexivity]. intros _. exists x, m. split; [left; reflexivity|apply B1; reflexivity]. }
        destruct (G1 eq_refl) as [S1 D1]. split.
        + rewrite B2. split.
          * intros (y & k & H & Bk). exists y, k. split; [right; exact H|exact Bk].
          * intros (y & k & [[= <- <-]|H] & Bk); [apply B1 in Bk; discriminate|exists y, k; auto].
        + intros ->. destruct (G2 eq_refl) as [S2 D2].
          assert (A : forall q, l ++ x :: q = (l ++ [x]) ++ q) by (intros q; rewrite <- app_assoc; reflexivity).
          split.
          * intros p. rewrite in_app_iff, S1, S2. split.
            -- intros [(q & Q & E & H)|(y & k & q & H & R)].
               ++ exists x, m, q. rewrite A. split; [left; reflexivity|auto].
               ++ exists y, k, q. split; [right; exact H|exact R].
            -- intros (y & k & q & [[= <- <-]|H] & Q & E & H').
               ++ left. exists q. rewrite <- A. auto.
               ++ right. exists y, k, q. auto.
          * apply NoDup_app_intro; [exact D1|exact D2|]. intros p H1 H2. apply S1 in H1 as (q & Q & E & _). apply S2 in H2 as (y & k & q' & H & Q' & E' & _).
            assert (Hin' : In (y, k) es) by (apply I; right; exact H).
            assert (Hy : normal y) by (rewrite Forall_forall in Nn; apply Nn; apply (in_map fst) in Hin'; exact Hin').
            rewrite E, <- A in E'. apply abs_inj in E'.
            -- apply app_inv_head in E'. injection E' as -> _. apply Nx. apply (in_map fst) in H. exact H.
            -- apply Forall_app. split; [exact F|]. constructor; [exact Hx|]. exact (find_normal m q _ (Sub x m Hin) Q).
            -- apply Forall_app. split; [exact F|]. constructor; [exact Hy|]. exact (find_normal k q' _ (Sub y k Hin') Q'). }
    specialize (W es (incl_refl es) Nd). destruct (walk (abs l) es) as [fs e]. destruct W as [B G]. split.
    + rewrite B. split.
      * intros (x & m & H & q & k & Q & R). exists (x :: q), k. split; [|exact R]. cbn [find]. rewrite (in_lookup x es m Nd H). exact Q.
      * intros (q & k & Q & R). destruct q as [|x q]; [injection Q as <-; discriminate|]. cbn [find] in Q.
        destruct (lookup x es) as [m|] eqn:L; [|discriminate]. exists x, m. split; [apply lookup_in, L|exists q, k; auto].
    + intros E. destruct (G E) as [S D]. split; [|exact D]. intros p. rewrite S. split.
      * intros (x & m & q & H & Q & E' & H'). exists (x :: q). cbn [find]. rewrite (in_lookup x es m Nd H). auto.
      * intros (q & Q & E' & H'). destruct q as [|x q]; [discriminate|]. cbn [find] in Q. destruct (lookup x es) as [m|] eqn:L; [|discriminate].
        exists x, m, q. split; [apply lookup_in, L|auto].
Qed.

(** ** absolute paths *)
Lemma clean_stack l st : Forall (fun x => has_slash x = false) l -> Forall normal st ->
  Forall normal (fold_left (clean_step true) l st).
Proof.
  intros F. revert st. induction F as [|x l Hx F IH]; intros st N; [exact N|]. cbn [fold_left]. apply IH.
  unfold clean_step. destruct (seqb_spec x ""), (seqb_spec x "."); cbn [orb]; try exact N.
  destruct (seqb_spec x "..").
  - destruct st as [|y st]; [constructor|]. inversion N as [|? ? (A & B & C & D) N']; subst.
    destruct (seqb_spec y ".."); [congruence|exact N'].
  - constructor; [repeat split; assumption|exact N].
Qed.
Lemma clean_rooted p : has_prefix "/" p = true -> exists l, Forall normal l /\ clean p = abs l.
Proof.
  intros R. unfold clean. destruct (seqb_spec p "") as [->|]; [discriminate|]. rewrite R.
  eexists. split; [|reflexivity]. apply Forall_rev. apply clean_stack; [apply split_no_slash|constructor].
Qed.
Lemma filepath_abs_abs cwd a : has_prefix "/" cwd = true -> exists l, Forall normal l /\ filepath_abs cwd a = abs l.
Proof.
  intros C. unfold filepath_abs. destruct (has_prefix "/" a) eqn:R; [apply clean_rooted, R|].
  unfold join. destruct (seqb_spec cwd "") as [->|]; [discriminate|]. destruct (seqb a ""); [apply clean_rooted, C|].
  apply clean_rooted. apply has_prefix_spec in C as [t ->]. apply has_prefix_spec. exists (t ++ "/" ++ a)%string. rewrite !sapp_assoc. reflexivity.
Qed.
Lemma comps_abs l : Forall normal l -> comps (abs l) = l.
Proof.
  intros F. unfold comps. destruct l as [|x l]; [reflexivity|]. rewrite abs_split by (discriminate || assumption).
  cbn [filter]. change (negb (seqb "" "")) with false. cbn match.
  change ((filter (fun x0 => negb (seqb x0 ""))) (x :: l) = x :: l).
  induction F as [|y k (A & _) _ IH]; [reflexivity|]. cbn [filter]. apply seqb_neq in A. rewrite A. cbn [negb]. rewrite IH. reflexivity.
Qed.

(** ** collecting the arguments *)
Lemma collect_spec root cwd args : proper root -> has_prefix "/" cwd = true ->
  let dir a := comps (filepath_abs cwd a) in
  match collect root cwd args with
  | None => exists a, In a args /\ (find root (dir a) = None \/ exists q m, find root (dir a ++ q) = Some m /\ readable m = false)
  | Some l =>
      (forall a, In a args -> find root (dir a) <> None /\ forall q m, find root (dir a ++ q) = Some m -> readable m = true)
      /\ (forall p, In p l <-> exists a q, In a args /\ p = abs (dir a ++ q) /\ find root (dir a ++ q) = Some (File true)
            /\ has_suffix eopkg_suffix (last (dir a ++ q) "") = true)
  end.
Proof.
  intros P C dir. induction args as [|a args IH]; cbn [collect].
  - split; [intros a []|]. intros p. split; [intros []|intros (a & q & [] & _)].
  - unfold get_at. fold (dir a). destruct (filepath_abs_abs cwd a C) as (l & F & E).
    assert (D : dir a = l) by (unfold dir; rewrite E; apply comps_abs, F). rewrite E, D.
    destruct (find root l) as [n|] eqn:Fn.
    2:{ cbn. exists a. split; [left; reflexivity|]. left. rewrite D. exact Fn. }
    pose proof (get_spec n l (proper_sub root l n P Fn) F) as G. destruct (get_eopkgs (abs l) n) as [fs e]. destruct G as [B G].
    destruct e.
    { exists a. split; [left; reflexivity|]. right. destruct (proj1 B eq_refl) as (q & m & Q & R). exists q, m. rewrite D, find_app, Fn. auto. }
    destruct (G eq_refl) as [S _]. destruct (collect root cwd args) as [r|].
    + destruct IH as [I1 I2]. split.
      * intros b [<-|H]; [|apply I1, H]. rewrite D. split; [congruence|]. intros q m Q. destruct (readable m) eqn:R; [reflexivity|]. exfalso.
        rewrite find_app, Fn in Q. assert (false = true) by (apply B; exists q, m; auto). discriminate.
      * intros p. rewrite in_app_iff, S, I2. split.
        -- intros [(q & Q & Ep & H)|(b & q & H & R)].
           ++ exists a, q. rewrite D, find_app, Fn. split; [left; reflexivity|auto].
           ++ exists b, q. split; [right; exact H|exact R].
        -- intros (b & q & [<-|H] & R1 & R2 & R3).
           ++ left. exists q. rewrite D in *. rewrite find_app, Fn in R2. auto.
           ++ right. exists b, q. auto.
    + destruct IH as (b & H & R). exists b. split; [right; exact H|exact R].
Qed.

(** ** pruning *)
Definition kind (n : node) (q : list string) : option (bool * bool) :=
  match find n q with
  | Some (File b) => Some (false, b)
  | Some (Dir b _) => Some (true, b)
  | None => None
  end.
Lemma lookup_drop x es y : NoDup (map fst es) -> lookup y (drop_entry x es) = if seqb y x then None else lookup y es.
Proof.
  induction es as [|[z m] es IH]; cbn [map fst drop_entry lookup]; intros N; [destruct (seqb y x); reflexivity|].
  apply NoDup_cons_iff in N as [Nz N']. destruct (seqb_spec x z) as [E|D].
  - subst x. destruct (seqb_spec y z) as [E|]; [|reflexivity]. subst y. destruct (lookup z es) as [k|] eqn:L; [|reflexivity].
    exfalso. apply Nz. apply lookup_in, (in_map fst) in L. exact L.
  - cbn [lookup]. rewrite IH by exact N'. destruct (seqb_spec y z) as [->|]; [|reflexivity].
    destruct (seqb_spec z x); [congruence|reflexivity].
Qed.
Lemma lookup_set x m es y : lookup x es <> None -> lookup y (set_entry x m es) = if seqb y x then Some m else lookup y es.
Proof.
  induction es as [|[z k] es IH]; cbn [lookup set_entry]; intros H; [congruence|].
  destruct (seqb_spec x z) as [->|D]; cbn [lookup].
  - destruct (seqb y z); reflexivity.
  - rewrite IH by exact H. destruct (seqb_spec y z) as [->|]; [|reflexivity]. destruct (seqb_spec z x); [congruence|reflexivity].
Qed.
Lemma drop_names x es : incl (map fst (drop_entry x es)) (map fst es) /\ (NoDup (map fst es) -> NoDup (map fst (drop_entry x es))).
Proof.
  induction es as [|[z k] es [I J]]; cbn [drop_entry]; [split; [apply incl_refl|auto]|]. destruct (seqb x z); cbn [map fst].
  - split; [apply incl_tl, incl_refl|]. intros N. inversion N; assumption.
  - split; [apply incl_cons; [left; reflexivity|apply incl_tl, I]|]. intros N. inversion N as [|? ? Nz N']; subst. constructor; [intros H; apply Nz, I, H|apply J, N'].
Qed.
Lemma set_names x m es : map fst (set_entry x m es) = map fst es.
Proof. induction es as [|[z k] es IH]; cbn [set_entry]; [reflexivity|]. destruct (seqb x z); cbn [map fst]; [reflexivity|rewrite IH; reflexivity]. Qed.
Lemma detach_one b es x : detach (Dir b es) [x] = Dir b (drop_entry x es).
Proof. reflexivity. Qed.
Lemma detach_more b es x y l : detach (Dir b es) (x :: y :: l) = match lookup x es with Some m => Dir b (set_entry x (detach m (y :: l)) es) | None => Dir b es end.
Proof. reflexivity. Qed.

Lemma kind_cons b es x q : kind (Dir b es) (x :: q) = match lookup x es with Some m => kind m q | None => None end.
Proof. unfold kind. cbn [find]. destruct (lookup x es); reflexivity. Qed.

Fixpoint list_eqb (a b : list string) : bool :=
  match a, b with
  | [], [] => true
  | x :: a', y :: b' => seqb x y && list_eqb a' b'
  | _, _ => false
  end.
Lemma list_eqb_spec a b : reflect (a = b) (list_eqb a b).
Proof.
  revert b. induction a as [|x a IH]; intros [|y b]; cbn [list_eqb]; try (constructor; congruence).
  destruct (seqb_spec x y) as [->|]; [|constructor; congruence]. destruct (IH b) as [->|]; constructor; congruence.
Qed.

Lemma detach_kind l : forall n b q, proper n -> l <> [] -> find n l = Some (Dir b []) ->
  kind (detach n l) q = if list_eqb q l then None else kind n q.
Proof.
  induction l as [|x l IH]; intros n b q P N F; [congruence|]. destruct n as [|r es]; [discriminate|].
  cbn [find] in F. destruct (lookup x es) as [m|] eqn:L; [|discriminate]. destruct (P [] r es eq_refl) as [Nd _].
  assert (Pm : proper m). { apply (proper_sub (Dir r es) [x]); [exact P|]. cbn [find]. rewrite L. reflexivity. }
  destruct l as [|y l].
  - rewrite detach_one. injection F as ->. destruct q as [|z q]; [reflexivity|]. rewrite !kind_cons, lookup_drop by exact Nd.
    cbn [list_eqb]. destruct (seqb_spec z x) as [->|]; [|reflexivity]. cbn [andb]. rewrite L. destruct q as [|u q]; [reflexivity|]. reflexivity.
  - rewrite detach_more, L. destruct q as [|z q]; [reflexivity|]. rewrite !kind_cons, lookup_set by congruence.
    cbn [list_eqb]. destruct (seqb_spec z x) as [->|]; [|reflexivity]. rewrite L. cbn [andb].
    rewrite (IH m b q Pm) by (discriminate || exact F). reflexivity.
Qed.

Lemma proper_intro b es : NoDup (map fst es) -> Forall normal (map fst es) -> (forall x m, lookup x es = Some m -> proper m) -> proper (Dir b es).
Proof.
  intros N F S l r fs H. destruct l as [|x l]; [injection H as <- <-; auto|]. cbn [find] in H.
  destruct (lookup x es) as [m|] eqn:L; [|discriminate]. exact (S x m L l r fs H).
Qed.
Lemma detach_proper l : forall n, proper n -> proper (detach n l).
Proof.
  induction l as [|x l IH]; intros n P; [destruct n; exact P|]. destruct n as [|r es]; [destruct l; exact P|]. destruct (P [] r es eq_refl) as [Nd Nn].
  assert (Sub : forall z m, lookup z es = Some m -> proper m).
  { intros z m L. apply (proper_sub (Dir r es) [z]); [exact P|]. cbn [find]. rewrite L. reflexivity. }
  destruct l as [|y l].
  - rewrite detach_one. destruct (drop_names x es) as [I J]. apply proper_intro; [apply J, Nd| |].
    + apply Forall_forall. intros z Hz. rewrite Forall_forall in Nn. apply Nn, I, Hz.
    + intros z m L. rewrite lookup_drop in L by exact Nd. destruct (seqb z x); [discriminate|]. apply (Sub z), L.
  - rewrite detach_more. destruct (lookup x es) as [m|] eqn:L; [|exact P]. apply proper_intro; rewrite ?set_names; [exact Nd|exact Nn|].
    intros z k Lz. rewrite lookup_set in Lz by congruence. destruct (seqb z x); [injection Lz as <-; apply IH, (Sub x), L|apply (Sub z), Lz].
Qed.

(** empty, in terms of what is there *)
Definition empty_dir (n : node) (l : list string) : Prop :=
  (exists b, kind n l = Some (true, b)) /\ forall x, kind n (l ++ [x]) = None.
Lemma empty_dir_find n l : empty_dir n l <-> exists b, find n l = Some (Dir b []).
Proof.
  unfold empty_dir, kind. split.
  - intros [[b K] C]. destruct (find n l) as [[r|r es]|] eqn:F; try discriminate. injection K as ->. exists b.
    destruct es as [|[x m] es]; [reflexivity|]. specialize (C x). rewrite find_app, F in C. cbn [find lookup] in C. rewrite seqb_refl in C. destruct m; discriminate.
  - intros [b F]. rewrite F. split; [eauto|]. intros x. rewrite find_app, F. reflexivity.
Qed.

Lemma remove_if_empty_spec deny n l : proper n -> Forall normal l ->
  let '(n', ok) := remove_if_empty deny n (abs l) in
  proper n'
  /\ ((n' = n) \/ (l <> [] /\ empty_dir n l /\ ok = true /\ forall q, kind n' q = if list_eqb q l then None else kind n q))
  /\ (ok = true -> (exists b, kind n l = Some (true, b)) /\ (kind n' l = None <-> empty_dir n l))
  /\ (ok = false -> n' = n)
  /\ (ok = true <-> kind n l = Some (true, true) /\ (empty_dir n l -> l <> [] /\ deny (abs l) = false)).
Proof.
  intros P F. unfold remove_if_empty, read_dir. rewrite (comps_abs l F).
  destruct (find n l) as [[r|[|] es]|] eqn:Fl.
  1,3,4: split; [exact P|]; split; [left; reflexivity|]; split; [discriminate|]; split; [reflexivity|];
    unfold kind; rewrite Fl; split; [discriminate|intros [K _]; discriminate].
  assert (K : kind n l = Some (true, true)) by (unfold kind; rewrite Fl; reflexivity).
  destruct es as [|e es]; cbn [List.length].
  - assert (Em : empty_dir n l) by (apply empty_dir_find; exists true; exact Fl).
    unfold os_remove. rewrite (comps_abs l F). destruct (deny (abs l)) eqn:Dy.
    { split; [exact P|]. split; [left; reflexivity|]. split; [discriminate|]. split; [reflexivity|]. split; [discriminate|]. intros [_ H]. destruct (H Em); discriminate. }
    destruct l as [|x l].
    { split; [exact P|]. split; [left; reflexivity|]. split; [discriminate|]. split; [reflexivity|]. split; [discriminate|]. intros [_ H]. destruct (H Em); congruence. }
    rewrite Fl. set (l0 := x :: l) in *. assert (Nl : l0 <> []) by discriminate.
    pose proof (fun q => detach_kind l0 n true q P Nl Fl) as Kd.
    split; [apply detach_proper, P|]. split; [right; repeat split; auto; apply Em|].
    split; [|split; [discriminate|split; auto]]. intros _. split; [eauto|].
    rewrite Kd. destruct (list_eqb_spec l0 l0); [|congruence]. split; auto.
  - assert (Ne : ~ empty_dir n l) by (intros H; apply empty_dir_find in H as [b H]; congruence).
    split; [exact P|]. split; [left; reflexivity|]. split; [|split; [discriminate|split; [intros _; split; [exact K|intros H; contradiction]|reflexivity]]].
    intros _. split; [eauto|]. rewrite K. split; [discriminate|intros H; contradiction].
Qed.

(** ** a checker, for the examples *)
Definition normalb (x : string) : bool := negb (seqb x "" || seqb x "." || seqb x ".." || has_slash x).
Lemma normalb_ok x : normalb x = true -> normal x.
Proof.
  unfold normalb. intros H. apply negb_true_iff in H. rewrite !orb_false_iff in H. destruct H as (((A & B) & D) & F).
  apply seqb_neq in A, B, D. repeat split; assumption.
Qed.
Lemma normalbs_ok l : forallb normalb l = true -> Forall normal l.
Proof. intros H. apply Forall_forall. intros x Hx. rewrite forallb_forall in H. apply normalb_ok, H, Hx. Qed.
Fixpoint nodupb (l : list string) : bool :=
  match l with [] => true | x :: l' => negb (existsb (seqb x) l') && nodupb l' end.
Lemma nodupb_ok l : nodupb l = true -> NoDup l.
Proof.
  induction l as [|x l IH]; cbn [nodupb]; intros H; [constructor|]. apply andb_true_iff in H as [H1 H2]. constructor; [|apply IH, H2].
  intros I. apply negb_true_iff in H1. assert (existsb (seqb x) l = true) by (apply existsb_exists; exists x; split; [exact I|apply seqb_refl]). congruence.
Qed.
Fixpoint properb (n : node) : bool :=
  match n with
  | File _ => true
  | Dir _ es => nodupb (map fst es) && forallb normalb (map fst es) && forallb (fun e => properb (snd e)) es
  end.
Lemma properb_ok n : properb n = true -> proper n.
Proof.
  induction n as [b|b es IH] using node_rect'; intros H.
  - intros [|? ?] ? ? F; discriminate.
  - cbn [properb] in H. apply andb_true_iff in H as [H S]. apply andb_true_iff in H as [H N].
    apply proper_intro; [apply nodupb_ok, H|apply normalbs_ok, N|]. intros x m L. apply lookup_in in L.
    rewrite Forall_forall in IH. rewrite forallb_forall in S. exact (IH (x, m) L (S (x, m) L)).
Qed.
