(** * IndexOps: the index run on the files of the repository root (proof artifact) *)
From Verif Require Import Model Spec DbInv DbOps Wp FsInv Ops UnrefOps RepoOps DeleteOps Pure Loops Emit.
Open Scope string_scope. Open Scope list_scope.

(** ** names *)
Definition t_xz := "eopkg-index.xml.new.xz".
Definition t_zst := "eopkg-index.xml.new.zst".
Definition index_pairs : list (string * string) :=
  [ (f_index, "eopkg-index.xml");
    ("eopkg-index.xml.sha1sum.new", "eopkg-index.xml.sha1sum");
    ("eopkg-index.xml.sha256sum.new", "eopkg-index.xml.sha256sum");
    (t_xz, "eopkg-index.xml.xz");
    ("eopkg-index.xml.xz.sha1sum.new", "eopkg-index.xml.xz.sha1sum");
    ("eopkg-index.xml.xz.sha256sum.new", "eopkg-index.xml.xz.sha256sum");
    (t_zst, "eopkg-index.xml.zst");
    ("eopkg-index.xml.zst.sha1sum.new", "eopkg-index.xml.zst.sha1sum");
    ("eopkg-index.xml.zst.sha256sum.new", "eopkg-index.xml.zst.sha256sum") ].
Definition temps : list string := map fst index_pairs.

Fixpoint nodupb (l : list string) : bool :=
  match l with [] => true | x :: l' => negb (sin x l') && nodupb l' end.
Lemma nodupb_spec l : nodupb l = true -> NoDup l.
Proof.
  induction l as [|x l IH]; simpl; intros H; [constructor|]. apply andb_true_iff in H. destruct H as [A B].
  constructor; [apply sin_not_In, negb_true_iff, A|auto].
Qed.
Lemma pairs_nodup : NoDup (temps ++ map snd index_pairs).
Proof. apply nodupb_spec. vm_compute. reflexivity. Qed.

Section Ops.
Variable E : env.
Variable cat : string -> meta.
Hypothesis Hcat : good_catalog cat.
Hypothesis HE : good_env E.
Notation Inv := (Inv E cat).

(** content of each temporary file of a run that renders [txt] *)
Definition tval (txt k : string) : string :=
  if seqb k f_index then txt
  else if seqb k "eopkg-index.xml.sha1sum.new" then E_sha1 E txt
  else if seqb k "eopkg-index.xml.sha256sum.new" then E_sha256 E txt
  else if seqb k t_xz then E_xz E txt
  else if seqb k "eopkg-index.xml.xz.sha1sum.new" then E_sha1 E (E_xz E txt)
  else if seqb k "eopkg-index.xml.xz.sha256sum.new" then E_sha256 E (E_xz E txt)
  else if seqb k t_zst then E_zst E txt
  else if seqb k "eopkg-index.xml.zst.sha1sum.new" then E_sha1 E (E_zst E txt)
  else if seqb k "eopkg-index.xml.zst.sha256sum.new" then E_sha256 E (E_zst E txt)
  else "".

(** what the assets of [r] allow *)
Definition dist_of (s : state) (r : string) : res (option (list string)) :=
  match f_asset (st_fs s) r "distribution.xml" with
  | None => Ok None
  | Some c => match E_dist E c with Some o => Ok (Some o) | None => Err end
  end.
Definition index_text (s : state) (r : string) (dist : option (list string)) : string :=
  E_render E (index_doc E cat s r dist).

Lemma init_dist_eq r s : init_distribution E r s = ([], s, dist_of s r).
Proof.
  unfold init_distribution, dist_of. rewrite bind_gets. destruct (f_asset (st_fs s) r "distribution.xml") as [c|]; [|reflexivity].
  destruct (E_dist E c); reflexivity.
Qed.

(** only file [k] of the root of [r] differs *)
Definition only (r k : string) (s t : state) : Prop :=
  forall f, f <> k -> f_root (st_fs t) r f = f_root (st_fs s) r f.
Definition root_is (r k : string) (v : option string) (s : state) : Prop := f_root (st_fs s) r k = v.

Definition set_root_st (r k : string) (v : option string) (s : state) : state :=
  on_fs (fun f => fs_set_root f r k v) s.
Lemma set_root_get r k v s f :
  f_root (st_fs (set_root_st r k v s)) r f = if seqb f k then v else f_root (st_fs s) r f.
Proof. simpl. rewrite fupd_eq. unfold fupd. reflexivity. Qed.
Lemma only_set r k v s : only r k s (set_root_st r k v s).
Proof. intros f N. rewrite set_root_get. destruct (seqb_spec f k); [contradiction|reflexivity]. Qed.
Lemma only_trans r k s1 s2 s3 : only r k s1 s2 -> only r k s2 s3 -> only r k s1 s3.
Proof. intros A B f N. rewrite B, A; auto. Qed.
Lemma only_refl r k s : only r k s s.
Proof. intros f _. reflexivity. Qed.
Lemma root_is_set r k v s : root_is r k v (set_root_st r k v s).
Proof. unfold root_is. rewrite set_root_get, seqb_refl. reflexivity. Qed.

(** ** one production step *)
Definition stage_post (r k c : string) (s0 s : state) (ok : Prop) (t : state) (res : res unit) : Prop :=
  quiet_root r s0 t /\ only r k s t /\
  ((res = Ok tt /\ root_is r k (Some c) t /\ (k = f_index -> assets_ok E s0 r = true)) \/ (res = Err /\ ~ ok)).
Definition stage_mid (r k : string) (s0 s t : state) : Prop := quiet_root r s0 t /\ only r k s t.

Lemma wp_root_write o r s0 s k c :
  quiet_root r s0 s -> k <> f_index ->
  wp (root_write o r k c) (stage_mid r k s0 s) (stage_post r k c s0 s (o_fail o k = false)) s.
Proof.
  intros Q Nk. unfold root_write, root_set.
  change (on_fs (fun f => fs_set_root f r k (Some ""))) with (set_root_st r k (Some "")).
  assert (Q1 : quiet_root r s0 (set_root_st r k (Some "") s)) by apply quiet_root_set, Q.
  apply wp_bind_durable; [split; [exact Q1|apply only_set]|].
  destruct (o_fail o k) eqn:F.
  - apply wp_err. split; [exact Q1|]. split; [apply only_set|]. right. split; [reflexivity|discriminate].
  - change (on_fs (fun f => fs_set_root f r k (Some c))) with (set_root_st r k (Some c)).
    assert (Q2 : quiet_root r s0 (set_root_st r k (Some c) (set_root_st r k (Some "") s))) by apply quiet_root_set, Q1.
    assert (O2 : only r k s (set_root_st r k (Some c) (set_root_st r k (Some "") s)))
      by (eapply only_trans; apply only_set).
    apply wp_durable; [split; assumption|]. split; [exact Q2|]. split; [exact O2|]. left.
    split; [reflexivity|]. split; [apply root_is_set|contradiction].
Qed.

Lemma wp_write_sum o h r s0 s inp k c :
  quiet_root r s0 s -> k <> f_index -> root_is r inp (Some c) s ->
  wp (write_sum o h r inp k) (stage_mid r k s0 s)
     (stage_post r k (h c) s0 s (o_fail o k = false /\ c <> "")) s.
Proof.
  intros Q Nk Hi. unfold write_sum, root_get. apply wp_bind_gets. unfold root_is in Hi. rewrite Hi.
  destruct c as [|a c].
  - apply wp_err. split; [exact Q|]. split; [apply only_refl|]. right. split; [reflexivity|tauto].
  - eapply wp_post; [apply wp_root_write; assumption|]. intros t res (A & B & [D|[D1 D2]]).
    + split; [exact A|]. split; [exact B|]. left. exact D.
    + split; [exact A|]. split; [exact B|]. right. split; [exact D1|tauto].
Qed.
Lemma wp_compress o z r s0 s inp k c :
  quiet_root r s0 s -> k <> f_index -> root_is r inp (Some c) s ->
  wp (compress o z r inp k) (stage_mid r k s0 s)
     (stage_post r k (z c) s0 s (o_fail o k = false /\ root_is r k None s)) s.
Proof.
  intros Q Nk Hi. unfold compress, root_get. apply wp_bind_gets. apply wp_bind_gets. unfold root_is in *. rewrite Hi.
  destruct (f_root (st_fs s) r k) as [x|] eqn:Hk.
  - apply wp_err. split; [exact Q|]. split; [apply only_refl|]. right. split; [reflexivity|]. intros [_ X]. congruence.
  - eapply wp_post; [apply wp_root_write; assumption|]. intros t res (A & B & [D|[D1 D2]]).
    + split; [exact A|]. split; [exact B|]. left. exact D.
    + split; [exact A|]. split; [exact B|]. right. split; [exact D1|tauto].
Qed.

(** ** the stages in order *)
Definition stage_ok (o : oracle) (r txt : string) (s0 s : state) (k : string) : Prop :=
  o_fail o k = false /\
  (k = f_index -> assets_ok E s0 r = true) /\
  (k <> f_index -> txt <> "" /\ E_xz E txt <> "" /\ E_zst E txt <> "") /\
  (k = t_xz \/ k = t_zst -> root_is r k None s).

Definition stage_spec (o : oracle) (r txt : string) (s0 : state) (prev : list string) (k : string) (m : M unit) : Prop :=
  forall s, quiet_root r s0 s -> (forall p, In p prev -> root_is r p (Some (tval txt p)) s) ->
  wp m (stage_mid r k s0 s) (stage_post r k (tval txt k) s0 s (stage_ok o r txt s0 s k)) s.

Fixpoint stages_spec (o : oracle) (r txt : string) (s0 : state) (prev : list string) (l : list (string * string * M unit)) : Prop :=
  match l with
  | [] => True
  | (k, v, m) :: l' => stage_spec o r txt s0 prev k m /\ stages_spec o r txt s0 (prev ++ [k]) l'
  end.

Lemma stage_weaken r k c s0 s (ok ok' : Prop) t res :
  stage_post r k c s0 s ok t res -> (ok' -> ok) -> stage_post r k c s0 s ok' t res.
Proof.
  intros (A & B & [D|[D1 D2]]) H.
  - split; [exact A|]. split; [exact B|]. left. exact D.
  - split; [exact A|]. split; [exact B|]. right. split; [exact D1|]. intros X. apply D2, H, X.
Qed.

Lemma Inv_quiet ex fz r s0 s : Inv ex fz [] s0 -> quiet_root r s0 s -> Inv ex fz [] s.
Proof. intros H Q. eapply Inv_quiet_root; eauto. Qed.
Lemma quiet_doc r s0 s dist : quiet_root r s0 s -> index_doc E cat s r dist = index_doc E cat s0 r dist /\ assets_ok E s r = assets_ok E s0 r.
Proof.
  intros [A1 A2 A3 A4 A5 A6 A7]. unfold index_doc, assets_ok, asset_ok, asset_val. rewrite A1, A4. auto.
Qed.

Lemma stages_ok ex fz o r s0 dist :
  Inv ex fz [] s0 ->
  stages_spec o r (index_text s0 r dist) s0 [] (index_stages E o r dist).
Proof.
  intros H. set (txt := index_text s0 r dist). unfold index_stages.
  assert (Sum : forall h inp k prev, In inp prev -> tval txt k = h (tval txt inp) ->
     (tval txt inp = txt \/ tval txt inp = E_xz E txt \/ tval txt inp = E_zst E txt) -> k <> f_index ->
     stage_spec o r txt s0 prev k (write_sum o h r inp k)).
  { intros h inp k prev Hin Ek Ei Nk s Q Hp. rewrite Ek.
    eapply wp_post; [apply wp_write_sum; [exact Q|exact Nk|apply Hp, Hin]|].
    intros t res P. eapply stage_weaken; [exact P|]. intros (A & _ & B & _). split; [exact A|].
    destruct (B Nk) as (B1 & B2 & B3). destruct Ei as [->|[->| ->]]; assumption. }
  assert (Cmp : forall z k prev, In f_index prev -> tval txt k = z txt -> k = t_xz \/ k = t_zst ->
     stage_spec o r txt s0 prev k (compress o z r f_index k)).
  { intros z k prev Hin Ek Hk s Q Hp. rewrite Ek. change txt with (tval txt f_index) at 1.
    eapply wp_post; [apply wp_compress; [exact Q|destruct Hk as [->| ->]; discriminate|apply (Hp _ Hin)]|].
    intros t res P. eapply stage_weaken; [exact P|]. intros (A & _ & _ & B). split; [exact A|auto]. }
  cbn [stages_spec app]. split; [|].
  { intros s Q _. unfold root_set.
    change (on_fs (fun f => fs_set_root f r f_index (Some ""))) with (set_root_st r f_index (Some "")).
    set (s1 := set_root_st r f_index (Some "") s).
    assert (Q1 : quiet_root r s0 s1) by apply quiet_root_set, Q.
    apply wp_bind_durable; [split; [exact Q1|apply only_set]|].
    destruct (quiet_doc r s0 s1 dist Q1) as [Ed Ea].
    pose proof (emit_index_eq E cat Hcat HE ex fz s1 r dist (Inv_quiet _ _ _ _ _ H Q1)) as Em. rewrite Ea in Em.
    destruct (assets_ok E s0 r) eqn:As.
    - eapply wp_bind_read; [exact Em|].
      destruct (o_fail o f_index) eqn:F.
      + apply wp_err. split; [exact Q1|]. split; [apply only_set|]. right. split; [reflexivity|]. intros (X & _). congruence.
      + change (on_fs (fun f => fs_set_root f r f_index (Some (E_render E (index_doc E cat s1 r dist)))))
          with (set_root_st r f_index (Some (E_render E (index_doc E cat s1 r dist)))).
        rewrite Ed. fold (index_text s0 r dist). fold txt. change (tval txt f_index) with txt.
        set (s2 := set_root_st r f_index (Some txt) s1).
        assert (Q2 : quiet_root r s0 s2) by apply quiet_root_set, Q1.
        assert (O2 : only r f_index s s2) by (eapply only_trans; apply only_set).
        apply wp_durable; [split; assumption|]. split; [exact Q2|]. split; [exact O2|]. left.
        split; [reflexivity|]. split; [apply root_is_set|intros _; exact As].
    - apply wp_bind. match goal with |- wp _ _ _ ?x => change x with s1 end. unfold wp. rewrite Em.
      split; [constructor|]. simpl. split; [exact Q1|]. split; [apply only_set|]. right.
      split; [reflexivity|]. intros (_ & X & _). specialize (X eq_refl). congruence. }
  Ltac inprev := simpl; tauto.
  repeat match goal with |- _ /\ _ => split | |- True => exact I end;
    first [ apply Sum; [inprev|reflexivity|first [left; reflexivity|right; left; reflexivity|right; right; reflexivity]|discriminate]
          | apply Cmp; [inprev|reflexivity|first [left; reflexivity|right; reflexivity]] ].
Qed.

(** ** all stages *)
Lemma wp_remove_all r s0 l : forall s,
  quiet_root r s0 s ->
  wp (remove_all r l) (fun t => quiet_root r s0 t /\ forall f, ~ In f l -> f_root (st_fs t) r f = f_root (st_fs s) r f)
     (fun t res => res = Ok tt /\ quiet_root r s0 t /\
        forall f, f_root (st_fs t) r f = if sin f l then None else f_root (st_fs s) r f) s.
Proof.
  induction l as [|x l IH]; intros s Q; simpl.
  - apply wp_ret. split; [reflexivity|]. split; [exact Q|]. reflexivity.
  - unfold root_set. change (on_fs (fun f => fs_set_root f r x None)) with (set_root_st r x None).
    assert (Q1 : quiet_root r s0 (set_root_st r x None s)) by apply quiet_root_set, Q.
    apply wp_bind_durable.
    + split; [exact Q1|]. intros f N. apply only_set. intros ->. apply N. left; reflexivity.
    + eapply wp_mono; [apply (IH _ Q1)| |].
      * intros t (A & B). split; [exact A|]. intros f N. rewrite B by tauto. apply only_set. intros ->. tauto.
      * intros t res (-> & A & B). split; [reflexivity|]. split; [exact A|]. intros f. rewrite B, set_root_get.
        unfold sin. simpl. destruct (seqb f x); [simpl; destruct (existsb _ l)|]; reflexivity.
Qed.

Definition keysof (l : list (string * string * M unit)) : list string := map (fun x => fst (fst x)) l.

(* published names untouched, other temporaries of the run untouched *)
Definition stages_mid (r : string) (s0 s : state) (all : list string) (t : state) : Prop :=
  quiet_root r s0 t /\ forall f, ~ In f all -> f_root (st_fs t) r f = f_root (st_fs s) r f.

Lemma wp_run_stages o r txt s0 l : forall done s,
  quiet_root r s0 s -> stages_spec o r txt s0 (map fst done) l ->
  NoDup (map fst done ++ keysof l) ->
  (forall p, In p (map fst done) -> root_is r p (Some (tval txt p)) s) ->
  wp (run_stages r done l) (stages_mid r s0 s (map fst done ++ keysof l))
     (fun t res => quiet_root r s0 t /\ (forall f, ~ In f (map fst done ++ keysof l) -> f_root (st_fs t) r f = f_root (st_fs s) r f) /\
        ((res = Ok (done ++ map fst l)%list /\ (In f_index (keysof l) -> assets_ok E s0 r = true) /\ forall p, In p (map fst done ++ keysof l) -> root_is r p (Some (tval txt p)) t) \/
         (res = Err /\ exists pre k post, keysof l = (pre ++ k :: post)%list /\
            ~ stage_ok o r txt s0 s k /\
            (forall f, In f (map fst done ++ pre ++ [k]) -> root_is r f None t) /\
            (forall f, In f post -> f_root (st_fs t) r f = f_root (st_fs s) r f)))) s.
Proof.
  induction l as [|[[k v] m] l IH]; intros done s Q Sp ND Hd; simpl.
  - apply wp_ret. rewrite !app_nil_r. split; [exact Q|]. split; [reflexivity|]. left. split; [reflexivity|]. split; [intros []|exact Hd].
  - destruct Sp as [Sk Sl]. simpl in ND.
    assert (Hk : forall f, ~ In f (map fst done ++ k :: keysof l) -> f <> k).
    { intros f N ->. apply N, in_or_app. right; left; reflexivity. }
    apply wp_bind.
    set (done' := done ++ [(k, v)]).
    assert (Ed : map fst done' = map fst done ++ [k]) by (unfold done'; rewrite map_app; reflexivity).
    (* the stage and, on failure, the cleanup *)
    apply (wp_post _ _ (fun t res => (quiet_root r s0 t /\ only r k s t /\ res = Ok tt /\ root_is r k (Some (tval txt k)) t /\ (k = f_index -> assets_ok E s0 r = true)) \/
        (quiet_root r s0 t /\ res = Err /\ ~ stage_ok o r txt s0 s k /\
         forall f, f_root (st_fs t) r f = if sin f (map fst done') then None else f_root (st_fs s) r f))).
    + specialize (Sk s Q Hd). unfold wp in Sk |- *. unfold on_err. destruct (m s) as [[t1 s1] r1]. destruct Sk as [S1 S2].
      unfold trace_of, final_of, result_of in *. simpl in S1, S2.
      assert (F1 : Forall (stages_mid r s0 s (map fst done ++ k :: keysof l)) t1).
      { eapply Forall_impl; [|exact S1]. intros t (A & B). split; [exact A|]. intros f N. apply B, Hk, N. }
      destruct S2 as (A & B & [(-> & D)|(-> & D)]); simpl.
      * split; [exact F1|]. left. auto.
      * pose proof (wp_remove_all r s0 (map fst done') s1 A) as W. unfold wp in W.
        unfold trace_of, final_of, result_of in W.
        destruct (remove_all r (map fst done') s1) as [[t2 s2] r2]. simpl in W. destruct W as (W1 & -> & W2 & W3). simpl.
        assert (Sub : forall f, ~ In f (map fst done ++ k :: keysof l) -> ~ In f (map fst done')).
        { intros f N Hf. apply N. rewrite Ed in Hf. apply in_app_or in Hf. apply in_or_app.
          destruct Hf as [Hf|[<-|[]]]; [left; exact Hf|right; left; reflexivity]. }
        split; [apply Forall_app; split; [exact F1|]|].
        -- eapply Forall_impl; [|exact W1]. intros t (A' & B'). split; [exact A'|]. intros f N.
           rewrite B' by apply Sub, N. apply B, Hk, N.
        -- right. split; [exact W2|]. split; [reflexivity|]. split; [exact D|]. intros f. rewrite W3.
           destruct (sin f (map fst done')) eqn:Sf; [reflexivity|]. apply B. intros ->.
           apply sin_not_In in Sf. apply Sf. rewrite Ed. apply in_or_app. right; left; reflexivity.
    + intros s1 res [(Q1 & O1 & -> & K1 & As1)|(Q1 & -> & Nok & R1)].
      * assert (ND' : NoDup (map fst done' ++ keysof l)) by (rewrite Ed, <- app_assoc; exact ND).
        assert (Nk : ~ In k (map fst done ++ keysof l)) by (apply NoDup_remove_2 in ND; exact ND).
        assert (Eall : map fst done' ++ keysof l = map fst done ++ k :: keysof l) by (rewrite Ed, <- app_assoc; reflexivity).
        eapply wp_mono.
        { apply (IH done' s1 Q1); [rewrite Ed; exact Sl|exact ND'|].
          intros p Hp. rewrite Ed in Hp. apply in_app_or in Hp. destruct Hp as [Hp|[<-|[]]]; [|exact K1].
          unfold root_is. rewrite O1; [apply Hd, Hp|]. intros ->. apply Nk, in_or_app; left; exact Hp. }
        { intros t (A & B). rewrite Eall in B. split; [exact A|]. intros f N. rewrite B by exact N. apply O1, Hk, N. }
        intros t res (A & B & D). rewrite Eall in B, D. split; [exact A|].
        split; [intros f N; rewrite B by exact N; apply O1, Hk, N|].
        destruct D as [(-> & As2 & D)|(-> & pre & k' & post & Ek & Nok & D1 & D2)].
        -- left. split; [unfold done'; rewrite <- app_assoc; reflexivity|]. split; [|exact D].
           intros [X|X]; [apply As1, X|apply As2, X].
        -- right. split; [reflexivity|]. exists (k :: pre), k', post. simpl. rewrite Ek. split; [reflexivity|].
           assert (k' <> k) as Nk'. { intros ->. apply Nk, in_or_app. right. rewrite Ek. apply in_or_app. right; left; reflexivity. }
           split; [|split].
           ++ intros (X1 & X2 & X3 & X4). apply Nok. split; [exact X1|]. split; [exact X2|]. split; [exact X3|].
              intros Hx. specialize (X4 Hx). unfold root_is in *. rewrite O1; [exact X4|exact Nk'].
           ++ intros f Hf. apply D1. rewrite Ed, <- app_assoc. exact Hf.
           ++ intros f Hf. rewrite D2 by exact Hf. apply O1. intros ->. apply Nk, in_or_app. right. rewrite Ek.
              apply in_or_app. right; right; exact Hf.
      * split; [exact Q1|]. split.
        { intros f N. rewrite R1. destruct (sin f (map fst done')) eqn:Sf; [|reflexivity]. exfalso. apply sin_In in Sf.
          apply N. rewrite Ed in Sf. apply in_app_or in Sf. apply in_or_app.
          destruct Sf as [Sf|[<-|[]]]; [left; exact Sf|right; left; reflexivity]. }
        right. split; [reflexivity|]. exists [], k, (keysof l). split; [reflexivity|]. split; [exact Nok|]. split.
        -- intros f Hf. unfold root_is. rewrite R1. simpl in Hf. rewrite <- Ed in Hf. rewrite (proj2 (sin_In _ _) Hf). reflexivity.
        -- intros f Hf. rewrite R1. destruct (sin f (map fst done')) eqn:Sf; [|reflexivity]. exfalso. apply sin_In in Sf.
           rewrite Ed in Sf. apply in_app_or in Sf. destruct Sf as [Sf|[<-|[]]].
           ++ revert ND Sf. clear -Hf. generalize (map fst done). induction l0 as [|y l0 IH0]; simpl; intros ND Sf; [destruct Sf|].
              inversion ND; subst. destruct Sf as [->|Sf]; [|auto]. apply H1, in_or_app. right; right; exact Hf.
           ++ apply NoDup_remove_2 in ND. apply ND, in_or_app. right; exact Hf.
Qed.

(** ** moving the finished files into place *)
Definition moved (txt : string) (r : string) (s : state) (l : list (string * string)) (t : state) : Prop :=
  (forall k v, In (k, v) l -> root_is r k None t /\ root_is r v (Some (tval txt k)) t) /\
  (forall f, ~ In f (map fst l ++ map snd l) -> f_root (st_fs t) r f = f_root (st_fs s) r f).

Definition rename_st (r k v : string) (s : state) : state :=
  on_fs (fun f => fs_set_root (fs_set_root f r v (f_root f r k)) r k None) s.
Lemma rename_quiet r s0 s k v : quiet_root r s0 s -> quiet_root r s0 (rename_st r k v s).
Proof.
  intros [A1 A2 A3 A4 A5 A6 A7]. constructor; auto; [destruct A2; constructor; assumption|].
  intros x N. simpl. rewrite !fupd_ne by exact N. auto.
Qed.
Lemma rename_get r k v s f : f_root (st_fs (rename_st r k v s)) r f =
  if seqb f k then None else if seqb f v then f_root (st_fs s) r k else f_root (st_fs s) r f.
Proof. simpl. rewrite !fupd_eq. unfold fupd. reflexivity. Qed.

(* some prefix has been moved, the rest is untouched *)
Definition partly (txt r : string) (s0 s : state) (l : list (string * string)) (t : state) : Prop :=
  quiet_root r s0 t /\ exists a b, l = a ++ b /\ moved txt r s a t.

Lemma wp_renames o txt r s0 l : forall s,
  quiet_root r s0 s -> NoDup (map fst l ++ map snd l) ->
  (forall k v, In (k, v) l -> root_is r k (Some (tval txt k)) s) ->
  wp (forM l (fun kv => rename o r (fst kv) (snd kv))) (partly txt r s0 s l)
     (fun t res => quiet_root r s0 t /\
        ((res = Ok tt /\ moved txt r s l t) \/
         (res = Err /\ (exists k v, In (k, v) l /\ o_rfail o k = true) /\ exists a b, l = a ++ b /\ moved txt r s a t))) s.
Proof.
  induction l as [|[k v] l IH]; intros s Q ND Hk; simpl.
  - apply wp_ret. split; [exact Q|]. left. split; [reflexivity|]. split; [intros ? ? []|reflexivity].
  - simpl in ND. unfold rename at 1, root_get. apply wp_bind, wp_bind_gets. cbn [fst snd].
    pose proof (Hk k v (or_introl eq_refl)) as Ek. unfold root_is in Ek. rewrite Ek.
    destruct (o_rfail o k) eqn:F.
    + apply wp_err. split; [exact Q|]. right. split; [reflexivity|]. split; [exists k, v; split; [left; reflexivity|exact F]|].
      exists [], ((k, v) :: l). split; [reflexivity|]. split; [intros ? ? []|reflexivity].
    + change (on_fs (fun f => fs_set_root (fs_set_root f r v (f_root f r k)) r k None)) with (rename_st r k v).
      inversion ND as [|? ? Nk ND1]; subst.
      assert (Nv : ~ In v (map fst l ++ map snd l)) by (apply NoDup_remove_2 in ND1; exact ND1).
      assert (ND2 : NoDup (map fst l ++ map snd l)) by (apply NoDup_remove_1 in ND1; exact ND1).
      assert (Nkv : k <> v). { intros ->. apply Nk, in_or_app. right; left; reflexivity. }
      assert (Nkl : ~ In k (map fst l ++ map snd l)).
      { intros X. apply Nk. apply in_app_or in X. apply in_or_app. destruct X; [left|right; right]; assumption. }
      set (s1 := rename_st r k v s).
      assert (Q1 : quiet_root r s0 s1) by apply rename_quiet, Q.
      assert (G1 : forall f, f_root (st_fs s1) r f = if seqb f k then None else if seqb f v then Some (tval txt k) else f_root (st_fs s) r f).
      { intros f. unfold s1. rewrite rename_get, Ek. reflexivity. }
      assert (M1 : forall a t, (forall x, In x a -> In x l) -> moved txt r s1 a t -> moved txt r s ((k, v) :: a) t).
      { intros a t Ha [X1 X2].
        assert (Na : forall z, ~ In z (map fst l ++ map snd l) -> ~ In z (map fst a ++ map snd a)).
        { intros z Nz Hz. apply Nz. apply in_app_or in Hz. apply in_or_app.
          destruct Hz as [Hz|Hz]; [left|right]; apply in_map_iff in Hz; destruct Hz as (y & <- & Hy); apply in_map, Ha, Hy. }
        split.
        - intros k0 v0 [E0|Hin]; [injection E0 as <- <-|apply X1, Hin]. unfold root_is.
          rewrite X2 by (apply Na, Nkl). rewrite X2 by (apply Na, Nv). rewrite !G1, seqb_refl.
          split; [reflexivity|]. rewrite seqb_refl. destruct (seqb_spec v k); [congruence|reflexivity].
        - intros f N. simpl in N. rewrite X2.
          + rewrite G1. destruct (seqb_spec f k) as [->|N1]; [exfalso; apply N; left; reflexivity|].
            destruct (seqb_spec f v) as [->|N2]; [exfalso; apply N; right; apply in_or_app; right; left; reflexivity|reflexivity].
          + intros X. apply N. right. apply in_app_or in X. apply in_or_app. destruct X; [left|right; right]; assumption. }
      apply wp_durable.
      { split; [exact Q1|]. exists [(k, v)], l. split; [reflexivity|]. apply M1; [intros x []|]. split; [intros ? ? []|reflexivity]. }
      eapply wp_mono.
      { apply (IH s1 Q1 ND2). intros k0 v0 Hin. unfold root_is. rewrite G1.
        assert (In k0 (map fst l)) by (apply (in_map fst) in Hin; exact Hin).
        destruct (seqb_spec k0 k) as [->|]; [exfalso; apply Nkl, in_or_app; left; assumption|].
        destruct (seqb_spec k0 v) as [->|]; [exfalso; apply Nv, in_or_app; left; assumption|].
        apply (Hk k0 v0). right; exact Hin. }
      { intros t (A & a & b & -> & B). split; [exact A|]. exists ((k, v) :: a), b. split; [reflexivity|].
        apply M1; [intros x Hx; apply in_or_app; left; exact Hx|exact B]. }
      intros t res (A & [(-> & B)|(-> & (k0 & v0 & H0 & F0) & a & b & -> & B)]).
      * split; [exact A|]. left. split; [reflexivity|]. apply M1; auto.
      * split; [exact A|]. right. split; [reflexivity|]. split; [exists k0, v0; split; [right; exact H0|exact F0]|].
        exists ((k, v) :: a), b. split; [reflexivity|]. apply M1; [intros x Hx; apply in_or_app; left; exact Hx|exact B].
Qed.

(** ** the whole run *)
Definition index_ready (o : oracle) (s : state) (r : string) : Prop :=
  (forall k, In k temps -> o_fail o k = false /\ o_rfail o k = false) /\ o_purge o = Ok tt /\
  assets_ok E s r = true.

Lemma keys_stages o r dist : keysof (index_stages E o r dist) = temps.
Proof. reflexivity. Qed.
Lemma pairs_stages o r dist : map fst (index_stages E o r dist) = index_pairs.
Proof. reflexivity. Qed.

Definition new_or_old (r : string) (txt : option string) (s t : state) : Prop :=
  forall k v, In (k, v) index_pairs ->
    f_root (st_fs t) r v = f_root (st_fs s) r v \/
    (exists x, txt = Some x /\ f_root (st_fs t) r v = Some (tval x k)).
Definition others_same (r : string) (s t : state) : Prop :=
  forall f, ~ In f (temps ++ map snd index_pairs) -> f_root (st_fs t) r f = f_root (st_fs s) r f.
Definition run_text (s : state) (r : string) : option string :=
  match dist_of s r with
  | Ok dist => if assets_ok E s r then Some (index_text s r dist) else None
  | _ => None
  end.

Lemma perm_nodup_pairs l : Permutation l index_pairs -> NoDup (map fst l ++ map snd l).
Proof.
  intros P. eapply Permutation_NoDup; [|apply pairs_nodup]. unfold temps.
  apply Permutation_app; apply Permutation_map, Permutation_sym, P.
Qed.
Lemma pair_fun l k v v' : NoDup (map fst l ++ map snd l) -> In (k, v) l -> In (k, v') l -> (v : string) = v'.
Proof.
  intros ND. apply nodup_app in ND. destruct ND as [ND _]. induction l as [|[a b] l IH]; intros H1 H2; [destruct H1|].
  simpl in ND. inversion ND as [|? ? Na ND']; subst. destruct H1 as [H1|H1], H2 as [H2|H2].
  - congruence.
  - injection H1 as -> ->. exfalso. apply Na. apply (in_map fst) in H2. exact H2.
  - injection H2 as -> ->. exfalso. apply Na. apply (in_map fst) in H1. exact H1.
  - auto.
Qed.
Lemma pair_dec (x y : string * string) : {x = y} + {x <> y}.
Proof. decide equality; apply string_dec. Defined.
Lemma moved_new_or_old txt r s a b t :
  Permutation (a ++ b) index_pairs -> moved txt r s a t -> new_or_old r (Some txt) s t.
Proof.
  intros P [M1 M2] k v Hin. pose proof (perm_nodup_pairs _ P) as ND.
  destruct (in_dec pair_dec (k, v) a) as [Ha|Ha].
  - right. exists txt. split; [reflexivity|]. apply (M1 k v Ha).
  - left. apply M2. intros Hv. apply (Permutation_in _ (Permutation_sym P)) in Hin. apply in_app_or in Hin.
    destruct Hin as [Hin|Hin]; [contradiction|].
    rewrite !map_app in ND. apply in_app_or in Hv. destruct Hv as [Hv|Hv].
    + (* v is a temp name: impossible *)
      clear -ND Hv Hin. apply (in_map snd) in Hin. simpl in Hin.
      assert (X : In v (map fst a ++ map fst b)) by (apply in_or_app; left; exact Hv).
      assert (Y : In v (map snd a ++ map snd b)) by (apply in_or_app; right; exact Hin).
      revert ND X Y. generalize (map fst a ++ map fst b) (map snd a ++ map snd b). clear.
      induction l as [|x l IH]; intros l' ND X Y; [destruct X|]. simpl in ND. inversion ND; subst.
      destruct X as [->|X]; [apply H1, in_or_app; right; exact Y|eauto].
    + (* two pairs with the same target *)
      apply nodup_app in ND. destruct ND as [_ ND]. apply (in_map snd) in Hin. simpl in Hin.
      clear -ND Hv Hin. revert ND Hv. generalize (map snd a). induction l as [|x l IH]; intros ND Hv; [destruct Hv|].
      simpl in ND. inversion ND; subst. destruct Hv as [->|Hv]; [apply H1, in_or_app; right; exact Hin|auto].
Qed.
Lemma moved_others txt r s a b t :
  Permutation (a ++ b) index_pairs -> moved txt r s a t -> others_same r s t.
Proof.
  intros P [M1 M2] f N. apply M2. intros X. apply N. unfold temps.
  assert (Hs : forall x, In x a -> In x index_pairs) by (intros x Hx; eapply Permutation_in; [exact P|apply in_or_app; left; exact Hx]).
  apply in_app_or in X. apply in_or_app.
  destruct X as [X|X]; [left|right]; apply in_map_iff in X; destruct X as (y & <- & Hy); apply in_map, Hs, Hy.
Qed.
Lemma pub_not_temp v : In v (map snd index_pairs) -> ~ In v temps.
Proof.
  intros Hv Ht. pose proof pairs_nodup as ND. revert ND Ht. generalize temps.
  induction l as [|x l IH]; intros ND Ht; [destruct Ht|]. simpl in ND. inversion ND; subst.
  destruct Ht as [->|Ht]; [apply H1, in_or_app; right; exact Hv|auto].
Qed.
Lemma mid_new_or_old r txt s t :
  (forall f, ~ In f temps -> f_root (st_fs t) r f = f_root (st_fs s) r f) -> new_or_old r txt s t /\ others_same r s t.
Proof.
  intros H. split.
  - intros k v Hin. left. apply H, pub_not_temp. apply (in_map snd) in Hin. exact Hin.
  - intros f N. apply H. intros X. apply N, in_or_app. left; exact X.
Qed.
Lemma new_or_old_trans r x s s1 t :
  (forall f, ~ In f temps -> f_root (st_fs s1) r f = f_root (st_fs s) r f) -> new_or_old r x s1 t -> new_or_old r x s t.
Proof.
  intros H N k v Hin. destruct (N k v Hin) as [E0|E0]; [|right; exact E0]. left. rewrite E0.
  apply H, pub_not_temp. apply (in_map snd) in Hin. exact Hin.
Qed.

Record index_done (r txt : string) (s t : state) : Prop := {
  id_new : forall k v, In (k, v) index_pairs -> root_is r v (Some (tval txt k)) t;
  id_temp : forall k, In k temps -> root_is r k None t
}.

Lemma wp_index ex fz o r s :
  Inv ex fz [] s -> good_oracle o ->
  wp (index E o r) (fun t => quiet_root r s t /\ new_or_old r (run_text s r) s t /\ others_same r s t)
     (fun t res => quiet_root r s t /\ new_or_old r (run_text s r) s t /\ others_same r s t /\ res <> Panic /\
        (res = Ok tt -> exists txt, run_text s r = Some txt /\ assets_ok E s r = true /\ index_done r txt s t) /\
        (index_ready o s r -> forall txt, run_text s r = Some txt ->
           txt <> "" -> E_xz E txt <> "" -> E_zst E txt <> "" ->
           (root_is r t_xz None s -> root_is r t_zst None s -> res = Ok tt) /\
           (res = Err -> root_is r t_xz None t /\ (root_is r t_xz None s -> root_is r t_zst None t)))) s.
Proof.
  intros H Ho. unfold index. unfold run_text. destruct (dist_of s r) as [dist| |] eqn:Hdist.
  3:{ unfold dist_of in Hdist. destruct (f_asset _ _ _); [destruct (E_dist E s0)|]; discriminate. }
  2:{ apply wp_bind. unfold wp. rewrite init_dist_eq, Hdist. split; [constructor|].
      simpl. split; [apply quiet_root_refl|]. split; [intros k v _; left; reflexivity|].
      split; [intros f _; reflexivity|]. split; [discriminate|]. split; [discriminate|]. intros _ txt X. discriminate. }
  eapply wp_bind_read; [rewrite init_dist_eq, Hdist; reflexivity|].
  set (txt := index_text s r dist). set (rt := if assets_ok E s r then Some txt else None).
  assert (NDt : NoDup temps) by apply (nodup_app _ _ pairs_nodup).
  apply wp_bind. eapply wp_mono.
  { apply (wp_run_stages o r txt s (index_stages E o r dist) [] s (quiet_root_refl r s)).
    - apply (stages_ok ex fz), H.
    - rewrite keys_stages. exact NDt.
    - intros p []. }
  { change (map fst (@nil (string * string)) ++ keysof (index_stages E o r dist)) with temps. intros t (A & B). split; [exact A|]. apply mid_new_or_old, B. }
  change (map fst (@nil (string * string)) ++ keysof (index_stages E o r dist)) with temps.
  change ([] ++ map fst (index_stages E o r dist)) with index_pairs.
  change (keysof (index_stages E o r dist)) with temps.
  intros s1 res (Q1 & B1 & [(-> & As & D)|(-> & pre & k & post & Ek & Nok & D1 & D2)]).
  2:{ split; [exact Q1|]. destruct (mid_new_or_old r rt s s1 B1) as [N1 O1].
      split; [exact N1|]. split; [exact O1|]. split; [discriminate|]. split; [discriminate|].
      intros (R1 & R2 & R3) txt' X Z1 Z2 Z3. unfold rt in X. rewrite R3 in X. injection X as <-.
      assert (D1' : forall f, In f (pre ++ [k]) -> root_is r f None s1) by exact D1. clear D1. rename D1' into D1.
      assert (Hkt : In k temps) by (rewrite Ek; apply in_or_app; right; left; reflexivity).
      assert (Hk : k = t_xz /\ f_root (st_fs s) r t_xz <> None \/ k = t_zst /\ f_root (st_fs s) r t_zst <> None).
      { destruct (string_dec k t_xz) as [->|Nx]; [|destruct (string_dec k t_zst) as [->|Nz]].
        - left. split; [reflexivity|]. intros Hn. apply Nok. split; [apply (R1 t_xz Hkt)|]. split; [auto|].
          split; [auto|]. intros _. exact Hn.
        - right. split; [reflexivity|]. intros Hn. apply Nok. split; [apply (R1 t_zst Hkt)|]. split; [auto|].
          split; [auto|]. intros _. exact Hn.
        - exfalso. apply Nok. split; [apply (R1 k Hkt)|]. split; [auto|]. split; [auto|]. intros [->| ->]; congruence. }
      split; [unfold root_is; intros Y1 Y2; destruct Hk as [[_ Hk]|[_ Hk]]; congruence|].
      intros _. destruct Hk as [[-> Hk]|[-> Hk]].
      - split; [|unfold root_is; intros; congruence]. apply D1. apply in_or_app. right; left; reflexivity.
      - split; [|intros _; apply D1; apply in_or_app; right; left; reflexivity].
        apply D1. apply in_or_app. left.
        assert (Ep : pre = firstn 6 temps).
        { clear -Ek NDt.
          assert (X : temps = firstn 6 temps ++ t_zst :: skipn 7 temps) by reflexivity.
          rewrite X in NDt. rewrite X in Ek. clear X. revert Ek NDt. generalize (firstn 6 temps) (skipn 7 temps).
          intros a. revert pre. induction a as [|x a IH]; intros pre l0 Ek ND.
          - destruct pre as [|y pre]; [reflexivity|]. simpl in Ek. injection Ek as E1 E2. exfalso.
            simpl in ND. inversion ND; subst. apply H1, in_or_app. right; left; reflexivity.
          - destruct pre as [|y pre].
            + simpl in Ek. injection Ek as E1 E2. simpl in ND. inversion ND; subst. exfalso.
              apply H1, in_or_app. right; left; reflexivity.
            + simpl in Ek. injection Ek as E1 E2. simpl in ND. inversion ND; subst. f_equal. eapply IH; eauto. }
        rewrite Ep. simpl. tauto. }
  specialize (As (or_introl eq_refl)). assert (Ert : rt = Some txt) by (unfold rt; rewrite As; reflexivity). rewrite Ert. clearbody rt.
  set (l := o_order o index_pairs).
  assert (Pl : Permutation l index_pairs) by apply (go_order _ Ho).
  pose proof (perm_nodup_pairs l Pl) as NDl.
  assert (Rn : forall k v, In (k, v) l -> root_is r k (Some (tval txt k)) s1).
  { intros k v Hin. apply D. exact (in_map fst index_pairs (k, v) (Permutation_in _ Pl Hin)). }
  assert (Back : forall a b t, l = a ++ b -> moved txt r s1 a t -> new_or_old r (Some txt) s t /\ others_same r s t).
  { intros a b t El Mv. assert (Pab : Permutation (a ++ b) index_pairs) by (rewrite <- El; exact Pl).
    split; [eapply new_or_old_trans; [exact B1|eapply moved_new_or_old; eauto]|].
    intros f N. rewrite (moved_others _ _ _ _ _ _ Pab Mv f N). apply B1. intros X; apply N, in_or_app; left; exact X. }
  (* renames, cache purge, cleanup *)
  assert (W : wp (forM l (fun kv => rename o r (fst kv) (snd kv)) ;;; lift (o_purge o))
     (partly txt r s s1 l)
     (fun t res => quiet_root r s t /\
        ((res = Ok tt /\ moved txt r s1 l t) \/
         (res = Err /\ ((exists k v, In (k, v) l /\ o_rfail o k = true) \/ o_purge o = Err) /\ exists a b, l = a ++ b /\ moved txt r s1 a t))) s1).
  { apply wp_bind. eapply wp_post; [apply (wp_renames o txt r s l s1 Q1 NDl Rn)|].
    intros t res (A & [(-> & B)|(-> & F & a & b & El & B)]).
    - destruct (o_purge o) as [[]| |] eqn:Pg; [apply wp_ret|apply wp_err|destruct (go_purge _ Ho Pg)]; split; auto.
      right. split; [reflexivity|]. split; [right; reflexivity|]. exists l, []. rewrite app_nil_r. auto.
    - split; [exact A|]. right. split; [reflexivity|]. split; [left; exact F|]. exists a, b. auto. }
  unfold wp in W |- *. unfold on_err.
  destruct ((forM l (fun kv => rename o r (fst kv) (snd kv)) ;;; lift (o_purge o)) s1) as [[t2 s2] r2].
  unfold trace_of, final_of, result_of in *. cbn [fst snd] in W |- *. destruct W as (W1 & Q2 & W2).
  assert (F2 : Forall (fun t => quiet_root r s t /\ new_or_old r (Some txt) s t /\ others_same r s t) t2).
  { eapply Forall_impl; [|exact W1]. intros t (A & a & b & El & Mv). split; [exact A|]. eapply Back; eauto. }
  destruct W2 as [(-> & Mv)|(-> & Why & a & b & El & Mv)]; cbn [fst snd].
  - split; [exact F2|]. split; [exact Q2|].
    destruct (Back l [] s2 ltac:(rewrite app_nil_r; reflexivity) Mv) as [X1 X2].
    split; [exact X1|]. split; [exact X2|]. split; [discriminate|].
    destruct Mv as [M1 M2].
    split.
    + intros _. exists txt. split; [reflexivity|]. split; [exact As|]. constructor.
      * intros k v Hin. apply (M1 k v). apply (Permutation_in _ (Permutation_sym Pl)), Hin.
      * intros k Hk. apply in_map_iff in Hk. destruct Hk as ([k' v] & <- & Hin). apply (M1 k' v).
        apply (Permutation_in _ (Permutation_sym Pl)), Hin.
    + intros _ txt' _ _ _ _. split; [reflexivity|discriminate].
  - pose proof (wp_remove_all r s temps s2 Q2) as W. unfold wp in W.
    unfold trace_of, final_of, result_of in W.
    change (map fst index_pairs) with temps.
    destruct (remove_all r temps s2) as [[t3 s3] r3]. cbn [fst snd] in W |- *. destruct W as (W3 & -> & Q3 & W4).
    destruct (Back a b s2 El Mv) as [X1 X2].
    assert (Nt : forall t, (forall f, ~ In f temps -> f_root (st_fs t) r f = f_root (st_fs s2) r f) ->
        new_or_old r (Some txt) s t /\ others_same r s t).
    { intros t Ht. split.
      - intros k v Hin. rewrite Ht; [apply X1, Hin|]. apply pub_not_temp. apply (in_map snd) in Hin. exact Hin.
      - intros f N. rewrite Ht; [apply X2, N|]. intros Y; apply N, in_or_app; left; exact Y. }
    split.
    { apply Forall_app. split; [exact F2|]. eapply Forall_impl; [|exact W3]. intros t (A & B). split; [exact A|]. apply Nt, B. }
    assert (N3 : forall f, ~ In f temps -> f_root (st_fs s3) r f = f_root (st_fs s2) r f).
    { intros f N. rewrite W4. apply sin_not_In in N. rewrite N. reflexivity. }
    split; [exact Q3|]. split; [apply (Nt s3 N3)|]. split; [apply (Nt s3 N3)|]. split; [discriminate|]. split; [discriminate|].
    intros (R1 & R2 & R3) txt' X _ _ _. exfalso.
    destruct Why as [(k & v & Hin & F)|F]; [|congruence].
    assert (In k temps) as Hk by (apply (in_map fst) in Hin; eapply Permutation_in; [apply Permutation_map, Pl|exact Hin]).
    destruct (R1 k Hk). congruence.
Qed.
End Ops.
