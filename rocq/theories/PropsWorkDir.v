(** * PropsWorkDir: property C104 - producing a delta is all or nothing *)
From Verif Require Import Model.
From Verif Require Import Base Paths PathFacts LibDb Jobs Dispatch DeltaProd PropsDispatch PropsDelta RepoDirs PropsRepoDirs WorkDir.
Open Scope string_scope. Open Scope list_scope.

(** ** Specification *)
(** no step fails *)
Definition good_tools (bad : string -> bool) : Prop := forall what, bad what = false.
(** a hard link from the work directory to the staging area can be made *)
Definition can_link (bad : string -> bool) : Prop := bad "link" = false.
(** the work directory can be removed *)
Definition can_clean (bad : string -> bool) : Prop := bad "rmdir" = false /\ forall n, bad ("remove " ++ n)%string = false.
(** left over from a killed production: the unpacked tarball of the new package
    or the compressed one of the delta, which xz will not overwrite *)
Definition in_the_way (w : work) : Prop := w_get "install.tar" w <> None \/ w_get "delta-eopkg.install.tar.xz" w <> None.
(** the delta has files of its own (otherwise no tarball is made) *)
Definition has_files (old new : eopkg) : Prop := diff_map old new <> [].
(** [name] is not the name of a temporary file: so for every delta, see
    [C104_names] *)
Definition delta_file (name : string) : Prop := has_suffix ".delta.eopkg" name = true.

(** ** Proofs *)
Definition wp {A} (m : W A) (C : work -> Prop) (Q : work -> res A -> Prop) (w : work) : Prop :=
  Forall C (wtrace (m w)) /\ Q (wfinal (m w)) (wresult (m w)).
Lemma wp_mono {A} (m : W A) (C : work -> Prop) (Q Q' : work -> res A -> Prop) w :
  (forall w' r, Q w' r -> Q' w' r) -> wp m C Q w -> wp m C Q' w.
Proof. intros H [T X]. split; [exact T|apply H, X]. Qed.
Lemma wp_bind {A B} (m : W A) (k : A -> W B) C (Q : work -> res B -> Prop) w :
  wp m C (fun w1 r => match r with Ok a => wp (k a) C Q w1 | Err => Q w1 Err | Panic => Q w1 Panic end) w -> wp (wbind m k) C Q w.
Proof.
  intros [T X]. unfold wp, wbind, wtrace, wfinal, wresult in *. destruct (m w) as [[t w1] [a| |]]; cbn [fst snd] in *; [|split; assumption..].
  destruct X as [T2 X]. destruct (k a w1) as [[t2 w2] r]. cbn [fst snd] in *. split; [apply Forall_app; auto|exact X].
Qed.
Lemma wp_defer {A} (m : W A) d C (Q : work -> res A -> Prop) w :
  wp m C (fun w1 r => wp (d r) C (fun w2 _ => Q w2 r) w1) w -> wp (wdefer m d) C Q w.
Proof.
  intros [T X]. unfold wp, wdefer, wtrace, wfinal, wresult in *. destruct (m w) as [[t w1] r]; cbn [fst snd] in *.
  destruct X as [T2 X]. destruct (d r w1) as [[t2 w2] r2]. cbn [fst snd] in *. split; [apply Forall_app; auto|exact X].
Qed.
Lemma wp_ret {A} (a : A) C (Q : work -> res A -> Prop) w : Q w (Ok a) -> wp (wret a) C Q w.
Proof. intros H. split; [constructor|exact H]. Qed.
Lemma wp_err {A} C (Q : work -> res A -> Prop) w : Q w Err -> wp werr C Q w.
Proof. intros H. split; [constructor|exact H]. Qed.
Lemma wp_panic {A} C (Q : work -> res A -> Prop) w : Q w Panic -> wp wpanic C Q w.
Proof. intros H. split; [constructor|exact H]. Qed.
Lemma wp_get {A} (f : work -> A) C (Q : work -> res A -> Prop) w : Q w (Ok (f w)) -> wp (wget f) C Q w.
Proof. intros H. split; [constructor|exact H]. Qed.
Lemma wp_step f (C : work -> Prop) (Q : work -> res unit -> Prop) w : C (f w) -> Q (f w) (Ok tt) -> wp (wstep f) C Q w.
Proof. intros H H'. split; [repeat constructor; exact H|exact H']. Qed.

Lemma lookup_without n m l : lookup n (without m l) = if seqb n m then None else lookup n l.
Proof.
  induction l as [|[x d] l IH]; cbn [lookup without filter fst]; [destruct (seqb n m); reflexivity|].
  unfold without in *. destruct (seqb_spec m x) as [->|N]; cbn [negb lookup].
  - rewrite IH. destruct (seqb n x); reflexivity.
  - rewrite IH. destruct (seqb_spec n x) as [->|N']; [|reflexivity]. destruct (seqb_spec x m); [congruence|reflexivity].
Qed.
Lemma get_put n m d w : w_get n (w_put m d w) = if seqb n m then Some d else w_get n w.
Proof. unfold w_get, w_put, w_files at 1. cbn [w_dir lookup]. rewrite lookup_without. destruct (seqb n m); reflexivity. Qed.
Lemma get_rm n m w : w_get n (w_rm m w) = if seqb n m then None else w_get n w.
Proof. unfold w_get, w_rm, w_files. cbn [w_dir]. destruct (w_dir w); [apply lookup_without|destruct (seqb n m); reflexivity]. Qed.

Section Proofs.
Variable bad : string -> bool.
Lemma wp_may what C (Q : work -> res unit -> Prop) w : (bad what = false -> Q w (Ok tt)) -> (bad what = true -> Q w Err) -> wp (may_fail bad what) C Q w.
Proof. intros A B. unfold may_fail. destruct (bad what); [apply wp_err; auto|apply wp_ret; auto]. Qed.

Variable s0 : option wdata.
Definition still (w : work) : Prop := w_stage w = s0.

Ltac st := first [assumption | reflexivity].
Lemma wp_write what n d (Q : work -> res unit -> Prop) w : still w ->
  (forall w', still w' -> (forall m, m <> n -> w_get m w' = w_get m w) -> ~ good_tools bad -> Q w' Err) ->
  (forall w', still w' -> (forall m, w_get m w' = if seqb m n then Some d else w_get m w) -> Q w' (Ok tt)) ->
  wp (write_file bad what n d) still Q w.
Proof.
  intros Sw HE HO. unfold write_file. apply wp_bind, wp_may; intros B1.
  2:{ apply HE; [exact Sw|reflexivity|]. intros G. rewrite G in B1. discriminate. }
  apply wp_bind, wp_step; [exact Sw|]. apply wp_bind, wp_may; intros B2.
  2:{ apply HE; [exact Sw| |intros G; rewrite G in B2; discriminate]. intros m N. rewrite get_put. apply seqb_neq in N. rewrite N. reflexivity. }
  apply wp_step; [exact Sw|]. apply HO; [exact Sw|]. intros m. rewrite !get_put. destruct (seqb m n); reflexivity.
Qed.
Lemma wp_convert what n out f (Q : work -> res unit -> Prop) w : still w -> n <> out ->
  (forall w', still w' -> (good_tools bad -> match w_get n w with Some d => f d = None | None => True end \/ w_get out w <> None) -> Q w' Err) ->
  (forall w' d d', still w' -> w_get n w = Some d -> f d = Some d' -> w_get out w = None ->
     (forall m, w_get m w' = if seqb m n then None else if seqb m out then Some d' else w_get m w) -> Q w' (Ok tt)) ->
  wp (convert bad what n out f) still Q w.
Proof.
  intros Sw N HE HO. unfold convert. apply wp_bind, wp_get. apply wp_bind, wp_get.
  destruct (w_get n w) as [d|] eqn:Gn; [|apply wp_err, HE; [exact Sw|left; exact Logic.I]].
  destruct (w_get out w) as [x|] eqn:Go; [apply wp_err, HE; [exact Sw|right; discriminate]|].
  destruct (f d) as [d'|] eqn:Fd; [|apply wp_err, HE; [exact Sw|left; reflexivity]].
  apply wp_bind, wp_may; intros B; [|apply HE; [exact Sw|intros G; rewrite G in B; discriminate]].
  apply wp_bind, wp_step; [exact Sw|]. apply wp_bind, wp_step; [exact Sw|]. apply wp_step; [exact Sw|].
  eapply HO; [exact Sw|reflexivity|exact Fd|reflexivity|]. intros m. rewrite get_rm, !get_put. destruct (seqb m n); [reflexivity|]. destruct (seqb m out); reflexivity.
Qed.

Variable old new : eopkg.
Let diff := diff_map old new.
Definition blocked (w : work) : Prop := w_get f_new w <> None \/ w_get f_ballxz w <> None.

Lemma wp_ball w : still w ->
  wp (produce_ball bad old new) still (fun w' r => still w' /\
     match r with
     | Ok BPointless => Nat.eqb (List.length diff) (List.length (k_files new)) = true
     | Ok BNone => Nat.eqb (List.length diff) (List.length (k_files new)) = false /\ diff = []
     | Ok BFile => Nat.eqb (List.length diff) (List.length (k_files new)) = false /\ diff <> [] /\ ~ blocked w /\
         exists b, copy_install_partial diff new = Some b /\ w_get f_ballxz w' = Some (WXz b)
     | Err => Nat.eqb (List.length diff) (List.length (k_files new)) = false /\ diff <> [] /\
         (good_tools bad -> copy_install_partial diff new = None \/ blocked w)
     | Panic => False
     end) w.
Proof.
  intros Sw. unfold produce_ball. fold diff.
  destruct (Nat.eqb (List.length diff) (List.length (k_files new))); [apply wp_ret; split; [exact Sw|reflexivity]|].
  assert (D : diff = [] \/ diff <> []) by (destruct diff; [left; reflexivity|right; discriminate]).
  destruct D as [D|D]; [rewrite D; apply wp_ret; auto|].
  match goal with |- wp (match diff with [] => _ | _ :: _ => ?m end) _ _ _ => replace (match diff with [] => _ | _ :: _ => m end) with m by (destruct diff; [congruence|reflexivity]) end.
  assert (Fail : forall w', still w' -> (good_tools bad -> copy_install_partial diff new = None \/ blocked w) ->
     still w' /\ false = false /\ diff <> [] /\ (good_tools bad -> copy_install_partial diff new = None \/ blocked w)) by auto.
  apply wp_bind, wp_may; intros B1; [|apply Fail; [exact Sw|intros G; rewrite G in B1; discriminate]].
  apply wp_bind, wp_step; [exact Sw|]. set (w1 := w_put f_ball WTorn w). unfold copy_partial, extract_tarball.
  apply wp_bind, wp_bind. unfold copy_install_partial in *. change f_newxz with "install.tar.xz" at 1.
  destruct (find_file new "install.tar.xz") as [z|] eqn:Ff; [|apply wp_err, Fail; [exact Sw|auto]].
  apply wp_bind. apply wp_write; [exact Sw| |].
  { intros w2 S2 _ NG. apply Fail; [exact S2|contradiction]. }
  intros w2 S2 G2. apply wp_convert; [exact S2|discriminate| |].
  { intros w3 S3 H. apply Fail; [exact S3|]. intros G. specialize (H G). rewrite !G2 in H.
    change (seqb f_newxz f_newxz) with true in H. change (seqb f_new f_newxz) with false in H. cbn iota in H.
    unfold w1 in H. rewrite get_put in H. change (seqb f_new f_ball) with false in H. cbn iota in H.
    destruct H as [H|H]; [|right; left; exact H]. left. destruct z; cbn in H; [reflexivity|discriminate]. }
  intros w3 d d' S3 Gd Fd Gn G3. rewrite G2 in Gd, Gn. change (seqb f_newxz f_newxz) with true in Gd. change (seqb f_new f_newxz) with false in Gn.
  cbn iota in Gd, Gn. injection Gd as <-. unfold w1 in Gn. rewrite get_put in Gn. change (seqb f_new f_ball) with false in Gn. cbn iota in Gn.
  destruct z as [|es]; [discriminate|]. cbn in Fd. injection Fd as <-.
  apply wp_bind, wp_get. rewrite G3. change (seqb f_new f_newxz) with false. change (seqb f_new f_new) with true. cbn iota.
  apply wp_bind, wp_may; intros B4; [|apply Fail; [exact S3|intros G; rewrite G in B4; discriminate]].
  apply wp_step; [exact S3|]. apply wp_bind. apply wp_convert; [exact S3|discriminate| |].
  { intros w4 S4 H. apply Fail; [exact S4|]. intros G. specialize (H G). rewrite !get_put in H.
    change (seqb f_ball f_ball) with true in H. change (seqb f_ballxz f_ball) with false in H. cbn iota in H.
    destruct H as [H|H]; [discriminate|]. rewrite G3 in H. change (seqb f_ballxz f_newxz) with false in H. change (seqb f_ballxz f_new) with false in H. cbn iota in H.
    rewrite G2 in H. change (seqb f_ballxz f_newxz) with false in H. cbn iota in H. unfold w1 in H. rewrite get_put in H.
    change (seqb f_ballxz f_ball) with false in H. cbn iota in H. right. right. exact H. }
  intros w4 d d' S4 Gd Fd Gx G4. rewrite get_put in Gd, Gx. change (seqb f_ball f_ball) with true in Gd. change (seqb f_ballxz f_ball) with false in Gx.
  cbn iota in Gd, Gx. injection Gd as <-. cbn in Fd. injection Fd as <-.
  rewrite G3 in Gx. change (seqb f_ballxz f_newxz) with false in Gx. change (seqb f_ballxz f_new) with false in Gx. cbn iota in Gx.
  rewrite G2 in Gx. change (seqb f_ballxz f_newxz) with false in Gx. cbn iota in Gx. unfold w1 in Gx. rewrite get_put in Gx.
  change (seqb f_ballxz f_ball) with false in Gx. cbn iota in Gx.
  apply wp_ret. split; [exact S4|]. split; [reflexivity|]. split; [exact D|]. split; [intros [X|X]; congruence|].
  eexists. split; [reflexivity|]. rewrite G4. reflexivity.
Qed.

Variable name : string.
Hypothesis Hname : delta_file name.
Lemma name_ballxz : seqb name f_ballxz = false.
Proof. apply seqb_neq. intros ->. discriminate. Qed.
Lemma ballxz_name : seqb f_ballxz name = false.
Proof. apply seqb_neq. intros <-. discriminate. Qed.
Lemma wp_commit w : still w ->
  wp (commit_delta bad name old new) still (fun w' r => still w' /\
     match r with
     | Ok None => commit old new = DPointless
     | Ok (Some _) => exists z, commit old new = DDelta z /\ w_get name w' = Some (WZip z) /\ ~ (diff <> [] /\ blocked w)
     | Err => commit old new <> DPointless /\ (good_tools bad -> commit old new = DFailed \/ (diff <> [] /\ blocked w))
     | Panic => False
     end) w.
Proof.
  intros Sw. unfold commit_delta. apply wp_bind. eapply wp_mono; [|apply wp_ball; exact Sw].
  assert (Cm : commit old new = if Nat.eqb (List.length diff) (List.length (k_files new)) then DPointless
     else match diff with [] => DDelta (copy_zip_partial new) | _ => match copy_install_partial diff new with
            | None => DFailed | Some b => DDelta (copy_zip_partial new ++ [ZEntry "install.tar.xz" (ZTar b)]) end end) by reflexivity.
  intros w1 r (S1 & H). destruct r as [[]| |]; [| | | |destruct H].
  - apply wp_ret. rewrite Cm, H. auto.
  - destruct H as [H1 H2]. rewrite H1, H2 in Cm. apply wp_defer. apply wp_bind, wp_may; intros B1.
    2:{ apply wp_ret. split; [exact S1|]. split; [congruence|]. intros G. rewrite G in B1. discriminate. }
    apply wp_bind, wp_step; [exact S1|]. apply wp_defer. cbn [push_ball]. apply wp_bind, wp_ret. apply wp_bind, wp_may; intros B2.
    2:{ apply wp_step; [exact S1|]. apply wp_ret. split; [exact S1|]. split; [congruence|]. intros G. rewrite G in B2. discriminate. }
    apply wp_bind, wp_step; [exact S1|]. apply wp_ret, wp_ret, wp_ret. split; [exact S1|]. exists (copy_zip_partial new). split; [exact Cm|].
    split; [rewrite get_put, seqb_refl, app_nil_r; reflexivity|]. rewrite H2. intros [X _]. congruence.
  - destruct H as (H1 & H2 & H3 & b & Hb & Gb). rewrite H1, Hb in Cm.
    assert (Cm' : commit old new = DDelta (copy_zip_partial new ++ [ZEntry "install.tar.xz" (ZTar b)])) by (rewrite Cm; destruct diff; [congruence|reflexivity]).
    apply wp_defer. apply wp_bind, wp_may; intros B1.
    2:{ apply wp_step; [exact S1|]. split; [exact S1|]. split; [congruence|]. intros G. rewrite G in B1. discriminate. }
    apply wp_bind, wp_step; [exact S1|]. apply wp_defer. cbn [push_ball]. apply wp_bind, wp_bind, wp_get.
    rewrite get_put, ballxz_name, Gb. apply wp_ret. apply wp_bind, wp_may; intros B2.
    2:{ apply wp_step; [exact S1|]. apply wp_step; [exact S1|]. split; [exact S1|]. split; [congruence|]. intros G. rewrite G in B2. discriminate. }
    apply wp_bind, wp_step; [exact S1|]. apply wp_ret, wp_ret, wp_step; [exact S1|]. split; [exact S1|]. eexists. split; [exact Cm'|].
    split; [rewrite get_rm, name_ballxz, get_put, seqb_refl; reflexivity|]. intros [_ X]. contradiction.
  - destruct H as (H1 & H2 & H3). rewrite H1 in Cm. split; [exact S1|]. split.
    + rewrite Cm. destruct diff; [congruence|]. destruct (copy_install_partial _ new); discriminate.
    + intros G. destruct (H3 G) as [X|X]; [|right; auto]. left. rewrite Cm, X. destruct diff; [congruence|reflexivity].
Qed.
Lemma wp_rmfiles (C : work -> Prop) l : forall w, (forall x w, C w -> C (w_rm x w)) -> C w ->
  wp (remove_files bad l) C (fun w' r => C w' /\ w_stage w' = w_stage w /\ (can_clean bad -> r = Ok tt)) w.
Proof.
  induction l as [|[n d] l IH]; intros w Cr Hw; [apply wp_ret; auto|]. cbn [remove_files].
  apply wp_bind, wp_may; intros B; [|split; [exact Hw|split; [reflexivity|]]; intros [_ G]; rewrite G in B; discriminate].
  apply wp_bind, wp_step; [apply Cr, Hw|]. eapply wp_mono; [|apply (IH (w_rm n w) Cr (Cr _ _ Hw))]. auto.
Qed.
Lemma wp_rmdir (C : work -> Prop) w : (forall x w, C w -> C (w_rm x w)) -> (forall w, C w -> C (Work None (w_stage w))) -> C w ->
  wp (remove_dir bad) C (fun w' _ => C w' /\ w_stage w' = w_stage w /\ (can_clean bad -> w_dir w' = None)) w.
Proof.
  intros Cr Cd Hw. unfold remove_dir. apply wp_bind, wp_get. destruct (w_dir w) as [l|] eqn:D; [|apply wp_ret; auto].
  apply wp_bind. eapply wp_mono; [|apply (wp_rmfiles C l w Cr Hw)]. intros w1 [[]| |] (C1 & S1 & R1);
    [|split; [exact C1|split; [exact S1|]]; intros G; specialize (R1 G); discriminate..].
  apply wp_bind, wp_may; intros B; [|split; [exact C1|split; [exact S1|]]; intros [G _]; congruence].
  apply wp_step; [apply Cd, C1|]. split; [apply Cd, C1|]. split; [exact S1|reflexivity].
Qed.
End Proofs.

(** what may be in the staging area while and after producing *)
Definition stage_ok (bad : string -> bool) (old new : eopkg) (w : work) : Prop :=
  w_stage w = None \/ (exists z, produce_delta old new = DDelta z /\ w_stage w = Some (WZip z)) \/ (~ can_link bad /\ w_stage w = Some WTorn).
Lemma wp_weak {A} (m : W A) (C C' : work -> Prop) Q w : (forall w, C w -> C' w) -> wp m C Q w -> wp m C' Q w.
Proof. intros H [T X]. split; [eapply Forall_impl; [|exact T]; exact H|exact X]. Qed.
Lemma wp_produce bad old new name w : delta_file name -> w_stage w = None ->
  wp (produce bad name old new) (stage_ok bad old new) (fun w' r => stage_ok bad old new w' /\
     match r with
     | Ok PDone => exists z, produce_delta old new = DDelta z /\ w_stage w' = Some (WZip z) /\ ~ (has_files old new /\ in_the_way w) /\ (can_clean bad -> w_dir w' = None)
     | Ok PPointless => produce_delta old new = DPointless /\ w_stage w' = None /\ (can_clean bad -> w_dir w' = None)
     | Ok PMismatched => produce_delta old new = DMismatched /\ w' = w
     | Err => (can_link bad -> w_stage w' = None) /\ (can_clean bad -> w_dir w' = None) /\
         (good_tools bad -> produce_delta old new = DFailed \/ (exists z, produce_delta old new = DDelta z) /\ has_files old new /\ in_the_way w)
     | Panic => produce_delta old new = DPanic /\ w' = w
     end) w.
Proof.
  intros Hn Sw. unfold produce, produce_delta.
  destruct (is_delta_possible (k_meta old) (k_meta new)) as [[|]| |] eqn:P.
  2:{ apply wp_ret. split; [left; exact Sw|auto]. }
  2:{ apply wp_panic. split; [left; exact Sw|auto]. }
  2:{ apply wp_panic. split; [left; exact Sw|auto]. }
  set (C := stage_ok bad old new).
  assert (CP : forall w, w_stage w = None -> C w) by (intros; left; assumption).
  assert (PD : produce_delta old new = commit old new) by (unfold produce_delta; rewrite P; reflexivity).
  assert (Cs : forall w w', w_stage w' = w_stage w -> C w -> C w') by (intros a b X Y; unfold C, stage_ok in *; rewrite X; exact Y).
  assert (Cr : forall x w, C w -> C (w_rm x w)) by (intros x a; apply Cs; reflexivity).
  assert (Cd : forall w, C w -> C (Work None (w_stage w))) by (intros a; apply Cs; reflexivity).
  apply wp_defer.
  (* the deferred clean-up *)
  assert (Fin : forall w1 (r : res produced) (Q : work -> Prop), C w1 ->
     (forall w2, C w2 -> w_stage w2 = w_stage w1 -> (can_clean bad -> w_dir w2 = None) -> Q w2) ->
     wp (remove_dir bad) C (fun w2 _ => Q w2) w1).
  { intros w1 r Q C1 H. eapply wp_mono; [|apply (wp_rmdir bad C w1 Cr Cd C1)]. intros w2 _ (A1 & A2 & A3). auto. }
  apply wp_bind, wp_may; intros B1.
  2:{ apply Fin; [exact Err|apply CP, Sw|]. intros w2 C2 S2 D2. split; [exact C2|]. split; [intros _; congruence|]. split; [exact D2|].
      intros G. rewrite G in B1. discriminate. }
  apply wp_bind, wp_step; [apply CP, Sw|]. set (w1 := Work (Some (w_files w)) (w_stage w)).
  assert (Gw : forall n, w_get n w1 = w_get n w) by reflexivity.
  apply wp_bind. eapply wp_mono; [|apply (wp_weak _ (still None)); [exact CP|apply (wp_commit bad None old new name Hn w1); exact Sw]].
  intros w2 r (S2 & H).
  assert (Bl : blocked w1 <-> in_the_way w) by (unfold blocked, in_the_way; rewrite !Gw; reflexivity).
  destruct r as [[u|]| |]; [| | |contradiction].
  - destruct H as (z & Cz & Gz & NB). apply wp_defer. apply wp_bind. unfold link_or_copy. apply wp_bind, wp_get. rewrite Gz.
    assert (Nb : ~ (has_files old new /\ in_the_way w)) by (intros [X Y]; apply NB; split; [exact X|apply Bl, Y]).
    assert (End : forall w', C w' -> w_stage w' = Some (WZip z) -> (can_clean bad -> w_dir w' = None) ->
      C w' /\ (exists z0, commit old new = DDelta z0 /\ w_stage w' = Some (WZip z0) /\ ~ (has_files old new /\ in_the_way w) /\ (can_clean bad -> w_dir w' = None))).
    { intros w' C' Y Z. split; [exact C'|]. exists z. split; [exact Cz|]. split; [exact Y|auto]. }
    assert (Cz' : forall w, w_stage w = Some (WZip z) -> C w) by (intros a X; right; left; exists z; split; [rewrite PD; exact Cz|exact X]).
    destruct (bad "link") eqn:BL.
    + assert (NL : ~ can_link bad) by (unfold can_link; congruence).
      apply wp_bind, wp_may; intros B3.
      2:{ apply wp_step; [apply CP; exact S2|]. apply Fin; [exact Err|apply CP; exact S2|]. intros w4 C4 S4 D4.
          split; [exact C4|]. split; [contradiction|]. split; [exact D4|]. intros G. rewrite G in B3. discriminate. }
      apply wp_bind, wp_step; [right; right; auto|]. apply wp_bind, wp_may; intros B4.
      2:{ apply wp_step; [right; right; auto|]. apply Fin; [exact Err|right; right; auto|]. intros w4 C4 S4 D4.
          split; [exact C4|]. split; [contradiction|]. split; [exact D4|]. intros G. rewrite G in B4. discriminate. }
      apply wp_step; [apply Cz'; reflexivity|]. apply wp_ret. apply wp_step; [apply Cz'; reflexivity|].
      apply Fin; [exact Err|apply Cz'; reflexivity|]. intros w4 C4 S4 D4. exact (End w4 C4 S4 D4).
    + apply wp_step; [apply Cz'; reflexivity|]. apply wp_ret. apply wp_step; [apply Cz'; reflexivity|].
      apply Fin; [exact Err|apply Cz'; reflexivity|]. intros w4 C4 S4 D4. exact (End w4 C4 S4 D4).
  - apply wp_ret. apply Fin; [exact Err|apply CP; exact S2|]. intros w3 C3 S3 D3. split; [exact C3|]. split; [exact H|]. split; [congruence|exact D3].
  - destruct H as [NP H]. apply Fin; [exact Err|apply CP; exact S2|]. intros w3 C3 S3 D3. split; [exact C3|]. split; [intros _; congruence|]. split; [exact D3|].
    intros G. destruct (H G) as [X|[X Y]]; [left; exact X|]. destruct (commit old new) eqn:Cm; [|congruence| |auto|].
    + right. split; [eauto|]. split; [exact X|apply Bl, Y].
    + exfalso. unfold commit in Cm. destruct (Nat.eqb _ _); [discriminate|]. destruct (diff_map old new); [discriminate|]. destruct (copy_install_partial _ new); discriminate.
    + exfalso. unfold commit in Cm. destruct (Nat.eqb _ _); [discriminate|]. destruct (diff_map old new); [discriminate|]. destruct (copy_install_partial _ new); discriminate.
Qed.

Lemma run_produce bad old new name w : delta_file name -> w_stage w = None ->
  Forall (stage_ok bad old new) (wtrace (produce bad name old new w)) /\ stage_ok bad old new (wfinal (produce bad name old new w)).
Proof. intros Hn Sw. destruct (wp_produce bad old new name w Hn Sw) as (T & F & _). split; assumption. Qed.
Lemma create_none bad name old new w : w_stage w = None -> create bad name old new w = produce bad name old new w.
Proof. intros Sw. unfold create, wbind, wget. rewrite Sw. destruct (produce bad name old new w) as [[t w1] r]. reflexivity. Qed.
Lemma create_some bad name old new w d : w_stage w = Some d -> create bad name old new w = ([], w, Ok PDone).
Proof. intros Sw. unfold create, wbind, wget. rewrite Sw. reflexivity. Qed.

(** ** C104. Producing a delta is all or nothing, whatever earlier productions left
    behind, whichever step fails and wherever the daemon is killed. *)
(** Full statement: the staging area never holds part of a delta, an interrupted
    production can be repeated, and what is reported as done is the delta of
    DeltaProd.v. That is false if the staging area is on another file system
    than the work directory, and a repetition can fail once. *)
(** the names of deltas are not those of temporary files *)
Theorem C104_names : forall old new n, compute_delta_name old new = Ok n -> delta_file n.
Proof.
  intros old new n H. unfold compute_delta_name in H. destruct (get_release old); try discriminate. destruct (get_release new); try discriminate.
  injection H as <-. unfold delta_file, delta_name. apply has_suffix_spec. eexists. rewrite <- !sapp_assoc. reflexivity.
Qed.
Print Assumptions C104_names.
(** What is reported as done is done: the delta is staged, complete, and the work
    directory is gone. Any leftovers [w], any failures [bad]. *)
Theorem C104_done_is_complete :
  forall bad old new name w, delta_file name -> w_stage w = None ->
    wresult (create bad name old new w) = Ok PDone ->
    exists z, produce_delta old new = DDelta z /\ w_stage (wfinal (create bad name old new w)) = Some (WZip z) /\
      (can_clean bad -> w_dir (wfinal (create bad name old new w)) = None).
Proof.
  intros bad old new name w Hn Sw R. rewrite create_none in * by exact Sw. destruct (wp_produce bad old new name w Hn Sw) as (_ & _ & H).
  rewrite R in H. destruct H as (z & A & B & _ & D). eauto.
Qed.
Print Assumptions C104_done_is_complete.
(** As long as hard links work, at every instant and after every failure there is
    nothing or the whole delta in the staging area. *)
Theorem C104_never_torn_partial :
  forall bad old new name w w', delta_file name -> w_stage w = None -> can_link bad ->
    (In w' (wtrace (create bad name old new w)) \/ w' = wfinal (create bad name old new w)) ->
    w_stage w' = None \/ exists z, produce_delta old new = DDelta z /\ w_stage w' = Some (WZip z).
Proof.
  intros bad old new name w w' Hn Sw L Hw. rewrite create_none in Hw by exact Sw. destruct (run_produce bad old new name w Hn Sw) as [T F].
  rewrite Forall_forall in T. assert (K : stage_ok bad old new w') by (destruct Hw as [Hw| ->]; auto).
  destruct K as [K|[K|[K _]]]; [left; exact K|right; exact K|contradiction].
Qed.
Print Assumptions C104_never_torn_partial.
(** A failure leaves nothing behind, neither in the staging area nor in the build
    directory. *)
Theorem C104_failure_leaves_nothing_partial :
  forall bad old new name w, delta_file name -> w_stage w = None -> can_link bad -> can_clean bad ->
    wresult (create bad name old new w) = Err -> wfinal (create bad name old new w) = Work None None.
Proof.
  intros bad old new name w Hn Sw L Cl R. rewrite create_none in * by exact Sw. destruct (wp_produce bad old new name w Hn Sw) as (_ & _ & H).
  rewrite R in H. destruct H as (A & B & _). specialize (A L). specialize (B Cl). destruct (wfinal (produce bad name old new w)) as [d s]. cbn in A, B. congruence.
Qed.
Print Assumptions C104_failure_leaves_nothing_partial.
(** With working tools the production does what DeltaProd.v says, from any
    leftovers, unless one of them is in the way: then it fails. *)
Theorem C104_outcome :
  forall bad old new name w, delta_file name -> w_stage w = None -> good_tools bad ->
    let w' := wfinal (create bad name old new w) in
    match wresult (create bad name old new w) with
    | Ok PDone => exists z, produce_delta old new = DDelta z /\ w' = Work None (Some (WZip z)) /\ ~ (has_files old new /\ in_the_way w)
    | Ok PPointless => produce_delta old new = DPointless /\ w' = Work None None
    | Ok PMismatched => produce_delta old new = DMismatched /\ w' = w
    | Err => w' = Work None None /\
        (produce_delta old new = DFailed \/ (exists z, produce_delta old new = DDelta z) /\ has_files old new /\ in_the_way w)
    | Panic => produce_delta old new = DPanic /\ w' = w
    end.
Proof.
  intros bad old new name w Hn Sw G w'. subst w'. rewrite create_none in * by exact Sw. destruct (wp_produce bad old new name w Hn Sw) as (_ & _ & H).
  assert (Cl : can_clean bad) by (split; intros; apply G). assert (L : can_link bad) by apply G.
  destruct (wfinal (produce bad name old new w)) as [d s]. cbn [w_dir w_stage] in H.
  destruct (wresult (produce bad name old new w)) as [[]| |].
  - destruct H as (z & A & -> & N & D). rewrite (D Cl). eauto.
  - destruct H as (A & -> & D). rewrite (D Cl). auto.
  - exact H.
  - destruct H as (A & B & D). rewrite (A L), (B Cl). auto.
  - exact H.
Qed.
Print Assumptions C104_outcome.
(** Wherever a production is killed (hard links work), at most the second attempt
    after it stages the delta. *)
Theorem C104_second_attempt_succeeds :
  forall bad tools tools' old new name w w' z, delta_file name -> w_stage w = None -> can_link bad -> good_tools tools -> good_tools tools' ->
    produce_delta old new = DDelta z ->
    (w' = w \/ In w' (wtrace (create bad name old new w)) \/ w' = wfinal (create bad name old new w)) ->
    let w1 := wfinal (create tools name old new w') in
    wresult (create tools' name old new w1) = Ok PDone /\ w_stage (wfinal (create tools' name old new w1)) = Some (WZip z).
Proof.
  intros bad tools tools' old new name w w' z Hn Sw L G G' Pd Hw w1.
  assert (S' : w_stage w' = None \/ w_stage w' = Some (WZip z)).
  { destruct Hw as [->|Hw]; [left; exact Sw|]. destruct (C104_never_torn_partial bad old new name w w' Hn Sw L Hw) as [K|(z' & K & K')]; [left; exact K|].
    right. congruence. }
  destruct S' as [S'|S'].
  2:{ subst w1. rewrite (create_some _ _ _ _ _ _ S'). cbn [wfinal fst snd]. rewrite (create_some _ _ _ _ _ _ S'). split; [reflexivity|exact S']. }
  pose proof (C104_outcome tools old new name w' Hn S' G) as K. cbv zeta in K. fold w1 in K.
  destruct (wresult (create tools name old new w')) as [[]| |].
  - destruct K as (z' & A & B & _). assert (z' = z) by congruence. subst z'. rewrite B, (create_some _ _ _ _ _ (WZip z)) by reflexivity. split; reflexivity.
  - destruct K; congruence.
  - destruct K; congruence.
  - destruct K as (B & _). rewrite B. pose proof (C104_outcome tools' old new name (Work None None) Hn eq_refl G') as K. cbv zeta in K.
    destruct (wresult (create tools' name old new (Work None None))) as [[]| |].
    + destruct K as (z' & A & -> & _). split; [reflexivity|]. cbn. congruence.
    + destruct K; congruence.
    + destruct K; congruence.
    + destruct K as (_ & [K|(_ & _ & [K|K])]); [congruence|destruct K; reflexivity..].
    + destruct K; congruence.
  - destruct K; congruence.
Qed.
Print Assumptions C104_second_attempt_succeeds.

Definition demo_name : string := "nano-1-2-1-x86_64.delta.eopkg".
Definition fine : string -> bool := fun _ => false.
(** The first attempt after a kill can fail though nothing is wrong. *)
Theorem C104_repeat_fails_once_refuted :
  exists old new name z w', delta_file name /\ compute_delta_name (k_meta old) (k_meta new) = Ok name /\ produce_delta old new = DDelta z /\
    In w' (wtrace (create fine name old new (Work None None))) /\
    wresult (create fine name old new w') = Err.
Proof.
  exists demo_old, demo_new, demo_name. do 2 eexists. split; [reflexivity|]. split; [vm_compute; reflexivity|]. split; [vm_compute; reflexivity|].
  split; [|]. { apply (nth_In _ (Work None None) (n := 8)). vm_compute. lia. } vm_compute. reflexivity.
Qed.
Print Assumptions C104_repeat_fails_once_refuted.
(** If the staging area is on another file system, a kill (or a full disk: the
    request then reports an error) leaves part of a delta there; every later
    attempt reports success and leaves it as it is. *)
Definition other_fs : string -> bool := fun what => seqb what "link".
Definition other_fs_full : string -> bool := fun what => seqb what "link" || seqb what "write copy".
Theorem C104_torn_for_good_refuted :
  exists old new name z w', delta_file name /\ compute_delta_name (k_meta old) (k_meta new) = Ok name /\ produce_delta old new = DDelta z /\
    In w' (wtrace (create other_fs name old new (Work None None))) /\
    wresult (create other_fs_full name old new (Work None None)) = Err /\
    wfinal (create other_fs_full name old new (Work None None)) = Work None (Some WTorn) /\
    w_stage w' = Some WTorn /\
    forall bad w, w_stage w = Some WTorn -> create bad name old new w = ([], w, Ok PDone).
Proof.
  exists demo_old, demo_new, demo_name. eexists. exists (nth 14 (wtrace (create other_fs demo_name demo_old demo_new (Work None None))) (Work None None)).
  split; [reflexivity|]. split; [vm_compute; reflexivity|]. split; [vm_compute; reflexivity|].
  split; [apply nth_In; vm_compute; lia|]. split; [vm_compute; reflexivity|]. split; [vm_compute; reflexivity|]. split; [vm_compute; reflexivity|].
  intros bad w Sw. apply (create_some bad demo_name demo_old demo_new w _ Sw).
Qed.
Print Assumptions C104_torn_for_good_refuted.

(** *** where the work directory is *)
Definition no_slash (s : string) : Prop := ~ In slash (list_ascii_of_string s).
Lemma no_slash_app a b : no_slash a -> no_slash b -> no_slash (a ++ b).
Proof. unfold no_slash. induction a as [|c a IH]; cbn [append list_ascii_of_string In]; [auto|]. intros A B [->|H]; [apply A; left; reflexivity|]. apply IH; auto. Qed.
Lemma no_slash_digits f : forall n acc, no_slash acc -> no_slash (digits f n acc).
Proof.
  assert (D : forall n acc, (n < 10)%N -> no_slash acc -> no_slash (String (digit n) acc)).
  { intros n acc L H. unfold no_slash. cbn [list_ascii_of_string In]. intros [X|X]; [|exact (H X)].
    pose proof (digit_is_digit n L) as Y. rewrite X in Y. discriminate. }
  induction f as [|f IH]; intros n acc H; cbn [digits]; [exact H|].
  destruct (N.ltb_spec n 10) as [L|L]; [apply D; auto|]. apply IH, D; [apply N.mod_lt; discriminate|exact H].
Qed.
Lemma no_slash_int z : no_slash (print_int z).
Proof.
  assert (N : forall n, no_slash (print_N n)) by (intros n; apply no_slash_digits; intros []).
  unfold print_int. destruct (z <? 0)%Z; [|apply N]. unfold no_slash. cbn. intros [X|X]; [discriminate|exact (N _ X)].
Qed.
(** If name, version and architecture of the package have no slash, its work
    directory is directly in that of its repository ... *)
Theorem C104_work_directory_inside_partial :
  forall base repo name version arch from to, absolute base -> plain repo -> no_slash name -> no_slash version -> no_slash arch ->
    work_path base repo name version arch from to = (repo_dir base KDelta repo ++ "/" ++ work_name name version arch from to)%string.
Proof.
  intros base repo name version arch from to (l & Nl & Fl & ->) Pr Nn Nv Na. unfold work_path.
  set (x := work_name name version arch from to).
  assert (Dash : no_slash "-") by (unfold no_slash; cbn; intuition discriminate).
  assert (Nx : normal x).
  { apply plain_normal. assert (Lx : forall s, x <> s -> x <> s) by auto.
    assert (Ns : no_slash x) by (unfold x, work_name; repeat (apply no_slash_app; [solve [assumption|apply no_slash_int]|]); apply no_slash_int).
    assert (Hd : In "-"%char (list_ascii_of_string x)).
    { unfold x, work_name. clear. induction name as [|c name IH]; cbn; [left; reflexivity|right; exact IH]. }
    repeat split; [intros E|intros E|intros E|exact Ns]; rewrite E in Hd; cbn in Hd; intuition discriminate. }
  rewrite dir_plain by assumption. rewrite join_inside; [|destruct l; discriminate| |].
  2:{ apply Forall_app. split; [exact Fl|]. constructor; [apply component_normal|]. constructor; [apply plain_normal, Pr|constructor]. }
  2:{ rewrite split_one by apply Nx. intros [X|[]]. apply Nx. exact X. }
  rewrite split_one by apply Nx. cbn [filter]. rewrite keepc_n by exact Nx.
  unfold abs. rewrite (join_app (l ++ [component KDelta; repo]) [x]) by (destruct l; discriminate). reflexivity.
Qed.
Print Assumptions C104_work_directory_inside_partial.
(** ... otherwise it can be any directory with a name ending in the two release
    numbers, such as another repository's; a production removes it when done,
    with everything in it. *)
Theorem C104_work_directory_escapes_refuted :
  exists base repo other name version arch from to, absolute base /\ plain repo /\ plain other /\ repo <> other /\
    work_path base repo name version arch from to = repo_dir base KRepo other.
Proof.
  exists "/var/lib/ferryd", "unstable", "stable-1-2", "nano", "1.0", "x86_64/../../../repo/stable", 1%Z, 2%Z.
  split; [exists ["var"; "lib"; "ferryd"]; split; [discriminate|split; [|reflexivity]]; repeat constructor; discriminate|].
  split; [apply plain_normal; repeat split; discriminate|]. split; [apply plain_normal; repeat split; discriminate|]. split; [discriminate|]. vm_compute. reflexivity.
Qed.
Print Assumptions C104_work_directory_escapes_refuted.
(** The hypotheses are met: a killed production with leftovers in the way. *)
Example C104_demo :
  wresult (create fine demo_name demo_old demo_new (Work None None)) = Ok PDone /\
  Nat.ltb 10 (List.length (wtrace (create fine demo_name demo_old demo_new (Work None None)))) = true /\
  let w := Work (Some [("install.tar", WTorn); ("junk", WRaw "x")]) None in
  in_the_way w /\ wresult (create fine demo_name demo_old demo_new w) = Err /\
  wresult (create fine demo_name demo_old demo_new (wfinal (create fine demo_name demo_old demo_new w))) = Ok PDone.
Proof. vm_compute. repeat split; try reflexivity. left. discriminate. Qed.
