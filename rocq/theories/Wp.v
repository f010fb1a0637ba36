(** * Wp: reasoning rules for the trace monad (proof artifact) *)
From Verif Require Import Model.

(** every intermediate durable state satisfies [C]; the end satisfies [Q] *)
Definition wp {A} (m : M A) (C : state -> Prop) (Q : state -> res A -> Prop) (s : state) : Prop :=
  Forall C (trace_of (m s)) /\ Q (final_of (m s)) (result_of (m s)).

Lemma wp_self {A} (m : M A) (C : state -> Prop) (Q : state -> res A -> Prop) s :
  wp m C Q s -> wp m C (fun s' r => Q s' r /\ s' = final_of (m s) /\ r = result_of (m s)) s.
Proof. intros [H1 H2]. split; auto. Qed.
Lemma wp_mono {A} (m : M A) (C C' : state -> Prop) (Q Q' : state -> res A -> Prop) s :
  wp m C Q s -> (forall x, C x -> C' x) -> (forall x r, Q x r -> Q' x r) -> wp m C' Q' s.
Proof. intros [H1 H2] HC HQ. split; [eapply Forall_impl; eauto|auto]. Qed.
Lemma wp_post {A} (m : M A) C (Q Q' : state -> res A -> Prop) s :
  wp m C Q s -> (forall x r, Q x r -> Q' x r) -> wp m C Q' s.
Proof. intros H HQ. eapply wp_mono; eauto. Qed.
Lemma wp_and {A} (m : M A) C C' (Q Q' : state -> res A -> Prop) s :
  wp m C Q s -> wp m C' Q' s -> wp m (fun x => C x /\ C' x) (fun x r => Q x r /\ Q' x r) s.
Proof.
  intros [H1 H2] [H3 H4]. split; [|auto]. rewrite Forall_forall in *. auto.
Qed.

Lemma wp_ret {A} (a : A) (C : state -> Prop) (Q : state -> res _ -> Prop) s : Q s (Ok a) -> wp (ret a) C Q s.
Proof. intros H. split; [constructor|exact H]. Qed.
Lemma wp_err {A} C (Q : state -> res A -> Prop) s : Q s Err -> wp err C Q s.
Proof. intros H. split; [constructor|exact H]. Qed.
Lemma wp_panic {A} C (Q : state -> res A -> Prop) s : Q s Panic -> wp panic C Q s.
Proof. intros H. split; [constructor|exact H]. Qed.
Lemma wp_lift {A} (r : res A) (C : state -> Prop) (Q : state -> res _ -> Prop) s : Q s r -> wp (lift r) C Q s.
Proof. intros H. split; [constructor|exact H]. Qed.
Lemma wp_gets {A} (f : state -> A) (C : state -> Prop) (Q : state -> res _ -> Prop) s : Q s (Ok (f s)) -> wp (gets f) C Q s.
Proof. intros H. split; [constructor|exact H]. Qed.
Lemma wp_vol f (C : state -> Prop) (Q : state -> res _ -> Prop) s : Q (f s) (Ok tt) -> wp (vol f) C Q s.
Proof. intros H. split; [constructor|exact H]. Qed.
Lemma wp_durable f (C : state -> Prop) (Q : state -> res _ -> Prop) s : C (f s) -> Q (f s) (Ok tt) -> wp (durable f) C Q s.
Proof. intros H1 H. split; [repeat constructor; exact H1|exact H]. Qed.

Lemma wp_bind {A B} (m : M A) (k : A -> M B) (C : state -> Prop) (Q : state -> res _ -> Prop) s :
  wp m C (fun s1 r => match r with
                      | Ok a => wp (k a) C Q s1
                      | Err => Q s1 Err
                      | Panic => Q s1 Panic
                      end) s ->
  wp (bind m k) C Q s.
Proof.
  unfold wp, bind, trace_of, final_of, result_of.
  destruct (m s) as [[t1 s1] r]; simpl. intros [H1 H2].
  destruct r as [a| |]; simpl; auto.
  destruct (k a s1) as [[t2 s2] r2]; simpl in *. destruct H2. split; [apply Forall_app; auto|auto].
Qed.
Lemma wp_bind_ok {A B} (m : M A) (k : A -> M B) (C : state -> Prop) (Q : state -> res _ -> Prop) s (R : state -> A -> Prop) :
  wp m C (fun s1 r => exists a, r = Ok a /\ R s1 a) s ->
  (forall s1 a, R s1 a -> wp (k a) C Q s1) ->
  wp (bind m k) C Q s.
Proof.
  intros H1 H2. apply wp_bind. eapply wp_post; [exact H1|].
  intros s1 r (a & -> & Hr). apply H2, Hr.
Qed.

(* readers run without touching the state *)
Lemma bind_gets {A B} (f : state -> A) (k : A -> M B) s : bind (gets f) k s = k (f s) s.
Proof. unfold bind, gets. simpl. destruct (k (f s) s) as [[t s'] r]. reflexivity. Qed.
Lemma bind_ret {A B} (a : A) (k : A -> M B) s : bind (ret a) k s = k a s.
Proof. unfold bind, ret. simpl. destruct (k a s) as [[t s'] r]. reflexivity. Qed.
Lemma bind_lift_ok {A B} (a : A) (k : A -> M B) s : bind (lift (Ok a)) k s = k a s.
Proof. unfold bind, lift. simpl. destruct (k a s) as [[t s'] r]. reflexivity. Qed.
Lemma bind_ok {A B} (m : M A) (k : A -> M B) s s1 a :
  m s = ([], s1, Ok a) -> bind m k s = k a s1.
Proof. unfold bind. intros ->. destruct (k a s1) as [[t s'] r]. reflexivity. Qed.
Lemma wp_eq {A} (m m' : M A) (C : state -> Prop) (Q : state -> res _ -> Prop) s : m s = m' s -> wp m' C Q s -> wp m C Q s.
Proof. unfold wp. intros ->. auto. Qed.

Lemma wp_bind_gets {A B} (f : state -> A) (k : A -> M B) (C : state -> Prop) (Q : state -> res _ -> Prop) s :
  wp (k (f s)) C Q s -> wp (bind (gets f) k) C Q s.
Proof. apply wp_eq, bind_gets. Qed.
Lemma wp_bind_ret {A B} (a : A) (k : A -> M B) (C : state -> Prop) (Q : state -> res _ -> Prop) s :
  wp (k a) C Q s -> wp (bind (ret a) k) C Q s.
Proof. apply wp_eq, bind_ret. Qed.
Lemma wp_bind_lift {A B} (r : res A) a (k : A -> M B) (C : state -> Prop) (Q : state -> res _ -> Prop) s :
  r = Ok a -> wp (k a) C Q s -> wp (bind (lift r) k) C Q s.
Proof. intros ->. apply wp_eq, bind_lift_ok. Qed.
Lemma wp_bind_read {A B} (m : M A) (k : A -> M B) (C : state -> Prop) (Q : state -> res _ -> Prop) s a :
  m s = ([], s, Ok a) -> wp (k a) C Q s -> wp (bind m k) C Q s.
Proof. intros H. apply wp_eq, bind_ok, H. Qed.
Lemma wp_bind_vol {B} f (k : unit -> M B) (C : state -> Prop) (Q : state -> res _ -> Prop) s :
  wp (k tt) C Q (f s) -> wp (bind (vol f) k) C Q s.
Proof. intros H. apply wp_bind, wp_vol, H. Qed.
Lemma wp_bind_durable {B} f (k : unit -> M B) (C : state -> Prop) (Q : state -> res _ -> Prop) s :
  C (f s) -> wp (k tt) C Q (f s) -> wp (bind (durable f) k) C Q s.
Proof. intros H1 H. apply wp_bind, wp_durable; assumption. Qed.

Lemma bind_assoc {A B D} (m : M A) (k : A -> M B) (h : B -> M D) s :
  bind (bind m k) h s = bind m (fun a => bind (k a) h) s.
Proof.
  unfold bind. destruct (m s) as [[t1 s1] [a| |]]; try reflexivity.
  destruct (k a s1) as [[t2 s2] [b| |]]; try reflexivity.
  destruct (h b s2) as [[t3 s3] r]. rewrite app_assoc. reflexivity.
Qed.
Lemma wp_bind_assoc {A B D} (m : M A) (k : A -> M B) (h : B -> M D) (C : state -> Prop) (Q : state -> res _ -> Prop) s :
  wp (bind m (fun a => bind (k a) h)) C Q s -> wp (bind (bind m k) h) C Q s.
Proof. apply wp_eq, bind_assoc. Qed.

(** loops *)
Lemma wp_forM {X} (f : X -> M unit) (I : list X -> state -> Prop) C l :
  (forall x rest s, I (x :: rest) s -> wp (f x) C (fun s' r => r = Ok tt /\ I rest s') s) ->
  forall s, I l s -> wp (forM l f) C (fun s' r => r = Ok tt /\ I [] s') s.
Proof.
  intros H. induction l as [|x l IH]; intros s Hi; simpl.
  - apply wp_ret. auto.
  - apply wp_bind. eapply wp_post; [apply H, Hi|]. intros s' r [-> Hi']. apply IH, Hi'.
Qed.
(* loops that may fail *)
Lemma wp_forM_any {X} (f : X -> M unit) (I : state -> Prop) C l :
  (forall x s, In x l -> I s -> wp (f x) C (fun s' r => I s' /\ r <> Panic) s) ->
  forall s, I s -> wp (forM l f) C (fun s' r => I s' /\ r <> Panic) s.
Proof.
  induction l as [|x l IH]; intros H s Hi; simpl.
  - apply wp_ret. split; [auto|discriminate].
  - apply wp_bind. eapply wp_post; [apply H; [left; reflexivity|exact Hi]|].
    intros s' [[]| |] [Hi' Hr]; auto. apply IH; auto. intros y s2 Hy. apply H. right; exact Hy.
Qed.

Lemma foldM_ext_read {X A} (f : A -> X -> M A) (g : A -> X -> A) l s :
  (forall a x, In x l -> f a x s = ([], s, Ok (g a x))) ->
  forall a, foldM l f a s = ([], s, Ok (fold_left g l a)).
Proof.
  induction l as [|x l IH]; intros H a; simpl; [reflexivity|].
  rewrite (bind_ok _ _ _ _ _ (H a x (or_introl eq_refl))). apply IH.
  intros a' y Hy. apply H. right; exact Hy.
Qed.

(** ** state predicates kept by a program, whatever its result *)
Definition keeps {A} (P : state -> Prop) (m : M A) : Prop :=
  forall s, P s -> wp m P (fun s' _ => P s') s.

Lemma keeps_ret {A} P (a : A) : keeps P (ret a).
Proof. intros s H. apply wp_ret, H. Qed.
Lemma keeps_err {A} P : keeps P (@err A).
Proof. intros s H. apply wp_err, H. Qed.
Lemma keeps_panic {A} P : keeps P (@panic A).
Proof. intros s H. apply wp_panic, H. Qed.
Lemma keeps_lift {A} P (r : res A) : keeps P (lift r).
Proof. intros s H. apply wp_lift, H. Qed.
Lemma keeps_gets {A} P (f : state -> A) : keeps P (gets f).
Proof. intros s H. apply wp_gets, H. Qed.
Lemma keeps_vol (P : state -> Prop) f : (forall s, P s -> P (f s)) -> keeps P (vol f).
Proof. intros Hf s H. apply wp_vol, Hf, H. Qed.
Lemma keeps_durable (P : state -> Prop) f : (forall s, P s -> P (f s)) -> keeps P (durable f).
Proof. intros Hf s H. apply wp_durable; apply Hf, H. Qed.
Lemma keeps_bind {A B} P (m : M A) (k : A -> M B) :
  keeps P m -> (forall a, keeps P (k a)) -> keeps P (bind m k).
Proof.
  intros Hm Hk s H. apply wp_bind. eapply wp_post; [apply Hm, H|].
  intros s1 [a| |] H1; auto. apply Hk, H1.
Qed.
Lemma keeps_on_err {A} P (m : M A) h : keeps P m -> keeps P h -> keeps P (on_err m h).
Proof.
  intros Hm Hh s H. specialize (Hm s H). unfold wp, on_err in *.
  destruct (m s) as [[t1 s1] [a| |]]; auto. destruct Hm as [H1 H2].
  specialize (Hh s1 H2). unfold wp in Hh. simpl in *.
  destruct (h s1) as [[t2 s2] r2]; simpl in *. destruct Hh. split; [apply Forall_app; auto|auto].
Qed.
Lemma keeps_forM {X} P (f : X -> M unit) l : (forall x, keeps P (f x)) -> keeps P (forM l f).
Proof. intros H. induction l; simpl; [apply keeps_ret|apply keeps_bind; auto]. Qed.
Lemma keeps_foldM {X A} P (f : A -> X -> M A) l :
  (forall a x, keeps P (f a x)) -> forall a, keeps P (foldM l f a).
Proof. intros H. induction l; intros a0; simpl; [apply keeps_ret|apply keeps_bind; auto]. Qed.
Lemma keeps_wp {A} (P : state -> Prop) (m : M A) s :
  keeps P m -> P s -> wp m P (fun s' _ => P s') s.
Proof. intros H. apply H. Qed.
