(** * PropsDeltaJob: C57 and C61, the deltas of one package *)
From Verif Require Import Model Spec DbInv DbOps Wp FsInv Ops UnrefOps RepoOps DeleteOps Pure Loops Emit IndexOps ApiOps History PoolFacts IndexFacts.
From Verif Require Import Base LibDb Jobs JobSpec Dispatch DeltaProd DeltaJob PropsDelta DeltaJobFacts Demo DemoOk.
From Verif Require Import Model Spec FsInv.
Open Scope string_scope. Open Scope list_scope.

(** ** What the property talks about *)
(** the recorded metadata of two pool items *)
Definition of_pool (s : state) (a b : string) (P : meta -> meta -> Prop) : Prop :=
  exists pa pb, pool_at s a = Some pa /\ pool_at s b = Some pb /\ P (p_meta pa) (p_meta pb).
(** [x] is the file name of the delta from version [a] to version [b] *)
Definition delta_from_to (s : state) (a b x : string) : Prop := of_pool s a b (fun ma mb => compute_delta_name ma mb = Ok x).
(** same package, distribution release and architecture, lower release *)
Definition older (s : state) (a b : string) : Prop := of_pool s a b older_version.
(** [x] is recorded as a failed delta *)
Definition failed (s : state) (x : string) : Prop := mhas (d_skip (st_db s)) x = true.
(** [tip] is an available version of package [n], none has a higher release *)
Definition is_tip (s : state) (r n tip : string) : Prop :=
  In tip (available_ids s r n) /\
  forall a, In a (available_ids s r n) -> of_pool s a tip (fun ma mt => (rel ma <= rel mt)%Z).
(** what the delta is registered with *)
Definition registered (s s' : state) (a b x : string) : Prop :=
  of_pool s a b (fun ma mb => exists p, pool_at s' x = Some p /\ p_delta p = Some (DInfo (rel ma) a (rel mb) b)).

(** Go's sort.Sort(PackageSet) and the choices of the Index request *)
Record good_joracle (o : joracle) : Prop := {
  gj_index : good_oracle (jo_index o);
  gj_perm : forall l, Permutation (jo_asc o l) l;
  gj_asc : forall l, StronglySorted (fun a b => (rel a <= rel b)%Z) (jo_asc o l)
}.
(** the state after the job, its result, what a crash during it leaves *)
Definition job_after (E : env) (D : denv) (o : joracle) (r pkg : string) (ix : bool) (s : state) : state := final_of (delta_job E D o r pkg ix s).
Definition job_result (E : env) (D : denv) (o : joracle) (r pkg : string) (ix : bool) (s : state) : res unit := result_of (delta_job E D o r pkg ix s).
Definition job_crashes (E : env) (D : denv) (o : joracle) (r pkg : string) (ix : bool) (s : state) : list state := trace_of (delta_job E D o r pkg ix s).

Section Job.
Variable E : env.
Variable cat : string -> meta.
Variable D : denv.
Hypothesis Hcat : good_catalog cat.
Hypothesis HE : good_env E.
Hypothesis HD : delta_world E cat D.
Notation Inv := (FsInv.Inv E cat).

(** ** The effect of a list of attempts on the database *)
Definition keyed (d : db) (r pkg : string) : Prop :=
  (forall e, mget (d_ents d r) pkg = Some e -> e_name e = pkg) /\ (forall x q, mget (d_pool d) x = Some q -> p_name q = x).
Record effect (r pkg j : string) (ids : list string) (d d' : db) : Prop := {
  ef_keyed : keyed d' r pkg;
  ef_repos : d_repos d' = d_repos d;
  ef_other : forall r' n, (r', n) <> (r, pkg) -> mget (d_ents d' r') n = mget (d_ents d r') n;
  ef_entry : forall e, mget (d_ents d r) pkg = Some e -> exists e', mget (d_ents d' r) pkg = Some e' /\
      e_avail e' = e_avail e /\ e_pub e' = e_pub e /\ (forall x, In x (e_deltas e) -> In x (e_deltas e')) /\
      (forall x, In x (e_deltas e') -> In x (e_deltas e) \/ exists i, In i ids /\ x = dname cat i j /\ mhas (d_skip d) x = false) /\
      (forall i, In i ids -> In (dname cat i j) (e_deltas e') \/ mhas (d_skip d') (dname cat i j) = true \/ ~ older_version (cat i) (cat j));
  ef_skip : forall x, mhas (d_skip d) x = true -> mhas (d_skip d') x = true;
  ef_skip_new : forall x, mhas (d_skip d') x = true -> mhas (d_skip d) x = true \/
      exists i, In i ids /\ x = dname cat i j /\ older_version (cat i) (cat j);
  ef_pool : forall x p, mget (d_pool d) x = Some p -> exists p', mget (d_pool d') x = Some p' /\ p_meta p' = p_meta p /\ p_delta p' = p_delta p;
  ef_pool_new : forall x p, mget (d_pool d) x = None -> mget (d_pool d') x = Some p ->
      exists i, In i ids /\ x = dname cat i j /\ older_version (cat i) (cat j) /\ p_delta p = Some (dinfo_of cat i j)
}.
Lemma mhas_put d (x y : string) (k : sentry) : mhas (mput d x k) y = if seqb y x then true else mhas d y.
Proof. unfold mhas. rewrite mget_put. destruct (seqb y x); reflexivity. Qed.

Lemma effect_same r pkg j i d : keyed d r pkg ->
  (forall e, mget (d_ents d r) pkg = Some e -> In (dname cat i j) (e_deltas e) \/ mhas (d_skip d) (dname cat i j) = true \/ ~ older_version (cat i) (cat j)) ->
  effect r pkg j [i] d d.
Proof.
  intros K H. constructor; auto.
  - intros e Ge. exists e. do 3 (split; [first [assumption|reflexivity]|]). split; [auto|]. split; [auto|].
    intros i' [<-|[]]. apply H, Ge.
  - intros x p G. eauto.
  - intros. congruence.
Qed.
Lemma effect_nil r pkg j d : keyed d r pkg -> effect r pkg j [] d d.
Proof.
  intros K. constructor; auto.
  - intros e Ge. exists e. do 3 (split; [first [assumption|reflexivity]|]). split; [auto|]. split; [auto|]. intros i [].
  - intros x p G. eauto.
  - intros. congruence.
Qed.
Lemma touch_effect p d : (forall x q, mget (d_pool d) x = Some q -> p_name q = x) ->
  d_repos (db_touch p d) = d_repos d /\ d_ents (db_touch p d) = d_ents d /\ d_skip (db_touch p d) = d_skip d /\
  (forall x q, mget (d_pool (db_touch p d)) x = Some q -> p_name q = x) /\
  (forall x q, mget (d_pool d) x = Some q -> exists q', mget (d_pool (db_touch p d)) x = Some q' /\ p_meta q' = p_meta q /\ p_delta q' = p_delta q) /\
  (forall x q, mget (d_pool d) x = None -> mget (d_pool (db_touch p d)) x = Some q -> x = p_name p /\ q = p).
Proof.
  intros K. unfold db_touch, d_bump. destruct (mget (d_pool d) (p_name p)) as [q0|] eqn:G; cbn [apply_op d_repos d_ents d_skip d_pool].
  - pose proof (K _ _ G) as Nm. do 3 (split; [reflexivity|]). cbn [set_rc p_name]. split; [|split].
    + intros x q. rewrite mget_put. destruct (seqb_spec x (p_name q0)) as [->|]; [|apply K]. intros X. injection X as <-. reflexivity.
    + intros x q Gx. rewrite mget_put. destruct (seqb_spec x (p_name q0)) as [->|]; [|eauto]. rewrite Nm in Gx. rewrite G in Gx. injection Gx as <-. eauto.
    + intros x q Gx. rewrite mget_put. destruct (seqb_spec x (p_name q0)) as [->|]; [|congruence]. rewrite Nm in Gx. congruence.
  - do 3 (split; [reflexivity|]). split; [|split].
    + intros x q. rewrite mget_put. destruct (seqb_spec x (p_name p)) as [->|]; [|apply K]. intros X. injection X as <-. reflexivity.
    + intros x q Gx. rewrite mget_put. destruct (seqb_spec x (p_name p)) as [->|]; [congruence|eauto].
    + intros x q Gx. rewrite mget_put. destruct (seqb_spec x (p_name p)) as [->|]; [|congruence]. intros X. injection X as <-. auto.
Qed.
Lemma effect_one r pkg i j d d' : keyed d r pkg -> m_name (cat (dname cat i j)) = pkg -> attempted cat r pkg i j d d' -> effect r pkg j [i] d d'.
Proof.
  intros K Nm [Sk ->|e Ge Hi ->|No ->|Sk Ol ->|p Sk Pn Po Pd Ge ->].
  - apply effect_same; auto.
  - apply effect_same; auto. intros e' Ge'. rewrite Ge in Ge'. injection Ge' as <-. auto.
  - apply effect_same; auto.
  - destruct K as [K1 K2]. constructor; cbn [apply_op d_repos d_ents d_pool d_skip k_name]; auto.
    + split; [exact K1|exact K2].
    + intros e G. exists e. do 3 (split; [first [assumption|reflexivity]|]). split; [auto|]. split; [auto|].
      intros i' [<-|[]]. right; left. rewrite mhas_put, seqb_refl. reflexivity.
    + intros x Hx. rewrite mhas_put. destruct (seqb x _); auto.
    + intros x. rewrite mhas_put. destruct (seqb_spec x (dname cat i j)) as [->|]; [|auto]. intros _. right. exists i. cbn. auto.
    + intros x p G. eauto.
    + intros. congruence.
  - unfold db_delta. rewrite Pn, Nm. destruct (mget (d_ents d r) pkg) as [e|] eqn:G; [|congruence].
    destruct (sin (dname cat i j) (e_deltas e)) eqn:Si.
    { apply effect_same; [exact K|]. intros e' Ge'. rewrite G in Ge'. injection Ge' as <-. left. apply sin_In, Si. }
    destruct K as [K1 K2]. destruct (touch_effect p d K2) as (T1 & T2 & T3 & T4 & T5 & T6). pose proof (K1 _ G) as En.
    constructor; cbn [apply_op d_repos d_ents d_pool d_skip with_delta e_name]; rewrite ?T1, ?T2, ?T3, ?En; auto.
    + split; [|exact T4]. intros e'. cbn [apply_op d_ents with_delta e_name]. rewrite ?T2, ?En. unfold fupd. rewrite seqb_refl, mget_put_eq.
      intros X. injection X as <-. exact En.
    + intros r' n Hn. unfold fupd. destruct (seqb_spec r' r) as [->|]; [|reflexivity]. apply mget_put_ne. congruence.
    + intros e' G'. rewrite G in G'. injection G' as <-. unfold fupd. rewrite seqb_refl, mget_put_eq. eexists. split; [reflexivity|]. cbn [e_avail e_pub e_deltas].
      do 2 (split; [reflexivity|]). split; [|split].
      * intros x Hx. apply sort_strings_In, in_app_iff. auto.
      * intros x Hx. apply sort_strings_In, in_app_iff in Hx as [Hx|[<-|[]]]; [auto|]. right. exists i. cbn. auto.
      * intros i' [<-|[]]. left. apply sort_strings_In, in_app_iff. right. left. reflexivity.
    + intros x q Gx Gx'. destruct (T6 x q Gx Gx') as [-> ->]. rewrite Pn in Gx. destruct (Pd Gx) as [A B]. exists i. cbn. rewrite Pn. auto.
Qed.
Lemma effect_trans r pkg j l l' d d1 d2 : effect r pkg j l d d1 -> effect r pkg j l' d1 d2 -> effect r pkg j (l ++ l') d d2.
Proof.
  intros A B. constructor.
  - apply B.
  - rewrite (ef_repos _ _ _ _ _ _ B). apply A.
  - intros r' n H. rewrite (ef_other _ _ _ _ _ _ B) by exact H. apply A, H.
  - intros e G. destruct (ef_entry _ _ _ _ _ _ A e G) as (e1 & G1 & A1 & A2 & A3 & A4 & A5).
    destruct (ef_entry _ _ _ _ _ _ B e1 G1) as (e2 & G2 & B1 & B2 & B3 & B4 & B5).
    exists e2. split; [exact G2|]. split; [congruence|]. split; [congruence|]. split; [auto|]. split.
    + intros x Hx. destruct (B4 x Hx) as [Hx'|(i & Hi & -> & Sk)].
      * destruct (A4 x Hx') as [|(i & Hi & -> & Sk)]; [auto|]. right. exists i. split; [apply in_app_iff; auto|auto].
      * right. exists i. split; [apply in_app_iff; auto|]. split; [reflexivity|].
        destruct (mhas (d_skip d) (dname cat i j)) eqn:Y; [|reflexivity]. apply (ef_skip _ _ _ _ _ _ A) in Y. congruence.
    + intros i Hi. apply in_app_iff in Hi as [Hi|Hi]; [|apply B5, Hi].
      destruct (A5 i Hi) as [X|[X|X]]; [left; auto|right; left; apply B, X|auto].
  - intros x H. apply B, A, H.
  - intros x H. apply (ef_skip_new _ _ _ _ _ _ B) in H as [H|(i & Hi & X)].
    + apply (ef_skip_new _ _ _ _ _ _ A) in H as [H|(i & Hi & X)]; [auto|]. right. exists i. split; [apply in_app_iff; auto|exact X].
    + right. exists i. split; [apply in_app_iff; auto|exact X].
  - intros x p G. destruct (ef_pool _ _ _ _ _ _ A x p G) as (p1 & G1 & M1 & D1). destruct (ef_pool _ _ _ _ _ _ B x p1 G1) as (p2 & G2 & M2 & D2).
    exists p2. split; [exact G2|]. split; congruence.
  - intros x p G G2. destruct (mget (d_pool d1) x) as [p1|] eqn:G1.
    + destruct (ef_pool_new _ _ _ _ _ _ A x p1 G G1) as (i & Hi & Ex & Ol & Dl). destruct (ef_pool _ _ _ _ _ _ B x p1 G1) as (p2 & G2' & _ & D2).
      rewrite G2 in G2'. injection G2' as <-. exists i. split; [apply in_app_iff; auto|]. split; [exact Ex|]. split; [exact Ol|]. congruence.
    + destruct (ef_pool_new _ _ _ _ _ _ B x p G1 G2) as (i & Hi & X). exists i. split; [apply in_app_iff; auto|exact X].
Qed.
Lemma attempts_effect r pkg j : forall ids d d', keyed d r pkg -> (forall i, In i ids -> m_name (cat (dname cat i j)) = pkg) ->
  attempts cat r pkg j ids d d' -> effect r pkg j ids d d'.
Proof.
  intros ids d d' K Nm A. revert K Nm. induction A as [d|i l d d1 d2 A1 A2 IH]; intros K Nm; [apply effect_nil, K|].
  assert (X : effect r pkg j [i] d d1) by (apply effect_one; auto; apply Nm; left; reflexivity).
  apply (effect_trans r pkg j [i] l d d1 d2 X). apply IH; [apply X|]. intros i' Hi'. apply Nm. right. exact Hi'.
Qed.

(** ** The whole job *)
Definition job_done (fz : bool) (o : joracle) (r pkg : string) (ix : bool) (s s' : state) (res : res unit) : Prop :=
  steps E cat s s' /\ Inv false fz [] s' /\ res <> Panic /\
  exists s1 r1, job_post E cat s fz r pkg s s1 r1 /\ st_db s' = st_db s1 /\
    (res = Ok tt -> exists n, r1 = Ok n /\
       (if ix && Nat.leb 1 n then s' = after E (jo_index o) (OpIndex r) s1 /\ succeeds E (jo_index o) (OpIndex r) s1 else s' = s1)).
Lemma sim_job fz o r pkg ix s : Inv false fz [] s -> good_joracle o ->
  wp (delta_job E D o r pkg ix) (crashed E cat s) (job_done fz o r pkg ix s) s.
Proof.
  intros H Ho. unfold delta_job. apply wp_bind.
  eapply wp_mono; [apply (sim_internal E cat D Hcat HE HD s o (gj_index _ Ho) (gj_perm _ Ho) (gj_asc _ Ho) fz r pkg s H (steps_refl E cat s))|auto|].
  intros s1 res Jp. pose proof Jp as (S1 & I1 & X). destruct res as [n| |]; [| |contradiction]; cbv beta iota.
  - destruct (ix && Nat.leb 1 n) eqn:B.
    + pose proof (unit_sim E cat Hcat HE s fz _ (jo_index o) (OpIndex r) s1 eq_refl I1 S1 (gj_index _ Ho) I eq_refl) as U.
      pose proof (wp_api_index E cat Hcat HE false fz (jo_index o) r s1 I1 (gj_index _ Ho)) as W.
      split; [apply U|]. destruct U as [_ [S2 _]], W as [_ (I2 & Ix & Np)].
      split; [exact S2|]. split; [exact I2|]. split; [exact Np|]. exists s1, (Ok n). split; [exact Jp|].
      split; [apply (indexed_db E cat (jo_index o) r _ _ _ Ix)|]. intros Er. exists n. split; [reflexivity|]. rewrite B.
      unfold after, succeeds, outcome. cbn [run_op]. unfold bind. unfold final_of, result_of in *.
      destruct (api_index E (jo_index o) r s1) as [[t s2] [[]| |]]; cbn [fst snd] in *; [|discriminate..]. split; [reflexivity|]. exists []. reflexivity.
    + apply wp_ret. split; [exact S1|]. split; [exact I1|]. split; [discriminate|]. exists s1, (Ok n). split; [exact Jp|]. split; [reflexivity|].
      intros _. exists n. rewrite B. auto.
  - split; [exact S1|]. split; [exact I1|]. split; [discriminate|]. exists s1, Err. split; [exact Jp|]. split; [reflexivity|]. discriminate.
Qed.

(** from the catalog to the pool *)
Section Pool.
Variables (fz : bool) (s : state).
Hypothesis HI : Inv false fz [] s.
Lemma pool_two r n a b : In a (available_ids s r n) -> In b (available_ids s r n) -> forall P : meta -> meta -> Prop,
  (forall pa pb, pool_at s a = Some pa -> pool_at s b = Some pb -> version cat s n a (p_meta pa) -> version cat s n b (p_meta pb) -> P (p_meta pa) (p_meta pb)) -> of_pool s a b P.
Proof.
  intros Ha Hb P HP. unfold available_ids, entry_at in *. destruct (mget (d_ents (st_db s) r) n) as [e|] eqn:G; [|destruct Ha].
  destruct (avail_pool E cat false fz [] s r n e a HI G Ha) as (pa & Ga & _).
  destruct (avail_pool E cat false fz [] s r n e b HI G Hb) as (pb & Gb & _).
  pose proof (pm_version E cat fz r n s e a HI G Ha) as Va. pose proof (pm_version E cat fz r n s e b HI G Hb) as Vb.
  unfold pm in Va, Vb. rewrite Ga in Va. rewrite Gb in Vb. exists pa, pb. auto.
Qed.
Lemma pool_two_inv r n a b (P : meta -> meta -> Prop) : In a (available_ids s r n) -> In b (available_ids s r n) -> of_pool s a b P ->
  exists ma mb, version cat s n a ma /\ version cat s n b mb /\ P ma mb.
Proof.
  intros Ha Hb (pa & pb & Ga & Gb & HP). exists (p_meta pa), (p_meta pb).
  unfold available_ids, entry_at in *. destruct (mget (d_ents (st_db s) r) n) as [e|] eqn:G; [|destruct Ha].
  pose proof (pm_version E cat fz r n s e a HI G Ha) as Va. pose proof (pm_version E cat fz r n s e b HI G Hb) as Vb.
  unfold pm in Va, Vb. unfold pool_at in Ga, Gb. rewrite Ga in Va. rewrite Gb in Vb. auto.
Qed.
Lemma older_iff r n a b : In a (available_ids s r n) -> In b (available_ids s r n) -> (older s a b <-> older_version (cat a) (cat b)).
Proof.
  intros Ha Hb. split.
  - intros O. destruct (pool_two_inv r n a b _ Ha Hb O) as (ma & mb & Va & Vb & HP).
    destruct (version_possible cat Hcat s n a b ma mb Va Vb) as [_ X]. apply X, C42_possible_iff, HP.
  - intros O. apply (pool_two r n a b Ha Hb). intros pa pb _ _ Va Vb.
    destruct (version_possible cat Hcat s n a b _ _ Va Vb) as [_ X]. apply C42_possible_iff. apply X, O.
Qed.
Lemma dname_from_to r n a b : In a (available_ids s r n) -> In b (available_ids s r n) -> delta_from_to s a b (dname cat a b).
Proof. intros Ha Hb. apply (pool_two r n a b Ha Hb). intros pa pb _ _ Va Vb. apply (version_name cat Hcat s n); assumption. Qed.
Lemma dname_pkg r n a b : In a (available_ids s r n) -> In b (available_ids s r n) -> m_name (cat (dname cat a b)) = n.
Proof.
  intros Ha Hb. destruct (pool_two_inv r n a b (fun _ _ => True) Ha Hb) as (ma & mb & Va & Vb & _).
  - apply (pool_two r n a b Ha Hb). auto.
  - apply (version_dname E cat D HD s n a b ma mb Va Vb).
Qed.
Lemma keyed_inv r n : keyed (st_db s) r n.
Proof.
  pose proof (i_db _ _ _ _ _ _ HI) as O. split.
  - intros e G. apply (eo_name _ _ _ (ok_ent _ _ O _ _ _ G)).
  - intros x q G. apply (po_name _ _ _ (ok_pool _ _ O _ _ G)).
Qed.
Lemma tip_of_avail r n tip ids : tip_of cat (st_db s) r n tip ids ->
  is_tip s r n tip /\ (forall a, In a ids <-> In a (available_ids s r n) /\ a <> tip).
Proof.
  intros (e & G & P & Le).
  assert (Ea : available_ids s r n = e_avail e) by (unfold available_ids, entry_at; rewrite G; reflexivity).
  assert (Ht : In tip (available_ids s r n)) by (rewrite Ea; apply (Permutation_in _ P), in_app_iff; right; left; reflexivity).
  assert (Nd : NoDup (ids ++ [tip])).
  { apply (Permutation_NoDup (Permutation_sym P)). apply slt_sorted_nodup. apply (eo_sorted _ _ _ (ok_ent _ _ (i_db _ _ _ _ _ _ HI) _ _ _ G)). }
  assert (Sub : forall a, In a ids <-> In a (available_ids s r n) /\ a <> tip).
  { intros a. rewrite Ea. split.
    - intros Ha. split; [apply (Permutation_in _ P), in_app_iff; auto|]. intros ->. apply NoDup_remove_2 in Nd. rewrite app_nil_r in Nd. auto.
    - intros [Ha Ne]. apply (Permutation_in _ (Permutation_sym P)), in_app_iff in Ha as [Ha|[<-|[]]]; [exact Ha|congruence]. }
  split; [|exact Sub]. split; [exact Ht|]. intros a Ha. apply (pool_two r n a tip Ha Ht). intros pa pb _ _ Va Vb.
  rewrite (version_rel cat s n a _ Va), (version_rel cat s n tip _ Vb).
  destruct (string_dec a tip) as [->|Ne]; [lia|]. apply Le, Sub. auto.
Qed.
End Pool.

(** ** What the job leaves, for any outcome *)
Definition only_from_to (s s' : state) (r n tip : string) : Prop :=
  (forall x, In x (delta_ids_of s' r n) -> In x (delta_ids_of s r n) \/
     exists a, In a (available_ids s r n) /\ a <> tip /\ delta_from_to s a tip x /\ ~ failed s x) /\
  (forall x, failed s' x -> failed s x \/
     exists a, In a (available_ids s r n) /\ a <> tip /\ delta_from_to s a tip x /\ older s a tip) /\
  (forall x, pool_at s x = None -> pool_at s' x <> None ->
     exists a, In a (available_ids s r n) /\ a <> tip /\ delta_from_to s a tip x /\ older s a tip /\ registered s s' a tip x).
(** nothing is unlisted, forgotten or dropped, and nothing else is touched *)
Record keeps (s s' : state) (r n : string) : Prop := {
  kp_repos : forall r', repo_exists s' r' = repo_exists s r';
  kp_other : forall r' n', (r', n') <> (r, n) -> entry_at s' r' n' = entry_at s r' n';
  kp_avail : available_ids s' r n = available_ids s r n;
  kp_pub : published s' r n = published s r n;
  kp_deltas : forall x, In x (delta_ids_of s r n) -> In x (delta_ids_of s' r n);
  kp_failed : forall x, failed s x -> failed s' x;
  kp_pool : forall x p, pool_at s x = Some p -> exists p', pool_at s' x = Some p' /\ p_meta p' = p_meta p /\ p_delta p' = p_delta p
}.
Lemma keeps_same s s' r n : st_db s' = st_db s -> keeps s s' r n.
Proof.
  intros Db. constructor; unfold repo_exists, entry_at, available_ids, published, delta_ids_of, failed, pool_at, entry_at; rewrite Db; auto. intros x p G. eauto.
Qed.
Lemma only_same s s' r n tip : st_db s' = st_db s -> only_from_to s s' r n tip.
Proof.
  intros Db. unfold only_from_to, delta_ids_of, entry_at, failed, pool_at. rewrite Db. split; [auto|]. split; [auto|]. intros x G1 G2. congruence.
Qed.
Lemma effect_obs fz s s' r n tip ids : Inv false fz [] s ->
  mget (d_ents (st_db s) r) n <> None ->
  is_tip s r n tip -> (forall a, In a ids -> In a (available_ids s r n) /\ a <> tip) ->
  effect r n tip ids (st_db s) (st_db s') ->
  keeps s s' r n /\ only_from_to s s' r n tip /\
  (forall a, In a ids -> exists x, delta_from_to s a tip x /\ (In x (delta_ids_of s' r n) \/ failed s' x \/ ~ older s a tip)).
Proof.
  intros H Ge [Ht _] Hi F. destruct (mget (d_ents (st_db s) r) n) as [e|] eqn:G; [clear Ge|congruence].
  destruct (ef_entry _ _ _ _ _ _ F e G) as (e' & G' & A1 & A2 & A3 & A4 & A5).
  assert (De : delta_ids_of s r n = e_deltas e) by (unfold delta_ids_of, entry_at; rewrite G; reflexivity).
  assert (De' : delta_ids_of s' r n = e_deltas e') by (unfold delta_ids_of, entry_at; rewrite G'; reflexivity).
  assert (Nm : forall a, In a ids -> delta_from_to s a tip (dname cat a tip) /\ (older s a tip <-> older_version (cat a) (cat tip))).
  { intros a Ha. destruct (Hi a Ha) as [Aa _]. split; [eapply dname_from_to; eauto|eapply older_iff; eauto]. }
  split; [|split].
  - constructor.
    + intros r'. unfold repo_exists. rewrite (ef_repos _ _ _ _ _ _ F). reflexivity.
    + apply (ef_other _ _ _ _ _ _ F).
    + unfold available_ids, entry_at. rewrite G, G'. exact A1.
    + unfold published, entry_at. rewrite G, G', A2. reflexivity.
    + rewrite De, De'. exact A3.
    + apply (ef_skip _ _ _ _ _ _ F).
    + apply (ef_pool _ _ _ _ _ _ F).
  - split; [|split].
    + intros x. rewrite De, De'. intros Hx. destruct (A4 x Hx) as [|(a & Ha & -> & Sk)]; [auto|]. right. exists a. destruct (Hi a Ha) as [B1 B2].
      do 2 (split; [assumption|]). split; [apply Nm, Ha|]. unfold failed. congruence.
    + intros x Hx. destruct (ef_skip_new _ _ _ _ _ _ F x Hx) as [|(a & Ha & -> & Ol)]; [auto|]. right. exists a. destruct (Hi a Ha) as [B1 B2].
      do 2 (split; [assumption|]). split; [apply Nm, Ha|]. apply Nm; assumption.
    + intros x G1 G2. unfold pool_at in *. destruct (mget (d_pool (st_db s')) x) as [p|] eqn:Gp; [|congruence].
      destruct (ef_pool_new _ _ _ _ _ _ F x p G1 Gp) as (a & Ha & -> & Ol & Dl). exists a. destruct (Hi a Ha) as [B1 B2].
      do 2 (split; [assumption|]). split; [apply Nm, Ha|]. split; [apply Nm; assumption|].
      apply (pool_two fz s H r n a tip B1 Ht). intros pa pb _ _ Va Vb. exists p. split; [exact Gp|].
      rewrite (version_rel cat s n a _ Va), (version_rel cat s n tip _ Vb). exact Dl.
  - intros a Ha. exists (dname cat a tip). split; [apply Nm, Ha|]. rewrite De'. destruct (A5 a Ha) as [X|[X|X]]; [auto|auto|].
    right; right. rewrite (proj2 (Nm a Ha)). exact X.
Qed.
Lemma job_obs fz o r n ix s : Inv false fz [] s -> good_joracle o ->
  let s' := job_after E D o r n ix s in
  keeps s s' r n /\ (st_db s' = st_db s \/ exists tip, is_tip s r n tip /\ only_from_to s s' r n tip) /\
  (job_result E D o r n ix s = Ok tt ->
     entry_at s r n <> None /\
     ((List.length (available_ids s r n) < 2 /\ st_db s' = st_db s) \/
      exists tip, is_tip s r n tip /\ only_from_to s s' r n tip /\
        forall a, In a (available_ids s r n) -> a <> tip ->
          exists x, delta_from_to s a tip x /\ (In x (delta_ids_of s' r n) \/ failed s' x \/ ~ older s a tip))).
Proof.
  intros H Ho s'. destruct (sim_job fz o r n ix s H Ho) as [_ (S & I1 & Np & s1 & r1 & (_ & _ & Jp) & Db & Ok_)].
  fold (job_after E D o r n ix s) in *. fold (job_result E D o r n ix s) in *. fold s' in S, I1, Db, Ok_.
  destruct r1 as [k| |]; [| |contradiction].
  - destruct Jp as (_ & Ge & [(Db1 & _ & L)|(tip & ids & T & At & _)]).
    + assert (Dbs : st_db s' = st_db s) by congruence. split; [apply keeps_same, Dbs|]. split; [auto|]. intros _. split; [exact Ge|]. left.
      split; [|exact Dbs]. unfold available_ids, entry_at. destruct (mget (d_ents (st_db s) r) n) as [e|] eqn:G; [|congruence]. apply L. reflexivity.
    + destruct (tip_of_avail fz s H r n tip ids T) as [It Sub]. rewrite <- Db in At.
      assert (F : effect r n tip ids (st_db s) (st_db s')).
      { apply attempts_effect; [apply (keyed_inv fz s H)| |exact At]. intros i Hi. apply Sub in Hi as [Hi _]. apply (dname_pkg fz s H r n i tip Hi). apply It. }
      destruct (effect_obs fz s s' r n tip ids H Ge It (fun a Ha => proj1 (Sub a) Ha) F) as (A & B & C).
      split; [exact A|]. split; [eauto|]. intros _. split; [exact Ge|]. right. exists tip. split; [exact It|]. split; [exact B|].
      intros a Ha Ne. apply C. apply Sub. auto.
  - split; [|split].
    3:{ intros X. destruct (Ok_ X) as (k & Y & _). discriminate. }
    + destruct Jp as [Db1|(tip & ids & l1 & l2 & T & El & At)]; [apply keeps_same; congruence|].
      destruct (tip_of_avail fz s H r n tip ids T) as [It Sub]. rewrite <- Db in At.
      assert (Ge : mget (d_ents (st_db s) r) n <> None) by (destruct T as (e & G & _); congruence).
      assert (Hl : forall a, In a l1 -> In a (available_ids s r n) /\ a <> tip) by (intros a Ha; apply Sub; rewrite El; apply in_app_iff; auto).
      assert (F : effect r n tip l1 (st_db s) (st_db s')).
      { apply attempts_effect; [apply (keyed_inv fz s H)| |exact At]. intros i Hi. apply Hl in Hi as [Hi _]. apply (dname_pkg fz s H r n i tip Hi). apply It. }
      apply (effect_obs fz s s' r n tip l1 H Ge It Hl F).
    + destruct Jp as [Db1|(tip & ids & l1 & l2 & T & El & At)]; [left; congruence|]. right. exists tip.
      destruct (tip_of_avail fz s H r n tip ids T) as [It Sub]. rewrite <- Db in At.
      assert (Ge : mget (d_ents (st_db s) r) n <> None) by (destruct T as (e & G & _); congruence).
      assert (Hl : forall a, In a l1 -> In a (available_ids s r n) /\ a <> tip) by (intros a Ha; apply Sub; rewrite El; apply in_app_iff; auto).
      assert (F : effect r n tip l1 (st_db s) (st_db s')).
      { apply attempts_effect; [apply (keyed_inv fz s H)| |exact At]. intros i Hi. apply Hl in Hi as [Hi _]. apply (dname_pkg fz s H r n i tip Hi). apply It. }
      split; [exact It|]. apply (effect_obs fz s s' r n tip l1 H Ge It Hl F).
Qed.
(** the index after the job *)
Lemma describes_at s s' r d : st_db s' = st_db s -> (forall f, asset_file s' r f = asset_file s r f) -> describes E s r d -> describes E s' r d.
Proof.
  intros Ed Ea [A1 A2 A3 A4 A5].
  assert (Ob : forall n, obsolete_name E s' r n <-> obsolete_name E s r n).
  { intros n. unfold obsolete_name, obsoletes. rewrite Ea. tauto. }
  constructor; rewrite ?Ea; auto. destruct A4 as (ns & B1 & B2 & B3). exists ns. split; [exact B1|]. split.
  - intros n. rewrite B2, Ob. unfold entry_at. rewrite Ed. tauto.
  - eapply Forall2_impl; [|exact B3]. intros n m (id & p & X & Y & Z). exists id, p. unfold published, pool_at, entry_at in *. rewrite Ed. auto.
Qed.
Lemma job_index fz o r n s : Inv false fz [] s -> good_joracle o -> no_builtin_deltas cat ->
  job_result E D o r n true s = Ok tt ->
  (exists x, pool_at s x = None /\ pool_at (job_after E D o r n true s) x <> None) ->
  exists d, describes E (job_after E D o r n true s) r d /\ (forall m, In m (doc_pkgs d) -> right_deltas (job_after E D o r n true s) r m) /\
    forall v, In v published_index_files -> index_file (job_after E D o r n true s) r v = Some (index_content E (E_render E d) v).
Proof.
  intros H Ho NB Su (x & G1 & G2). destruct (sim_job fz o r n true s H Ho) as [_ (S & I1 & Np & s1 & r1 & (_ & J1 & Jp) & Db & Ok_)].
  fold (job_after E D o r n true s) in *. fold (job_result E D o r n true s) in *. destruct (Ok_ Su) as (k & -> & X). cbn [andb] in X.
  assert (K : Nat.leb 1 k = true).
  { destruct k as [|k]; [|reflexivity]. exfalso. unfold pool_at in *. rewrite Db in G2. destruct Jp as (_ & _ & [(Db1 & _)|(tip & ids & _ & _ & Po)]); [congruence|].
    apply (Po eq_refl x) in G2. congruence. }
  rewrite K in X. destruct X as [Es Si]. rewrite Es. clear G1 G2.
  destruct (index_facts E cat Hcat HE false fz s1 (jo_index o) r J1 (gj_index _ Ho)) as (_ & F & Dbi & _ & As & _). destruct (F Si) as (d & A & B & C).
  exists d. split; [eapply describes_at; [exact Dbi|intros f; apply As|exact A]|]. split; [|exact C].
  intros m Hm. eapply right_deltas_same; [exact Dbi|]. exact (B NB m Hm).
Qed.
End Job.

(** ** C57 *)
(** A delta job is nothing but a history of requests: the state it leaves, and
    what is found after a crash anywhere in it, are reachable states, so that
    everything proved about those (C01-C05, C44, C59, C60, ...) holds there; and
    it does not panic. *)
Theorem C57_job_is_a_history :
  forall E cat D s o r n ix, good_catalog cat -> good_env E -> delta_world E cat D -> good_joracle o ->
    (reachable E cat s -> reachable E cat (job_after E D o r n ix s) /\
       (forall t, In t (job_crashes E D o r n ix s) -> reachable E cat (restart t)) /\ job_result E D o r n ix s <> Panic) /\
    (reachable_completed E cat s -> reachable_completed E cat (job_after E D o r n ix s)).
Proof.
  intros E cat D s o r n ix Hc HE HD Ho.
  assert (R : forall h h', good_history E cat h -> good_history E cat h' -> good_history E cat (h ++ h')) by (intros; apply Forall_app; auto).
  split.
  - intros (h & Hh & ->). destruct (sim_job E cat D Hc HE HD false o r n ix _ (hist_inv E cat Hc HE h Hh) Ho) as [T ((h' & A & _ & B) & _ & Np & _)].
    split; [|split; [|exact Np]].
    + exists (h ++ h'). split; [auto|]. unfold run_history. rewrite fold_left_app. symmetry. exact B.
    + intros t Ht. rewrite Forall_forall in T. destruct (T t Ht) as (h1 & A1 & B1). exists (h ++ h1). split; [auto|].
      unfold run_history. rewrite fold_left_app. symmetry. exact B1.
  - intros (h & Hh & Cf & ->). destruct (sim_job E cat D Hc HE HD false o r n ix _ (hist_inv E cat Hc HE h Hh) Ho) as [_ ((h' & A & A2 & B) & _)].
    exists (h ++ h'). split; [auto|]. split; [apply Forall_app; auto|]. unfold run_history. rewrite fold_left_app. symmetry. exact B.
Qed.
Print Assumptions C57_job_is_a_history.

(** Whatever the outcome: listings of packages, recorded failures, pool items and
    listed deltas stay; new in the listing, among the failures and in the pool are
    only deltas from another available version to the one with the highest
    release, registered with exactly those two; a delta recorded as failed is not
    attempted again. *)
Theorem C57_only_deltas_to_the_tip :
  forall E cat D s o r n ix, good_catalog cat -> good_env E -> delta_world E cat D -> good_joracle o -> reachable E cat s ->
    let s' := job_after E D o r n ix s in
    keeps s s' r n /\ (st_db s' = st_db s \/ exists tip, is_tip s r n tip /\ only_from_to s s' r n tip).
Proof.
  intros E cat D s o r n ix Hc HE HD Ho (h & Hh & ->) s'.
  destruct (job_obs E cat D Hc HE HD false o r n ix _ (hist_inv E cat Hc HE h Hh) Ho) as (A & B & _). split; assumption.
Qed.
Print Assumptions C57_only_deltas_to_the_tip.
(** On success every older version has its delta listed, or recorded as failed. *)
Theorem C57_all_deltas_attempted :
  forall E cat D s o r n ix, good_catalog cat -> good_env E -> delta_world E cat D -> good_joracle o -> reachable E cat s ->
    job_result E D o r n ix s = Ok tt ->
    let s' := job_after E D o r n ix s in
    entry_at s r n <> None /\
    ((List.length (available_ids s r n) < 2 /\ st_db s' = st_db s) \/
     exists tip, is_tip s r n tip /\ only_from_to s s' r n tip /\
       forall a, In a (available_ids s r n) -> a <> tip ->
         exists x, delta_from_to s a tip x /\ (In x (delta_ids_of s' r n) \/ failed s' x \/ ~ older s a tip)).
Proof.
  intros E cat D s o r n ix Hc HE HD Ho (h & Hh & ->) Su s'.
  apply (job_obs E cat D Hc HE HD false o r n ix _ (hist_inv E cat Hc HE h Hh) Ho). exact Su.
Qed.
Print Assumptions C57_all_deltas_attempted.

(** ** C61 *)
(** If the job made a delta, the index now offers exactly the listed deltas. *)
Theorem C61_index_after_delta_job_partial :
  forall E cat D s o r n, good_catalog cat -> good_env E -> delta_world E cat D -> good_joracle o -> no_builtin_deltas cat -> reachable E cat s ->
    job_result E D o r n true s = Ok tt ->
    let s' := job_after E D o r n true s in
    (exists x, pool_at s x = None /\ pool_at s' x <> None) ->
    exists d, describes E s' r d /\ (forall m, In m (doc_pkgs d) -> right_deltas s' r m) /\
      forall v, In v published_index_files -> index_file s' r v = Some (index_content E (E_render E d) v).
Proof.
  intros E cat D s o r n Hc HE HD Ho NB (h & Hh & ->) Su s' X.
  exact (job_index E cat D Hc HE HD false o r n _ (hist_inv E cat Hc HE h Hh) Ho NB Su X).
Qed.
Print Assumptions C61_index_after_delta_job_partial.

(** ** A world with two versions of nano and their delta *)
Definition dj_delta : string := "nano-1-2-1-x86_64.delta.eopkg".
Definition dj_cat (id : string) : meta :=
  if seqb id "nano-1.eopkg" then demo_pkg "nano" 1
  else if seqb id "nano-2.eopkg" then demo_pkg "nano" 2
  else if seqb id dj_delta then demo_pkg "nano" 2
  else if seqb id "nano-1-1-1-x86_64.delta.eopkg" then demo_pkg "nano" 1
  else if seqb id "nano-2-1-1-x86_64.delta.eopkg" then demo_pkg "nano" 1
  else if seqb id "nano-2-2-1-x86_64.delta.eopkg" then demo_pkg "nano" 2
  else demo_pkg "misc" 1.
Definition dj_parse (c : string) : res meta :=
  if seqb c "nano1" then Ok (demo_pkg "nano" 1) else if seqb c "nano2" then Ok (demo_pkg "nano" 2)
  else if seqb c "delta" then Ok (demo_pkg "nano" 2) else Err.
(** the text of the index tells whether any package has a delta *)
Definition dj_render (d : doc) : string :=
  if existsb (fun m => match m_deltas m with [] => false | _ => true end) (doc_pkgs d) then "with deltas" else "without deltas".
Definition dj_env : env :=
  Env dj_parse (fun c => "sha1:" ++ c)%string (fun c => "sha256:" ++ c)%string (fun _ _ => true)
      demo_dist demo_comps (nsort c_name) demo_groups (nsort g_name) (fun c => "xz:" ++ c)%string (fun c => "zst:" ++ c)%string dj_render.
Definition dj_open (c : string) : res eopkg :=
  if seqb c "nano1" then Ok demo_old else if seqb c "nano2" then Ok demo_new else Err.
Definition dj_denv : denv := DEnv dj_open (fun _ => "delta").
Definition dj_oracle : joracle := JOracle demo_oracle (fun l => rev (rsort l)).

Lemma dj_cat_good : good_catalog dj_cat.
Proof.
  intros id. unfold dj_cat.
  repeat match goal with |- context [if seqb id ?x then _ else _] => destruct (seqb id x) end;
    (constructor; [discriminate|vm_compute; discriminate|eexists; reflexivity|reflexivity]).
Qed.
Lemma dj_nobuiltin : no_builtin_deltas dj_cat.
Proof.
  intros id. unfold dj_cat.
  repeat match goal with |- context [if seqb id ?x then _ else _] => destruct (seqb id x) end; reflexivity.
Qed.
Lemma dj_range i : is_delta_id i = false -> dj_cat i = demo_pkg "nano" 1 \/ dj_cat i = demo_pkg "nano" 2 \/ dj_cat i = demo_pkg "misc" 1.
Proof.
  intros _. unfold dj_cat.
  repeat match goal with |- context [if seqb i ?x then _ else _] => destruct (seqb i x) end; auto.
Qed.
Lemma dj_world : delta_world dj_env dj_cat dj_denv.
Proof.
  constructor; cbn [D_open D_zip dj_denv E_parse dj_env].
  - intros c k. unfold dj_open, dj_parse. destruct (seqb c "nano1"); [intros X; injection X as <-; reflexivity|].
    destruct (seqb c "nano2"); [intros X; injection X as <-; reflexivity|discriminate].
  - intros c. unfold dj_open. destruct (seqb c "nano1"); [discriminate|]. destruct (seqb c "nano2"); discriminate.
  - intros c c' o n z. unfold dj_open.
    destruct (seqb c "nano1"); [intros X; injection X as <-|destruct (seqb c "nano2"); [intros X; injection X as <-|discriminate]];
    (destruct (seqb c' "nano1"); [intros X; injection X as <-|destruct (seqb c' "nano2"); [intros X; injection X as <-|discriminate]]);
    vm_compute; intros X; try discriminate; reflexivity.
  - intros i j Hi Hj. unfold dname.
    destruct (dj_range i Hi) as [->|[->| ->]], (dj_range j Hj) as [->|[->| ->]]; vm_compute; intros X; try discriminate; split; reflexivity.
  - intros i j Hi Hj. unfold dname. intros (A & _ & _ & u & v & hu & hv & Hu & Hv & L). revert A Hu Hv.
    destruct (dj_range i Hi) as [->|[->| ->]], (dj_range j Hj) as [->|[->| ->]]; cbn [m_hist demo_pkg]; intros A Hu Hv;
    injection Hu as <- <-; injection Hv as <- <-; cbn [u_rel] in L; try lia; try (vm_compute in A; discriminate A). vm_compute. reflexivity.
Qed.
Lemma rev_sorted (l : list meta) : descending l -> StronglySorted (fun a b => (rel a <= rel b)%Z) (rev l).
Proof.
  induction 1 as [|x l S IH F]; cbn [rev]; [constructor|]. rewrite Forall_forall in F.
  assert (G : forall a, In a (rev l) -> (rel a <= rel x)%Z) by (intros a Ha; apply F, in_rev, Ha).
  clear F S. induction (rev l) as [|y m IH']; cbn [app]; [constructor; constructor|]. inversion IH as [|? ? S F]; subst.
  constructor; [apply IH'; auto; intros a Ha; apply G; right; exact Ha|]. apply Forall_app. split; [exact F|]. constructor; [|constructor]. apply G. left. reflexivity.
Qed.
Lemma dj_oracle_good : good_joracle dj_oracle.
Proof.
  constructor; cbn [jo_index jo_asc dj_oracle].
  - apply demo_oracle_good.
  - intros l. eapply Permutation_trans; [symmetry; apply Permutation_rev|apply rsort_perm].
  - intros l. apply rev_sorted, rsort_desc.
Qed.
Definition h_dj : list event :=
  [ EvPut (ext "nano-1.eopkg") "nano1"; EvPut (ext "nano-2.eopkg") "nano2";
    EvOp demo_oracle (OpCreate "unstable");
    EvOp demo_oracle (OpAdd "unstable" [ext "nano-1.eopkg"; ext "nano-2.eopkg"] false);
    EvOp demo_oracle (OpClone "unstable" "stable" true) ].
Definition dj_s0 : state := run_history dj_env h_dj.
Definition dj_s1 : state := job_after dj_env dj_denv dj_oracle "unstable" "nano" true dj_s0.
Definition dj_s2 : state := job_after dj_env dj_denv dj_oracle "stable" "nano" true dj_s1.
Lemma dj_env_good : good_env dj_env.
Proof. constructor; try reflexivity; apply nsort_sorted. Qed.
Lemma dj_s0_reachable : reachable dj_env dj_cat dj_s0.
Proof. exists h_dj. split; [|reflexivity]. unfold good_history, h_dj. demo_hist. Qed.
Lemma dj_s1_reachable : reachable dj_env dj_cat dj_s1.
Proof.
  unfold dj_s1.
  exact (proj1 (proj1 (C57_job_is_a_history dj_env dj_cat dj_denv dj_s0 dj_oracle "unstable" "nano" true dj_cat_good dj_env_good dj_world dj_oracle_good) dj_s0_reachable)).
Qed.
(** the job makes the delta, lists it and publishes it *)
Example C57_demo :
  job_result dj_env dj_denv dj_oracle "unstable" "nano" true dj_s0 = Ok tt /\
  available_ids dj_s0 "unstable" "nano" = ["nano-1.eopkg"; "nano-2.eopkg"] /\ delta_ids_of dj_s0 "unstable" "nano" = [] /\
  delta_ids_of dj_s1 "unstable" "nano" = [dj_delta] /\ pool_at dj_s0 dj_delta = None /\ refcount dj_s1 dj_delta = 1 /\
  is_tip dj_s0 "unstable" "nano" "nano-2.eopkg" /\ older dj_s0 "nano-1.eopkg" "nano-2.eopkg" /\
  registered dj_s0 dj_s1 "nano-1.eopkg" "nano-2.eopkg" dj_delta /\
  List.length (job_crashes dj_env dj_denv dj_oracle "unstable" "nano" true dj_s0) > 20.
Proof.
  assert (O : older dj_s0 "nano-1.eopkg" "nano-2.eopkg").
  { eexists. eexists. split; [vm_compute; reflexivity|]. split; [vm_compute; reflexivity|]. do 3 (split; [reflexivity|]).
    do 4 eexists. split; [reflexivity|]. split; [reflexivity|]. reflexivity. }
  split; [vm_compute; reflexivity|]. split; [vm_compute; reflexivity|]. split; [vm_compute; reflexivity|].
  split; [vm_compute; reflexivity|]. split; [vm_compute; reflexivity|]. split; [vm_compute; reflexivity|]. split; [|split; [exact O|split]].
  - split; [vm_compute; auto|]. intros a Ha. vm_compute in Ha. destruct Ha as [<-|[<-|[]]]; eexists; eexists; (split; [vm_compute; reflexivity|]); (split; [vm_compute; reflexivity|]); vm_compute; discriminate.
  - eexists. eexists. split; [vm_compute; reflexivity|]. split; [vm_compute; reflexivity|]. eexists. split; [vm_compute; reflexivity|]. vm_compute. reflexivity.
  - apply Nat.ltb_lt. vm_compute. reflexivity.
Qed.
(** C61 is false: the same delta in a second repository is only referenced, and
    then no index is written (the counter counts produced deltas only). *)
Theorem C61_index_after_delta_job_refuted :
  exists E cat D s o r n x, good_catalog cat /\ good_env E /\ delta_world E cat D /\ good_joracle o /\ reachable E cat s /\
    let s' := job_after E D o r n true s in
    job_result E D o r n true s = Ok tt /\ ~ In x (delta_ids_of s r n) /\ In x (delta_ids_of s' r n) /\
    ~ exists d, describes E s' r d /\ (forall m, In m (doc_pkgs d) -> right_deltas s' r m) /\
        index_file s' r "eopkg-index.xml" = Some (E_render E d).
Proof.
  exists dj_env, dj_cat, dj_denv, dj_s1, dj_oracle, "stable", "nano", dj_delta.
  split; [apply dj_cat_good|]. split; [apply dj_env_good|]. split; [apply dj_world|]. split; [apply dj_oracle_good|]. split.
  { apply dj_s1_reachable. }
  intros s'. assert (Es : s' = dj_s2) by (unfold s', dj_s2; exact eq_refl). clearbody s'. subst s'. split; [vm_compute; reflexivity|]. split; [vm_compute; intros []|]. split; [vm_compute; auto|].
  intros (d & Ds & Rd & If).
  assert (Ix : index_file dj_s2 "stable" "eopkg-index.xml" = Some "without deltas") by (vm_compute; reflexivity).
  rewrite Ix in If. injection If as If. cbn [E_render dj_env] in If. unfold dj_render in If.
  destruct (ds_pkgs _ _ _ _ Ds) as (ns & _ & Hn & F2).
  assert (Hin : In "nano" ns).
  { apply Hn. split; [eexists; vm_compute; reflexivity|]. unfold obsolete_name, obsoletes.
    replace (asset_file dj_s2 "stable" "distribution.xml") with (@None string) by (vm_compute; reflexivity). intros [[]|(b & _ & [])]. }
  assert (Hm : exists m, In m (doc_pkgs d) /\ is_record dj_s2 "stable" "nano" m).
  { clear - Hin F2. induction F2 as [|n m ns ms A B IH]; [destruct Hin|]. destruct Hin as [->|Hin]; [exists m; split; [left; reflexivity|exact A]|].
    destruct (IH Hin) as (m' & X & Y). exists m'. split; [right; exact X|exact Y]. }
  destruct Hm as (m & Hm & id & p & Pu & Pl & Sd).
  assert (Em : m_name m = "nano" /\ rel m = 2%Z).
  { assert (P1 : published dj_s2 "stable" "nano" = Some "nano-2.eopkg") by (vm_compute; reflexivity). rewrite P1 in Pu. injection Pu as <-.
    assert (P2 : m_name (p_meta p) = "nano" /\ rel (p_meta p) = 2%Z).
    { vm_compute in Pl. injection Pl as <-. split; reflexivity. }
    assert (Q1 : m_name m = m_name (p_meta p)) by (apply (f_equal m_name) in Sd; exact Sd).
    assert (Q2 : m_hist m = m_hist (p_meta p)) by (apply (f_equal m_hist) in Sd; exact Sd).
    unfold rel in *. rewrite Q1, Q2. exact P2. }
  destruct Em as [En Er]. destruct (Rd m Hm) as (ids & _ & Hids & F3). rewrite En, Er in Hids.
  assert (Hd : In dj_delta ids).
  { apply Hids. split; [vm_compute; auto|]. eexists. eexists. split; [vm_compute; reflexivity|]. split; [vm_compute; reflexivity|]. vm_compute. reflexivity. }
  assert (Nd : m_deltas m <> []). { intros X. rewrite X in F3. inversion F3. subst. destruct Hd. }
  replace (existsb _ (doc_pkgs d)) with true in If; [discriminate If|]. symmetry. apply existsb_exists. exists m. split; [exact Hm|].
  destruct (m_deltas m); [congruence|reflexivity].
Qed.
Print Assumptions C61_index_after_delta_job_refuted.
