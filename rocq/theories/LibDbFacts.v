(** * LibDbFacts: proofs about the database layer *)
From Coq Require Import OrderedTypeEx.
From Verif Require Import Base Model LibDb.
Open Scope string_scope. Open Scope list_scope.

(** ** Strings *)
Lemma has_prefix_app p a b : has_prefix (p ++ a) (p ++ b) = has_prefix a b.
Proof. induction p as [|c p IH]; simpl; [reflexivity|]. rewrite Ascii.eqb_refl. exact IH. Qed.
Lemma has_prefix_self p a : has_prefix p (p ++ a) = true.
Proof. apply has_prefix_spec. exists a; reflexivity. Qed.
Lemma has_prefix_refl p : has_prefix p p = true.
Proof. rewrite <- (sapp_nil_r p) at 2. apply has_prefix_self. Qed.
Lemma has_prefix_l p a s : has_prefix (p ++ a) s = true -> has_prefix p s = true.
Proof. rewrite !has_prefix_spec. intros (t & ->). exists (a ++ t)%string. apply sapp_assoc. Qed.
Lemma trim_self p a : trim_prefix p (p ++ a) = a.
Proof. unfold trim_prefix. rewrite has_prefix_self. apply sdrop_app. Qed.

Lemma slt_cons a b x y :
  slt (String a x) (String b y) <-> (nat_of_ascii a < nat_of_ascii b \/ (a = b /\ slt x y))%nat.
Proof.
  unfold slt. split.
  - intros H. inversion H; subst; auto.
  - intros [H|[-> H]]; [apply String_as_OT.lts_head | apply String_as_OT.lts_tail]; assumption.
Qed.
Lemma slt_app p a b : slt (p ++ a) (p ++ b) <-> slt a b.
Proof.
  induction p as [|c p IH]; simpl; [reflexivity|]. rewrite slt_cons, IH. split; [intros [H|[_ H]]; [lia|exact H]|auto].
Qed.

(** ** Closed form of prefixes *)
Fixpoint brep (k : nat) : string := match k with O => "" | S k' => ("|bucket|-" ++ brep k')%string end.
Fixpoint dashes (path : list string) : string := match path with [] => "" | n :: p => ("-" ++ n ++ dashes p)%string end.
Lemma brep_comm k x : (brep k ++ "|bucket|-" ++ x = "|bucket|-" ++ brep k ++ x)%string.
Proof. induction k as [|k IH]; [reflexivity|]. cbn [brep]. rewrite !sapp_assoc, IH. reflexivity. Qed.
Lemma below_form path p : below p path = (brep (List.length path) ++ p ++ dashes path)%string.
Proof.
  unfold below. revert p; induction path as [|n path IH]; intros p; simpl.
  - rewrite sapp_nil_r. reflexivity.
  - rewrite IH. unfold sub_bucket, bucket_mark.
    transitivity (brep (List.length path) ++ "|bucket|-" ++ (p ++ "-" ++ n) ++ dashes path)%string; [reflexivity|].
    rewrite brep_comm, !sapp_assoc. reflexivity.
Qed.
Lemma handle_form path : handle_prefix path = (brep (List.length path) ++ root_prefix ++ dashes path)%string.
Proof. exact (below_form path root_prefix). Qed.

Lemma brep_prefix j k x y :
  has_prefix (brep j ++ root_prefix ++ x) (brep k ++ root_prefix ++ y) = true <-> j = k /\ has_prefix x y = true.
Proof.
  revert k; induction j as [|j IH]; intros [|k]; cbn [brep].
  - cbn [append]. rewrite has_prefix_app. split; [auto|intros [_ H]; exact H].
  - split; [intros H; vm_compute in H; discriminate|intros [H _]; discriminate].
  - split; [intros H; vm_compute in H; discriminate|intros [H _]; discriminate].
  - rewrite !sapp_assoc, has_prefix_app, IH. split; intros [A B]; split; congruence.
Qed.

(** the bucket at [p] iterates over a key of the bucket at [q] *)
Lemma sees_iff p q id :
  has_prefix (handle_prefix p) (real_key (handle_prefix q) id) = true <->
  List.length p = List.length q /\ has_prefix (dashes p) (dashes q ++ "-" ++ id) = true.
Proof.
  unfold real_key. rewrite !handle_form, !sapp_assoc. apply brep_prefix.
Qed.

Lemma real_key_prefix P id : has_prefix P (real_key P id) = true.
Proof. apply has_prefix_self. Qed.
Lemma real_key_inj P a b : real_key P a = real_key P b -> a = b.
Proof. unfold real_key. intros H. apply sapp_inj_l in H. injection H. auto. Qed.
Lemma real_key_key_prefix P id : real_key P id = (key_prefix P ++ id)%string.
Proof. unfold real_key, key_prefix. rewrite sapp_assoc. reflexivity. Qed.

Lemma trim_real P id : trim_prefix (key_prefix P) (real_key P id) = id.
Proof. rewrite real_key_key_prefix. apply trim_self. Qed.

(** ** Writes outside the range of a bucket are invisible to it *)
Lemma filter_lput_out (P : string) k (v : string) l :
  has_prefix P k = false ->
  filter (fun kv => has_prefix P (fst kv)) (lput k v l) = filter (fun kv => has_prefix P (fst kv)) l.
Proof.
  intros H. induction l as [|[k2 v2] l IH]; simpl.
  - rewrite H. reflexivity.
  - destruct (seqb_spec k k2) as [->|N]; [simpl; rewrite H; reflexivity|].
    destruct (sltb k2 k); simpl; [rewrite IH; reflexivity|]. rewrite H. reflexivity.
Qed.
Lemma filter_ldel_out (P : string) k (l : list (string * string)) :
  has_prefix P k = false ->
  filter (fun kv => has_prefix P (fst kv)) (ldel k l) = filter (fun kv => has_prefix P (fst kv)) l.
Proof.
  intros H. induction l as [|[k2 v2] l IH]; simpl; [reflexivity|].
  destruct (seqb_spec k k2) as [->|N]; simpl; [rewrite ?H; try reflexivity; exact IH|]. rewrite IH. reflexivity.
Qed.
Lemma each_out db P w : has_prefix P (fst w) = false -> ldb_each (apply_write db w) P = ldb_each db P.
Proof.
  intros H. unfold ldb_each, apply_write. destruct (snd w); simpl.
  - f_equal. exact (filter_lput_out P (fst w) s (mlist db) H).
  - f_equal. exact (filter_ldel_out P (fst w) (mlist db) H).
Qed.
Lemma get_out db P w id : real_key P id <> fst w -> ldb_get (apply_write db w) P id = ldb_get db P id.
Proof.
  intros H. unfold ldb_get, apply_write. destruct (snd w); [apply mget_put_ne|apply mget_del_ne]; exact H.
Qed.

(** ** What iteration shows *)
Lemma map_trim_sorted P (l : list (string * string)) :
  StronglySorted klt l -> (forall kv, In kv l -> exists id, fst kv = real_key P id) ->
  StronglySorted klt (map (fun kv => (trim_prefix (key_prefix P) (fst kv), snd kv)) l).
Proof.
  intros S. induction S as [|[k v] l S IH F]; intros D; simpl; [constructor|].
  constructor; [apply IH; intros kv H; apply D; right; exact H|].
  rewrite Forall_forall in *. intros [k2 v2] H. apply in_map_iff in H as ([k3 v3] & E & H).
  specialize (F _ H). unfold klt in *; cbn [fst snd] in *. injection E as <- <-.
  destruct (D _ (or_introl eq_refl)) as (i & Ei). destruct (D _ (or_intror H)) as (j & Ej). cbn [fst] in *. subst.
  rewrite !real_key_key_prefix in F. rewrite !real_key_key_prefix, !trim_self. apply slt_app in F. exact F.
Qed.
Lemma filter_klt_sorted P (db : flat) : StronglySorted klt (filter (fun kv => has_prefix P (fst kv)) (mlist db)).
Proof. apply filter_sorted. apply mlist_sorted. Qed.
(** the keys in the range of a bucket all belong to it *)
Definition owned (db : flat) (P : string) : Prop :=
  forall k v, mget db k = Some v -> has_prefix P k = true -> exists id, k = real_key P id.
Lemma each_In db P id v : owned db P -> (In (id, v) (ldb_each db P) <-> ldb_get db P id = Some v).
Proof.
  intros O. unfold ldb_each, ldb_get. rewrite in_map_iff. split.
  - intros ([k w] & E & H). apply filter_In in H as [H1 H2]. cbn [fst snd] in *. injection E as <- <-.
    apply in_mlist in H1. destruct (O _ _ H1 H2) as (i & ->).
    rewrite trim_real. exact H1.
  - intros H. exists (real_key P id, v). cbn [fst snd]. split; [rewrite trim_real; reflexivity|].
    apply filter_In. split; [apply in_mlist; exact H|apply real_key_prefix].
Qed.
Lemma each_sorted db P : owned db P -> StronglySorted klt (ldb_each db P).
Proof.
  intros O. apply map_trim_sorted; [apply filter_klt_sorted|].
  intros [k v] H. apply filter_In in H as [H1 H2]. apply (O k v); [apply in_mlist; exact H1|exact H2].
Qed.
Lemma each_view db P L : owned db P -> StronglySorted klt L ->
  (forall id v, In (id, v) L <-> ldb_get db P id = Some v) -> ldb_each db P = L.
Proof.
  intros O S H. apply klt_list_ext; [apply each_sorted; exact O|exact S|].
  intros [id v]. rewrite each_In by exact O. symmetry. apply H.
Qed.

(** ** Big endian *)
Open Scope N_scope.
Lemma N_ascii n : n < 256 -> N_of_ascii (ascii_of_N n) = n.
Proof. intros H. apply N_ascii_embedding. exact H. Qed.
Lemma pow256_pos k : 0 < 256 ^ k.
Proof. apply N.neq_0_lt_0, N.pow_nonzero. discriminate. Qed.
Lemma pow256_S k : 256 ^ N.of_nat (S k) = 256 * 256 ^ N.of_nat k.
Proof. rewrite Nnat.Nat2N.inj_succ, N.pow_succ_r'. reflexivity. Qed.
Lemma be_length k n : String.length (be k n) = k.
Proof. induction k as [|k IH]; simpl; [reflexivity|rewrite IH; reflexivity]. Qed.
Lemma be_value_be k n acc : be_value (be k n) acc = acc * 256 ^ N.of_nat k + n mod 256 ^ N.of_nat k.
Proof.
  revert acc; induction k as [|k IH]; intros acc.
  - simpl. rewrite N.mod_1_r. lia.
  - cbn [be be_value]. rewrite IH, N_ascii by (apply N.mod_lt; discriminate).
    rewrite pow256_S. pose proof (pow256_pos (N.of_nat k)) as P. set (p := 256 ^ N.of_nat k) in *.
    rewrite (N.mul_comm 256 p), (N.mod_mul_r n p 256) by lia. lia.
Qed.
Lemma be_mod k n : be k (n mod 256 ^ N.of_nat k) = be k n.
Proof.
  assert (G : forall j a b, (j <= k)%nat -> a mod 256 ^ N.of_nat j = b mod 256 ^ N.of_nat j -> be j a = be j b).
  { induction j as [|j IH]; intros a b L H; [reflexivity|]. cbn [be].
    rewrite pow256_S in H. pose proof (pow256_pos (N.of_nat j)) as P. set (p := 256 ^ N.of_nat j) in *.
    rewrite (N.mul_comm 256 p), !(N.mod_mul_r _ p 256) in H by lia.
    assert (Ha := N.mod_lt a p ltac:(lia)). assert (Hb := N.mod_lt b p ltac:(lia)).
    destruct (N.div_mod_unique p (a / p mod 256) (b / p mod 256) (a mod p) (b mod p) Ha Hb ltac:(lia)) as [Hq Hm].
    rewrite Hq. f_equal. apply IH; [lia|exact Hm]. }
  apply G; [lia|]. rewrite N.mod_mod by (apply N.pow_nonzero; discriminate). reflexivity.
Qed.
Lemma nat_of_ascii_N n : n < 256 -> nat_of_ascii (ascii_of_N n) = N.to_nat n.
Proof. intros H. unfold nat_of_ascii. rewrite N_ascii by exact H. reflexivity. Qed.
Lemma be_lt k n m : n < m -> m < 256 ^ N.of_nat k -> slt (be k n) (be k m).
Proof.
  revert n m; induction k as [|k IH]; intros n m L B; [simpl in B; lia|].
  rewrite pow256_S in B. cbn [be]. pose proof (pow256_pos (N.of_nat k)) as P.
  rewrite <- (be_mod k n), <- (be_mod k m). set (p := 256 ^ N.of_nat k) in *.
  pose proof (N.div_mod n p ltac:(lia)) as En. pose proof (N.div_mod m p ltac:(lia)) as Em.
  pose proof (N.mod_lt n p ltac:(lia)) as Bn. pose proof (N.mod_lt m p ltac:(lia)) as Bm.
  assert (Qm : m / p < 256) by (apply N.div_lt_upper_bound; lia).
  assert (Qn : n / p <= m / p) by (apply N.div_le_mono; lia).
  rewrite !(N.mod_small (_ / _) 256) by lia. apply slt_cons. rewrite !nat_of_ascii_N by lia.
  destruct (N.eq_dec (n / p) (m / p)) as [E|NE]; [right|left; lia].
  split; [rewrite E; reflexivity|]. apply IH; [rewrite E in En; lia|exact Bm].
Qed.
Lemma be64_lt n m : n < m -> m < 2 ^ 64 -> slt (be64 n) (be64 m).
Proof. intros L B. apply be_lt; [exact L|exact B]. Qed.
Lemma be64_value n : n < 2 ^ 64 -> be_value (be64 n) 0 = n.
Proof. intros B. unfold be64. rewrite be_value_be. rewrite N.mod_small; [lia|exact B]. Qed.
Lemma be64_inj n m : n < 2 ^ 64 -> m < 2 ^ 64 -> be64 n = be64 m -> n = m.
Proof. intros A B H. rewrite <- (be64_value n A), <- (be64_value m B), H. reflexivity. Qed.
Close Scope N_scope.

(** ** The buckets of the manager database *)
Fixpoint contains (sub s : string) : bool :=
  has_prefix sub s || match s with EmptyString => false | String _ s' => contains sub s' end.
(** repository names that keep their buckets apart *)
Definition safe_repo (r : string) : bool := negb (contains "-package" r).
Inductive mgr_bucket : list string -> Prop :=
| MB_repo : mgr_bucket ["repo"]
| MB_pool : mgr_bucket ["pool"]
| MB_skip : mgr_bucket ["deltaSkip"]
| MB_pkg r : safe_repo r = true -> mgr_bucket ["repo"; r; "package"].

Lemma safe_tail c r : safe_repo (String c r) = true -> safe_repo r = true.
Proof. unfold safe_repo. cbn [contains]. rewrite negb_orb, andb_true_iff. tauto. Qed.
Lemma safe_head r t : safe_repo r = true -> r <> ("-package" ++ t)%string.
Proof. intros H ->. vm_compute in H. discriminate. Qed.
Lemma pkg_apart r1 r2 t :
  safe_repo r1 = true -> safe_repo r2 = true ->
  has_prefix (r1 ++ "-package") (r2 ++ "-package" ++ t) = true -> r1 = r2.
Proof.
  revert r2; induction r1 as [|c1 r1 IH]; intros [|c2 r2] S1 S2 H.
  - reflexivity.
  - exfalso. clear S1.
    do 7 (cbn [has_prefix append] in H; apply andb_true_iff in H as [A H]; apply Ascii.eqb_eq in A;
          destruct r2 as [|? r2]; [subst; cbn in H; discriminate H|subst]).
    cbn [has_prefix append] in H. apply andb_true_iff in H as [A _]. apply Ascii.eqb_eq in A. subst. vm_compute in S2. discriminate.
  - exfalso. clear S2 IH.
    do 7 (cbn [has_prefix append] in H; apply andb_true_iff in H as [A H]; apply Ascii.eqb_eq in A;
          destruct r1 as [|? r1]; [subst; cbn in H; discriminate H|subst]).
    cbn [has_prefix append] in H. apply andb_true_iff in H as [A _]. apply Ascii.eqb_eq in A. subst. vm_compute in S1. discriminate.
  - cbn [has_prefix append] in H. apply andb_true_iff in H as [A H]. apply Ascii.eqb_eq in A. subst.
    f_equal. apply IH; [exact (safe_tail _ _ S1)|exact (safe_tail _ _ S2)|exact H].
Qed.
Lemma mgr_apart p q id : mgr_bucket p -> mgr_bucket q -> p <> q ->
  has_prefix (handle_prefix p) (real_key (handle_prefix q) id) = false.
Proof.
  intros Hp Hq N. destruct (has_prefix _ _) eqn:E; [exfalso|reflexivity].
  apply sees_iff in E as [L E]. destruct Hp as [| | |r1 S1], Hq as [| | |r2 S2]; try discriminate L; try (apply N; reflexivity);
    try (vm_compute in E; discriminate E).
  assert (F : has_prefix ("-repo-" ++ (r1 ++ "-package")) ("-repo-" ++ (r2 ++ "-package" ++ ("-" ++ id))) = true).
  { etransitivity; [|exact E]. f_equal. cbn [dashes]. cbn [append]. do 6 f_equal. rewrite sapp_assoc. reflexivity. }
  rewrite has_prefix_app in F. apply pkg_apart in F; [subst; apply N; reflexivity|exact S1|exact S2].
Qed.
Lemma mgr_keys_ne p q i j : mgr_bucket p -> mgr_bucket q -> p <> q ->
  real_key (handle_prefix p) i <> real_key (handle_prefix q) j.
Proof.
  intros Hp Hq N E. pose proof (mgr_apart p q j Hp Hq N) as H. rewrite <- E, real_key_prefix in H. discriminate.
Qed.

(** ** The buckets of the job database *)
Inductive job_bucket : list string -> Prop :=
| JB_async : job_bucket ["Async"]
| JB_sync : job_bucket ["Sync"]
| JB_ok : job_bucket ["CompletedSuccess"]
| JB_fail : job_bucket ["CompletedFailure"]
| JB_okrec : job_bucket ["CompletedSuccess"; "Record"]
| JB_failrec : job_bucket ["CompletedFailure"; "Record"].
Lemma job_apart p q id : job_bucket p -> job_bucket q -> p <> q ->
  has_prefix (handle_prefix p) (real_key (handle_prefix q) id) = false.
Proof.
  intros Hp Hq N. destruct Hp, Hq; try (exfalso; apply N; reflexivity); reflexivity.
Qed.

(** ** The typed database of Model.v in the flat key space *)
Section Refine.
Variable enc_repo : string -> string.     (* gob bytes of a Repository record *)
Variable enc_ent : entry -> string.
Variable enc_pool : pentry -> string.
Variable enc_skip : sentry -> string.

(** the raw write a typed write becomes *)
Definition raw (o : dbop) : write :=
  match o with
  | PutRepo id => (real_key (handle_prefix ["repo"]) id, Some (enc_repo id))
  | DelRepo id => (real_key (handle_prefix ["repo"]) id, None)
  | PutEnt r e => (real_key (handle_prefix ["repo"; r; "package"]) (e_name e), Some (enc_ent e))
  | DelEnt r n => (real_key (handle_prefix ["repo"; r; "package"]) n, None)
  | PutPool p => (real_key (handle_prefix ["pool"]) (p_name p), Some (enc_pool p))
  | DelPool id => (real_key (handle_prefix ["pool"]) id, None)
  | PutSkip k => (real_key (handle_prefix ["deltaSkip"]) (k_name k), Some (enc_skip k))
  end.
Definition safe_op (o : dbop) : bool :=
  match o with PutEnt r _ | DelEnt r _ => safe_repo r | _ => true end.

(** what a bucket holds according to the typed database *)
Definition held {A} (enc : string -> A -> string) (m : smap A) (id : string) : option string :=
  match mget m id with Some x => Some (enc id x) | None => None end.
Record repr (fl : flat) (d : db) : Prop := {
  rp_repo : forall id, ldb_get fl (handle_prefix ["repo"]) id = held (fun id _ => enc_repo id) (d_repos d) id;
  rp_pool : forall id, ldb_get fl (handle_prefix ["pool"]) id = held (fun _ => enc_pool) (d_pool d) id;
  rp_skip : forall id, ldb_get fl (handle_prefix ["deltaSkip"]) id = held (fun _ => enc_skip) (d_skip d) id;
  rp_ents : forall r, safe_repo r = true -> forall n,
      ldb_get fl (handle_prefix ["repo"; r; "package"]) n = held (fun _ => enc_ent) (d_ents d r) n;
  rp_keys : forall k v, mget fl k = Some v -> exists p id, mgr_bucket p /\ k = real_key (handle_prefix p) id
}.

Lemma repr_init : repr mempty init_db.
Proof. constructor; try reflexivity. intros k v H. rewrite mget_empty in H. discriminate. Qed.

Lemma repr_owned fl d p : repr fl d -> mgr_bucket p -> owned fl (handle_prefix p).
Proof.
  intros R Hp k v H Hx. destruct (rp_keys _ _ R k v H) as (q & id & Hq & ->). exists id.
  destruct (list_eq_dec string_dec p q) as [->|N]; [reflexivity|].
  rewrite (mgr_apart p q id Hp Hq N) in Hx. discriminate.
Qed.

Lemma raw_bucket o : safe_op o = true -> exists q id, mgr_bucket q /\ fst (raw o) = real_key (handle_prefix q) id.
Proof.
  destruct o; cbn [raw fst safe_op]; intros H; do 2 eexists; (split; [|reflexivity]); constructor; exact H.
Qed.
Lemma get_write_other fl w p q id i : mgr_bucket p -> mgr_bucket q -> p <> q -> fst w = real_key (handle_prefix q) i ->
  ldb_get (apply_write fl w) (handle_prefix p) id = ldb_get fl (handle_prefix p) id.
Proof. intros Hp Hq N E. apply get_out. rewrite E. apply mgr_keys_ne; assumption. Qed.
Lemma get_put_same fl P i v id :
  ldb_get (apply_write fl (real_key P i, Some v)) P id = if seqb id i then Some v else ldb_get fl P id.
Proof.
  unfold ldb_get, apply_write. cbn [fst snd]. rewrite mget_put.
  destruct (seqb_spec id i) as [->|N]; [rewrite seqb_refl; reflexivity|].
  destruct (seqb_spec (real_key P id) (real_key P i)) as [E|_]; [apply real_key_inj in E; contradiction|reflexivity].
Qed.
Lemma get_del_same fl P i id :
  ldb_get (apply_write fl (real_key P i, None)) P id = if seqb id i then None else ldb_get fl P id.
Proof.
  unfold ldb_get, apply_write. cbn [fst snd]. rewrite mget_del.
  destruct (seqb_spec id i) as [->|N]; [rewrite seqb_refl; reflexivity|].
  destruct (seqb_spec (real_key P id) (real_key P i)) as [E|_]; [apply real_key_inj in E; contradiction|reflexivity].
Qed.
Lemma held_put {A} (enc : string -> A -> string) m i x id :
  held enc (mput m i x) id = if seqb id i then Some (enc id x) else held enc m id.
Proof. unfold held. rewrite mget_put. destruct (seqb id i); reflexivity. Qed.
Lemma held_del {A} (enc : string -> A -> string) m i id :
  held enc (mdel m i) id = if seqb id i then None else held enc m id.
Proof. unfold held. rewrite mget_del. destruct (seqb id i); reflexivity. Qed.

Lemma raw_keys fl d o : repr fl d -> safe_op o = true ->
  forall k v, mget (apply_write fl (raw o)) k = Some v -> exists p id, mgr_bucket p /\ k = real_key (handle_prefix p) id.
Proof.
  intros R So k v H. destruct (raw_bucket o So) as (q & i & Hq & E). unfold apply_write in H.
  destruct (snd (raw o)).
  - rewrite mget_put in H. destruct (seqb_spec k (fst (raw o))) as [->|_]; [exists q, i; auto|exact (rp_keys _ _ R k v H)].
  - rewrite mget_del in H. destruct (seqb k (fst (raw o))); [discriminate|exact (rp_keys _ _ R k v H)].
Qed.

Lemma repr_step fl d o : repr fl d -> safe_op o = true -> repr (apply_write fl (raw o)) (apply_op d o).
Proof.
  intros R So.
  assert (O : forall p, mgr_bucket p -> (exists q i, mgr_bucket q /\ fst (raw o) = real_key (handle_prefix q) i /\ p <> q) ->
              forall id, ldb_get (apply_write fl (raw o)) (handle_prefix p) id = ldb_get fl (handle_prefix p) id).
  { intros p Hp (q & i & Hq & E & N) id. exact (get_write_other fl (raw o) p q id i Hp Hq N E). }
  constructor; [| | | |exact (raw_keys fl d o R So)].
  - intros id. destruct o;
      try (rewrite O; [exact (rp_repo _ _ R id)|constructor|do 2 eexists; cbn [raw fst]; split; [|split; [reflexivity|congruence]]; constructor; exact So]).
    + cbn [raw apply_op d_repos]. rewrite get_put_same, held_put, (rp_repo _ _ R). match goal with |- context [seqb id ?y] => destruct (seqb_spec id y) as [->|] end; reflexivity.
    + cbn [raw apply_op d_repos]. rewrite get_del_same, held_del, (rp_repo _ _ R). reflexivity.
  - intros id. destruct o;
      try (rewrite O; [exact (rp_pool _ _ R id)|constructor|do 2 eexists; cbn [raw fst]; split; [|split; [reflexivity|congruence]]; constructor; exact So]).
    + cbn [raw apply_op d_pool]. rewrite get_put_same, held_put, (rp_pool _ _ R). reflexivity.
    + cbn [raw apply_op d_pool]. rewrite get_del_same, held_del, (rp_pool _ _ R). reflexivity.
  - intros id. destruct o;
      try (rewrite O; [exact (rp_skip _ _ R id)|constructor|do 2 eexists; cbn [raw fst]; split; [|split; [reflexivity|congruence]]; constructor; exact So]).
    cbn [raw apply_op d_skip]. rewrite get_put_same, held_put, (rp_skip _ _ R). reflexivity.
  - intros r Sr id. destruct o as [i|i|r2 e|r2 n|p|i|k];
      try (rewrite O; [exact (rp_ents _ _ R r Sr id)|constructor; exact Sr|do 2 eexists; cbn [raw fst]; split; [|split; [reflexivity|congruence]]; constructor]).
    + destruct (string_dec r r2) as [<-|N].
      * cbn [raw apply_op d_ents]. rewrite get_put_same, fupd_eq, held_put, (rp_ents _ _ R r Sr). reflexivity.
      * rewrite O; [cbn [apply_op d_ents]; rewrite fupd_ne by exact N; exact (rp_ents _ _ R r Sr id)|constructor; exact Sr|].
        do 2 eexists; cbn [raw fst]; split; [|split; [reflexivity|congruence]]; constructor; exact So.
    + destruct (string_dec r r2) as [<-|N].
      * cbn [raw apply_op d_ents]. rewrite get_del_same, fupd_eq, held_del, (rp_ents _ _ R r Sr). reflexivity.
      * rewrite O; [cbn [apply_op d_ents]; rewrite fupd_ne by exact N; exact (rp_ents _ _ R r Sr id)|constructor; exact Sr|].
        do 2 eexists; cbn [raw fst]; split; [|split; [reflexivity|congruence]]; constructor; exact So.
Qed.
Lemma repr_batch ops fl d : repr fl d -> forallb safe_op ops = true ->
  repr (fold_left apply_write (map raw ops) fl) (fold_left apply_op ops d).
Proof.
  revert fl d; induction ops as [|o ops IH]; intros fl d R S; [exact R|]. simpl in *.
  apply andb_true_iff in S as [S1 S2]. apply IH; [apply repr_step; assumption|exact S2].
Qed.

(** iterating a bucket shows exactly the typed bucket, in key order *)
Definition shown {A} (enc : string -> A -> string) (m : smap A) : list (string * string) :=
  map (fun kv => (fst kv, enc (fst kv) (snd kv))) (mlist m).
Lemma shown_sorted {A} (enc : string -> A -> string) m : StronglySorted klt (shown enc m).
Proof.
  unfold shown. pose proof (mlist_sorted m) as S. induction S as [|kv l S IH F]; simpl; [constructor|].
  constructor; [exact IH|]. rewrite Forall_forall in *. intros x Hx. apply in_map_iff in Hx as (y & <- & Hy).
  exact (F y Hy).
Qed.
Lemma shown_In {A} (enc : string -> A -> string) m id v : In (id, v) (shown enc m) <-> held enc m id = Some v.
Proof.
  unfold shown, held. rewrite in_map_iff. split.
  - intros ([k x] & E & H). injection E as <- <-. apply in_mlist in H. rewrite H. reflexivity.
  - destruct (mget m id) as [x|] eqn:G; intros H; [|discriminate]. injection H as <-.
    exists (id, x). split; [reflexivity|apply in_mlist; exact G].
Qed.
Lemma each_shown {A} (enc : string -> A -> string) (m : smap A) fl d p :
  repr fl d -> mgr_bucket p -> (forall id, ldb_get fl (handle_prefix p) id = held enc m id) ->
  ldb_each fl (handle_prefix p) = shown enc m.
Proof.
  intros R Hp H. apply each_view; [exact (repr_owned fl d p R Hp)|apply shown_sorted|].
  intros id v. rewrite shown_In, H. reflexivity.
Qed.
End Refine.

(** ** Transactions *)
(** the accepted writes of a run, in order *)
Inductive tx_run (db : flat) (p : string) : prog -> list write -> bool -> Prop :=
| R_get path id k ws ok : tx_run db p (k (ldb_get db (below p path) id)) ws ok -> tx_run db p (TGet path id k) ws ok
| R_each path k ws ok : tx_run db p (k (ldb_each db (below p path))) ws ok -> tx_run db p (TEach path k) ws ok
| R_put path id v k ws ok : reserved id = false -> tx_run db p (k true) ws ok ->
    tx_run db p (TPut path id v k) ((real_key (below p path) id, Some v) :: ws) ok
| R_put_refused path id v k ws ok : reserved id = true -> tx_run db p (k false) ws ok -> tx_run db p (TPut path id v k) ws ok
| R_del path id k ws ok : reserved id = false -> tx_run db p (k true) ws ok ->
    tx_run db p (TDel path id k) ((real_key (below p path) id, None) :: ws) ok
| R_del_refused path id k ws ok : reserved id = true -> tx_run db p (k false) ws ok -> tx_run db p (TDel path id k) ws ok
| R_done ok : tx_run db p (TDone ok) [] ok.

Lemma tx_run_sound db p t : forall ws ok, tx_run db p t ws ok -> forall b, run_tx db p b t = (b ++ ws, ok).
Proof.
  intros ws ok H. induction H; intros b; cbn [run_tx]; auto.
  - rewrite H. rewrite IHtx_run, <- app_assoc. reflexivity.
  - rewrite H. apply IHtx_run.
  - rewrite H. rewrite IHtx_run, <- app_assoc. reflexivity.
  - rewrite H. apply IHtx_run.
  - rewrite app_nil_r. reflexivity.
Qed.
Lemma tx_run_total db p t : exists ws ok, tx_run db p t ws ok.
Proof.
  induction t as [path id k IH|path k IH|path id v k IH|path id k IH|ok].
  - destruct (IH (ldb_get db (below p path) id)) as (ws & ok & H). exists ws, ok. constructor; exact H.
  - destruct (IH (ldb_each db (below p path))) as (ws & ok & H). exists ws, ok. constructor; exact H.
  - destruct (reserved id) eqn:R.
    + destruct (IH false) as (ws & ok & H). exists ws, ok. apply R_put_refused; assumption.
    + destruct (IH true) as (ws & ok & H). eexists _, ok. apply R_put; eassumption.
  - destruct (reserved id) eqn:R.
    + destruct (IH false) as (ws & ok & H). exists ws, ok. apply R_del_refused; assumption.
    + destruct (IH true) as (ws & ok & H). eexists _, ok. apply R_del; eassumption.
  - exists [], ok. constructor.
Qed.

(** the last write to a key, if any *)
Fixpoint last_write (k : string) (ws : list write) : option (option string) :=
  match ws with
  | [] => None
  | w :: ws' => match last_write k ws' with
                | Some x => Some x
                | None => if seqb k (fst w) then Some (snd w) else None
                end
  end.
Lemma fold_writes ws db k :
  mget (fold_left apply_write ws db) k = match last_write k ws with Some x => x | None => mget db k end.
Proof.
  revert db; induction ws as [|[k2 o] ws IH]; intros db; simpl; [reflexivity|]. rewrite IH.
  destruct (last_write k ws); [reflexivity|]. unfold apply_write; simpl.
  destruct o; [rewrite mget_put|rewrite mget_del]; destruct (seqb k k2); reflexivity.
Qed.

(** what a transaction would do if reads saw the pending writes *)
Fixpoint run_ideal (db : flat) (p : string) (batch : list write) (t : prog) : list write * bool :=
  let now := fold_left apply_write batch db in
  match t with
  | TGet path id k => run_ideal db p batch (k (ldb_get now (below p path) id))
  | TEach path k => run_ideal db p batch (k (ldb_each now (below p path)))
  | TPut path id v k =>
      if reserved id then run_ideal db p batch (k false)
      else run_ideal db p (batch ++ [(real_key (below p path) id, Some v)]) (k true)
  | TDel path id k =>
      if reserved id then run_ideal db p batch (k false)
      else run_ideal db p (batch ++ [(real_key (below p path) id, None)]) (k true)
  | TDone ok => (batch, ok)
  end.
(** the run reads nothing it wrote before *)
Fixpoint no_reread (db : flat) (p : string) (written : list string) (t : prog) : Prop :=
  match t with
  | TGet path id k => ~ In (real_key (below p path) id) written /\ no_reread db p written (k (ldb_get db (below p path) id))
  | TEach path k => (forall w, In w written -> has_prefix (below p path) w = false) /\ no_reread db p written (k (ldb_each db (below p path)))
  | TPut path id v k =>
      if reserved id then no_reread db p written (k false)
      else no_reread db p (real_key (below p path) id :: written) (k true)
  | TDel path id k =>
      if reserved id then no_reread db p written (k false)
      else no_reread db p (real_key (below p path) id :: written) (k true)
  | TDone _ => True
  end.
Lemma get_fold_out ws db P id : ~ In (real_key P id) (map fst ws) -> ldb_get (fold_left apply_write ws db) P id = ldb_get db P id.
Proof.
  revert db; induction ws as [|w ws IH]; intros db N; simpl in *; [reflexivity|].
  rewrite IH by tauto. apply get_out. intros E. apply N. left. symmetry. exact E.
Qed.
Lemma each_fold_out ws db P : (forall w, In w (map fst ws) -> has_prefix P w = false) ->
  ldb_each (fold_left apply_write ws db) P = ldb_each db P.
Proof.
  revert db; induction ws as [|w ws IH]; intros db N; simpl in *; [reflexivity|].
  rewrite IH by auto. apply each_out. apply N. left. reflexivity.
Qed.
Lemma ideal_agrees db p t : forall b wr, (forall x, In x (map fst b) <-> In x wr) -> no_reread db p wr t ->
  run_ideal db p b t = run_tx db p b t.
Proof.
  induction t as [path id k IH|path k IH|path id v k IH|path id k IH|ok]; intros b wr Hw N; cbn [run_ideal run_tx no_reread] in *.
  - destruct N as [N1 N2]. rewrite get_fold_out by (rewrite Hw; exact N1). exact (IH _ b wr Hw N2).
  - destruct N as [N1 N2]. rewrite each_fold_out by (intros w H; apply N1, Hw, H). exact (IH _ b wr Hw N2).
  - destruct (reserved id); [exact (IH _ b wr Hw N)|]. apply (IH true _ (real_key (below p path) id :: wr)); [|exact N].
    intros x. rewrite map_app, in_app_iff, Hw. simpl. tauto.
  - destruct (reserved id); [exact (IH _ b wr Hw N)|]. apply (IH true _ (real_key (below p path) id :: wr)); [|exact N].
    intros x. rewrite map_app, in_app_iff, Hw. simpl. tauto.
  - reflexivity.
Qed.

(** ** NextSequence *)
Definition numeric (fl : flat) (P : string) : Prop :=
  forall k, In k (map fst (ldb_each fl P)) -> exists n, k = be64 n /\ (n < 2 ^ 64)%N.
Lemma numeric_keys_long fl P k v : numeric fl P -> mget fl k = Some v -> has_prefix P k = true ->
  trim_prefix (key_prefix P) k <> k -> exists n, k = real_key P (be64 n) /\ (n < 2 ^ 64)%N.
Proof.
  intros N G Hp Ht.
  destruct (N (trim_prefix (key_prefix P) k)) as (n & E & B).
  { unfold ldb_each. rewrite map_map. apply in_map_iff. exists (k, v). split; [reflexivity|].
    apply filter_In. split; [apply in_mlist; exact G|exact Hp]. }
  exists n. split; [|exact B]. unfold trim_prefix in *. destruct (has_prefix (key_prefix P) k) eqn:H; [|congruence].
  apply has_prefix_spec in H as (t & ->). rewrite sdrop_app in E. subst. rewrite real_key_key_prefix. reflexivity.
Qed.
(** a bucket with numeric keys and a prefix longer than a key owns its range *)
Lemma numeric_owned fl P : (8 < String.length P)%nat -> numeric fl P -> owned fl P.
Proof.
  intros L N k v G Hp.
  assert (Ht : trim_prefix (key_prefix P) k <> k).
  { intros E. destruct (N (trim_prefix (key_prefix P) k)) as (n & E2 & _).
    { unfold ldb_each. rewrite map_map. apply in_map_iff. exists (k, v). split; [reflexivity|].
      apply filter_In. split; [apply in_mlist; exact G|exact Hp]. }
    rewrite E in E2. apply has_prefix_spec in Hp as (t & ->). apply (f_equal String.length) in E2.
    rewrite slen_app in E2. unfold be64 in E2. rewrite be_length in E2. lia. }
  destruct (numeric_keys_long fl P k v N G Hp Ht) as (n & E & _). exists (be64 n). exact E.
Qed.
Lemma last_sorted {A} (R : A -> A -> Prop) l x : StronglySorted R (l ++ [x]) -> Forall (fun y => R y x) l.
Proof.
  induction l as [|y l IH]; simpl; intros S; [constructor|]. inversion S as [|? ? S' F]; subst.
  constructor; [|exact (IH S')]. rewrite Forall_forall in F. apply F. apply in_app_iff. right. left. reflexivity.
Qed.
Lemma next_facts fl P : (8 < String.length P)%nat -> numeric fl P ->
  (ldb_each fl P = [] /\ ldb_next fl P = be64 0) \/
  (exists n, (n < 2 ^ 64)%N /\ In (be64 n) (map fst (ldb_each fl P)) /\
     (forall k, In k (map fst (ldb_each fl P)) -> k = be64 n \/ slt k (be64 n)) /\
     ldb_next fl P = be64 (uint64 (n + 1))).
Proof.
  intros L N. pose proof (numeric_owned fl P L N) as O.
  pose proof (each_sorted fl P O) as S. unfold ldb_next, last_key.
  destruct (rev (filter (fun kv => has_prefix P (fst kv)) (mlist fl))) as [|[k v] l] eqn:R.
  - left. split; [|reflexivity]. unfold ldb_each.
    apply (f_equal (@rev _)) in R. rewrite rev_involutive in R. rewrite R. reflexivity.
  - right. apply (f_equal (@rev _)) in R. rewrite rev_involutive in R. cbn [rev] in R.
    assert (E : ldb_each fl P = map (fun kv => (trim_prefix (key_prefix P) (fst kv), snd kv)) (rev l) ++ [(trim_prefix (key_prefix P) k, v)]).
    { unfold ldb_each. rewrite R, map_app. reflexivity. }
    destruct (N (trim_prefix (key_prefix P) k)) as (n & En & B).
    { rewrite E, map_app, in_app_iff. right. left. reflexivity. }
    exists n. split; [exact B|]. rewrite <- En.
    split; [rewrite E, map_app, in_app_iff; right; left; reflexivity|]. split.
    + rewrite E in S |- *. apply last_sorted in S. rewrite Forall_forall in S. intros x Hx.
      rewrite map_app, in_app_iff in Hx. destruct Hx as [Hx|[Hx|[]]]; [|left; symmetry; exact Hx].
      apply in_map_iff in Hx as (y & <- & Hy). right. exact (S y Hy).
    + cbn [fst]. rewrite En. unfold be64 at 1. rewrite be_length. cbn [Nat.eqb]. rewrite be64_value by exact B. reflexivity.
Qed.
