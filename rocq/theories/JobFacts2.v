(** * JobFacts2: claims, order and the history ring *)
From Verif Require Import Model.
From Verif Require Import Base LibDb LibDbFacts Jobs JobSpec JobFacts.
Open Scope string_scope. Open Scope list_scope.

(** ** NextSequence of the flat store is that of the bucket *)
Lemma next_seq_is_ldb_next fl P (m : smap job) : (8 < String.length P)%nat -> numeric fl P ->
  mkeys m = map fst (ldb_each fl P) -> next_seq m = ldb_next fl P.
Proof.
  intros L Nu E. unfold next_seq. rewrite E.
  destruct (next_facts fl P L Nu) as [[E0 ->]|(n & Bn & Hin & Hmax & ->)].
  - rewrite E0. reflexivity.
  - rewrite <- E in *. destruct (rev (mkeys m)) as [|k r] eqn:Er.
    { apply (f_equal (@rev string)) in Er. rewrite rev_involutive in Er. rewrite Er in Hin. destruct Hin. }
    assert (Em : mkeys m = rev r ++ [k]).
    { apply (f_equal (@rev string)) in Er. rewrite rev_involutive in Er. simpl in Er. exact Er. }
    assert (Sk : StronglySorted slt (mkeys m)).
    { pose proof (mlist_sorted m) as S. unfold mkeys. clear -S. induction S as [|x l S IH F]; simpl; [constructor|]. constructor; [exact IH|].
      apply Forall_map. exact F. }
    rewrite Em in Sk. pose proof (last_sorted _ _ _ Sk) as F. rewrite Forall_forall in F.
    assert (k = be64 n) as ->.
    { destruct (Hmax k) as [|Hk]; [rewrite Em; apply in_app_iff; right; left; reflexivity|assumption|].
      rewrite Em in Hin. apply in_app_iff in Hin as [Hin|[Hin|[]]]; [|exact Hin].
      destruct (slt_irrefl _ (slt_trans _ _ _ Hk (F _ Hin))). }
    unfold be64 at 1. rewrite be_length. cbn [Nat.eqb]. rewrite be64_value by exact Bn. reflexivity.
Qed.

(** ** Reachable states *)
Lemma run_app kinds h e : run kinds (h ++ [e]) = step (run kinds h) e.
Proof. unfold run. rewrite fold_left_app. reflexivity. Qed.
Lemma bounded_app h e : bounded (h ++ [e]) -> bounded h.
Proof. unfold bounded. rewrite app_length. simpl. lia. Qed.
Lemma run_ind kinds (P : sys -> Prop) :
  P (boot kinds) ->
  (forall h e, bounded (h ++ [e]) -> P (run kinds h) -> P (step (run kinds h) e)) ->
  forall h, bounded h -> P (run kinds h).
Proof.
  intros H0 HS h. induction h as [|e h IH] using rev_ind; intros B; [exact H0|].
  rewrite run_app. apply HS; [exact B|]. apply IH. exact (bounded_app _ _ B).
Qed.

Lemma map_set_nth {A B} (f : A -> B) l i x y : nth_error l i = Some y -> f x = f y -> map f (set_nth i x l) = map f l.
Proof.
  revert i; induction l as [|a l IH]; intros [|i] H E; simpl in *; try discriminate.
  - injection H as ->. rewrite E. reflexivity.
  - rewrite (IH _ H E). reflexivity.
Qed.
Lemma workers_after_queues y a : map w_queue (workers_after y a) = map w_queue (y_workers y).
Proof.
  destruct a as [q ty ps|i|i d f|b]; cbn [workers_after]; try reflexivity.
  - destruct (nth_error (y_workers y) i) as [[q [kj|]]|] eqn:H; try reflexivity.
    destruct (snd (claim q (y_store y))) as [[kj|]| |]; try reflexivity. apply (map_set_nth _ _ _ _ _ H). reflexivity.
  - destruct (nth_error (y_workers y) i) as [[q [kj|]]|] eqn:H; try reflexivity. apply (map_set_nth _ _ _ _ _ H). reflexivity.
Qed.
Lemma worker_queues kinds h : map w_queue (y_workers (run kinds h)) = map (fun b : bool => if b then QSync else QAsync) kinds.
Proof.
  induction h as [|e h IH] using rev_ind.
  - unfold run, boot, start_workers. cbn [fold_left y_workers]. rewrite map_map. reflexivity.
  - rewrite run_app. destruct e as [a|a n| |n]; cbn [step]; destruct (y_up (run kinds h)); cbn [y_workers]; try exact IH.
    + rewrite workers_after_queues. exact IH.
    + rewrite map_map. exact IH.
Qed.

(** ** Held jobs *)
Lemma in_held ws n : In n (held ws) <-> exists i q k j, nth_error ws i = Some (Worker q (Some (k, j))) /\ j_no j = n.
Proof.
  unfold held. rewrite in_flat_map. split.
  - intros ([q [[k j]|]] & Hw & Hn); cbn in Hn; [|destruct Hn]. destruct Hn as [<-|[]].
    apply In_nth_error in Hw as [i Hi]. exists i, q, k, j. auto.
  - intros (i & q & k & j & Hi & <-). exists (Worker q (Some (k, j))). split; [exact (nth_error_In _ _ Hi)|]. left. reflexivity.
Qed.

Section OfInv.
Variables (c : N) (y : sys).
Hypothesis I : sysInv c y.
Hypothesis Hc : (c < 2 ^ 62)%N.

Lemma stored_idents q : map ident (stored q y) = map ident (pending_in q (y_accepted y) (y_retired y)).
Proof. exact (iv_content _ _ _ _ _ _ I q). Qed.
Lemma stored_pending q j : In j (stored q y) -> exists j', In j' (pending_in q (y_accepted y) (y_retired y)) /\ ident j' = ident j.
Proof.
  intros H. apply (in_map ident) in H. rewrite stored_idents in H. apply in_map_iff in H as (j' & E & H). eauto.
Qed.
Lemma ident_no j j' : ident j = ident j' -> j_no j = j_no j'.
Proof. unfold ident. congruence. Qed.
(** numbers tell queues apart *)
Lemma stored_apart q q' j j' : In j (stored q y) -> In j' (stored q' y) -> j_no j = j_no j' -> q = q' /\ j = j'.
Proof.
  intros H H' E.
  assert (Eq : q = q').
  { apply stored_pending in H as (a & Ha & Ea). apply stored_pending in H' as (a' & Ha' & Ea').
    unfold pending_in in Ha, Ha'. apply filter_In in Ha as [Ha _]. apply filter_In in Ha' as [Ha' _].
    apply in_accepted in Ha. apply in_accepted in Ha'.
    assert (X : (q, a) = (q', a')); [|congruence].
    apply (NoDup_map_inj (fun x => j_no (snd x)) (y_accepted y)); [exact (nos_nodup _ _ _ _ _ _ I)|exact Ha|exact Ha'|].
    cbn [snd]. rewrite (ident_no _ _ Ea), (ident_no _ _ Ea'). exact E. }
  subst q'. split; [reflexivity|].
  apply (NoDup_map_inj j_no (stored q y)); [exact (queue_nodup _ _ _ _ _ _ I q)|exact H|exact H'|exact E].
Qed.
Lemma held_stored i q k j : nth_error (y_workers y) i = Some (Worker q (Some (k, j))) -> In j (stored q y) /\ In (k, j) (mlist (get_queue q (y_store y))).
Proof.
  intros H. destruct (iv_held _ _ _ _ _ _ I _ _ _ _ H) as [G _]. apply in_mlist in G. split; [|exact G].
  exact (in_map snd _ _ G).
Qed.
Lemma claimed_held q k j : y_up y = true -> In (k, j) (mlist (get_queue q (y_store y))) ->
  j_claimed j = existsb (Nat.eqb (j_no j)) (held (y_workers y)).
Proof.
  intros U H. destruct (j_claimed j) eqn:C.
  - symmetry. apply existsb_exists. exists (j_no j). split; [|apply Nat.eqb_refl].
    destruct (iv_claimed _ _ _ _ _ _ I U q k j) as [i Hi]; [apply in_mlist; exact H|exact C|].
    apply in_held. exists i, q, k, j. auto.
  - symmetry. apply not_true_is_false. intros X. apply existsb_exists in X as (n & Hn & E). apply Nat.eqb_eq in E. subst n.
    apply in_held in Hn as (i & q' & k' & j' & Hi & E).
    destruct (held_stored _ _ _ _ Hi) as [S' _].
    destruct (stored_apart q q' j j') as [_ <-]; [exact (in_map snd _ _ H)|exact S'|congruence|].
    destruct (iv_held _ _ _ _ _ _ I _ _ _ _ Hi) as [_ C']. congruence.
Qed.
Lemma waiting_idents q : y_up y = true ->
  map ident (waiting q y) = map ident (filter (fun j => negb (j_claimed j)) (stored q y)).
Proof.
  intros U. unfold waiting.
  set (g := fun x : nat * string * list string => negb (existsb (Nat.eqb (fst (fst x))) (held (y_workers y)))).
  transitivity (filter g (map ident (pending_in q (y_accepted y) (y_retired y)))).
  - rewrite filter_map. reflexivity.
  - rewrite <- stored_idents, filter_map. f_equal. apply filter_ext_in. intros j H. unfold g. cbn [ident fst].
    unfold stored in H. apply in_map_iff in H as ([k j'] & E & H). cbn [snd] in E. subst j'.
    rewrite (claimed_held q k j U H). reflexivity.
Qed.
Lemma find_filter {A B} (f : A -> B) (p : B -> bool) l : find (fun x => p (f x)) l = None -> filter p (map f l) = [].
Proof. induction l as [|x l IH]; simpl; [reflexivity|]. destruct (p (f x)); [discriminate|exact IH]. Qed.
Lemma find_filter_some {A B} (f : A -> B) (p : B -> bool) l x : find (fun x => p (f x)) l = Some x -> exists r, filter p (map f l) = f x :: r.
Proof.
  induction l as [|a l IH]; simpl; [discriminate|]. destruct (p (f a)) eqn:E; [intros H; injection H as ->; eauto|exact IH].
Qed.
Lemma claim_waiting q : y_up y = true ->
  match waiting q y with
  | [] => claim q (y_store y) = ([], Ok None)
  | j :: _ => exists k j', claim q (y_store y) = ([set_queue q (y_store y) (mput (get_queue q (y_store y)) k j')], Ok (Some (k, j'))) /\ ident j' = ident j
  end.
Proof.
  intros U. pose proof (waiting_idents q U) as W. unfold claim. unfold stored in W.
  destruct (first_unclaimed (mlist (get_queue q (y_store y)))) as [[k j]|] eqn:F.
  - destruct (first_unclaimed_get _ _ _ F) as [G _].
    rewrite (keys_not_reserved _ _ _ _ _ _ I Hc q k j G).
    destruct (find_filter_some snd (fun j => negb (j_claimed j)) _ _ F) as [r Er]. cbn [snd] in Er.
    rewrite Er in W. destruct (waiting q y) as [|j0 w]; [discriminate W|]. injection W as E1 E2 E3 E4.
    exists k, (set_claimed true j). split; [reflexivity|]. unfold ident, set_claimed. cbn. congruence.
  - pose proof (find_filter snd (fun j => negb (j_claimed j)) _ F) as Er.
    rewrite Er in W. destruct (waiting q y); [reflexivity|discriminate W].
Qed.
End OfInv.

(** ** The history ring *)
Definition ring (h : hist) (log : list jrec) : Prop :=
  h_ptr h = match List.length log with O => None | S n => Some (N.of_nat (n mod 100)) end /\
  exists V, mlist (h_recs h) = combine (map (fun i => be64 (N.of_nat i)) (seq 0 (List.length V))) V /\
    List.length V = Nat.min (List.length log) 100 /\
    forall k, k < List.length log -> List.length log <= k + 100 -> nth_error V (k mod 100) = nth_error log k.

Lemma lput_seq_over {A} (v : A) V a i : i < List.length V -> a + List.length V < 1000 ->
  lput (be64 (N.of_nat (a + i))) v (combine (map (fun i => be64 (N.of_nat i)) (seq a (List.length V))) V)
  = combine (map (fun i => be64 (N.of_nat i)) (seq a (List.length V))) (set_nth i v V).
Proof.
  revert a i; induction V as [|x V IH]; intros a i L B; simpl in L; [lia|]. cbn [List.length seq map combine lput].
  destruct i as [|i].
  - replace (a + 0) with a by lia. rewrite seqb_refl. reflexivity.
  - assert (Lt : slt (be64 (N.of_nat a)) (be64 (N.of_nat (a + S i)))).
    { apply be64_lt; [lia|]. simpl in B. change (2 ^ 64)%N with 18446744073709551616%N. lia. }
    destruct (seqb_spec (be64 (N.of_nat (a + S i))) (be64 (N.of_nat a))) as [E|_]; [rewrite E in Lt; destruct (slt_irrefl _ Lt)|].
    apply sltb_slt in Lt. rewrite Lt. cbn [set_nth]. f_equal.
    replace (a + S i) with (S a + i) by lia. apply IH; [lia|]. simpl in B. lia.
Qed.
Lemma combine_app {A B} (a a' : list A) (b b' : list B) : List.length a = List.length b -> combine (a ++ a') (b ++ b') = combine a b ++ combine a' b'.
Proof. revert b; induction a as [|x a IH]; intros [|z b] L; simpl in *; try discriminate; [reflexivity|]. rewrite IH; congruence. Qed.
Lemma lput_seq_end {A} (v : A) V : List.length V < 1000 ->
  lput (be64 (N.of_nat (List.length V))) v (combine (map (fun i => be64 (N.of_nat i)) (seq 0 (List.length V))) V)
  = combine (map (fun i => be64 (N.of_nat i)) (seq 0 (List.length (V ++ [v])))) (V ++ [v]).
Proof.
  intros B. rewrite lput_end.
  - rewrite app_length. cbn [List.length]. rewrite seq_app, map_app, combine_app; [reflexivity|]. rewrite map_length, seq_length. reflexivity.
  - intros x Hx. apply in_map_iff in Hx as ([k r] & <- & Hx). cbn [fst]. apply in_combine_l in Hx. apply in_map_iff in Hx as (i & <- & Hi).
    apply in_seq in Hi. apply be64_lt; [lia|]. change (2 ^ 64)%N with 18446744073709551616%N. lia.
Qed.
Lemma set_nth_length {A} i (x : A) l : List.length (set_nth i x l) = List.length l.
Proof. revert i; induction l as [|y l IH]; intros [|i]; simpl; auto. Qed.

Lemma ring_empty : ring empty_hist [].
Proof. split; [reflexivity|]. exists []. split; [reflexivity|]. split; [reflexivity|]. intros k H. simpl in H. lia. Qed.

Lemma slot_of (log : list jrec) :
  next_slot (match List.length log with O => None | S n => Some (N.of_nat (n mod 100)) end) = N.of_nat (List.length log mod 100).
Proof.
  unfold next_slot, max_jobs. destruct (List.length log) as [|n]; [reflexivity|].
  pose proof (Nat.mod_upper_bound n 100 ltac:(discriminate)) as B.
  assert (E : S n mod 100 = if Nat.eqb (n mod 100) 99 then 0 else S (n mod 100)).
  { pose proof (Nat.div_mod n 100 ltac:(discriminate)) as D. destruct (Nat.eqb_spec (n mod 100) 99) as [E|E].
    - symmetry. apply (Nat.mod_unique (S n) 100 (S (n / 100)) 0); lia.
    - symmetry. apply (Nat.mod_unique (S n) 100 (n / 100) (S (n mod 100))); lia. }
  destruct (Nat.eqb_spec (n mod 100) 99) as [E1|E1]; rewrite E.
  - rewrite E1. reflexivity.
  - destruct (N.leb_spec 100 (N.of_nat (n mod 100) + 1)); lia.
Qed.

Lemma ring_put h log r : ring h log ->
  let i := next_slot (h_ptr h) in ring (Hist (mput (h_recs h) (be64 i) r) (Some i)) (log ++ [r]).
Proof.
  intros (P & V & E & LV & HV) i. unfold i in *. rewrite P, slot_of. clear i.
  set (n := List.length log) in *.
  assert (Bm := Nat.mod_upper_bound n 100 ltac:(discriminate)).
  split.
  - cbn [h_ptr]. rewrite app_length. cbn [List.length]. fold n. replace (n + 1) with (S n) by lia. reflexivity.
  - cbn [h_recs mput mlist]. rewrite E.
    destruct (Nat.lt_ge_cases n 100) as [L|L].
    + rewrite Nat.mod_small in * by exact L. assert (EV : List.length V = n) by lia.
      exists (V ++ [r]). rewrite <- EV. rewrite lput_seq_end by lia. split; [reflexivity|].
      rewrite !app_length. cbn [List.length]. fold n. split; [lia|].
      intros k Hk _. rewrite Nat.mod_small by lia.
      destruct (Nat.eq_dec k n) as [->|Nk].
      * rewrite nth_error_app2 by lia. rewrite nth_error_app2 by (fold n; lia). rewrite EV. fold n. rewrite Nat.sub_diag. reflexivity.
      * rewrite !nth_error_app1 by lia. rewrite <- (HV k) by lia. rewrite Nat.mod_small by lia. reflexivity.
    + assert (EV : List.length V = 100) by lia.
      exists (set_nth (n mod 100) r V). rewrite set_nth_length.
      pose proof (lput_seq_over r V 0 (n mod 100)) as X. cbn [Nat.add] in X. rewrite X by lia. clear X.
      split; [reflexivity|]. rewrite app_length. cbn [List.length]. fold n. split; [lia|].
      intros k Hk1 Hk2. destruct (Nat.eq_dec k n) as [->|Nk].
      * rewrite nth_error_app2 by (fold n; lia). fold n. rewrite Nat.sub_diag.
        destruct (nth_error V (n mod 100)) as [x|] eqn:Ex; [exact (set_nth_eq _ _ _ _ Ex)|].
        apply nth_error_None in Ex. lia.
      * rewrite nth_error_app1 by (fold n; lia). rewrite <- (HV k) by lia. apply set_nth_ne.
        intros Em. pose proof (Nat.div_mod n 100 ltac:(discriminate)). pose proof (Nat.div_mod k 100 ltac:(discriminate)). lia.
Qed.

Lemma get_set_hist' b b' s h : get_hist b' (set_hist b s h) = if Bool.eqb b b' then h else get_hist b' s.
Proof. destruct b, b'; reflexivity. Qed.
Lemma hist_set_queue b q s m : get_hist b (set_queue q s m) = get_hist b s.
Proof. destruct b, q; reflexivity. Qed.
Lemma hist_eta h : Hist (h_recs h) (h_ptr h) = h.
Proof. destruct h; reflexivity. Qed.

Definition ringInv (y : sys) : Prop := forall b, ring (get_hist b (y_store y)) (y_done y b).

Lemma act_ring y a n : ringInv y -> (match a with AFinish _ _ _ => n <> 2 | AReset _ => n <> 1 | _ => True end \/ n >= List.length (writes_of y a)) ->
  forall b, ring (get_hist b (last (firstn n (writes_of y a)) (y_store y)))
                 ((if (n <? List.length (writes_of y a))%nat then y_done y else done_after y a) b).
Proof.
  intros R Qn b. specialize (R b) as Rb.
  destruct a as [q ty ps|i|i d f|b0]; cbn [writes_of done_after].
  - match goal with |- ring _ ((if ?c then ?x else ?x) b) => replace (if c then x else x) with x by (destruct c; reflexivity) end.
    unfold push. destruct (reserved _); cbn [fst]; [destruct n; exact Rb|].
    destruct n as [|n]; [exact Rb|]. cbn [firstn]. destruct n; cbn [firstn last]; rewrite hist_set_queue; exact Rb.
  - match goal with |- ring _ ((if ?c then ?x else ?x) b) => replace (if c then x else x) with x by (destruct c; reflexivity) end.
    destruct (nth_error (y_workers y) i) as [[q [kj|]]|]; try (destruct n; exact Rb).
    unfold claim. destruct (first_unclaimed _) as [[k j]|]; cbn [fst]; [|destruct n; exact Rb].
    destruct (reserved k); cbn [fst]; [destruct n; exact Rb|].
    destruct n as [|n]; [exact Rb|]. cbn [firstn]. destruct n; cbn [firstn last]; rewrite hist_set_queue; exact Rb.
  - revert Qn. cbn [writes_of].
    destruct (nth_error (y_workers y) i) as [[q [[k j]|]]|]; intros Qn; try (destruct n; exact Rb).
    revert Qn. unfold retire. destruct (reserved k); cbn [fst]; intros Qn; [destruct n; exact Rb|].
    unfold mark_completion in *. cbn [fst snd writes_of] in *.
    set (fb := match f with Some _ => true | None => false end) in *.
    destruct n as [|[|[|n]]]; cbn [firstn last List.length Nat.ltb Nat.leb].
    + exact Rb.
    + rewrite hist_set_queue. exact Rb.
    + exfalso. destruct Qn as [Qn|Qn]; [congruence|]. revert Qn. cbn [List.length]. lia.
    + rewrite firstn_nil. cbn match.
      rewrite !hist_set_queue, !get_set_hist', hist_set_queue.
      replace (Bool.eqb fb b) with (Bool.eqb b fb) by (destruct b, fb; reflexivity).
      destruct (Bool.eqb b fb) eqn:Eb; [|exact Rb]. apply eqb_prop in Eb. subst b.
      exact (ring_put _ _ (outcome_rec d f) Rb).
  - unfold reset. cbn [fst writes_of] in *.
    destruct (h_ptr (get_hist b0 (y_store y))) as [p|] eqn:Ep; cbn [app List.length].
    + destruct n as [|[|n]]; cbn [firstn last Nat.ltb Nat.leb].
      * exact Rb.
      * exfalso. destruct Qn as [Qn|Qn]; [congruence|]. revert Qn. cbn [writes_of reset fst]. unfold reset. rewrite Ep. cbn [fst app List.length]. lia.
      * rewrite firstn_nil. cbn match.
        rewrite !get_set_hist'. destruct (Bool.eqb b0 b); [exact ring_empty|exact Rb].
    + destruct n as [|n]; cbn [firstn last Nat.ltb Nat.leb].
      * exact Rb.
      * rewrite firstn_nil. cbn match.
        rewrite !get_set_hist'. destruct (Bool.eqb b0 b); [exact ring_empty|exact Rb].
Qed.
Lemma setup_hist s n b : get_hist b (last (firstn n (fst (setup s))) s) = get_hist b s.
Proof.
  unfold setup, final, unclaim. cbn [fst last]. destruct n as [|[|n]]; cbn [firstn last]; [reflexivity|rewrite hist_set_queue; reflexivity|].
  destruct n; cbn [firstn last]; rewrite !hist_set_queue; reflexivity.
Qed.
Lemma ring_run kinds h : Forall quiet h -> ringInv (run kinds h).
Proof.
  induction h as [|e h IH] using rev_ind; intros Qt.
  - intros b. destruct b; exact ring_empty.
  - rewrite run_app. apply Forall_app in Qt as [Qt Qe]. inversion Qe as [|? ? Qe' _]; subst. specialize (IH Qt).
    set (y := run kinds h) in *. clearbody y.
    destruct e as [a|a n| |n]; cbn [step]; destruct (y_up y); try exact IH; intros b; cbn [y_store y_done].
    + pose proof (act_ring y a (List.length (writes_of y a)) IH) as X. rewrite firstn_all, Nat.ltb_irrefl in X.
      apply X. right. lia.
    + apply (act_ring y a n IH). left. destruct a; exact Qe'.
    + rewrite setup_hist. apply IH.
Qed.
Lemma ring_past b s log : ring (get_hist b s) log ->
  List.length (past_jobs b s) = Nat.min (List.length log) 100 /\
  forall k, k < List.length log -> List.length log <= k + 100 -> nth_error (past_jobs b s) (k mod 100) = nth_error log k.
Proof.
  intros (_ & V & E & L & H). assert (X : past_jobs b s = V).
  { unfold past_jobs. rewrite E. clear. assert (G : forall a, map snd (combine (map (fun i => be64 (N.of_nat i)) (seq a (List.length V))) V) = V).
    { induction V as [|v V IH]; intros a; [reflexivity|]. cbn [List.length seq map combine snd]. f_equal. apply IH. }
    apply G. }
  rewrite X. auto.
Qed.
(** the slots are a rotation of the last 100 *)
Lemma nth_error_ext {A} (l l' : list A) : (forall i, nth_error l i = nth_error l' i) -> l = l'.
Proof.
  revert l'; induction l as [|x l IH]; intros [|z l'] H; [reflexivity|specialize (H 0); discriminate|specialize (H 0); discriminate|].
  f_equal; [specialize (H 0); simpl in H; congruence|]. apply IH. intros i. exact (H (S i)).
Qed.
Lemma nth_error_skipn {A} (l : list A) m i : nth_error (skipn m l) i = nth_error l (m + i).
Proof. revert l; induction m as [|m IH]; intros l; simpl; [reflexivity|]. destruct l; [destruct i; reflexivity|apply IH]. Qed.
Lemma nth_error_firstn {A} (l : list A) m i : i < m -> nth_error (firstn m l) i = nth_error l i.
Proof. revert l i; induction m as [|m IH]; intros l i L; [lia|]. destruct l; [destruct i; reflexivity|]. destruct i; simpl; [reflexivity|]. apply IH. lia. Qed.
Lemma rotation {A} (V log : list A) :
  List.length V = Nat.min (List.length log) 100 ->
  (forall k, k < List.length log -> List.length log <= k + 100 -> nth_error V (k mod 100) = nth_error log k) ->
  exists a b, V = b ++ a /\ skipn (List.length log - 100) log = a ++ b.
Proof.
  intros L H. destruct (Nat.le_gt_cases (List.length log) 100) as [S|S].
  - exists [], V. split; [symmetry; apply app_nil_r|]. replace (List.length log - 100) with 0 by lia. cbn [skipn app].
    apply nth_error_ext. intros i. symmetry. destruct (Nat.lt_ge_cases i (List.length log)) as [Li|Li].
    + rewrite <- (H i) by lia. destruct (Nat.eq_dec i 100); [lia|]. rewrite Nat.mod_small by lia. reflexivity.
    + rewrite (proj2 (nth_error_None _ _)) by lia. symmetry. apply nth_error_None. lia.
  - set (n := List.length log) in *. set (r := n mod 100). assert (Br := Nat.mod_upper_bound n 100 ltac:(discriminate)). fold r in Br.
    assert (Dn := Nat.div_mod n 100 ltac:(discriminate)). fold r in Dn.
    exists (skipn r V), (firstn r V). split; [symmetry; apply firstn_skipn|].
    apply nth_error_ext. intros t. rewrite nth_error_skipn.
    destruct (Nat.lt_ge_cases t (100 - r)) as [T|T].
    + rewrite nth_error_app1 by (rewrite skipn_length; lia). rewrite nth_error_skipn.
      rewrite <- (H (n - 100 + t)) by lia. f_equal. symmetry. apply (Nat.mod_unique _ 100 (n / 100 - 1) (r + t)); [lia|].
      assert (1 <= n / 100) by (apply Nat.div_le_lower_bound; lia). nia.
    + rewrite nth_error_app2 by (rewrite skipn_length; lia). rewrite skipn_length.
      destruct (Nat.lt_ge_cases t 100) as [T2|T2].
      * rewrite nth_error_firstn by lia. rewrite <- (H (n - 100 + t)) by lia. f_equal. replace (List.length V) with 100 by lia.
        symmetry. apply (Nat.mod_unique _ 100 (n / 100) (t - (100 - r))); [lia|]. nia.
      * rewrite (proj2 (nth_error_None _ _)) by (fold n; lia). symmetry. apply nth_error_None. rewrite firstn_length. lia.
Qed.

(** ** At most 100 records, whatever crashes *)
Definition slots (h : hist) : Prop :=
  incl (mkeys (h_recs h)) (map (fun i => be64 (N.of_nat i)) (seq 0 100)).
Lemma next_slot_lt p : (next_slot p < 100)%N.
Proof. unfold next_slot, max_jobs. destruct p as [i|]; [|reflexivity]. destruct (N.leb_spec 100 (i + 1)); lia. Qed.
Lemma slots_put m i r p p' : slots (Hist m p) -> (i < 100)%N -> slots (Hist (mput m (be64 i) r) p').
Proof.
  intros S L k Hk. cbn [h_recs mput mkeys mlist] in Hk. unfold mkeys in Hk. cbn [mput mlist] in Hk.
  apply lput_keys in Hk as [->|Hk]; [|exact (S _ Hk)].
  apply in_map_iff. exists (N.to_nat i). rewrite N2Nat.id. split; [reflexivity|]. apply in_seq. lia.
Qed.
Lemma slots_run kinds h b : slots (get_hist b (y_store (run kinds h))).
Proof.
  revert b. induction h as [|e h IH] using rev_ind; intros b.
  - intros k Hk. destruct b; vm_compute in Hk; destruct Hk.
  - rewrite run_app. set (y := run kinds h) in *. clearbody y.
    assert (X : forall a n, slots (get_hist b (last (firstn n (writes_of y a)) (y_store y)))).
    { intros a n. destruct a as [q ty ps|i|i d f|b0]; cbn [writes_of].
      - unfold push. destruct (reserved _); cbn [fst]; [destruct n; apply IH|].
        destruct n as [|n]; [apply IH|]. cbn [firstn]. destruct n; cbn [firstn last]; rewrite hist_set_queue; apply IH.
      - destruct (nth_error (y_workers y) i) as [[q [kj|]]|]; try (destruct n; apply IH).
        unfold claim. destruct (first_unclaimed _) as [[k j]|]; cbn [fst]; [|destruct n; apply IH].
        destruct (reserved k); cbn [fst]; [destruct n; apply IH|].
        destruct n as [|n]; [apply IH|]. cbn [firstn]. destruct n; cbn [firstn last]; rewrite hist_set_queue; apply IH.
      - destruct (nth_error (y_workers y) i) as [[q [[k j]|]]|]; try (destruct n; apply IH).
        unfold retire. destruct (reserved k); cbn [fst]; [destruct n; apply IH|].
        unfold mark_completion. cbn [fst snd].
        set (fb := match f with Some _ => true | None => false end) in *.
        destruct n as [|[|[|n]]]; cbn [firstn last].
        + apply IH.
        + rewrite hist_set_queue. apply IH.
        + rewrite !hist_set_queue, get_set_hist', hist_set_queue. destruct (Bool.eqb fb b) eqn:E; [|apply IH].
          apply eqb_prop in E. subst b. exact (IH fb).
        + rewrite firstn_nil. cbn match. rewrite !hist_set_queue, !get_set_hist', hist_set_queue. destruct (Bool.eqb fb b) eqn:E; [|apply IH].
          apply eqb_prop in E. subst b. apply (slots_put _ _ _ (h_ptr (get_hist fb (y_store y)))); [rewrite hist_eta; exact (IH fb)|apply next_slot_lt].
      - unfold reset. cbn [fst].
        assert (E0 : slots empty_hist) by (intros k Hk; destruct Hk).
        destruct (h_ptr (get_hist b0 (y_store y))) as [p|] eqn:Ep; cbn [app]; destruct n as [|[|n]]; cbn [firstn last];
          rewrite ?firstn_nil; cbn match; rewrite ?get_set_hist'; try (destruct (Bool.eqb b0 b) eqn:E); try (apply eqb_prop in E; subst b); try apply IH; exact E0. }
    destruct e as [a|a n| |n]; cbn [step]; destruct (y_up y); cbn [y_store]; try apply IH.
    + rewrite <- (firstn_all (writes_of y a)). apply X.
    + apply X.
    + rewrite setup_hist. apply IH.
Qed.
Lemma slots_past b s : slots (get_hist b s) -> List.length (past_jobs b s) <= 100.
Proof.
  intros S. unfold past_jobs. rewrite map_length. rewrite <- (map_length fst).
  change 100 with (List.length (map (fun i => be64 (N.of_nat i)) (seq 0 100))) at 1.
  replace (List.length (map (fun i => be64 (N.of_nat i)) (seq 0 100))) with 100 by (rewrite map_length, seq_length; reflexivity).
  rewrite <- (seq_length 100 0), <- (map_length (fun i => be64 (N.of_nat i))).
  apply NoDup_incl_length; [apply mkeys_nodup|exact S].
Qed.

(** ** The accepted jobs are the pushes *)
Definition up_next (up : bool) (e : Jobs.event) : bool :=
  match e with Do _ => up | Crash _ _ => false | Start => true | StartCrash _ => up end.
Lemma pushes_app up h e : pushes up (h ++ [e]) = pushes up h ++ pushes (fold_left up_next h up) [e].
Proof.
  revert up; induction h as [|x h IH]; intros up; [reflexivity|].
  cbn [app fold_left]. destruct x as [[q ty ps|i|i d f|b]|[q ty ps|i|i d f|b] n| |n]; cbn [pushes up_next]; rewrite IH, ?app_assoc; reflexivity.
Qed.
Lemma up_run kinds h : y_up (run kinds h) = fold_left up_next h true.
Proof.
  induction h as [|e h IH] using rev_ind; [reflexivity|]. rewrite run_app, fold_left_app. cbn [fold_left]. rewrite <- IH.
  destruct e as [a|a n| |n]; cbn [step up_next]; destruct (y_up (run kinds h)) eqn:U; cbn [y_up]; try rewrite U; reflexivity.
Qed.
Definition as_push (x : queue * job) : queue * string * list string := (fst x, j_type (snd x), j_params (snd x)).
Lemma accepted_pushes kinds h : bounded h -> map as_push (y_accepted (run kinds h)) = pushes true h.
Proof.
  induction h as [|e h IH] using rev_ind; intros B; [reflexivity|].
  rewrite run_app, pushes_app, <- (up_run kinds), <- (IH (bounded_app _ _ B)).
  pose proof (run_inv kinds h (bounded_app _ _ B)) as I.
  assert (Hc : (N.of_nat (List.length h) < 2 ^ 62)%N) by exact (bounded_app _ _ B).
  set (y := run kinds h) in *. clearbody y.
  assert (NR : forall q, reserved (next_seq (get_queue q (y_store y))) = false).
  { intros q. destruct (next_seq_facts _ _ _ _ _ _ I Hc q) as (n & En & _ & Rn & _). cbn beta in En. congruence. }
  assert (Same : forall l : list (queue * string * list string), l = l ++ []) by (intros; symmetry; apply app_nil_r).
  destruct e as [a|a n| |n]; cbn [step]; destruct (y_up y) eqn:U; cbn [y_accepted];
    try (destruct a as [q ty ps|i|i d f|b]; cbn [accepted_after pushes andb]; try apply Same); try apply Same.
  - unfold writes_of, push. rewrite NR. cbn [fst List.length Nat.leb andb negb]. rewrite map_app. reflexivity.
  - unfold writes_of, push. rewrite NR. cbn [fst negb]. rewrite andb_true_r.
    destruct n as [|n]; cbn [firstn List.length Nat.leb app]; [apply Same|]. rewrite map_app. reflexivity.
Qed.

(** ** One sequential worker *)
Lemma one_sync njobs ncpu h i q w : nth_error (y_workers (run (pool_of njobs ncpu) h)) i = Some (Worker q w) -> q = QSync -> i = 0.
Proof.
  intros H E. apply (map_nth_error w_queue) in H. rewrite worker_queues in H. cbn [w_queue] in H. subst q. unfold pool_of in H.
  destruct i as [|i]; [reflexivity|]. cbn [map nth_error] in H. exfalso.
  revert i H. induction (Z.to_nat (background njobs ncpu)) as [|m IH]; intros [|i] H; cbn in H; try discriminate. exact (IH i H).
Qed.
Definition seqInv (y : sys) : Prop :=
  forall i k j, nth_error (y_workers y) i = Some (Worker QSync (Some (k, j))) ->
    exists r, map ident (pending_in QSync (y_accepted y) (y_retired y)) = ident j :: r.
Lemma pending_app q A x R : exists t, pending_in q (A ++ [x]) R = pending_in q A R ++ t.
Proof. unfold pending_in. rewrite accepted_app, filter_app. eauto. Qed.
Lemma seq_run njobs ncpu h : bounded h -> seqInv (run (pool_of njobs ncpu) h).
Proof.
  apply (run_ind (pool_of njobs ncpu) seqInv).
  - intros i k j H. exfalso. unfold boot, start_workers in H. cbn [y_workers] in H. rewrite nth_error_map in H. destruct (nth_error (pool_of njobs ncpu) i); discriminate.
  - clear h. intros h e B S. pose proof (run_inv (pool_of njobs ncpu) h (bounded_app _ _ B)) as I.
    assert (Hc : (N.of_nat (List.length h) < 2 ^ 62)%N) by exact (bounded_app _ _ B).
    pose proof (one_sync njobs ncpu h) as One.
    set (y := run (pool_of njobs ncpu) h) in *. clearbody y.
    assert (Idle : y_up y = false -> forall i q k j, nth_error (y_workers y) i <> Some (Worker q (Some (k, j)))).
    { intros U i q k j H. pose proof (iv_down _ _ _ _ _ _ I U _ _ H). discriminate. }
    intros i k j. destruct e as [a|a n| |n]; cbn [step]; destruct (y_up y) eqn:U; cbn [y_workers y_accepted y_retired];
      try (intros H; destruct (Idle eq_refl _ _ _ _ H)); try exact (S i k j).
    2: { intros H. exfalso. rewrite nth_error_map in H. destruct (nth_error (y_workers y) i); discriminate H. }
    destruct a as [q ty ps|i'|i' d f|b0]; cbn [workers_after accepted_after retired_after]; try exact (S i k j).
    + intros H. destruct (S _ _ _ H) as [r Er]. destruct (_ && _); [|exists r; exact Er].
      destruct (pending_app QSync (y_accepted y) (q, Job (List.length (y_accepted y)) ty ps false) (y_retired y)) as [t Et].
      rewrite Et, map_app, Er. eexists; reflexivity.
    + destruct (nth_error (y_workers y) i') as [[q [kj|]]|] eqn:Hi'; try exact (S i k j).
      pose proof (claim_waiting _ _ I Hc q U) as W.
      destruct (Nat.eq_dec i' i) as [->|Ne].
      * destruct (waiting q y) as [|j0 w] eqn:Ew; [rewrite W; cbn [snd]; exact (S i k j)|].
        destruct W as (k' & j' & E & Ej). rewrite E. cbn [snd]. intros H.
        rewrite (set_nth_eq _ _ _ _ Hi') in H. injection H as Eq <- <-. subst q.
        rewrite Ej. exists (map ident w). change (ident j0 :: map ident w) with (map ident (j0 :: w)). rewrite <- Ew. f_equal. unfold waiting. symmetry. apply filter_all.
        intros a Ha. apply negb_true_iff. apply not_true_is_false. intros X. apply existsb_exists in X as (n & Hn & En). apply Nat.eqb_eq in En. subst n.
        apply in_held in Hn as (i2 & q2 & k2 & j2 & Hi2 & E2).
        assert (H1 : In (ident a) (map ident (stored QSync y))) by (rewrite (stored_idents _ _ I QSync); apply in_map; exact Ha).
        apply in_map_iff in H1 as (a' & Ea & Ha').
        destruct (held_stored _ _ I _ _ _ _ Hi2) as [Hs _].
        destruct (stored_apart _ _ I q2 QSync j2 a') as [E3 _]; [exact Hs|exact Ha'|rewrite E2; symmetry; apply ident_no; exact Ea|].
        subst q2. pose proof (One _ _ _ Hi2 eq_refl) as O2. pose proof (One _ _ _ Hi' eq_refl) as O1. subst i2 i. rewrite Hi' in Hi2. discriminate Hi2.
      * destruct (snd (claim q (y_store y))) as [[kj|]| |]; try exact (S i k j).
        intros H. rewrite set_nth_ne in H by exact Ne. exact (S _ _ _ H).
    + destruct (nth_error (y_workers y) i') as [[q [[k' j']|]]|] eqn:Hi'; try exact (S i k j).
      destruct (Nat.eq_dec i' i) as [->|Ne].
      * intros H. rewrite (set_nth_eq _ _ _ _ Hi') in H. discriminate H.
      * intros H. rewrite set_nth_ne in H by exact Ne. destruct (S _ _ _ H) as [r Er].
        destruct (_ && _); [|exists r; exact Er].
        assert (Ep : pending_in QSync (y_accepted y) (y_retired y ++ [j_no j']) = pending_in QSync (y_accepted y) (y_retired y)).
        { rewrite pending_retire. apply filter_all. intros a Ha. apply negb_true_iff. apply Nat.eqb_neq. intros En.
          assert (H1 : In (ident a) (map ident (stored QSync y))) by (rewrite (stored_idents _ _ I QSync); apply in_map; exact Ha).
          apply in_map_iff in H1 as (a' & Ea & Ha').
          destruct (held_stored _ _ I _ _ _ _ Hi') as [Hs _].
          destruct (stored_apart _ _ I q QSync j' a') as [E3 _]; [exact Hs|exact Ha'|rewrite <- En; symmetry; apply ident_no; exact Ea|].
          subst q. apply Ne. rewrite (One _ _ _ Hi' eq_refl), (One _ _ _ H eq_refl). reflexivity. }
        rewrite Ep. exists r. exact Er.
Qed.
Lemma pending_sorted q A R n : map (fun x => j_no (snd x)) A = seq n (List.length A) -> StronglySorted lt (map j_no (pending_in q A R)).
Proof.
  unfold pending_in, accepted_in. revert n. induction A as [|[q' j] A IH]; intros n H; [constructor|].
  cbn [map List.length seq snd] in H. injection H as E H. specialize (IH _ H).
  cbn [filter fst]. destruct (queue_eqb q q'); [|exact IH]. cbn [map snd filter]. destruct (not_retired R j); [|exact IH].
  cbn [map]. constructor; [exact IH|]. apply Forall_forall. intros m Hm. apply in_map_iff in Hm as (a & <- & Ha).
  apply filter_In in Ha as [Ha _]. apply in_map_iff in Ha as (x & <- & Hx). apply filter_In in Hx as [Hx _].
  apply (in_map (fun x => j_no (snd x))) in Hx. rewrite H in Hx. apply in_seq in Hx. lia.
Qed.
