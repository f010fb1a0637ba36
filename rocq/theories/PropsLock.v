(** * PropsLock: C51, C52, C62, the lock file *)
From Verif Require Import Base LibDb Jobs JobSpec Dispatch PropsDispatch Lock.
Open Scope string_scope. Open Scope list_scope.

(** ** What the properties talk about *)
(** [p] holds the lock: Lock returned nil and Unlock was not called *)
Definition holds (s : lstate) (p : N) : Prop := exists i, l_proc s p = Owner i.
(** the daemon [p] is serving: its workers have not been stopped *)
Definition serving (s : lstate) (p : N) : Prop :=
  match l_proc s p with Owner _ | Unlocked _ | Closed | Cleaned => True | _ => False end.
(** the number another process reads from the lock file *)
Definition recorded (s : lstate) : option Z :=
  match l_path s with Some i => read_pid (l_text s i) | None => None end.
(** [p] has the lock file open *)
Definition has_open (s : lstate) (p : N) : option nat :=
  match l_proc s p with Opened i | Checked i | Flocked i | Owner i | Unlocked i => Some i | _ => None end.
(** no daemon has the file open at the moment another one removes it *)
Fixpoint undisturbed_from (s : lstate) (h : list lev) : Prop :=
  match h with
  | [] => True
  | e :: t =>
      match e with LRemove p => l_proc s p = Closed -> forall q, has_open s q = None | _ => True end /\
      undisturbed_from (lstep s e) t
  end.
Definition undisturbed (past : option string) (h : list lev) : Prop := undisturbed_from (lstart past) h.

(** ** Invariants *)
Record linv (s : lstate) : Prop := {
  li_flock : forall i p, l_flock s i = Some p <-> (l_proc s p = Flocked i \/ l_proc s p = Owner i);
  li_open : forall p i, has_open s p = Some i -> i < l_next s;
  li_path : forall i, l_path s = Some i -> i < l_next s
}.
Definition same_file (s : lstate) : Prop := forall p i, has_open s p = Some i -> l_path s = Some i.

Lemma linv_start past : linv (lstart past).
Proof.
  constructor; unfold lstart; cbn.
  - intros i p. split; [discriminate|intros [X|X]; discriminate].
  - discriminate.
  - destruct past; intros i X; inversion X; lia.
Qed.
Ltac eqs := repeat match goal with
  | |- context [N.eqb ?a ?b] => destruct (N.eqb_spec a b); subst
  | |- context [Nat.eqb ?a ?b] => destruct (Nat.eqb_spec a b); subst
  end.
Lemma linv_gone s p : linv s -> linv (gone s p).
Proof.
  intros [A B C]. unfold gone, release. constructor.
  - intros i q. destruct (l_proc s p) eqn:Pp; cbn; eqs; rewrite ?A, ?Pp; try (split; [intros []; congruence|intros []; congruence]);
    try (split; [discriminate|]); try tauto.
    all: try (intros [X|X]; try discriminate).
    all: try (assert (l_flock s ino = Some q) by (apply A; auto); assert (l_flock s ino = Some p) by (apply A; auto); congruence).
    all: split; [|intros [X|X]; discriminate]; intros X; exfalso.
    all: assert (l_flock s i = Some p) by (apply A; rewrite Pp; exact X).
    all: destruct X as [X|X]; inversion X; congruence.
  - intros q i. unfold has_open. destruct (l_proc s p) eqn:Pp; cbn; eqs; try discriminate; apply B.
  - intros i. destruct (l_proc s p); cbn; apply C.
Qed.
Lemma linv_proc s p x : linv s ->
  (forall i, x <> Flocked i /\ x <> Owner i) -> (forall i, l_proc s p <> Flocked i /\ l_proc s p <> Owner i) ->
  (forall i, has_open (set_proc s p x) p = Some i -> i < l_next s) -> linv (set_proc s p x).
Proof.
  intros [A B C] Nx Np Ho. constructor.
  - intros i q. cbn. rewrite A. destruct (N.eqb_spec q p) as [->|]; [|tauto]. specialize (Nx i). specialize (Np i). tauto.
  - intros q i. destruct (N.eq_dec q p) as [->|Ne]; [apply Ho|]. unfold has_open. cbn. rewrite (proj2 (N.eqb_neq _ _) Ne). apply B.
  - exact C.
Qed.
Lemma linv_step s e : linv s -> linv (lstep s e).
Proof.
  intros H. pose proof H as [A B C]. destruct e as [p|p sees|p|p|p|p|p|p|p up]; cbn [lstep].
  - destruct (pid_ok p && negb (alive s p)) eqn:Al; [|exact H].
    assert (Pa : l_proc s p = Absent).
    { apply andb_true_iff in Al as [_ Al]. unfold alive, running in Al. apply negb_true_iff, orb_false_iff in Al as [_ Al]. destruct (l_proc s p); try discriminate. reflexivity. }
    destruct (l_path s) as [i|] eqn:Pt.
    + apply linv_proc; auto; try (intros j; split; congruence). intros j. unfold has_open. cbn. rewrite N.eqb_refl. intros X. injection X as <-. apply C. reflexivity.
    + constructor; cbn.
      * intros i q. rewrite A. destruct (N.eqb_spec q p) as [->|]; [|tauto]. rewrite Pa. split; intros [X|X]; discriminate.
      * intros q i. unfold has_open. cbn. destruct (N.eqb_spec q p) as [->|]; [intros X; injection X as <-; lia|]. intros X. apply B in X. lia.
      * intros i X. injection X as <-. lia.
  - destruct (l_proc s p) as [|i| | | | | |] eqn:Pp; try exact H.
    assert (Ck : linv (set_proc s p (Checked i))).
    { apply linv_proc; auto; try (intros j; split; congruence). intros j. unfold has_open. cbn. rewrite N.eqb_refl. intros X. injection X as <-. apply (B p). unfold has_open. rewrite Pp. reflexivity. }
    destruct (l_path s) as [j|]; [|apply linv_gone, H]. destruct (read_pid _) as [z|]; [|exact Ck].
    destruct (_ && _); [apply linv_gone, H|exact Ck].
  - destruct (l_proc s p) as [| |i| | | | |] eqn:Pp; try exact H. destruct (l_flock s i) as [h|] eqn:Fl; [apply linv_gone, H|]. constructor; cbn.
    + intros j q. destruct (Nat.eqb_spec j i) as [->|Nj].
      * destruct (N.eqb_spec q p) as [->|Nq]; [tauto|]. split; [congruence|]. rewrite <- A, Fl. discriminate.
      * rewrite A. destruct (N.eqb_spec q p) as [->|Nq]; [|tauto]. rewrite Pp. split; intros [X|X]; inversion X; congruence.
    + intros q j. unfold has_open. cbn. destruct (N.eqb_spec q p) as [->|Nq]; [|apply B]. intros X. injection X as <-. apply (B p). unfold has_open. rewrite Pp. reflexivity.
    + exact C.
  - destruct (l_proc s p) as [| | |i| | | |] eqn:Pp; try exact H. constructor; cbn.
    + intros j q. rewrite A. destruct (N.eqb_spec q p) as [->|Nq]; [|tauto]. rewrite Pp. split; intros [X|X]; inversion X; auto.
    + intros q j. unfold has_open. cbn. destruct (N.eqb_spec q p) as [->|Nq]; [|apply B]. intros X. injection X as <-. apply (B p). unfold has_open. rewrite Pp. reflexivity.
    + exact C.
  - destruct (l_proc s p) as [| | | |i| | |] eqn:Pp; try exact H. constructor; cbn.
    + assert (F : l_flock s i = Some p) by (apply A; auto).
      intros j q. destruct (Nat.eqb_spec j i) as [->|Nj].
      * split; [discriminate|]. destruct (N.eqb_spec q p) as [->|Nq]; [intros [X|X]; discriminate|]. rewrite <- A. congruence.
      * rewrite A. destruct (N.eqb_spec q p) as [->|Nq]; [|tauto]. rewrite Pp. split; intros [X|X]; inversion X; congruence.
    + intros q j. unfold has_open. cbn. destruct (N.eqb_spec q p) as [->|Nq]; [|apply B]. intros X. injection X as <-. apply (B p). unfold has_open. rewrite Pp. reflexivity.
    + exact C.
  - destruct (l_proc s p) eqn:Pp; try exact H. apply linv_proc; auto; try (intros j; split; congruence). intros j. unfold has_open. cbn. rewrite N.eqb_refl. discriminate.
  - destruct (l_proc s p) eqn:Pp; try exact H. constructor; cbn.
    + intros j q. rewrite A. destruct (N.eqb_spec q p) as [->|Nq]; [|tauto]. rewrite Pp. split; intros [X|X]; discriminate.
    + intros q j. unfold has_open. cbn. destruct (N.eqb_spec q p) as [->|Nq]; [discriminate|apply B].
    + discriminate.
  - apply linv_gone, H.
  - destruct (negb (running s p)); [|exact H]. constructor; cbn; assumption.
Qed.
Lemma linv_from s h : linv s -> linv (fold_left lstep h s).
Proof. revert s; induction h as [|e h IH]; intros s H; cbn; [exact H|]. apply IH, linv_step, H. Qed.
Lemma linv_run past h : linv (lrun past h).
Proof. apply linv_from, linv_start. Qed.

Lemma same_gone s p : same_file s -> same_file (gone s p).
Proof.
  intros H q i. unfold gone, release, has_open. destruct (l_proc s p) eqn:Pp; cbn; (destruct (N.eqb_spec q p) as [->|Nq]; [discriminate|apply H]).
Qed.
Lemma same_proc s p x : same_file s -> (forall i, has_open (set_proc s p x) p = Some i -> l_path s = Some i) -> same_file (set_proc s p x).
Proof.
  intros H Hp q i. destruct (N.eq_dec q p) as [->|Ne]; [apply Hp|]. unfold has_open. cbn. rewrite (proj2 (N.eqb_neq _ _) Ne). apply H.
Qed.
Lemma same_step s e : linv s -> same_file s ->
  match e with LRemove p => l_proc s p = Closed -> forall q, has_open s q = None | _ => True end -> same_file (lstep s e).
Proof.
  intros [_ B C] H U. destruct e as [p|p sees|p|p|p|p|p|p|p up]; cbn [lstep].
  - destruct (pid_ok p && negb (alive s p)) eqn:Al; [|exact H]. destruct (l_path s) as [i|] eqn:Pt.
    + apply same_proc; [exact H|]. intros j. unfold has_open. cbn. rewrite N.eqb_refl. congruence.
    + intros q i. unfold has_open. cbn. destruct (N.eqb_spec q p) as [->|]; [auto|]. intros X. apply H in X. congruence.
  - destruct (l_proc s p) as [|i| | | | | |] eqn:Pp; try exact H.
    assert (Ck : same_file (set_proc s p (Checked i))).
    { apply same_proc; [exact H|]. intros j. unfold has_open. cbn. rewrite N.eqb_refl. intros X. injection X as <-. apply (H p). unfold has_open. rewrite Pp. reflexivity. }
    destruct (l_path s) as [j|]; [|apply same_gone, H]. destruct (read_pid _) as [z|]; [|exact Ck].
    destruct (_ && _); [apply same_gone, H|exact Ck].
  - destruct (l_proc s p) as [| |i| | | | |] eqn:Pp; try exact H. destruct (l_flock s i) as [h|] eqn:Fl; [apply same_gone, H|].
    intros q j. unfold has_open. cbn. destruct (N.eqb_spec q p) as [->|Nq]; [|apply H]. intros X. injection X as <-. apply (H p). unfold has_open. rewrite Pp. reflexivity.
  - destruct (l_proc s p) as [| | |i| | | |] eqn:Pp; try exact H.
    intros q j. unfold has_open. cbn. destruct (N.eqb_spec q p) as [->|Nq]; [|apply H]. intros X. injection X as <-. apply (H p). unfold has_open. rewrite Pp. reflexivity.
  - destruct (l_proc s p) as [| | | |i| | |] eqn:Pp; try exact H.
    intros q j. unfold has_open. cbn. destruct (N.eqb_spec q p) as [->|Nq]; [|apply H]. intros X. injection X as <-. apply (H p). unfold has_open. rewrite Pp. reflexivity.
  - destruct (l_proc s p) eqn:Pp; try exact H. apply same_proc; [exact H|]. intros j. unfold has_open. cbn. rewrite N.eqb_refl. discriminate.
  - destruct (l_proc s p) eqn:Pp; try exact H. intros q j. specialize (U eq_refl q). revert U. unfold has_open. cbn.
    destruct (N.eqb_spec q p) as [->|Nq]; [discriminate|]. intros -> X. discriminate.
  - apply same_gone, H.
  - destruct (negb (running s p)); [|exact H]. exact H.
Qed.
Lemma same_from h : forall s, linv s -> same_file s -> undisturbed_from s h -> same_file (fold_left lstep h s).
Proof.
  induction h as [|e h IH]; intros s L H U; cbn; [exact H|]. destruct U as [U1 U2]. apply IH; [apply linv_step, L| |exact U2].
  apply same_step; assumption.
Qed.
Lemma same_run past h : undisturbed past h -> same_file (lrun past h).
Proof. intros U. apply same_from; [apply linv_start| |exact U]. intros p i X. discriminate X. Qed.

(** ** C51 *)
(** Two processes never hold the lock on the same file, whatever happens. *)
Theorem C51_one_owner_per_file :
  forall past h p q i, l_proc (lrun past h) p = Owner i -> l_proc (lrun past h) q = Owner i -> p = q.
Proof.
  intros past h p q i Hp Hq. destruct (linv_run past h) as [A _ _].
  assert (l_flock (lrun past h) i = Some p) by (apply A; auto). assert (l_flock (lrun past h) i = Some q) by (apply A; auto). congruence.
Qed.
Print Assumptions C51_one_owner_per_file.
(** As long as nobody has the lock file open when it is removed there is at most
    one owner, for every interleaving of starts, stops and crashes. *)
Theorem C51_one_owner_partial :
  forall past h p q, undisturbed past h -> holds (lrun past h) p -> holds (lrun past h) q -> p = q.
Proof.
  intros past h p q U (i & Hp) (j & Hq). pose proof (same_run past h U) as S.
  assert (X : l_path (lrun past h) = Some i) by (apply (S p); unfold has_open; rewrite Hp; reflexivity).
  assert (Y : l_path (lrun past h) = Some j) by (apply (S q); unfold has_open; rewrite Hq; reflexivity).
  rewrite X in Y. injection Y as <-. eapply C51_one_owner_per_file; eauto.
Qed.
Print Assumptions C51_one_owner_partial.
(** in particular if daemons only ever crash *)
Corollary C51_crash_only_partial :
  forall past h p q, (forall e, In e h -> forall x, e <> LUnlock x) -> serving (lrun past h) p -> serving (lrun past h) q -> p = q.
Proof.
  intros past h p q N.
  assert (Inv : forall s, (forall x, match l_proc s x with Unlocked _ | Closed | Cleaned => False | _ => True end) ->
     forall l, (forall e, In e l -> forall x, e <> LUnlock x) ->
     undisturbed_from s l /\ (forall x, match l_proc (fold_left lstep l s) x with Unlocked _ | Closed | Cleaned => False | _ => True end)).
  { intros s Hs l. revert s Hs. induction l as [|e l IH]; intros s Hs Nl; cbn [undisturbed_from fold_left]; [auto|].
    assert (Hs' : forall x, match l_proc (lstep s e) x with Unlocked _ | Closed | Cleaned => False | _ => True end).
    { intros x. specialize (Hs x) as Hx. destruct e as [r|r sees|r|r|r|r|r|r|r up]; cbn [lstep].
      - destruct (pid_ok r && negb (alive s r)); [|exact Hx]. destruct (l_path s); cbn; destruct (N.eqb x r); auto.
      - specialize (Hs r). destruct (l_proc s r) eqn:Pr; try exact Hx. unfold gone, release. rewrite Pr.
        destruct (l_path s); [destruct (read_pid _); [destruct (_ && _)|]|]; cbn; destruct (N.eqb x r); auto.
      - specialize (Hs r). destruct (l_proc s r) eqn:Pr; try exact Hx. unfold gone, release. rewrite Pr. destruct (l_flock s _); cbn; destruct (N.eqb x r); auto.
      - destruct (l_proc s r) eqn:Pr; try exact Hx. cbn. destruct (N.eqb x r); auto.
      - exfalso. apply (Nl (LUnlock r) (or_introl eq_refl) r). reflexivity.
      - specialize (Hs r). destruct (l_proc s r) eqn:Pr; try exact Hx. destruct Hs.
      - specialize (Hs r). destruct (l_proc s r) eqn:Pr; try exact Hx. destruct Hs.
      - unfold gone, release. destruct (l_proc s r) eqn:Pr; cbn; destruct (N.eqb x r); auto.
      - destruct (negb (running s r)); exact Hx. }
    destruct (IH (lstep s e) Hs') as [U H]; [intros e' He'; apply Nl; right; exact He'|].
    split; [|exact H]. split; [|exact U]. destruct e; auto. intros X. specialize (Hs p0). rewrite X in Hs. destruct Hs. }
  destruct (Inv (lstart past) (fun _ => I) h N) as [U H]. fold (lrun past h) in H. intros Sp Sq.
  apply (C51_one_owner_partial past h p q U).
  - specialize (H p). unfold serving, holds in *. destruct (l_proc (lrun past h) p); try contradiction. eauto.
  - specialize (H q). unfold serving, holds in *. destruct (l_proc (lrun past h) q); try contradiction. eauto.
Qed.
Print Assumptions C51_crash_only_partial.
(** Without that condition it is false: 20 opens the file of 10, which shuts down
    and removes it; 30 creates a new one; both lock the file they have open. *)
Theorem C51_one_owner_refuted :
  exists h p q, p <> q /\ holds (lrun None h) p /\ holds (lrun None h) q.
Proof.
  exists [LStart 10; LCheck 10 true; LFlock 10; LWrite 10; LStart 20; LUnlock 10; LClose 10; LRemove 10; LStart 30;
          LCheck 20 true; LFlock 20; LWrite 20; LCheck 30 true; LFlock 30; LWrite 30]%N, 20%N, 30%N.
  split; [discriminate|]. split; eexists; vm_compute; reflexivity.
Qed.
Print Assumptions C51_one_owner_refuted.
(** And holding the lock is not serving alone: a daemon that shuts down gives the
    lock up before it stops its workers. *)
Theorem C51_one_server_refuted :
  exists h p q, p <> q /\ undisturbed None h /\ serving (lrun None h) p /\ holds (lrun None h) q.
Proof.
  exists [LStart 10; LCheck 10 true; LFlock 10; LWrite 10; LUnlock 10; LClose 10; LRemove 10;
          LStart 20; LCheck 20 true; LFlock 20; LWrite 20]%N, 10%N, 20%N.
  split; [discriminate|]. split; [|split; [vm_compute; exact I|eexists; vm_compute; reflexivity]].
  unfold undisturbed. cbn [undisturbed_from]. repeat (split; [exact I|]). split; [|repeat (split; [exact I|]); exact I].
  intros _ q. vm_compute. do 6 (try reflexivity; match goal with |- context [match ?x with _ => _ end] => is_var x; destruct x end); reflexivity.
Qed.
Print Assumptions C51_one_server_refuted.

(** ** C52 *)
Lemma digits_app f : forall n acc rest, (digits f n acc ++ rest)%string = digits f n (acc ++ rest)%string.
Proof.
  induction f as [|f IH]; intros n acc rest; cbn [digits]; [reflexivity|]. destruct (n <? 10)%N; [reflexivity|]. rewrite IH. reflexivity.
Qed.
Lemma scan_print f n acc : (n < 2 ^ N.of_nat f)%N -> scan_digits (digits (S f) n acc) 0 = scan_digits acc n.
Proof.
  revert n acc; induction f as [|f IH]; intros n acc B.
  - assert (n = 0%N) as -> by (change (2 ^ N.of_nat 0)%N with 1%N in B; lia). reflexivity.
  - cbn [digits]. destruct (N.ltb_spec n 10) as [L|L].
    + cbn [scan_digits]. rewrite (digit_is_digit n L), (digit_code n L). f_equal. lia.
    + change (scan_digits (digits (S f) (n / 10) (String (digit (n mod 10)) acc)) 0 = scan_digits acc n).
      rewrite IH.
      * cbn [scan_digits]. assert (M : (n mod 10 < 10)%N) by (apply N.mod_lt; discriminate).
        rewrite (digit_is_digit _ M), (digit_code _ M). f_equal. pose proof (N.div_mod n 10 ltac:(discriminate)) as DM. set (a := (n / 10)%N) in *. set (b := (n mod 10)%N) in *. clearbody a b. lia.
      * rewrite Nat2N.inj_succ, N.pow_succ_r' in B. apply N.div_lt_upper_bound; [discriminate|]. set (x := (2 ^ N.of_nat f)%N) in *. clearbody x. lia.
Qed.
Lemma scan_print_N n rest : scan_digits (print_N n ++ rest) 0 = scan_digits rest n.
Proof. unfold print_N. rewrite digits_app. cbn [append]. apply scan_print. rewrite N2Nat.id. apply N.size_gt. Qed.
Lemma scan_grows s : forall acc, (acc <= scan_digits s acc)%N.
Proof.
  induction s as [|c s IH]; intros acc; cbn [scan_digits]; [lia|]. destruct (is_digit c); [|lia]. specialize (IH (acc * 10 + (N_of_ascii c - 48))%N). lia.
Qed.
Lemma print_head n rest : exists c t, (print_N n ++ rest)%string = String c t /\ is_digit c = true.
Proof.
  unfold print_N. destruct (digits_head (N.to_nat (N.size n)) n "") as (c & t & E & D). exists c, (t ++ rest)%string. rewrite E. auto.
Qed.
Lemma digit_not_blank c : is_digit c = true -> (Ascii.eqb c " " || Ascii.eqb c "009") = false.
Proof.
  intros D. apply orb_false_iff. unfold is_digit in D. apply andb_true_iff in D as [D _]. apply N.leb_le in D.
  split; apply Ascii.eqb_neq; intros ->; vm_compute in D; apply D; reflexivity.
Qed.
Lemma read_print p rest : pid_ok p = true ->
  read_pid (print_N p ++ rest) = (if (Z.of_N (scan_digits rest p) <? 2 ^ 63)%Z then Some (Z.of_N (scan_digits rest p)) else None).
Proof.
  intros P. destruct (print_head p rest) as (c & t & E & D). unfold read_pid. rewrite E. cbn [skip_blanks]. rewrite (digit_not_blank c D).
  destruct (digit_not_sign c D) as [-> ->]. unfold int64_of. cbn [starts_digit]. rewrite D. rewrite <- E, scan_print_N.
  replace (- 2 ^ 63 <=? Z.of_N (scan_digits rest p))%Z with true; [reflexivity|]. symmetry. apply Z.leb_le. lia.
Qed.
Lemma pid_range p : pid_ok p = true -> (1 <= p <= 4194304)%N.
Proof. intros H. apply andb_true_iff in H as [A B]. apply N.leb_le in A. apply N.leb_le in B. lia. Qed.
(** After a successful Lock the number in the file is the owner's PID exactly if
    the bytes beyond it in the previous contents do not begin with a digit. *)
Theorem C52_pid_readable_exact :
  forall old p, pid_ok p = true ->
    (read_pid (overwrite old (print_N p)) = Some (Z.of_N p) <-> starts_digit (drop (String.length (print_N p)) old) = false).
Proof.
  intros old p P. unfold overwrite. rewrite (read_print p _ P). set (rest := drop _ old). pose proof (pid_range p P) as R. split.
  - intros H. destruct (Z.ltb _ _); [|discriminate]. injection H as H. destruct rest as [|c t]; [reflexivity|]. cbn [starts_digit]. cbn [scan_digits] in H.
    destruct (is_digit c); [|reflexivity]. exfalso. pose proof (scan_grows t (p * 10 + (N_of_ascii c - 48))%N). lia.
  - intros H. assert (E : scan_digits rest p = p) by (destruct rest as [|c t]; cbn [scan_digits starts_digit] in *; [reflexivity|rewrite H; reflexivity]).
    rewrite E. rewrite (proj2 (Z.ltb_lt _ _)); [reflexivity|]. lia.
Qed.
Print Assumptions C52_pid_readable_exact.

(** all daemons that ever start have PIDs with as many digits, and a lock file
    left over from the past is empty or holds such a PID *)
Definition pids_of (h : list lev) : list N := flat_map (fun e => match e with LStart p => [p] | _ => [] end) h.
Definition pid_text (k : nat) (c : string) : Prop := c = "" \/ exists q, pid_ok q = true /\ String.length (print_N q) = k /\ c = print_N q.
Definition same_width (past : option string) (h : list lev) (k : nat) : Prop :=
  (forall p, In p (pids_of h) -> String.length (print_N p) = k) /\ (forall c, past = Some c -> pid_text k c).

Lemma drop_all s : drop (String.length s) s = "".
Proof. induction s; cbn; auto. Qed.
Lemma drop_empty n : drop n "" = "".
Proof. destruct n; reflexivity. Qed.
Lemma sapp_nil s : (s ++ "")%string = s.
Proof. induction s as [|c s IH]; cbn; [reflexivity|]. rewrite IH. reflexivity. Qed.
Lemma drop_len s : forall n, n = String.length s -> drop n s = "".
Proof. intros n ->. apply drop_all. Qed.

Record winv (k : nat) (s : lstate) : Prop := {
  wi_proc : forall p, running s p = true -> pid_ok p = true /\ String.length (print_N p) = k;
  wi_text : forall i, pid_text k (l_text s i);
  wi_owner : forall p i, l_proc s p = Owner i -> l_text s i = print_N p
}.
Lemma winv_proc k s p x : winv k s -> (forall i, x <> Owner i) -> running s p = true -> winv k (set_proc s p x).
Proof.
  intros [A B C] Nx Rp. constructor; cbn; [|exact B|].
  - intros q. unfold running. cbn. destruct (N.eqb_spec q p) as [->|]; [intros _; apply A, Rp|apply A].
  - intros q i. destruct (N.eqb_spec q p) as [->|]; [intros X; destruct (Nx i X)|apply C].
Qed.
Lemma winv_gone k s p : winv k s -> winv k (gone s p).
Proof.
  intros [A B C]. unfold gone, release. constructor.
  - intros q. unfold running. destruct (l_proc s p); cbn; (destruct (N.eqb_spec q p) as [->|]; [discriminate|apply A]).
  - intros i. destruct (l_proc s p); cbn; apply B.
  - intros q i. destruct (l_proc s p); cbn; (destruct (N.eqb_spec q p) as [->|]; [discriminate|apply C]).
Qed.
Lemma winv_step k s e : linv s -> winv k s -> (forall p, e = LStart p -> String.length (print_N p) = k) -> winv k (lstep s e).
Proof.
  intros [L Lo Lp] H Hs. pose proof H as [A B C]. destruct e as [p|p sees|p|p|p|p|p|p|p up]; cbn [lstep].
  - destruct (pid_ok p) eqn:Pk; [|exact H]. destruct (alive s p); [exact H|]. cbn [andb negb]. destruct (l_path s) as [i|] eqn:Pt; constructor; cbn; auto.
    + intros q. unfold running. cbn. destruct (N.eqb_spec q p) as [->|]; [intros _; split; [exact Pk|apply Hs; reflexivity]|apply A].
    + intros q j. destruct (N.eqb_spec q p) as [->|]; [discriminate|apply C].
    + intros q. unfold running. cbn. destruct (N.eqb_spec q p) as [->|]; [intros _; split; [exact Pk|apply Hs; reflexivity]|apply A].
    + intros j. destruct (Nat.eqb j (l_next s)); [left; reflexivity|apply B].
    + intros q j. destruct (N.eqb_spec q p) as [->|]; [discriminate|]. intros X. destruct (Nat.eqb_spec j (l_next s)) as [->|]; [|apply C, X].
      exfalso. assert (Y : l_next s < l_next s) by (apply (Lo q); unfold has_open; rewrite X; reflexivity). lia.
  - destruct (l_proc s p) as [|i| | | | | |] eqn:Pp; try exact H.
    assert (Ck : winv k (set_proc s p (Checked i))) by (apply winv_proc; [exact H|discriminate|unfold running; rewrite Pp; reflexivity]).
    destruct (l_path s) as [j|]; [|apply winv_gone, H]. destruct (read_pid _) as [z|]; [|exact Ck].
    destruct (_ && _); [apply winv_gone, H|exact Ck].
  - destruct (l_proc s p) as [| |i| | | | |] eqn:Pp; try exact H. destruct (l_flock s i) as [h|] eqn:Fl; [apply winv_gone, H|].
    apply (winv_proc k (set_flock s i (Some p)) p (Flocked i)); [constructor; assumption|discriminate|]. unfold running. cbn. rewrite Pp. reflexivity.
  - destruct (l_proc s p) as [| | |i| | | |] eqn:Pp; try exact H.
    assert (Rp : running s p = true) by (unfold running; rewrite Pp; reflexivity). destruct (A p Rp) as [Pk Pl].
    assert (W : overwrite (l_text s i) (print_N p) = print_N p).
    { unfold overwrite. destruct (B i) as [->|(q & _ & Lq & ->)]; [rewrite drop_empty|rewrite (drop_len (print_N q)) by congruence]; apply sapp_nil. }
    constructor; cbn [l_text l_proc].
    + intros q. unfold running. cbn. destruct (N.eqb_spec q p) as [->|]; [auto|apply A].
    + intros j. destruct (Nat.eqb_spec j i) as [->|]; [|apply B]. rewrite W. right. eauto.
    + intros q j. destruct (N.eqb_spec q p) as [->|Nq].
      * intros X. injection X as <-. rewrite Nat.eqb_refl. exact W.
      * intros X. destruct (Nat.eqb_spec j i) as [->|]; [|apply C, X]. exfalso.
        assert (l_flock s i = Some p) by (apply L; auto). assert (l_flock s i = Some q) by (apply L; auto). congruence.
  - destruct (l_proc s p) as [| | | |i| | |] eqn:Pp; try exact H.
    apply (winv_proc k (set_flock s i None) p (Unlocked i)); [constructor; assumption|discriminate|]. unfold running. cbn. rewrite Pp. reflexivity.
  - destruct (l_proc s p) eqn:Pp; try exact H. apply winv_proc; [exact H|discriminate|unfold running; rewrite Pp; reflexivity].
  - destruct (l_proc s p) eqn:Pp; try exact H. constructor; cbn; auto.
    + intros q. unfold running. cbn. destruct (N.eqb_spec q p) as [->|]; [intros _; apply A; unfold running; rewrite Pp; reflexivity|apply A].
    + intros q j. destruct (N.eqb_spec q p) as [->|]; [discriminate|apply C].
  - apply winv_gone, H.
  - destruct (negb (running s p)); [|exact H]. constructor; cbn; auto.
Qed.

Lemma winv_run past h k : same_width past h k -> winv k (lrun past h).
Proof.
  intros [W1 W2]. unfold lrun.
  assert (G : forall l s, linv s -> winv k s -> (forall p, In p (pids_of l) -> String.length (print_N p) = k) -> winv k (fold_left lstep l s)).
  { induction l as [|e l IH]; intros s L H Wl; cbn [fold_left]; [exact H|]. apply IH; [apply linv_step, L| |].
    - apply winv_step; [exact L|exact H|]. intros p ->. apply Wl. left. reflexivity.
    - intros p Hp. apply Wl. unfold pids_of. cbn [flat_map]. apply in_app_iff. right. exact Hp. }
  apply G; [apply linv_start| |exact W1]. constructor; cbn; try discriminate. intros i. destruct past as [c|]; [apply W2; reflexivity|left; reflexivity].
Qed.
(** Whatever the interleaving: while [p] holds the lock, the number in the lock
    file is [p], provided all PIDs have the same number of digits and no lock file
    is removed while another daemon has it open. *)
Theorem C52_lock_names_owner_partial :
  forall past h k p, undisturbed past h -> same_width past h k -> holds (lrun past h) p -> recorded (lrun past h) = Some (Z.of_N p).
Proof.
  intros past h k p U W (i & Hp). pose proof (winv_run past h k W) as [A _ C]. unfold recorded.
  rewrite (same_run past h U p i) by (unfold has_open; rewrite Hp; reflexivity). rewrite (C p i Hp).
  destruct (A p) as [Pk _]; [unfold running; rewrite Hp; reflexivity|].
  pose proof (proj2 (C52_pid_readable_exact "" p Pk)) as X. unfold overwrite in X. rewrite drop_empty, sapp_nil in X. apply X. reflexivity.
Qed.
Print Assumptions C52_lock_names_owner_partial.
(** Otherwise it is false: 12345 crashed, 99 starts. *)
Theorem C52_lock_names_owner_refuted :
  exists h p, undisturbed None h /\ holds (lrun None h) p /\ recorded (lrun None h) = Some 99345%Z /\ Z.of_N p = 99%Z.
Proof.
  exists [LStart 12345; LCheck 12345 true; LFlock 12345; LWrite 12345; LExit 12345; LStart 99; LCheck 99 true; LFlock 99; LWrite 99]%N, 99%N.
  split; [unfold undisturbed; cbn [undisturbed_from]; repeat (split; [exact I|]); exact I|].
  split; [eexists; vm_compute; reflexivity|]. split; vm_compute; reflexivity.
Qed.
Print Assumptions C52_lock_names_owner_refuted.
Example C51_C52_demo :
  let h := [LStart 10; LCheck 10 true; LFlock 10; LWrite 10; LStart 20; LCheck 20 true; LExit 10;
            LStart 30; LStart 40; LCheck 30 true; LCheck 40 true; LFlock 40; LWrite 40; LFlock 30]%N in
  undisturbed None h /\ same_width None h 2 /\ holds (lrun None h) 40 /\ l_proc (lrun None h) 30 = Absent /\ l_proc (lrun None h) 20 = Absent /\
  recorded (lrun None h) = Some 40%Z.
Proof.
  intros h. split; [unfold undisturbed; cbn [undisturbed_from h]; repeat (split; [exact I|]); exact I|]. split.
  { split; [|discriminate]. intros p. cbn. intros H. repeat destruct H as [<-|H]; try reflexivity. destruct H. }
  split; [eexists; vm_compute; reflexivity|]. repeat split; vm_compute; reflexivity.
Qed.

(** ** C62: a crashed daemon can be started again *)
(** no ferryd runs *)
Definition nobody (s : lstate) : Prop := forall q, l_proc s q = Absent.
Definition start_up (p : N) : list lev := [LStart p; LCheck p true; LFlock p; LWrite p].
(** the number in the lock file belongs to a living process that is not us *)
Definition mistaken (s : lstate) (p : N) : Prop :=
  exists z, recorded s = Some z /\ (0 < z)%Z /\ z <> Z.of_N p /\ l_other s (Z.to_N z) = true.
(** With no daemon running, whatever happened before, a daemon gets the lock
    exactly if the number in the lock file is not that of another living process. *)
Theorem C62_restart_exact :
  forall past h p, let s := lrun past h in nobody s -> pid_ok p = true -> l_other s p = false ->
    (holds (fold_left lstep (start_up p) s) p <-> ~ mistaken s p).
Proof.
  intros past h p s Nb Pk Po. pose proof (linv_run past h) as [Fl _ Pa]. fold s in Fl, Pa. clearbody s.
  assert (Al : alive s p = false) by (unfold alive, running; rewrite Po, Nb; reflexivity).
  assert (Free : forall i, l_flock s i = None).
  { intros i. destruct (l_flock s i) as [q|] eqn:F; [|reflexivity]. apply Fl in F. rewrite Nb in F. destruct F; discriminate. }
  assert (Go : forall s1 i, l_proc s1 p = Checked i -> l_flock s1 i = None -> holds (lstep (lstep s1 (LFlock p)) (LWrite p)) p).
  { intros s1 i P F. exists i. cbn [lstep]. rewrite P, F. cbn. rewrite N.eqb_refl. cbn. rewrite N.eqb_refl. reflexivity. }
  assert (Stop : forall s1, l_proc s1 p = Absent -> ~ holds (lstep (lstep s1 (LFlock p)) (LWrite p)) p).
  { intros s1 P (i & X). cbn [lstep] in X. rewrite P in X. rewrite P in X. congruence. }
  unfold start_up. cbn [fold_left]. set (s1 := lstep s (LStart p)).
  assert (E1 : exists j, l_path s1 = Some j /\ l_proc s1 p = Opened j /\ l_flock s1 j = None /\ (forall q, q <> p -> l_proc s1 q = Absent) /\ l_other s1 = l_other s /\
     (read_pid (l_text s1 j) = recorded s)).
  { unfold s1. cbn [lstep]. rewrite Pk, Al. cbn [andb negb]. unfold recorded. destruct (l_path s) as [j|] eqn:Pt.
    - exists j. cbn. rewrite N.eqb_refl. split; [exact Pt|]. split; [reflexivity|]. split; [apply Free|]. split; [|auto].
      intros q Nq. rewrite (proj2 (N.eqb_neq _ _) Nq). apply Nb.
    - exists (l_next s). cbn. rewrite N.eqb_refl, Nat.eqb_refl. split; [reflexivity|]. split; [reflexivity|]. split; [apply Free|]. split; [|auto].
      intros q Nq. rewrite (proj2 (N.eqb_neq _ _) Nq). apply Nb. }
  clearbody s1. destruct E1 as (j & Pt & Pp & F & Ot & Oo & Rd). unfold mistaken. rewrite <- Rd, <- Oo.
  set (s2 := lstep s1 (LCheck p true)). assert (E2 : s2 = lstep s1 (LCheck p true)) by reflexivity. cbn [lstep] in E2. rewrite Pp, Pt in E2. clearbody s2. destruct (read_pid (l_text s1 j)) as [z|].
  2:{ split; [intros _ (z & X & _); discriminate|]. intros _. subst s2. apply (Go _ j); cbn; [rewrite N.eqb_refl; reflexivity|exact F]. }
  assert (Az : (0 < z)%Z -> z <> Z.of_N p -> alive s1 (Z.to_N z) = l_other s1 (Z.to_N z)).
  { intros Z0 Zp. unfold alive, running. rewrite Ot; [apply orb_false_r|]. intros X. apply Zp. rewrite <- X, Z2N.id; lia. }
  destruct ((0 <? z)%Z && negb (z =? Z.of_N p)%Z && alive s1 (Z.to_N z) && true) eqn:Ck; subst s2.
  - split; [|intros X; exfalso; apply X].
    + intros X. exfalso. revert X. apply Stop. unfold gone, release. rewrite Pp. cbn. rewrite N.eqb_refl. reflexivity.
    + rewrite andb_true_r in Ck. apply andb_true_iff in Ck as [Ck C3]. apply andb_true_iff in Ck as [C1 C2].
      apply Z.ltb_lt in C1. apply negb_true_iff, Z.eqb_neq in C2. exists z. split; [reflexivity|]. split; [exact C1|]. split; [exact C2|]. rewrite <- Az; auto.
  - split; [|intros _; apply (Go _ j); cbn; [rewrite N.eqb_refl; reflexivity|exact F]].
    intros _ (z' & Ez & Z0 & Zp & Oz). injection Ez as <-. rewrite (Az Z0 Zp), Oz in Ck. rewrite (proj2 (Z.ltb_lt _ _) Z0), (proj2 (Z.eqb_neq _ _) Zp) in Ck. discriminate.
Qed.
Print Assumptions C62_restart_exact.
(** So it is false without the condition: the PID of the crashed daemon was given
    to some other process. *)
Theorem C62_restart_refuted :
  exists h p, let s := lrun None h in nobody s /\ pid_ok p = true /\ l_other s p = false /\ ~ holds (fold_left lstep (start_up p) s) p.
Proof.
  exists (start_up 10 ++ [LExit 10; LOther 10 true])%N, 20%N. intros s. split.
  { intros q. vm_compute. repeat (try reflexivity; match goal with |- context [match ?x with _ => _ end] => is_var x; destruct x end). }
  split; [reflexivity|]. split; [vm_compute; reflexivity|]. intros (i & X). vm_compute in X. discriminate X.
Qed.
Print Assumptions C62_restart_refuted.
