(** * PropsPurge: property C97 - clearing the CDN cache *)
From Verif Require Import Model Spec Demo DemoOk DbInv DbOps Wp FsInv Ops RepoOps Pure Loops Emit IndexOps ApiOps History PoolFacts OpFacts OpFacts2 IndexFacts PropsOps.
From Verif Require Import Paths Purge.
Open Scope string_scope. Open Scope list_scope.

(** ** Specification *)
Definition NL : string := String (ascii_of_nat 10) "".
Fixpoint has_char (c : ascii) (s : string) : Prop :=
  match s with EmptyString => False | String a s' => a = c \/ has_char c s' end.
(** [urls] are the non-empty lines of [text], in order *)
Definition nonempty_lines (text : string) (urls : list string) : Prop :=
  exists ls, text = String.concat NL ls /\ (forall l, In l ls -> ~ has_char (ascii_of_nat 10) l) /\
    urls = filter (fun l => negb (seqb l "")) ls.
(** purging is set up for repository [r]: both variables set, the list file is there *)
Definition set_up (cl : cloud) (r : string) : Prop :=
  cl_token cl <> "" /\ cl_zone cl <> "" /\ cl_file cl (join "/etc/ferryd" r) <> Absent.

Lemma split_lines_ne s : split_lines s <> [].
Proof. destruct s as [|c s]; cbn [split_lines]; [discriminate|]. destruct (Ascii.eqb c newline); [discriminate|]. destruct (split_lines s); discriminate. Qed.
Lemma split_concat s : String.concat NL (split_lines s) = s.
Proof.
  induction s as [|c s IH]; [reflexivity|]. cbn [split_lines]. destruct (Ascii.eqb_spec c newline) as [->|N].
  - pose proof (split_lines_ne s) as Ne. destruct (split_lines s) as [|h t] eqn:El; [congruence|].
    change (String.concat NL ("" :: h :: t)) with (NL ++ String.concat NL (h :: t))%string. rewrite IH. reflexivity.
  - pose proof (split_lines_ne s) as Ne. destruct (split_lines s) as [|h t] eqn:El; [congruence|].
    destruct t as [|h2 t]; cbn in IH |- *; rewrite <- IH; reflexivity.
Qed.
Lemma split_clean s l : In l (split_lines s) -> ~ has_char (ascii_of_nat 10) l.
Proof.
  revert l. induction s as [|c s IH]; intros l; cbn [split_lines]; [intros [<-|[]] []|].
  destruct (Ascii.eqb_spec c newline) as [->|N]; [intros [<-|H]; [intros []|apply IH, H]|].
  pose proof (split_lines_ne s) as Ne. destruct (split_lines s) as [|h t]; [congruence|].
  intros [<-|H]; [|apply IH; right; exact H]. intros [X|X]; [apply N; exact X|]. apply (IH h (or_introl eq_refl) X).
Qed.
Lemma len0 s : Nat.eqb (String.length s) 0 = true <-> s = "".
Proof. destruct s; cbn; split; congruence. Qed.

(** What is sent: nothing unless purging is set up; otherwise the zone and exactly the
    non-empty lines of the list file. *)
Theorem C97_request_exact :
  forall cl r zone urls,
    fst (purge cl r) = Some (zone, urls) <->
    set_up cl r /\ cl_client cl = true /\ zone = cl_zone cl /\
    exists text, cl_file cl (join "/etc/ferryd" r) = Lines text /\
      nonempty_lines text urls.
Proof.
  intros cl r zone urls. unfold purge, set_up.
  destruct (Nat.eqb (String.length (cl_token cl)) 0) eqn:T; [apply len0 in T; cbn; split; [discriminate|tauto]|].
  assert (T' : cl_token cl <> "") by (intros X; apply len0 in X; congruence).
  destruct (Nat.eqb (String.length (cl_zone cl)) 0) eqn:Z; [apply len0 in Z; cbn; split; [discriminate|tauto]|].
  assert (Z' : cl_zone cl <> "") by (intros X; apply len0 in X; congruence).
  destruct (cl_file cl (join "/etc/ferryd" r)) as [| |text] eqn:F.
  - cbn. split; [discriminate|tauto].
  - cbn. split; [discriminate|]. intros (_ & _ & _ & t & X & _). discriminate.
  - destruct (cl_client cl); [|cbn; split; [discriminate|intros (_ & X & _); discriminate]]. cbn [fst]. split.
    + intros X. injection X as <- <-. repeat split; auto; try discriminate. exists text. split; [reflexivity|].
      exists (split_lines text). split; [symmetry; apply split_concat|]. split; [apply split_clean|reflexivity].
    + intros (_ & _ & -> & t & X & ls & Y & N & ->). injection X as <-. f_equal. f_equal.
      clear - Y N. subst text.
      assert (Sc : forall l, ~ has_char (ascii_of_nat 10) l -> split_lines l = [l]).
      { induction l as [|c l IH]; intros H; [reflexivity|]. cbn [split_lines]. destruct (Ascii.eqb_spec c newline) as [->|Nc]; [exfalso; apply H; left; reflexivity|].
        rewrite IH; [reflexivity|intros X; apply H; right; exact X]. }
      assert (Sa : forall l s, ~ has_char (ascii_of_nat 10) l -> split_lines (l ++ NL ++ s)%string = l :: split_lines s).
      { induction l as [|c l IH]; intros s H; [reflexivity|]. cbn [split_lines String.append]. destruct (Ascii.eqb_spec c newline) as [->|Nc]; [exfalso; apply H; left; reflexivity|].
        change (l ++ NL ++ s)%string with (l ++ (NL ++ s))%string. rewrite IH; [reflexivity|intros X; apply H; right; exact X]. }
      induction ls as [|l ls IH]; [reflexivity|]. destruct ls as [|l2 ls].
      * cbn [String.concat]. rewrite Sc by (apply N; left; reflexivity). reflexivity.
      * change (String.concat NL (l :: l2 :: ls)) with (l ++ NL ++ String.concat NL (l2 :: ls))%string.
        rewrite Sa by (apply N; left; reflexivity). cbn [filter]. rewrite IH by (intros x Hx; apply N; right; exact Hx). reflexivity.
Qed.
Print Assumptions C97_request_exact.

(** The result: success exactly if purging is not set up or Cloudflare confirms. *)
Theorem C97_success_exact :
  forall cl r, snd (purge cl r) = Ok tt <->
    ~ set_up cl r \/ exists zone urls msgs, fst (purge cl r) = Some (zone, urls) /\ cl_reply cl zone urls = Reply true msgs.
Proof.
  intros cl r. unfold purge, set_up.
  destruct (Nat.eqb (String.length (cl_token cl)) 0) eqn:T; [apply len0 in T; cbn; split; [left; tauto|reflexivity]|].
  assert (T' : cl_token cl <> "") by (intros X; apply len0 in X; congruence).
  destruct (Nat.eqb (String.length (cl_zone cl)) 0) eqn:Z; [apply len0 in Z; cbn; split; [left; tauto|reflexivity]|].
  assert (Z' : cl_zone cl <> "") by (intros X; apply len0 in X; congruence).
  destruct (cl_file cl (join "/etc/ferryd" r)) as [| |text] eqn:F.
  - cbn. split; [left; tauto|reflexivity].
  - cbn. split; [discriminate|]. intros [N|(z & u & m & X & _)]; [exfalso; apply N; repeat split; auto; discriminate|discriminate].
  - set (files := filter _ (split_lines text)).
    assert (Su : ~ (cl_token cl <> "" /\ cl_zone cl <> "" /\ Lines text <> Absent) -> False) by (intros N; apply N; repeat split; auto; discriminate).
    destruct (cl_client cl); cbn [fst snd].
    + destruct (cl_reply cl (cl_zone cl) files) as [|[|] ms] eqn:Rp.
      * split; [discriminate|]. intros [N|(z & u & m & X & Y)]; [destruct (Su N)|]. injection X as <- <-. congruence.
      * split; [|reflexivity]. intros _. right. exists (cl_zone cl), files, ms. auto.
      * split; [destruct ms; discriminate|]. intros [N|(z & u & m & X & Y)]; [destruct (Su N)|]. injection X as <- <-. congruence.
    + split; [discriminate|]. intros [N|(z & u & m & X & _)]; [destruct (Su N)|discriminate].
Qed.
Print Assumptions C97_success_exact.

(** ... and a panic exactly on a refusal without a message. *)
Theorem C97_panic_exact :
  forall cl r, snd (purge cl r) = Panic <->
    exists zone urls, fst (purge cl r) = Some (zone, urls) /\ cl_reply cl zone urls = Reply false [].
Proof.
  intros cl r. unfold purge.
  destruct (Nat.eqb (String.length (cl_token cl)) 0); [cbn; split; [discriminate|intros (z & u & X & _); discriminate]|].
  destruct (Nat.eqb (String.length (cl_zone cl)) 0); [cbn; split; [discriminate|intros (z & u & X & _); discriminate]|].
  destruct (cl_file cl (join "/etc/ferryd" r)) as [| |text]; try (cbn; split; [discriminate|intros (z & u & X & _); discriminate]).
  set (files := filter _ (split_lines text)).
  destruct (cl_client cl); cbn [fst snd]; [|split; [discriminate|intros (z & u & X & _); discriminate]]. split.
  - intros X. exists (cl_zone cl), files. split; [reflexivity|]. destruct (cl_reply cl (cl_zone cl) files) as [|[|] [|m ms]]; congruence.
  - intros (z & u & X & Y). injection X as <- <-. rewrite Y. reflexivity.
Qed.
Print Assumptions C97_panic_exact.

(** ** The purge and the index *)

(** the same run of chance, but the purge ends with [x] *)
Definition with_purge (o : oracle) (x : res unit) : oracle := Oracle (o_order o) (o_fail o) (o_rfail o) x (o_sort o).

Lemma stages_pairs r st : forall done s tr s' m, run_stages r done st s = (tr, s', Ok m) -> m = done ++ map fst st.
Proof.
  induction st as [|[[k v] a] st IH]; intros done s tr s' m; cbn [run_stages].
  - intros X. injection X as _ _ <-. rewrite app_nil_r. reflexivity.
  - unfold bind. destruct (on_err a _ s) as [[t1 s1] [[]| |]]; try discriminate.
    destruct (run_stages r (done ++ [(k, v)]) st s1) as [[t2 s2] [m2| |]] eqn:X; try discriminate. intros Y. injection Y as _ _ <-.
    rewrite (IH _ _ _ _ _ X), <- app_assoc. reflexivity.
Qed.

Section PurgeIndex.
Variable E : env.
Variable cat : string -> meta.
Hypothesis Hcat : good_catalog cat.
Hypothesis HE : good_env E.

Lemma index_purge ex fz o x r s s' tr : Inv E cat ex fz [] s -> good_oracle (with_purge o (Ok tt)) ->
  index E (with_purge o (Ok tt)) r s = (tr, s', Ok tt) ->
  exists tr2 t, index E (with_purge o x) r s = (tr2, t, x) /\ quiet_root r s' t /\ forall f, f_root (st_fs t) r f = f_root (st_fs s') r f.
Proof.
  intros H Ho Hi.
  assert (Tmp : forall k, In k temps -> f_root (st_fs s') r k = None).
  { destruct (wp_index E cat Hcat HE ex fz _ r s H Ho) as (_ & W). unfold result_of, final_of in W. rewrite Hi in W. cbn [fst snd] in W.
    destruct W as (_ & _ & _ & _ & D & _). destruct (D eq_refl) as (txt & _ & _ & Dn). exact (id_temp _ _ _ _ _ Dn). }
  unfold index in Hi |- *. unfold bind at 1 in Hi. unfold bind at 1. rewrite init_dist_eq in Hi |- *.
  destruct (dist_of E s r) as [dist| |]; try discriminate.
  unfold bind at 1 in Hi. unfold bind at 1.
  change (index_stages E (with_purge o x) r dist) with (index_stages E (with_purge o (Ok tt)) r dist).
  destruct (run_stages r [] (index_stages E (with_purge o (Ok tt)) r dist) s) as [[t1 s1] [m| |]] eqn:Rs; try discriminate.
  apply stages_pairs in Rs. change ([] ++ map fst (index_stages E (with_purge o (Ok tt)) r dist)) with index_pairs in Rs.
  unfold on_err in Hi |- *. unfold bind at 1 in Hi. unfold bind at 1.
  change (o_order (with_purge o x)) with (o_order o). change (o_order (with_purge o (Ok tt))) with (o_order o) in Hi.
  change (fun kv : string * string => rename (with_purge o x) r (fst kv) (snd kv)) with (fun kv : string * string => rename o r (fst kv) (snd kv)).
  change (fun kv : string * string => rename (with_purge o (Ok tt)) r (fst kv) (snd kv)) with (fun kv : string * string => rename o r (fst kv) (snd kv)) in Hi.
  destruct (forM (o_order o m) (fun kv => rename o r (fst kv) (snd kv)) s1) as [[t2 s2] [[]| |]].
  2:{ cbn in Hi. destruct (remove_all r (map fst m) s2) as [[? ?] ?]. discriminate. }
  2:{ discriminate. }
  cbn [lift with_purge o_purge] in Hi |- *. unfold lift in *. cbn in Hi. injection Hi as _ ->.
  assert (Q0 : quiet_root r s' s') by (constructor; auto; apply same_files_refl).
  destruct x as [[]| |].
  - eexists. exists s'. split; [reflexivity|]. split; [exact Q0|reflexivity].
  - destruct (wp_remove_all r s' (map fst m) s' Q0) as (_ & W). unfold result_of, final_of in W.
    destruct (remove_all r (map fst m) s') as [[t4 s4] r4]. cbn [fst snd] in W. destruct W as (-> & Q & F).
    eexists. exists s4. split; [reflexivity|]. split; [exact Q|]. intros f. rewrite F, Rs.
    destruct (sin f (map fst index_pairs)) eqn:Sf; [|reflexivity]. apply sin_In in Sf. symmetry. apply Tmp, Sf.
  - eexists. exists s'. split; [reflexivity|]. split; [exact Q0|reflexivity].
Qed.
End PurgeIndex.

(** The purge comes last: whatever becomes of it, the index files, the packages and
    the database are those of the run with a successful purge; only the answer differs. *)
Theorem C97_purge_does_not_change_what_is_published :
  forall E cat s o x r, good_catalog cat -> good_env E -> reachable E cat s -> good_oracle (with_purge o (Ok tt)) ->
    succeeds E (with_purge o (Ok tt)) (OpIndex r) s ->
    let t0 := after E (with_purge o (Ok tt)) (OpIndex r) s in
    let t := after E (with_purge o x) (OpIndex r) s in
    outcome E (with_purge o x) (OpIndex r) s = match x with Ok _ => Ok [] | Err => Err | Panic => Panic end /\
    (forall y f, index_file t y f = index_file t0 y f) /\ unchanged t0 t.
Proof.
  intros E cat s o x r Hc HE (h & Hh & ->) Ho Su t0 t.
  pose proof (hist_inv E cat Hc HE h Hh) as H. set (s := run_history E h) in *.
  destruct Su as (l & Su). unfold outcome, after in *. cbn [run_op] in *. unfold t0, t in *. clear t0 t.
  unfold bind at 1 in Su. unfold bind. unfold api_index in *. unfold bind at 1 in Su. unfold bind.
  destruct (wp_get_repo E cat false false [] r s H) as (_ & W).
  destruct (get_repo r s) as [[tr1 s1] [[]| |]]; try discriminate. unfold result_of, final_of in W. cbn [fst snd] in W. destruct W as (I1 & _).
  destruct (index E (with_purge o (Ok tt)) r s1) as [[tr2 s2] [[]| |]] eqn:X; try discriminate.
  destruct (index_purge E cat Hc HE false false o x r s1 s2 tr2 I1 Ho X) as (tr3 & t & -> & Q & F).
  assert (K : (forall y f, index_file t y f = index_file s2 y f) /\ unchanged s2 t).
  { split; [intros y f; unfold index_file; destruct (seqb_spec y r) as [->|N]; [apply F|rewrite (qr_root _ _ _ Q y N); reflexivity]|].
    split; [apply (qr_db _ _ _ Q)|]. split; [intros l0; apply same_files_content, (qr_files _ _ _ Q)|]. split.
    - intros y f. unfold index_file. destruct (seqb_spec y r) as [->|N]; [apply F|rewrite (qr_root _ _ _ Q y N); reflexivity].
    - intros y f. unfold asset_file. rewrite (qr_asset _ _ _ Q). reflexivity. }
  destruct x as [[]| |]; cbn; auto.
Qed.
Print Assumptions C97_purge_does_not_change_what_is_published.

(** ** Non-vacuity *)
Definition demo_cloud (rep : reply) : cloud :=
  Cloud "token" "zone" (fun p => if seqb p "/etc/ferryd/stable" then Lines ("https://x/a" ++ NL ++ NL ++ "https://x/b" ++ NL) else Absent) true
    (fun _ _ => rep).
Example C97_demo :
  purge (demo_cloud (Reply true [])) "stable" = (Some ("zone", ["https://x/a"; "https://x/b"]), Ok tt) /\
  purge (demo_cloud (Reply true [])) "unstable" = (None, Ok tt) /\
  snd (purge (demo_cloud (Reply false [])) "stable") = Panic /\
  good_oracle (with_purge demo_oracle (Ok tt)) /\
  let s := run_history (demo_env true) h_two in
  succeeds (demo_env true) (with_purge demo_oracle (Ok tt)) (OpIndex "stable") s /\
  outcome (demo_env true) (with_purge demo_oracle (snd (purge (demo_cloud (Reply false ["no"])) "stable"))) (OpIndex "stable") s = Err.
Proof.
  split; [vm_compute; reflexivity|]. split; [vm_compute; reflexivity|]. split; [vm_compute; reflexivity|].
  split; [apply demo_oracle_good|]. split; [eexists; vm_compute; reflexivity|vm_compute; reflexivity].
Qed.
