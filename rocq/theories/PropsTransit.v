(** * C48-C50, C63, C64: uploads announced by a manifest *)
From Verif Require Import Model Spec Demo DemoOk DbInv DbOps Wp FsInv Ops UnrefOps RepoOps DeleteOps Pure Loops Emit IndexOps ApiOps History IndexFacts OpFacts OpFacts2 Frame.
From Verif Require Import Paths PathFacts Reading Transit DeltaJobFacts TransitFacts.
From Verif Require Import Model Spec FsInv.
Open Scope string_scope. Open Scope list_scope.
Ltac here := vm_compute; reflexivity.

Lemma bind_err {A D} (m : M A) (k : A -> M D) s t s' : m s = (t, s', Err) -> bind m k s = (t, s', Err).
Proof. intros H. unfold bind. rewrite H. reflexivity. Qed.

(** ** Trimming, independent of the model: [t] is [raw] without the white space
    around it *)
Definition blank_char (c : ascii) : Prop := In (nat_of_ascii c) [9; 10; 11; 12; 13; 32].
Fixpoint blank (s : string) : Prop := match s with EmptyString => True | String c s' => blank_char c /\ blank s' end.
Record trimmed (raw t : string) : Prop := {
  tr_around : exists a b, raw = (a ++ t ++ b)%string /\ blank a /\ blank b;
  tr_first : forall c t', t = String c t' -> ~ blank_char c;
  tr_last : forall c t', t = (t' ++ String c "")%string -> ~ blank_char c
}.
Lemma is_space_spec c : is_space c = true <-> blank_char c.
Proof.
  unfold is_space, blank_char. cbn [In]. rewrite orb_true_iff, andb_true_iff, !Nat.leb_le, Nat.eqb_eq. lia.
Qed.
Lemma all_space_spec s : all_space s = true <-> blank s.
Proof. induction s as [|c s IH]; cbn [all_space blank]; [tauto|]. rewrite andb_true_iff, is_space_spec, IH. tauto. Qed.
Lemma blank_app a b : blank (a ++ b) <-> blank a /\ blank b.
Proof. induction a as [|c a IH]; cbn; [tauto|]. rewrite IH. tauto. Qed.
Lemma sapp_nil s : (s ++ "")%string = s.
Proof. induction s; cbn; congruence. Qed.
Lemma trim_left_spec s : exists a, s = (a ++ trim_left s)%string /\ blank a /\ (forall c t, trim_left s = String c t -> ~ blank_char c).
Proof.
  induction s as [|c s (a & A & B & D)]; [exists ""; cbn; repeat split; discriminate|]. cbn [trim_left].
  destruct (is_space c) eqn:Sp.
  - exists (String c a). cbn. rewrite <- A. apply is_space_spec in Sp. repeat split; auto.
  - exists "". cbn. repeat split. intros c' t [= <- <-] X. apply is_space_spec in X. congruence.
Qed.
Lemma trim_right_spec s : exists b, s = (trim_right s ++ b)%string /\ blank b /\ (forall c t, trim_right s = (t ++ String c "")%string -> ~ blank_char c).
Proof.
  induction s as [|c s (b & A & B & D)].
  - exists "". cbn. repeat split. intros c [|]; discriminate.
  - cbn [trim_right]. destruct (all_space (String c s)) eqn:Sp.
    + exists (String c s). apply all_space_spec in Sp. split; [reflexivity|]. split; [exact Sp|]. intros c' [|]; discriminate.
    + exists b. cbn. rewrite <- A. repeat split; auto. intros c' [|c1 t] H; [|injection H as <- H; exact (D c' t H)].
      injection H as <- H. cbn in Sp. intros X. apply is_space_spec in X. rewrite X in Sp. cbn in Sp.
      rewrite H in A. cbn in A. subst s. apply all_space_spec in B. congruence.
Qed.
Lemma trim_right_first s c t : trim_right s = String c t -> exists s', s = String c s'.
Proof. destruct s as [|c' s]; cbn; [discriminate|]. destruct (is_space c' && all_space s); [discriminate|]. intros [= <- _]. eauto. Qed.
Lemma trim_left_blank a s : blank a -> trim_left (a ++ s) = trim_left s.
Proof. induction a as [|c a IH]; cbn; [reflexivity|]. intros [A B]. apply is_space_spec in A. rewrite A. auto. Qed.
Lemma trim_right_blank s b : blank b -> trim_right (s ++ b) = trim_right s.
Proof.
  intros B. induction s as [|c s IH]; cbn.
  - apply all_space_spec in B. destruct b; [reflexivity|]. cbn in *. rewrite B. reflexivity.
  - replace (all_space (s ++ b)) with (all_space s); [rewrite IH; reflexivity|].
    apply eq_true_iff_eq. rewrite !all_space_spec, blank_app. tauto.
Qed.
Lemma last_char c s : exists t d, String c s = (t ++ String d "")%string.
Proof.
  revert c. induction s as [|c' s IH]; intros c; [exists "", c; reflexivity|]. destruct (IH c') as (t & d & ->). exists (String c t), d. reflexivity.
Qed.
Lemma trim_right_id s : (forall c t, s = (t ++ String c "")%string -> ~ blank_char c) -> trim_right s = s.
Proof.
  intros H. destruct (trim_right_spec s) as (b & A & B & _). destruct b as [|c b]; [rewrite sapp_nil in A; symmetry; exact A|].
  exfalso. destruct (last_char c b) as (t & d & X). rewrite X in A, B. apply blank_app in B as [_ [B _]].
  apply (H d (trim_right s ++ t)%string); [|exact B]. rewrite sapp_assoc. exact A.
Qed.
Lemma trimmed_spec raw t : trimmed raw t <-> t = trim_space raw.
Proof.
  split.
  - intros [(a & b & -> & A & B) F L]. unfold trim_space. rewrite (trim_left_blank a (t ++ b) A).
    destruct t as [|c t].
    + cbn. apply all_space_spec in B. clear -B. induction b as [|c b IH]; [reflexivity|]. cbn in *. apply andb_true_iff in B as [B1 B2]. rewrite B1. auto.
    + cbn [append trim_left]. destruct (is_space c) eqn:Sp; [exfalso; apply (F c t eq_refl), is_space_spec, Sp|].
      symmetry. change (String c (t ++ b)) with (String c t ++ b)%string. rewrite (trim_right_blank _ _ B). apply trim_right_id, L.
  - intros ->. unfold trim_space. destruct (trim_left_spec raw) as (a & A1 & A2 & A3). destruct (trim_right_spec (trim_left raw)) as (b & B1 & B2 & B3).
    constructor.
    + exists a, b. rewrite <- B1. auto.
    + intros c t' H. destruct (trim_right_first _ _ _ H) as (s' & X). exact (A3 c s' X).
    + exact B3.
Qed.

Section Spec.
Variable E : env.
Variable T : string -> option tram.
Variable B : list string.

(** the file a payload entry of the manifest at [path] names *)
Definition payload_file (path : string) (x : tfile) : loc := locate B (join (dirname (clean path)) (tf_path x)).
Definition payload_files (path : string) (t : tram) : list loc := map (payload_file path) (tm_files t).
Definition manifest_file (path : string) : loc := locate B (clean path).
Definition manifest_of (s : state) (path : string) (t : tram) : Prop :=
  exists c raw, file_content (st_fs s) (manifest_file path) = Some c /\ T c = Some raw /\
    trimmed (tm_version raw) (tm_version t) /\ trimmed (tm_target raw) (tm_target t) /\
    Forall2 (fun x y => trimmed (tf_path y) (tf_path x) /\ trimmed (tf_sha y) (tf_sha x)) (tm_files t) (tm_files raw).
Lemma manifest_trims t raw :
  (trimmed (tm_version raw) (tm_version t) /\ trimmed (tm_target raw) (tm_target t) /\
   Forall2 (fun x y => trimmed (tf_path y) (tf_path x) /\ trimmed (tf_sha y) (tf_sha x)) (tm_files t) (tm_files raw)) <-> t = trim_manifest raw.
Proof.
  rewrite !trimmed_spec. destruct t as [v g f]. unfold trim_manifest. cbn. split.
  - intros (-> & -> & F). f_equal. induction F as [|x y l l' [P Q] _ IH]; [reflexivity|]. apply trimmed_spec in P, Q. cbn. rewrite <- IH, <- P, <- Q. destruct x; reflexivity.
  - intros X. injection X as -> -> ->. do 2 (split; [reflexivity|]). induction (tm_files raw); constructor; auto. cbn. rewrite !trimmed_spec. auto.
Qed.
(** the manifest and everything it announces is in order *)
Record acceptable (s : state) (path : string) (t : tram) : Prop := {
  ac_manifest : manifest_of s path t;
  ac_version : tm_version t = "1.0";
  ac_target : tm_target t <> "";
  ac_some : tm_files t <> [];
  ac_files : forall x, In x (tm_files t) ->
    tf_path x <> "" /\ tf_sha x <> "" /\ has_suffix ".eopkg" (tf_path x) = true /\
    exists c, file_content (st_fs s) (payload_file path x) = Some c /\ c <> "" /\ tf_sha x = E_sha256 E c;
  ac_repo : repo_exists s (tm_target t) = true
}.
Definition upload_op (path : string) (t : tram) : op := OpAdd (tm_target t) (payload_files path t) true.
Definition upload_after (o : oracle) (path : string) (s : state) : state := final_of (transit_job E T B o path s).
Definition upload_result (o : oracle) (path : string) (s : state) : res unit := result_of (transit_job E T B o path s).
Definition upload_crashes (o : oracle) (path : string) (s : state) : list state := trace_of (transit_job E T B o path s).

Lemma payload_same path t : map (locate B) (payload_paths (dirname (clean path)) t) = payload_files path t.
Proof. unfold payload_files, payload_paths. rewrite map_map. reflexivity. Qed.

Lemma manifest_unique s path t t' : manifest_of s path t -> manifest_of s path t' -> t = t'.
Proof.
  intros (c & raw & A & A1 & A2) (c' & raw' & D & D1 & D2). apply manifest_trims in A2, D2. congruence.
Qed.
Lemma check_spec t : check_manifest t = true <-> tm_version t = "1.0" /\ tm_target t <> "" /\ tm_files t <> [] /\
  forall x, In x (tm_files t) -> tf_path x <> "" /\ tf_sha x <> "" /\ has_suffix ".eopkg" (tf_path x) = true.
Proof.
  unfold check_manifest. rewrite !andb_true_iff, seqb_eq, !negb_true_iff, seqb_neq, forallb_forall.
  assert (X : (match tm_files t with [] => true | _ => false end) = false <-> tm_files t <> []) by (destruct (tm_files t); split; congruence).
  rewrite X. split.
  - intros (((A & A1) & A2) & F). repeat (split; [assumption|]). intros x Hx. specialize (F x Hx). rewrite !andb_true_iff, !negb_true_iff, !seqb_neq in F. tauto.
  - intros (A & A1 & A2 & F). repeat split; auto. intros x Hx. specialize (F x Hx). rewrite !andb_true_iff, !negb_true_iff, !seqb_neq. tauto.
Qed.
Lemma load_spec s path :
  (exists t, load_manifest T B (clean path) s = ([], s, Ok t) /\ manifest_of s path t /\ check_manifest t = true) \/
  (load_manifest T B (clean path) s = ([], s, Err) /\ forall t, manifest_of s path t -> check_manifest t = false).
Proof.
  unfold load_manifest, manifest_of, manifest_file. rewrite bind_gets.
  destruct (file_content (st_fs s) (locate B (clean path))) as [c|]; [|right; split; [reflexivity|intros t (c & raw & X & _); discriminate]].
  destruct (T c) as [raw|] eqn:Tc; [|right; split; [reflexivity|intros t (c' & raw & X & Y & _); congruence]].
  pose proof (fun t => manifest_trims t raw) as M.
  destruct (check_manifest (trim_manifest raw)) eqn:C.
  - left. exists (trim_manifest raw). split; [reflexivity|]. split; [|exact C]. exists c, raw. split; [reflexivity|]. split; [exact Tc|]. apply M. reflexivity.
  - right. split; [reflexivity|]. intros t (c' & raw' & X & Y & Z). assert (raw' = raw) by congruence. subst raw'. apply M in Z. subst t. exact C.
Qed.

Lemma sha_spec s l h : file_sha256 E (st_fs s) l = Some h <-> exists c, file_content (st_fs s) l = Some c /\ c <> "" /\ h = E_sha256 E c.
Proof.
  unfold file_sha256. destruct (file_content (st_fs s) l) as [c|]; [|split; [discriminate|intros (c & X & _); discriminate]].
  destruct (seqb_spec c "") as [->|N]; split; try discriminate.
  - intros (c & X & Y & _). congruence.
  - intros X. injection X as <-. exists c. auto.
  - intros (c' & X & _ & ->). congruence.
Qed.

Lemma job_cases o path s :
  (exists t, manifest_of s path t /\ check_manifest t = true /\
     (forall x, In x (tm_files t) -> exists c, file_content (st_fs s) (payload_file path x) = Some c /\ c <> "" /\ tf_sha x = E_sha256 E c) /\
     transit_job E T B o path s =
       (get_repo (tm_target t) ;;; (api_add_packages E o (tm_target t) (payload_files path t) true ;;; forM (payload_files path t ++ [manifest_file path]) remove_if_there)) s) \/
  (transit_job E T B o path s = ([], s, Err) /\ forall t, ~ acceptable s path t).
Proof.
  unfold transit_job. destruct (load_spec s path) as [(t & L & Mf & C)|(L & N)].
  - rewrite (bind_ok _ _ _ _ _ L). unfold validate_payload.
    destruct (validate_cases E B (dirname (clean path)) (tm_files t) s) as [(V & G)|(V & G)].
    + left. exists t. split; [exact Mf|]. split; [exact C|]. split; [intros x Hx; apply sha_spec, (G x Hx)|].
      rewrite (bind_ok _ _ _ _ _ V), payload_same. reflexivity.
    + right. split; [exact (bind_err _ _ _ _ _ V)|]. intros t' A. apply G.
      assert (t' = t) by (eapply manifest_unique; [apply (ac_manifest _ _ _ A)|exact Mf]). subst t'.
      intros x Hx. destruct (ac_files _ _ _ A x Hx) as (_ & _ & _ & Z). apply sha_spec, Z.
  - right. split; [exact (bind_err _ _ _ _ _ L)|]. intros t A. specialize (N t (ac_manifest _ _ _ A)).
    assert (check_manifest t = true); [|congruence]. apply check_spec. destruct A as [A1 A2 A3 A4 A5 A6]. repeat (split; [assumption|]).
    intros x Hx. destruct (A5 x Hx) as (P & Q & R & _). auto.
Qed.
Lemma accepted_job o path s t : acceptable s path t ->
  transit_job E T B o path s = (api_add_packages E o (tm_target t) (payload_files path t) true ;;; forM (payload_files path t ++ [manifest_file path]) remove_if_there) s.
Proof.
  intros A. destruct (job_cases o path s) as [(t' & Mf & _ & _ & J)|(_ & N)]; [|destruct (N t A)].
  assert (t' = t) by (eapply manifest_unique; [exact Mf|apply (ac_manifest _ _ _ A)]). subst t'. rewrite J. unfold api_add_packages.
  set (r := tm_target t). set (K := forM (payload_files path t) (fun p => add_package E r p true) ;;; api_index E o r).
  set (C := forM (payload_files path t ++ [manifest_file path]) remove_if_there).
  transitivity ((get_repo r ;;; (get_repo r ;;; (K ;;; C))) s).
  - unfold bind at 1 4. destruct (get_repo r s) as [[t1 s1] [[]| |]]; [|reflexivity|reflexivity]. rewrite (bind_assoc (get_repo r) (fun _ => K) (fun _ => C) s1). reflexivity.
  - rewrite get_repo_twice. symmetry. apply (bind_assoc (get_repo r) (fun _ => K) (fun _ => C) s).
Qed.
End Spec.

(** ** C48 *)
(** Rejected: nothing at all happens. *)
Theorem C48_rejected_without_effect :
  forall E T B cat s o path, good_catalog cat -> good_env E -> reachable E cat s -> (forall t, ~ acceptable E T B s path t) ->
    upload_result E T B o path s = Err /\ upload_after E T B o path s = s /\ upload_crashes E T B o path s = [].
Proof.
  intros E T B cat s o path Hc HE (h & Hh & ->) N. pose proof (hist_inv E cat Hc HE h Hh) as I. set (s := run_history E h) in *.
  assert (J : transit_job E T B o path s = ([], s, Err)).
  { destruct (job_cases E T B o path s) as [(t & Mf & C & G & J)|(J & _)]; [|exact J]. rewrite J.
    destruct (repo_exists s (tm_target t)) eqn:R.
    - exfalso. apply (N t). apply check_spec in C as (C1 & C2 & C3 & C4). constructor; auto. intros x Hx.
      destruct (C4 x Hx) as (D1 & D2 & D3). repeat (split; [assumption|]). apply G, Hx.
    - apply bind_err. unfold get_repo. rewrite bind_gets. unfold repo_exists in R.
      destruct (st_cache s (tm_target t)) eqn:Ca; [exfalso; apply (i_cache _ _ _ _ _ _ I) in Ca; congruence|]. rewrite bind_gets, R. reflexivity. }
  unfold upload_result, upload_after, upload_crashes. rewrite J. auto.
Qed.
Print Assumptions C48_rejected_without_effect.

(** what is as before except that the files [ls] are gone *)
Record only_removed (ls : list loc) (s s' : state) : Prop := {
  or_db : st_db s' = st_db s;
  or_gone : forall l, In l ls -> file_content (st_fs s') l = None;
  or_kept : forall l, ~ In l ls -> file_content (st_fs s') l = file_content (st_fs s) l;
  or_index : forall r f, index_file s' r f = index_file s r f;
  or_asset : forall r f, asset_file s' r f = asset_file s r f
}.
Lemma cleaned_removed ls s s' : cleaned ls s s' -> only_removed ls s s'.
Proof.
  intros [A1 A2 A3 A4 A5 A6 A7 A8 A9]. constructor; auto.
  - intros l H. unfold file_content. rewrite (A8 l H). reflexivity.
  - intros l H. unfold file_content. rewrite (A9 l H), A4. reflexivity.
  - intros r f. unfold index_file. rewrite A5. reflexivity.
  - intros r f. unfold asset_file. rewrite A6. reflexivity.
Qed.

(** Accepted: the job is the strict import of the payload. It succeeds exactly if
    the import does, and then payload and manifest are removed, nothing else; if
    the import fails nothing is removed. *)
Theorem C48_accepted_is_import :
  forall E T B s o path t, acceptable E T B s path t ->
    let p := upload_op B path t in
    let s1 := after E o p s in
    let s' := upload_after E T B o path s in
    let files := payload_files B path t ++ [manifest_file B path] in
    (upload_result E T B o path s = Ok tt <-> succeeds E o p s) /\
    (succeeds E o p s -> only_removed files s1 s') /\
    (~ succeeds E o p s -> s' = s1) /\
    (forall x, In x (upload_crashes E T B o path s) -> In x (crash_points E o p s) \/
       (succeeds E o p s /\ exists k, only_removed (firstn k files) s1 x)).
Proof.
  intros E T B s o path t A p s1 s' files. unfold upload_result, upload_crashes, succeeds, outcome, s', s1, upload_after, after, crash_points.
  rewrite (accepted_job E T B o path s t A). cbn [p upload_op run_op]. set (m := api_add_packages E o (tm_target t) (payload_files B path t) true).
  fold files. clearbody m. unfold bind. destruct (m s) as [[tr s2] [[]| |]].
  - destruct (cleanup_spec files s2) as (t2 & s3 & R & C & Fa). rewrite R. cbn [ret trace_of final_of result_of fst snd].
    split; [split; eauto|]. split; [intros _; apply cleaned_removed, C|]. split; [intros X; exfalso; eauto|].
    intros x Hx. apply in_app_iff in Hx as [Hx|Hx]; [left; rewrite app_nil_r; exact Hx|right]. split; [eauto|].
    rewrite Forall_forall in Fa. destruct (Fa x Hx) as (k & X). exists k. apply cleaned_removed, X.
  - cbn [ret trace_of final_of result_of fst snd]. split; [split; [discriminate|intros (l & X); discriminate]|]. split; [intros (l & X); discriminate|]. auto.
  - cbn [ret trace_of final_of result_of fst snd]. split; [split; [discriminate|intros (l & X); discriminate]|]. split; [intros (l & X); discriminate|]. auto.
Qed.
Print Assumptions C48_accepted_is_import.

(** The directory of manifests is <base>/incoming; a payload path without ".."
    stays in it. *)
Definition in_incoming (B : list string) (path name : string) : Prop :=
  path = abs (B ++ ["incoming"; name]) /\ Forall normal (B ++ ["incoming"; name]).
Definition no_upward (t : tram) : Prop := forall x, In x (tm_files t) -> ~ In ".." (split_slash (tf_path x)).
(** no payload file is named like a delta *)
Definition packages_only (B : list string) (path : string) (t : tram) : Prop :=
  forall l, In l (payload_files B path t) -> is_delta_id (l_id l) = false.
(** the file is in the directory [d] or below *)
Definition inside (d : string) (l : loc) : Prop :=
  l_tree l = TExt /\ (l_comp l = d \/ exists sub, l_comp l = (d ++ "/" ++ sub)%string).

Lemma in_incoming_clean B path name : in_incoming B path name -> clean path = path /\ dirname path = abs (B ++ ["incoming"]).
Proof.
  intros (-> & F). split; [apply clean_id, F|]. change (B ++ ["incoming"; name]) with (B ++ (["incoming"] ++ [name])). rewrite app_assoc.
  apply dirname_abs; [destruct B; discriminate|]. rewrite <- app_assoc. exact F.
Qed.
Lemma outside_inside B pre x : inside (abs (B ++ ["incoming"])) (outside (B ++ "incoming" :: pre ++ [x])).
Proof.
  unfold outside, inside. cbn [l_tree l_comp]. split; [reflexivity|].
  assert (X : removelast (B ++ "incoming" :: pre ++ [x]) = (B ++ ["incoming"]) ++ pre).
  { change (B ++ "incoming" :: pre ++ [x]) with (B ++ (["incoming"] ++ pre) ++ [x]). rewrite app_assoc, removelast_last, app_assoc. reflexivity. }
  rewrite X. assert (Y : forall l, l <> [] -> join_slash ("" :: l) = abs l).
  { intros [|y l] N; [congruence|]. rewrite join_cons. reflexivity. }
  destruct pre as [|y pre].
  - left. rewrite app_nil_r. apply Y. destruct B; discriminate.
  - right. exists (join_slash (y :: pre)). rewrite Y by (destruct B; discriminate). unfold abs. rewrite join_app by (try discriminate; destruct B; discriminate).
    reflexivity.
Qed.
Lemma manifest_inside B path name : in_incoming B path name -> inside (abs (B ++ ["incoming"])) (manifest_file B path).
Proof.
  intros H. destruct (in_incoming_clean _ _ _ H) as [C _]. destruct H as (-> & F). unfold manifest_file. rewrite C, locate_incoming by exact F.
  apply (outside_inside B []).
Qed.
Lemma payload_inside E T B s path name t : in_incoming B path name -> acceptable E T B s path t -> no_upward t ->
  forall l, In l (payload_files B path t) -> inside (abs (B ++ ["incoming"])) l.
Proof.
  intros H A U l Hl. apply in_map_iff in Hl as (x & <- & Hx). unfold payload_file.
  destruct (in_incoming_clean _ _ _ H) as [C Dn]. destruct H as (_ & F). rewrite C, Dn.
  assert (F' : Forall normal (B ++ ["incoming"])).
  { change (B ++ ["incoming"; name]) with (B ++ (["incoming"] ++ [name])) in F. rewrite app_assoc in F. apply Forall_app in F. apply F. }
  rewrite join_inside; [|destruct B; discriminate|exact F'|exact (U x Hx)].
  destruct (ac_files _ _ _ _ _ _ A x Hx) as (_ & _ & S & _). destruct (payload_comps _ S (U x Hx)) as (pre & y & -> & Fp).
  assert (R : (B ++ ["incoming"]) ++ pre ++ [(y ++ ".eopkg")%string] = B ++ "incoming" :: (pre ++ [(y ++ ".eopkg")%string])) by (rewrite <- app_assoc; reflexivity).
  rewrite R. rewrite locate_incoming; [apply outside_inside|]. rewrite <- R. apply Forall_app. split; assumption.
Qed.
Lemma inside_upload d l : inside d l -> upload_tree (l_tree l) = true.
Proof. intros (-> & _). reflexivity. Qed.

(** On success everything announced is listed in the target, and its index is current. *)
Theorem C48_success :
  forall E T B cat s o path name t, good_catalog cat -> good_env E -> reachable_completed E cat s -> good_oracle o ->
    in_incoming B path name -> acceptable E T B s path t -> no_upward t -> packages_only B path t ->
    upload_result E T B o path s = Ok tt ->
    let s' := upload_after E T B o path s in
    (forall l, In l (payload_files B path t) -> available s' (tm_target t) (l_id l)) /\
    index_current E s' (tm_target t).
Proof.
  intros E T B cat s o path name t Hc HE Rc Ho In_ A U Pk Ok_ s'.
  assert (Gp : good_op (upload_op B path t)).
  { cbn. apply Forall_forall. intros l Hl. split; [eapply inside_upload, payload_inside; eauto|apply Pk, Hl]. }
  destruct (C48_accepted_is_import E T B s o path t A) as (S1 & S2 & _). apply S1 in Ok_. specialize (S2 Ok_). fold s' in S2.
  destruct Rc as (h & Hh & Cf & ->). pose proof (hist_fz E cat Hc HE h Hh Cf) as I. set (s := run_history E h) in *.
  destruct (add_facts E cat Hc HE false s o (tm_target t) (payload_files B path t) true I Ho Gp) as (_ & _ & K). split.
  - intros l Hl. destruct (K Ok_ l Hl) as (n & _ & X). unfold available_ids in X.
    destruct (entry_at (after E o (OpAdd (tm_target t) (payload_files B path t) true) s) (tm_target t) n) as [e|] eqn:G; [|destruct X].
    exists n, e. split; [|exact X]. unfold entry_at in *. rewrite (or_db _ _ _ S2). exact G.
  - destruct (request_current E cat Hc HE false true s o (upload_op B path t) (tm_target t) I Ho Gp eq_refl Ok_) as (d & D & F).
    exists d. split; [|intros v Hv; rewrite (or_index _ _ _ S2); apply F, Hv].
    destruct D as [D1 D2 D3 D4 D5]. constructor; auto; unfold asset_file in *.
    + rewrite D1. symmetry. apply (or_asset _ _ _ S2).
    + pose proof (or_asset _ _ _ S2) as Ea. unfold asset_file in Ea. rewrite Ea. exact D2.
    + pose proof (or_asset _ _ _ S2) as Ea. unfold asset_file in Ea. rewrite Ea. exact D3.
    + destruct D4 as (ns & N1 & N2 & N3). exists ns. split; [exact N1|]. split.
      * intros n. rewrite N2. unfold entry_at, obsolete_name, obsoletes. rewrite (or_db _ _ _ S2), (or_asset _ _ _ S2). reflexivity.
      * eapply Forall2_impl; [|exact N3]. intros n m (id & q & P & Q & R). exists id, q. unfold published, entry_at, pool_at in *. rewrite (or_db _ _ _ S2). auto.
Qed.
Print Assumptions C48_success.

Lemma acceptable_dec E T B cat s (o : oracle) path : good_catalog cat -> good_env E -> reachable E cat s ->
  (exists t, acceptable E T B s path t) \/ (forall t, ~ acceptable E T B s path t).
Proof.
  intros Hc HE Hr. destruct (job_cases E T B o path s) as [(t & Mf & C & G & J)|(J & N)]; [|right; exact N].
  destruct (repo_exists s (tm_target t)) eqn:R.
  - left. exists t. apply check_spec in C as (C1 & C2 & C3 & C4). constructor; auto. intros x Hx.
    destruct (C4 x Hx) as (D1 & D2 & D3). repeat (split; [assumption|]). apply G, Hx.
  - right. intros t' A. assert (t' = t) by (eapply manifest_unique; [apply (ac_manifest _ _ _ _ _ _ A)|exact Mf]). subst t'.
    rewrite (ac_repo _ _ _ _ _ _ A) in R. discriminate.
Qed.
Lemma cleanup_sim E cat s0 ls : (forall l, In l ls -> upload_tree (l_tree l) = true) -> forall s, steps E cat s0 s ->
  wp (forM ls remove_if_there) (crashed E cat s0) (fun s' res => steps E cat s0 s' /\ res <> Panic) s.
Proof.
  induction ls as [|l ls IH]; intros U s S; cbn [forM]; [apply wp_ret; split; [exact S|discriminate]|].
  assert (X : wp (remove_if_there l) (crashed E cat s0) (fun s' res => steps E cat s0 s' /\ res = Ok tt) s).
  { unfold remove_if_there. apply wp_bind_gets. destruct (f_name (st_fs s) l); [|apply wp_ret; auto].
    assert (S1 : steps E cat s0 (on_fs (fun f => fs_set_name f l None) s)).
    { eapply steps_trans; [exact S|].
      assert (Ev : ev_step E s (EvDel l) = on_fs (fun f => fs_set_name f l None) s).
      { specialize (U l (or_introl eq_refl)). cbn [ev_step]. destruct (l_tree l); try discriminate; reflexivity. }
      rewrite <- Ev. apply steps_ev; exact I. }
    apply wp_durable; [apply crashed_self, S1|]. auto. }
  apply wp_bind. eapply wp_post; [exact X|]. intros s' res (S' & ->). apply IH; [|exact S']. intros y Hy. apply U. right. exact Hy.
Qed.

(** An upload is a history of a request and of removals in the upload area: every
    state it leaves behind, crashed or not, is one the other theorems speak about. *)
Theorem C48_upload_is_a_history :
  forall E T B cat s o path name, good_catalog cat -> good_env E -> good_oracle o -> in_incoming B path name ->
    (forall t, acceptable E T B s path t -> no_upward t /\ packages_only B path t) ->
    (reachable E cat s -> reachable E cat (upload_after E T B o path s) /\
       (forall t, In t (upload_crashes E T B o path s) -> reachable E cat (restart t)) /\ upload_result E T B o path s <> Panic) /\
    (reachable_completed E cat s -> reachable_completed E cat (upload_after E T B o path s)).
Proof.
  intros E T B cat s o path name Hc HE Ho In_ Dom.
  assert (K : reachable E cat s -> steps E cat s (upload_after E T B o path s) /\ Forall (crashed E cat s) (upload_crashes E T B o path s) /\ upload_result E T B o path s <> Panic).
  { intros Hr. destruct (acceptable_dec E T B cat s o path Hc HE Hr) as [(t & A)|N].
    - destruct (Dom t A) as [U Pk]. destruct Hr as (h & Hh & ->). pose proof (hist_inv E cat Hc HE h Hh) as I. set (s := run_history E h) in *.
      assert (Gp : good_op (upload_op B path t)).
      { cbn. apply Forall_forall. intros l Hl. split; [eapply inside_upload, payload_inside; eauto|apply Pk, Hl]. }
      assert (W : wp (transit_job E T B o path) (crashed E cat s) (fun s' res => steps E cat s s' /\ res <> Panic) s).
      { eapply wp_eq; [apply (accepted_job E T B o path s t A)|]. apply wp_bind.
        eapply wp_post; [exact (unit_sim E cat Hc HE s false _ o (upload_op B path t) s eq_refl I (steps_refl E cat s) Ho Gp eq_refl)|].
        intros s1 res (S1 & Np). destruct res as [[]| |]; [|split; [exact S1|discriminate]|congruence].
        apply cleanup_sim; [|exact S1]. intros l Hl. apply in_app_iff in Hl as [Hl|[<-|[]]].
        - eapply inside_upload, payload_inside; eauto.
        - eapply inside_upload, manifest_inside; eauto. }
      destruct W as [W1 [W2 W3]]. split; [exact W2|]. split; [exact W1|exact W3].
    - destruct (C48_rejected_without_effect E T B cat s o path Hc HE Hr N) as (R & -> & ->). rewrite R.
      split; [apply steps_refl|]. split; [constructor|discriminate]. }
  split.
  - intros Hr. destruct (K Hr) as ((h' & A & _ & D) & Fa & Np). destruct Hr as (h & Hh & ->). split; [|split; [|exact Np]].
    + exists (h ++ h'). split; [apply Forall_app; auto|]. unfold run_history. rewrite fold_left_app. symmetry. exact D.
    + intros x Hx. rewrite Forall_forall in Fa. destruct (Fa x Hx) as (h1 & A1 & B1). exists (h ++ h1). split; [apply Forall_app; auto|].
      unfold run_history. rewrite fold_left_app. symmetry. exact B1.
  - intros Hc'. assert (Hr : reachable E cat s) by (destruct Hc' as (h & A & _ & D); exists h; auto). destruct (K Hr) as ((h' & A & C & D) & _).
    destruct Hc' as (h & Hh & Cf & ->). exists (h ++ h'). split; [apply Forall_app; auto|]. split; [apply Forall_app; auto|].
    unfold run_history. rewrite fold_left_app. symmetry. exact D.
Qed.
Print Assumptions C48_upload_is_a_history.

(** ** C49 *)
Lemma added_prefix E cat ex r strict pkgs s s' res : added E cat ex true r strict pkgs s s' res ->
  Forall (fun l => upload_tree (l_tree l) = true /\ is_delta_id (l_id l) = false) pkgs ->
  exists k, k <= List.length pkgs /\ (res = Ok tt -> k = List.length pkgs) /\
    (forall n id, In id (avail_db (st_db s') r n) <-> In id (avail_db (st_db s) r n) \/ offers E s (firstn k pkgs) n id) /\
    (forall x, x <> r -> d_ents (st_db s') x = d_ents (st_db s) x).
Proof.
  induction 1 as [s|l ls s s1 s' res I1 R1 O1 A IH|l ls s s1 R1 O1]; intros F.
  - exists 0. repeat split; auto. intros [X|(l & c & m & [] & _)]. exact X.
  - inversion F as [|? ? [U D] F']; subst. destruct (IH F') as (k & Le & Eq & Iff & Oth). destruct (grown_one E cat _ _ _ _ _ O1) as [G1 (n1 & Of1 & K1)].
    exists (S k). split; [cbn; lia|]. split; [intros X; cbn; rewrite (Eq X); reflexivity|]. split.
    + intros n id. rewrite Iff. cbn [firstn].
      assert (OR : offers E s1 (firstn k ls) n id <-> offers E s (firstn k ls) n id).
      { apply (offers_rest E r s s1); [exact R1|]. rewrite <- (firstn_skipn k ls) in F'. apply Forall_app in F'. apply F'. }
      rewrite OR. split.
      * intros [X|X].
        -- apply (gr_only _ _ _ _ _ G1) in X as [X|(y & c & m & [<-|[]] & Y)]; [left; exact X|]. right. exists l, c, m. split; [left; reflexivity|exact Y].
        -- right. destruct X as (y & c & m & Hy & Y). exists y, c, m. split; [right; exact Hy|exact Y].
      * intros [X|(y & c & m & [<-|Hy] & Y)].
        -- left. apply (gr_more _ _ _ _ _ G1), X.
        -- left. destruct Of1 as (y1 & c1 & m1 & [<-|[]] & _ & C1 & M1 & N1). destruct Y as (<- & C2 & M2 & N2).
           assert (Hn : n = n1) by congruence. rewrite Hn. exact K1.
        -- right. exists y, c, m. auto.
    + intros x N. rewrite (Oth x N). apply (gr_others _ _ _ _ _ G1 x N).
  - pose proof (add_err_db E cat _ _ _ _ _ O1) as Ed. exists 0. split; [lia|]. split; [discriminate|]. rewrite Ed. split; [|reflexivity].
    intros n id. cbn [firstn]. split; [auto|]. intros [X|(y & c & m & [] & _)]. exact X.
Qed.
(** the IDs and names of the packages in the files [ls] *)
Definition holds_package (E : env) (s : state) (ls : list loc) (n id : string) : Prop :=
  exists l c m, In l ls /\ l_id l = id /\ file_content (st_fs s) l = Some c /\ E_parse E c = Ok m /\ m_name m = n.

(** Whatever the outcome, the packages of some beginning of the payload are
    listed, of the whole payload on success; nothing else changes in any listing. *)
Theorem C49_a_prefix_is_imported_partial :
  forall E T B cat s o path name t, good_catalog cat -> good_env E -> reachable_completed E cat s -> good_oracle o ->
    in_incoming B path name -> acceptable E T B s path t -> no_upward t -> packages_only B path t ->
    let s' := upload_after E T B o path s in
    exists k, k <= List.length (tm_files t) /\ (upload_result E T B o path s = Ok tt -> k = List.length (tm_files t)) /\
      (forall n id, In id (available_ids s' (tm_target t) n) <->
         In id (available_ids s (tm_target t) n) \/ holds_package E s (firstn k (payload_files B path t)) n id) /\
      (forall x n, x <> tm_target t -> entry_at s' x n = entry_at s x n).
Proof.
  intros E T B cat s o path name t Hc HE Rc Ho In_ A U Pk s'.
  assert (Gp : good_op (upload_op B path t)).
  { cbn. apply Forall_forall. intros l Hl. split; [eapply inside_upload, payload_inside; eauto|apply Pk, Hl]. }
  destruct (C48_accepted_is_import E T B s o path t A) as (S1 & S2 & S3 & _). fold s' in S2, S3.
  destruct Rc as (h & Hh & Cf & ->). pose proof (hist_fz E cat Hc HE h Hh Cf) as I. set (s := run_history E h) in *.
  destruct (run_unit E (api_add_packages E o (tm_target t) (payload_files B path t) true) _ _ s o (upload_op B path t) eq_refl
     (wp_api_add E cat Hc HE false true o (tm_target t) (payload_files B path t) true s I Ho Gp)) as (res & W & Hout).
  apply then_indexed_db in W.
  assert (Ed : st_db s' = st_db (after E o (upload_op B path t) s)).
  { destruct res as [[]| |]; [apply (or_db _ _ _ (S2 (ex_intro _ _ Hout)))|rewrite S3; [reflexivity|]..]; intros (l & X); congruence. }
  assert (Fin : forall s0 s2 r0, quiet_dir (tm_target t) s s0 -> added E cat false true (tm_target t) true (payload_files B path t) s0 s2 r0 -> st_db s' = st_db s2 ->
     (res = Ok tt -> r0 = Ok tt) -> exists k, k <= List.length (tm_files t) /\ (upload_result E T B o path s = Ok tt -> k = List.length (tm_files t)) /\
      (forall n id, In id (available_ids s' (tm_target t) n) <->
         In id (available_ids s (tm_target t) n) \/ holds_package E s (firstn k (payload_files B path t)) n id) /\
      (forall x n, x <> tm_target t -> entry_at s' x n = entry_at s x n)).
  { intros s0 s2 r0 Q Ad Es Hr0. destruct (added_prefix E cat _ _ _ _ _ _ _ Ad Gp) as (k & Le & Eq & Iff & Oth).
    assert (Len : List.length (payload_files B path t) = List.length (tm_files t)) by apply map_length.
    exists k. rewrite Len in *. split; [exact Le|]. split.
    { intros X. apply S1 in X as (l & X). apply Eq, Hr0. destruct res as [[]| |]; congruence. }
    pose proof (qd_db _ _ _ Q) as E0. split.
    - intros n id. change (available_ids s' (tm_target t) n) with (avail_db (st_db s') (tm_target t) n). rewrite Es, Iff, E0.
      change (avail_db (st_db s) (tm_target t) n) with (available_ids s (tm_target t) n).
      rewrite (quiet_offers E (tm_target t) s s0) by exact Q. reflexivity.
    - intros x n N. unfold entry_at. rewrite Es, (Oth x N), E0. reflexivity. }
  destruct W as [(-> & [(_ & Hr & Es)|(Hr & s0 & Q & Ad)])|(s1 & I1 & [(X & _)|(Hr & s0 & Q & Ad)] & _ & Edb)]; [| |discriminate|].
  - pose proof (ac_repo _ _ _ _ _ _ A) as R. unfold repo_exists in R. congruence.
  - eapply Fin; [exact Q|exact Ad|exact Ed|discriminate].
  - eapply Fin; [exact Q|exact Ad|congruence|auto].
Qed.
Print Assumptions C49_a_prefix_is_imported_partial.

(** *** A concrete world *)
Definition tr_base : list string := ["srv"].
Definition tr_path : string := "/srv/incoming/up.tram".
Definition up (id : string) : loc := Loc TExt "/srv/incoming" id.
Definition tr_manifest (files : list (string * string)) : tram :=
  Tram " 1.0" "stable " (map (fun x => TFile (fst x) ("sha256:" ++ snd x)) files).
Definition tr_decode (c : string) : option tram :=
  if seqb c "one" then Some (tr_manifest [("nano-2.eopkg", "nano2")])
  else if seqb c "two" then Some (tr_manifest [("nano-2.eopkg", "nano2"); ("sub/libx-1.eopkg", "libx1")])
  else if seqb c "new" then Some (tr_manifest [("nano-2.eopkg", "nano2"); ("nano-dbginfo-1.eopkg", "dbg1")])
  else if seqb c "bad" then Some (tr_manifest [("nano-2.eopkg", "nano2"); ("libx-1.eopkg", "other")])
  else if seqb c "steal" then Some (tr_manifest [("../repo/unstable/n/nano/nano-2.eopkg", "nano2")])
  else if seqb c "delta" then Some (tr_manifest [("nano-1-2.delta.eopkg", "nano12")])
  else None.
Definition h_tr (manifest : string) : list event :=
  [ EvPut (ext "nano-1.eopkg") "nano1"; EvPut (ext "nano-2.eopkg") "nano2"; EvPut (ext "libx-1.eopkg") "libx1";
    EvOp demo_oracle (OpCreate "unstable"); EvOp demo_oracle (OpCreate "stable");
    EvOp demo_oracle (OpAdd "unstable" [ext "nano-1.eopkg"; ext "nano-2.eopkg"] false);
    EvOp demo_oracle (OpAdd "stable" [ext "nano-1.eopkg"; ext "libx-1.eopkg"] false);
    EvPut (up "nano-2.eopkg") "nano2"; EvPut (Loc TExt "/srv/incoming/sub" "libx-1.eopkg") "libx1";
    EvPut (up "libx-1.eopkg") "libx1"; EvPut (up "nano-1-2.delta.eopkg") "nano12"; EvPut (up "nano-dbginfo-1.eopkg") "dbg1"; EvPut (up "up.tram") manifest ].
Definition tr_s (manifest : string) : state := run_history (demo_env true) (h_tr manifest).
Definition tr_after (manifest : string) : state := upload_after (demo_env true) tr_decode tr_base demo_oracle tr_path (tr_s manifest).
Definition tr_result (manifest : string) : res unit := upload_result (demo_env true) tr_decode tr_base demo_oracle tr_path (tr_s manifest).
Lemma h_tr_good m : E_parse (demo_env true) m = Err -> good_history (demo_env true) demo_cat (h_tr m).
Proof. intros H. unfold good_history, h_tr. demo_hist. unfold good_file. rewrite H. exact I. Qed.
Lemma tr_reachable m : E_parse (demo_env true) m = Err -> reachable_completed (demo_env true) demo_cat (tr_s m).
Proof. intros H. exists (h_tr m). split; [apply h_tr_good, H|]. split; [|reflexivity]. unfold crash_free, h_tr. repeat constructor. Qed.
Lemma tr_incoming : in_incoming tr_base tr_path "up.tram".
Proof. split; [reflexivity|]. repeat constructor; try discriminate. Qed.
Ltac tr_accept files := eapply (Build_acceptable _ _ _ _ _ (Tram "1.0" "stable" (map (fun x => TFile (fst x) ("sha256:" ++ snd x)) files)));
  [ eexists; eexists; split; [here|]; split; [here|]; apply manifest_trims; here
  | reflexivity | discriminate | discriminate
  | intros x Hx; cbn in Hx; repeat (destruct Hx as [<-|Hx]; [do 2 (split; [discriminate|]); split; [here|]; eexists; split; [here|]; split; [discriminate|reflexivity]|]); destruct Hx
  | here ].
Definition tr_t (files : list (string * string)) : tram := Tram "1.0" "stable" (map (fun x => TFile (fst x) ("sha256:" ++ snd x)) files).

Example C48_demo :
  acceptable (demo_env true) tr_decode tr_base (tr_s "one") tr_path (tr_t [("nano-2.eopkg", "nano2")]) /\
  no_upward (tr_t [("nano-2.eopkg", "nano2")]) /\ packages_only tr_base tr_path (tr_t [("nano-2.eopkg", "nano2")]) /\
  payload_files tr_base tr_path (tr_t [("nano-2.eopkg", "nano2")]) = [up "nano-2.eopkg"] /\
  tr_result "one" = Ok tt /\ published (tr_s "one") "stable" "nano" = Some "nano-1.eopkg" /\ published (tr_after "one") "stable" "nano" = Some "nano-2.eopkg" /\
  file_content (st_fs (tr_after "one")) (up "nano-2.eopkg") = None /\ file_content (st_fs (tr_after "one")) (up "libx-1.eopkg") = Some "libx1" /\
  tr_result "bad" = Err /\ published (tr_after "bad") "stable" "nano" = Some "nano-1.eopkg".
Proof.
  split; [tr_accept [("nano-2.eopkg", "nano2")]|]. split; [intros x [<-|[]] X; vm_compute in X; intuition discriminate|].
  split; [intros l [<-|[]]; here|]. repeat (split; [here|]). here.
Qed.

(** C49 is false: the second package is refused (its release is already
    published), the first one is listed all the same; and the index is not
    rewritten. *)
Theorem C49_all_or_nothing_refuted :
  exists E T B cat s o path name t l, good_catalog cat /\ good_env E /\ reachable_completed E cat s /\ good_oracle o /\ in_incoming B path name /\
    acceptable E T B s path t /\ no_upward t /\ packages_only B path t /\
    upload_result E T B o path s = Err /\ In l (payload_files B path t) /\
    let s' := upload_after E T B o path s in
    ~ available s (tm_target t) (l_id l) /\ available s' (tm_target t) (l_id l) /\
    index_file s' (tm_target t) "eopkg-index.xml" = index_file s (tm_target t) "eopkg-index.xml".
Proof.
  exists (demo_env true), tr_decode, tr_base, demo_cat, (tr_s "two"), demo_oracle, tr_path, "up.tram",
    (tr_t [("nano-2.eopkg", "nano2"); ("sub/libx-1.eopkg", "libx1")]), (up "nano-2.eopkg").
  split; [apply demo_cat_good|]. split; [apply demo_env_good|]. split; [apply tr_reachable; reflexivity|]. split; [apply demo_oracle_good|].
  split; [apply tr_incoming|]. split; [tr_accept [("nano-2.eopkg", "nano2"); ("sub/libx-1.eopkg", "libx1")]|].
  split; [intros x [<-|[<-|[]]] X; vm_compute in X; intuition discriminate|]. split; [intros l [<-|[<-|[]]]; here|]. split; [here|]. split; [left; here|].
  intros s'. split; [|split; [exists "nano"; eexists; split; [here|right; left; reflexivity]|here]].
  intros (n & e & G & Hin). change (entry_at (tr_s "two") "stable" n = Some e) in G.
  assert (Hn : n = "nano" \/ n = "libx" \/ entry_at (tr_s "two") "stable" n = None).
  { unfold entry_at. destruct (mget (d_ents (st_db (tr_s "two")) "stable") n) eqn:X; [|auto].
    assert (K : In n ["libx"; "nano"]); [|cbn in K; destruct K as [<-|[<-|[]]]; auto].
    assert (Y : mkeys (d_ents (st_db (tr_s "two")) "stable") = ["libx"; "nano"]) by here. rewrite <- Y. exact (proj2 (in_mkeys _ _) (ex_intro _ _ X)). }
  destruct Hn as [->|[->|X]]; [| |congruence]; (assert (G' := G); vm_compute in G'; injection G' as <-; vm_compute in Hin; intuition discriminate).
Qed.
Print Assumptions C49_all_or_nothing_refuted.

(** ** C50 *)
Section ExtNames.
Variable E : env.
Variable s0 : state.
Definition ext_same (t : state) : Prop := forall l, l_tree l = TExt -> f_name (st_fs t) l = f_name (st_fs s0) l.
Lemma e_same (f : state -> state) : (forall s l, l_tree l = TExt -> f_name (st_fs (f s)) l = f_name (st_fs s) l) -> keeps ext_same (durable f).
Proof. intros H. apply keeps_durable. intros s X l Hl. rewrite (H s l Hl). apply X, Hl. Qed.
Lemma e_vol (f : state -> state) : (forall s, st_fs (f s) = st_fs s) -> keeps ext_same (vol f).
Proof. intros H. apply keeps_vol. intros s X l Hl. rewrite (H s). apply X, Hl. Qed.
Lemma e_write b o : keeps ext_same (db_write b o).
Proof. unfold db_write. destruct (reserved (op_key o)); [apply keeps_err|]. destruct b; [apply e_vol; reflexivity|apply e_same; reflexivity]. Qed.
Lemma e_remove l : l_tree l <> TExt -> keeps ext_same (remove_file l).
Proof. intros N. apply e_same. intros s x Hx. cbn. apply nupd_ne. congruence. Qed.
Lemma e_link src dst : l_tree dst <> TExt -> keeps ext_same (link_or_copy E src dst).
Proof.
  intros N. unfold link_or_copy, copy_file. apply keeps_bind; [apply keeps_gets|intros f].
  destruct (can_link E f src dst); [apply e_same; intros s x Hx; cbn; apply nupd_ne; congruence|].
  apply keeps_bind; [apply keeps_gets|intros g]. destruct (f_name g src); [|apply keeps_ret]. apply keeps_bind; [|intros _].
  - destruct (f_name g dst); apply e_same; intros s x Hx; cbn; [reflexivity|apply nupd_ne; congruence].
  - apply e_same. intros s x Hx. cbn. destruct (f_name (st_fs s) dst); reflexivity.
Qed.
Lemma e_root r f v : keeps ext_same (root_set r f v).
Proof. apply e_same. reflexivity. Qed.
Ltac ek := repeat match goal with
  | |- keeps _ (db_write _ _) => apply e_write
  | |- keeps _ (remove_file _) => apply e_remove; simpl; congruence
  | |- keeps _ (link_or_copy _ _ _) => apply e_link; simpl; congruence
  | |- keeps _ (vol (on_cache _)) => apply e_vol; reflexivity
  | |- keeps _ (durable (on_fs (fun f => fs_set_dir _ _ _))) => apply e_same; reflexivity
  | |- keeps _ (root_set _ _ _) => apply e_root
  | |- keeps _ (bind _ _) => apply keeps_bind; [|intro]
  | |- keeps _ (ret _) => apply keeps_ret
  | |- keeps _ err => apply keeps_err
  | |- keeps _ panic => apply keeps_panic
  | |- keeps _ (lift _) => apply keeps_lift
  | |- keeps _ (gets _) => apply keeps_gets
  | |- keeps _ (on_err _ _) => apply keeps_on_err
  | |- keeps _ (forM _ _) => apply keeps_forM; intro
  | |- keeps _ (foldM _ _ _) => apply keeps_foldM; intros ? ?
  | |- keeps _ (match ?d with _ => _ end) => destruct d
  end.
Lemma e_index o r : keeps ext_same (api_index E o r).
Proof.
  unfold api_index, index. apply keeps_bind; [unfold get_repo, bake_repo; ek|intros _]. apply keeps_bind; [unfold init_distribution; ek|intros dist]. apply keeps_bind.
  - assert (S : forall st, Forall (fun y => keeps ext_same (snd y)) st -> forall done, keeps ext_same (run_stages r done st)).
    { induction 1 as [|[[k v] m] st Hm _ IH]; intros done; simpl; [apply keeps_ret|].
      apply keeps_bind; [|intros _; apply IH]. apply keeps_on_err; [exact Hm|]. unfold remove_all. ek. }
    apply S. unfold index_stages, write_sum, compress, root_write, root_get.
    repeat (apply Forall_cons; [cbn [snd]; unfold emit_index, emit_package, push_deltas, asset_part, ent_list, ent_get, pool_get_or_err, pool_get; ek|]). apply Forall_nil.
  - intros mp. unfold remove_all. ek; unfold rename, root_get; ek; apply e_same; reflexivity.
Qed.
Lemma e_add o r pkgs st : keeps ext_same (api_add_packages E o r pkgs st).
Proof.
  unfold api_add_packages, get_repo, bake_repo. ek; [|apply e_index].
  unfold add_package, add_local_package, open_pkg, build_sane_entry, pool_add_internal, pool_get_or_err, pool_get, ent_get. ek.
Qed.
End ExtNames.

(** Without ".." everything a manifest makes the daemon open or delete is in the
    incoming directory or below; outside of it no file appears or disappears, at
    no instant; and whether a manifest is accepted depends only on files there. *)
Theorem C50_stays_in_incoming_partial :
  forall E T B s o path name t, in_incoming B path name -> acceptable E T B s path t -> no_upward t ->
    let incoming := abs (B ++ ["incoming"]) in
    (forall l, In l (manifest_file B path :: payload_files B path t) -> inside incoming l) /\
    (forall x, In x (upload_after E T B o path s :: upload_crashes E T B o path s) ->
       forall l, l_tree l = TExt -> ~ inside incoming l -> (file_content (st_fs x) l = None <-> file_content (st_fs s) l = None)) /\
    (forall s2, (forall l, inside incoming l -> file_content (st_fs s2) l = file_content (st_fs s) l) ->
       (forall r, repo_exists s2 r = repo_exists s r) -> acceptable E T B s2 path t).
Proof.
  intros E T B s o path name t In_ A U incoming.
  assert (Ins : forall l, In l (manifest_file B path :: payload_files B path t) -> inside incoming l).
  { intros l [<-|Hl]; [eapply manifest_inside; eauto|eapply payload_inside; eauto]. }
  split; [exact Ins|]. split.
  - intros x Hx l Hl Ni.
    assert (W : keeps (fun y => f_name (st_fs y) l = f_name (st_fs s) l) (forM (payload_files B path t ++ [manifest_file B path]) remove_if_there)).
    { assert (Y : forall ls, (forall k, In k ls -> inside incoming k) -> keeps (fun y => f_name (st_fs y) l = f_name (st_fs s) l) (forM ls remove_if_there)).
      { induction ls as [|k ls IH]; intros H; cbn [forM]; [apply keeps_ret|]. apply keeps_bind; [|intros _; apply IH; intros z Hz; apply H; right; exact Hz].
        unfold remove_if_there. apply keeps_bind; [apply keeps_gets|intros f]. destruct (f_name f k); [|apply keeps_ret].
        apply keeps_durable. intros y Hy. cbn. rewrite nupd_ne; [exact Hy|]. intros ->. apply Ni, H. left. reflexivity. }
      apply Y. intros k Hk. apply Ins. apply in_app_iff in Hk as [Hk|[<-|[]]]; [right; exact Hk|left; reflexivity]. }
    assert (V : wp (transit_job E T B o path) (fun y => f_name (st_fs y) l = f_name (st_fs s) l) (fun y _ => f_name (st_fs y) l = f_name (st_fs s) l) s).
    { eapply wp_eq; [apply (accepted_job E T B o path s t A)|]. apply wp_bind.
      assert (X : wp (api_add_packages E o (tm_target t) (payload_files B path t) true) (ext_same s) (fun y _ => ext_same s y) s) by (apply keeps_wp; [apply e_add|intros z _; reflexivity]).
      eapply wp_mono; [exact X|intros y Hy; apply Hy, Hl|]. intros y res Hy. destruct res as [[]| |]; [|apply Hy, Hl..].
      apply keeps_wp; [exact W|]. apply Hy, Hl. }
    assert (N : f_name (st_fs x) l = f_name (st_fs s) l).
    { destruct V as [V1 V2]. destruct Hx as [<-|Hx]; [exact V2|]. rewrite Forall_forall in V1. apply V1, Hx. }
    unfold file_content. rewrite N. destruct (f_name (st_fs s) l); split; congruence.
  - intros s2 Same Rep. destruct A as [(c & raw & M1 & M2) A2 A3 A4 A5 A6]. constructor; auto.
    + exists c, raw. split; [|exact M2]. rewrite Same; [exact M1|]. apply Ins. left. reflexivity.
    + intros x Hx. destruct (A5 x Hx) as (P & Q & R & cc & C1 & C2). repeat (split; [assumption|]). exists cc. split; [|exact C2].
      rewrite Same; [exact C1|]. apply Ins. right. apply in_map. exact Hx.
    + rewrite Rep. exact A6.
Qed.
Print Assumptions C50_stays_in_incoming_partial.

Lemma sapp_cancel a b z : (a ++ z)%string = (b ++ z)%string -> a = b.
Proof.
  intros H. assert (L : String.length a = String.length b) by (apply (f_equal String.length) in H; rewrite !slen_app in H; lia).
  revert b L H. induction a as [|ch a IH]; intros [|ch' b] L H; try discriminate; [reflexivity|]. cbn in H. injection H as -> H. cbn in L. f_equal. apply IH; [lia|exact H].
Qed.
(** C50 is false with "..": the manifest takes a package out of another
    repository, which goes on listing it. *)
Theorem C50_escape_refuted :
  exists E T B cat s o path name t r id, good_catalog cat /\ good_env E /\ reachable_completed E cat s /\ good_oracle o /\ in_incoming B path name /\
    acceptable E T B s path t /\ r <> tm_target t /\ upload_result E T B o path s = Ok tt /\
    let s' := upload_after E T B o path s in
    served E s r id /\ available s r id /\ available s' r id /\ ~ served E s' r id.
Proof.
  exists (demo_env true), tr_decode, tr_base, demo_cat, (tr_s "steal"), demo_oracle, tr_path, "up.tram",
    (tr_t [("../repo/unstable/n/nano/nano-2.eopkg", "nano2")]), "unstable", "nano-2.eopkg".
  split; [apply demo_cat_good|]. split; [apply demo_env_good|]. split; [apply tr_reachable; reflexivity|]. split; [apply demo_oracle_good|].
  split; [apply tr_incoming|]. split; [tr_accept [("../repo/unstable/n/nano/nano-2.eopkg", "nano2")]|]. split; [discriminate|]. split; [here|].
  intros s'. assert (Es : s' = tr_after "steal") by exact eq_refl. clearbody s'. subst s'.
  split; [eexists; exists "n/nano", "nano2"; split; [here|]; split; [here|]; split; [here|]; split; here|].
  split; [exists "nano"; eexists; split; [here|right; left; reflexivity]|].
  split; [exists "nano"; eexists; split; [here|right; left; reflexivity]|].
  intros (p & comp & c & P & Q & R & _).
  assert (X : exists q, pool_at (tr_after "steal") "nano-2.eopkg" = Some q /\ m_uri (p_meta q) = "n/nano/nano-2.eopkg") by (eexists; split; [here|here]).
  destruct X as (q & X1 & X2). rewrite X1 in P. injection P as <-. rewrite X2 in Q.
  assert (Hc : comp = "n/nano") by (symmetry; exact (sapp_cancel "n/nano" comp "/nano-2.eopkg" Q)).
  assert (Y : repo_file (tr_after "steal") "unstable" "n/nano" "nano-2.eopkg" = None) by here.
  rewrite Hc, Y in R. discriminate R.
Qed.
Print Assumptions C50_escape_refuted.

(** ** C63 *)
Lemma stale_add E cat ex fz s r l c m a : good_catalog cat -> Inv E cat ex fz [] s ->
  file_content (st_fs s) l = Some c -> E_parse E c = Ok m -> published_release s r (m_name m) = Some a -> (rel m <= a)%Z ->
  add_package E r l true s = ([], s, Err).
Proof.
  intros Hc I Fc Pm Pr Le.
  assert (Hm : m = cat (l_id l)).
  { assert (Hg : good_file E cat (l_id l) c).
    { unfold file_content in Fc. destruct (f_name (st_fs s) l) as [i|] eqn:Gi; [|discriminate]. injection Fc as <-.
      apply (fo_good _ _ _ (i_fs _ _ _ _ _ _ I) _ _ Gi). }
    unfold good_file in Hg. rewrite Pm in Hg. exact Hg. }
  unfold add_package, open_pkg. rewrite bind_assoc, bind_gets, Fc, Pm, bind_lift_ok. cbn [negb]. unfold ent_get. rewrite bind_gets.
  destruct (entry_at s r (m_name m)) as [e|] eqn:G; [|rewrite pub_rel_none in Pr by exact G; discriminate].
  assert (G' : mget (d_ents (st_db s) r) (m_name m) = Some e) by exact G. rewrite G'.
  unfold published_release, published in Pr. rewrite G in Pr. unfold pool_release in Pr.
  destruct (pool_at s (e_pub e)) as [p|] eqn:Gp; [|discriminate]. injection Pr as <-.
  unfold pool_get_or_err, pool_get. rewrite bind_assoc, bind_gets. unfold pool_at in Gp. rewrite Gp, bind_ret.
  assert (R1 : get_release (p_meta p) = Ok (rel (p_meta p))).
  { pose proof (po_meta _ _ _ (ok_pool _ _ (i_db _ _ _ _ _ _ I) _ _ Gp)) as Mo. rewrite (meta_of_get_release cat Hc _ _ Mo).
    destruct Mo as (h & z & ->). reflexivity. }
  assert (R2 : get_release m = Ok (rel m)).
  { pose proof (gm_hist _ (Hc (l_id l))) as H. rewrite <- Hm in H. unfold get_release, rel. destruct (m_hist m); [congruence|reflexivity]. }
  rewrite R1, bind_lift_ok, R2, bind_lift_ok.
  destruct (Z.ltb_spec (rel m) (rel (p_meta p))); [reflexivity|]. destruct (Z.eqb_spec (rel (p_meta p)) (rel m)); [reflexivity|lia].
Qed.
(** If the first package of an upload is already published (as it is after the
    interrupted first run got that far), the upload is refused as a whole:
    nothing changes, in particular nothing is removed. *)
Theorem C63_second_run_refused_exact :
  forall E T B cat s o path t x xs c m a, good_catalog cat -> good_env E -> reachable E cat s ->
    acceptable E T B s path t -> tm_files t = x :: xs ->
    file_content (st_fs s) (payload_file B path x) = Some c -> E_parse E c = Ok m ->
    published_release s (tm_target t) (m_name m) = Some a -> (rel m <= a)%Z ->
    upload_result E T B o path s = Err /\ unchanged s (upload_after E T B o path s).
Proof.
  intros E T B cat s o path t x xs c m a Hc HE (h & Hh & ->) A Fx Fc Pm Pr Le. pose proof (hist_inv E cat Hc HE h Hh) as I. set (s := run_history E h) in *.
  unfold upload_result, upload_after. rewrite (accepted_job E T B o path s t A). unfold api_add_packages.
  pose proof (wp_get_repo E cat false false [] (tm_target t) s I) as [_ W].
  destruct (get_repo (tm_target t) s) as [[t1 s1] res] eqn:G. cbn [final_of result_of fst snd] in W. destruct W as (I1 & Q & R).
  destruct R as [(-> & _)|(_ & R & _)]; [|pose proof (ac_repo _ _ _ _ _ _ A) as R'; unfold repo_exists in R'; congruence].
  assert (X : add_package E (tm_target t) (payload_file B path x) true s1 = ([], s1, Err)).
  { apply (stale_add E cat false false s1 (tm_target t) (payload_file B path x) c m a Hc I1).
    - rewrite (same_files_content _ _ _ (qd_files _ _ _ Q)). exact Fc.
    - exact Pm.
    - unfold published_release, published, entry_at, pool_release, pool_at in *. rewrite (qd_db _ _ _ Q). exact Pr.
    - exact Le. }
  assert (Y : (get_repo (tm_target t) ;;; (forM (payload_files B path t) (fun p => add_package E (tm_target t) p true) ;;; api_index E o (tm_target t))) s = (t1, s1, Err)).
  { assert (K : (forM (payload_files B path t) (fun p => add_package E (tm_target t) p true) ;;; api_index E o (tm_target t)) s1 = ([], s1, Err)).
    { apply bind_err. unfold payload_files. rewrite Fx. cbn [map forM]. apply bind_err, X. }
    unfold bind at 1. rewrite G, K, app_nil_r. reflexivity. }
  rewrite (bind_err _ _ _ _ _ Y). split; [reflexivity|]. exact (unchanged_dir _ _ _ Q).
Qed.
Print Assumptions C63_second_run_refused_exact.

Definition tr_new : tram := tr_t [("nano-2.eopkg", "nano2"); ("nano-dbginfo-1.eopkg", "dbg1")].
Definition tr_crash : state := nth 2 (upload_crashes (demo_env true) tr_decode tr_base demo_oracle tr_path (tr_s "new")) init.
Definition tr_retry : state := upload_after (demo_env true) tr_decode tr_base demo_oracle tr_path (restart tr_crash).
(** C63 is false: uninterrupted the upload succeeds; after a crash in between, the
    job runs again on the intact upload and fails, leaving it half imported. *)
Theorem C63_interrupted_upload_refuted :
  exists E T B cat s o path name t x l, good_catalog cat /\ good_env E /\ reachable_completed E cat s /\ good_oracle o /\ in_incoming B path name /\
    acceptable E T B s path t /\ no_upward t /\ packages_only B path t /\
    upload_result E T B o path s = Ok tt /\
    In x (upload_crashes E T B o path s) /\ acceptable E T B (restart x) path t /\
    upload_result E T B o path (restart x) = Err /\
    In l (payload_files B path t) /\ available (upload_after E T B o path s) (tm_target t) (l_id l) /\
    entry_at (upload_after E T B o path (restart x)) (tm_target t) "nano-dbginfo" = None.
Proof.
  exists (demo_env true), tr_decode, tr_base, demo_cat, (tr_s "new"), demo_oracle, tr_path, "up.tram", tr_new, tr_crash, (up "nano-dbginfo-1.eopkg").
  split; [apply demo_cat_good|]. split; [apply demo_env_good|]. split; [apply tr_reachable; reflexivity|]. split; [apply demo_oracle_good|].
  split; [apply tr_incoming|]. split; [tr_accept [("nano-2.eopkg", "nano2"); ("nano-dbginfo-1.eopkg", "dbg1")]|].
  split; [intros x [<-|[<-|[]]] X; vm_compute in X; intuition discriminate|]. split; [intros l [<-|[<-|[]]]; here|]. split; [here|].
  split; [apply nth_In, Nat.ltb_lt; here|]. split; [tr_accept [("nano-2.eopkg", "nano2"); ("nano-dbginfo-1.eopkg", "dbg1")]|]. split; [here|].
  split; [right; left; here|]. split; [exists "nano-dbginfo"; eexists; split; [here|left; reflexivity]|]. here.
Qed.
Print Assumptions C63_interrupted_upload_refuted.

(** ** C64 *)
(** A manifest may announce a delta; it is then listed, and even published, as if
    it were the package. *)
Theorem C64_uploaded_delta_refuted :
  exists E T B cat s o path name t l, good_catalog cat /\ good_env E /\ reachable_completed E cat s /\ good_oracle o /\ in_incoming B path name /\
    acceptable E T B s path t /\ no_upward t /\ upload_result E T B o path s = Ok tt /\
    In l (payload_files B path t) /\ is_delta_id (l_id l) = true /\
    let s' := upload_after E T B o path s in
    published s' (tm_target t) "nano" = Some (l_id l) /\ delta_ids_of s' (tm_target t) "nano" = [].
Proof.
  exists (demo_env true), tr_decode, tr_base, demo_cat, (tr_s "delta"), demo_oracle, tr_path, "up.tram", (tr_t [("nano-1-2.delta.eopkg", "nano12")]), (up "nano-1-2.delta.eopkg").
  split; [apply demo_cat_good|]. split; [apply demo_env_good|]. split; [apply tr_reachable; reflexivity|]. split; [apply demo_oracle_good|].
  split; [apply tr_incoming|]. split; [tr_accept [("nano-1-2.delta.eopkg", "nano12")]|].
  split; [intros x [<-|[]] X; vm_compute in X; intuition discriminate|]. split; [here|]. split; [left; here|]. split; [here|].
  intros s'. assert (Es : s' = tr_after "delta") by exact eq_refl. clearbody s'. subst s'. split; here.
Qed.
Print Assumptions C64_uploaded_delta_refuted.
(** Otherwise the file name decides: a manifest without such names adds packages only. *)
Theorem C64_packages_only_partial :
  forall E T B cat s o path name t, good_catalog cat -> good_env E -> reachable_completed E cat s -> good_oracle o ->
    in_incoming B path name -> acceptable E T B s path t -> no_upward t -> packages_only B path t ->
    forall r id, available (upload_after E T B o path s) r id -> ~ available s r id -> is_delta_id id = false.
Proof.
  intros E T B cat s o path name t Hc HE Rc Ho In_ A U Pk r id (n & e & G & Hin) Na.
  destruct (C49_a_prefix_is_imported_partial E T B cat s o path name t Hc HE Rc Ho In_ A U Pk) as (k & _ & _ & Iff & Oth).
  assert (X : In id (available_ids (upload_after E T B o path s) r n)) by (unfold available_ids; rewrite G; exact Hin).
  assert (Nx : ~ In id (available_ids s r n)).
  { unfold available_ids. destruct (entry_at s r n) as [e0|] eqn:G0; [|intros []]. intros Y. apply Na. exists n, e0. auto. }
  destruct (seqb_spec r (tm_target t)) as [->|N].
  - apply Iff in X as [X|(l & c & m & Hl & <- & _)]; [contradiction|]. apply Pk.
    rewrite <- (firstn_skipn k (payload_files B path t)). apply in_app_iff. left. exact Hl.
  - exfalso. apply Nx. unfold available_ids in *. rewrite <- (Oth r n N). exact X.
Qed.
Print Assumptions C64_packages_only_partial.
