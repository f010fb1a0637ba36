(** * PropsClient: property C74 (what a user types is what the daemon queues) *)
From Verif Require Import Model Paths PathFacts.
From Verif Require Import Base LibDb Jobs Dispatch PropsDispatch Trees Client.
From Verif Require Escape PropsEscape.
Open Scope string_scope. Open Scope list_scope.

(** ** Specification *)
(** a repository name that means the same in a URL *)
Definition plain (id : string) : Prop :=
  id <> "" /\ id <> "." /\ id <> ".." /\
  forall c, In c (list_ascii_of_string id) ->
    c <> "/"%char /\ c <> "?"%char /\ c <> "#"%char /\ c <> "%"%char /\ (32 <= N_of_ascii c)%N /\ N_of_ascii c <> 127%N.
(** text in UTF-8 *)
Definition utf8 (s : string) : Prop := PropsEscape.valid_utf8 (map N_of_ascii (list_ascii_of_string s)).
(** what a call of the client library asks for *)
Definition asked (c : call) : result :=
  match c with
  | CallCreate id => Queued (ReqCreate id)
  | CallDelete id => Queued (ReqDelete id)
  | CallDelta id => Queued (ReqDelta id)
  | CallIndex id => Queued (ReqIndex id)
  | CallImport id paths => Queued (ReqImport id paths)
  | CallClone id name all => Queued (ReqClone id name all)
  | CallPull source target => Queued (ReqPull target source)
  | CallRemoveSource id source rel => Queued (ReqRemoveSource id source rel)
  | CallCopySource id target source rel skip => Queued (ReqCopySource id target source rel skip)
  | CallTrimPackages id keep => Queued (ReqTrimPackages id keep)
  | CallTrimObsolete id => Queued (ReqTrimObsolete id)
  | CallResetFailed => Cleared true
  | CallResetCompleted => Cleared false
  end.
(** the repository whose name is part of the URL, and the texts in the body *)
Definition address (c : call) : option string :=
  match c with
  | CallCreate id | CallDelete id | CallDelta id | CallIndex id | CallImport id _ | CallClone id _ _ | CallPull _ id
  | CallRemoveSource id _ _ | CallCopySource id _ _ _ _ | CallTrimPackages id _ | CallTrimObsolete id => Some id
  | CallResetFailed | CallResetCompleted => None
  end.
Definition texts (c : call) : list string :=
  match c with
  | CallImport _ paths => paths
  | CallClone _ name _ => [name]
  | CallPull source _ => [source]
  | CallRemoveSource _ source _ => [source]
  | CallCopySource _ target source _ _ => [target; source]
  | _ => []
  end.
Definition deliverable (c : call) : Prop :=
  (forall id, address c = Some id -> plain id) /\ Forall utf8 (texts c).
(** the same call for another repository *)
Definition readdress (c : call) (id : string) : call :=
  match c with
  | CallCreate _ => CallCreate id
  | CallDelete _ => CallDelete id
  | CallDelta _ => CallDelta id
  | CallIndex _ => CallIndex id
  | CallImport _ paths => CallImport id paths
  | CallClone _ name all => CallClone id name all
  | CallPull source _ => CallPull source id
  | CallRemoveSource _ source rel => CallRemoveSource id source rel
  | CallCopySource _ target source rel skip => CallCopySource id target source rel skip
  | CallTrimPackages _ keep => CallTrimPackages id keep
  | CallTrimObsolete _ => CallTrimObsolete id
  | CallResetFailed => CallResetFailed
  | CallResetCompleted => CallResetCompleted
  end.
(** what a command line asks the daemon to do; numbers are typed in decimal.
    Without a release number any release is meant (C16, C17: -1). For imports see
    C54, which says which files [import_request] finds. *)
Inductive asks (root : node) (cwd : string) : subcommand -> list string -> todo -> Prop :=
| asks_create r : asks root cwd SubCreateRepo [r] (Run (OpCreate r))
| asks_remove r : asks root cwd SubRemoveRepo [r] (Run (OpDelete r))
| asks_delta r : asks root cwd SubDelta [r] (PushDeltas r)
| asks_index r : asks root cwd SubIndex [r] (Run (OpIndex r))
| asks_import r args l : import_request root cwd (r :: args) = Some (r, l) -> l <> [] ->
    asks root cwd SubImport (r :: args) (Run (OpAdd r (map loc_of_path l) false))
| asks_clone full a b : asks root cwd (SubClone full) [a; b] (Run (OpClone a b full))
| asks_pull source target : asks root cwd SubPull [source; target] (Run (OpPull source target))
| asks_remove_source r s : asks root cwd SubRemoveSource [r; s] (Run (OpRemoveSource r s (-1)))
| asks_remove_source_n r s n : (1 <= n < 2 ^ 31)%Z -> asks root cwd SubRemoveSource [r; s; print_int n] (Run (OpRemoveSource r s n))
| asks_copy_source skip r t s : asks root cwd (SubCopySource skip) [r; t; s] (Run (OpCopySource r t s (-1) skip))
| asks_copy_source_n skip r t s n : (1 <= n < 2 ^ 31)%Z ->
    asks root cwd (SubCopySource skip) [r; t; s; print_int n] (Run (OpCopySource r t s n skip))
| asks_trim_packages r n : (1 <= n < 2 ^ 31)%Z -> asks root cwd SubTrimPackages [r; print_int n] (Run (OpTrimPackages r n))
| asks_trim_obsolete r : asks root cwd SubTrimObsolete [r] (Run (OpTrimObsolete r)).

(** ** Strings *)
Lemma any_app f a b : any f (a ++ b) = any f a || any f b.
Proof. induction a as [|c a IH]; [reflexivity|]. cbn [append any]. rewrite IH. apply orb_assoc. Qed.
Lemma any_false f s : (forall c, In c (list_ascii_of_string s) -> f c = false) -> any f s = false.
Proof. induction s as [|c s IH]; intros H; [reflexivity|]. cbn [any]. rewrite (H c), IH; [reflexivity| |left; reflexivity]. intros x Hx. apply H. right. exact Hx. Qed.
Lemma any_in f s : any f s = false -> forall c, In c (list_ascii_of_string s) -> f c = false.
Proof. induction s as [|x s IH]; intros H c Hc; [destruct Hc|]. cbn [any] in H. apply orb_false_iff in H as [H1 H2]. destruct Hc as [<-|Hc]; [exact H1|apply IH; assumption]. Qed.
Lemma cut_none c s : any (fun x => Ascii.eqb x c) s = false -> cut c s = (s, "").
Proof. induction s as [|x s IH]; intros H; [reflexivity|]. cbn [any] in H. apply orb_false_iff in H as [H1 H2]. cbn [cut]. rewrite H1, (IH H2). reflexivity. Qed.
Lemma cut_app c a b : any (fun x => Ascii.eqb x c) a = false -> cut c (a ++ b) = (a ++ fst (cut c b), snd (cut c b))%string.
Proof. induction a as [|x a IH]; intros H; [cbn [append]; destruct (cut c b); reflexivity|]. cbn [any] in H. apply orb_false_iff in H as [H1 H2]. cbn [append cut]. rewrite H1, (IH H2). reflexivity. Qed.
Lemma cut_part c s x : In x (list_ascii_of_string (fst (cut c s))) -> In x (list_ascii_of_string s) /\ x <> c.
Proof.
  induction s as [|y s IH]; [intros []|]. cbn [cut]. destruct (Ascii.eqb_spec y c) as [E|E]; [intros []|].
  destruct (cut c s) as [a b] eqn:Q. cbn [fst list_ascii_of_string In] in *. intros [<-|H]; [split; [left; reflexivity|exact E]|]. destruct (IH H) as [H1 H2]. split; [right; exact H1|exact H2].
Qed.
Lemma cut_rest c s x : In x (list_ascii_of_string (snd (cut c s))) -> In x (list_ascii_of_string s).
Proof.
  induction s as [|y s IH]; [intros []|]. cbn [cut]. destruct (Ascii.eqb_spec y c) as [E|E]; [intros H; right; exact H|].
  destruct (cut c s) as [a b] eqn:Q. cbn [snd] in *. intros H. right. exact (IH H).
Qed.
Lemma unescape_none s : any (fun x => Ascii.eqb x "%") s = false -> unescape s = Some s.
Proof. induction s as [|x s IH]; intros H; [reflexivity|]. cbn [any] in H. apply orb_false_iff in H as [H1 H2]. cbn [unescape]. rewrite H1, (IH H2). reflexivity. Qed.
Lemma no_slash_any s : any (fun x => Ascii.eqb x "/") s = false -> has_slash s = false.
Proof. induction s as [|x s IH]; intros H; [reflexivity|]. cbn [any] in H. apply orb_false_iff in H as [H1 H2]. cbn [has_slash]. unfold slash. rewrite H1, (IH H2). reflexivity. Qed.
Lemma control_false c : (32 <= N_of_ascii c)%N -> N_of_ascii c <> 127%N -> control c = false.
Proof. intros A B. unfold control. apply orb_false_iff. split; [apply N.ltb_ge; exact A|apply N.eqb_neq; exact B]. Qed.

Lemma plain_normal id : plain id -> normal id.
Proof.
  intros (A & B & C & D). repeat split; auto. apply no_slash_any. apply any_false. intros c Hc. apply Ascii.eqb_neq. exact (proj1 (D c Hc)).
Qed.

(** ** JSON *)
Lemma string_bytes s : string_of (bytes_of s) = s.
Proof.
  unfold string_of, bytes_of. rewrite map_map. rewrite <- (string_of_list_ascii_of_string s) at 2. f_equal.
  induction (list_ascii_of_string s) as [|c l IH]; [reflexivity|]. cbn [map]. rewrite ascii_N_embedding, IH. reflexivity.
Qed.
Lemma esc_none r : PropsEscape.esc (fun _ => false) r = [r].
Proof. unfold PropsEscape.esc, Escape.must_escape. rewrite andb_false_r. destruct (N.eqb r Escape.rune_error); reflexivity. Qed.
Lemma json_ok s : utf8 s -> json_string s = s.
Proof.
  intros [rs H]. fold (bytes_of s) in H. pose proof (PropsEscape.write_spells (fun _ => false) _ _ H) as W.
  assert (E : flat_map (PropsEscape.esc (fun _ => false)) rs = rs).
  { clear. induction rs as [|r rs IH]; [reflexivity|]. cbn [flat_map]. rewrite esc_none, IH. reflexivity. }
  rewrite E in W. unfold json_string. rewrite (proj2 (PropsEscape.C46_spelling_is_unique _ _ _ _ W H) eq_refl). apply string_bytes.
Qed.
Lemma json_list l : Forall utf8 l -> map json_string l = l.
Proof. induction 1 as [|x l U F IH]; [reflexivity|]. cbn [map]. rewrite (json_ok x U), IH. reflexivity. Qed.
Lemma utf8_nil : utf8 "".
Proof. exists []. constructor. Qed.

(** ** The path that is sent *)
Definition quiet (c : ascii) : bool := negb (control c || Ascii.eqb c "#" || Ascii.eqb c "?" || Ascii.eqb c "%").
Lemma sent_quiet s : any (fun c => negb (quiet c)) s = false -> sent_path s = Some s.
Proof.
  intros H.
  assert (Q : forall f, (forall c, quiet c = true -> f c = false) -> any f s = false).
  { intros f Hf. apply any_false. intros c Hc. apply Hf. pose proof (any_in _ _ H c Hc) as X. apply negb_false_iff in X. exact X. }
  assert (S : forall c, quiet c = true -> control c = false /\ Ascii.eqb c "#" = false /\ Ascii.eqb c "?" = false /\ Ascii.eqb c "%" = false).
  { intros c X. unfold quiet in X. apply negb_true_iff in X. apply orb_false_iff in X as [X X4]. apply orb_false_iff in X as [X X3]. apply orb_false_iff in X as [X1 X2]. auto. }
  unfold sent_path. rewrite (Q control) by (intros c X; apply (S c X)).
  rewrite cut_none by (apply Q; intros c X; apply (S c X)). cbn [unescape].
  rewrite cut_none by (apply Q; intros c X; apply (S c X)). rewrite unescape_none by (apply Q; intros c X; apply (S c X)). reflexivity.
Qed.
Lemma plain_quiet id : plain id -> any (fun c => negb (quiet c)) id = false.
Proof.
  intros (_ & _ & _ & H). apply any_false. intros c Hc. destruct (H c Hc) as (_ & B & C & D & E & F).
  apply negb_false_iff. unfold quiet. rewrite (control_false c E F). apply Ascii.eqb_neq in B, C, D. rewrite B, C, D. reflexivity.
Qed.
Lemma sent_plain pre id : any (fun c => negb (quiet c)) pre = false -> plain id -> sent_path (pre ++ id) = Some (pre ++ id)%string.
Proof. intros P H. apply sent_quiet. rewrite any_app, P, (plain_quiet id H). reflexivity. Qed.

(** ** Routing of paths without surprises *)
Lemma clean_normal l : l <> [] -> Forall normal l -> clean (abs l) = abs l.
Proof.
  intros N F. unfold clean. rewrite abs_ne. unfold abs at 1. rewrite prefix_slash. rewrite abs_split by assumption.
  cbn [fold_left]. rewrite fold_empty, clean_normals, app_nil_r, rev_involutive by assumption. reflexivity.
Qed.
(** the double slash the client puts in front is cleaned away *)
Lemma clean_double l : l <> [] -> Forall normal l -> clean ("/" ++ abs l) = abs l /\ split_slash ("/" ++ abs l) = "" :: "" :: l.
Proof.
  intros N F. assert (S : split_slash ("/" ++ abs l) = "" :: "" :: l).
  { change ("/" ++ abs l)%string with ("" ++ "/" ++ abs l)%string. rewrite split_app, abs_split by assumption. reflexivity. }
  split; [|exact S]. unfold clean. change (seqb ("/" ++ abs l) "") with false. rewrite prefix_slash, S. cbn match. cbn [fold_left].
  rewrite !fold_empty, clean_normals, app_nil_r, rev_involutive by assumption. reflexivity.
Qed.
Lemma last_normal l d : l <> [] -> Forall normal l -> normal (last l d).
Proof.
  intros N F. induction F as [|x l Hx F IH]; [congruence|]. destruct l as [|y l]; [exact Hx|]. apply IH. discriminate.
Qed.
Lemma clean_path_double l : l <> [] -> Forall normal l -> clean_path ("/" ++ abs l) = abs l.
Proof.
  intros N F. destruct (clean_double l N F) as [C S]. unfold clean_path. rewrite C, S.
  assert (L : last ("" :: "" :: l) "" = last l "") by (destruct l; [congruence|reflexivity]). rewrite L.
  destruct (last_normal l "" N F) as (A & B & _). apply seqb_neq in A, B. rewrite A, B. reflexivity.
Qed.
Lemma without_slash_normal l : l <> [] -> Forall normal l -> without_slash l = l.
Proof.
  intros N F. unfold without_slash. destruct (rev l) as [|x r] eqn:R; [reflexivity|].
  assert (normal x) as (A & _). { rewrite Forall_forall in F. apply F. apply in_rev. rewrite R. left. reflexivity. }
  apply seqb_neq in A. rewrite A. reflexivity.
Qed.
Lemma without_slash_cons l : l <> [] -> Forall normal l -> without_slash ("" :: l) = "" :: l.
Proof.
  intros N F. unfold without_slash. cbn [rev]. destruct (rev l) as [|x r] eqn:R; [apply (f_equal (@List.length string)) in R; rewrite rev_length in R; destruct l; [congruence|discriminate]|].
  assert (normal x) as (A & _). { rewrite Forall_forall in F. apply F. apply in_rev. rewrite R. left. reflexivity. }
  apply seqb_neq in A. cbn [app]. rewrite A. reflexivity.
Qed.
Lemma no_route_empty m l : match_routes seqb m ("" :: l) routes = None.
Proof. destruct m; reflexivity. Qed.
(** a route found exactly is found without regard to case *)
Lemma follow_exact f m l rt id canon : l <> [] -> Forall normal l ->
  match_routes seqb m l routes = Some (canon, rt, id) -> follow (S f) m (abs l) = Some (rt, id).
Proof. intros N F M. cbn [follow]. unfold serve. rewrite abs_split by assumption. cbn [tl]. rewrite M. reflexivity. Qed.
Lemma follow_double f m l rt id canon : l <> [] -> Forall normal l ->
  match_routes seqb m l routes = Some (canon, rt, id) -> match_routes fold_eqb m l routes = Some (l, rt, id) ->
  follow (S (S f)) m ("/" ++ abs l) = Some (rt, id).
Proof.
  intros N F M M'. destruct (clean_double l N F) as [C S]. change (follow (Datatypes.S (Datatypes.S f)) m ("/" ++ abs l)) with
    (match serve m ("/" ++ abs l) with Handle rt id => Some (rt, id) | Moved p => follow (Datatypes.S f) m p | NotFound => None end).
  unfold serve. rewrite S. cbn [tl]. rewrite no_route_empty, without_slash_cons, no_route_empty by assumption.
  rewrite clean_path_double, abs_split by assumption. cbn [tl]. rewrite without_slash_normal by assumption. rewrite M'.
  fold (abs l). rewrite clean_normal by assumption. exact (follow_exact f m l rt id canon N F M).
Qed.

(** ** C74 *)
Ltac normal_list := repeat (constructor; [repeat split; discriminate|]); constructor; [assumption|constructor].
(** one step of each kind of call *)
Lemma get_call fixed rt id :
  plain id -> Forall normal fixed ->
  any (fun c => negb (quiet c)) ("/" ++ abs fixed ++ "/") = false ->
  match_routes seqb GET (fixed ++ [id]) routes = Some (fixed ++ [id], rt, id) ->
  match_routes fold_eqb GET (fixed ++ [id]) routes = Some (fixed ++ [id], rt, id) ->
  fixed <> [] ->
  match sent_path (form_uri (abs fixed ++ "/" ++ id)) with Some p => follow 11 GET p | None => None end = Some (rt, id).
Proof.
  intros P F Q M M' N. unfold form_uri.
  assert (E : ("/" ++ abs fixed ++ "/" ++ id = ("/" ++ abs fixed ++ "/") ++ id)%string) by (rewrite !sapp_assoc; reflexivity).
  rewrite E, sent_plain by assumption. rewrite <- E.
  assert (J : (abs fixed ++ "/" ++ id = abs (fixed ++ [id]))%string).
  { unfold abs. rewrite join_app by (assumption || discriminate). reflexivity. }
  rewrite J. apply (follow_double 9 GET (fixed ++ [id]) rt id (fixed ++ [id])); [destruct fixed; discriminate| |exact M|exact M'].
  apply Forall_app. split; [exact F|]. constructor; [exact (plain_normal id P)|constructor].
Qed.
Lemma post_call fixed rt id :
  plain id -> Forall normal fixed ->
  any (fun c => negb (quiet c)) (abs fixed ++ "/") = false ->
  match_routes seqb POST (fixed ++ [id]) routes = Some (fixed ++ [id], rt, id) ->
  fixed <> [] ->
  match sent_path (abs fixed ++ "/" ++ id) with Some p => follow 11 POST p | None => None end = Some (rt, id).
Proof.
  intros P F Q M N.
  assert (E : (abs fixed ++ "/" ++ id = (abs fixed ++ "/") ++ id)%string) by (rewrite !sapp_assoc; reflexivity).
  rewrite E, sent_plain by assumption. rewrite <- E.
  assert (J : (abs fixed ++ "/" ++ id = abs (fixed ++ [id]))%string).
  { unfold abs. rewrite join_app by (assumption || discriminate). reflexivity. }
  rewrite J. apply (follow_exact 10 POST (fixed ++ [id]) rt id (fixed ++ [id])); [destruct fixed; discriminate| |exact M].
  apply Forall_app. split; [exact F|]. constructor; [exact (plain_normal id P)|constructor].
Qed.
Lemma submit_eq c : submit c = match (match sent_path (snd (fst (http_of c))) with Some p => follow 11 (fst (fst (http_of c))) p | None => None end) with
  | Some (rt, id) => handle rt id (json_body (snd (http_of c))) | None => Refused end.
Proof. unfold submit. destruct (http_of c) as [[m u] b]. cbn [fst snd]. destruct (sent_path u); reflexivity. Qed.
Ltac solve_fixed := repeat constructor; try discriminate.
Ltac matched H := let A := fresh in destruct H as (A & _); match type of A with ?i <> _ => destruct i; [congruence|vm_compute; reflexivity] end.

Ltac by_get fixed rt id A :=
  let G := fresh in
  pose proof (get_call fixed rt id A ltac:(solve_fixed) eq_refl ltac:(matched A) ltac:(matched A) ltac:(discriminate)) as G;
  cbn [http_of fst snd];
  match goal with |- match ?x with Some _ => _ | None => _ end = _ =>
    match type of G with _ = ?y => replace x with y by (symmetry; exact G); clear G end end; cbn match.
Ltac by_post fixed rt id A :=
  let G := fresh in
  pose proof (post_call fixed rt id A ltac:(solve_fixed) eq_refl ltac:(matched A) ltac:(discriminate)) as G;
  cbn [http_of fst snd];
  match goal with |- match ?x with Some _ => _ | None => _ end = _ =>
    match type of G with _ = ?y => replace x with y by (symmetry; exact G); clear G end end; cbn match.

(** Every call whose repository name is plain and whose texts are UTF-8 reaches
    the daemon as it was made. *)
Theorem C74_calls_arrive_partial : forall c, deliverable c -> submit c = asked c.
Proof.
  intros c [A T]. rewrite submit_eq.
  destruct c; cbn [address texts] in A, T; [..|vm_compute; reflexivity|vm_compute; reflexivity]; specialize (A _ eq_refl).
  - by_get ["api"; "v1"; "create"; "repo"] RtCreate id A. reflexivity.
  - by_get ["api"; "v1"; "remove"; "repo"] RtDelete id A. reflexivity.
  - by_get ["api"; "v1"; "delta"; "repo"] RtDelta id A. reflexivity.
  - by_get ["api"; "v1"; "index"; "repo"] RtIndex id A. reflexivity.
  - by_post ["api"; "v1"; "import"] RtImport id A. cbn [handle json_body b_path asked]. rewrite (json_list _ T). reflexivity.
  - by_post ["api"; "v1"; "clone"] RtClone id A. cbn [handle json_body b_clone b_all asked]. inversion T; subst. rewrite json_ok by assumption. reflexivity.
  - by_post ["api"; "v1"; "pull"] RtPull target A. cbn [handle json_body b_source asked]. inversion T; subst. rewrite json_ok by assumption. reflexivity.
  - by_post ["api"; "v1"; "remove"; "source"] RtRemoveSource id A. cbn [handle json_body b_source b_release asked]. inversion T; subst. rewrite json_ok by assumption. reflexivity.
  - by_post ["api"; "v1"; "copy"; "source"] RtCopySource id A. cbn [handle json_body b_source b_target b_release b_skip asked].
    inversion T as [|? ? T1 T2]; subst. inversion T2; subst. rewrite !json_ok by assumption. reflexivity.
  - by_post ["api"; "v1"; "trim"; "packages"] RtTrimPackages id A. reflexivity.
  - by_get ["api"; "v1"; "trim"; "obsoletes"] RtTrimObsolete id A. reflexivity.
Qed.
Print Assumptions C74_calls_arrive_partial.

(** A command line does what it says: the job made of it asks the manager for
    exactly that. *)
Theorem C74_commands_do_what_they_say_partial :
  forall root cwd sub args t, asks root cwd sub args t ->
  exists c, ferryctl root cwd sub args = Some c /\
    (deliverable c -> exists r h, submit c = Queued r /\ dispatch (job_of r) = Ok h /\ execute h = t).
Proof.
  intros root cwd sub args t H.
  assert (P : forall n, (1 <= n < 2 ^ 31)%Z -> positive_arg (print_int n) = Some n).
  { intros n R. unfold positive_arg. rewrite parse_print_int, (proj2 (int32_iff n)) by lia. destruct (Z.ltb_spec n 1); [lia|reflexivity]. }
  assert (K : forall c r, asked c = Queued r -> fits r -> meaning r = t ->
            deliverable c -> exists r h, submit c = Queued r /\ dispatch (job_of r) = Ok h /\ execute h = t).
  { intros c r A F M D. destruct (C34_parameters_survive_partial r F) as (h & E1 & E2). exists r, h. rewrite (C74_calls_arrive_partial c D). rewrite E2. auto. }
  destruct H; cbn [ferryctl];
    repeat match goal with H : (1 <= _ < _)%Z |- _ => rewrite (P _ H) end;
    try match goal with H : import_request _ _ _ = Some _ |- _ => rewrite H end;
    eexists; (split; [reflexivity|]); eapply K; try reflexivity; cbn [fits]; try exact Logic.I; try assumption; try lia.
Qed.
Print Assumptions C74_commands_do_what_they_say_partial.

(** Names outside that: the claim is false. A number sign cuts the name off (and
    another repository is deleted), dots and slashes lead to another request, and
    bytes that are not UTF-8 are replaced. *)
Theorem C74_calls_arrive_refuted :
  submit (CallDelete "stable#old") = Queued (ReqDelete "stable") /\
  submit (CallDelete "sta%62le") = Queued (ReqDelete "stable") /\
  submit (CallCreate "../../remove/repo/stable") = Queued (ReqDelete "stable") /\
  submit (CallIndex "../../reset/failed") = Cleared true /\
  (exists p q, submit (CallImport "stable" [p]) = Queued (ReqImport "stable" [q]) /\ p <> q).
Proof.
  split; [vm_compute; reflexivity|]. split; [vm_compute; reflexivity|]. split; [vm_compute; reflexivity|]. split; [vm_compute; reflexivity|].
  exists ("/tmp/" ++ String "255" "-1-1-x86_64.eopkg")%string.
  exists ("/tmp/" ++ String "239" (String "191" (String "189" "-1-1-x86_64.eopkg")))%string.
  split; [vm_compute; reflexivity|discriminate].
Qed.
Print Assumptions C74_calls_arrive_refuted.

(** Text arrives unchanged exactly if it is UTF-8. *)
Theorem C74_text_exact : forall s, json_string s = s <-> utf8 s.
Proof.
  intros s. split; [|apply json_ok]. intros E. unfold utf8. fold (bytes_of s). rewrite <- E at 1. unfold json_string.
  assert (B : forall l, Forall (fun n => (n < 256)%N) l -> bytes_of (string_of l) = l).
  { intros l F. unfold bytes_of, string_of. rewrite list_ascii_of_string_of_list_ascii, map_map.
    induction F as [|x l L F IH]; [reflexivity|]. cbn [map]. rewrite IH, N_ascii_embedding by exact L. reflexivity. }
  destruct (PropsEscape.C46_output_is_valid (fun _ => false) (bytes_of s)) as [rs H]. exists rs.
  rewrite B; [exact H|]. clear -H.
  induction H as [|r bs rs rest Sc U H IH]; [constructor|]. apply Forall_app. split; [|exact IH].
  unfold PropsEscape.scalar in Sc.
  destruct U as [(L & ->)|[(a & b & R & Lb & E & ->)|[(a & b & c & R & Lb & Lc & E & ->)|(a & b & c & d & R & Lb & Lc & Ld & E & ->)]]];
    repeat constructor; lia.
Qed.
Print Assumptions C74_text_exact.

(** The part of a name before the first question mark or number sign. *)
Definition stem (id : string) : string := fst (cut "?" (fst (cut "#" id))).
(** A name without slash and percent sign never makes another request of a call:
    it is refused, or it is the same call for the part before the first question
    mark or number sign. *)
Lemma sent_stem pre id : any (fun c => negb (quiet c)) pre = false ->
  any (fun c => Ascii.eqb c "%") id = false ->
  sent_path (pre ++ id) = None \/ (sent_path (pre ++ id) = Some (pre ++ stem id)%string /\ any control id = false).
Proof.
  intros Q P. unfold sent_path. rewrite any_app.
  assert (Qs : forall f, (forall c, quiet c = true -> f c = false) -> any f pre = false).
  { intros f Hf. apply any_false. intros c Hc. apply Hf. pose proof (any_in _ _ Q c Hc) as X. apply negb_false_iff in X. exact X. }
  assert (S : forall c, quiet c = true -> control c = false /\ Ascii.eqb c "#" = false /\ Ascii.eqb c "?" = false /\ Ascii.eqb c "%" = false).
  { intros c X. unfold quiet in X. apply negb_true_iff in X. apply orb_false_iff in X as [X X4]. apply orb_false_iff in X as [X X3]. apply orb_false_iff in X as [X1 X2]. auto. }
  rewrite (Qs control) by (intros c X; apply (S c X)). cbn [orb]. destruct (any control id) eqn:C; [left; reflexivity|].
  rewrite cut_app by (apply Qs; intros c X; apply (S c X)).
  rewrite unescape_none by (apply any_false; intros c Hc; exact (any_in _ _ P c (cut_rest _ _ _ Hc))).
  rewrite cut_app by (apply Qs; intros c X; apply (S c X)). fold (stem id).
  rewrite unescape_none.
  2: { rewrite any_app, (Qs (fun c => Ascii.eqb c "%")) by (intros c X; apply (S c X)). cbn [orb]. apply any_false. intros c Hc. unfold stem in Hc.
       apply cut_part in Hc as [Hc _]. apply cut_part in Hc as [Hc _]. exact (any_in _ _ P c Hc). }
  destruct (any (Ascii.eqb " ") (snd (cut "?" (fst (cut "#" id))))); [left; reflexivity|right; split; reflexivity].
Qed.
Lemma stem_plain id : any (fun c => Ascii.eqb c "%") id = false -> any (fun c => Ascii.eqb c "/") id = false -> any control id = false ->
  plain (stem id) \/ stem id = "" \/ stem id = "." \/ stem id = "..".
Proof.
  intros P L C.
  destruct (string_dec (stem id) "") as [E|N1]; [auto|]. destruct (string_dec (stem id) ".") as [E|N2]; [auto|]. destruct (string_dec (stem id) "..") as [E|N3]; [auto|].
  left. repeat (split; [assumption|]). intros c Hc. unfold stem in Hc. apply cut_part in Hc as [Hc Q]. apply cut_part in Hc as [Hc H].
  pose proof (any_in _ _ P c Hc) as X1. pose proof (any_in _ _ L c Hc) as X2. pose proof (any_in _ _ C c Hc) as X3.
  apply Ascii.eqb_neq in X1, X2. unfold control in X3. apply orb_false_iff in X3 as [X3 X4]. apply N.ltb_ge in X3. apply N.eqb_neq in X4. auto 8.
Qed.
Definition prefix_of (c : call) : string :=
  match c with
  | CallCreate _ => "//api/v1/create/repo/" | CallDelete _ => "//api/v1/remove/repo/" | CallDelta _ => "//api/v1/delta/repo/"
  | CallIndex _ => "//api/v1/index/repo/" | CallImport _ _ => "/api/v1/import/" | CallClone _ _ _ => "/api/v1/clone/"
  | CallPull _ _ => "/api/v1/pull/" | CallRemoveSource _ _ _ => "/api/v1/remove/source/" | CallCopySource _ _ _ _ _ => "/api/v1/copy/source/"
  | CallTrimPackages _ _ => "/api/v1/trim/packages/" | CallTrimObsolete _ => "//api/v1/trim/obsoletes/"
  | CallResetFailed => "" | CallResetCompleted => ""
  end.
Lemma http_prefix c id x : address c = Some id ->
  http_of (readdress c x) = (fst (fst (http_of c)), (prefix_of c ++ x)%string, snd (http_of c)) /\ snd (fst (http_of c)) = (prefix_of c ++ id)%string.
Proof. destruct c; cbn [address]; intros E; try discriminate; injection E as ->; split; reflexivity. Qed.
Theorem C74_never_another_request :
  forall c id, address c = Some id ->
    (forall x, In x (list_ascii_of_string id) -> x <> "/"%char /\ x <> "%"%char) -> Forall utf8 (texts c) ->
  submit c = Refused \/ submit c = asked (readdress c (stem id)).
Proof.
  intros c id A H T.
  assert (P : any (fun x => Ascii.eqb x "%") id = false) by (apply any_false; intros x Hx; apply Ascii.eqb_neq; apply (H x Hx)).
  assert (L : any (fun x => Ascii.eqb x "/") id = false) by (apply any_false; intros x Hx; apply Ascii.eqb_neq; apply (H x Hx)).
  destruct (http_prefix c id (stem id) A) as [E1 E2].
  assert (Q : any (fun c => negb (quiet c)) (prefix_of c) = false) by (destruct c; reflexivity).
  rewrite submit_eq, E2. destruct (sent_stem (prefix_of c) id Q P) as [->|[-> C]]; [left; reflexivity|].
  assert (R : submit (readdress c (stem id)) = match follow 11 (fst (fst (http_of c))) (prefix_of c ++ stem id) with
              | Some (rt, i) => handle rt i (json_body (snd (http_of c))) | None => Refused end).
  { rewrite submit_eq, E1. cbn [fst snd]. rewrite sent_quiet; [reflexivity|]. rewrite any_app, Q. cbn [orb].
    apply any_false. intros x Hx. unfold stem in Hx. apply cut_part in Hx as [Hx X1]. apply cut_part in Hx as [Hx X2].
    pose proof (any_in _ _ P x Hx) as X3. pose proof (any_in _ _ C x Hx) as X4. apply negb_false_iff. unfold quiet. apply Ascii.eqb_neq in X1, X2. rewrite X1, X2, X3, X4. reflexivity. }
  rewrite <- R. clear R E1 E2 Q.
  assert (T' : Forall utf8 (texts (readdress c (stem id)))) by (destruct c; exact T).
  destruct (stem_plain id P L C) as [Pl|Sp].
  - right. apply C74_calls_arrive_partial. split; [|exact T']. intros i Hi. destruct c; cbn in Hi; try discriminate; injection Hi as <-; exact Pl.
  - clear -Sp T' A. destruct c; cbn [readdress texts address] in *; try discriminate A;
      rewrite submit_eq; cbn [http_of fst snd]; destruct Sp as [-> |[-> | ->]];
      match goal with |- context [sent_path ?x] => let v := eval vm_compute in (sent_path x) in replace (sent_path x) with v by (vm_compute; reflexivity) end; cbn match;
      match goal with |- context [follow ?a ?b ?x] => let v := eval vm_compute in (follow a b x) in replace (follow a b x) with v by (vm_compute; reflexivity) end; cbn match;
      first [left; reflexivity
            | right; cbn [handle json_body asked b_path b_clone b_all b_source b_target b_release b_skip b_max];
              try rewrite (json_list _ T'); try (inversion T' as [|? ? T1 T2]; subst; try (inversion T2; subst)); rewrite ?json_ok by assumption; reflexivity].
Qed.
Print Assumptions C74_never_another_request.

(** A name of several plain parts with slashes between them never reaches any
    repository, in particular not one named by a part of it: it is refused. *)
Lemma join_concat l : join_slash l = String.concat "/" l.
Proof. induction l as [|x [|y l] IH]; [reflexivity..|]. rewrite join_cons, IH. reflexivity. Qed.
Lemma refused_path m l : l <> [] -> Forall normal l -> match_routes seqb m l routes = None -> match_routes fold_eqb m l routes = None ->
  follow 11 m (abs l) = None /\ follow 11 m ("/" ++ abs l) = None.
Proof.
  intros N F M M'. destruct (clean_double l N F) as [C S].
  assert (H1 : serve m (abs l) = NotFound).
  { unfold serve. rewrite abs_split by assumption. cbn [tl]. rewrite M, without_slash_normal, M by assumption.
    assert (CP : clean_path (abs l) = abs l).
    { unfold clean_path. rewrite clean_normal, abs_split by assumption.
      assert (L : last ("" :: l) "" = last l "") by (destruct l; [congruence|reflexivity]). rewrite L.
      destruct (last_normal l "" N F) as (A & B & _). apply seqb_neq in A, B. rewrite A, B. reflexivity. }
    rewrite CP, abs_split by assumption. cbn [tl]. rewrite without_slash_normal, M' by assumption. reflexivity. }
  assert (H2 : serve m ("/" ++ abs l) = NotFound).
  { unfold serve. rewrite S. cbn [tl]. rewrite no_route_empty, without_slash_cons, no_route_empty by assumption.
    rewrite clean_path_double, abs_split by assumption. cbn [tl]. rewrite without_slash_normal, M' by assumption. reflexivity. }
  cbn [follow]. rewrite H1, H2. split; reflexivity.
Qed.
Theorem C74_slashes_are_refused :
  forall c a b l, Forall plain (a :: b :: l) -> address c = Some (String.concat "/" (a :: b :: l)) -> submit c = Refused.
Proof.
  intros c a b l F A. rewrite <- join_concat in A. set (id := join_slash (a :: b :: l)) in A.
  assert (Q : any (fun c => negb (quiet c)) id = false).
  { subst id. clear A. assert (X : forall l, Forall plain l -> any (fun c => negb (quiet c)) (join_slash l) = false).
    { induction 1 as [|x [|y k] P Fk IH]; [reflexivity|exact (plain_quiet x P)|]. rewrite join_cons, !any_app, (plain_quiet x P), IH. reflexivity. }
    exact (X _ F). }
  assert (Fn : Forall normal (a :: b :: l)) by (eapply Forall_impl; [|exact F]; exact plain_normal).
  assert (G : forall fixed pre m, Forall normal fixed -> fixed <> [] -> pre = ""%string \/ pre = "/"%string ->
    any (fun c => negb (quiet c)) (pre ++ abs fixed ++ "/") = false ->
    match_routes seqb m (fixed ++ a :: b :: l) routes = None -> match_routes fold_eqb m (fixed ++ a :: b :: l) routes = None ->
    match sent_path (pre ++ abs fixed ++ "/" ++ id) with Some p => follow 11 m p | None => None end = None).
  { intros fixed pre m Ff Nf Pre Qp M M'.
    assert (E : (pre ++ abs fixed ++ "/" ++ id = (pre ++ abs fixed ++ "/") ++ id)%string) by (rewrite !sapp_assoc; reflexivity).
    rewrite sent_quiet by (rewrite E, any_app, Qp, Q; reflexivity).
    assert (J : (abs fixed ++ "/" ++ id = abs (fixed ++ a :: b :: l))%string).
    { unfold abs, id. rewrite join_app by (assumption || discriminate). reflexivity. }
    rewrite J. assert (Fa : Forall normal (fixed ++ a :: b :: l)) by (apply Forall_app; split; assumption).
    destruct (refused_path m (fixed ++ a :: b :: l) ltac:(destruct fixed; discriminate) Fa M M') as [R1 R2].
    destruct Pre as [-> | ->]; [exact R1|exact R2]. }
  rewrite submit_eq.
  assert (Go : forall fixed pre m, match sent_path (snd (fst (http_of c))) with Some p => follow 11 (fst (fst (http_of c))) p | None => None end
     = match sent_path (pre ++ abs fixed ++ "/" ++ id) with Some p => follow 11 m p | None => None end ->
     Forall normal fixed -> fixed <> [] -> pre = ""%string \/ pre = "/"%string ->
    any (fun c => negb (quiet c)) (pre ++ abs fixed ++ "/") = false ->
    match_routes seqb m (fixed ++ a :: b :: l) routes = None -> match_routes fold_eqb m (fixed ++ a :: b :: l) routes = None ->
    match (match sent_path (snd (fst (http_of c))) with Some p => follow 11 (fst (fst (http_of c))) p | None => None end) with
    | Some (rt, id) => handle rt id (json_body (snd (http_of c))) | None => Refused end = Refused).
  { intros fixed pre m Eq H1 H2 H3 H4 H5 H6. rewrite Eq, G by assumption. reflexivity. }
  Ltac slashed Go fixed pre m := apply (Go fixed pre m); [reflexivity|solve_fixed|discriminate|first [left; reflexivity|right; reflexivity]|reflexivity|reflexivity|reflexivity].
  destruct c; cbn [address] in A; try discriminate A; injection A as ->.
  - slashed Go ["api"; "v1"; "create"; "repo"] "/" GET.
  - slashed Go ["api"; "v1"; "remove"; "repo"] "/" GET.
  - slashed Go ["api"; "v1"; "delta"; "repo"] "/" GET.
  - slashed Go ["api"; "v1"; "index"; "repo"] "/" GET.
  - slashed Go ["api"; "v1"; "import"] "" POST.
  - slashed Go ["api"; "v1"; "clone"] "" POST.
  - slashed Go ["api"; "v1"; "pull"] "" POST.
  - slashed Go ["api"; "v1"; "remove"; "source"] "" POST.
  - slashed Go ["api"; "v1"; "copy"; "source"] "" POST.
  - slashed Go ["api"; "v1"; "trim"; "packages"] "" POST.
  - slashed Go ["api"; "v1"; "trim"; "obsoletes"] "/" GET.
Qed.
Print Assumptions C74_slashes_are_refused.

(** ** Numbers on the command line *)
(** what a number is: decimal digits, perhaps a sign in front *)
Inductive decimal : string -> Z -> Prop :=
| decimal_one c : (48 <= N_of_ascii c <= 57)%N -> decimal (String c "") (Z.of_N (N_of_ascii c) - 48)
| decimal_more s n c : decimal s n -> (48 <= N_of_ascii c <= 57)%N -> decimal (s ++ String c "") (10 * n + (Z.of_N (N_of_ascii c) - 48)).
Inductive number : string -> Z -> Prop :=
| number_plain s n : decimal s n -> number s n
| number_plus s n : decimal s n -> number (String "+" s) n
| number_minus s n : decimal s n -> number (String "-" s) (- n).

Lemma is_digit_spec c : is_digit c = true <-> (48 <= N_of_ascii c <= 57)%N.
Proof. unfold is_digit. rewrite andb_true_iff, !N.leb_le. reflexivity. Qed.
Lemma parse_digits_app a c acc : parse_digits (a ++ String c "") acc =
  match parse_digits a acc with Ok n => if is_digit c then Ok (n * 10 + (N_of_ascii c - 48))%N else Err | x => x end.
Proof.
  revert acc. induction a as [|x a IH]; intros acc; cbn [append parse_digits]; [destruct (is_digit c); reflexivity|].
  destruct (is_digit x); [apply IH|reflexivity].
Qed.
Lemma decimal_parse s z : decimal s z -> parse_unsigned s = Ok (Z.to_N z) /\ (0 <= z)%Z /\ exists c t, s = String c t /\ is_digit c = true.
Proof.
  induction 1 as [c R|s n c D (IH & P & (c0 & t & E & Dc)) R].
  - pose proof (proj2 (is_digit_spec c) R) as Dc. split; [|split; [lia|exists c, ""%string; auto]]. cbn [parse_unsigned parse_digits]. rewrite Dc. f_equal. lia.
  - pose proof (proj2 (is_digit_spec c) R) as Dc'. split; [|split; [lia|exists c0, (t ++ String c "")%string; rewrite E; auto]].
    subst s. cbn [append parse_unsigned] in *. change (String c0 (t ++ String c "")) with (String c0 t ++ String c "")%string. rewrite parse_digits_app, IH, Dc'. f_equal. lia.
Qed.
Lemma parse_decimal s n : parse_unsigned s = Ok n -> decimal s (Z.of_N n).
Proof.
  destruct s as [|c s]; [discriminate|]. unfold parse_unsigned.
  assert (X : forall (s : string) (acc n : N), parse_digits s acc = Ok n -> forall pre, decimal pre (Z.of_N acc) -> decimal (pre ++ s) (Z.of_N n)).
  { clear. induction s as [|c s IH]; intros acc n E pre D; cbn [parse_digits] in E; [injection E as ->; rewrite sapp_nil_r; exact D|].
    destruct (is_digit c) eqn:Dc; [|discriminate]. apply is_digit_spec in Dc.
    assert (Q : (pre ++ String c s = (pre ++ String c "") ++ s)%string) by (rewrite sapp_assoc; reflexivity). rewrite Q. apply (IH _ _ E).
    replace (Z.of_N (acc * 10 + (N_of_ascii c - 48))) with (10 * Z.of_N acc + (Z.of_N (N_of_ascii c) - 48))%Z by lia. constructor; assumption. }
  cbn [parse_digits]. destruct (is_digit c) eqn:Dc; [|discriminate]. apply is_digit_spec in Dc. intros E.
  apply (X s _ _ E (String c "")). replace (Z.of_N (0 * 10 + (N_of_ascii c - 48))) with (Z.of_N (N_of_ascii c) - 48)%Z by lia. constructor. exact Dc.
Qed.
Lemma positive_arg_spec s z : positive_arg s = Some z <-> number s z /\ (1 <= z < 2 ^ 31)%Z.
Proof.
  unfold positive_arg. split.
  - destruct (parse_int32 s) as [y| |] eqn:P; [|discriminate|discriminate]. destruct (Z.ltb_spec y 1); [discriminate|]. intros E. injection E as <-.
    unfold parse_int32 in P. destruct s as [|c t]; [discriminate|].
    assert (Fin : forall neg r, match r with Ok n => if int32 (if neg : bool then (- Z.of_N n)%Z else Z.of_N n) then Ok (if neg then (- Z.of_N n)%Z else Z.of_N n) else Err | _ => Err end = Ok y ->
      exists n, r = Ok n /\ y = (if neg then (- Z.of_N n)%Z else Z.of_N n) /\ int32 y = true).
    { intros neg r H1. destruct r as [n| |]; [|discriminate|discriminate]. destruct (int32 _) eqn:I; [|discriminate]. injection H1 as <-. eauto. }
    destruct (Ascii.eqb_spec c "+") as [->|Np]; [apply (Fin false) in P|destruct (Ascii.eqb_spec c "-") as [->|Nm]; [apply (Fin true) in P|apply (Fin false) in P]];
      destruct P as (n & E & -> & I); apply int32_iff in I; apply parse_decimal in E;
      (split; [|lia]); constructor; exact E.
  - intros [N R].
    assert (Fin : (if int32 z then Ok z else Err) = Ok z) by (rewrite (proj2 (int32_iff z)) by lia; reflexivity).
    assert (P : parse_int32 s = Ok z).
    { destruct N as [s n D|s n D|s n D]; destruct (decimal_parse _ _ D) as (E & P & (c & t & Es & Dc)).
      - subst s. unfold parse_int32. assert (Ascii.eqb c "+" = false /\ Ascii.eqb c "-" = false) as [-> ->].
        { apply is_digit_spec in Dc. split; apply Ascii.eqb_neq; intros ->; cbn in Dc; lia. }
        rewrite E. cbn match. rewrite Z2N.id by lia. exact Fin.
      - unfold parse_int32. change (Ascii.eqb "+" "+") with true. cbn match. rewrite E. rewrite Z2N.id by lia. exact Fin.
      - lia. }
    rewrite P. destruct (Z.ltb_spec z 1); [lia|reflexivity].
Qed.
(** A command with a release number or a count sends it if it is a number from 1
    to 2^31-1, exactly as typed, and sends nothing otherwise. *)
Theorem C74_numbers_exact :
  forall root cwd r t s n skip c,
    (ferryctl root cwd SubRemoveSource [r; s; n] = Some c <-> exists z, number n z /\ (1 <= z < 2 ^ 31)%Z /\ c = CallRemoveSource r s z) /\
    (ferryctl root cwd (SubCopySource skip) [r; t; s; n] = Some c <-> exists z, number n z /\ (1 <= z < 2 ^ 31)%Z /\ c = CallCopySource r t s z skip) /\
    (ferryctl root cwd SubTrimPackages [r; n] = Some c <-> exists z, number n z /\ (1 <= z < 2 ^ 31)%Z /\ c = CallTrimPackages r z).
Proof.
  intros root cwd r t s n skip c. cbn [ferryctl].
  assert (X : forall f : Z -> call, (match positive_arg n with Some z => Some (f z) | None => None end = Some c <-> exists z, number n z /\ (1 <= z < 2 ^ 31)%Z /\ c = f z)).
  { intros f. split.
    - destruct (positive_arg n) as [z|] eqn:P; [|discriminate]. apply positive_arg_spec in P as [P1 P2]. intros E. injection E as <-. exists z. auto.
    - intros (z & N & R & ->). rewrite (proj2 (positive_arg_spec n z) (conj N R)). reflexivity. }
  split; [apply X|split; apply X].
Qed.
Print Assumptions C74_numbers_exact.

(** a demo: the hypotheses are met by ordinary names, also non-ASCII ones *)
Theorem C74_demo :
  deliverable (CallCopySource "unstable" "stable" (String "195" (String "188" "ber")) 12 true) /\
  asks (Dir true []) "/" (SubCopySource true) ["unstable"; "stable"; "nano"; "12"] (Run (OpCopySource "unstable" "stable" "nano" 12 true)) /\
  (forall x, In x (list_ascii_of_string "stable#old") -> x <> "/"%char /\ x <> "%"%char) /\ stem "stable#old" = "stable" /\
  submit (CallDelete "stable/old") = Refused /\
  ferryctl (Dir true []) "/" SubTrimPackages ["stable"; "+3"] = Some (CallTrimPackages "stable" 3) /\
  ferryctl (Dir true []) "/" SubTrimPackages ["stable"; "0"] = None.
Proof.
  split; [|split; [|split]].
  - split.
    + intros id E. injection E as <-. repeat (split; [discriminate|]). intros c Hc. cbn in Hc.
      repeat (destruct Hc as [<-|Hc]; [repeat split; (discriminate || (vm_compute; discriminate))|]). destruct Hc.
    + constructor; [|constructor; [|constructor]]; unfold utf8; cbn.
      * exists [115;116;97;98;108;101]%N. apply PropsEscape.spells_ascii. repeat constructor.
      * exists (252 :: [98;101;114])%N. apply (PropsEscape.spells_cons 252 [195;188])%N; [left; reflexivity| |apply PropsEscape.spells_ascii; repeat constructor].
        right. left. exists 3%N, 60%N. repeat split; vm_compute; (reflexivity || discriminate || (split; discriminate)).
  - apply (asks_copy_source_n (Dir true []) "/" true "unstable" "stable" "nano" 12). lia.
  - intros x Hx. cbn in Hx. repeat (destruct Hx as [<-|Hx]; [split; discriminate|]). destruct Hx.
  - repeat split; vm_compute; reflexivity.
Qed.
