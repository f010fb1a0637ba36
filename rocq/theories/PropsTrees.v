(** * PropsTrees: C54 (what the import command sends), C58 (cleaning up
    empty directories) *)
From Verif Require Import Base Paths PathFacts Transit TransitFacts Trees TreeFacts.
Open Scope string_scope. Open Scope list_scope.

(** Vocabulary (Trees.v, TreeFacts.v): [find root l] is the node below the root
    directory at components [l]; [proper root]: the names in each directory are
    distinct and ordinary (not empty, ".", ".." and without "/"); [abs l] is the
    absolute path "/l1/l2/..."; [kind n l] says what is at [l]: nothing, or
    (is it a directory, is it readable). *)

(** ** C54 *)
(** For every file system, working directory, repository and non-empty list of
    arguments: the command sends nothing exactly if some argument does not exist
    or something at or below it cannot be read; otherwise it sends one request
    for that repository, naming exactly the files at or below an argument
    whose name ends in x86_64.eopkg, by their absolute path. *)
Theorem C54_sends_exactly_the_packages :
  forall root cwd repo paths,
    proper root -> has_prefix "/" cwd = true -> paths <> [] ->
    let dir a := comps (filepath_abs cwd a) in
    let fails a := find root (dir a) = None
                   \/ exists q m, find root (dir a ++ q) = Some m /\ readable m = false in
    match import_request root cwd (repo :: paths) with
    | None => exists a, In a paths /\ fails a
    | Some (r, sent) =>
        r = repo
        /\ (forall a, In a paths -> ~ fails a)
        /\ forall p, In p sent <->
             exists a q, In a paths /\ p = abs (dir a ++ q)
               /\ find root (dir a ++ q) = Some (File true)
               /\ has_suffix "x86_64.eopkg" (last (dir a ++ q) "") = true
    end.
Proof.
  intros root cwd repo paths P C N dir fails. unfold import_request. destruct paths as [|a paths]; [congruence|].
  pose proof (collect_spec root cwd (a :: paths) P C) as S. cbv zeta in S. destruct (collect root cwd (a :: paths)) as [l|]; [|exact S].
  destruct S as [S1 S2]. split; [reflexivity|]. split; [|exact S2].
  intros b Hb [H|(q & m & Q & R)]; destruct (S1 b Hb) as [H1 H2]; [contradiction|]. rewrite (H2 q m Q) in R. discriminate.
Qed.

(** Without a repository and at least one path nothing is sent. *)
Theorem C54_needs_two_arguments :
  forall root cwd args, List.length args < 2 -> import_request root cwd args = None.
Proof. intros root cwd [|a [|b args]]; cbn; [reflexivity|reflexivity|]. intros H. exfalso. lia. Qed.

(** A delta is never sent, however it is named on the command line. *)
Theorem C54_never_a_delta :
  forall root cwd repo paths r sent p,
    proper root -> has_prefix "/" cwd = true ->
    import_request root cwd (repo :: paths) = Some (r, sent) -> In p sent ->
    has_suffix ".delta.eopkg" p = false.
Proof.
  intros root cwd repo paths r sent p P C E I. destruct paths as [|a0 paths]; [discriminate|].
  pose proof (C54_sends_exactly_the_packages root cwd repo (a0 :: paths) P C ltac:(discriminate)) as S. cbv zeta in S. rewrite E in S.
  destruct S as (_ & _ & S). apply S in I as (a & q & _ & -> & F & H).
  destruct (filepath_abs_abs cwd a C) as (l & Fl & El). rewrite El, comps_abs in * by exact Fl.
  destruct (has_suffix ".delta.eopkg" (abs (l ++ q))) eqn:D; [|reflexivity]. exfalso.
  apply has_suffix_spec in H as [t Ht]. apply has_suffix_spec in D as [u Hu].
  assert (Hp : exists v, abs (l ++ q) = (v ++ last (l ++ q) "")%string).
  { destruct (l ++ q) as [|z k] using rev_ind; [exists "/"; reflexivity|]. rewrite last_last. unfold abs. destruct k as [|y k]; [exists "/"; reflexivity|].
    exists ("/" ++ join_slash (y :: k) ++ "/")%string. rewrite join_app by discriminate. rewrite !sapp_assoc. reflexivity. }
  destruct Hp as [v Hv]. rewrite Ht in Hv. rewrite Hv, <- sapp_assoc in Hu.
  assert (L : String.length (v ++ t) = String.length u).
  { apply (f_equal String.length) in Hu. rewrite !slen_app in Hu. rewrite slen_app. cbn [String.length] in Hu. lia. }
  destruct (sapp_inj_len _ _ _ _ L Hu) as [_ X]. discriminate.
Qed.

(** Each file is named once when the command is given one path. *)
Theorem C54_each_file_once :
  forall root cwd repo path r sent,
    proper root -> has_prefix "/" cwd = true ->
    import_request root cwd [repo; path] = Some (r, sent) -> NoDup sent.
Proof.
  intros root cwd repo path r sent P C E. cbn [import_request collect] in E. unfold get_at in E.
  destruct (filepath_abs_abs cwd path C) as (l & Fl & El). rewrite El, comps_abs in E by exact Fl.
  destruct (find root l) as [n|] eqn:F; [|discriminate].
  pose proof (get_spec n l (proper_sub root l n P F) Fl) as G. destruct (get_eopkgs (abs l) n) as [fs e]. destruct e; [discriminate|].
  destruct G as [_ G]. destruct (G eq_refl) as [_ D]. injection E as <- <-. rewrite app_nil_r. exact D.
Qed.

(** Example: a build directory with a package, its delta, a log and a nested
    package; and one with a directory that cannot be read. *)
Definition builds (ok : bool) : node :=
  Dir true [("home", Dir true [("build", Dir true
    [("nano-2-2-1-x86_64.eopkg", File true); ("nano-1-2-1-x86_64.delta.eopkg", File true); ("log.txt", File true);
     ("old", Dir ok [("nano-1-1-1-x86_64.eopkg", File true)])])])].
Example C54_case :
  proper (builds true) /\ proper (builds false)
  /\ import_request (builds true) "/home" ["unstable"; "../home/./build/"]
     = Some ("unstable", ["/home/build/nano-2-2-1-x86_64.eopkg"; "/home/build/old/nano-1-1-1-x86_64.eopkg"])
  /\ import_request (builds false) "/home" ["unstable"; "build"] = None
  /\ import_request (builds false) "/home" ["unstable"; "build/nano-2-2-1-x86_64.eopkg"]
     = Some ("unstable", ["/home/build/nano-2-2-1-x86_64.eopkg"]).
Proof.
  split; [apply properb_ok; reflexivity|]. split; [apply properb_ok; reflexivity|]. vm_compute. auto.
Qed.

(** ** C58 *)
(** Removing a package file .../a/b/f and then its empty parents. For every
    tree, every refusal of the kernel to remove a directory and every path:
    nothing but the two directories .../a/b and .../a can change; the first
    disappears only if it is empty, the second only if it has no entry, or only
    the first one and that was empty. If no error is reported they disappear
    exactly in these cases, and no error is reported when both can be listed and
    the kernel refuses nothing. *)
Theorem C58_only_empty_parents_disappear :
  forall deny root pre a b f,
    proper root -> Forall normal (pre ++ [a; b; f]) ->
    let source := pre ++ [a; b] in
    let letter := pre ++ [a] in
    let source_goes := empty_dir root source in
    let letter_goes := (exists r, kind root letter = Some (true, r))
        /\ forall x, kind root (letter ++ [x]) <> None -> x = b /\ source_goes in
    let '(root', ok) := remove_package_parents deny root (abs (pre ++ [a; b; f])) in
    (forall q, q <> source -> q <> letter -> kind root' q = kind root q)
    /\ (kind root' source = kind root source \/ (kind root' source = None /\ source_goes))
    /\ (kind root' letter = kind root letter \/ (kind root' letter = None /\ letter_goes))
    /\ (ok = true -> (kind root' source = None <-> source_goes) /\ (kind root' letter = None <-> letter_goes))
    /\ (kind root source = Some (true, true) -> kind root letter = Some (true, true) ->
        deny (abs source) = false -> deny (abs letter) = false -> ok = true).
Proof.
  intros deny root pre a b f P F source letter source_goes letter_goes. unfold remove_package_parents. cbv zeta.
  assert (Es : pre ++ [a; b; f] = source ++ [f]) by (unfold source; rewrite <- app_assoc; reflexivity).
  assert (El : source = letter ++ [b]) by (unfold source, letter; rewrite <- app_assoc; reflexivity).
  rewrite Es in F |- *.
  assert (Fs : Forall normal source) by (apply Forall_app in F as [F _]; exact F).
 rewrite (dirname_abs source f) by (exact F || (unfold source; destruct pre; discriminate)).
  assert (Ed : dirname (abs source) = abs letter).
  { rewrite El. apply dirname_abs; [unfold letter; destruct pre; discriminate|rewrite <- El; exact Fs]. }
  rewrite Ed.
  assert (Fl : Forall normal letter) by (rewrite El in Fs; apply Forall_app in Fs as [Fs _]; exact Fs).
  assert (Dls : letter <> source).
  { rewrite El. intros E. apply (f_equal (@List.length string)) in E. rewrite app_length in E. cbn [List.length] in E. lia. }
  pose proof (remove_if_empty_spec deny root source P Fs) as S1.
  destruct (remove_if_empty deny root (abs source)) as [r1 ok1]. destruct S1 as (P1 & C1 & O1 & N1 & I1).
  destruct ok1.
  2:{ specialize (N1 eq_refl). subst r1. split; [reflexivity|]. split; [left; reflexivity|]. split; [left; reflexivity|]. split; [discriminate|].
    intros H1 H2 H3 H4. apply I1. split; [exact H1|]. intros _. split; [unfold source; destruct pre; discriminate|exact H3]. }
  destruct (O1 eq_refl) as [D1 G1]. fold source_goes in G1.
  pose proof (remove_if_empty_spec deny r1 letter P1 Fl) as S2.
  destruct (remove_if_empty deny r1 (abs letter)) as [r2 ok2]. destruct S2 as (P2 & C2 & O2 & N2 & I2).
  assert (K1 : forall q, q <> source -> kind r1 q = kind root q).
  { destruct C1 as [->|(_ & _ & _ & K)]; [reflexivity|]. intros q Hq. rewrite K. destruct (list_eqb_spec q source); [contradiction|reflexivity]. }
  assert (K1s : kind r1 source = kind root source \/ kind r1 source = None).
  { destruct C1 as [->|(_ & _ & _ & K)]; [left; reflexivity|]. right. rewrite K. destruct (list_eqb_spec source source); [reflexivity|congruence]. }
  assert (K2 : forall q, q <> letter -> kind r2 q = kind r1 q).
  { destruct C2 as [->|(_ & _ & _ & K)]; [reflexivity|]. intros q Hq. rewrite K. destruct (list_eqb_spec q letter); [contradiction|reflexivity]. }
  assert (EL : empty_dir r1 letter <-> letter_goes).
  { unfold empty_dir, letter_goes. rewrite (K1 letter Dls). split.
    - intros [Hd He]. split; [exact Hd|]. intros x Hx. specialize (He x). destruct (list_eqb_spec (letter ++ [x]) source) as [E|E].
      + rewrite El in E. apply app_inv_head in E. injection E as ->. split; [reflexivity|]. apply G1. rewrite El. exact He.
      + rewrite (K1 _ E) in He. contradiction.
    - intros [Hd He]. split; [exact Hd|]. intros x. destruct (list_eqb_spec (letter ++ [x]) source) as [E|E].
      + rewrite E. apply G1. destruct D1 as [rb D1]. rewrite El in E. apply app_inv_head in E. injection E as ->.
        destruct (He b); [rewrite <- El; congruence|assumption].
      + rewrite (K1 _ E). destruct (kind root (letter ++ [x])) eqn:Kx; [|reflexivity]. exfalso. destruct (He x) as [-> _]; [congruence|].
        apply E. symmetry. exact El. }
  assert (Gs : kind r2 source = None <-> source_goes) by (rewrite (K2 source) by congruence; exact G1).
  split; [intros q H1 H2; rewrite (K2 q H2); apply K1, H1|].
  split.
  { rewrite (K2 source) by congruence. destruct K1s as [E|E]; [left; exact E|]. right. split; [exact E|]. apply G1, E. }
  split.
  { destruct C2 as [->|(_ & Em & _ & K)]; [left; apply K1, Dls|]. right. split; [|apply EL, Em]. rewrite K. destruct (list_eqb_spec letter letter); [reflexivity|congruence]. }
  split.
  2:{ intros H1 H2 H3 H4. apply I2. rewrite (K1 letter Dls). split; [exact H2|]. intros _. split; [unfold letter; destruct pre; discriminate|exact H4]. }
  intros ->. split; [exact Gs|]. destruct (O2 eq_refl) as [_ G2]. rewrite G2. exact EL.
Qed.

(** Example: the pool after its only nano package was unlinked; bash stays. *)
Definition pool_tree (extra : list (string * node)) : node :=
  Dir true [("pool", Dir true [("n", Dir true [("nano", Dir true extra)]); ("b", Dir true [("bash", Dir true [("bash.eopkg", File true)])])])].
Definition nobody (_ : string) : bool := false.
Example C58_case :
  remove_package_parents nobody (pool_tree []) "/pool/n/nano/nano.eopkg"
    = (Dir true [("pool", Dir true [("b", Dir true [("bash", Dir true [("bash.eopkg", File true)])])])], true)
  /\ remove_package_parents nobody (pool_tree [("x", File true)]) "/pool/n/nano/nano.eopkg" = (pool_tree [("x", File true)], true)
  /\ remove_package_parents (seqb "/pool/n/nano") (pool_tree []) "/pool/n/nano/nano.eopkg" = (pool_tree [], false)
  /\ proper (pool_tree []) /\ Forall normal ["pool"; "n"; "nano"; "nano.eopkg"].
Proof.
  split; [vm_compute; reflexivity|]. split; [vm_compute; reflexivity|]. split; [vm_compute; reflexivity|].
  split; [apply properb_ok; reflexivity|apply normalbs_ok; reflexivity].
Qed.

Print Assumptions C54_sends_exactly_the_packages.
Print Assumptions C54_needs_two_arguments.
Print Assumptions C54_never_a_delta.
Print Assumptions C54_each_file_once.
Print Assumptions C58_only_empty_parents_disappear.
