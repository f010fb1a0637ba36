(** * PropsFiles: properties C26, C27, C44, C45, C56 (files, paths, reading, skip records) *)
From Verif Require Import Model Spec Demo DemoOk DbInv DbOps Wp FsInv History Keep PathFacts Reading.
Open Scope string_scope. Open Scope list_scope.
Ltac here := vm_compute; reflexivity.

(** ** C26 *)
Definition content (s : state) (l : loc) : option string := file_content (st_fs s) l.
(** two names of one file on disk (the same name or hard links) *)
Definition same_file (s : state) (a b : loc) : Prop := exists i, f_name (st_fs s) a = Some i /\ f_name (st_fs s) b = Some i.

Lemma write_content f i v l : file_content (fs_write f i v) l = match f_name f l with Some j => Some (if Nat.eqb j i then v else f_data f j) | None => None end.
Proof. reflexivity. Qed.

(** Placing a file always reports success. If source and destination are
    different files the destination then has the source's content, and every file
    that is not the destination (under whatever name) is as before. If they are
    one file its content is gone. If the source is missing nothing happens. *)
Theorem C26_placing_exact :
  forall E cat s src dst, good_catalog cat -> good_env E -> reachable E cat s ->
    let x := link_or_copy E src dst s in
    let s' := final_of x in
    result_of x = Ok tt /\ st_db s' = st_db s /\
    (content s src = None -> s' = s) /\
    (forall c, content s src = Some c -> ~ same_file s src dst ->
       content s' dst = Some c /\ content s' src = Some c /\
       forall l, l <> dst -> ~ same_file s l dst -> content s' l = content s l) /\
    (same_file s src dst -> content s' src = Some "" /\ content s' dst = Some "").
Proof.
  intros E cat s src dst Hc HE (h & Hh & ->) x s'. set (s := run_history E h) in *.
  pose proof (fo_next _ _ _ (i_fs _ _ _ _ _ _ (hist_inv E cat Hc HE h Hh))) as Nx. fold s in Nx.
  clearbody s. clear h Hh. subst s' x. unfold link_or_copy, content, same_file. rewrite bind_gets.
  destruct (can_link E (st_fs s) src dst) eqn:L.
  - unfold can_link in L. destruct (f_name (st_fs s) src) as [i|] eqn:Gs; [|discriminate].
    destruct (f_name (st_fs s) dst) as [j|] eqn:Gd; [discriminate|].
    cbn [durable result_of final_of fst snd]. split; [reflexivity|]. split; [reflexivity|].
    split; [unfold file_content; rewrite Gs; discriminate|]. split.
    + intros c Hc' _. unfold on_fs. cbn [st_fs]. rewrite !fs_set_name_content, loc_eqb_refl, Gs.
      unfold file_content in Hc'. rewrite Gs in Hc'. split; [exact Hc'|]. split.
      * destruct (loc_eqb_spec src dst) as [->|]; [exact Hc'|]. unfold file_content. rewrite Gs. exact Hc'.
      * intros l Nl _. rewrite fs_set_name_content. destruct (loc_eqb_spec l dst); [congruence|reflexivity].
    + intros (k & _ & K). congruence.
  - unfold copy_file. rewrite bind_gets. destruct (f_name (st_fs s) src) as [i|] eqn:Gs.
    2:{ cbn [ret result_of final_of fst snd]. split; [reflexivity|]. split; [reflexivity|]. split; [reflexivity|].
        split; [intros c Hc'; unfold file_content in Hc'; rewrite Gs in Hc'; discriminate|]. intros (k & K & _). congruence. }
    destruct (f_name (st_fs s) dst) as [j|] eqn:Gd.
    + unfold bind, durable. cbn [result_of final_of fst snd]. unfold on_fs. cbn [st_fs st_db]. cbn [fs_write f_name f_data]. rewrite Gd.
      split; [reflexivity|]. split; [reflexivity|]. split; [unfold file_content; rewrite Gs; discriminate|].
      unfold dupd at 1 2 3 4 5. split.
      * intros c Hc' D. assert (Nij : i <> j) by (intros ->; apply D; exists j; auto).
        unfold file_content in *. cbn [fs_write f_name f_data]. rewrite Gs in *. rewrite Gd. unfold dupd.
        rewrite Nat.eqb_refl, (proj2 (Nat.eqb_neq i j) Nij). split; [exact Hc'|]. split; [exact Hc'|].
        intros l Nl Dl. destruct (f_name (st_fs s) l) as [k|] eqn:Gl; [|reflexivity].
        destruct (Nat.eqb_spec k j) as [->|]; [|reflexivity]. destruct Dl. exists j. auto.
      * intros (k & K1 & K2). assert (i = j) as -> by congruence.
        unfold file_content. cbn [fs_write f_name f_data]. rewrite Gs, Gd. unfold dupd. rewrite Nat.eqb_refl. auto.
    + unfold bind, durable. cbn [result_of final_of fst snd]. unfold on_fs. cbn [st_fs st_db]. cbn [fs_create f_name f_data]. rewrite nupd_eq.
      split; [reflexivity|]. split; [reflexivity|]. split; [unfold file_content; rewrite Gs; discriminate|].
      pose proof (Nx _ _ Gs) as Li. split; [|intros (k & _ & K); congruence].
      intros c Hc' _. unfold file_content in *. cbn [fs_create fs_write f_name f_data]. rewrite Gs in Hc'.
      assert (Nsd : src <> dst) by congruence. rewrite nupd_eq, (nupd_ne _ _ _ _ Nsd), Gs. unfold dupd. rewrite Nat.eqb_refl.
      destruct (Nat.eqb_spec i (f_next (st_fs s))); [lia|]. split; [exact Hc'|]. split; [exact Hc'|].
      intros l Nl _. rewrite (nupd_ne _ _ _ _ Nl). destruct (f_name (st_fs s) l) as [k|] eqn:Gl; [|reflexivity].
      pose proof (Nx _ _ Gl). destruct (Nat.eqb_spec k (f_next (st_fs s))); [lia|reflexivity].
Qed.
Print Assumptions C26_placing_exact.
Example C26_demo : let s := run_history (demo_env false) h_two in
  content s (ext "nano-1.eopkg") = Some "nano1" /\ content s (Loc TPool "n/nano" "nano-1.eopkg") = Some "nano1" /\
  ~ same_file s (ext "nano-1.eopkg") (Loc TPool "n/nano" "nano-1.eopkg").
Proof. split; [here|]. split; [here|]. intros (i & A & B). vm_compute in A, B. congruence. Qed.
(** C26 is false as stated: success is reported for a missing source, and for two
    hard links to one file, whose content is then lost. *)
Theorem C26_placing_refuted :
  exists E cat s a b c d, good_catalog cat /\ good_env E /\ reachable_completed E cat s /\
    content s a = None /\ result_of (link_or_copy E a b s) = Ok tt /\ content (final_of (link_or_copy E a b s)) b = None /\
    content s c = Some "nano1" /\ content s d = Some "nano1" /\ result_of (link_or_copy E c d s) = Ok tt /\
    content (final_of (link_or_copy E c d s)) c = Some "" /\ content (final_of (link_or_copy E c d s)) d = Some "".
Proof.
  exists (demo_env true), demo_cat, (run_history (demo_env true) h_two), (ext "missing.eopkg"), (Loc TPool "m/misc" "missing.eopkg"),
    (Loc TPool "n/nano" "nano-1.eopkg"), (Loc (TRepo "unstable") "n/nano" "nano-1.eopkg").
  split; [apply demo_cat_good|]. split; [apply demo_env_good|]. split.
  { exists h_two. split; [apply h_two_good|]. split; [apply h_two_crash_free|reflexivity]. }
  repeat split; here.
Qed.
Print Assumptions C26_placing_refuted.

(** ** C27 *)
(** the uploader writes into its file, keeping the inode *)
Definition edit_in_place (l : loc) (c : string) (s : state) : state :=
  on_fs (fun f => match f_name f l with Some i => fs_write f i c | None => f end) s.
(** False when the upload area is on the pool's filesystem: the pool and the
    repository hold hard links to the uploaded file. *)
Theorem C27_independence_refuted :
  exists E cat s l r id, good_catalog cat /\ good_env E /\ reachable_completed E cat s /\ upload_tree (l_tree l) = true /\
    available s r id /\ repo_file s r "n/nano" id = Some "nano1" /\
    let s' := edit_in_place l "garbage" s in
    available s' r id /\ repo_file s' r "n/nano" id = Some "garbage" /\ pool_at s' id = pool_at s id.
Proof.
  exists (demo_env true), demo_cat, (run_history (demo_env true) h_two), (ext "nano-1.eopkg"), "stable", "nano-1.eopkg".
  split; [apply demo_cat_good|]. split; [apply demo_env_good|]. split.
  { exists h_two. split; [apply h_two_good|]. split; [apply h_two_crash_free|reflexivity]. }
  split; [reflexivity|]. split; [exists "nano"; eexists; split; [here|left; reflexivity]|]. split; [here|].
  intros s'. split; [exists "nano"; eexists; split; [here|left; reflexivity]|]. split; here.
Qed.
Print Assumptions C27_independence_refuted.

Section Separate.
Variable E : env.
Hypothesis Sep : forall t t', upload_tree t = true -> E_linkable E t t' = false.
Definition sep (s : state) : Prop :=
  (forall l i, f_name (st_fs s) l = Some i -> i < f_next (st_fs s)) /\
  (forall l l' i, upload_tree (l_tree l) = true -> upload_tree (l_tree l') = false -> f_name (st_fs s) l = Some i -> f_name (st_fs s) l' <> Some i).
Lemma sep_fs s t : st_fs t = st_fs s -> sep s -> sep t.
Proof. intros Ef H. unfold sep. rewrite Ef. exact H. Qed.
Lemma sep_shrink g s : drops g -> sep s -> sep (on_fs g s).
Proof.
  intros D [A B]. destruct (D (st_fs s)) as (_ & Dn & Dl). unfold sep. cbn [on_fs st_fs]. rewrite Dn. split.
  - intros l i G. destruct (Dl l) as [X|X]; [|congruence]. apply (A l). congruence.
  - intros l l' i U U' G. destruct (Dl l) as [X|X]; [|congruence]. destruct (Dl l') as [X'|X']; [|congruence].
    rewrite X'. apply (B l l' i U U'). congruence.
Qed.
Lemma sep_create l c s : sep s -> sep (on_fs (fun f => fs_create f l c) s).
Proof.
  intros [A B]. unfold sep. cbn [on_fs st_fs fs_create f_name f_next]. split.
  - intros x i. unfold nupd. destruct (loc_eqb x l); [intros H; injection H as <-; lia|]. intros H. apply A in H. lia.
  - intros x y i U U'. unfold nupd. destruct (loc_eqb_spec x l) as [->|], (loc_eqb_spec y l) as [->|]; try congruence.
    + intros H; injection H as <-. intros H'. apply A in H'. lia.
    + intros H H'. injection H' as <-. apply A in H. lia.
    + apply B; assumption.
Qed.
Lemma sep_write i v s : sep s -> sep (on_fs (fun f => fs_write f i v) s).
Proof. intros H. exact H. Qed.
Lemma sep_link src dst : managed (l_tree dst) = true -> upload_tree (l_tree src) = true \/ l_tree src = TPool -> keeps sep (link_or_copy E src dst).
Proof.
  intros Md Ms s H. unfold link_or_copy. apply wp_bind_gets. destruct (can_link E (st_fs s) src dst) eqn:L.
  - unfold can_link in L. destruct (f_name (st_fs s) src) as [i|] eqn:Gs; [|discriminate].
    destruct (f_name (st_fs s) dst) as [j|] eqn:Gd; [discriminate|].
    destruct Ms as [U|Pl]; [rewrite (Sep _ _ U) in L; discriminate|].
    assert (Ud : upload_tree (l_tree dst) = false) by (destruct (l_tree dst); try discriminate; reflexivity).
    assert (R : sep (on_fs (fun f => fs_set_name f dst (f_name f src)) s)).
    { destruct H as [A B]. unfold sep. cbn [on_fs st_fs fs_set_name f_name f_next]. rewrite Gs. split.
      - intros l k. unfold nupd. destruct (loc_eqb l dst); [intros X; injection X as <-; exact (A _ _ Gs)|apply A].
      - intros l l' k U U'. unfold nupd. destruct (loc_eqb_spec l dst) as [->|]; [congruence|].
        intros G. destruct (loc_eqb l' dst); [|exact (B l l' k U U' G)].
        intros X; injection X as <-. apply (B l src i U); [rewrite Pl; reflexivity|exact G|exact Gs]. }
    apply wp_durable; exact R.
  - unfold copy_file. apply wp_bind_gets. destruct (f_name (st_fs s) src) as [i|] eqn:Gs; [|apply wp_ret; exact H].
    destruct (f_name (st_fs s) dst) as [j|] eqn:Gd.
    + apply wp_bind_durable; [exact H|]. apply wp_durable; (unfold sep; cbn [on_fs st_fs fs_write f_name f_next]; rewrite Gd; exact H).
    + pose proof (sep_create dst EmptyString s H) as H1. apply wp_bind_durable; [exact H1|].
      apply wp_durable; (unfold sep; cbn [on_fs st_fs fs_create fs_write f_name f_next]; rewrite nupd_eq; exact H1).
Qed.
Lemma sep_history h s : Forall (fun e => forall p, op_of e = Some p -> good_op p) h -> sep s -> sep (fold_left (ev_step E) h s).
Proof.
  apply (z_history E sep).
  - intros b o _ t H. unfold db_write. destruct (reserved (op_key o)); [apply wp_err; exact H|]. destruct b; [apply wp_vol; exact H|apply wp_durable; exact H].
  - intros m K t H. specialize (K (on_batch (fun _ => []) t) H). unfold wp, update_tx in *.
    destruct (m (on_batch (fun _ => []) t)) as [[tr s1] [a| |]]; cbn [trace_of final_of result_of fst snd] in *; destruct K as [K1 K2].
    + split; [apply Forall_app; split; [exact K1|constructor; [exact K2|constructor]]|exact K2].
    + split; [exact K1|exact K2].
    + split; [exact K1|exact K2].
  - intros id d t H. unfold mark_delta_failed. apply wp_bind_gets. destruct (mget _ _); [apply wp_ret; exact H|].
    unfold db_write. destruct (reserved _); [apply wp_err; exact H|apply wp_durable; exact H].
  - apply sep_link.
  - intros g D. apply keeps_durable. intros t. apply sep_shrink, D.
  - intros g. apply keeps_vol. intros t H. exact H.
  - intros t H. exact H.
  - intros t l c _ H. apply sep_create, H.
Qed.
End Separate.
(** It holds when uploads are on another filesystem than the pool: no edit of an
    uploaded file changes any file of the pool or of a repository. *)
Theorem C27_separate_filesystems_partial :
  forall E cat s l c, (forall t t', upload_tree t = true -> E_linkable E t t' = false) -> reachable E cat s ->
    upload_tree (l_tree l) = true ->
    st_db (edit_in_place l c s) = st_db s /\
    forall l', upload_tree (l_tree l') = false -> content (edit_in_place l c s) l' = content s l'.
Proof.
  intros E cat s l c Sep (h & Hh & ->) U. split; [unfold edit_in_place; reflexivity|].
  destruct (sep_history E Sep h init (good_ops _ _ _ Hh)) as [_ B]; [split; cbn; intros; discriminate|].
  fold (run_history E h) in B. intros l' U'. unfold edit_in_place, content, on_fs. cbn [st_fs].
  destruct (f_name (st_fs (run_history E h)) l) as [i|] eqn:G; [|reflexivity].
  rewrite write_content. unfold file_content. destruct (f_name (st_fs (run_history E h)) l') as [j|] eqn:G'; [|reflexivity].
  destruct (Nat.eqb_spec j i) as [->|]; [|reflexivity]. destruct (B l l' i U U' G G').
Qed.
Print Assumptions C27_separate_filesystems_partial.
(** And always for replacing (a new file under the name) or deleting the upload. *)
Theorem C27_replacing_is_harmless_partial :
  forall E cat s l c l', good_catalog cat -> good_env E -> reachable E cat s -> upload_tree (l_tree l) = true -> upload_tree (l_tree l') = false ->
    content (ev_step E s (EvPut l c)) l' = content s l' /\ content (ev_step E s (EvDel l)) l' = content s l' /\
    st_db (ev_step E s (EvPut l c)) = st_db s /\ st_db (ev_step E s (EvDel l)) = st_db s.
Proof.
  intros E cat s l c l' Hc HE (h & Hh & ->) U U'. pose proof (i_fs _ _ _ _ _ _ (hist_inv E cat Hc HE h Hh)) as F.
  assert (N : l' <> l) by congruence. cbn [ev_step].
  destruct (l_tree l) eqn:T; try discriminate; unfold content, on_fs; cbn [st_fs st_db];
    rewrite (fs_create_content E cat) by exact F; rewrite fs_set_name_content; destruct (loc_eqb_spec l' l); try congruence; auto.
Qed.
Print Assumptions C27_replacing_is_harmless_partial.
Example C27_demo : (forall t t', upload_tree t = true -> E_linkable (demo_env false) t t' = false) /\
  content (edit_in_place (ext "nano-1.eopkg") "garbage" (run_history (demo_env false) h_two)) (ext "nano-1.eopkg") = Some "garbage" /\
  repo_file (edit_in_place (ext "nano-1.eopkg") "garbage" (run_history (demo_env false) h_two)) "stable" "n/nano" "nano-1.eopkg" = Some "nano1".
Proof. split; [reflexivity|]. split; here. Qed.

(** ** C44 *)
(** pool.go:143-147 GetMetaPoolPath, repo.go:675-676: the path of a package file
    below the root of a tree *)
Definition package_path (root source_name id : string) : res string :=
  match path_component source_name with
  | Ok comp => Ok (join (join root comp) id)
  | Err => Err | Panic => Panic
  end.
(** [p] is root/x1/.../xn/id with ordinary x1..xn *)
Definition below (root : list string) (id p : string) : Prop := exists mid, Forall normal mid /\ p = abs (root ++ mid ++ [id]).

Lemma lower_slash c : Ascii.eqb (lower_ascii c) slash = Ascii.eqb c slash.
Proof. destruct c as [[] [] [] [] [] [] [] []]; reflexivity. Qed.
Lemma split_lower s : split_slash (to_lower s) = map to_lower (split_slash s).
Proof.
  induction s as [|c s IH]; [reflexivity|]. cbn [to_lower split_slash]. rewrite lower_slash. destruct (Ascii.eqb c slash); [cbn [map to_lower]; rewrite IH; reflexivity|].
  rewrite IH. destruct (split_slash s); reflexivity.
Qed.
Lemma lower_dots x : to_lower x = ".." -> x = "..".
Proof.
  assert (D : forall c, lower_ascii c = "."%char -> c = "."%char) by (intros c; destruct c as [[] [] [] [] [] [] [] []]; vm_compute; congruence).
  destruct x as [|a [|b [|c x]]]; try discriminate. cbn [to_lower]. intros H. injection H as A B. apply D in A, B. subst. reflexivity.
Qed.
Lemma lower_noup s : ~ In ".." (split_slash s) -> ~ In ".." (split_slash (to_lower s)).
Proof. intros N H. rewrite split_lower in H. apply in_map_iff in H as (x & E & Hx). apply lower_dots in E. subst. contradiction. Qed.
Lemma lower_empty s : to_lower s = "" -> s = "".
Proof. destruct s; [reflexivity|discriminate]. Qed.
Lemma noup_join a b : a <> "" -> b <> "" -> ~ In ".." (split_slash a) -> ~ In ".." (split_slash b) ->
  ~ In ".." (split_slash (join a b)) /\ Forall normal (filter keepc (split_slash (join a b))).
Proof.
  intros Na Nb Ua Ub. unfold join. destruct (seqb_spec a ""); [congruence|]. destruct (seqb_spec b ""); [congruence|].
  assert (U : ~ In ".." (split_slash (a ++ "/" ++ b))) by (rewrite split_app; intros H; apply in_app_iff in H as [H|H]; contradiction).
  destruct (clean_comps _ U) as [A _]. split; [exact A|]. apply keepc_normal; [exact A|apply split_no_slash].
Qed.
Lemma letter_noup a : ~ In ".." (split_slash (String a "")).
Proof. cbn [split_slash]. destruct (Ascii.eqb a slash); intros H; repeat (destruct H as [H|H]; [discriminate|]); exact H. Qed.
Lemma lib_noup a : ~ In ".." (split_slash ("lib" ++ String a "")).
Proof. cbn [append split_slash]. change (Ascii.eqb "l" slash) with false. change (Ascii.eqb "i" slash) with false. change (Ascii.eqb "b" slash) with false. cbn match.
  destruct (Ascii.eqb a slash); cbn match; intros H; repeat (destruct H as [H|H]; [discriminate|]); exact H. Qed.

(** A source name without a component ".." and an ordinary file name give a path
    below the root, ending in that file name. *)
Theorem C44_inside_partial :
  forall root source id, root <> [] -> Forall normal root -> source <> "" -> ~ In ".." (split_slash source) -> normal id ->
    exists p, package_path (abs root) source id = Ok p /\ below root id p /\ base p = id.
Proof.
  intros root source id Nr Fr Ns Us Hid. unfold package_path, path_component.
  assert (Nl : to_lower source <> "") by (intros X; apply Ns, lower_empty, X).
  pose proof (lower_noup source Us) as Ul. set (nom := to_lower source) in *. clearbody nom.
  destruct (seqb_spec nom ""); [congruence|].
  assert (W : exists c, (if has_prefix "lib" nom && (Nat.ltb 3 (String.length nom)) then Ok (join (stake 4 nom) nom) else Ok (join (stake 1 nom) nom)) = Ok c /\
    ~ In ".." (split_slash c) /\ Forall normal (filter keepc (split_slash c))).
  { destruct (has_prefix "lib" nom && (Nat.ltb 3 (String.length nom))) eqn:C.
    - apply andb_true_iff in C as [C1 C2]. apply has_prefix_spec in C1 as (t & ->). destruct t as [|a t]; [discriminate|].
      eexists. split; [reflexivity|]. change (stake 4 ("lib" ++ String a t)) with ("lib" ++ String a (stake 0 t))%string. cbn [stake].
      apply noup_join; [discriminate|exact Nl|apply lib_noup|exact Ul].
    - destruct nom as [|a t]; [congruence|]. eexists. split; [reflexivity|]. cbn [stake]. apply noup_join; [discriminate|exact Nl|apply letter_noup|exact Ul]. }
  destruct W as (c & -> & Uc & Fc). rewrite (join_inside root c Nr Fr Uc).
  assert (Nr' : root ++ filter keepc (split_slash c) <> []) by (destruct root; [congruence|discriminate]).
  assert (Hs : split_slash id = [id]) by (apply split_one; destruct Hid as (_ & _ & _ & H); exact H).
  rewrite join_inside; [|exact Nr'|apply Forall_app; auto|rewrite Hs; intros [H|[]]; destruct Hid as (_ & _ & X & _); congruence].
  rewrite Hs. cbn [filter]. destruct Hid as (I1 & I2 & I3 & I4). unfold keepc at 2.
  destruct (seqb_spec id ""); [congruence|]. destruct (seqb_spec id "."); [congruence|]. cbn [orb negb].
  eexists. split; [reflexivity|]. split.
  - exists (filter keepc (split_slash c)). split; [exact Fc|]. rewrite <- app_assoc. reflexivity.
  - apply base_abs. repeat split; assumption.
Qed.
Print Assumptions C44_inside_partial.
Example C44_demo : Forall normal ["var"; "lib"; "ferryd"; "repo"; "unstable"] /\
  package_path "/var/lib/ferryd/repo/unstable" "LibreOffice" "libreoffice-1.eopkg" = Ok "/var/lib/ferryd/repo/unstable/libr/libreoffice/libreoffice-1.eopkg".
Proof. split; [repeat constructor; discriminate|here]. Qed.
(** C44 is false for a source name that goes up: the package file is placed
    outside the tree, wherever the uploader likes. *)
Theorem C44_outside_refuted :
  package_path "/var/lib/ferryd/repo/unstable" ".." "evil.eopkg" = Ok "/var/lib/ferryd/repo/evil.eopkg" /\
  package_path "/var/lib/ferryd/repo/unstable" "x/../../../../../../../etc" "evil.eopkg" = Ok "/etc/evil.eopkg" /\
  ~ below ["var"; "lib"; "ferryd"; "repo"; "unstable"] "evil.eopkg" "/etc/evil.eopkg".
Proof.
  split; [here|]. split; [here|]. intros (mid & _ & E).
  apply (f_equal (fun x => has_prefix "/v" x)) in E. vm_compute in E. discriminate.
Qed.
Print Assumptions C44_outside_refuted.

(** ** C45 *)
(** Reading metadata panics exactly when the XML has no Summary or no Description. *)
Theorem C45_reading_exact :
  forall put d, read_metadata put d = Panic <-> exists x, d = Some x /\ (dc_summary x = [] \/ dc_descr x = []).
Proof.
  intros put [[su de m]|]; cbn [read_metadata dc_summary dc_descr]; [|split; [discriminate|intros (x & H & _); discriminate]].
  destruct su as [|f su]; [split; [intros _; eexists; split; [reflexivity|left; reflexivity]|reflexivity]|].
  destruct de as [|g de]; cbn; [split; [intros _; eexists; split; [reflexivity|right; reflexivity]|reflexivity]|].
  split; [discriminate|]. intros (x & H & [X|X]); injection H as <-; discriminate.
Qed.
Print Assumptions C45_reading_exact.
(** Otherwise an import panics only for an empty source name, or a missing history
    of the package or of the published package of that name. *)
Theorem C45_import_partial :
  forall E s r src strict, result_of (add_package E r src strict s) = Panic ->
    exists c, content s src = Some c /\
      (E_parse E c = Panic \/
       exists m, E_parse E c = Ok m /\
         (m_src m = "" \/ m_hist m = [] \/
          exists e p, entry_at s r (m_name m) = Some e /\ pool_at s (e_pub e) = Some p /\ m_hist (p_meta p) = [])).
Proof.
  intros E s r src strict. unfold add_package, open_pkg, content.
  rewrite bind_assoc, bind_gets. destruct (file_content (st_fs s) src) as [c|]; [|discriminate].
  destruct (E_parse E c) as [m| |] eqn:Pc; [|discriminate|intros _; exists c; split; [reflexivity|left; exact Pc]].
  rewrite bind_lift_ok. intros H. exists c. split; [reflexivity|]. right. exists m. split; [exact Pc|].
  destruct (m_hist m) as [|u hi] eqn:Hm; [right; left; reflexivity|].
  destruct (String.string_dec (m_src m) "") as [Es|Ns]; [left; exact Es|]. right. right.
  assert (Pcomp : exists comp, path_component (m_src m) = Ok comp).
  { unfold path_component. destruct (seqb_spec (to_lower (m_src m)) "") as [X|]; [apply lower_empty in X; congruence|].
    destruct (_ && _); eexists; reflexivity. }
  destruct Pcomp as (comp & Ec).
  assert (NP : forall s' x, result_of (pool_add_internal E src m x s') <> Panic).
  { intros s' x. unfold pool_add_internal, pool_get. rewrite bind_gets. destruct (mget _ _) as [p|].
    - unfold db_write. destruct (reserved _); discriminate.
    - rewrite bind_gets. destruct (file_content (st_fs s') src); [|discriminate]. rewrite Ec, bind_lift_ok.
      assert (LK : forall a b (k : unit -> M unit) t, (forall t', result_of (k tt t') <> Panic) -> result_of (bind (link_or_copy E a b) k t) <> Panic).
      { intros a b k t K. unfold link_or_copy. rewrite bind_assoc, bind_gets. destruct (can_link _ _ _ _).
        - unfold bind, durable. specialize (K (on_fs (fun f => fs_set_name f b (f_name f a)) t)). destruct (k tt _) as [[? ?] ?]. exact K.
        - unfold copy_file. rewrite bind_assoc, bind_gets. destruct (f_name (st_fs t) a); [|rewrite bind_ret; apply K].
          rewrite bind_assoc. assert (Q : forall g h0 w, result_of (bind (durable g) (fun _ => bind (durable h0) k) w) <> Panic).
          { intros g h0 w. unfold bind, durable. specialize (K (h0 (g w))). destruct (k tt _) as [[? ?] ?]. exact K. }
          destruct (f_name (st_fs t) b); apply Q. }
      apply LK. intros t'. rewrite bind_gets. destruct (file_content (st_fs t') src) as [[|a z]|]; try discriminate.
      unfold on_err, db_write. destruct (reserved _); [unfold err; cbn; discriminate|unfold durable; cbn; discriminate]. }
  assert (LK : forall a b k t, (forall t', result_of (k tt t') <> @Panic unit) -> result_of (bind (link_or_copy E a b) k t) <> Panic).
  { intros a b k t K. unfold link_or_copy. rewrite bind_assoc, bind_gets. destruct (can_link _ _ _ _).
    - unfold bind, durable. specialize (K (on_fs (fun f => fs_set_name f b (f_name f a)) t)). destruct (k tt _) as [[? ?] ?]. exact K.
    - unfold copy_file. rewrite bind_assoc, bind_gets. destruct (f_name (st_fs t) a); [|rewrite bind_ret; apply K].
      rewrite bind_assoc. assert (Q : forall g h0 w, result_of (bind (durable g) (fun _ => bind (durable h0) k) w) <> Panic).
      { intros g h0 w. unfold bind, durable. specialize (K (h0 (g w))). destruct (k tt _) as [[? ?] ?]. exact K. }
      destruct (f_name (st_fs t) b); apply Q. }
  assert (AL : result_of (add_local_package E r src m s) = Panic -> exists e p, entry_at s r (m_name m) = Some e /\ pool_at s (e_pub e) = Some p /\ m_hist (p_meta p) = []).
  { unfold add_local_package. rewrite Ec, bind_lift_ok. unfold build_sane_entry, ent_get, pool_get.
    assert (TL : forall e0 t, result_of ((pool_add_internal E src m None ;;; link_or_copy E (pool_loc comp (l_id src)) (Loc (TRepo r) comp (l_id src)) ;;; db_write false (PutEnt r e0)) t) <> Panic).
    { intros e0 t. unfold bind at 1. pose proof (NP t None) as X. destruct (pool_add_internal E src m None t) as [[tr t1] [[]| |]]; [|discriminate|exact X].
      pose proof (LK (pool_loc comp (l_id src)) (Loc (TRepo r) comp (l_id src)) (fun _ => db_write false (PutEnt r e0)) t1) as Y.
      destruct (bind _ _ t1) as [[? ?] rr]. cbn [result_of snd] in *. apply Y. intros t'. unfold db_write. destruct (reserved _); discriminate. }
    rewrite !bind_assoc, bind_gets. unfold entry_at, pool_at. destruct (mget (d_ents (st_db s) r) (m_name m)) as [e|] eqn:Ge.
    - rewrite !bind_assoc, bind_gets. destruct (mget (d_pool (st_db s)) (e_pub e)) as [p|] eqn:Gp.
      + unfold get_release. rewrite Hm. rewrite ?bind_assoc, bind_lift_ok. destruct (m_hist (p_meta p)) as [|v vs] eqn:Hp.
        * intros _. exists e, p. auto.
        * rewrite ?bind_assoc, bind_lift_ok. rewrite ?bind_assoc, bind_ret. cbn [fst snd]. destruct (sin _ _); rewrite bind_ret; [discriminate|]. intros X. destruct (TL _ _ X).
      + rewrite ?bind_assoc, bind_ret. cbn [fst snd]. destruct (sin _ _); rewrite bind_ret; [discriminate|]. intros X. destruct (TL _ _ X).
    - rewrite ?bind_assoc, bind_ret. cbn [fst snd]. destruct (sin _ _); rewrite bind_ret; [discriminate|]. intros X. destruct (TL _ _ X). }
  destruct strict; cbn [negb] in H; [|exact (AL H)].
  unfold ent_get in H. rewrite bind_gets in H. unfold entry_at, pool_at in *.
  destruct (mget (d_ents (st_db s) r) (m_name m)) as [e|] eqn:Ge; [|exact (AL H)].
  unfold pool_get_or_err, pool_get in H. rewrite !bind_assoc, bind_gets in H.
  destruct (mget (d_pool (st_db s)) (e_pub e)) as [p|] eqn:Gp; [|discriminate].
  rewrite bind_ret in H. unfold get_release in H. destruct (m_hist (p_meta p)) as [|v vs] eqn:Hp; [exists e, p; auto|].
  rewrite bind_lift_ok, Hm, bind_lift_ok in H. destruct (Z.ltb _ _); [discriminate|]. destruct (Z.eqb _ _); [discriminate|]. exact (AL H).
Qed.
Print Assumptions C45_import_partial.
(** C45 is false: a file without a source name, without texts, or two versions of
    a package without history, and the daemon panics. *)
Definition h_bad : list event :=
  [ EvPut (ext "nosrc.eopkg") "nosrc"; EvPut (ext "nohist-1.eopkg") "nohist"; EvPut (ext "nohist-2.eopkg") "nohist";
    EvOp demo_oracle (OpCreate "unstable") ].
Theorem C45_import_refuted :
  exists E o s, good_env E /\ good_oracle o /\ s = run_history E h_bad /\
    outcome E o (OpAdd "unstable" [ext "nosrc.eopkg"] false) s = Panic /\
    outcome E o (OpAdd "unstable" [ext "nohist-1.eopkg"] false) s = Ok [] /\
    outcome E o (OpAdd "unstable" [ext "nohist-1.eopkg"; ext "nohist-2.eopkg"] false) s = Panic /\
    forall put m, read_metadata put (Some (Decoded [] [LField "text" "en"] m)) = Panic.
Proof.
  exists (demo_env true), demo_oracle. eexists. split; [apply demo_env_good|]. split; [apply demo_oracle_good|]. split; [reflexivity|].
  split; [here|]. split; [here|]. split; [here|]. reflexivity.
Qed.
Print Assumptions C45_import_refuted.

(** ** C56 *)
(** the reason recorded for a delta *)
Definition failure (s : state) (id : string) : option dinfo := option_map k_delta (mget (d_skip (st_db s)) id).
Section Skip.
Variable E : env. Variable id : string. Variable k : sentry.
Definition kept (s : state) : Prop := mget (d_skip (st_db s)) id = Some k /\ Forall not_skip (st_batch s).
Lemma apply_skip d o : not_skip o -> d_skip (apply_op d o) = d_skip d.
Proof. destruct o; try reflexivity. intros []. Qed.
Lemma fold_skip q : forall d, Forall not_skip q -> d_skip (fold_left apply_op q d) = d_skip d.
Proof. induction q as [|o q IH]; intros d F; [reflexivity|]. inversion F; subst. cbn [fold_left]. rewrite IH by assumption. apply apply_skip; assumption. Qed.
Lemma kept_fs g s : kept s -> kept (on_fs g s).
Proof. intros H. exact H. Qed.
Lemma kept_mark x d : keeps kept (mark_delta_failed x d).
Proof.
  intros t H. unfold mark_delta_failed. apply wp_bind_gets. destruct (mget (d_skip (st_db t)) x) eqn:G; [apply wp_ret; exact H|].
  unfold db_write. destruct (reserved _); [apply wp_err; exact H|].
  assert (R : kept (on_db (fun d0 => apply_op d0 (PutSkip (SEntry x d))) t)).
  { destruct H as [A B]. split; [|exact B]. cbn [on_db st_db apply_op d_skip k_name]. rewrite mget_put. destruct (seqb_spec id x) as [->|]; [congruence|exact A]. }
  apply wp_durable; exact R.
Qed.
Lemma kept_run h s : Forall (fun e => forall p, op_of e = Some p -> good_op p) h -> kept s -> kept (fold_left (ev_step E) h s).
Proof.
  apply (z_history E kept).
  - intros b o No t [A B]. unfold db_write. destruct (reserved (op_key o)); [apply wp_err; split; assumption|].
    destruct b; [apply wp_vol; split; [exact A|apply Forall_app; auto]|].
    assert (R : kept (on_db (fun d => apply_op d o) t)) by (split; [cbn [on_db st_db]; rewrite apply_skip by exact No; exact A|exact B]).
    apply wp_durable; exact R.
  - intros m K t [A B]. specialize (K (on_batch (fun _ => []) t) (conj A (Forall_nil _))). unfold wp, update_tx in *.
    destruct (m (on_batch (fun _ => []) t)) as [[tr s1] [a| |]]; cbn [trace_of final_of result_of fst snd] in *; destruct K as [K1 K2].
    + assert (R : kept (St (fold_left apply_op (st_batch s1) (st_db s1)) (st_fs s1) (st_cache s1) [])).
      { destruct K2 as [A2 B2]. split; [cbn [st_db]; rewrite fold_skip by exact B2; exact A2|constructor]. }
      split; [apply Forall_app; split; [exact K1|constructor; [exact R|constructor]]|exact R].
    + split; [exact K1|]. destruct K2. split; [assumption|constructor].
    + split; [exact K1|]. destruct K2. split; [assumption|constructor].
  - exact kept_mark.
  - intros src dst _ _ t H. unfold link_or_copy. apply wp_bind_gets. destruct (can_link _ _ _ _); [apply wp_durable; exact H|].
    unfold copy_file. apply wp_bind_gets. destruct (f_name (st_fs t) src); [|apply wp_ret; exact H].
    destruct (f_name (st_fs t) dst); (apply wp_bind_durable; [exact H|apply wp_durable; exact H]).
  - intros g D. apply keeps_durable. intros t H. exact H.
  - intros g. apply keeps_vol. intros t H. exact H.
  - intros t [A _]. split; [exact A|constructor].
  - intros t l c _ H. exact H.
Qed.
End Skip.
(** Marking a delta records the reason unless there is one already; from then on
    the delta is reported as failed, with that reason, after any further history. *)
Theorem C56_marked_stays_marked :
  forall E cat s o id d, good_catalog cat -> good_env E -> reachable E cat s -> succeeds E o (OpMarkFailed id d) s ->
    let s1 := after E o (OpMarkFailed id d) s in
    failure s1 id = Some (match failure s id with Some d0 => d0 | None => d end) /\
    (forall x, x <> id -> failure s1 x = failure s x) /\
    forall h, good_history E cat h ->
      let s2 := fold_left (ev_step E) h s1 in
      failure s2 id = failure s1 id /\ get_delta_failed s2 id = true.
Proof.
  intros E cat s o id d Hc HE (h0 & Hh0 & ->) S s1. pose proof (i_batch _ _ _ _ _ _ (hist_inv E cat Hc HE h0 Hh0)) as B.
  set (s := run_history E h0) in *. clearbody s.
  assert (W : exists k, kept id k s1 /\ k_delta k = match failure s id with Some d0 => d0 | None => d end /\ (forall x, x <> id -> failure s1 x = failure s x)).
  { unfold s1, after, succeeds, outcome, failure in *. cbn [run_op] in *. unfold mark_delta_failed in *. rewrite bind_assoc, bind_gets in *.
    destruct (mget (d_skip (st_db s)) id) as [k|] eqn:G.
    - exists k. rewrite bind_ret. cbn. split; [split; [exact G|rewrite B; constructor]|]. auto.
    - unfold db_write in *. destruct (reserved _) in *; [destruct S; discriminate|]. exists (SEntry id d). unfold bind, durable, ret, on_db. cbn [final_of fst snd].
      unfold kept. cbn [st_db st_batch apply_op d_skip k_name k_delta]. rewrite mget_put, seqb_refl, B. split; [split; [reflexivity|constructor]|]. split; [reflexivity|].
      intros x Nx. rewrite mget_put. destruct (seqb_spec x id); [congruence|reflexivity]. }
  destruct W as (k & K & Ek & Ex). split; [unfold failure at 1; rewrite (proj1 K); cbn; rewrite Ek; reflexivity|]. split; [exact Ex|].
  intros h Hh s2. pose proof (kept_run E id k h s1 (good_ops _ _ _ Hh) K) as [K2 _]. unfold failure, get_delta_failed, mhas. fold s2 in K2. rewrite K2, (proj1 K). auto.
Qed.
Print Assumptions C56_marked_stays_marked.
Example C56_demo : let s := run_history (demo_env true) h_two in
  let p := OpMarkFailed "nano-1-2.delta.eopkg" (DInfo 1 "nano-1.eopkg" 2 "nano-2.eopkg") in
  succeeds (demo_env true) demo_oracle p s /\ failure s "nano-1-2.delta.eopkg" = None /\
  get_delta_failed (fold_left (ev_step (demo_env true)) [EvOp demo_oracle (OpDelete "unstable"); EvRestart] (after (demo_env true) demo_oracle p s)) "nano-1-2.delta.eopkg" = true.
Proof. split; [exists []; here|]. split; here. Qed.
