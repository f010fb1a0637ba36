(** * PropsDelta: properties C41-C43 (delta names, possibility, contents) *)
From Verif Require Import Model.
From Verif Require Import Base LibDb Jobs JobSpec JobFacts JobFacts2 PropsJobs Dispatch PropsDispatch DeltaProd.
Open Scope string_scope. Open Scope list_scope.

(** ** C41: names *)
Fixpoint has_dash (s : string) : bool :=
  match s with EmptyString => false | String c s' => Ascii.eqb c "-" || has_dash s' end.

Lemma has_dash_app a b : has_dash (a ++ b) = has_dash a || has_dash b.
Proof. induction a as [|c a IH]; cbn [append has_dash]; [reflexivity|rewrite IH; apply orb_assoc]. Qed.
(** the text after the last dash determines the split *)
Lemma split_last a b c d : has_dash b = false -> has_dash d = false ->
  (a ++ "-" ++ b = c ++ "-" ++ d)%string -> a = c /\ b = d.
Proof.
  intros Hb Hd. revert c; induction a as [|x a IH]; intros [|y c] H.
  - cbn [append] in H. injection H as ->. auto.
  - cbn [append] in H. injection H as <- H. subst b. rewrite has_dash_app in Hb. cbn [append has_dash] in Hb.
    change (Ascii.eqb "-" "-") with true in Hb. cbn [orb] in Hb. rewrite orb_true_r in Hb. discriminate.
  - cbn [append] in H. injection H as -> H. subst d. rewrite has_dash_app in Hd. cbn [append has_dash] in Hd.
    change (Ascii.eqb "-" "-") with true in Hd. cbn [orb] in Hd. rewrite orb_true_r in Hd. discriminate.
  - cbn [append] in H. injection H as -> H. destruct (IH c H) as [-> ->]. auto.
Qed.
Lemma digit_no_dash n : (n < 10)%N -> Ascii.eqb (digit n) "-" = false.
Proof. intros L. apply digit_not_sign, digit_is_digit, L. Qed.
Lemma digits_no_dash f : forall n acc, has_dash acc = false -> has_dash (digits f n acc) = false.
Proof.
  induction f as [|f IH]; intros n acc H; cbn [digits]; [exact H|].
  destruct (N.ltb_spec n 10) as [L|L].
  - cbn [has_dash]. rewrite (digit_no_dash n L), H. reflexivity.
  - apply IH. cbn [has_dash]. rewrite digit_no_dash, H; [reflexivity|apply N.mod_lt; discriminate].
Qed.
Lemma print_N_no_dash n : has_dash (print_N n) = false.
Proof. apply digits_no_dash. reflexivity. Qed.
Lemma print_N_inj a b : print_N a = print_N b -> a = b.
Proof. intros H. pose proof (parse_print_N a) as P. rewrite H, parse_print_N in P. congruence. Qed.
Lemma print_int_no_dash z : (0 <= z)%Z -> has_dash (print_int z) = false.
Proof. intros L. unfold print_int. rewrite (proj2 (Z.ltb_ge _ _) L). apply print_N_no_dash. Qed.
Lemma print_int_inj a b : (0 <= a)%Z -> (0 <= b)%Z -> print_int a = print_int b -> a = b.
Proof.
  intros La Lb. unfold print_int. rewrite (proj2 (Z.ltb_ge _ _) La), (proj2 (Z.ltb_ge _ _) Lb).
  intros H. apply print_N_inj in H. lia.
Qed.
Lemma app_same_end a b c : (a ++ c = b ++ c)%string -> a = b.
Proof.
  intros H. assert (L : String.length a = String.length b).
  { apply (f_equal String.length) in H. rewrite !slen_app in H. lia. }
  apply (sapp_inj_len _ _ _ _ L H).
Qed.

(** what the name of a delta is made of *)
Record delta_key := DeltaKey { dk_name : string; dk_from : Z; dk_to : Z; dk_drel : string; dk_arch : string }.
Definition key_name (k : delta_key) : string := delta_name (dk_name k) (dk_from k) (dk_to k) (dk_drel k) (dk_arch k).
(** releases are not negative; distribution release and architecture contain no
    dash (both hold in Solus: "1", "x86_64") *)
Definition ordinary_key (k : delta_key) : Prop :=
  (0 <= dk_from k)%Z /\ (0 <= dk_to k)%Z /\ has_dash (dk_drel k) = false /\ has_dash (dk_arch k) = false.

Theorem C41_names_differ_partial :
  forall k k', ordinary_key k -> ordinary_key k' -> key_name k = key_name k' -> k = k'.
Proof.
  intros [n f t d a] [n' f' t' d' a'] (Hf & Ht & Hd & Ha) (Hf' & Ht' & Hd' & Ha'). cbn [dk_name dk_from dk_to dk_drel dk_arch] in *.
  unfold key_name, delta_name. cbn [dk_name dk_from dk_to dk_drel dk_arch]. intros H.
  assert (A : forall n f t d a, (n ++ "-" ++ f ++ "-" ++ t ++ "-" ++ d ++ "-" ++ a ++ ".delta.eopkg" =
     ((((n ++ "-" ++ f) ++ "-" ++ t) ++ "-" ++ d) ++ "-" ++ a) ++ ".delta.eopkg")%string).
  { intros. rewrite !sapp_assoc. reflexivity. }
  rewrite (A n), (A n') in H. apply app_same_end in H.
  apply split_last in H as [H ->]; [|exact Ha|exact Ha'].
  apply split_last in H as [H ->]; [|exact Hd|exact Hd'].
  apply split_last in H as [H Et]; [|apply print_int_no_dash, Ht|apply print_int_no_dash, Ht'].
  apply split_last in H as [-> Ef]; [|apply print_int_no_dash, Hf|apply print_int_no_dash, Hf'].
  apply print_int_inj in Et; [|exact Ht|exact Ht']. apply print_int_inj in Ef; [|exact Hf|exact Hf']. congruence.
Qed.
Print Assumptions C41_names_differ_partial.
(** the same for the packages a delta is made of *)
Definition key_of (old new : meta) : option delta_key :=
  match m_hist old, m_hist new with
  | u :: _, v :: _ => Some (DeltaKey (m_name new) (u_rel u) (u_rel v) (m_drel new) (m_arch new))
  | _, _ => None
  end.
Theorem C41_packages_partial :
  forall old new old' new' k k', key_of old new = Some k -> key_of old' new' = Some k' -> ordinary_key k -> ordinary_key k' ->
    (compute_delta_name old new = compute_delta_name old' new' <-> k = k') /\ compute_delta_name old new = Ok (key_name k).
Proof.
  intros old new old' new' k k' Hk Hk' O O'. unfold key_of in *. unfold compute_delta_name, get_release.
  destruct (m_hist old) as [|u ?]; [discriminate|]. destruct (m_hist new) as [|v ?]; [discriminate|].
  destruct (m_hist old') as [|u' ?]; [discriminate|]. destruct (m_hist new') as [|v' ?]; [discriminate|].
  injection Hk as <-. injection Hk' as <-. split; [split|].
  - intros H. apply C41_names_differ_partial; auto. unfold key_name. cbn [dk_name dk_from dk_to dk_drel dk_arch]. congruence.
  - intros H. injection H as -> -> -> -> ->. reflexivity.
  - reflexivity.
Qed.
Print Assumptions C41_packages_partial.
(** Without the conditions two different deltas can have one name: a dash in the
    architecture, or a negative release. *)
Theorem C41_names_differ_refuted :
  (exists k k', k <> k' /\ key_name k = key_name k' /\ (0 <= dk_from k)%Z /\ (0 <= dk_from k')%Z /\ (0 <= dk_to k)%Z /\ (0 <= dk_to k')%Z) /\
  (exists k k', k <> k' /\ key_name k = key_name k' /\ has_dash (dk_drel k ++ dk_arch k ++ dk_drel k' ++ dk_arch k') = false).
Proof.
  split.
  - exists (DeltaKey "nano" 1 2 "1" "x86-64"), (DeltaKey "nano-1" 2 1 "x86" "64"). split; [discriminate|].
    split; [vm_compute; reflexivity|]. repeat split; discriminate.
  - exists (DeltaKey "nano" (-1) 2 "1" "x86_64"), (DeltaKey "nano-" 1 2 "1" "x86_64"). split; [discriminate|].
    split; vm_compute; reflexivity.
Qed.
Print Assumptions C41_names_differ_refuted.
Example C41_demo :
  ordinary_key (DeltaKey "nano-dbginfo" 79 80 "1" "x86_64") /\
  key_name (DeltaKey "nano-dbginfo" 79 80 "1" "x86_64") = "nano-dbginfo-79-80-1-x86_64.delta.eopkg".
Proof. split; [repeat split; try discriminate; reflexivity|vm_compute; reflexivity]. Qed.

(** ** C42: possibility *)
Definition possible (old new : meta) : Prop := is_delta_possible old new = Ok true.
(** the English: same name, distribution release and architecture, and strictly
    older *)
Definition older_version (old new : meta) : Prop :=
  m_name old = m_name new /\ m_drel old = m_drel new /\ m_arch old = m_arch new /\
  exists u v hu hv, m_hist old = u :: hu /\ m_hist new = v :: hv /\ (u_rel u < u_rel v)%Z.
Theorem C42_possible_iff : forall old new, possible old new <-> older_version old new.
Proof.
  intros old new. unfold possible, is_delta_possible, older_version, get_release.
  destruct (m_hist old) as [|u hu]; [|destruct (m_hist new) as [|v hv]].
  - split; [discriminate|]. intros (_ & _ & _ & u & v & hu & hv & H & _). discriminate.
  - split; [discriminate|]. intros (_ & _ & _ & u' & v & hu' & hv & _ & H & _). discriminate.
  - split.
    + intros H. injection H as H. apply andb_true_iff in H as [H H4]. apply andb_true_iff in H as [H H3]. apply andb_true_iff in H as [H1 H2].
      apply seqb_eq in H2, H3, H4. apply Z.ltb_lt in H1. repeat split; try assumption. exists u, v, hu, hv. auto.
    + intros (-> & -> & -> & u' & v' & hu' & hv' & E1 & E2 & L). injection E1 as <- <-. injection E2 as <- <-.
      rewrite (proj2 (Z.ltb_lt _ _) L), !seqb_refl. reflexivity.
Qed.
Print Assumptions C42_possible_iff.
Theorem C42_strict_order :
  (forall p, ~ possible p p) /\
  (forall p q, possible p q -> ~ possible q p) /\
  (forall p q r, possible p q -> possible q r -> possible p r).
Proof.
  assert (R : forall p q, possible p q -> (exists u hu, m_hist p = u :: hu) /\ forall v hv, m_hist q = v :: hv -> forall u hu, m_hist p = u :: hu -> (u_rel u < u_rel v)%Z).
  { intros p q H. apply C42_possible_iff in H as (_ & _ & _ & u & v & hu & hv & E1 & E2 & L). split; [eauto|].
    intros v' hv' F u' hu' F'. congruence. }
  assert (As : forall p q, possible p q -> ~ possible q p).
  { intros p q H H'. destruct (R _ _ H) as [(u & hu & E1) H1]. destruct (R _ _ H') as [(v & hv & E2) H2].
    specialize (H1 _ _ E2 _ _ E1). specialize (H2 _ _ E1 _ _ E2). lia. }
  split; [intros p H; exact (As _ _ H H)|]. split; [exact As|].
  intros p q r H H'. apply C42_possible_iff in H as (A1 & A2 & A3 & u & v & hu & hv & E1 & E2 & L).
  apply C42_possible_iff in H' as (B1 & B2 & B3 & v' & w & hv' & hw & E2' & E3 & L'). apply C42_possible_iff.
  rewrite E2' in E2. injection E2 as -> ->. repeat split; try congruence. exists u, w, hu, hw. repeat split; auto. lia.
Qed.
Print Assumptions C42_strict_order.
(** two versions of one package: exactly one direction, unless the releases are equal *)
Theorem C42_direction :
  forall p q, m_name p = m_name q -> m_drel p = m_drel q -> m_arch p = m_arch q -> m_hist p <> [] -> m_hist q <> [] ->
    possible p q \/ possible q p \/ get_release p = get_release q.
Proof.
  intros p q A B C Hp Hq. destruct (m_hist p) as [|u hu] eqn:E1; [destruct (Hp eq_refl)|]. destruct (m_hist q) as [|v hv] eqn:E2; [destruct (Hq eq_refl)|].
  rewrite !C42_possible_iff. unfold older_version, get_release. rewrite E1, E2.
  destruct (Z.lt_trichotomy (u_rel u) (u_rel v)) as [L|[L|L]].
  - left. repeat split; auto. eauto 10.
  - right; right. congruence.
  - right; left. repeat split; auto. eauto 10.
Qed.
Print Assumptions C42_direction.
(** a delta is only ever made between two possible packages *)
Theorem C42_only_possible :
  forall old new z, produce_delta old new = DDelta z -> older_version (k_meta old) (k_meta new).
Proof.
  intros old new z H. apply C42_possible_iff. unfold produce_delta in H. unfold possible.
  destruct (is_delta_possible (k_meta old) (k_meta new)) as [[]| |]; [reflexivity|discriminate..].
Qed.
Print Assumptions C42_only_possible.
Definition demo_pkg (name : string) (r : Z) : meta := Meta name name [Update r "1.0"] "1" "x86_64" "" [] 0 "" "".
Example C42_demo : possible (demo_pkg "nano" 1) (demo_pkg "nano" 2) /\ ~ possible (demo_pkg "nano" 2) (demo_pkg "nano" 2) /\ ~ possible (demo_pkg "nano" 1) (demo_pkg "vim" 2).
Proof. repeat split; vm_compute; congruence. Qed.

(** ** C43: contents *)
(** the unpacked install.tar.xz of a package or delta; none is the same as empty *)
Definition unpacked (z : list zentry) : list tentry :=
  match find (fun e => seqb (z_name e) "install.tar.xz") z with
  | Some (ZEntry _ (ZTar es)) => es
  | _ => []
  end.
Definition same_path (a b : string) : Prop := trim_slash a = trim_slash b.
(** the old package has a file with the same (non-empty) content hash *)
Definition known_content (old : eopkg) (f : frec) : Prop :=
  fr_hash f <> "" /\ exists g, In g (k_files old) /\ fr_hash g = fr_hash f.

Lemma needed_spec old f : needed old f = true <-> ~ known_content old f.
Proof.
  unfold needed, known_content, hashes. rewrite negb_true_iff, andb_false_iff, negb_false_iff, seqb_eq, sin_not_In. split.
  - intros [H|H] [N (g & Hg & Eg)]; [|contradiction]. apply H. rewrite <- Eg. apply in_map. exact Hg.
  - intros H. destruct (seqb_spec (fr_hash f) "") as [E|N]; [right; exact E|left].
    intros Hin. apply in_map_iff in Hin as (g & Eg & Hg). apply H. split; [exact N|]. exists g. auto.
Qed.
Lemma diff_spec old new x : In x (diff_map old new) <-> exists f, In f (k_files new) /\ trim_slash (fr_path f) = x /\ ~ known_content old f.
Proof.
  unfold diff_map. rewrite nodup_In, in_map_iff. split.
  - intros (f & <- & H). apply filter_In in H as [H N]. apply needed_spec in N. eauto.
  - intros (f & H & <- & N). exists f. split; [reflexivity|]. apply filter_In. split; [exact H|]. apply needed_spec, N.
Qed.

(** the members that hold the tarball *)
Definition install_prefix (e : zentry) : bool := has_prefix "install.tar" (z_name e).
Lemma find_app_none {X} (f : X -> bool) l l' : find f l = None -> find f (l ++ l') = find f l'.
Proof. induction l as [|x l IH]; cbn [find app]; [reflexivity|]. destruct (f x); [discriminate|exact IH]. Qed.
Lemma no_ball l : find (fun e => seqb (z_name e) "install.tar.xz") (filter (fun e => negb (has_prefix "install.tar" (z_name e))) l) = None.
Proof.
  induction l as [|e l IH]; cbn [filter]; [reflexivity|]. destruct (has_prefix "install.tar" (z_name e)) eqn:P; cbn [negb]; [exact IH|].
  cbn [find]. destruct (seqb_spec (z_name e) "install.tar.xz") as [E|N]; [rewrite E in P; discriminate|exact IH].
Qed.
Lemma commit_delta old new z : commit old new = DDelta z ->
  unpacked z = filter (fun t => sin (trim_slash (t_name t)) (diff_map old new)) (unpacked (k_zip new)) /\
  filter (fun e => negb (install_prefix e)) z = filter (fun e => negb (install_prefix e)) (k_zip new).
Proof.
  unfold commit. destruct (Nat.eqb _ _) eqn:EL; [discriminate|].
  assert (F : forall x, filter (fun e => negb (install_prefix e)) (copy_zip_partial new ++ [ZEntry "install.tar.xz" x]) = filter (fun e => negb (install_prefix e)) (k_zip new)).
  { intros x. rewrite filter_app. cbn [filter]. unfold install_prefix at 2. change (has_prefix "install.tar" (z_name (ZEntry "install.tar.xz" x))) with true. cbn [negb].
    rewrite app_nil_r. unfold copy_zip_partial, install_prefix. induction (k_zip new) as [|e l IH]; [reflexivity|]. cbn [filter].
    destruct (negb (has_prefix "install.tar" (z_name e))) eqn:N; [|exact IH]. cbn [filter]. rewrite N, IH. reflexivity. }
  destruct (diff_map old new) as [|d ds] eqn:D.
  - intros H. injection H as <-. split.
    + unfold unpacked at 1, copy_zip_partial. rewrite no_ball. symmetry.
      induction (unpacked (k_zip new)) as [|t l IH]; [reflexivity|exact IH].
    + clear F. unfold copy_zip_partial, install_prefix. induction (k_zip new) as [|e l IH]; [reflexivity|]. cbn [filter].
      destruct (negb (has_prefix "install.tar" (z_name e))) eqn:N; [|exact IH]. cbn [filter]. rewrite N, IH. reflexivity.
  - unfold copy_install_partial, find_file. destruct (find _ (k_zip new)) as [[n [b|es]]|] eqn:Fi; try discriminate.
    intros H. injection H as <-. split; [|apply F].
    unfold unpacked at 1. rewrite find_app_none by apply no_ball. cbn [find z_name]. rewrite seqb_refl. cbn [z_data].
    unfold unpacked. rewrite Fi. reflexivity.
Qed.

(** The tarball of a delta consists, in order, of exactly those entries of the
    new package's tarball whose path is that of a file the old package does not
    know by content; everything else of the archive except the tarball is taken
    over unchanged. *)
Theorem C43_contents :
  forall old new z, produce_delta old new = DDelta z ->
    (exists keep, unpacked z = filter keep (unpacked (k_zip new)) /\
       forall t, keep t = true <-> exists f, In f (k_files new) /\ same_path (fr_path f) (t_name t) /\ ~ known_content old f) /\
    filter (fun e => negb (install_prefix e)) z = filter (fun e => negb (install_prefix e)) (k_zip new).
Proof.
  intros old new z H. assert (C : commit old new = DDelta z).
  { unfold produce_delta in H. destruct (is_delta_possible _ _) as [[]| |]; [exact H|discriminate..]. }
  apply commit_delta in C as [C1 C2]. split; [|exact C2]. eexists. split; [exact C1|].
  intros t. cbv beta. rewrite sin_In, diff_spec. unfold same_path. split.
  - intros (f & A & B & D). eauto.
  - intros (f & A & B & D). exists f. auto.
Qed.
Print Assumptions C43_contents.

(** Nothing is lost: each entry of the new package is in the delta, or it has
    only records whose content the old package knows (or no record at all). *)
Theorem C43_nothing_lost :
  forall old new z, produce_delta old new = DDelta z ->
  forall f t, In f (k_files new) -> In t (unpacked (k_zip new)) -> same_path (fr_path f) (t_name t) ->
    In t (unpacked z) \/ known_content old f.
Proof.
  intros old new z H f t Hf Ht Hp. destruct (C43_contents old new z H) as [(keep & E & K) _].
  destruct (needed old f) eqn:N.
  - left. rewrite E. apply filter_In. split; [exact Ht|]. apply K. exists f. apply needed_spec in N. auto.
  - right. destruct (seqb_spec (fr_hash f) "") as [Z|Z].
    + unfold needed in N. rewrite Z, seqb_refl in N. cbn [negb] in N. rewrite andb_false_r in N. discriminate.
    + split; [exact Z|]. unfold needed in N. apply negb_false_iff, andb_true_iff in N as [N _]. apply sin_In, in_map_iff in N as (g & Eg & Hg). eauto.
Qed.
Print Assumptions C43_nothing_lost.
(** Directories (records without a hash) are always included. *)
Theorem C43_directories :
  forall old new z, produce_delta old new = DDelta z ->
  forall f t, In f (k_files new) -> fr_hash f = "" -> In t (unpacked (k_zip new)) -> same_path (fr_path f) (t_name t) -> In t (unpacked z).
Proof.
  intros old new z H f t Hf Hh Ht Hp. destruct (C43_nothing_lost old new z H f t Hf Ht Hp) as [X|[X _]]; [exact X|contradiction].
Qed.
Print Assumptions C43_directories.

(** ** Rebuilding the new package from the old one and the delta *)
(** [files.xml] records the content: every regular file of the tarball has a
    record with the hash [H] of its data, and every record with a hash is that of
    a regular file of the tarball *)
Record faithful (H : string -> string) (p : eopkg) : Prop := {
  ff_reg : forall t d, In t (unpacked (k_zip p)) -> t_kind t = TReg d ->
             exists f, In f (k_files p) /\ same_path (fr_path f) (t_name t) /\ fr_hash f = H d;
  ff_rec : forall f, In f (k_files p) -> fr_hash f <> "" ->
             exists t d, In t (unpacked (k_zip p)) /\ same_path (fr_path f) (t_name t) /\ t_kind t = TReg d /\ fr_hash f = H d
}.
(** Every regular file of the new package can be rebuilt: it is in the delta, or
    some file of the old package has the same data. *)
Theorem C43_rebuild :
  forall H, (forall a b, H a = H b -> a = b) ->
  forall old new z, faithful H old -> faithful H new -> produce_delta old new = DDelta z ->
  forall t d, In t (unpacked (k_zip new)) -> t_kind t = TReg d ->
    In t (unpacked z) \/ exists u, In u (unpacked (k_zip old)) /\ t_kind u = TReg d.
Proof.
  intros H Hinj old new z Fo Fn P t d Ht Kt. destruct (ff_reg _ _ Fn t d Ht Kt) as (f & Hf & Hp & Hh).
  destruct (C43_nothing_lost old new z P f t Hf Ht Hp) as [X|[N (g & Hg & Eg)]]; [left; exact X|right].
  assert (Ng : fr_hash g <> "") by congruence. destruct (ff_rec _ _ Fo g Hg Ng) as (u & d' & Hu & _ & Ku & Eu).
  exists u. split; [exact Hu|]. rewrite Ku. f_equal. apply Hinj. congruence.
Qed.
Print Assumptions C43_rebuild.
(** A hard link in the delta points to a file in the delta, if link and target
    are recorded with the same hash. *)
Theorem C43_hard_links :
  forall old new z, produce_delta old new = DDelta z ->
  forall t u target, In t (unpacked z) -> t_kind t = THard target -> In u (unpacked (k_zip new)) -> same_path (t_name u) target ->
    (forall f g, In f (k_files new) -> In g (k_files new) -> same_path (fr_path f) (t_name t) -> same_path (fr_path g) target -> fr_hash f = fr_hash g) ->
    (exists g, In g (k_files new) /\ same_path (fr_path g) target) ->
    In u (unpacked z).
Proof.
  intros old new z P t u target Ht Kt Hu Hp Hsame (g & Hg & Gp). destruct (C43_contents old new z P) as [(keep & E & K) _].
  rewrite E in Ht |- *. apply filter_In in Ht as [Ht Kp]. apply K in Kp as (f & Hf & Fp & Nf).
  apply filter_In. split; [exact Hu|]. apply K. exists g. split; [exact Hg|]. split; [unfold same_path in *; congruence|].
  intros [N (h & Hh & Eh)]. pose proof (Hsame f g Hf Hg Fp Gp) as E'. apply Nf. split; [congruence|]. exists h. split; [exact Hh|congruence].
Qed.
Print Assumptions C43_hard_links.

(** Refusal. If no path is recorded twice, a possible delta is refused as
    pointless exactly when it would contain every recorded file. *)
Lemma nodup_map_length old new : NoDup (map (fun f => trim_slash (fr_path f)) (k_files new)) ->
  List.length (diff_map old new) = List.length (filter (needed old) (k_files new)).
Proof.
  intros N. unfold diff_map. rewrite nodup_fixed_point; [apply map_length|].
  revert N. induction (k_files new) as [|f l IH]; cbn [map filter]; intros N; [constructor|]. inversion N as [|? ? N1 N2]; subst.
  destruct (needed old f); cbn [map]; [constructor|]; auto. intros X. apply N1. apply in_map_iff in X as (g & Eg & Hg). apply filter_In in Hg as [Hg _].
  apply in_map_iff. eauto.
Qed.
Lemma filter_len_full {X} (f : X -> bool) l : List.length (filter f l) = List.length l <-> forall x, In x l -> f x = true.
Proof.
  induction l as [|a l IH]; cbn [filter List.length]; [split; [intros _ x []|reflexivity]|].
  assert (L : List.length (filter f l) <= List.length l) by (clear IH; induction l as [|b l IHl]; cbn [filter List.length]; [lia|destruct (f b); cbn [List.length]; lia]).
  destruct (f a) eqn:Fa; cbn [List.length]; split.
  - intros H x [<-|Hx]; [exact Fa|]. apply IH; [lia|exact Hx].
  - intros H. f_equal. apply IH. intros x Hx. apply H. right. exact Hx.
  - intros H. lia.
  - intros H. rewrite (H a (or_introl eq_refl)) in Fa. discriminate.
Qed.
Theorem C43_refused_exactly_partial :
  forall old new, older_version (k_meta old) (k_meta new) -> NoDup (map (fun f => trim_slash (fr_path f)) (k_files new)) ->
    (produce_delta old new = DPointless <-> forall f, In f (k_files new) -> ~ known_content old f).
Proof.
  intros old new P N. apply C42_possible_iff in P. unfold produce_delta. unfold possible in P. rewrite P. unfold commit.
  rewrite (nodup_map_length old new N).
  destruct (Nat.eqb_spec (List.length (filter (needed old) (k_files new))) (List.length (k_files new))) as [E|E].
  - split; [intros _|reflexivity]. intros f Hf. apply needed_spec. apply (proj1 (filter_len_full _ _) E f Hf).
  - split.
    + destruct (diff_map old new); [discriminate|]. destruct (copy_install_partial _ _); discriminate.
    + intros H. exfalso. apply E, filter_len_full. intros f Hf. apply needed_spec, H, Hf.
Qed.
Print Assumptions C43_refused_exactly_partial.
(** and with duplicate paths: never refused although it would contain everything *)
Theorem C43_refused_exactly_refuted :
  exists old new z, produce_delta old new = DDelta z /\ (forall f, In f (k_files new) -> ~ known_content old f) /\
    unpacked z = unpacked (k_zip new) /\ unpacked z <> [].
Proof.
  pose (new := Eopkg (demo_pkg "nano" 2) [FRec "usr" ""; FRec "usr/" ""] [ZEntry "metadata.xml" (ZRaw "m"); ZEntry "install.tar.xz" (ZTar [TEntry "usr" TDir])]).
  exists (Eopkg (demo_pkg "nano" 1) [] []), new. eexists. split; [vm_compute; reflexivity|]. split.
  - intros f _ [_ (g & [] & _)].
  - split; [vm_compute; reflexivity|]. vm_compute. discriminate.
Qed.
Print Assumptions C43_refused_exactly_refuted.
(** a delta that is made has something to leave out, or a path is recorded twice *)
Theorem C43_saves :
  forall old new z, produce_delta old new = DDelta z ->
    (exists f, In f (k_files new) /\ known_content old f) \/ ~ NoDup (map (fun f => trim_slash (fr_path f)) (k_files new)).
Proof.
  intros old new z H. destruct (ListDec.NoDup_dec string_dec (map (fun f => trim_slash (fr_path f)) (k_files new))) as [N|N]; [left|right; exact N].
  pose proof (C42_only_possible _ _ _ H) as P. pose proof (C43_refused_exactly_partial old new P N) as X.
  destruct (existsb (fun f => negb (needed old f)) (k_files new)) eqn:Ex.
  - apply existsb_exists in Ex as (f & Hf & Nf). exists f. split; [exact Hf|]. apply negb_true_iff in Nf.
    destruct (seqb_spec (fr_hash f) "") as [Z|Z].
    + unfold needed in Nf. rewrite Z, seqb_refl in Nf. cbn [negb] in Nf. rewrite andb_false_r in Nf. discriminate.
    + split; [exact Z|]. unfold needed in Nf. apply negb_false_iff, andb_true_iff in Nf as [Nf _]. apply sin_In, in_map_iff in Nf as (g & Eg & Hg). eauto.
  - exfalso. rewrite (proj2 X) in H; [discriminate|]. intros f Hf. apply needed_spec. destruct (needed old f) eqn:Nf; [reflexivity|].
    rewrite <- Ex. apply existsb_exists. exists f. rewrite Nf. auto.
Qed.
Print Assumptions C43_saves.

Definition demo_old : eopkg :=
  Eopkg (demo_pkg "nano" 1) [FRec "usr/bin/nano" "h:a"; FRec "usr/share/doc" "h:doc"; FRec "etc/" ""]
        [ZEntry "install.tar.xz" (ZTar [TEntry "usr/bin/nano" (TReg "a"); TEntry "usr/share/doc" (TReg "doc"); TEntry "etc/" TDir])].
Definition demo_new : eopkg :=
  Eopkg (demo_pkg "nano" 2) [FRec "usr/bin/nano" "h:b"; FRec "usr/share/moved" "h:doc"; FRec "etc/" ""]
        [ZEntry "metadata.xml" (ZRaw "m2"); ZEntry "files.xml" (ZRaw "f2");
         ZEntry "install.tar.xz" (ZTar [TEntry "usr/bin/nano" (TReg "b"); TEntry "usr/share/moved" (TReg "doc"); TEntry "etc" TDir])].
Example C43_demo :
  produce_delta demo_old demo_new =
    DDelta [ZEntry "metadata.xml" (ZRaw "m2"); ZEntry "files.xml" (ZRaw "f2");
            ZEntry "install.tar.xz" (ZTar [TEntry "usr/bin/nano" (TReg "b"); TEntry "etc" TDir])] /\
  faithful (fun d => "h:" ++ d)%string demo_old /\ faithful (fun d => "h:" ++ d)%string demo_new.
Proof.
  split; [vm_compute; reflexivity|]. split; constructor.
  1,3: intros t d Ht Kt; vm_compute in Ht; repeat destruct Ht as [<-|Ht]; try contradiction; try discriminate; injection Kt as <-;
       cbn [k_files demo_old demo_new];
       first [ eexists; split; [left; reflexivity|split; reflexivity] | eexists; split; [right; left; reflexivity|split; reflexivity] ].
  all: intros f Hf N; cbn in Hf; repeat destruct Hf as [<-|Hf]; try contradiction; try (destruct (N eq_refl)); vm_compute unpacked;
       first [ do 2 eexists; split; [left; reflexivity|repeat split; reflexivity] | do 2 eexists; split; [right; left; reflexivity|repeat split; reflexivity] ].
Qed.
