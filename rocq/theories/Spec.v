(** * Spec: the vocabulary in which the properties are stated

    Only observations of a state (what the repositories list, what the pool
    holds, what is on disk) and the domain hypotheses. Nothing here refers to
    how an operation works. *)
From Verif Require Import Model.

(** ** Observations *)

(** the record a repository keeps for a package name *)
Definition entry_at (s : state) (r n : string) : option entry := mget (d_ents (st_db s) r) n.
Definition repo_exists (s : state) (r : string) : bool := mhas (d_repos (st_db s)) r.
Definition pool_at (s : state) (id : string) : option pentry := mget (d_pool (st_db s)) id.

(** repository [r] lists the package ID [id] as available *)
Definition available (s : state) (r id : string) : Prop :=
  exists n e, entry_at s r n = Some e /\ In id (e_avail e).
(** repository [r] lists [id] as package or as delta *)
Definition listed (s : state) (r id : string) : Prop :=
  exists n e, entry_at s r n = Some e /\ (In id (e_avail e) \/ In id (e_deltas e)).

(** decision procedure for [listed], and the number of repositories listing an ID *)
Definition lists_db (d : db) (r id : string) : bool :=
  existsb (fun ke => sin id (e_avail (snd ke)) || sin id (e_deltas (snd ke))) (mlist (d_ents d r)).
Definition count_db (d : db) (id : string) : nat :=
  List.length (filter (fun r => lists_db d r id) (mkeys (d_repos d))).
Definition listing_count (s : state) (id : string) : nat := count_db (st_db s) id.

(** reference count shown by the pool listing; 0 if not in the pool *)
Definition rc_db (d : db) (id : string) : nat :=
  match mget (d_pool d) id with Some p => N.to_nat (p_rc p) | None => 0 end.
Definition refcount (s : state) (id : string) : nat := rc_db (st_db s) id.

(** release of a package; meaningful for metadata with a history *)
Definition rel (m : meta) : Z := match m_hist m with u :: _ => u_rel u | [] => 0%Z end.
(** release of a pool item *)
Definition pool_release (s : state) (id : string) : option Z :=
  match pool_at s id with Some p => Some (rel (p_meta p)) | None => None end.

(** content of the file <repo>/<PackageURI> *)
Definition repo_file (s : state) (r comp id : string) : option string :=
  file_content (st_fs s) (Loc (TRepo r) comp id).
Definition comp_of (m : meta) : string :=
  match path_component (m_src m) with Ok c => c | _ => "" end.

(** ** Domain hypotheses *)

Definition is_delta_id (id : string) : bool := has_suffix ".delta.eopkg" id.

Fixpoint no_slash (s : string) : bool :=
  match s with EmptyString => true | String c s' => negb (Ascii.eqb c slash) && no_slash s' end.
(** what filepath.Base yields for an ordinary file path *)
Definition plain_id (id : string) : bool := negb (seqb id "") && no_slash id && negb (reserved id).

(** metadata of a real package: has a history with a positive release, a source
    name, and a name that is not reserved database notation *)
Record good_meta (m : meta) : Prop := {
  gm_hist : m_hist m <> [];
  gm_rel : (1 <= rel m)%Z;
  gm_comp : exists c, path_component (m_src m) = Ok c;
  gm_name : reserved (m_name m) = false
}.

(** The catalog: which metadata a package ID stands for. *)
Definition good_catalog (cat : string -> meta) : Prop := forall id, good_meta (cat id).

(** [l'] is [l] sorted by name (equal names in any order) *)
Definition sorted_by {A} (name : A -> string) (l l' : list A) : Prop :=
  Permutation l' l /\ StronglySorted (fun a b => sle (name a) (name b)) l'.
(** an empty file is neither a package nor an asset; sort.Sort sorts *)
Record good_env (E : env) : Prop := {
  ge_parse : E_parse E "" = Err;
  ge_comps : E_comps E "" = None;
  ge_groups : E_groups E "" = None;
  ge_csort : forall l, sorted_by c_name l (E_csort E l);
  ge_gsort : forall l, sorted_by g_name l (E_gsort E l)
}.

(** every component has a name, a summary and a description in some language,
    every group a name; a file that does not decode is merely an error *)
Definition complete_component (c : component) : Prop := c_lname c <> [] /\ c_summary c <> [] /\ c_descr c <> [].
Definition complete_group (g : group) : Prop := g_lname g <> [].
Definition good_asset (E : env) (a c : string) : Prop :=
  (a = "components.xml" -> forall l, E_comps E c = Some l -> Forall complete_component l) /\
  (a = "groups.xml" -> forall l, E_groups E c = Some l -> Forall complete_group l).

(** the file named [id] with content [c] is what the catalog says, if it is a
    package at all; it does not make the metadata reader panic (C45) *)
Definition good_file (E : env) (cat : string -> meta) (id c : string) : Prop :=
  match E_parse E c with Ok m => m = cat id | Err => True | Panic => False end.

(** Go's sort and map iteration *)
Definition descending (l : list meta) : Prop :=
  StronglySorted (fun a b => (rel b <= rel a)%Z) l.
Record good_oracle (o : oracle) : Prop := {
  go_purge : o_purge o <> Panic;
  go_order : forall l, Permutation (o_order o l) l;
  go_sort_perm : forall l, Permutation (o_sort o l) l;
  go_sort_desc : forall l, descending (o_sort o l)
}.

Definition upload_tree (t : tree) : bool :=
  match t with TExt | TStage _ => true | _ => false end.

(** requests that only name files outside the managed trees, packages as
    packages and deltas as deltas *)
Definition good_op (p : op) : Prop :=
  match p with
  | OpAdd _ pkgs _ => Forall (fun l => upload_tree (l_tree l) = true /\ is_delta_id (l_id l) = false) pkgs
  | OpAddDelta _ src _ _ => upload_tree (l_tree src) = true /\ is_delta_id (l_id src) = true
  | OpRefDelta _ id => is_delta_id id = true
  | _ => True
  end.

(** operations that remove single packages; their crash points are C23 *)
Definition removes_packages (p : op) : bool :=
  match p with
  | OpRemoveSource _ _ _ | OpTrimObsolete _ | OpTrimPackages _ _ => true
  | _ => false
  end.
Definition delta_op (p : op) : bool :=
  match p with OpAddDelta _ _ _ _ | OpRefDelta _ _ => true | _ => false end.

Definition good_event (E : env) (cat : string -> meta) (e : event) : Prop :=
  match e with
  | EvOp o p => good_oracle o /\ good_op p
  | EvCrash o p _ => good_oracle o /\ good_op p /\ removes_packages p = false
  | EvPut l c => plain_id (l_id l) = true /\ good_file E cat (l_id l) c
  | EvAsset _ a (Some c) => good_asset E a c
  | _ => True
  end.
Definition good_history (E : env) (cat : string -> meta) (h : list event) : Prop :=
  Forall (good_event E cat) h.

Definition crash_free (h : list event) : Prop :=
  Forall (fun e => match e with EvCrash _ _ _ => False | _ => True end) h.
Definition delta_free (h : list event) : Prop :=
  Forall (fun e => match e with EvOp _ p | EvCrash _ p _ => delta_op p = false | _ => True end) h.

(** ** What the properties about whole states say *)

(** C01: no item has fewer references than repositories listing it, and
    everything listed is in the pool *)
Definition safe (s : state) : Prop :=
  (forall id rs, NoDup rs -> (forall r, In r rs -> listed s r id) -> (List.length rs <= refcount s id)%nat) /\
  (forall r id, listed s r id -> pool_at s id <> None).

(** C02: the reference count of every item is the number of repositories that
    list it; hence it is in the pool exactly if some repository lists it *)
Definition exact (s : state) : Prop :=
  (forall id, exists rs, NoDup rs /\ (forall r, In r rs <-> listed s r id) /\ refcount s id = List.length rs) /\
  (forall id, pool_at s id <> None <-> exists r, listed s r id).

(** C04 *)
Record well_formed (s : state) (r n : string) (e : entry) : Prop := {
  wf_repo : repo_exists s r = true;
  wf_name : e_name e = n;
  wf_nonempty : e_avail e <> [];
  wf_sorted : StronglySorted slt (e_avail e);
  wf_nodup : NoDup (e_avail e);
  wf_pub : In (e_pub e) (e_avail e);
  wf_pool : forall id, In id (e_avail e) -> exists p, pool_at s id = Some p /\ m_name (p_meta p) = n;
  wf_delta : forall id, In id (e_deltas e) ->
      exists p, pool_at s id = Some p /\ m_name (p_meta p) = n /\ p_delta p <> None
}.

(** C05: the file <repo>/<PackageURI> exists, with the recorded size and hash *)
Definition served (E : env) (s : state) (r id : string) : Prop :=
  exists p comp c,
    pool_at s id = Some p /\ m_uri (p_meta p) = (comp ++ "/" ++ id)%string /\
    repo_file s r comp id = Some c /\
    m_hash (p_meta p) = E_sha1 E c /\ m_size (p_meta p) = N.of_nat (String.length c).

(** nothing listed is missing or damaged *)
Definition all_served (E : env) (s : state) : Prop := forall r id, available s r id -> served E s r id.

(** ** Reachable states and the effect of one request *)

(** states after a history; requests may have crashed (except removals, C23) *)
Definition reachable (E : env) (cat : string -> meta) (s : state) : Prop :=
  exists h, good_history E cat h /\ s = run_history E h.
(** states after a history in which every request ran to its end *)
Definition reachable_completed (E : env) (cat : string -> meta) (s : state) : Prop :=
  exists h, good_history E cat h /\ crash_free h /\ s = run_history E h.
(** the same, without any delta request *)
Definition reachable_delta_free (E : env) (cat : string -> meta) (s : state) : Prop :=
  exists h, good_history E cat h /\ crash_free h /\ delta_free h /\ s = run_history E h.

Definition after (E : env) (o : oracle) (p : op) (s : state) : state := final_of (run_op E o p s).
Definition outcome (E : env) (o : oracle) (p : op) (s : state) : res (list string) := result_of (run_op E o p s).
Definition succeeds (E : env) (o : oracle) (p : op) (s : state) : Prop := exists l, outcome E o p s = Ok l.
(** what is found on disk if the daemon dies during the request *)
Definition crash_points (E : env) (o : oracle) (p : op) (s : state) : list state := trace_of (run_op E o p s).

(** the IDs a repository lists for a name *)
Definition available_ids (s : state) (r n : string) : list string :=
  match entry_at s r n with Some e => e_avail e | None => [] end.
Definition delta_ids_of (s : state) (r n : string) : list string :=
  match entry_at s r n with Some e => e_deltas e | None => [] end.
Definition published (s : state) (r n : string) : option string :=
  match entry_at s r n with Some e => Some (e_pub e) | None => None end.
(** release of the published version *)
Definition published_release (s : state) (r n : string) : option Z :=
  match published s r n with Some id => pool_release s id | None => None end.

(** the listings of repository [r] are the same in both states *)
Definition same_listings (r : string) (s s' : state) : Prop :=
  repo_exists s' r = repo_exists s r /\ forall n, entry_at s' r n = entry_at s r n.
(** index files and assets of [r] *)
Definition index_file (s : state) (r f : string) : option string := f_root (st_fs s) r f.
Definition asset_file (s : state) (r f : string) : option string := f_asset (st_fs s) r f.

(** database, package files, index files and assets are as before *)
Definition unchanged (s s' : state) : Prop :=
  st_db s' = st_db s /\
  (forall l, file_content (st_fs s') l = file_content (st_fs s) l) /\
  (forall r f, index_file s' r f = index_file s r f) /\
  (forall r f, asset_file s' r f = asset_file s r f).

(** ** Source selection (C16, C17) *)
(** [r] lists package [id], it was built from [source], and has that release
    (any release if the number is not positive) *)
Definition from_source (s : state) (r source : string) (release : Z) (id : string) : Prop :=
  available s r id /\
  exists p, pool_at s id = Some p /\ m_src (p_meta p) = source /\
            ((release <= 0)%Z \/ rel (p_meta p) = release).
(** delta [d] goes from or to package [id] *)
Definition delta_touches (s : state) (d id : string) : Prop :=
  exists p di, pool_at s d = Some p /\ p_delta p = Some di /\ (d_from di = id \/ d_to di = id).

(** ** Pull (C15) *)
(** the source's version of [n] is newer, or missing in the target *)
Definition behind (s : state) (src tgt n : string) : Prop :=
  exists a, published_release s src n = Some a /\
    match published_release s tgt n with None => True | Some b => (b < a)%Z end.
Definition ahead (s : state) (src tgt n : string) : Prop :=
  exists a b, published_release s src n = Some a /\ published_release s tgt n = Some b /\ (a < b)%Z.

(** ** Obsolete packages (C20) *)
Definition obsoletes (E : env) (s : state) (r : string) : list string :=
  match asset_file s r "distribution.xml" with
  | Some c => match E_dist E c with Some l => l | None => [] end
  | None => []
  end.
Definition is_dbginfo_of (n base : string) : Prop := n = (base ++ "-dbginfo")%string.
Definition obsolete_name (E : env) (s : state) (r n : string) : Prop :=
  In n (obsoletes E s r) \/ exists b, is_dbginfo_of n b /\ In b (obsoletes E s r).

(** ** The index (C06-C10) *)
(** the files a client downloads *)
Definition published_index_files : list string :=
  [ "eopkg-index.xml"; "eopkg-index.xml.sha1sum"; "eopkg-index.xml.sha256sum";
    "eopkg-index.xml.xz"; "eopkg-index.xml.xz.sha1sum"; "eopkg-index.xml.xz.sha256sum";
    "eopkg-index.xml.zst"; "eopkg-index.xml.zst.sha1sum"; "eopkg-index.xml.zst.sha256sum" ].
(** their contents, for the index text [txt] *)
Definition index_content (E : env) (txt file : string) : string :=
  if seqb file "eopkg-index.xml" then txt
  else if seqb file "eopkg-index.xml.sha1sum" then E_sha1 E txt
  else if seqb file "eopkg-index.xml.sha256sum" then E_sha256 E txt
  else if seqb file "eopkg-index.xml.xz" then E_xz E txt
  else if seqb file "eopkg-index.xml.xz.sha1sum" then E_sha1 E (E_xz E txt)
  else if seqb file "eopkg-index.xml.xz.sha256sum" then E_sha256 E (E_xz E txt)
  else if seqb file "eopkg-index.xml.zst" then E_zst E txt
  else if seqb file "eopkg-index.xml.zst.sha1sum" then E_sha1 E (E_zst E txt)
  else E_sha256 E (E_zst E txt).

(** [m] is the record of the published version of [n], deltas apart *)
Definition is_record (s : state) (r n : string) (m : meta) : Prop :=
  exists id p, published s r n = Some id /\ pool_at s id = Some p /\
    set_deltas m [] = set_deltas (p_meta p) [].
(** the first text without a language is English *)
Definition first_en (l : list lfield) : list lfield :=
  match l with
  | f :: t => (if seqb (lf_lang f) "" then LField (lf_value f) "en" else f) :: t
  | [] => []
  end.
Definition component_en (c : component) : component :=
  Component (c_name c) (first_en (c_lname c)) (first_en (c_summary c)) (first_en (c_descr c)) (c_rest c).
Definition group_en (g : group) : group := Group (g_name g) (first_en (g_lname g)) (g_icon g).
(** [out] holds all the items of the asset file, sorted by name; nothing without the file *)
Definition carries {A} (decode : string -> option (list A)) (name : A -> string) (en : A -> A)
    (file : option string) (out : option (list A)) : Prop :=
  match file with
  | None => out = None
  | Some c => exists l l', decode c = Some l /\ out = Some l' /\ sorted_by name (map en l) l'
  end.
(** the document describes repository [r]: one record per name that is listed
    and not obsolete, in ascending ID order; plus the assets *)
Record describes (E : env) (s : state) (r : string) (d : doc) : Prop := {
  ds_dist : doc_dist d = asset_file s r "distribution.xml";
  ds_comps : carries (E_comps E) c_name component_en (asset_file s r "components.xml") (doc_comps d);
  ds_groups : carries (E_groups E) g_name group_en (asset_file s r "groups.xml") (doc_groups d);
  ds_pkgs : exists ns, NoDup ns /\
      (forall n, In n ns <-> (exists e, entry_at s r n = Some e) /\ ~ obsolete_name E s r n) /\
      Forall2 (is_record s r) ns (doc_pkgs d);
  ds_order : StronglySorted slt (map get_id (doc_pkgs d))
}.
(** the delta records of [m] are the deltas the repository lists for its name
    and that lead to its release *)
Definition delta_record (s : state) (x : string) (rc : drec) : Prop :=
  exists p di, pool_at s x = Some p /\ p_delta p = Some di /\
    rc = DRec (d_frel di) (m_uri (p_meta p)) (m_size (p_meta p)) (m_hash (p_meta p)).
Definition leads_to (s : state) (x : string) (rl : Z) : Prop :=
  exists p di, pool_at s x = Some p /\ p_delta p = Some di /\ d_trel di = rl.
Definition right_deltas (s : state) (r : string) (m : meta) : Prop :=
  exists ids, StronglySorted slt ids /\
    (forall x, In x ids <-> In x (delta_ids_of s r (m_name m)) /\ leads_to s x (rel m)) /\
    Forall2 (delta_record s) ids (m_deltas m).
(** package files do not themselves carry delta records *)
Definition no_builtin_deltas (cat : string -> meta) : Prop := forall id, m_deltas (cat id) = [].

(** nothing fails in the environment of a run: files can be produced and moved,
    the CDN answers; the assets are readable; outputs are not empty *)
Definition healthy (o : oracle) : Prop :=
  good_oracle o /\ (forall f, o_fail o f = false) /\ (forall f, o_rfail o f = false) /\ o_purge o = Ok tt.
Definition readable_assets (E : env) (s : state) (r : string) : Prop :=
  (forall c, asset_file s r "distribution.xml" = Some c -> E_dist E c <> None) /\
  (forall c, asset_file s r "components.xml" = Some c -> E_comps E c <> None) /\
  (forall c, asset_file s r "groups.xml" = Some c -> E_groups E c <> None).
Definition sane_tools (E : env) : Prop :=
  (forall d, E_render E d <> "") /\ (forall c, E_xz E c <> "") /\ (forall c, E_zst E c <> "").

(** the directory of repository [r] is on disk *)
Definition dir_exists (s : state) (r : string) : bool := f_dir (st_fs s) r.

(** the index now on disk describes the repository as it now is *)
Definition index_current (E : env) (s : state) (r : string) : Prop :=
  exists d, describes E s r d /\
    forall v, In v published_index_files -> index_file s r v = Some (index_content E (E_render E d) v).
(** the repository whose index a request rewrites when it succeeds *)
Definition reindexes (p : op) : option string :=
  match p with
  | OpCreate r | OpClone _ r _ | OpPull _ r | OpRemoveSource r _ _ | OpTrimObsolete r
  | OpTrimPackages r _ | OpAdd r _ _ | OpIndex r => Some r
  | OpCopySource _ r _ _ skip => if skip then Some r else None     (* sic: C18 *)
  | OpDelete _ | OpAddDelta _ _ _ _ | OpRefDelta _ _ | OpMarkFailed _ _ => None
  end.

(** ** Frame (C11) *)
(** the only repository whose listings or files a request may change *)
Definition target (p : op) : option string :=
  match p with
  | OpCreate r | OpDelete r | OpClone _ r _ | OpPull _ r | OpRemoveSource r _ _ | OpCopySource _ r _ _ _
  | OpTrimObsolete r | OpTrimPackages r _ | OpAdd r _ _ | OpIndex r | OpAddDelta r _ _ _ | OpRefDelta r _ => Some r
  | OpMarkFailed _ _ => None
  end.
