(** * ReaderSpec: what a client sees of a repository through its index

    Ties the two descriptions of the index - the documents of [Model], the
    structures of [Xml] - and says what the elements of the file tell a client. *)
From Coq Require Import List NArith ZArith Bool String Ascii.
From Verif Require Import Model Spec.
From Verif Require Escape Xml XmlSpec.
Import ListNotations.
Open Scope list_scope.
Import XmlSpec(item, children, text_in, attribute, number, attr_number, says_number, file_says).

(** ** One package, twice *)
(** the texts of package metadata are ASCII, and characters XML has *)
Definition plain_text (t : string) : Prop := Forall (fun c => Xml.xml_char c = true /\ (c < 128)%N) (Xml.txt t).
Definition clean (m : meta) : Prop :=
  Forall plain_text ([m_name m; m_src m; m_drel m; m_arch m; m_hash m; m_uri m] ++ map u_ver (m_hist m) ++
                     flat_map (fun d => [dr_uri d; dr_hash d]) (m_deltas m)).
Definition clean_pool (s : state) : Prop := forall id p, pool_at s id = Some p -> clean (p_meta p).
(** the record of [Model] and the structure of [Xml] are the same package (the
    latter has more fields) *)
Record same_package (m : meta) (p : Xml.package) : Prop := {
  sp_name : Xml.m_name p = Xml.txt (m_name m);
  sp_src : Xml.s_name (Xml.m_source p) = Xml.txt (m_src m);
  sp_hist : map (fun u => (Xml.u_release u, Xml.u_version u)) (Xml.m_history p) = map (fun u => (u_rel u, Xml.txt (u_ver u))) (m_hist m);
  sp_drel : Xml.m_distrel p = Xml.txt (m_drel m);
  sp_arch : Xml.m_arch p = Xml.txt (m_arch m);
  sp_size : Xml.m_psize p = Z.of_N (m_size m);
  sp_hash : Xml.m_hash p = Xml.txt (m_hash m);
  sp_uri : Xml.m_uri p = Xml.txt (m_uri m);
  sp_deltas : XmlSpec.opt_list (Xml.m_deltas p) =
     map (fun d => Xml.Delta (dr_from d) (Xml.txt (dr_uri d)) (Z.of_N (dr_size d)) (Xml.txt (dr_hash d))) (m_deltas m)
}.
(** the text of a document is what [Xml] writes for its packages, with whatever
    distribution, components and groups *)
Definition xml_env (symbol : N -> bool) (E : env) : Prop :=
  forall d, Forall clean (doc_pkgs d) ->
    exists x, XmlSpec.decoded x /\ Forall2 same_package (doc_pkgs d) (Xml.i_packages x) /\
      Xml.txt (E_render E d) = Xml.render symbol x.

(** ** What the elements of the index say *)
(** one child element of that name, with this text *)
Definition reads (e : item) (n : string) (v : string) : Prop := exists i, children n e = [i] /\ text_in i = Xml.txt v.
Definition reads_number (e : item) (n : string) (z : Z) : Prop := exists i, children n e = [i] /\ number (text_in i) = Some z.
(** the Delta element offers delta [x] *)
Definition offers (s : state) (x : string) (e : item) : Prop :=
  exists p di, pool_at s x = Some p /\ p_delta p = Some di /\
    attr_number e "releaseFrom" (d_frel di) /\ reads e "PackageURI" (m_uri (p_meta p)) /\
    reads_number e "PackageSize" (Z.of_N (m_size (p_meta p))) /\ reads e "PackageHash" (m_hash (p_meta p)).
Definition says_update (u : update) (e : item) : Prop :=
  (exists w, attribute "release" e = Some w /\ number w = Some (u_rel u)) /\ reads e "Version" (u_ver u).
Definition deltas_in (e : item) : list item := flat_map (children "Delta") (children "DeltaPackages" e).
(** the Package element shows what [r] publishes under the name [n]: package [id] *)
Definition shows (s : state) (r n id : string) (e : item) : Prop :=
  exists p, published s r n = Some id /\ pool_at s id = Some p /\
    let m := p_meta p in
    reads e "Name" n /\ reads e "PackageURI" (m_uri m) /\ reads e "PackageHash" (m_hash m) /\
    reads_number e "PackageSize" (Z.of_N (m_size m)) /\
    reads e "DistributionRelease" (m_drel m) /\ reads e "Architecture" (m_arch m) /\
    (exists h, children "History" e = [h] /\ Forall2 says_update (m_hist m) (children "Update" h)) /\
    (exists c, children "Source" e = [c] /\ reads c "Name" (m_src m)) /\
    exists ids, StronglySorted slt ids /\
      (forall x, In x ids <-> In x (delta_ids_of s r n) /\ leads_to s x (rel m)) /\
      Forall2 (offers s) ids (deltas_in e).
(** the file is there, of that size, with that hash *)
Definition download (E : env) (s : state) (r uri hash : string) (size : N) : Prop :=
  exists comp id c, uri = (comp ++ "/" ++ id)%string /\ repo_file s r comp id = Some c /\
    hash = E_sha1 E c /\ size = N.of_nat (String.length c).
