(** * PropsReader: a client that reads the published index (C106) *)
From Coq Require Import List NArith ZArith ZifyN Bool String Ascii Lia.
From Verif Require Import Model Spec DbInv FsInv Ops History IndexFacts PoolFacts PropsPool PropsIndex Demo DemoOk ReaderSpec.
From Verif Require Escape PropsEscape Xml XmlSpec PropsXml.
Import ListNotations.
Open Scope list_scope.
Import XmlSpec(item, children, text_in, attribute, number, attr_number, file_says).

Lemma plain_ascii t : plain_text t -> XmlSpec.ascii_text (Xml.txt t).
Proof. intros F. eapply Forall_impl; [|exact F]. intros c [_ L]. exact L. Qed.

Section Client.
Variable symbol : N -> bool.
Notation P := (fun v w => XmlSpec.garbled symbol true false v w /\ (XmlSpec.ascii_text v -> v = w)).
Notation C := (fun v w => XmlSpec.garbled symbol true true v w /\ (XmlSpec.ascii_text v -> v = w)).

Lemma says_reads e n t : XmlSpec.says P e n [Xml.txt t] -> plain_text t -> reads e n t.
Proof.
  intros S K. unfold XmlSpec.says in S. inversion S as [|v i l l' [_ X] R E1 E2]; subst. inversion R; subst.
  exists i. split; [symmetry; exact E2|]. symmetry. apply X, plain_ascii, K.
Qed.

Lemma clean_in m t : clean m -> In t [m_name m; m_src m; m_drel m; m_arch m; m_hash m; m_uri m] -> plain_text t.
Proof. intros K I. unfold clean in K. rewrite Forall_forall in K. apply K. apply in_or_app. left. exact I. Qed.
Lemma clean_ver m u : clean m -> In u (m_hist m) -> plain_text (u_ver u).
Proof. intros K I. unfold clean in K. rewrite Forall_forall in K. apply K. apply in_or_app. right. apply in_or_app. left. apply in_map, I. Qed.
Lemma clean_delta m d t : clean m -> In d (m_deltas m) -> In t [dr_uri d; dr_hash d] -> plain_text t.
Proof.
  intros K I J. unfold clean in K. rewrite Forall_forall in K. apply K. apply in_or_app. right. apply in_or_app. right.
  apply in_flat_map. exists d. split; assumption.
Qed.

Lemma f2_map {A B D} (f : A -> D) (R : D -> B -> Prop) l l' : Forall2 R (map f l) l' -> Forall2 (fun a b => R (f a) b) l l'.
Proof. revert l'. induction l as [|a l IH]; intros l' F; inversion F; subst; constructor; auto. Qed.
Lemma f2_map' {A B D} (f : A -> D) (R : D -> B -> Prop) l l' : Forall2 (fun a b => R (f a) b) l l' -> Forall2 R (map f l) l'.
Proof. induction 1; constructor; auto. Qed.
Lemma f2_in_left {A B} (R S : A -> B -> Prop) l l' : Forall2 R l l' -> (forall a b, In a l -> R a b -> S a b) -> Forall2 S l l'.
Proof. induction 1; intros H'; constructor; [apply H'; [left; reflexivity|assumption]|apply IHForall2; intros; apply H'; [right; assumption|assumption]]. Qed.
Lemma f2_trans {A B D} (R : A -> B -> Prop) (S : B -> D -> Prop) l1 l2 l3 : Forall2 R l1 l2 -> Forall2 S l2 l3 -> Forall2 (fun a d => exists b, In b l2 /\ R a b /\ S b d) l1 l3.
Proof.
  intros F. revert l3. induction F as [|a b l1 l2 H F IH]; intros l3 G; inversion G; subst; constructor.
  - exists b. split; [left; reflexivity|auto].
  - eapply f2_in_left; [apply IH; eassumption|]. intros u v _ (z & I & Q). exists z. split; [right; exact I|exact Q].
Qed.

Lemma updates_read hs us l : map (fun u => (Xml.u_release u, Xml.u_version u)) us = map (fun u => (u_rel u, Xml.txt (u_ver u))) hs ->
  (forall u, In u hs -> plain_text (u_ver u)) ->
  Forall2 (XmlSpec.describes_update P C) us l -> Forall2 says_update hs l.
Proof.
  revert hs l. induction us as [|x us IH]; intros [|h hs] l E K F; try discriminate E; inversion F as [|? i ? l' D F']; subst; constructor.
  - injection E as E1 E2 E. destruct D as (A & _ & _ & V & _). split.
    + rewrite <- E1. exact A.
    + apply says_reads; [rewrite <- E2; exact V|apply K; left; reflexivity].
  - injection E as E1 E2 E. apply IH; [exact E|intros u I; apply K; right; exact I|exact F'].
Qed.

(** what is shown of a delta record *)
Definition offered (d : drec) (e : item) : Prop :=
  attr_number e "releaseFrom" (dr_from d) /\ reads e "PackageURI" (dr_uri d) /\ reads_number e "PackageSize" (Z.of_N (dr_size d)) /\ reads e "PackageHash" (dr_hash d).
Lemma deltas_read m pk e : clean m -> same_package m pk -> XmlSpec.describes_package P C pk e -> Forall2 offered (m_deltas m) (deltas_in e).
Proof.
  intros K S (_ & _ & _ & _ & _ & _ & _ & _ & _ & _ & _ & _ & _ & _ & _ & _ & _ & _ & _ & D & _).
  pose proof (sp_deltas _ _ S) as E. unfold deltas_in. destruct (Xml.m_deltas pk) as [l|]; cbn [XmlSpec.inside_opt XmlSpec.opt_list] in *.
  - destruct D as (i & -> & D). cbn [flat_map]. rewrite app_nil_r. rewrite E in D. unfold XmlSpec.each in D.
    apply f2_map in D. eapply f2_in_left; [exact D|]. cbv beta. intros d x I (A1 & A2 & A3 & A4). cbn [Xml.dl_from Xml.dl_uri Xml.dl_size Xml.dl_hash] in *.
    split; [exact A1|]. split; [apply says_reads; [exact A2|eapply clean_delta; eauto; left; reflexivity]|]. split; [exact A3|].
    apply says_reads; [exact A4|eapply clean_delta; eauto; right; left; reflexivity].
  - rewrite D. symmetry in E. apply map_eq_nil in E. rewrite E. constructor.
Qed.
(** what is shown of a package, deltas apart *)
Lemma package_read m pk e : clean m -> same_package m pk -> XmlSpec.describes_package P C pk e ->
  reads e "Name" (m_name m) /\ reads e "PackageURI" (m_uri m) /\ reads e "PackageHash" (m_hash m) /\
  reads_number e "PackageSize" (Z.of_N (m_size m)) /\ reads e "DistributionRelease" (m_drel m) /\ reads e "Architecture" (m_arch m) /\
  (exists h, children "History" e = [h] /\ Forall2 says_update (m_hist m) (children "Update" h)) /\
  (exists c, children "Source" e = [c] /\ reads c "Name" (m_src m)).
Proof.
  intros K S D. destruct S as [S1 S2 S3 S4 S5 S6 S7 S8 _].
  destruct D as (D1 & _ & _ & _ & _ & _ & _ & _ & _ & _ & D2 & _ & _ & D3 & D4 & _ & D5 & D6 & D7 & _ & _ & D8).
  rewrite S1 in D1. rewrite S4 in D3. rewrite S5 in D4. rewrite S6 in D5. rewrite S7 in D6. rewrite S8 in D7.
  pose proof (clean_in m) as Q.
  split; [apply says_reads; [exact D1|apply Q; [exact K|cbn; tauto]]|].
  split; [apply says_reads; [exact D7|apply Q; [exact K|cbn; tauto]]|].
  split; [apply says_reads; [exact D6|apply Q; [exact K|cbn; tauto]]|].
  split; [exact D5|].
  split; [apply says_reads; [exact D3|apply Q; [exact K|cbn; tauto]]|].
  split; [apply says_reads; [exact D4|apply Q; [exact K|cbn; tauto]]|].
  split.
  - destruct D2 as (h & E & F). exists h. split; [exact E|]. eapply updates_read; [exact S3|intros u I; eapply clean_ver; eauto|exact F].
  - destruct D8 as (c & E & (F & _)). exists c. split; [exact E|]. rewrite S2 in F. apply says_reads; [exact F|apply Q; [exact K|cbn; tauto]].
Qed.
End Client.

(** records of published versions are those of the pool, and their texts are clean *)
Lemma set_deltas_fields m m' : set_deltas m [] = set_deltas m' [] ->
  m_name m = m_name m' /\ m_src m = m_src m' /\ m_hist m = m_hist m' /\ m_drel m = m_drel m' /\ m_arch m = m_arch m' /\
  m_size m = m_size m' /\ m_hash m = m_hash m' /\ m_uri m = m_uri m'.
Proof. destruct m, m'. unfold set_deltas. cbn. intros E. injection E as -> -> -> -> -> -> -> -> ->. repeat split; reflexivity. Qed.
Lemma clean_record s r n m : clean_pool s -> is_record s r n m -> right_deltas s r m -> clean m.
Proof.
  intros K (id & p & _ & G & E) (ids & _ & _ & F). apply set_deltas_fields in E as (E1 & E2 & E3 & E4 & E5 & E6 & E7 & E8).
  pose proof (K id p G) as Kp. unfold clean. rewrite E1, E2, E3, E4, E5, E7, E8. unfold clean in Kp.
  apply Forall_app in Kp as [A Kp]. apply Forall_app in Kp as [B _]. apply Forall_app. split; [exact A|]. apply Forall_app. split; [exact B|].
  apply Forall_flat_map. clear A B E1 E2 E3 E4 E5 E6 E7 E8. induction F as [|x d ids l (q & di & Gq & _ & ->) F IH]; constructor; [|exact IH].
  cbn [dr_uri dr_hash]. pose proof (K x q Gq) as Kq. constructor; [eapply clean_in; [exact Kq|cbn; tauto]|]. constructor; [eapply clean_in; [exact Kq|cbn; tauto]|constructor].
Qed.

(** ** C106: whoever reads the published index, byte for byte as XML, finds exactly
    the published packages and the deltas that lead to them *)
Theorem C106_reader_finds_published :
  forall symbol E cat s o r, good_catalog cat -> good_env E -> no_builtin_deltas cat -> xml_env symbol E ->
    reachable E cat s -> good_oracle o -> clean_pool s -> succeeds E o (OpIndex r) s ->
    exists b e ns, index_file (after E o (OpIndex r) s) r "eopkg-index.xml" = Some b /\ file_says (Xml.txt b) e /\
      NoDup ns /\ (forall n, In n ns <-> (exists x, entry_at s r n = Some x) /\ ~ obsolete_name E s r n) /\
      Forall2 (fun n i => exists id, shows s r n id i) ns (children "Package" e).
Proof.
  intros symbol E cat s o r Hc HE NB HX Re Ho K Su.
  destruct (C07_index_offers_deltas E cat s o r Hc HE NB Re Ho Su) as (d & D & RD & F).
  destruct (ds_pkgs _ _ _ _ D) as (ns & N1 & N2 & N3).
  assert (Cl : Forall clean (doc_pkgs d)).
  { apply Forall_forall. intros m I. specialize (RD m I). clear -N3 I K RD. induction N3 as [|n m' ns l R N3 IH]; [destruct I|].
    destruct I as [->|I]; [exact (clean_record s r n m K R RD)|exact (IH I)]. }
  destruct (HX d Cl) as (x & Dx & Sx & Bx). destruct (PropsXml.C105_index_readable_partial symbol x Dx) as (e & Fe & De).
  exists (E_render E d), e, ns. split; [exact F|]. split; [rewrite Bx; exact Fe|]. split; [exact N1|]. split; [exact N2|].
  destruct De as (_ & _ & Dp & _). unfold XmlSpec.each in Dp.
  pose proof (f2_trans _ _ _ _ _ N3 (f2_trans _ _ _ _ _ Sx Dp)) as T. eapply f2_in_left; [exact T|]. cbv beta.
  intros n i _ (m & Im & R & (pk & _ & Sp & Dk)).
  assert (Km : clean m) by (rewrite Forall_forall in Cl; exact (Cl m Im)).
  destruct (package_read symbol m pk i Km Sp Dk) as (Q1 & Q2 & Q3 & Q4 & Q5 & Q6 & Q7 & Q8). pose proof (deltas_read symbol m pk i Km Sp Dk) as Q9.
  destruct (RD m Im) as (ids & R1 & R2 & R3). destruct R as (id & p & P1 & P2 & P3).
  apply set_deltas_fields in P3 as (E1 & E2 & E3 & E4 & E5 & E6 & E7 & E8).
  assert (Nm : m_name (p_meta p) = n).
  { destruct Re as (h & Hh & Eh). pose proof (hist_inv E cat Hc HE h Hh) as Iv. rewrite <- Eh in Iv. destruct (i_db _ _ _ _ _ _ Iv) as [A B _ _].
    unfold published, entry_at in P1. destruct (mget (d_ents (st_db s) r) n) as [en|] eqn:En; [|discriminate]. injection P1 as P1.
    pose proof (B r n en En) as Ok. destruct (eo_avail _ _ _ Ok id ltac:(rewrite <- P1; exact (eo_pub _ _ _ Ok))) as (X & _).
    destruct (po_meta _ _ _ (A id p P2)) as (hh & sz & ->). exact X. }
  exists id, p. split; [exact P1|]. split; [exact P2|]. cbv zeta. rewrite <- E2, <- E3, <- E4, <- E5, <- E6, <- E7, <- E8. rewrite E1, Nm in Q1.
  split; [exact Q1|]. split; [exact Q2|]. split; [exact Q3|]. split; [exact Q4|]. split; [exact Q5|]. split; [exact Q6|]. split; [exact Q7|]. split; [exact Q8|].
  exists ids. split; [exact R1|]. split.
  - intros y. rewrite R2. rewrite E1, Nm. unfold rel. rewrite E3. tauto.
  - clear -R3 Q9. set (l := m_deltas m) in *. clearbody l. revert Q9. generalize (deltas_in i). induction R3 as [|y d ids l (q & di & G1 & G2 & ->) R3 IH]; intros l' Q; inversion Q as [|? j ? l'' O Q']; subst; constructor.
    + exists q, di. split; [exact G1|]. split; [exact G2|]. exact O.
    + apply IH, Q'.
Qed.
Print Assumptions C106_reader_finds_published.

(** the files are there: each element of the index names a file of the repository
    that has the size and the hash it gives *)
Theorem C106_reader_can_download :
  forall symbol E cat s o r, good_catalog cat -> good_env E -> no_builtin_deltas cat -> xml_env symbol E ->
    reachable_completed E cat s -> good_oracle o -> clean_pool s -> succeeds E o (OpIndex r) s ->
    let s' := after E o (OpIndex r) s in
    exists b e, index_file s' r "eopkg-index.xml" = Some b /\ file_says (Xml.txt b) e /\
      forall i, In i (children "Package" e) -> exists uri hash size,
        reads i "PackageURI" uri /\ reads i "PackageHash" hash /\ reads_number i "PackageSize" (Z.of_N size) /\
        download E s' r uri hash size.
Proof.
  intros symbol E cat s o r Hc HE NB HX Rc Ho K Su s'.
  assert (Re : reachable E cat s) by (destruct Rc as (h & H1 & _ & H2); exists h; split; assumption).
  destruct (C106_reader_finds_published symbol E cat s o r Hc HE NB HX Re Ho K Su) as (b & e & ns & F & Fe & _ & _ & Sh).
  exists b, e. split; [exact F|]. split; [exact Fe|]. intros i I.
  assert (X : exists n id, shows s r n id i).
  { clear -Sh I. induction Sh as [|n j ns l (id & H) Sh IH]; [destruct I|]. destruct I as [->|I]; [exists n, id; exact H|exact (IH I)]. }
  destruct X as (n & id & p & P1 & P2 & _ & Q2 & Q3 & Q4 & _).
  destruct Re as (h & Hh & Eh). pose proof (hist_inv E cat Hc HE h Hh) as Iv. rewrite <- Eh in Iv.
  assert (A : available s r id).
  { unfold published in P1. destruct (entry_at s r n) as [en|] eqn:En; [|discriminate]. injection P1 as <-. exists n, en. split; [exact En|].
    exact (eo_pub _ _ _ (ok_ent _ _ (i_db _ _ _ _ _ _ Iv) r n en En)). }
  destruct (C05_listed_is_served E cat s r id Hc HE Rc A) as (p' & comp & c & G1 & G2 & G3 & G4 & G5). rewrite P2 in G1. injection G1 as <-.
  exists (m_uri (p_meta p)), (m_hash (p_meta p)), (m_size (p_meta p)). split; [exact Q2|]. split; [exact Q3|]. split; [exact Q4|].
  exists comp, id, c. split; [exact G2|]. split; [|split; [exact G4|exact G5]].
  destruct (index_facts E cat Hc HE false false s o r Iv Ho) as (_ & _ & _ & Fc & _). unfold repo_file. unfold s'. rewrite Fc. exact G3.
Qed.
Print Assumptions C106_reader_can_download.

(** ** An environment that writes XML *)
Lemma utf8_byte r bs : PropsEscape.scalar r -> PropsEscape.utf8_of r bs -> Forall (fun c => (c < 256)%N) bs.
Proof.
  intros S [(L & ->)|[(a & b & H)|[(a & b & c & H)|(a & b & c & d & H)]]].
  - constructor; [lia|constructor].
  - destruct H as (L & B & E & ->). constructor; [lia|]. constructor; [lia|constructor].
  - destruct H as (L & B & Cc & E & ->). constructor; [lia|]. constructor; [lia|]. constructor; [lia|constructor].
  - destruct H as (L & B & Cc & D & E & ->). assert (r <= 1114111)%N by (destruct S; lia).
    constructor; [lia|]. constructor; [lia|]. constructor; [lia|]. constructor; [lia|constructor].
Qed.
Lemma spells_bytes f w : PropsEscape.spells f w -> Forall (fun c => (c < 256)%N) f.
Proof. induction 1; [constructor|]. apply Forall_app. split; [eapply utf8_byte; eassumption|assumption]. Qed.
Definition bytes_string (l : list N) : string := string_of_list_ascii (map ascii_of_N l).
Lemma txt_bytes l : Forall (fun c => (c < 256)%N) l -> Xml.txt (bytes_string l) = l.
Proof.
  unfold Xml.txt, bytes_string. rewrite list_ascii_of_string_of_list_ascii, map_map. induction 1 as [|c l L F IH]; [reflexivity|]. cbn [map]. rewrite N_ascii_embedding by exact L. f_equal. exact IH.
Qed.

(** the structure with the fields of a record; nothing else in it *)
Definition xml_package (m : meta) : Xml.package :=
  Xml.Package (Xml.txt (m_name m)) [] [] [] [] [] None None None None
    (map (fun u => Xml.Update (u_rel u) [] [] (Xml.txt (u_ver u)) [] [] [] None) (m_hist m)) [] [] (Xml.txt (m_drel m)) (Xml.txt (m_arch m)) 0
    (Z.of_N (m_size m)) (Xml.txt (m_hash m)) (Xml.txt (m_uri m))
    (match m_deltas m with [] => None | l => Some (map (fun d => Xml.Delta (dr_from d) (Xml.txt (dr_uri d)) (Z.of_N (dr_size d)) (Xml.txt (dr_hash d))) l) end)
    [] (Xml.Source (Xml.txt (m_src m)) [] (Xml.Packager [] [])).
Lemma xml_package_same m : same_package m (xml_package m).
Proof. constructor; try reflexivity; cbn; [rewrite map_map; reflexivity|destruct (m_deltas m); reflexivity]. Qed.
Definition xml_index (d : doc) : Xml.index := Xml.Index None (map xml_package (doc_pkgs d)) [] [].
Definition reader_env : env :=
  let E := demo_env true in
  Env (E_parse E) (E_sha1 E) (E_sha256 E) (E_linkable E) (E_dist E) (E_comps E) (E_csort E) (E_groups E) (E_gsort E) (E_xz E) (E_zst E)
      (fun d => bytes_string (Xml.render (fun c => (c =? 8482)%N) (xml_index d))).
Lemma plain_chars t : plain_text t -> Forall (fun c => Xml.xml_char c = true) (Xml.txt t).
Proof. intros F. eapply Forall_impl; [|exact F]. intros c [L _]. exact L. Qed.
Lemma xml_index_decoded d : Forall clean (doc_pkgs d) -> XmlSpec.decoded (xml_index d).
Proof.
  intros K. unfold XmlSpec.decoded, XmlSpec.plain_texts, XmlSpec.free_texts. cbn [Xml.i_dist Xml.i_packages Xml.i_components Xml.i_groups xml_index flat_map].
  rewrite !app_nil_r. cbn [app].
  assert (Fr : forall v, In v (flat_map XmlSpec.free_texts_package (map xml_package (doc_pkgs d))) -> v = []).
  { intros v I. apply in_flat_map in I as (pk & I & J). apply in_map_iff in I as (m & <- & _). cbn in J. apply in_flat_map in J as (u & J & V).
    apply in_map_iff in J as (u' & <- & _). cbn in V. intuition. }
  split; [apply Forall_app; split|]; apply Forall_forall; intros v I; [|rewrite (Fr v I); constructor..].
  apply in_flat_map in I as (pk & I & J). apply in_map_iff in I as (m & <- & I). rewrite Forall_forall in K. specialize (K m I).
  pose proof (clean_in m) as Q. unfold XmlSpec.plain_texts_package in J. cbn [xml_package Xml.m_name Xml.m_isa Xml.m_partof Xml.m_host Xml.m_distro Xml.m_distrel Xml.m_arch Xml.m_hash Xml.m_uri Xml.m_format Xml.m_source Xml.s_name Xml.s_homepage Xml.s_packager Xml.pk_name Xml.pk_email Xml.m_summary Xml.m_descr Xml.m_license Xml.m_deps Xml.m_conflicts Xml.m_replaces Xml.m_provides Xml.m_history Xml.m_deltas XmlSpec.opt_list XmlSpec.langs map flat_map] in J.
  rewrite !app_nil_l in J. apply in_app_or in J as [J|J].
  - repeat (destruct J as [<-|J]; [first [constructor | apply plain_chars, Q; [exact K|cbn; tauto]]|]). destruct J.
  - apply in_app_or in J as [J|J].
    + apply in_flat_map in J as (u & Iu & J). apply in_map_iff in Iu as (u' & <- & Iu). cbn in J.
      destruct J as [<-|[<-|[<-|[<-|[]]]]]; try constructor. apply plain_chars. eapply clean_ver; eauto.
    + apply in_flat_map in J as (x & Ix & J). assert (Ix' : In x (map (fun d => Xml.Delta (dr_from d) (Xml.txt (dr_uri d)) (Z.of_N (dr_size d)) (Xml.txt (dr_hash d))) (m_deltas m))).
      { destruct (m_deltas m); [destruct Ix|exact Ix]. }
      apply in_map_iff in Ix' as (y & <- & Iy). cbn in J. destruct J as [<-|[<-|[]]]; apply plain_chars; eapply clean_delta; eauto; cbn; tauto.
Qed.
Lemma reader_env_xml : xml_env (fun c => (c =? 8482)%N) reader_env.
Proof.
  intros d K. pose proof (xml_index_decoded d K) as D. exists (xml_index d). split; [exact D|]. split.
  - cbn [xml_index Xml.i_packages]. clear. induction (doc_pkgs d) as [|m l IH]; constructor; [apply xml_package_same|exact IH].
  - destruct (PropsXml.C105_index_readable_partial (fun c => (c =? 8482)%N) _ D) as (e & (w & S & _) & _). exact (txt_bytes _ (spells_bytes _ _ S)).
Qed.
Lemma reader_env_good : good_env reader_env.
Proof. destruct (demo_env_good true) as [A1 A2 A3 A4 A5]. constructor; assumption. Qed.

(** a repository with two packages, of one the delta to its release *)
Definition h_read : list event := h_delta ++ [EvPut (ext "libx-1.eopkg") "libx1"; EvOp demo_oracle (OpAdd "unstable" [ext "libx-1.eopkg"] false)].
Definition s_read : state := run_history reader_env h_read.
Lemma clean_pool_check s : forallb (fun ip => let m := p_meta (snd ip) in forallb (fun t => forallb (fun c => Xml.xml_char c && (c <? 128)%N) (Xml.txt t))
   ([m_name m; m_src m; m_drel m; m_arch m; m_hash m; m_uri m] ++ map u_ver (m_hist m) ++ flat_map (fun d => [dr_uri d; dr_hash d]) (m_deltas m)))
   (mlist (d_pool (st_db s))) = true -> clean_pool s.
Proof.
  intros H id p G. rewrite forallb_forall in H. unfold pool_at in G. apply in_mlist in G. specialize (H _ G). cbv zeta in H. cbn [snd] in H. rewrite forallb_forall in H.
  unfold clean. apply Forall_forall. intros t I. specialize (H t I). rewrite forallb_forall in H. apply Forall_forall. intros c J. specialize (H c J).
  apply andb_prop in H as [H1 H2]. split; [exact H1|apply N.ltb_lt, H2].
Qed.
Example C106_demo :
  reachable_completed reader_env demo_cat s_read /\ no_builtin_deltas demo_cat /\ clean_pool s_read /\
  succeeds reader_env demo_oracle (OpIndex "unstable") s_read /\
  option_map String.length (index_file (after reader_env demo_oracle (OpIndex "unstable") s_read) "unstable" "eopkg-index.xml") = Some 2296%nat /\
  published s_read "unstable" "nano" = Some "nano-2.eopkg"%string /\ published s_read "unstable" "libx" = Some "libx-1.eopkg"%string /\
  leads_to s_read "nano-1-2.delta.eopkg" 2.
Proof.
  split; [exists h_read; split; [unfold good_history, h_read, h_delta; cbn [app]; demo_hist|split; [unfold crash_free, h_read, h_delta; repeat (apply Forall_cons; [exact I|]); apply Forall_nil|reflexivity]]|].
  split; [apply demo_no_builtin|]. split; [apply clean_pool_check; vm_compute; reflexivity|]. split; [exists []; vm_compute; reflexivity|].
  split; [vm_compute; reflexivity|]. split; [vm_compute; reflexivity|]. split; [vm_compute; reflexivity|]. do 2 eexists. vm_compute. auto.
Qed.
