(** * PropsFilesXml: files.xml is read as it is written (C109) *)
From Coq Require Import List NArith ZArith Bool String Ascii Lia.
From Verif Require Import Escape Xml Unxml UnxmlFacts UnxmlSpec PropsUnxml FilesXml.
From Verif Require XmlSpec.
Import ListNotations.
Open Scope N_scope. Open Scope list_scope.
Import XmlSpec(item, Ch, El, text_in).
Local Open Scope string_scope. Local Open Scope N_scope. Local Open Scope list_scope.

(** ** Specification *)
(** octal notation: the last digit counts ones *)
Inductive octal : text -> N -> Prop :=
| octal_one d : d < 8 -> octal [48 + d] d
| octal_more l n d : octal l n -> d < 8 -> octal (l ++ [48 + d]) (8 * n + d).
(** the mode of a file: octal, 32 bits *)
Definition mode_of (f : item) (m : N) : Prop := octal (text_below "Mode" [f]) m /\ m < 2 ^ 32.
Definition states_file (i : item) (x : file * N) : Prop :=
  let f := fst x in
  fl_path f = text_below "Path" [i] /\ fl_type f = text_below "Type" [i] /\
  int_below "Size" [i] (fl_size f) /\ int_below "Uid" [i] (fl_uid f) /\ int_below "Gid" [i] (fl_gid f) /\
  fl_mode f = text_below "Mode" [i] /\ fl_hash f = text_below "Hash" [i] /\ fl_permanent f = text_below "Permanent" [i] /\
  mode_of i (snd x).
(** a number is none, or there is no mode *)
Definition unreadable (f : item) : Prop :=
  (exists n w, In n ["Size"; "Uid"; "Gid"] /\ In w (map text_in (inner n [f])) /\ ~ is_number w) \/ ~ exists m, mode_of f m.

(** ** Modes *)
Lemma octal_app l c acc : octal_digits (l ++ [c]) acc =
  match octal_digits l acc with Some n => if within 48 55 c then Some (n * 8 + (c - 48)) else None | None => None end.
Proof.
  revert acc. induction l as [|d l IH]; intros acc; cbn [app octal_digits].
  - destruct (within 48 55 c); reflexivity.
  - destruct (within 48 55 d); [apply IH|reflexivity].
Qed.
Lemma within_octal c : within 48 55 c = true <-> exists d, d < 8 /\ c = 48 + d.
Proof.
  unfold within. rewrite andb_true_iff, !N.leb_le. split; [intros H; exists (c - 48); lia|intros (d & H & ->); lia].
Qed.
Lemma octal_parse l n : octal l n <-> l <> [] /\ octal_digits l 0 = Some n.
Proof.
  split.
  - induction 1 as [d H|l n d D [N IH] H].
    + split; [discriminate|]. cbn [octal_digits]. rewrite (proj2 (within_octal _)) by eauto. f_equal. lia.
    + split; [destruct l; discriminate|]. rewrite octal_app, IH. rewrite (proj2 (within_octal _)) by eauto. f_equal. lia.
  - revert n. induction l as [|c l IH] using rev_ind; intros n [N E]; [congruence|]. rewrite octal_app in E.
    destruct (octal_digits l 0) as [k|] eqn:P; [|discriminate E]. destruct (within 48 55 c) eqn:W; [|discriminate E]. injection E as <-.
    apply within_octal in W as (d & H & ->). destruct l as [|x l].
    + cbn [octal_digits] in P. injection P as <-. cbn [app]. replace (0 * 8 + (48 + d - 48)) with d by lia. constructor. exact H.
    + replace (k * 8 + (48 + d - 48)) with (8 * k + d) by lia. constructor; [apply IH; split; [discriminate|reflexivity]|exact H].
Qed.
Lemma parse_octal_ok t m : parse_octal t = Some m <-> octal t m /\ m < 2 ^ 32.
Proof.
  rewrite octal_parse. unfold parse_octal. change (2 ^ 32) with 4294967296. destruct t as [|c t].
  - split; [discriminate|]. intros [[N _] _]. congruence.
  - destruct (octal_digits (c :: t) 0) as [n|].
    + destruct (n <? 4294967296)%N eqn:L.
      * apply N.ltb_lt in L. split; [intros [= <-]; split; [split; [discriminate|reflexivity]|exact L]|intros [[_ [= ->]] _]; reflexivity].
      * apply N.ltb_ge in L. split; [discriminate|]. intros [[_ E] B]. injection E as ->. lia.
    + split; [discriminate|]. intros [[_ H] _]. discriminate H.
Qed.

(** ** Fields *)
Definition states_but_mode (i : item) (f : file) : Prop :=
  fl_path f = text_below "Path" [i] /\ fl_type f = text_below "Type" [i] /\
  int_below "Size" [i] (fl_size f) /\ int_below "Uid" [i] (fl_uid f) /\ int_below "Gid" [i] (fl_gid f) /\
  fl_mode f = text_below "Mode" [i] /\ fl_hash f = text_below "Hash" [i] /\ fl_permanent f = text_below "Permanent" [i].
Lemma file_sound i v : elem i -> unmarshal (TPtr T_file) (zero (TPtr T_file)) i = Some v -> states_but_mode i (as_file v).
Proof.
  intros K H. cbn [zero] in H. rewrite unmarshal_ptr in H. destruct (unmarshal T_file (zero T_file) i) as [x|] eqn:U; [|discriminate H]. cbn [option_map] in H. injection H as <-.
  rewrite <- feed_one in U. apply one_elem in K. cbn [zero T_file map snd fe] in U.
  struct U [fe "Path" TStr; fe "Type" TStr; fe "Size" TInt; fe "Uid" TInt; fe "Gid" TInt; fe "Mode" TStr; fe "Hash" TStr; fe "Permanent" TStr].
  repeat value. fin.
Qed.
Lemma modes_some l fs r : Forall2 states_but_mode l fs -> init_modes fs = Some r -> Forall2 states_file l r.
Proof.
  intros F. revert r. induction F as [|i f l fs H F IH]; intros r E; cbn [init_modes] in E; [injection E as <-; constructor|].
  destruct (parse_octal (fl_mode f)) as [m|] eqn:P; [|discriminate E]. destruct (init_modes fs) as [r'|]; [|discriminate E]. cbn [option_map] in E. injection E as <-.
  constructor; [|apply IH; reflexivity]. destruct H as (H1 & H2 & H3 & H4 & H5 & H6 & H7 & H8). unfold states_file. cbn [fst snd]. repeat (split; [assumption|]).
  unfold mode_of. rewrite <- H6. apply parse_octal_ok, P.
Qed.
Lemma modes_none l fs : Forall2 states_but_mode l fs -> init_modes fs = None -> exists f, In f l /\ ~ exists m, mode_of f m.
Proof.
  induction 1 as [|i f l fs H F IH]; intros E; cbn [init_modes] in E; [discriminate E|]. destruct (parse_octal (fl_mode f)) as [m|] eqn:P.
  - destruct (init_modes fs); [discriminate E|]. destruct (IH eq_refl) as (g & I & N). exists g. split; [right; exact I|exact N].
  - exists i. split; [left; reflexivity|]. destruct H as (_ & _ & _ & _ & _ & H6 & _). intros (m & M). unfold mode_of in M. rewrite <- H6 in M. apply parse_octal_ok in M. congruence.
Qed.

(** ** C109: reading a package's files.xml *)
(** one record for each File element, in order, with its fields and its mode; or some
    File element has a wrong number or no mode *)
Theorem C109_files_are_read : forall i, elem i ->
  match read_files i with
  | Some l => Forall2 states_file (inner "File" [i]) l
  | None => exists f, In f (inner "File" [i]) /\ unreadable f
  end.
Proof.
  intros i K. unfold read_files. pose proof (decodes T_files i eq_refl K) as D. destruct (unmarshal T_files (zero T_files) i) as [v|] eqn:U.
  - rewrite <- feed_one in U. pose proof (one_elem i K) as K1. cbn [zero T_files map snd fe] in U. struct U [fe "File" (TSlice (TPtr T_file))].
    match goal with X : field_result _ (fe _ _) _ = Some _ |- _ => apply (r_slice (TPtr T_file) as_file states_but_mode file_sound) in X end.
    cbn [as_field nth]. match goal with X : Forall2 states_but_mode _ ?fs |- match init_modes ?fs with _ => _ end => destruct (init_modes fs) as [r|] eqn:E; [exact (modes_some _ _ _ X E)|] end.
    match goal with X : Forall2 states_but_mode _ _ |- _ => destruct (modes_none _ _ X E) as (f & I & N) end. exists f. split; [exact I|right; exact N].
  - assert (W : exists w, In w (ints T_files [i]) /\ ~ is_number w).
    { apply not_all. intros F. apply D in F as (v & F). discriminate F. }
    destruct W as (w & I & N). cbn [ints T_files fe fst snd flat_map below] in I. rewrite app_nil_r in I. apply in_flat_map in I as (f & If & Iw).
    rewrite <- inner_kids in If. exists f. split; [exact If|left].
    cbn [ints T_file fe fst snd flat_map below app] in Iw. rewrite !body_texts, app_nil_r in Iw.
    apply in_app_or in Iw as [J|J]; [|apply in_app_or in J as [J|J]].
    + exists "Size", w. split; [cbn; tauto|]. split; assumption.
    + exists "Uid", w. split; [cbn; tauto|]. split; assumption.
    + exists "Gid", w. split; [cbn; tauto|]. split; assumption.
Qed.
Print Assumptions C109_files_are_read.

(** reading fails exactly then *)
Theorem C109_reads_iff : forall i, elem i ->
  (exists l, read_files i = Some l) <-> Forall (fun f => ~ unreadable f) (inner "File" [i]).
Proof.
  intros i K. pose proof (C109_files_are_read i K) as H. split.
  - intros (l & E). rewrite E in H. clear E. induction H as [|f x fs l (H1 & H2 & H3 & H4 & H5 & H6 & H7 & H8 & H9) F IH]; constructor; [|exact IH].
    intros [(n & w & In & Iw & N)|N]; [|apply N; eauto].
    assert (X : forall n z, int_below n [f] z -> forall w, List.In w (map text_in (inner n [f])) -> is_number w).
    { intros m z [A _] u J. rewrite Forall_forall in A. exact (A u J). }
    destruct In as [<-|[<-|[<-|[]]]]; apply N; eauto.
  - intros F. destruct (read_files i) as [l|]; [eauto|]. destruct H as (f & I & U). rewrite Forall_forall in F. destruct (F f I U).
Qed.
Print Assumptions C109_reads_iff.

(** two files and a directory are read; a file without a mode is not *)
Definition demo_files (more : string) : option (item * option (list (file * N))) :=
  option_map (fun i => (i, read_files i)) (XmlSpec.read_xml (txt ("<Files><File><Path>usr/bin/nano</Path><Type>executable</Type><Size>12</Size><Uid>0</Uid><Gid>0</Gid><Mode>0755</Mode><Hash>ab</Hash></File><File><Path>usr/share</Path><Mode>755</Mode></File>" ++ more ++ "</Files>")%string)).
Example C109_demo :
  (exists i l, demo_files "" = Some (i, Some l) /\ elem i /\
     l = [(File (txt "usr/bin/nano") (txt "executable") 12 0 0 (txt "0755") (txt "ab") [], 493); (File (txt "usr/share") [] 0 0 0 (txt "755") [] [], 493)] /\
     map (fun x => is_dir (fst x)) l = [false; true]) /\
  option_map snd (demo_files "<File><Path>usr/lib</Path></File>") = Some None /\
  option_map snd (demo_files "<File><Path>usr/lib</Path><Mode>0855</Mode></File>") = Some None.
Proof.
  split; [|vm_compute; split; reflexivity].
  destruct (demo_files "") as [[i o]|] eqn:E; [|vm_compute in E; discriminate E].
  vm_compute in E. injection E as <- <-. do 2 eexists. split; [reflexivity|]. vm_compute. auto 10.
Qed.
