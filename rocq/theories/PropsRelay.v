(** * PropsRelay: from metadata.xml to the index (C108) *)
From Coq Require Import List NArith ZArith Bool String Ascii Lia Permutation.
From Verif Require Import Escape Xml Unxml UnxmlFacts UnxmlSpec PropsUnxml RelaySpec.
From Verif Require XmlSpec PropsXml.
Import ListNotations.
Open Scope N_scope. Open Scope list_scope.
Import XmlSpec(item, children, text_in, attribute, number, attr_number, says_number, file_says).

Section Relay.
Variables P C : text -> text -> Prop.
Hypothesis PA : forall v w, P v w -> XmlSpec.ascii_text v -> v = w.
Hypothesis CA : forall v w, C v w -> XmlSpec.ascii_text v -> v = w.
Notation asc := XmlSpec.ascii_text.

Lemma says_texts e n vs : XmlSpec.says P e n vs -> Forall asc vs -> texts n e = vs.
Proof.
  unfold XmlSpec.says, texts. induction 1 as [|v i vs l H F IH]; intros A; [reflexivity|]. inversion A as [|? ? Av A']; subst. cbn [map].
  rewrite <- (PA _ _ H Av), (IH A'). reflexivity.
Qed.
Lemma each_c e n v : XmlSpec.each (fun v i => C v (text_in i)) e n [v] -> asc v -> texts n e = [v].
Proof. unfold XmlSpec.each, texts. intros H A. inversion H as [|a i vs l Hc F E1 E2]; subst. inversion F; subst. cbn [map]. rewrite <- (CA _ _ Hc A). reflexivity. Qed.
Lemma attr_opt_attr e n v : XmlSpec.attr_opt P e n v -> asc v -> attr n e = v.
Proof.
  unfold XmlSpec.attr_opt, attr. destruct v as [|c v]; [intros -> _; reflexivity|]. intros (w & -> & H) A. symmetry. exact (PA _ _ H A).
Qed.
Lemma f2_comp {A B D} (R : B -> A -> Prop) (S : A -> D -> Prop) (Q : B -> D -> Prop) lb la ld :
  Forall2 R lb la -> Forall2 S la ld -> (forall b a d, In a la -> R b a -> S a d -> Q b d) -> Forall2 Q lb ld.
Proof.
  intros F. revert ld. induction F as [|b a lb la Hr F IH]; intros ld G H; inversion G; subst; constructor.
  - eapply H; [left; reflexivity|exact Hr|assumption].
  - apply IH; [assumption|]. intros b' a' d' I. apply H. right. exact I.
Qed.
(** lists below one element *)
Lemma inside_under {A} (D : A -> item -> Prop) e a n o : XmlSpec.inside_opt e a o (fun l i => XmlSpec.each D i n l) -> Forall2 D (XmlSpec.opt_list o) (under a n e).
Proof.
  unfold XmlSpec.inside_opt, XmlSpec.inside, under. destruct o as [l|]; cbn [XmlSpec.opt_list].
  - intros (i & -> & H). cbn [flat_map]. rewrite app_nil_r. exact H.
  - intros ->. constructor.
Qed.
Lemma some_if_list {A} (S : item -> A -> Prop) l o : some_if S l o -> Forall2 S l (XmlSpec.opt_list o).
Proof. unfold some_if. destruct l as [|i l]; [intros ->; constructor|]. intros (x & -> & F). exact F. Qed.
Lemma is_texts l o : some_if is_text l o -> XmlSpec.opt_list o = map text_in l.
Proof. intros H. apply some_if_list in H. apply texts_map, H. Qed.

Lemma relay_texts n l e q m : Forall2 (states_lfield true) l q -> tidy q m -> XmlSpec.translations P C "xml:lang" e n m ->
  Forall asc (map f_value m ++ map f_lang m) -> relayed_texts l (children n e).
Proof.
  intros S T D A. unfold XmlSpec.translations, XmlSpec.each in D. apply Forall_app in A as [A1 A2].
  destruct q as [|f q], m as [|g m]; try (destruct T; fail). inversion S as [|s ? l' ? Sf S' E1 E2]; subst. inversion D as [|? k ? ks Df D' E1 E2]; subst. cbn [relayed_texts].
  cbn [map] in A1, A2. inversion A1 as [|? ? V1 A1']; subst. inversion A2 as [|? ? V2 A2']; subst.
  destruct T as (T1 & T2 & T3). destruct Sf as [Sv Sl]. destruct Df as [Dv Dl].
  split; [rewrite <- (CA _ _ Dv V1), T1, Sv; reflexivity|]. split; [rewrite (attr_opt_attr _ _ _ Dl V2), T2, Sl; reflexivity|].
  clear - S' D' T3 A1' A2' PA CA. rename S' into S, D' into D, T3 into T, l' into l. revert l m S T D A1' A2'. generalize ks. clear ks.
  induction q as [|f q IH]; intros ks l m S T D A1 A2; inversion T as [|? g ? m' Tf T']; subst; inversion S as [|s ? l' ? Sf S']; subst; inversion D as [|? k ? ks' Df D']; subst; constructor.
  - cbn [map] in A1, A2. inversion A1 as [|? ? V1 _]; subst. inversion A2 as [|? ? V2 _]; subst. destruct Tf as [T1 T2]. destruct Sf as [Sv Sl]. destruct Df as [Dv Dl].
    split; [rewrite <- (CA _ _ Dv V1), T1, Sv; reflexivity|]. rewrite (attr_opt_attr _ _ _ Dl V2), T2, Sl. reflexivity.
  - cbn [map] in A1, A2. inversion A1; subst. inversion A2; subst. eapply IH; eassumption.
Qed.
Lemma relay_dep d a k : states_dep d a -> XmlSpec.describes_dep P a k -> Forall asc [d_name a; d_verfrom a; d_verto a; d_ver a] -> relayed_dep d k.
Proof.
  intros (S1 & S2 & S3 & S4 & S5 & S6 & S7) (D1 & D2 & D3 & D4 & D5 & D6 & D7) A. rewrite Forall_forall in A. split; [|split].
  - rewrite <- (PA _ _ D1) by (apply A; cbn; tauto). exact S1.
  - intros n [<-|[<-|[<-|[]]]]; eexists; (split; [eassumption|assumption]).
  - intros n [<-|[<-|[<-|[]]]]; (erewrite attr_opt_attr; [|eassumption|apply A; cbn; tauto]); assumption.
Qed.
Lemma relay_action c a k : states_action c a -> XmlSpec.describes_action P a k -> Forall asc [ac_value a; ac_package a] -> relayed_action c k.
Proof.
  intros (S1 & S2) (D1 & D2) A. rewrite Forall_forall in A. split.
  - rewrite <- (PA _ _ D1) by (apply A; cbn; tauto). exact S1.
  - rewrite (attr_opt_attr _ _ _ D2) by (apply A; cbn; tauto). exact S2.
Qed.
Lemma relay_update u a k : states_update u a -> XmlSpec.describes_update P C a k ->
  Forall asc ([u_type a; u_date a; u_version a; u_email a; u_comment a; u_name a] ++ flat_map (fun a => [ac_value a; ac_package a]) (XmlSpec.opt_list (u_requires a))) ->
  relayed_update u k.
Proof.
  intros (S1 & S2 & S3 & S4 & S5 & S6 & S7 & S8) ((w & D1 & D1') & D2 & D3 & D4 & D5 & D6 & D7 & D8) A. apply Forall_app in A as [A B]. rewrite Forall_forall in A, B. split; [|split; [|split]].
  - exists (u_release a), w. auto.
  - rewrite (attr_opt_attr _ _ _ D2) by (apply A; cbn; tauto). exact S2.
  - intros n [<-|[<-|[<-|[<-|[<-|[]]]]]].
    + rewrite (says_texts _ _ _ D3), S3 by (constructor; [apply A; cbn; tauto|constructor]). reflexivity.
    + rewrite (says_texts _ _ _ D4), S4 by (constructor; [apply A; cbn; tauto|constructor]). reflexivity.
    + rewrite (each_c _ _ _ D6), S5 by (apply A; cbn; tauto). reflexivity.
    + rewrite (each_c _ _ _ D7), S6 by (apply A; cbn; tauto). reflexivity.
    + rewrite (says_texts _ _ _ D5), S7 by (constructor; [apply A; cbn; tauto|constructor]). reflexivity.
  - eapply f2_comp; [exact (some_if_list _ _ _ S8)|exact (inside_under _ _ _ _ _ D8)|]. cbv beta. intros b c m I Sb Dc. eapply relay_action; [exact Sb|exact Dc|].
    apply Forall_forall. intros v J. apply B. apply in_flat_map. exists c. split; assumption.
Qed.
Lemma relay_package l q s d hash uri size ds e : states_package l q -> tidy (m_summary q) s -> tidy (m_descr q) d ->
  let p := indexed (retext q s d) hash uri size ds in
  XmlSpec.describes_package P C p e -> Forall asc (XmlSpec.plain_texts_package p ++ XmlSpec.free_texts_package p) -> relayed l e.
Proof.
  intros S Ts Td p D A. apply Forall_app in A as [Ap Af]. rewrite Forall_forall in Ap, Af.
  unfold XmlSpec.plain_texts_package in Ap. unfold XmlSpec.free_texts_package in Af.
  destruct D as (D1 & D2 & D3 & D4 & D5 & D6 & D7 & D8 & D9 & D10 & D11 & D12 & D13 & D14 & D15 & D16 & _ & _ & _ & _ & D17 & D18).
  unfold p in *. clear p. cbn [m_name m_summary m_descr m_isa m_partof m_license m_deps m_conflicts m_replaces m_provides m_history m_host m_distro m_distrel m_arch m_isize m_psize m_hash m_uri m_deltas m_format m_source indexed retext] in *.
  destruct S as (S1 & S2 & S3 & S4 & S5 & S6 & S7 & S8 & S9 & S10 & S11 & S12 & S13 & S14 & S15 & S16 & _ & _ & _ & _ & S17 & S18).
  assert (L1 : forall v, In v [m_name q; m_isa q; m_partof q; m_host q; m_distro q; m_distrel q; m_arch q; hash; uri; m_format q; s_name (m_source q); s_homepage (m_source q)] -> asc v).
  { intros v I. apply Ap. apply in_or_app. left. cbn in I |- *. tauto. }
  assert (L2 : forall v, In v [pk_name (s_packager (m_source q)); pk_email (s_packager (m_source q))] -> asc v).
  { intros v I. apply Ap. apply in_or_app. left. cbn in I |- *. tauto. }
  assert (One : forall v, asc v -> Forall asc [v]) by (intros v H; constructor; [exact H|constructor]).
  assert (Opt : forall n v, XmlSpec.says_opt P e n v -> asc v -> texts n e = match v with [] => [] | t => [t] end).
  { intros n v H Hv. unfold XmlSpec.says_opt in H. destruct v; [apply says_texts; [exact H|constructor]|apply says_texts; [exact H|apply One, Hv]]. }
  constructor.
  - intros n [<-|[<-|[<-|[<-|[<-|[<-|[]]]]]]].
    + rewrite (says_texts _ _ _ D1), S1; [reflexivity|]. apply One, L1. cbn; tauto.
    + rewrite (says_texts _ _ _ D12), S12; [reflexivity|]. apply One, L1. cbn; tauto.
    + rewrite (says_texts _ _ _ D13), S13; [reflexivity|]. apply One, L1. cbn; tauto.
    + rewrite (says_texts _ _ _ D14), S14; [reflexivity|]. apply One, L1. cbn; tauto.
    + rewrite (says_texts _ _ _ D15), S15; [reflexivity|]. apply One, L1. cbn; tauto.
    + rewrite (says_texts _ _ _ D17), S17; [reflexivity|]. apply One, L1. cbn; tauto.
  - intros n [<-|[<-|[]]].
    + rewrite (Opt _ _ D4), S4; [match goal with |- context [match ?x with _ => _ end] => destruct x; reflexivity end|]. apply L1; cbn; tauto.
    + rewrite (Opt _ _ D5), S5; [match goal with |- context [match ?x with _ => _ end] => destruct x; reflexivity end|]. apply L1; cbn; tauto.
  - rewrite (says_texts _ _ _ D6), S6; [reflexivity|]. apply Forall_forall. intros v I. apply Ap. rewrite !in_app_iff. tauto.
  - eapply relay_texts; [exact S2|exact Ts|exact D2|]. apply Forall_app. split; apply Forall_forall; intros v I.
    + apply Af. rewrite !in_app_iff. left. exact I.
    + apply Ap. rewrite !in_app_iff. right. left. exact I.
  - eapply relay_texts; [exact S3|exact Td|exact D3|]. apply Forall_app. split; apply Forall_forall; intros v I.
    + apply Af. rewrite !in_app_iff. right. left. exact I.
    + apply Ap. rewrite !in_app_iff. right. right. left. exact I.
  - eapply f2_comp; [exact (some_if_list _ _ _ S7)|exact (inside_under _ _ _ _ _ D7)|]. cbv beta. intros b a k I Sb Da. eapply relay_dep; [exact Sb|exact Da|].
    apply Forall_forall. intros v J. apply Ap. rewrite !in_app_iff. do 4 right. left. apply in_flat_map. exists a. split; assumption.
  - rewrite <- (is_texts _ _ S8). pose proof (inside_under _ _ _ _ _ D8) as F.
    assert (Q : forall v, In v (XmlSpec.opt_list (m_conflicts q)) -> asc v) by (intros v I; apply Ap; rewrite !in_app_iff; tauto).
    revert F Q. generalize (XmlSpec.opt_list (m_conflicts q)), (under "Conflicts" "Package" e). clear -PA. induction 1 as [|v k vs ks H F IH]; intros Q; [reflexivity|]. cbn [map].
    rewrite <- (PA _ _ H) by (apply Q; left; reflexivity). f_equal. apply IH. intros; apply Q; right; assumption.
  - rewrite <- (is_texts _ _ S9). pose proof (inside_under _ _ _ _ _ D9) as F.
    assert (Q : forall v, In v (XmlSpec.opt_list (m_replaces q)) -> asc v) by (intros v I; apply Ap; rewrite !in_app_iff; tauto).
    revert F Q. generalize (XmlSpec.opt_list (m_replaces q)), (under "Replaces" "Package" e). clear -PA. induction 1 as [|v k vs ks H F IH]; intros Q; [reflexivity|]. cbn [map].
    rewrite <- (PA _ _ H) by (apply Q; left; reflexivity). f_equal. apply IH. intros; apply Q; right; assumption.
  - unfold states_provides in S10. destruct (inner "Provides" l) as [|x lp].
    + rewrite S10 in D10. unfold under. rewrite D10. constructor.
    + destruct S10 as (pr & E & S10 & _). rewrite E in *. destruct D10 as (i & Ei & (D10 & _)). unfold under. rewrite Ei. cbn [flat_map]. rewrite app_nil_r.
      eapply f2_comp; [exact S10|exact D10|]. cbv beta. intros b a k I (Sb1 & Sb2) (Da1 & Da2).
      assert (Q : forall v, In v [co_value a; co_script a] -> asc v).
      { intros v J. apply Ap. rewrite !in_app_iff. do 7 right. left. left. apply in_flat_map. exists a. split; assumption. }
      split; [rewrite <- (PA _ _ Da1), Sb1 by (apply Q; cbn; tauto); reflexivity|]. rewrite (attr_opt_attr _ _ _ Da2), Sb2 by (apply Q; cbn; tauto). reflexivity.
  - unfold states_provides in S10. destruct (inner "Provides" l) as [|x lp].
    + rewrite S10 in D10. unfold under. rewrite D10. reflexivity.
    + destruct S10 as (pr & E & _ & S10 & _). rewrite E in *. destruct D10 as (i & Ei & (_ & D10 & _)). unfold under. rewrite Ei. cbn [flat_map]. rewrite app_nil_r.
      rewrite <- S10. apply (says_texts i "PkgConfig"); [exact D10|]. apply Forall_forall. intros v I. apply Ap. rewrite !in_app_iff. tauto.
  - unfold states_provides in S10. destruct (inner "Provides" l) as [|x lp].
    + rewrite S10 in D10. unfold under. rewrite D10. reflexivity.
    + destruct S10 as (pr & E & _ & _ & S10). rewrite E in *. destruct D10 as (i & Ei & (_ & _ & D10)). unfold under. rewrite Ei. cbn [flat_map]. rewrite app_nil_r.
      rewrite <- S10. apply (says_texts i "PkgConfig32"); [exact D10|]. apply Forall_forall. intros v I. apply Ap. rewrite !in_app_iff. tauto.
  - destruct D11 as (i & Ei & D11). unfold under. rewrite Ei. cbn [flat_map]. rewrite app_nil_r. eapply f2_comp; [exact S11|exact D11|]. cbv beta.
    intros b a k I Sb Da. eapply relay_update; [exact Sb|exact Da|]. apply Forall_forall. intros v J.
    apply in_app_or in J as [J|J].
    + cbn [In] in J. destruct J as [<-|[<-|[<-|[<-|J]]]].
      1-4: apply Ap; rewrite !in_app_iff; do 8 right; left; apply in_flat_map; exists a; split; [exact I|cbn; tauto].
      apply Af. rewrite !in_app_iff. do 2 right. apply in_flat_map. exists a. split; [exact I|cbn; tauto].
    + apply Ap; rewrite !in_app_iff; do 8 right; left; apply in_flat_map; exists a; split; [exact I|]. apply in_or_app. right. exact J.
  - exists (m_isize q). split; [exact S16|exact D16].
  - destruct D18 as (i & Ei & (D18 & _)). unfold under. rewrite Ei. cbn [flat_map]. rewrite app_nil_r. destruct S18 as (S18 & _). rewrite <- S18.
    apply (says_texts i "Name"); [exact D18|]. apply One, L1. cbn; tauto.
  - destruct D18 as (i & Ei & (_ & D18 & _)). unfold under. rewrite Ei. cbn [flat_map]. rewrite app_nil_r. destruct S18 as (_ & S18 & _). rewrite <- S18.
    assert (H : asc (s_homepage (m_source q))) by (apply L1; cbn; tauto). unfold XmlSpec.says_opt in D18.
    destruct (s_homepage (m_source q)) as [|c v]; apply (says_texts i "Homepage"); try exact D18; [constructor|apply One, H].
  - destruct D18 as (i & Ei & (_ & _ & k & Ek & D18n & D18m)). rewrite Ei. destruct S18 as (_ & _ & Sn & Sm).
    intros n N. cbn [flat_map]. rewrite app_nil_r. unfold under. rewrite Ek. cbn [flat_map]. rewrite app_nil_r. destruct N as [<-|[<-|[]]].
    + rewrite <- Sn. apply (says_texts k "Name"); [exact D18n|]. apply One, L2. cbn; tauto.
    + rewrite <- Sm. apply (says_texts k "Email"); [exact D18m|]. apply One, L2. cbn; tauto.
Qed.
Lemma relay_names xml n l q k : Forall2 (states_lfield xml) l q -> XmlSpec.translations P C (if xml then "xml:lang" else "lang") k n q ->
  Forall asc (map f_value q ++ map f_lang q) -> relayed_names xml l (children n k).
Proof.
  intros S D A. apply Forall_app in A as [A1 A2]. rewrite Forall_forall in A1, A2. eapply f2_comp; [exact S|exact D|]. cbv beta. intros b a d I (Sv & Sl) (Dv & Dl). split.
  - rewrite <- (CA _ _ Dv); [exact Sv|]. apply A1. apply in_map. exact I.
  - rewrite (attr_opt_attr _ _ _ Dl); [exact Sl|]. apply A2. apply in_map. exact I.
Qed.
Lemma relay_distribution i d k : states_distribution i d -> XmlSpec.describes_distribution P C "lang" d k ->
  Forall asc ([x_source d; x_version d; x_type d; x_binary d] ++ XmlSpec.langs (x_descr d) ++ x_obsoletes d) -> Forall asc (XmlSpec.texts_lfields (x_descr d)) -> relayed_distribution i k.
Proof.
  intros (S1 & S2 & S3 & S4 & S5 & S6) (D1 & D2 & D3 & D4 & D5 & (o & Eo & D6)) A B. apply Forall_app in A as [A A']. apply Forall_app in A' as [A2 A3]. rewrite Forall_forall in A.
  assert (One : forall v, asc v -> Forall asc [v]) by (intros v H; constructor; [exact H|constructor]). split; [|split].
  - intros n [<-|[<-|[<-|[<-|[]]]]].
    + rewrite (says_texts _ _ _ D1), S1; [reflexivity|]. apply One, A. cbn; tauto.
    + rewrite (says_texts _ _ _ D3), S3; [reflexivity|]. apply One, A. cbn; tauto.
    + rewrite (says_texts _ _ _ D4), S4; [reflexivity|]. apply One, A. cbn; tauto.
    + rewrite (says_texts _ _ _ D5), S5; [reflexivity|]. apply One, A. cbn; tauto.
  - eapply (relay_names false); [exact S2|exact D2|]. apply Forall_app. auto.
  - unfold under. rewrite Eo. cbn [flat_map]. rewrite app_nil_r, <- S6. exact (says_texts o _ _ D6 A3).
Qed.
Lemma relay_component i c k : states_component i c -> XmlSpec.describes_component P C c k ->
  Forall asc ([c_name c; c_group c; c_mname c; c_mmail c] ++ XmlSpec.langs (c_lname c) ++ XmlSpec.langs (c_summary c) ++ XmlSpec.langs (c_descr c)) ->
  Forall asc (XmlSpec.texts_lfields (c_lname c) ++ XmlSpec.texts_lfields (c_summary c) ++ XmlSpec.texts_lfields (c_descr c)) -> relayed_component i k.
Proof.
  intros (S1 & S2 & S3 & S4 & S5 & S6 & S7) (D1 & D2 & D3 & D4 & D5 & (o & Eo & D6 & D7)) A B. apply Forall_app in A as [A A']. apply Forall_app in A' as [A2 A3]. apply Forall_app in A3 as [A3 A4].
  apply Forall_app in B as [B2 B3]. apply Forall_app in B3 as [B3 B4]. rewrite Forall_forall in A.
  assert (One : forall v, asc v -> Forall asc [v]) by (intros v H; constructor; [exact H|constructor]). split; [|split].
  - intros n [<-|[<-|[]]].
    + rewrite (says_texts _ _ _ D1), S1; [reflexivity|]. apply One, A. cbn; tauto.
    + rewrite (says_texts _ _ _ D5), S5; [reflexivity|]. apply One, A. cbn; tauto.
  - intros n [<-|[<-|[<-|[]]]]; (eapply (relay_names true); [eassumption|eassumption|apply Forall_app; auto]).
  - intros n [<-|[<-|[]]]; unfold under; rewrite Eo; cbn [flat_map]; rewrite app_nil_r.
    + rewrite <- S6. apply (says_texts o "Name"); [exact D6|]. apply One, A. cbn; tauto.
    + rewrite <- S7. apply (says_texts o "Email"); [exact D7|]. apply One, A. cbn; tauto.
Qed.
Lemma relay_group i g k : states_group i g -> XmlSpec.describes_group P C g k ->
  Forall asc ([g_name g; g_icon g] ++ XmlSpec.langs (g_lname g)) -> Forall asc (XmlSpec.texts_lfields (g_lname g)) -> relayed_group i k.
Proof.
  intros (S1 & S2 & S3) (D1 & D2 & D3) A B. apply Forall_app in A as [A A']. rewrite Forall_forall in A.
  assert (One : forall v, asc v -> Forall asc [v]) by (intros v H; constructor; [exact H|constructor]). split.
  - intros n [<-|[<-|[]]].
    + rewrite (says_texts _ _ _ D1), S1; [reflexivity|]. apply One, A. cbn; tauto.
    + rewrite (says_texts _ _ _ D3), S3; [reflexivity|]. apply One, A. cbn; tauto.
  - eapply (relay_names true); [exact S2|exact D2|]. apply Forall_app. auto.
Qed.
End Relay.

(** ** C108: the index says of a package what its own metadata.xml says *)
Theorem C108_index_relays_metadata : forall symbol x i p hash uri size ds,
  XmlSpec.decoded x -> Forall XmlSpec.ascii_text (XmlSpec.plain_texts x ++ XmlSpec.free_texts x) ->
  elem i -> read_metadata i = Read p -> In (indexed p hash uri size ds) (i_packages x) ->
  exists e k, file_says (render symbol x) e /\ In k (children "Package" e) /\ relayed (inner "Package" [i]) k.
Proof.
  intros symbol x i p hash uri size ds Dx Ax K R I.
  pose proof (C107_metadata_is_read i K) as M. cbv zeta in M. rewrite R in M. destruct M as (_ & q & Sq & Ts & Td & Ep).
  destruct (PropsXml.C105_index_readable_partial symbol x Dx) as (e & Fe & De). destruct De as (_ & _ & Dp & _).
  unfold XmlSpec.each in Dp.
  assert (Y : forall ms ks (D : package -> item -> Prop) m, Forall2 D ms ks -> In m ms -> exists k, In k ks /\ D m k).
  { clear. intros ms ks D m F. induction F as [|a b ms ks H F IH]; [intros []|]. intros [->|J]; [exists b; split; [left; reflexivity|exact H]|].
    destruct (IH J) as (k & J' & H'). exists k. split; [right; exact J'|exact H']. }
  destruct (Y _ _ _ _ Dp I) as (k & Ik & Dk). exists e, k. split; [exact Fe|]. split; [exact Ik|]. rewrite Ep in Dk, I.
  eapply relay_package; [| |exact Sq|exact Ts|exact Td|exact Dk|].
  - intros v w [_ H]. exact H.
  - intros v w [_ H]. exact H.
  - apply Forall_app in Ax as [A1 A2]. rewrite Forall_forall in A1, A2. apply Forall_app. split; apply Forall_forall; intros v J.
    + apply A1. unfold XmlSpec.plain_texts. apply in_or_app. right. apply in_or_app. left. apply in_flat_map. eexists. split; [exact I|exact J].
    + apply A2. unfold XmlSpec.free_texts. apply in_or_app. right. apply in_or_app. left. apply in_flat_map. eexists. split; [exact I|exact J].
Qed.
Print Assumptions C108_index_relays_metadata.

(** ** ... and of the assets what their files say, components and groups in any order *)
Theorem C108_index_relays_assets : forall symbol x,
  XmlSpec.decoded x -> Forall XmlSpec.ascii_text (XmlSpec.plain_texts x ++ XmlSpec.free_texts x) ->
  exists e, file_says (render symbol x) e /\
    (forall i d, elem i -> read_distribution i = Some d -> i_dist x = Some d ->
       exists k, children "Distribution" e = [k] /\ relayed_distribution i k) /\
    (forall i l, elem i -> read_components i = Some l -> Permutation (i_components x) l ->
       exists ks, Permutation (children "Component" e) ks /\ Forall2 relayed_component (inner "Component" (inner "Components" [i])) ks) /\
    (forall i l, elem i -> read_groups i = Some l -> Permutation (i_groups x) l ->
       exists ks, Permutation (children "Group" e) ks /\ Forall2 relayed_group (inner "Group" (inner "Groups" [i])) ks).
Proof.
  intros symbol x Dx Ax. destruct (PropsXml.C105_index_readable_partial symbol x Dx) as (e & Fe & De). destruct De as (_ & Dd & _ & Dc & Dg).
  unfold XmlSpec.each in Dd, Dc, Dg. apply Forall_app in Ax as [A1 A2]. unfold XmlSpec.plain_texts in A1. unfold XmlSpec.free_texts in A2.
  apply Forall_app in A1 as [A1d A1]. apply Forall_app in A1 as [_ A1]. apply Forall_app in A1 as [A1c A1g].
  apply Forall_app in A2 as [A2d A2]. apply Forall_app in A2 as [_ A2]. apply Forall_app in A2 as [A2c A2g].
  assert (Y : forall (B : Type) (g : B -> list text) l b, Forall XmlSpec.ascii_text (flat_map g l) -> In b l -> Forall XmlSpec.ascii_text (g b)).
  { clear. intros B g l b F I. rewrite Forall_forall in F. apply Forall_forall. intros v J. apply F. apply in_flat_map. eauto. }
  exists e. split; [exact Fe|]. split; [|split].
  - intros i d K R E. destruct (C107_assets_are_read i K) as ((d' & R' & S) & _). rewrite R in R'. injection R' as <-. rewrite E in Dd, A1d, A2d.
    inversion Dd as [|? k ? ks D N E1 E2]; subst. inversion N; subst. exists k. split; [reflexivity|].
    eapply relay_distribution; [| |exact S|exact D|exact A1d|exact A2d]; intros v w [_ H]; exact H.
  - intros i l K R Pm. destruct (C107_assets_are_read i K) as (_ & (l' & R' & S) & _). rewrite R in R'. injection R' as <-.
    destruct (Permutation_Forall2 Pm Dc) as (ks & Pk & F). exists ks. split; [exact Pk|].
    eapply f2_comp; [exact S|exact F|]. cbv beta. intros b c k I Sb Dk.
    eapply relay_component; [| |exact Sb|exact Dk| |]; [intros v w [_ H]; exact H|intros v w [_ H]; exact H| |].
    + exact (Y _ _ _ c A1c (Permutation_in _ (Permutation_sym Pm) I)).
    + exact (Y _ _ _ c A2c (Permutation_in _ (Permutation_sym Pm) I)).
  - intros i l K R Pm. destruct (C107_assets_are_read i K) as (_ & _ & (l' & R' & S)). rewrite R in R'. injection R' as <-.
    destruct (Permutation_Forall2 Pm Dg) as (ks & Pk & F). exists ks. split; [exact Pk|].
    eapply f2_comp; [exact S|exact F|]. cbv beta. intros b c k I Sb Dk.
    eapply relay_group; [| |exact Sb|exact Dk| |]; [intros v w [_ H]; exact H|intros v w [_ H]; exact H| |].
    + exact (Y _ _ _ c A1g (Permutation_in _ (Permutation_sym Pm) I)).
    + exact (Y _ _ _ c A2g (Permutation_in _ (Permutation_sym Pm) I)).
Qed.
Print Assumptions C108_index_relays_assets.

(** a package whose metadata.xml is read, in an index that meets the hypotheses *)
Local Open Scope string_scope.
Definition demo_metadata : item := match XmlSpec.read_xml (demo_text "3" "<Summary>small</Summary>") with Some i => i | None => XmlSpec.Ch 0 end.
Definition demo_meta : package := match read_metadata demo_metadata with Read p => p | _ => as_package (zero T_package) end.
Definition demo_indexed : package := indexed demo_meta (txt "hash") (txt "n/nano/nano-1.eopkg") 700 (Some [Delta 1 (txt "d") 100 (txt "h")]).
Definition demo_relay : index := Index None [demo_indexed] [] [].
Example C108_demo :
  elem demo_metadata /\ read_metadata demo_metadata = Read demo_meta /\ (m_name demo_meta = txt "nano")%list /\ XmlSpec.decoded demo_relay /\ Forall XmlSpec.ascii_text (XmlSpec.plain_texts demo_relay ++ XmlSpec.free_texts demo_relay).
Proof.
  assert (X : forall (p : N -> bool) (l : list text), forallb (forallb p) l = true -> Forall (Forall (fun c => p c = true)) l).
  { intros p l H. rewrite forallb_forall in H. apply Forall_forall. intros v I. specialize (H v I). rewrite forallb_forall in H. apply Forall_forall. exact H. }
  split; [vm_compute; exact I|]. split; [vm_compute; reflexivity|]. split; [vm_compute; reflexivity|]. split; [split|].
  - apply X. vm_compute. reflexivity.
  - eapply Forall_impl; [|apply (X (fun c => negb (c =? 13)%N)); vm_compute; reflexivity]. intros v F. eapply Forall_impl; [|exact F]. intros c H. cbn beta in H.
    apply N.eqb_neq. destruct (c =? 13)%N; [discriminate|reflexivity].
  - eapply Forall_impl; [|apply (X (fun c => c <? 128)%N); vm_compute; reflexivity]. intros v F. eapply Forall_impl; [|exact F]. intros c H. cbn beta in H.
    apply N.ltb_lt. exact H.
Qed.
Definition demo_components_text : text := txt (
  "<PISI><Components><Component><Name>system.devel</Name><LocalName xml:lang=""en"">Development</LocalName><Group>system</Group>" ++
  "<Maintainer><Name>M</Name><Email>m@x</Email></Maintainer></Component><Component><Name>office</Name></Component></Components></PISI>").
Definition demo_components_item : item := match XmlSpec.read_xml demo_components_text with Some i => i | None => XmlSpec.Ch 0 end.
Definition demo_components : list component := match read_components demo_components_item with Some l => l | None => [] end.
Definition demo_assets : index := Index None [] (rev demo_components) [].
Example C108_assets_demo :
  elem demo_components_item /\ read_components demo_components_item = Some demo_components /\ List.length demo_components = 2%nat /\
  Permutation (i_components demo_assets) demo_components /\
  XmlSpec.decoded demo_assets /\ Forall XmlSpec.ascii_text (XmlSpec.plain_texts demo_assets ++ XmlSpec.free_texts demo_assets).
Proof.
  assert (X : forall (p : N -> bool) (l : list text), forallb (forallb p) l = true -> Forall (Forall (fun c => p c = true)) l).
  { intros p l H. rewrite forallb_forall in H. apply Forall_forall. intros v I. specialize (H v I). rewrite forallb_forall in H. apply Forall_forall. exact H. }
  split; [vm_compute; exact I|]. split; [vm_compute; reflexivity|]. split; [vm_compute; reflexivity|]. split; [apply Permutation_sym, Permutation_rev|]. split; [split|].
  - apply X. vm_compute. reflexivity.
  - eapply Forall_impl; [|apply (X (fun c => negb (c =? 13)%N)); vm_compute; reflexivity]. intros v F. eapply Forall_impl; [|exact F]. intros c H. cbn beta in H.
    apply N.eqb_neq. destruct (c =? 13)%N; [discriminate|reflexivity].
  - eapply Forall_impl; [|apply (X (fun c => c <? 128)%N); vm_compute; reflexivity]. intros v F. eapply Forall_impl; [|exact F]. intros c H. cbn beta in H.
    apply N.ltb_lt. exact H.
Qed.
