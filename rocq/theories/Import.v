(** * Import: the bytes an import puts on disk (proof artifact) *)
From Verif Require Import Model Spec DbInv DbOps Wp FsInv Ops RepoOps Pure IndexOps ApiOps History PoolFacts OpFacts OpFacts2.
Open Scope string_scope. Open Scope list_scope.

Section Import.
Variable E : env.
Variable cat : string -> meta.
Hypothesis Hcat : good_catalog cat.
Hypothesis HE : good_env E.

Notation Inv := (Inv E cat).

Definition at_pool (id : string) : loc := Loc TPool (comp_of (cat id)) id.
Definition at_repo (r id : string) : loc := Loc (TRepo r) (comp_of (cat id)) id.

Lemma wp_any {A} (m : M A) (C : state -> Prop) (Q : state -> res A -> Prop) s : wp m (fun _ => True) Q s -> wp m C (fun _ _ => True) s -> wp m C Q s.
Proof. intros H H0. eapply wp_mono; [apply (wp_and _ _ _ _ _ _ H H0)| |]; cbv beta; tauto. Qed.

(** one file: what happens to the bytes *)
Definition placed (r : string) (l : loc) (s s' : state) : Prop :=
  let id := l_id l in
  (forall x, x <> at_pool id -> x <> at_repo r id -> file_content (st_fs s') x = file_content (st_fs s) x) /\
  match sane cat (st_db s) r id with
  | None => forall x, file_content (st_fs s') x = file_content (st_fs s) x
  | Some _ =>
      file_content (st_fs s') (at_repo r id) = file_content (st_fs s') (at_pool id) /\
      file_content (st_fs s') (at_pool id) =
        match pool_at s id with Some _ => file_content (st_fs s) (at_pool id) | None => file_content (st_fs s) l end
  end.

Lemma wp_pool_bytes ex src c s : Inv ex true [] s -> upload_tree (l_tree src) = true ->
  file_content (st_fs s) src = Some c -> E_parse E c = Ok (cat (l_id src)) -> is_delta_id (l_id src) = false ->
  wp (pool_add_internal E src (cat (l_id src)) None) (fun _ => True)
     (fun s' res => res = Ok tt ->
        (forall x, x <> at_pool (l_id src) -> file_content (st_fs s') x = file_content (st_fs s) x) /\
        file_content (st_fs s') (at_pool (l_id src)) =
          match pool_at s (l_id src) with Some _ => file_content (st_fs s) (at_pool (l_id src)) | None => Some c end) s.
Proof.
  intros H Hup Hc Hm Hd. set (id := l_id src) in *.
  unfold pool_add_internal, pool_get, pool_at. fold id. apply wp_bind_gets.
  destruct (mget (d_pool (st_db s)) id) as [p|] eqn:Gp.
  - unfold db_write. destruct (reserved _); [apply wp_err; discriminate|].
    apply wp_durable; [exact Logic.I|]. intros _. split; [|reflexivity]. intros x _. reflexivity.
  - apply wp_bind_gets. rewrite Hc. eapply wp_bind_lift; [apply (comp_of_ok cat Hcat)|].
    assert (Hsd : src <> at_pool id) by (intros Heq; rewrite Heq in Hup; discriminate).
    assert (Hfresh : f_name (st_fs s) (at_pool id) = None).
    { destruct (f_name (st_fs s) (at_pool id)) eqn:G; [|reflexivity]. exfalso.
      refine (proj2 (fz_pool _ _ (i_fz _ _ _ _ _ _ H eq_refl) (comp_of (cat id)) id Hd _) Gp).
      unfold at_pool in G. rewrite G. discriminate. }
    apply wp_bind. change (pool_loc (comp_of (cat id)) id) with (at_pool id).
    apply (wp_link_or_copy E cat HE); [apply (i_fs _ _ _ _ _ _ H)|reflexivity|exact Hsd|auto|].
    intros f' St Fr. destruct (Fr Hfresh) as [Fr1 Fr2]. cbv beta iota. apply wp_bind_gets.
    assert (Go : forall x, x <> at_pool id -> file_content f' x = file_content (st_fs s) x) by (intros x N; apply Fr1, N).
    cbn [st_fs on_fs]. destruct (file_content f' src) as [[|a c2]|]; [apply wp_err; discriminate| |apply wp_err; discriminate].
    unfold on_err, db_write. destruct (reserved _).
    + unfold wp. cbn. split; [repeat constructor|discriminate].
    + unfold wp. cbn. split; [repeat constructor|]. intros _. split; [exact Go|]. rewrite Fr2. exact Hc.
Qed.

Lemma wp_local_bytes ex r src c s : Inv ex true [] s -> upload_tree (l_tree src) = true ->
  file_content (st_fs s) src = Some c -> E_parse E c = Ok (cat (l_id src)) -> is_delta_id (l_id src) = false ->
  mhas (d_repos (st_db s)) r = true ->
  wp (add_local_package E r src (cat (l_id src))) (fun _ => True) (fun s' res => res = Ok tt -> placed r src s s') s.
Proof.
  intros H Hup Hc Hm Hd Hr. unfold placed. cbv zeta. set (id := l_id src) in *.
  unfold add_local_package. fold id. eapply wp_bind_lift; [apply (comp_of_ok cat Hcat)|].
  eapply wp_bind_read. { eapply build_sane_eq; eauto. apply (rel_ok cat Hcat). }
  destruct (sane cat (st_db s) r id) as [e|] eqn:S.
  2:{ apply wp_ret. intros _. split; intros; reflexivity. }
  apply wp_bind. eapply wp_mono.
  { refine (wp_and _ _ _ _ _ _ (wp_pool_bytes ex src c s H Hup Hc Hm Hd) _).
    apply (wp_pool_add E cat Hcat HE ex true r src (cat id) c None s H Hup Hc Hm); [|discriminate]. fold id. split; congruence. }
  { auto. }
  fold id. cbv beta. intros s1 res [B1 [(-> & H1 & R1 & h & z & D1 & P1 & Z1)|(-> & H1 & R1 & D1 & Z1)]]; [|cbv iota; discriminate].
  destruct (B1 eq_refl) as [B2 B3]. cbv iota.
  set (dst := at_repo r id).
  assert (Hfresh : f_name (st_fs s1) dst = None).
  { destruct (f_name (st_fs s1) dst) eqn:G; [|reflexivity]. exfalso.
    destruct (fz_repo _ _ (i_fz _ _ _ _ _ _ H1 eq_refl) r (comp_of (cat id)) id Hd) as (_ & e0 & G0 & Hin).
    - unfold dst, at_repo in G. rewrite G. discriminate.
    - rewrite D1, touch_ents in G0. pose proof (sane_fresh _ _ _ _ _ S) as F. rewrite G0 in F.
      apply sin_not_In in F. contradiction. }
  apply wp_bind. change (pool_loc (comp_of (cat id)) id) with (at_pool id). change (Loc (TRepo r) (comp_of (cat id)) id) with dst.
  apply (wp_link_or_copy E cat HE); [apply (i_fs _ _ _ _ _ _ H1)|reflexivity|discriminate|auto|].
  intros f' St Fr. destruct (Fr Hfresh) as [Fr1 Fr2]. cbv beta iota.
  unfold db_write. destruct (reserved _); [apply wp_err; discriminate|].
  apply wp_durable; [exact Logic.I|]. intros _. cbn [st_fs on_fs on_db].
  assert (Np : at_pool id <> dst) by discriminate.
  split; [|split].
  - intros x N1 N2. rewrite Fr1 by exact N2. apply B2, N1.
  - rewrite Fr2, Fr1 by exact Np. reflexivity.
  - rewrite Fr1 by exact Np. rewrite B3, Hc. reflexivity.
Qed.

Lemma wp_add_bytes ex r src strict s : Inv ex true [] s -> upload_tree (l_tree src) = true -> is_delta_id (l_id src) = false ->
  mhas (d_repos (st_db s)) r = true ->
  wp (add_package E r src strict) (fun _ => True) (fun s' res => res = Ok tt -> placed r src s s') s.
Proof.
  intros H Hup Hd Hr. set (id := l_id src) in *. unfold add_package, open_pkg.
  apply wp_bind_assoc. apply wp_bind_gets.
  destruct (file_content (st_fs s) src) as [c|] eqn:Hc; [|apply wp_bind, wp_err; discriminate].
  assert (Hg : good_file E cat id c).
  { unfold file_content in Hc. destruct (f_name (st_fs s) src) as [i|] eqn:Gi; [|discriminate]. injection Hc as <-.
    apply (fo_good _ _ _ (i_fs _ _ _ _ _ _ H) _ _ Gi). }
  unfold good_file in Hg.
  destruct (E_parse E c) as [m| |] eqn:Hm; [|apply wp_bind, wp_lift; discriminate|contradiction].
  subst m. eapply wp_bind_lift; [reflexivity|].
  assert (Go : wp (add_local_package E r src (cat id)) (fun _ => True) (fun s' res => res = Ok tt -> placed r src s s') s).
  { eapply wp_local_bytes; eauto. }
  destruct strict; cbn [negb]; [|exact Go].
  unfold ent_get. apply wp_bind_gets. destruct (mget (d_ents (st_db s) r) (m_name (cat id))) as [e|] eqn:G; [|exact Go].
  unfold pool_get_or_err, pool_get. apply wp_bind_assoc, wp_bind_gets.
  destruct (mget (d_pool (st_db s)) (e_pub e)) as [p|] eqn:Gp; [|apply wp_bind, wp_err; discriminate].
  apply wp_bind_ret. destruct (get_release (p_meta p)); [|apply wp_bind, wp_lift; discriminate|apply wp_bind, wp_lift; discriminate].
  eapply wp_bind_lift; [reflexivity|].
  destruct (get_release (cat id)); [|apply wp_bind, wp_lift; discriminate|apply wp_bind, wp_lift; discriminate].
  eapply wp_bind_lift; [reflexivity|].
  destruct (Z.ltb _ _); [apply wp_err; discriminate|]. destruct (Z.eqb _ _); [apply wp_err; discriminate|exact Go].
Qed.

(** the file the import takes for [id]: the first one sent under that name *)
Definition sent (f : fs) (pkgs : list loc) (id : string) : option string :=
  match find (fun l => seqb (l_id l) id) pkgs with Some l => file_content f l | None => None end.

Record imported (r : string) (pkgs : list loc) (s s' : state) : Prop := {
  im_keep : forall x c, file_content (st_fs s) x = Some c -> file_content (st_fs s') x = Some c;
  im_only : forall x, (forall l, In l pkgs -> x <> at_pool (l_id l) /\ x <> at_repo r (l_id l)) -> file_content (st_fs s') x = file_content (st_fs s) x;
  im_bytes : forall id, In id (map l_id pkgs) -> ~ In id (avail_db (st_db s) r (m_name (cat id))) ->
     exists c, file_content (st_fs s') (at_repo r id) = Some c /\ file_content (st_fs s') (at_pool id) = Some c /\
       (pool_at s id = None -> sent (st_fs s) pkgs id = Some c)
}.

Lemma sane_none d r id : sane cat d r id = None <-> In id (avail_db d r (m_name (cat id))).
Proof.
  unfold sane, avail_db. destruct (mget (d_ents d r) (m_name (cat id))) as [e|] eqn:G; cbn [fst].
  - destruct (sin id (e_avail e)) eqn:X; [apply sin_In in X; tauto|]. apply sin_not_In in X. split; [discriminate|contradiction].
  - cbn. split; [discriminate|contradiction].
Qed.

Lemma pool_other r l h z d x : db_ok cat d -> x <> l -> mget (d_pool (db_add cat r (new_pentry cat l h z None) d)) x = mget (d_pool d) x.
Proof.
  intros Hd N. rewrite (db_add_put cat). unfold db_put. change (p_name (new_pentry cat l h z None)) with l.
  destruct (sane cat d r l); [|reflexivity]. cbn [apply_op d_pool]. unfold db_touch. change (p_name (new_pentry cat l h z None)) with l.
  destruct (mget (d_pool d) l) as [p|] eqn:G.
  - unfold d_bump. rewrite G. cbn [apply_op d_pool]. rewrite mget_put.
    change (p_name (set_rc p (p_rc p + 1))) with (p_name p). rewrite (po_name _ _ _ (ok_pool _ _ Hd _ _ G)).
    destruct (seqb_spec x l); [contradiction|reflexivity].
  - cbn [apply_op d_pool]. rewrite mget_put. change (p_name (new_pentry cat l h z None)) with l. destruct (seqb_spec x l); [contradiction|reflexivity].
Qed.

Lemma imported_nil r s : imported r [] s s.
Proof. constructor; auto. intros id []. Qed.

Lemma imported_cons ex r strict l ls s s1 s' : Inv ex true [] s -> upload_tree (l_tree l) = true -> is_delta_id (l_id l) = false ->
  Forall (fun l => upload_tree (l_tree l) = true /\ is_delta_id (l_id l) = false) ls ->
  placed r l s s1 -> add_outcome E cat true r l strict s s1 (Ok tt) -> imported r ls s1 s' -> imported r (l :: ls) s s'.
Proof.
  intros H U D F [P1 P2] O [K Ky B]. set (id := l_id l) in *.
  inversion O as [| | |c h z Fc Pm Ns Hz Po Ed]; subst. fold id in Ed, Po.
  assert (FrR : sane cat (st_db s) r id <> None -> file_content (st_fs s) (at_repo r id) = None).
  { intros S. unfold file_content. destruct (f_name (st_fs s) (at_repo r id)) as [i|] eqn:G; [|reflexivity]. exfalso. apply S, sane_none.
    destruct (fz_repo _ _ (i_fz _ _ _ _ _ _ H eq_refl) r (comp_of (cat id)) id D) as (_ & e & G1 & G2).
    - unfold at_repo in G. rewrite G. discriminate.
    - unfold avail_db. rewrite G1. exact G2. }
  assert (FrP : pool_at s id = None -> file_content (st_fs s) (at_pool id) = None).
  { intros S. unfold file_content. destruct (f_name (st_fs s) (at_pool id)) as [i|] eqn:G; [|reflexivity]. exfalso.
    destruct (fz_pool _ _ (i_fz _ _ _ _ _ _ H eq_refl) (comp_of (cat id)) id D) as (_ & G1).
    - unfold at_pool in G. rewrite G. discriminate.
    - apply G1, S. }
  assert (Keep : forall x c0, file_content (st_fs s) x = Some c0 -> file_content (st_fs s1) x = Some c0).
  { intros x c0 X. destruct (sane cat (st_db s) r id) as [e|] eqn:S; [|rewrite P2; exact X].
    destruct P2 as [P2 P3]. destruct (loc_eqb_spec x (at_pool id)) as [->|N1].
    - rewrite P3. destruct (pool_at s id) as [p|] eqn:Gp; [exact X|]. rewrite (FrP eq_refl) in X. discriminate.
    - destruct (loc_eqb_spec x (at_repo r id)) as [->|N2]; [|rewrite P1; assumption].
      rewrite FrR in X; discriminate. }
  assert (Up : forall p, In p ls -> file_content (st_fs s1) p = file_content (st_fs s) p).
  { intros p Hp. rewrite Forall_forall in F. destruct (F p Hp) as [Up _]. apply P1; intros ->; discriminate. }
  constructor.
  - intros x c0 X. apply K, Keep, X.
  - intros x X. rewrite Ky by (intros y Hy; apply X; right; exact Hy). destruct (X l (or_introl eq_refl)) as [X1 X2]. apply P1; assumption.
  - intros x Hx Nx. destruct (string_dec x id) as [->|N].
    + assert (S : sane cat (st_db s) r id <> None) by (rewrite sane_none; exact Nx).
      destruct (sane cat (st_db s) r id) as [e|] eqn:S0; [|congruence]. destruct P2 as [P2 P3].
      assert (Q : exists c0, file_content (st_fs s1) (at_pool id) = Some c0 /\ (pool_at s id = None -> c0 = c)).
      { rewrite P3. destruct (pool_at s id) as [p|] eqn:Gp; [|exists c; auto].
        destruct (fx_pool _ _ _ (i_fx _ _ _ _ _ _ H eq_refl) id p Gp D) as (c0 & C1 & _). exists c0. split; [exact C1|discriminate]. }
      destruct Q as (c0 & Q1 & Q2). exists c0. split; [apply K; congruence|]. split; [apply K, Q1|].
      intros Gp. unfold sent. cbn [find]. fold id. rewrite seqb_refl. rewrite (Q2 Gp). exact Fc.
    + destruct Hx as [Hx|Hx]; [fold id in Hx; congruence|].
      destruct (B x Hx) as (c0 & C1 & C2 & C3).
      { rewrite Ed, (db_add_put cat). change (p_name (new_pentry cat id h z None)) with id. intros X. apply Nx.
        apply (put_avail cat) in X; [|apply touch_ents]. destruct X as [X|[X _]]; [exact X|destruct (N X)]. }
      exists c0. split; [exact C1|]. split; [exact C2|]. intros Gp.
      assert (X : sent (st_fs s1) ls x = Some c0).
      { apply C3. unfold pool_at in *. rewrite Ed. rewrite pool_other; [exact Gp|apply (i_db _ _ _ _ _ _ H)|exact N]. }
      unfold sent in *. cbn [find]. fold id. destruct (seqb_spec id x); [congruence|].
      destruct (find (fun l0 => seqb (l_id l0) x) ls) as [p|] eqn:Fp; [|discriminate].
      apply find_some in Fp. rewrite <- X. symmetry. apply Up, Fp.
Qed.

Lemma wp_loop_bytes ex r strict pkgs : forall s, Inv ex true [] s -> mhas (d_repos (st_db s)) r = true ->
  Forall (fun l => upload_tree (l_tree l) = true /\ is_delta_id (l_id l) = false) pkgs ->
  wp (forM pkgs (fun p => add_package E r p strict)) (fun _ => True)
     (fun s' res => res = Ok tt -> imported r pkgs s s') s.
Proof.
  induction pkgs as [|l ls IH]; intros s H Hr Hf; simpl.
  - apply wp_ret. intros _. apply imported_nil.
  - inversion Hf as [|? ? [U D] Hf']; subst. apply wp_bind.
    eapply wp_mono; [refine (wp_and _ _ _ _ _ _ (wp_add_bytes ex r l strict s H U D Hr) (wp_add_package E cat Hcat HE ex true r l strict s H U D Hr))|auto|].
    cbv beta. intros s1 [[]| |] (B1 & I1 & R1 & O1); [|discriminate|discriminate].
    assert (Hr1 : mhas (d_repos (st_db s1)) r = true) by (rewrite (add_repos E cat _ _ _ _ _ _ _ O1); exact Hr).
    eapply wp_post; [apply (IH s1 I1 Hr1 Hf')|]. cbv beta. intros s' res X Er.
    eapply imported_cons; eauto.
Qed.

Lemma indexed_files o r s s' res : indexed E cat o r s s' res -> forall x, file_content (st_fs s') x = file_content (st_fs s) x.
Proof.
  intros [_ ->|s1 re _ Q R] x; [reflexivity|].
  rewrite (same_files_content _ _ x (qr_files _ _ _ (ir_quiet _ _ _ _ _ _ _ R))). apply same_files_content, (qd_files _ _ _ Q).
Qed.

Lemma imported_ext r pkgs s s0 s1 s' : st_db s0 = st_db s -> (forall x, file_content (st_fs s0) x = file_content (st_fs s) x) ->
  (forall x, file_content (st_fs s') x = file_content (st_fs s1) x) -> imported r pkgs s0 s1 -> imported r pkgs s s'.
Proof.
  intros Ed Ef Eg [K Ky B]. constructor.
  - intros x c X. rewrite Eg. apply K. rewrite Ef. exact X.
  - intros x X. rewrite Eg, Ky, Ef by exact X. reflexivity.
  - intros id Hin N. rewrite <- Ed in N. destruct (B id Hin N) as (c & C1 & C2 & C3). exists c. rewrite !Eg. split; [exact C1|]. split; [exact C2|].
    intros Gp. unfold pool_at in *. rewrite <- Ed in Gp. specialize (C3 Gp). unfold sent in *. destruct (find _ pkgs); [rewrite <- Ef; exact C3|discriminate].
Qed.

Lemma wp_import ex o r pkgs strict s : Inv ex true [] s -> good_oracle o ->
  Forall (fun l => upload_tree (l_tree l) = true /\ is_delta_id (l_id l) = false) pkgs ->
  wp (api_add_packages E o r pkgs strict) (fun _ => True) (fun s' res => res = Ok tt -> imported r pkgs s s') s.
Proof.
  intros H Ho Hf. unfold api_add_packages. eapply (wp_with_repo E cat ex true); [exact H|auto|discriminate|].
  intros s1 I1 Q1 Hr. apply wp_bind. assert (Hr1 : mhas (d_repos (st_db s1)) r = true) by (rewrite (qd_db _ _ _ Q1); exact Hr).
  eapply wp_mono; [refine (wp_and _ _ _ _ _ _ (wp_loop_bytes ex r strict pkgs s1 I1 Hr1 Hf) (wp_add_loop E cat Hcat HE ex true r strict pkgs s1 I1 Hr1 Hf))|auto|].
  cbv beta. intros s2 [[]| |] (B2 & I2 & A2 & Np); [|discriminate|congruence].
  eapply wp_mono; [apply (wp_api_index E cat Hcat HE ex true o r s2 I2 Ho)|auto|]. cbv beta. intros s' res (_ & X & _) _.
  refine (imported_ext r pkgs s s1 s2 s' (qd_db _ _ _ Q1) _ _ (B2 eq_refl)).
  - intros x. apply same_files_content, (qd_files _ _ _ Q1).
  - apply (indexed_files _ _ _ _ _ X).
Qed.

Lemma import_bytes ex s o r pkgs strict : Inv ex true [] s -> good_oracle o -> good_op (OpAdd r pkgs strict) ->
  succeeds E o (OpAdd r pkgs strict) s -> imported r pkgs s (after E o (OpAdd r pkgs strict) s).
Proof.
  intros H Ho Hp [l Su].
  destruct (run_unit E (api_add_packages E o r pkgs strict) _ _ s o (OpAdd r pkgs strict) eq_refl (wp_import ex o r pkgs strict s H Ho Hp)) as (res & W & Hout).
  rewrite Su in Hout. destruct res as [[]| |]; try discriminate. apply W. reflexivity.
Qed.

(** everything a successful import does *)
Record import_of (r : string) (pkgs : list loc) (s s' : state) : Prop := {
  io_files : imported r pkgs s s';
  io_repos : d_repos (st_db s') = d_repos (st_db s);
  io_others : forall x, x <> r -> d_ents (st_db s') x = d_ents (st_db s) x;
  io_avail : forall id, available s' r id <-> available s r id \/ In id (map l_id pkgs);
  io_assets : f_asset (st_fs s') = f_asset (st_fs s)
}.

Lemma added_assets ex r strict pkgs s s' res : added E cat ex true r strict pkgs s s' res -> f_asset (st_fs s') = f_asset (st_fs s).
Proof. induction 1 as [s|l ls s s1 s' res I1 R1 O1 A IH|l ls s s1 R1 O1]; [reflexivity|rewrite IH; apply (rs_asset _ _ _ _ R1)|apply (rs_asset _ _ _ _ R1)]. Qed.
Lemma indexed_assets o r s s' res : indexed E cat o r s s' res -> f_asset (st_fs s') = f_asset (st_fs s).
Proof.
  intros [_ ->|s1 re _ Q R]; [reflexivity|]. rewrite (qr_asset _ _ _ (ir_quiet _ _ _ _ _ _ _ R)). apply (qd_asset _ _ _ Q).
Qed.

Lemma import_done ex s o r pkgs strict : Inv ex true [] s -> good_oracle o -> good_op (OpAdd r pkgs strict) ->
  succeeds E o (OpAdd r pkgs strict) s -> import_of r pkgs s (after E o (OpAdd r pkgs strict) s).
Proof.
  intros H Ho Hp Su. set (s' := after E o (OpAdd r pkgs strict) s).
  destruct (add_facts E cat Hcat HE ex s o r pkgs strict H Ho Hp) as (_ & G & K). fold s' in G, K. specialize (K Su).
  constructor.
  - apply (import_bytes ex); assumption.
  - apply (gr_repos _ _ _ _ _ G).
  - apply (gr_others _ _ _ _ _ G).
  - intros id. split.
    + intros (n & e & Ge & Hin). destruct (gr_only _ _ _ _ _ G n id) as [X|(l & c & m & X & Y & _)].
      * unfold avail_db. unfold entry_at in Ge. rewrite Ge. exact Hin.
      * left. unfold avail_db in X. destruct (mget (d_ents (st_db s) r) n) as [e0|] eqn:G0; [|destruct X]. exists n, e0. auto.
      * right. rewrite <- Y. apply in_map, X.
    + intros [(n & e & Ge & Hin)|X].
      * assert (Y : In id (avail_db (st_db s') r n)).
        { apply (gr_more _ _ _ _ _ G). unfold avail_db. unfold entry_at in Ge. rewrite Ge. exact Hin. }
        unfold avail_db in Y. destruct (mget (d_ents (st_db s') r) n) as [e0|] eqn:G0; [|destruct Y]. exists n, e0. auto.
      * apply in_map_iff in X. destruct X as (l & <- & Hl). destruct (K l Hl) as (n & _ & Y). unfold available_ids in Y.
        destruct (entry_at s' r n) as [e0|] eqn:G0; [|destruct Y]. exists n, e0. auto.
  - destruct (run_unit E (api_add_packages E o r pkgs strict) _ _ s o (OpAdd r pkgs strict) eq_refl (wp_api_add E cat Hcat HE ex true o r pkgs strict s H Ho Hp)) as (res & (_ & _ & W) & Hout).
    fold s' in W. destruct Su as [l0 Su]. destruct W as [(-> & _)|(s1 & _ & [(X0 & _)|(_ & s0 & Q & A)] & X)]; [congruence|discriminate|].
    rewrite (indexed_assets _ _ _ _ _ X), (added_assets _ _ _ _ _ _ _ A). apply (qd_asset _ _ _ Q).
Qed.

Lemma sent_app f a b id : sent f (a ++ b) id = if existsb (fun l => seqb (l_id l) id) a then sent f a id else sent f b id.
Proof.
  unfold sent. induction a as [|l a IH]; [reflexivity|]. cbn [app find existsb]. destruct (seqb (l_id l) id); [reflexivity|exact IH].
Qed.
Lemma sent_uploads f g pkgs id : (forall l, In l pkgs -> file_content g l = file_content f l) -> sent g pkgs id = sent f pkgs id.
Proof. intros X. unfold sent. destruct (find _ pkgs) as [l|] eqn:F; [|reflexivity]. apply find_some in F. apply X, F. Qed.
Lemma existsb_ids a id : existsb (fun l => seqb (l_id l) id) a = true <-> In id (map l_id a).
Proof.
  rewrite existsb_exists, in_map_iff. split; intros (l & A & B).
  - exists l. destruct (seqb_spec (l_id l) id); [auto|discriminate].
  - exists l. split; [exact B|]. rewrite A. apply seqb_refl.
Qed.

(** two imports in a row are one import of all the files *)
Lemma import_app ex r a b s s1 s2 : Inv ex true [] s -> Inv ex true [] s1 -> good_op (OpAdd r (a ++ b) false) ->
  import_of r a s s1 -> import_of r b s1 s2 -> import_of r (a ++ b) s s2.
Proof.
  intros H H1 Hp. unfold good_op in Hp. rewrite Forall_forall in Hp. intros [[K1 Y1 B1] R1 O1 A1 S1] [[K2 Y2 B2] R2 O2 A2 S2].
  assert (Nm : forall id, In id (avail_db (st_db s) r (m_name (cat id))) <-> available s r id).
  { intros id. unfold avail_db. split.
    - destruct (mget (d_ents (st_db s) r) (m_name (cat id))) as [e|] eqn:G; [|intros []]. intros X. exists (m_name (cat id)), e. auto.
    - intros (n & e & G & X). pose proof (eo_avail _ _ _ (ok_ent _ _ (i_db _ _ _ _ _ _ H) _ _ _ G) _ X) as (Y & _). unfold entry_at in G. rewrite Y, G. exact X. }
  assert (Nm1 : forall id, In id (avail_db (st_db s1) r (m_name (cat id))) <-> available s1 r id).
  { intros id. unfold avail_db. split.
    - destruct (mget (d_ents (st_db s1) r) (m_name (cat id))) as [e|] eqn:G; [|intros []]. intros X. exists (m_name (cat id)), e. auto.
    - intros (n & e & G & X). pose proof (eo_avail _ _ _ (ok_ent _ _ (i_db _ _ _ _ _ _ H1) _ _ _ G) _ X) as (Y & _). unfold entry_at in G. rewrite Y, G. exact X. }
  assert (Up : forall l, In l (a ++ b) -> upload_tree (l_tree l) = true) by (intros l Hl; apply Hp, Hl).
  assert (Fx : forall l, In l (a ++ b) -> file_content (st_fs s1) l = file_content (st_fs s) l).
  { intros l Hl. apply Y1. intros l' _. specialize (Up l Hl). split; intros ->; discriminate. }
  assert (Dl : forall id, In id (map l_id (a ++ b)) -> is_delta_id id = false).
  { intros id X. apply in_map_iff in X. destruct X as (l & <- & Hl). apply Hp, Hl. }
  constructor.
  - constructor.
    + intros x c X. apply K2, K1, X.
    + intros x X. rewrite Y2 by (intros l Hl; apply X; apply in_or_app; auto). apply Y1. intros l Hl. apply X. apply in_or_app. auto.
    + intros id Hin N. assert (Ni := Dl id Hin). rewrite map_app in Hin. destruct (in_dec string_dec id (map l_id a)) as [Ha|Ha].
      * destruct (B1 id Ha N) as (c & C1 & C2 & C3). exists c. split; [apply K2, C1|]. split; [apply K2, C2|].
        intros Gp. rewrite sent_app, (proj2 (existsb_ids a id) Ha). apply C3, Gp.
      * apply in_app_or in Hin. destruct Hin as [Hb|Hb]; [contradiction|].
        assert (N1 : ~ In id (avail_db (st_db s1) r (m_name (cat id)))).
        { rewrite Nm1, A1. rewrite Nm in N. tauto. }
        destruct (B2 id Hb N1) as (c & C1 & C2 & C3). exists c. split; [exact C1|]. split; [exact C2|]. intros Gp.
        rewrite sent_app. destruct (existsb (fun l => seqb (l_id l) id) a) eqn:X; [apply existsb_ids in X; contradiction|].
        rewrite <- C3.
        -- apply sent_uploads. intros l Hl. symmetry. apply Fx, in_or_app. auto.
        -- destruct (pool_at s1 id) as [p|] eqn:G1; [|reflexivity]. exfalso.
           destruct (fx_pool _ _ _ (i_fx _ _ _ _ _ _ H1 eq_refl) id p G1 Ni) as (c1 & D1 & _).
           fold (at_pool id) in D1. rewrite Y1 in D1.
           ++ unfold file_content in D1. destruct (f_name (st_fs s) (at_pool id)) as [i|] eqn:Gi; [|discriminate].
              destruct (fz_pool _ _ (i_fz _ _ _ _ _ _ H eq_refl) (comp_of (cat id)) id Ni) as (_ & Z); [unfold at_pool in Gi; rewrite Gi; discriminate|].
              apply Z, Gp.
           ++ intros l Hl. split; [|discriminate]. intros Eq. injection Eq as _ Eq. apply Ha. rewrite Eq. apply in_map, Hl.
  - congruence.
  - intros x Nx. rewrite O2, O1 by exact Nx. reflexivity.
  - intros id. rewrite A2, A1, map_app, in_app_iff. tauto.
  - congruence.
Qed.

Lemma sent_perm f pkgs pkgs' id : NoDup (map l_id pkgs) -> Permutation pkgs pkgs' -> sent f pkgs id = sent f pkgs' id.
Proof.
  intros ND P. assert (ND' : NoDup (map l_id pkgs')) by (eapply Permutation_NoDup; [apply Permutation_map, P|exact ND]).
  assert (Z : forall l, NoDup (map l_id l) -> forall x, In x l -> l_id x = id -> find (fun y => seqb (l_id y) id) l = Some x).
  { induction l as [|y l IH]; intros N x Hx Ex; [destruct Hx|]. cbn [find]. cbn [map] in N. inversion N as [|? ? Na N']; subst.
    destruct Hx as [->|Hx]; [rewrite seqb_refl; reflexivity|]. destruct (seqb_spec (l_id y) (l_id x)) as [Eq|Ne]; [|apply IH; auto].
    exfalso. apply Na. rewrite Eq. apply in_map, Hx. }
  unfold sent. destruct (find (fun l => seqb (l_id l) id) pkgs) as [x|] eqn:F.
  - apply find_some in F. destruct F as [F1 F2]. destruct (seqb_spec (l_id x) id) as [Ex|]; [|discriminate].
    rewrite (Z pkgs' ND' x); [reflexivity|eapply Permutation_in; eauto|exact Ex].
  - destruct (find (fun l => seqb (l_id l) id) pkgs') as [x|] eqn:F'; [|reflexivity].
    apply find_some in F'. destruct F' as [F1 F2]. destruct (seqb_spec (l_id x) id) as [Ex|]; [|discriminate].
    rewrite (Z pkgs ND x) in F; [discriminate|eapply Permutation_in; [apply Permutation_sym, P|exact F1]|exact Ex].
Qed.
End Import.
