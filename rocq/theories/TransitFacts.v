(** * TransitFacts: proofs about manifest uploads (proof artifact) *)
From Verif Require Import Model Spec DbInv DbOps Wp FsInv Ops UnrefOps RepoOps DeleteOps Pure Loops Emit IndexOps ApiOps History OpFacts OpFacts2 Frame.
From Verif Require Import Paths PathFacts Reading Transit.
From Verif Require Import DeltaJobFacts.
From Verif Require Import Model Spec FsInv.
Open Scope string_scope. Open Scope list_scope.

(** ** paths *)
Lemma filter_normal l : Forall normal l -> filter keepc l = l.
Proof.
  induction 1 as [|y l (A & B & _) _ IH]; [reflexivity|]. cbn [filter].
  unfold keepc. destruct (seqb_spec y ""), (seqb_spec y "."); try congruence. change (y :: filter keepc l = y :: l). rewrite IH. reflexivity.
Qed.
Lemma clean_id l : Forall normal l -> clean (abs l) = abs l.
Proof.
  intros F. rewrite clean_abs; [|intros H|apply prefix_slash].
  - f_equal. destruct l as [|x l]; [reflexivity|]. rewrite abs_split by (try discriminate; assumption).
    change (filter keepc ("" :: x :: l)) with (filter keepc (x :: l)). apply filter_normal, F.
  - destruct l as [|x l]; [cbn in H; intuition discriminate|]. rewrite abs_split in H by (try discriminate; assumption).
    destruct H as [H|H]; [discriminate|]. rewrite Forall_forall in F. destruct (F _ H) as (_ & _ & X & _). congruence.
Qed.
Lemma dirname_abs l x : l <> [] -> Forall normal (l ++ [x]) -> dirname (abs (l ++ [x])) = abs l.
Proof.
  intros N F. unfold dirname. rewrite abs_split by (auto; destruct l; discriminate).
  change ("" :: l ++ [x]) with (("" :: l) ++ [x]). rewrite removelast_last.
  apply Forall_app in F as [F _].
  assert (P : has_prefix "/" (join_slash (("" :: l) ++ [""])) = true).
  { rewrite join_app by discriminate. destruct l as [|y l]; [congruence|]. rewrite join_cons. apply prefix_slash. }
  assert (S : split_slash (join_slash (("" :: l) ++ [""])) = ("" :: l) ++ [""]).
  { apply split_join; [discriminate|]. apply Forall_app. split; [|repeat constructor]. constructor; [reflexivity|].
    eapply Forall_impl; [|exact F]. intros y (_ & _ & _ & H). exact H. }
  rewrite clean_abs; rewrite ?S; [|intros H|exact P].
  - rewrite filter_app. cbn [filter]. change (keepc "") with false. cbn match. rewrite app_nil_r. f_equal. apply filter_normal, F.
  - apply in_app_iff in H as [[H|H]|[H|[]]]; try discriminate. rewrite Forall_forall in F. destruct (F _ H) as (_ & _ & X & _). congruence.
Qed.
Lemma strip_app B l : strip B (B ++ l) = Some l.
Proof. induction B; cbn; [reflexivity|]. rewrite seqb_refl. exact IHB. Qed.
Lemma locate_incoming B rest : Forall normal (B ++ "incoming" :: rest) -> locate B (abs (B ++ "incoming" :: rest)) = outside (B ++ "incoming" :: rest).
Proof.
  intros F. unfold locate. rewrite abs_split by (auto; destruct B; discriminate). cbn [tl]. rewrite strip_app.
  destruct rest as [|x [|y rest]]; [reflexivity|cbn [seqb]; destruct (seqb "incoming" "pool") eqn:X; [discriminate|reflexivity]|].
  destruct (seqb "incoming" "pool") eqn:X; [discriminate|]. destruct (seqb "incoming" "repo") eqn:Y; [discriminate|].
  destruct (seqb "incoming" "deltaStaging") eqn:Z; [discriminate|]. reflexivity.
Qed.
(** the last component of a path with a slash-free suffix *)
Lemma split_suffix t : has_slash t = false -> forall a, exists pre x, split_slash (a ++ t) = pre ++ [(x ++ t)%string].
Proof.
  intros N. induction a as [|c a IH]; cbn [append].
  - exists [], "". cbn. apply split_one, N.
  - destruct IH as (pre & x & IH). cbn [split_slash]. destruct (Ascii.eqb c slash).
    + exists ("" :: pre), x. rewrite IH. reflexivity.
    + rewrite IH. destruct pre as [|h pre]; [exists [], (String c x)|exists (String c h :: pre), x]; reflexivity.
Qed.
Lemma payload_comps p : has_suffix ".eopkg" p = true -> ~ In ".." (split_slash p) ->
  exists pre x, filter keepc (split_slash p) = pre ++ [(x ++ ".eopkg")%string] /\ Forall normal (pre ++ [(x ++ ".eopkg")%string]).
Proof.
  intros H U. apply has_suffix_spec in H as (a & ->). destruct (split_suffix ".eopkg" eq_refl a) as (pre & x & S).
  pose proof (keepc_normal _ U (split_no_slash _)) as F. rewrite S in *. rewrite filter_app in *. cbn [filter] in *.
  assert (K : keepc (x ++ ".eopkg") = true).
  { unfold keepc. destruct (seqb_spec (x ++ ".eopkg")%string "") as [X|_]; [destruct x; discriminate|].
    destruct (seqb_spec (x ++ ".eopkg")%string ".") as [X|_]; [|reflexivity]. destruct x as [|c [|]]; discriminate. }
  rewrite K in *. exists (filter keepc pre), x. split; [reflexivity|exact F].
Qed.

(** ** removing the uploaded files *)
Record cleaned (ls : list loc) (s s' : state) : Prop := {
  cl_db : st_db s' = st_db s;
  cl_cache : st_cache s' = st_cache s;
  cl_batch : st_batch s' = st_batch s;
  cl_data : f_data (st_fs s') = f_data (st_fs s);
  cl_root : f_root (st_fs s') = f_root (st_fs s);
  cl_asset : f_asset (st_fs s') = f_asset (st_fs s);
  cl_dir : f_dir (st_fs s') = f_dir (st_fs s);
  cl_gone : forall l, In l ls -> f_name (st_fs s') l = None;
  cl_kept : forall l, ~ In l ls -> f_name (st_fs s') l = f_name (st_fs s) l
}.
Lemma cleanup_spec ls : forall s, exists t s', forM ls remove_if_there s = (t, s', Ok tt) /\ cleaned ls s s' /\
  Forall (fun x => exists k, cleaned (firstn k ls) s x) t.
Proof.
  induction ls as [|l ls IH]; intros s.
  - exists [], s. split; [reflexivity|]. split; [constructor; auto; intros ? []|constructor].
  - cbn [forM]. unfold remove_if_there at 1. rewrite bind_assoc, bind_gets.
    destruct (f_name (st_fs s) l) as [i|] eqn:G.
    + set (s1 := on_fs (fun f => fs_set_name f l None) s). destruct (IH s1) as (t & s' & R & C & Fa).
      assert (Cmp : forall ls' x, cleaned ls' s1 x -> cleaned (l :: ls') s x).
      { intros ls' x [A1 A2 A3 A4 A5 A6 A7 A8 A9]. constructor; auto.
        - intros y [<-|Hy]; [|auto]. destruct (in_dec (fun a b => reflect_dec _ _ (loc_eqb_spec a b)) l ls') as [D|D]; [auto|].
          rewrite A9 by exact D. unfold s1. cbn. apply nupd_eq.
        - intros y Hy. rewrite A9 by (intros X; apply Hy; right; exact X). unfold s1. cbn. apply nupd_ne. intros ->. apply Hy. left. reflexivity. }
      exists (s1 :: t), s'. split; [|split].
      * unfold bind, remove_file, durable. fold s1. change (fun _ : unit => forM ls remove_if_there) with (fun _ : unit => forM ls remove_if_there). rewrite R. reflexivity.
      * apply Cmp, C.
      * constructor.
        -- exists 1. cbn [firstn]. constructor; auto; intros y Hy; unfold s1; cbn.
           ++ destruct Hy as [<-|[]]. apply nupd_eq.
           ++ apply nupd_ne. intros ->. apply Hy. left. reflexivity.
        -- eapply Forall_impl; [|exact Fa]. intros x (k & X). exists (S k). cbn [firstn]. apply Cmp, X.
    + destruct (IH s) as (t & s' & R & C & Fa). exists t, s'. split; [|split].
      * rewrite bind_ret. exact R.
      * destruct C as [A1 A2 A3 A4 A5 A6 A7 A8 A9]. constructor; auto.
        -- intros y [<-|Hy]; [|auto]. destruct (in_dec (fun a b => reflect_dec _ _ (loc_eqb_spec a b)) l ls) as [D|D]; [auto|]. rewrite A9 by exact D. exact G.
        -- intros y Hy. apply A9. intros X. apply Hy. right. exact X.
      * eapply Forall_impl; [|exact Fa]. intros x (k & [A1 A2 A3 A4 A5 A6 A7 A8 A9]). exists (S k). cbn [firstn]. constructor; auto.
        -- intros y [<-|Hy]; [|auto]. destruct (in_dec (fun a b => reflect_dec _ _ (loc_eqb_spec a b)) l (firstn k ls)) as [D|D]; [auto|]. rewrite A9 by exact D. exact G.
        -- intros y Hy. apply A9. intros X. apply Hy. right. exact X.
Qed.

Lemma get_repo_twice {A} r (k : M A) s : (get_repo r ;;; (get_repo r ;;; k)) s = (get_repo r ;;; k) s.
Proof.
  unfold bind at 1 3. destruct (get_repo r s) as [[t s1] res] eqn:G. destruct res as [[]| |]; [|reflexivity|reflexivity].
  assert (C : st_cache s1 r = true).
  { unfold get_repo in G. rewrite bind_gets in G. destruct (st_cache s r) eqn:X; [injection G as <- <-; exact X|].
    rewrite bind_gets in G. destruct (mhas (d_repos (st_db s)) r); [|discriminate]. unfold bind in G.
    destruct (bake_repo r s) as [[t1 s2] [[]| |]]; try discriminate. unfold vol in G. injection G as _ <-. cbn. unfold fupd. rewrite seqb_refl. reflexivity. }
  assert (X : get_repo r s1 = ([], s1, Ok tt)) by (unfold get_repo; rewrite bind_gets, C; reflexivity).
  rewrite (bind_ok _ _ _ _ _ X). reflexivity.
Qed.

Section Facts.
Variable E : env.
Variable T : string -> option tram.
Variable B : list string.

Definition payload (path : string) (t : tram) : list loc := map (locate B) (payload_paths (dirname (clean path)) t).

Lemma validate_cases dir files s :
  let m := forM files (fun x => f <- gets st_fs ;; match file_sha256 E f (locate B (join dir (tf_path x))) with None => err | Some h => if seqb h (tf_sha x) then ret tt else err end) in
  let good := forall x, In x files -> file_sha256 E (st_fs s) (locate B (join dir (tf_path x))) = Some (tf_sha x) in
  (m s = ([], s, Ok tt) /\ good) \/ (m s = ([], s, Err) /\ ~ good).
Proof.
  cbn zeta. induction files as [|x files IH]; [left; split; [reflexivity|intros ? []]|]. cbn [forM]. rewrite bind_assoc, bind_gets.
  destruct (file_sha256 E (st_fs s) (locate B (join dir (tf_path x)))) as [h|] eqn:G.
  - destruct (seqb_spec h (tf_sha x)) as [->|N].
    + rewrite bind_ret. destruct IH as [(A & Gd)|(A & Gd)]; [left|right]; (split; [exact A|]).
      * intros y [<-|Hy]; auto.
      * intros X. apply Gd. intros y Hy. apply X. right. exact Hy.
    + right. split; [reflexivity|]. intros X. specialize (X x (or_introl eq_refl)). congruence.
  - right. split; [reflexivity|]. intros X. specialize (X x (or_introl eq_refl)). congruence.
Qed.
End Facts.
