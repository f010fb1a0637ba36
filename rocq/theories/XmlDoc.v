(** * XmlDoc: from the bytes of the file back to the elements *)
From Coq Require Import List NArith ZArith ZifyN Bool String Ascii Lia Arith.
From Verif Require Import Escape PropsEscape Xml XmlSpec XmlFacts XmlTree.
Import ListNotations.
Open Scope N_scope. Open Scope list_scope.

(** ** The buffer *)
Lemma buffer_concat f d : forall buf p out b, buffer f d buf p = (out, b) -> List.concat out ++ b = buf ++ p.
Proof.
  induction f as [|f IH]; intros buf p out b H; cbn [buffer] in H.
  - destruct (_ <=? _)%nat; injection H as <- <-; reflexivity.
  - destruct (_ <=? _)%nat; [injection H as <- <-; reflexivity|].
    assert (G : forall q, (let '(out, b) := buffer f d [] (skipn q p) in ((buf ++ firstn q p) :: out, b)) = (out, b) -> List.concat out ++ b = buf ++ p).
    { intros q G. destruct (buffer f d [] (skipn q p)) as [o b'] eqn:E. injection G as <- <-. apply IH in E. cbn [List.concat].
      rewrite <- app_assoc, E. cbn [app]. rewrite <- app_assoc, firstn_skipn. reflexivity. }
    destruct buf as [|x buf]; [destruct d|]; [injection H as <- <-; cbn [List.concat app]; rewrite !app_nil_r; reflexivity|eapply G; exact H..].
Qed.
Definition bytes_of (l : list call) : list N := flat_map (fun c => utf8 (snd c)) l.
Lemma bytes_of_text l : bytes_of l = utf8 (calls_text l).
Proof. induction l as [|c l IH]; [reflexivity|]. cbn [bytes_of flat_map calls_text]. unfold utf8 in *. rewrite flat_map_app. f_equal. exact IH. Qed.
Lemma buffered_concat l : forall buf, List.concat (buffered buf l) = buf ++ bytes_of l.
Proof.
  induction l as [|[d v] l IH]; intros buf; cbn [buffered bytes_of flat_map snd].
  - destruct buf; cbn; rewrite ?app_nil_r; reflexivity.
  - destruct (buffer _ d buf (utf8 v)) as [out b] eqn:E. rewrite concat_app, IH. apply buffer_concat in E. rewrite app_assoc, E, <- app_assoc. reflexivity.
Qed.
Lemma buffered_small l : forall buf, (List.length buf + List.length (bytes_of l) <= buffer_size)%nat ->
  buffered buf l = match buf ++ bytes_of l with [] => [] | x => [x] end.
Proof.
  induction l as [|[d v] l IH]; intros buf L; cbn [buffered bytes_of flat_map snd] in *.
  - rewrite app_nil_r. destruct buf; reflexivity.
  - rewrite app_length in L. cbn [buffer]. rewrite (proj2 (Nat.leb_le _ _)) by lia. cbn [app].
    fold (bytes_of l) in *. rewrite IH by (rewrite app_length; lia). rewrite <- app_assoc. reflexivity.
Qed.

Section Doc.
Variable symbol : N -> bool.

(** ** What the escaping writer makes of pieces *)
Definition cont (b : N) : Prop := 128 <= b <= 191.
Lemma decode_cont b p : cont b -> decode_rune (b :: p) = (rune_error, 1%nat).
Proof.
  intros C. unfold cont in C. unfold decode_rune. rewrite (proj2 (N.ltb_ge b 128)) by lia.
  assert (W : forall lo hi, 191 < lo -> within lo hi b = false) by (intros lo hi G; unfold within; rewrite (proj2 (N.leb_gt lo b)) by lia; reflexivity).
  rewrite !W by lia. reflexivity.
Qed.
Lemma cons_inv {A} (a b : A) l m : a :: l = b :: m -> a = b /\ l = m.
Proof. intros H. injection H as -> ->. split; reflexivity. Qed.
Lemma prefix_short {A} (p q l : list A) : p ++ q = l -> q <> [] -> (List.length p < List.length l)%nat.
Proof. intros <- Q. rewrite app_length. destruct q; [congruence|]. cbn [List.length]. lia. Qed.
Lemma cont_low x : x < 64 -> cont (128 + x).
Proof. unfold cont. lia. Qed.
Lemma decode_prefix c b p q : scalar c -> utf8_of c (b :: p ++ q) -> q <> [] -> decode_rune (b :: p) = (rune_error, 1%nat) /\ Forall cont (p ++ q) /\ 127 < c.
Proof.
  intros Sc U Q. destruct U as [[L E]|[(x & y & L & Y & E & F)|[(x & y & z & L & Y & Z & E & F)|(x & y & z & t & L & Y & Z & T & E & F)]]].
  - apply cons_inv in E as [E1 E2]. apply app_eq_nil in E2 as [_ E2]. congruence.
  - apply cons_inv in F as [Fb F]. pose proof (prefix_short _ _ _ F Q) as S. rewrite F. split; [|split; [apply Forall_cons; [apply cont_low; lia|constructor]|lia]].
    destruct p as [|p1 p]; [|cbn [List.length] in S; lia].
    unfold decode_rune. destruct (_ <? 128) eqn:G; [bools; lia|]. destruct (within 194 _ _); [reflexivity|]. destruct (within 224 _ _); [reflexivity|]. destruct (within 240 _ _); reflexivity.
  - apply cons_inv in F as [Fb F]. pose proof (prefix_short _ _ _ F Q) as S. rewrite F.
    split; [|split; [apply Forall_cons; [apply cont_low; lia|apply Forall_cons; [apply cont_low; lia|constructor]]|lia]].
    unfold decode_rune. destruct (_ <? 128) eqn:G; [bools; lia|].
    destruct (within 194 _ _) eqn:W; [bools; lia|]. destruct p as [|p1 [|p2 p]]; [| |cbn [List.length] in S; lia]; (destruct (within 224 _ _); [reflexivity|]; destruct (within 240 _ _); reflexivity).
  - apply cons_inv in F as [Fb F]. pose proof (prefix_short _ _ _ F Q) as S. rewrite F.
    split; [|split; [apply Forall_cons; [apply cont_low; lia|apply Forall_cons; [apply cont_low; lia|apply Forall_cons; [apply cont_low; lia|constructor]]]|lia]].
    unfold decode_rune. destruct (_ <? 128) eqn:G; [bools; lia|].
    destruct (within 194 _ _) eqn:W; [bools; lia|]. destruct (within 224 _ _) eqn:W2; [bools; lia|].
    destruct p as [|p1 [|p2 [|p3 p]]]; [| | |cbn [List.length] in S; lia]; (destruct (within 240 _ _); reflexivity).
Qed.
Lemma write_error p : forall b, decode_rune (b :: p) = (rune_error, 1%nat) -> write symbol (b :: p) = append_rune symbol rune_error ++ write symbol p.
Proof. intros b E. rewrite write_cons by discriminate. rewrite E. reflexivity. Qed.
Lemma error_spells : spells (append_rune symbol rune_error) [rune_error].
Proof. exact (append_spells symbol rune_error ltac:(right; split; [reflexivity|discriminate])). Qed.
Lemma transmit n : forall chunks tail v, (List.length (List.concat chunks) + List.length chunks <= n)%nat ->
  List.concat chunks = tail ++ utf8 v -> Forall cont tail -> Forall scalar v ->
  exists w, spells (writes symbol chunks) (repeat rune_error (List.length tail) ++ w) /\ sent symbol true v w.
Proof.
  induction n as [|n IH]; intros chunks tail v L E T V.
  - destruct chunks; [|cbn in L; lia]. cbn in E. symmetry in E. apply app_eq_nil in E as [-> E]. exists []. split; [constructor|].
    destruct v as [|c v]; [constructor|]. cbn [utf8 flat_map] in E. apply app_eq_nil in E as [E _]. inversion V; subst.
    pose proof (encode_spec c H1) as U. rewrite E in U. destruct (spelling_nonempty _ _ U eq_refl).
  - destruct chunks as [|[|b p] ps].
    + apply (IH [] tail v); [cbn; lia|exact E|exact T|exact V].
    + change (writes symbol ([] :: ps)) with (writes symbol ps). apply (IH ps tail v); [cbn in *; lia|exact E|exact T|exact V].
    + change (writes symbol ((b :: p) :: ps)) with (write symbol (b :: p) ++ writes symbol ps).
      cbn [List.concat app] in E. destruct tail as [|t tail].
      * cbn [app] in E. destruct v as [|c v]; [discriminate|]. cbn [utf8 flat_map] in E. fold (utf8 v) in E. inversion V as [|? ? Sc V']; subst.
        pose proof (encode_spec c Sc) as U.
        destruct (le_lt_dec (List.length (encode c)) (List.length (b :: p))) as [G|G].
        { assert (B : b :: p = encode c ++ skipn (List.length (encode c)) (b :: p)).
          { rewrite <- (firstn_skipn (List.length (encode c)) (b :: p)) at 1. f_equal.
            transitivity (firstn (List.length (encode c)) ((b :: p) ++ List.concat ps)); [rewrite firstn_app; rewrite (proj2 (Nat.sub_0_le _ _)) by exact G; rewrite firstn_O, app_nil_r; reflexivity|].
            cbn [app]. rewrite E. rewrite firstn_app, Nat.sub_diag, firstn_all, firstn_O, app_nil_r. reflexivity. }
          set (p' := skipn (List.length (encode c)) (b :: p)) in *. rewrite B.
          rewrite (write_spelling symbol c _ p' Sc U). rewrite <- app_assoc.
          assert (E' : List.concat (p' :: ps) = [] ++ utf8 v).
          { cbn [List.concat app]. change (b :: p ++ List.concat ps) with ((b :: p) ++ List.concat ps) in E. rewrite B, <- app_assoc in E. apply app_inv_head in E. exact E. }
          assert (Lp : (List.length p' < List.length (b :: p))%nat).
          { rewrite B. rewrite app_length. destruct (encode c) eqn:Ec; [destruct (spelling_nonempty _ _ U eq_refl)|cbn; lia]. }
          destruct (IH (p' :: ps) [] v) as (w & Sw & Tw); [cbn [List.concat List.length] in *; rewrite !app_length in *; cbn [List.length] in *; lia|exact E'|constructor|exact V'|].
          exists (esc symbol c ++ w). split; [|apply sent_char; exact Tw]. cbn [List.length repeat app].
          apply spells_app; [apply append_spells; exact Sc|exact Sw]. }
        { assert (B : exists q, encode c = (b :: p) ++ q /\ q <> []).
          { exists (skipn (List.length (b :: p)) (encode c)). split.
            - rewrite <- (firstn_skipn (List.length (b :: p)) (encode c)) at 1. f_equal.
              transitivity (firstn (List.length (b :: p)) (encode c ++ utf8 v)); [rewrite firstn_app; rewrite (proj2 (Nat.sub_0_le _ _)) by lia; rewrite firstn_O, app_nil_r; reflexivity|].
              rewrite <- E. change (b :: p ++ List.concat ps) with ((b :: p) ++ List.concat ps). rewrite firstn_app, Nat.sub_diag, firstn_all, firstn_O, app_nil_r. reflexivity.
            - intros Z. apply (f_equal (@List.length N)) in Z. rewrite skipn_length in Z. cbn [List.length] in *. lia. }
          destruct B as (q & B & Q). rewrite B in U, E. cbn [app] in U, E.
          destruct (decode_prefix c b p q Sc U Q) as (D & C & Big). rewrite (write_error p b D), <- app_assoc.
          destruct (IH (p :: ps) (p ++ q) v) as (w & Sw & Tw); [cbn [List.concat List.length] in *; rewrite ?app_length in *; cbn [List.length] in *; lia| |exact C|exact V'|].
          { cbn [List.concat]. injection E as E. exact E. }
          exists (repeat rune_error (S (List.length (p ++ q))) ++ w). split; [|apply sent_lost; [reflexivity|exact Big|lia|exact Tw]].
          cbn [List.length repeat app]. change (rune_error :: repeat rune_error (List.length (p ++ q)) ++ w) with ([rune_error] ++ repeat rune_error (List.length (p ++ q)) ++ w).
          apply spells_app; [exact error_spells|exact Sw]. }
      * cbn [app] in E. injection E as <- E. inversion T as [|? ? C T']; subst. rewrite (write_error p b (decode_cont b p C)), <- app_assoc.
        destruct (IH (p :: ps) tail v) as (w & Sw & Tw); [cbn [List.concat List.length] in *; rewrite ?app_length in *; cbn [List.length] in *; lia|exact E|exact T'|exact V|].
        exists w. split; [|exact Tw]. cbn [List.length repeat app]. change (rune_error :: repeat rune_error (List.length tail) ++ w) with ([rune_error] ++ repeat rune_error (List.length tail) ++ w).
        apply spells_app; [exact error_spells|exact Sw].
Qed.
Lemma utf8_spells v : Forall scalar v -> spells (utf8 v) v.
Proof. induction 1 as [|c v Sc V IH]; [constructor|]. cbn [utf8 flat_map]. constructor; [exact Sc|apply encode_spec; exact Sc|exact IH]. Qed.
Lemma sent_exact v : sent symbol false v (flat_map (esc symbol) v).
Proof. induction v as [|c v IH]; [constructor|]. cbn [flat_map]. apply sent_char. exact IH. Qed.
Lemma aligned us : Forall (Forall scalar) us -> spells (writes symbol (map utf8 us)) (flat_map (esc symbol) (List.concat us)).
Proof.
  induction 1 as [|u us U F IH]; [constructor|]. cbn [map writes flat_map List.concat]. rewrite flat_map_app.
  apply spells_app; [apply write_spells, utf8_spells; exact U|exact IH].
Qed.

(** ** The file *)
Definition file_text (x : index) : text := flat_map calls_text (flushes x).
(** the pieces of a flush end between characters *)
Definition aligned_flush (l : list call) : Prop := exists us, buffered [] l = map utf8 us /\ List.concat us = calls_text l.
Lemma flushes_sent lossy (x : index) : (lossy = false -> Forall aligned_flush (flushes x)) -> Forall scalar (file_text x) ->
  exists w, spells (render symbol x) w /\ sent symbol lossy (file_text x) w.
Proof.
  unfold render, file_text. induction (flushes x) as [|l ls IH]; intros A V; [exists []; split; constructor|].
  cbn [flat_map] in *. apply Forall_app in V as [V1 V2]. destruct IH as (w2 & S2 & T2); [intros Z; specialize (A Z); inversion A; assumption|exact V2|].
  assert (G : exists w1, spells (writes symbol (buffered [] l)) w1 /\ sent symbol lossy (calls_text l) w1).
  { destruct lossy.
    - destruct (transmit _ (buffered [] l) [] (calls_text l) (le_n _)) as (w & S & T); [rewrite buffered_concat; cbn [app]; apply bytes_of_text|constructor|exact V1|].
      exists w. split; assumption.
    - specialize (A eq_refl). inversion A as [|? ? (us & Eb & Ec) _]; subst. exists (flat_map (esc symbol) (calls_text l)). split; [|apply sent_exact].
      rewrite Eb, <- Ec. apply aligned. rewrite <- Ec in V1. rewrite Forall_concat in V1. exact V1. }
  destruct G as (w1 & S1 & T1). exists (w1 ++ w2). split; [apply spells_app; assumption|apply sent_app; assumption].
Qed.
(** a flush that fits the buffer *)
Lemma small_aligned l : (List.length (utf8 (calls_text l)) <= buffer_size)%nat -> Forall scalar (calls_text l) -> aligned_flush l.
Proof.
  intros L V. unfold aligned_flush. rewrite buffered_small by (cbn [List.length plus]; rewrite bytes_of_text; exact L). cbn [app]. rewrite bytes_of_text.
  destruct (calls_text l) as [|c v] eqn:E; [exists []; split; reflexivity|]. exists [c :: v]. split; [|cbn; rewrite app_nil_r; reflexivity].
  cbn [map]. destruct (utf8 (c :: v)) eqn:U; [|reflexivity]. exfalso. cbn [utf8 flat_map] in U. apply app_eq_nil in U as [U _].
  inversion V; subst. pose proof (encode_spec c H1) as W. rewrite U in W. destruct (spelling_nonempty _ _ W eq_refl).
Qed.

(** no carriage returns *)
Definition no_cr (v : text) : Prop := Forall (fun c => c <> 13) v.
Lemma sent_no_cr lossy v w : no_cr v -> sent symbol lossy v w -> no_cr w.
Proof.
  intros F H. induction H as [|c v w H IH|c v w k L C K H IH]; [constructor| |]; inversion F; subst; (apply Forall_app; split; [|apply IH; assumption]).
  - destruct (esc_dec symbol c) as [[A B]|A].
    + rewrite (esc_ref symbol c A B). cbn [app]. repeat (constructor; [discriminate|]). apply Forall_app. split; [|repeat constructor; discriminate].
      eapply Forall_impl; [|apply (print_hex_plain symbol)]. intros d G. apply (plain_digit_facts symbol) in G. tauto.
    + rewrite (esc_same symbol c A). repeat constructor. assumption.
  - apply Forall_forall. intros d I. apply repeat_spec in I as ->. discriminate.
Qed.
Lemma lines_same v : no_cr v -> lines v = v.
Proof. induction 1 as [|c v C F IH]; [reflexivity|]. cbn [lines]. rewrite (proj2 (N.eqb_neq c 13) C). f_equal. exact IH. Qed.
Lemma esc_text_no_cr v : xml_text v -> no_cr (esc_text v) /\ Forall scalar (esc_text v).
Proof.
  induction 1 as [|c v X F [IH1 IH2]]; [split; constructor|]. cbn [esc_text flat_map]. fold (esc_text v).
  assert (A : no_cr (esc_char c) /\ Forall scalar (esc_char c)).
  { destruct (kind_of c X) as [c m I E|c E N]; rewrite E.
    - destruct (mark_ok c m I) as (O & _ & As). split.
      + constructor; [discriminate|]. cbn [In] in I. repeat destruct I as [I|I]; try contradiction; injection I as <- <-; repeat constructor; discriminate.
      + eapply Forall_impl; [|exact As]. intros d L. cbn beta in L. left. lia.
    - split; (apply Forall_cons; [|constructor]); [intros ->; apply N; cbn; tauto|apply (xml_scalar symbol); exact X]. }
  split; apply Forall_app; split; tauto.
Qed.
Lemma cd_text_keeps (P : N -> Prop) n : forall v, (List.length v <= n)%nat -> Forall P (txt "]]]]><![CDATA[>") -> Forall P v -> Forall P (cd_text v).
Proof.
  induction n as [|n IH]; intros v L M F; [destruct v; [constructor|cbn in L; lia]|]. destruct v as [|c t]; [constructor|]. cbn [cd_text].
  inversion F as [|? ? Pc Pt]; subst. destruct t as [|d [|e t']]; [constructor; [exact Pc|apply IH; [cbn in *; lia|exact M|exact Pt]]..|].
  destruct (_ && _).
  - apply Forall_app. split; [exact M|]. apply IH; [cbn in *; lia|exact M|]. inversion Pt as [|? ? _ Pt']; subst. inversion Pt'; assumption.
  - constructor; [exact Pc|]. apply IH; [cbn in *; lia|exact M|exact Pt].
Qed.
Definition fine (v : text) : Prop := no_cr v /\ Forall scalar v.
Lemma fine_app a b : fine a -> fine b -> fine (a ++ b).
Proof. intros [A B] [C D]. split; apply Forall_app; split; assumption. Qed.
Lemma fine_ascii a : ascii a -> no_cr a -> fine a.
Proof. intros A B. split; [exact B|]. eapply Forall_impl; [|exact A]. intros c L. cbn beta in L. left. lia. Qed.
Lemma fine_name n : name_ok n -> fine (txt n).
Proof. intros K. destruct (name_ascii symbol n K). apply fine_ascii; assumption. Qed.
Ltac flit := apply fine_ascii; repeat constructor; discriminate.
Lemma fine_start n a : name_ok n -> attrs_good a -> fine (start_text n a).
Proof.
  intros K [F _]. unfold start_text. apply fine_app; [flit|]. apply fine_app; [apply fine_name; exact K|]. apply fine_app; [|flit].
  induction F as [|[k v] a [Kk Kv] F IH]; [split; constructor|]. cbn [flat_map]. apply fine_app; [|exact IH]. unfold attr_text. cbn [fst snd] in *.
  change (32 :: txt k ++ txt "=""" ++ esc_text v ++ [34]) with ([32] ++ txt k ++ txt "=""" ++ esc_text v ++ [34]).
  apply fine_app; [flit|]. apply fine_app; [apply fine_name; exact Kk|]. apply fine_app; [flit|]. apply fine_app; [apply esc_text_no_cr; exact Kv|flit].
Qed.
Lemma fine_end n : name_ok n -> fine (end_text n).
Proof. intros K. unfold end_text. apply fine_app; [flit|]. apply fine_app; [apply fine_name; exact K|flit]. Qed.
Lemma fine_newline d : fine (newline_text d).
Proof. apply fine_ascii; [apply blank_ascii, newline_blank|]. eapply Forall_impl; [|apply newline_blank]. intros c [->| ->]; discriminate. Qed.
Lemma fine_list l d : Forall (fun x => fine (calls_text (emit d x))) l -> fine (calls_text (flat_map (emit d) l)).
Proof. induction 1 as [|x l X F IH]; [split; constructor|]. cbn [flat_map]. rewrite calls_text_app. apply fine_app; assumption. Qed.
Lemma fine_emit x : good x -> forall d, fine (calls_text (emit d x)).
Proof.
  induction x as [n a cd v|n a l IH] using xnode_ind'; intros G d; inversion G as [n' a' cd' v' K A V C|n' a' l' K A L]; subst; cbn [emit];
    rewrite !calls_text_app, newline_calls, emit_start_text, emit_end_text; (apply fine_app; [apply fine_newline|]); (apply fine_app; [apply fine_start; assumption|]).
  - apply fine_app; [|apply fine_end; exact K]. destruct cd.
    + rewrite (emit_cdata_text symbol). destruct v as [|c v]; [split; constructor|]. set (t := c :: v) in *. apply fine_app; [flit|]. apply fine_app; [|flit].
      split; apply (cd_text_keeps _ _ t (le_n _)).
      * repeat constructor; discriminate.
      * apply C; reflexivity.
      * repeat (apply Forall_cons; [left; reflexivity|]). constructor.
      * eapply Forall_impl; [|exact V]. intros c' Xc. apply (xml_scalar symbol). exact Xc.
    + rewrite emit_text_text. apply esc_text_no_cr. exact V.
  - apply fine_app; [|apply fine_app; [|apply fine_end; exact K]].
    + apply fine_list. rewrite Forall_forall in *. intros x I. apply IH; [exact I|apply L; exact I].
    + destruct l; [split; constructor|rewrite newline_calls; apply fine_newline].
Qed.

(** everything inside PISI *)
Definition all_elements (x : index) : list xnode := match i_dist x with None => [] | Some d => [marshal_distribution d] end ++ elements_of x.
Definition closing (x : index) : text := match all_elements x with [] => [] | _ => newline_text 0 end.
Lemma file_text_eq x : file_text x = txt "    " ++ start_text "PISI" [] ++ calls_text (flat_map (emit 1) (all_elements x)) ++ closing x ++ end_text "PISI".
Proof.
  unfold file_text, flushes. cbn [flat_map]. rewrite flat_map_app. cbn [flat_map]. rewrite app_nil_r.
  unfold head_calls, tail_calls. rewrite calls_text_app, emit_end_text.
  change (calls_text (str "    " :: emit_start "PISI" [] ++ match i_dist x with None => [] | Some d => emit 1 (marshal_distribution d) end)) with
    (txt "    " ++ calls_text (emit_start "PISI" [] ++ match i_dist x with None => [] | Some d => emit 1 (marshal_distribution d) end)).
  rewrite calls_text_app, emit_start_text, <- !app_assoc. do 2 f_equal. unfold all_elements, closing.
  rewrite flat_map_app, calls_text_app, <- app_assoc.
  assert (E1 : calls_text match i_dist x with None => [] | Some d => emit 1 (marshal_distribution d) end =
    calls_text (flat_map (emit 1) match i_dist x with None => [] | Some d => [marshal_distribution d] end)).
  { destruct (i_dist x); [cbn [flat_map]; rewrite app_nil_r|]; reflexivity. }
  rewrite E1. f_equal. f_equal.
  - rewrite flat_map_concat_map, map_map, <- flat_map_concat_map. generalize (elements_of x). intros l. induction l as [|y l IH]; [reflexivity|].
    cbn [flat_map]. rewrite calls_text_app, IH. reflexivity.
  - f_equal. unfold all_elements. destruct (i_dist x), (elements_of x); cbn [app]; rewrite ?newline_calls; reflexivity.
Qed.
Lemma pisi_name : name_ok "PISI".
Proof. exists 80, (txt "ISI"). repeat split. Qed.
Lemma no_attrs : attrs_good [].
Proof. split; constructor. Qed.
Lemma fine_file x : Forall good (all_elements x) -> fine (file_text x).
Proof.
  intros G. rewrite file_text_eq. apply fine_app; [flit|]. apply fine_app; [apply fine_start; [exact pisi_name|exact no_attrs]|].
  apply fine_app; [|apply fine_app; [|apply fine_end; exact pisi_name]].
  - apply fine_list. rewrite Forall_forall in *. intros y I. apply fine_emit, G, I.
  - unfold closing. destruct (all_elements x); [split; constructor|apply fine_newline].
Qed.
Lemma read_file lossy x w : Forall good (all_elements x) -> sent symbol lossy (file_text x) w ->
  exists b, read_xml w = Some (El (txt "PISI") [] b) /\ Forall2 (shows symbol lossy) (all_elements x) (filter is_element b) /\
    (forall c, In (Ch c) b -> blank c = true).
Proof.
  intros G H. pose proof (sent_no_cr lossy _ _ (proj1 (fine_file x G)) H) as NC. rewrite file_text_eq in H.
  apply sent_ascii_app in H as (w1 & -> & H); [|repeat constructor].
  apply sent_app_inv in H as (w2 & w3 & -> & H2 & H3). apply sent_app_inv in H3 as (w4 & w5 & -> & H4 & H5). apply sent_app_inv in H5 as (w6 & w7 & -> & H6 & H7).
  destruct (read_start symbol lossy "PISI" [] w2 (map Ch (txt "    ")) [] pisi_name no_attrs H2) as (a' & Sa & Ea). inversion Sa; subst a'.
  assert (Rd : Forall (fun y => reads symbol lossy y 1) (all_elements x)).
  { rewrite Forall_forall in *. intros y I. apply read_tree, G, I. }
  destruct (read_list symbol lossy (all_elements x) 1 Rd w4 H4 [] (txt "PISI", [], map Ch (txt "    ")) []) as (b & Sb & Bb & Eb).
  assert (U : blank_text (closing x) /\ w6 = closing x).
  { unfold closing in *. destruct (all_elements x) as [|y l]; [apply sent_nil_inv in H6 as ->; split; [constructor|reflexivity]|].
    split; [apply newline_blank|apply sent_ascii in H6; [exact H6|apply blank_ascii, newline_blank]]. }
  destruct U as (U & ->). exists (b ++ map Ch (closing x)). split; [|split].
  - unfold read_xml. rewrite lines_same by exact NC. rewrite read_blanks by (repeat constructor). rewrite Ea, Eb. rewrite read_blanks by exact U. cbn [app].
    rewrite <- (app_nil_r w7). rewrite (read_end symbol lossy "PISI" w7 _ [] (b ++ map Ch (closing x)) [] pisi_name H7 []). cbn [read_chars].
    rewrite filter_app, no_elements. reflexivity.
  - rewrite filter_app, no_elements, app_nil_r. exact Sb.
  - intros c I. apply in_app_or in I as [I|I]; [apply Bb; exact I|eapply blank_chars; eauto].
Qed.
End Doc.
