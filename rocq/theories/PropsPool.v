(** * PropsPool: properties C01-C05 (theorems only; proofs are in PoolFacts.v) *)
From Verif Require Import Model Spec Demo DemoOk History PoolFacts.
Open Scope string_scope. Open Scope list_scope.

(** C01. After any history of requests - completed, failed, or interrupted by a
    crash (interrupted removals excepted: C23) - every pool item has at least as
    many references as there are repositories listing it, and whatever is listed
    is in the pool. *)
Theorem C01_listed_never_purged :
  forall E cat s, good_catalog cat -> good_env E -> reachable E cat s -> safe s.
Proof. intros E cat s Hc HE (h & Hh & ->). exact (inv_safe E cat false false _ (hist_inv E cat Hc HE h Hh)). Qed.
Print Assumptions C01_listed_never_purged.

(** the demo history: three packages imported, then cloned; each listed twice *)
Example C01_demo : reachable (demo_env true) demo_cat (run_history (demo_env true) h_two) /\
  listing_count (run_history (demo_env true) h_two) "nano-2.eopkg" = 2 /\
  refcount (run_history (demo_env true) h_two) "nano-2.eopkg" = 2.
Proof. split; [exists h_two; split; [apply h_two_good|reflexivity]|vm_compute; auto]. Qed.
(** and one with a crash inside an import *)
Definition h_crash : list event :=
  [ EvPut (ext "nano-1.eopkg") "nano1"; EvPut (ext "nano-2.eopkg") "nano2";
    EvOp demo_oracle (OpCreate "unstable");
    EvOp demo_oracle (OpAdd "unstable" [ext "nano-1.eopkg"] false);
    EvCrash demo_oracle (OpAdd "unstable" [ext "nano-2.eopkg"] false) 3 ].
Example C01_demo_crash : reachable (demo_env true) demo_cat (run_history (demo_env true) h_crash) /\
  refcount (run_history (demo_env true) h_crash) "nano-2.eopkg" = 1 /\
  listing_count (run_history (demo_env true) h_crash) "nano-2.eopkg" = 0.
Proof. split; [exists h_crash; split; [unfold good_history, h_crash; demo_hist|reflexivity]|vm_compute; auto]. Qed.

(** C02 (part). Without delta requests and crashes the reference count of every
    item is the number of repositories listing it. *)
Theorem C02_no_leak_partial :
  forall E cat s, good_catalog cat -> good_env E -> reachable_delta_free E cat s -> exact s.
Proof. intros E cat s Hc HE (h & Hh & Hf & Hd & ->). exact (inv_exact E cat true _ (hist_ex E cat Hc HE h Hh Hf Hd)). Qed.
Print Assumptions C02_no_leak_partial.
Example C02_demo : reachable_delta_free (demo_env true) demo_cat (run_history (demo_env true) h_two).
Proof. exists h_two. split; [apply h_two_good|]. split; [apply h_two_crash_free|]. split; [apply h_two_delta_free|reflexivity]. Qed.

(** C02 is false with deltas: importing a further version forgets the listed
    delta without releasing it; it stays in the pool for ever. *)
Definition h_leak : list event :=
  [ EvPut (ext "nano-1.eopkg") "nano1"; EvPut (ext "nano-2.eopkg") "nano2"; EvPut (ext "nano-3.eopkg") "nano3";
    EvPut (Loc (TStage "unstable") "" "nano-1-2.delta.eopkg") "nano12";
    EvOp demo_oracle (OpCreate "unstable");
    EvOp demo_oracle (OpAdd "unstable" [ext "nano-1.eopkg"; ext "nano-2.eopkg"] false);
    EvOp demo_oracle (OpAddDelta "unstable" (Loc (TStage "unstable") "" "nano-1-2.delta.eopkg") "nano-1.eopkg" "nano-2.eopkg");
    EvOp demo_oracle (OpAdd "unstable" [ext "nano-3.eopkg"] false) ].
Theorem C02_no_leak_refuted :
  exists E cat s, good_catalog cat /\ good_env E /\ reachable_completed E cat s /\
    pool_at s "nano-1-2.delta.eopkg" <> None /\ listing_count s "nano-1-2.delta.eopkg" = 0.
Proof.
  exists (demo_env true), demo_cat, (run_history (demo_env true) h_leak).
  split; [apply demo_cat_good|]. split; [apply demo_env_good|]. split.
  - exists h_leak. split; [unfold good_history, h_leak; demo_hist|]. split; [unfold crash_free, h_leak; repeat constructor|reflexivity].
  - split; [vm_compute; discriminate|vm_compute; reflexivity].
Qed.
Print Assumptions C02_no_leak_refuted.

(** C03. The published version is available and has the highest release. *)
Theorem C03_published_is_newest :
  forall E cat s r n e, good_catalog cat -> good_env E -> reachable E cat s -> entry_at s r n = Some e ->
    In (e_pub e) (e_avail e) /\
    exists q, pool_at s (e_pub e) = Some q /\
      forall id p, In id (e_avail e) -> pool_at s id = Some p -> (rel (p_meta p) <= rel (p_meta q))%Z.
Proof. intros E cat s r n e Hc HE (h & Hh & ->). exact (inv_newest E cat false false _ r n e (hist_inv E cat Hc HE h Hh)). Qed.
Print Assumptions C03_published_is_newest.
Example C03_demo : exists e, entry_at (run_history (demo_env true) h_two) "stable" "nano" = Some e /\
  e_avail e = ["nano-1.eopkg"; "nano-2.eopkg"] /\ e_pub e = "nano-2.eopkg".
Proof. eexists. vm_compute. auto. Qed.
(** the domain hypothesis "releases are at least 1" (in [good_catalog]) is needed:
    with two versions of release 0, removing a third leaves no published version *)
Definition zero_cat (id : string) : meta :=
  if seqb id "z-1.eopkg" then mk_meta "z" "zz" 1 else mk_meta "z" "z" 0.
Definition zero_parse (c : string) : res meta :=
  if seqb c "z1" then Ok (mk_meta "z" "zz" 1) else if seqb c "" then Err else Ok (mk_meta "z" "z" 0).
Definition zero_env : env := let E := demo_env true in
  Env zero_parse (E_sha1 E) (E_sha256 E) (E_linkable E) (E_dist E) (E_comps E) (E_csort E) (E_groups E) (E_gsort E) (E_xz E) (E_zst E) (E_render E).
Theorem C03_release_zero_refuted :
  exists s e, s = run_history zero_env
      [ EvPut (ext "z-1.eopkg") "z1"; EvPut (ext "z-0.eopkg") "z0";
        EvOp demo_oracle (OpCreate "unstable");
        EvOp demo_oracle (OpAdd "unstable" [ext "z-1.eopkg"; ext "z-0.eopkg"] false);
        EvOp demo_oracle (OpRemoveSource "unstable" "zz" 1) ] /\
    entry_at s "unstable" "z" = Some e /\ e_avail e = ["z-0.eopkg"] /\ e_pub e = "".
Proof. eexists. eexists. split; [reflexivity|]. vm_compute. auto. Qed.
Print Assumptions C03_release_zero_refuted.

(** C04. Every entry is well formed. *)
Theorem C04_entries_well_formed :
  forall E cat s r n e, good_catalog cat -> good_env E -> reachable E cat s -> entry_at s r n = Some e ->
    well_formed s r n e.
Proof. intros E cat s r n e Hc HE (h & Hh & ->). exact (inv_wf E cat false false _ r n e (hist_inv E cat Hc HE h Hh)). Qed.
Print Assumptions C04_entries_well_formed.
Example C04_demo : reachable (demo_env false) demo_cat (run_history (demo_env false) h_leak) /\
  exists e, entry_at (run_history (demo_env false) h_leak) "unstable" "nano" = Some e.
Proof. split; [exists h_leak; split; [unfold good_history, h_leak; demo_hist|reflexivity]|]. eexists. vm_compute. reflexivity. Qed.

(** C05. Every listed package can be downloaded and is intact. *)
Theorem C05_listed_is_served :
  forall E cat s r id, good_catalog cat -> good_env E -> reachable_completed E cat s ->
    available s r id -> served E s r id.
Proof. intros E cat s r id Hc HE (h & Hh & Hf & ->). exact (inv_served E cat false _ r id (hist_fz E cat Hc HE h Hh Hf)). Qed.
Print Assumptions C05_listed_is_served.
Example C05_demo : available (run_history (demo_env true) h_two) "stable" "nano-1.eopkg" /\
  repo_file (run_history (demo_env true) h_two) "stable" "n/nano" "nano-1.eopkg" = Some "nano1".
Proof. split; [exists "nano"; eexists; split; [vm_compute; reflexivity|left; reflexivity]|vm_compute; reflexivity]. Qed.
