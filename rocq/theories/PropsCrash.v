(** * PropsCrash: property C93 - what a kill in the middle of a removal can damage
    (theorem; proof in RemoveCrash.v) *)
From Verif Require Import Model Spec Demo DemoOk FsInv History RemoveCrash PropsOps.
Open Scope string_scope. Open Scope list_scope.

(** C93. If the daemon is killed at any instant of a removal, everything listed in any
    repository is still served with the recorded size and hash, except perhaps one
    package of the repository worked on, and that is one the request was about to remove. *)
Theorem C93_removal_damages_at_most_one :
  forall E cat s o p r t, good_catalog cat -> good_env E -> reachable_completed E cat s -> good_oracle o ->
    removes_packages p = true -> target p = Some r -> In t (crash_points E o p s) ->
    exists hit : option string,
      (forall x id, available t x id -> served E t x id \/ (x = r /\ hit = Some id)) /\
      (forall id, hit = Some id -> available s r id /\ ~ available (after E o p s) r id).
Proof.
  intros E cat s o p r t Hc HE (h & Hh & Hf & ->) Ho Rm Tg Ht.
  exact (removal_crash E cat Hc HE o p r _ (hist_fz E cat Hc HE h Hh Hf) Ho Rm Tg t Ht).
Qed.
Print Assumptions C93_removal_damages_at_most_one.

(** a request that removes two packages; killed at its first durable write one of them is hit *)
Definition many : op := OpTrimPackages "unstable" 1.
Definition h_many : list event := h_two ++ [EvPut (ext "nano-3.eopkg") "nano3"; EvOp demo_oracle (OpAdd "unstable" [ext "nano-3.eopkg"] false)].
Example C93_demo : let s := run_history (demo_env true) h_many in
  reachable_completed (demo_env true) demo_cat s /\ removes_packages many = true /\ target many = Some "unstable" /\
  available_ids s "unstable" "nano" = ["nano-1.eopkg"; "nano-2.eopkg"; "nano-3.eopkg"] /\
  available_ids (after (demo_env true) demo_oracle many s) "unstable" "nano" = ["nano-3.eopkg"] /\
  exists t, In t (crash_points (demo_env true) demo_oracle many s) /\
    available_ids t "unstable" "nano" = ["nano-1.eopkg"; "nano-2.eopkg"; "nano-3.eopkg"] /\
    (repo_file t "unstable" "n/nano" "nano-1.eopkg" = None \/ repo_file t "unstable" "n/nano" "nano-2.eopkg" = None).
Proof.
  split.
  { exists h_many. split; [unfold good_history, h_many, h_two; cbn [app]; demo_hist|]. split; [unfold crash_free, h_many, h_two; repeat constructor|reflexivity]. }
  split; [reflexivity|]. split; [reflexivity|]. split; [here|]. split; [here|].
  exists (nth 0 (crash_points (demo_env true) demo_oracle many (run_history (demo_env true) h_many)) init).
  split; [apply nth_In; vm_compute; lia|]. split; [here|]. first [left; here|right; here].
Qed.
