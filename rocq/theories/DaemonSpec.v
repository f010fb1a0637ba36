(** * DaemonSpec: what the properties of the whole daemon talk about

    Small vocabulary for C68-C72; no proofs. *)
From Verif Require Import Paths Reading Model Spec Transit.
From Verif Require Import PropsTransit.
From Verif Require Import Base LibDb Jobs JobSpec Dispatch PropsDispatch Daemon.
Open Scope string_scope. Open Scope list_scope.

(** an attempt at executing a request: what was asked for and how it ended *)
Record attempt := Attempt { at_job : nat; at_oracle : oracle; at_todo : todo; at_end : ending }.
(** all attempts, oldest first *)
Definition attempts (l : list lentry) : list attempt :=
  flat_map (fun e => match e with LAttempt n o t x => [Attempt n o t x] | _ => [] end) l.
Definition completed (a : attempt) : Prop := exists ok, at_end a = Completed ok.
(** the last of these attempts ran to its end *)
Definition worked_off (g : list attempt) : Prop := exists g' a, g = g' ++ [a] /\ completed a.

Section WithEnv.
Variable E : env.
Variable T : string -> option tram.
Variable B : list string.

(** the requests of a history that reached the disk while the daemon was up *)
Definition taken (d : daemon) (e : devent) : list request :=
  if y_up (dm_sys d) then
    match e with
    | DRequest r => [r]
    | DCrashIn (DRequest r) n => if (1 <=? n)%nat then [r] else []
    | _ => []
    end
  else [].
Fixpoint requests_from (d : daemon) (h : list devent) : list request :=
  match h with
  | [] => []
  | e :: h' => taken d e ++ requests_from (dstep E T B d e) h'
  end.
Definition requests (kinds : list bool) (h : list devent) : list request := requests_from (dboot kinds) h.

(** what the entries of the log did to the repositories *)
Definition effect (s : state) (e : lentry) : state :=
  match e with
  | LAttempt _ o (Run p) (Completed _) => after E o p s
  | LAttempt _ o (Run p) Panicked => restart (after E o p s)
  | LAttempt _ o (Run p) (Died n) => restart (nth n (s :: crash_points E o p s) (after E o p s))
  | LAttempt _ o (Upload path) (Completed _) => final_of (transit_job E T B o path s)
  | LAttempt _ o (Upload path) Panicked => restart (final_of (transit_job E T B o path s))
  | LAttempt _ o (Upload path) (Died n) => restart (nth n (s :: trace_of (transit_job E T B o path s)) (final_of (transit_job E T B o path s)))
  | LAttempt _ _ (PushDeltas _) (Completed _) => s
  | LAttempt _ _ (PushDeltas r) (Died n) => restart (nth n (s :: trace_of (get_repo r s)) (final_of (get_repo r s)))
  | LAttempt _ _ (PushDeltas _) Panicked => restart s
  | LTouch r => final_of (get_repo r s)
  | LDown => restart s
  | LWorld ev => ev_step E s ev
  end.
Definition replay (l : list lentry) : state := fold_left effect l init.
End WithEnv.

(** the daemon has not stopped or died so far *)
Definition steady (l : list lentry) : Prop :=
  Forall (fun e => match e with LDown | LAttempt _ _ _ (Died _) | LAttempt _ _ _ Panicked => False | _ => True end) l.

(** ** Histories the daemon is meant for *)
(** imports name no deltas, uploads are announced in <base>/incoming *)
Definition good_request (B : list string) (r : request) : Prop :=
  match r with
  | ReqImport _ paths => forall p, In p paths -> is_delta_id (base p) = false
  | ReqUpload path => exists name, in_incoming B path name
  | _ => True
  end.
(** manifests name files below the directory they are in, and no deltas *)
Definition good_manifests (T : string -> option tram) : Prop :=
  forall c t x p, T c = Some t -> In x (tm_files t) -> trimmed (tf_path x) p ->
    ~ In ".." (split_slash p) /\ is_delta_id (base p) = false.
Fixpoint good_devent (E : env) (cat : string -> meta) (B : list string) (e : devent) : Prop :=
  match e with
  | DRequest r => good_request B r
  | DBegin _ o | DCrashAt _ o _ => good_oracle o
  | DCrashIn e' _ => good_devent E cat B e'
  | DWorld ev => good_event E cat ev
  | _ => True
  end.
(** no attempt at a removal died (C23) *)
Definition removals_complete (l : list lentry) : Prop :=
  forall a p n, In a (attempts l) -> at_todo a = Run p -> removes_packages p = true -> at_end a <> Died n.
(** every attempt ran to its end; the daemon may have been stopped in between *)
Definition uninterrupted (l : list lentry) : Prop := forall a, In a (attempts l) -> completed a.
