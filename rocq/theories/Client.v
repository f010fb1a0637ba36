(** * Client: from a ferryctl command line to the request the daemon handles

    Executable model of src/ferryctl/cmd/*.go, src/libferry/main.go, the routes of
    src/ferryd/server.go:93-124 and the request decoding of
    src/ferryd/handlers.go:136-310; no proofs. Cobra (sub-command and flags), the
    Unix socket and HTTP framing are trusted. Of the Go library and of httprouter
    v1.3.0 (go.mod) the parts that decide what the daemon gets are modelled:
    url.Parse, JSON strings, route matching and redirects. *)
From Verif Require Import Model Paths.
From Verif Require Import Base LibDb Jobs Dispatch Trees.
From Verif Require Escape.
Open Scope string_scope. Open Scope list_scope.

(** ** libferry calls *)
Inductive call :=
| CallCreate (id : string)
| CallDelete (id : string)
| CallDelta (id : string)
| CallIndex (id : string)
| CallImport (id : string) (paths : list string)
| CallClone (id name : string) (copy_all : bool)
| CallPull (source target : string)
| CallRemoveSource (id source : string) (release : Z)
| CallCopySource (id target source : string) (release : Z) (skip_index : bool)
| CallTrimPackages (id : string) (max_keep : Z)
| CallTrimObsolete (id : string)
| CallResetFailed
| CallResetCompleted.

(** ** ferryctl *)
(** the sub-command cobra selected, with its flag *)
Inductive subcommand :=
| SubCreateRepo | SubRemoveRepo | SubDelta | SubIndex | SubImport
| SubClone (full : bool) | SubPull | SubRemoveSource | SubCopySource (skip_index : bool)
| SubTrimPackages | SubTrimObsolete | SubResetFailed | SubResetCompleted.

(** strconv.ParseInt(s, 10, 32) and the test for values below 1
    (copy_source.go:62-71, remove_source.go:57-66, trim_packages.go:45-54) *)
Definition positive_arg (s : string) : option Z :=
  match parse_int32 s with Ok z => if (z <? 1)%Z then None else Some z | _ => None end.

(** ferryctl/cmd: create_repo.go:39-52, remove_repo.go:39-52, delta.go:39-52,
    index.go:39-52, import.go:77-108, clone_repo.go:44-57, pull_repo.go:39-52,
    remove_source.go:40-77, copy_source.go:46-86, trim_packages.go:39-66,
    trim_obsolete.go:39-52, reset_failed.go:39-52, reset_completed.go:39-52.
    [None]: a message is printed and nothing is sent. *)
Definition ferryctl (root : node) (cwd : string) (c : subcommand) (args : list string) : option call :=
  match c, args with
  | SubCreateRepo, [r] => Some (CallCreate r)
  | SubRemoveRepo, [r] => Some (CallDelete r)
  | SubDelta, [r] => Some (CallDelta r)
  | SubIndex, [r] => Some (CallIndex r)
  | SubImport, _ => match import_request root cwd args with Some (r, l) => Some (CallImport r l) | None => None end
  | SubClone full, [a; b] => Some (CallClone a b full)
  | SubPull, [a; b] => Some (CallPull a b)
  | SubRemoveSource, [r; s] => Some (CallRemoveSource r s (-1))
  | SubRemoveSource, [r; s; n] => match positive_arg n with Some z => Some (CallRemoveSource r s z) | None => None end
  | SubCopySource skip, [r; t; s] => Some (CallCopySource r t s (-1) skip)
  | SubCopySource skip, [r; t; s; n] => match positive_arg n with Some z => Some (CallCopySource r t s z skip) | None => None end
  | SubTrimPackages, [r; n] => match positive_arg n with Some z => Some (CallTrimPackages r z) | None => None end
  | SubTrimObsolete, [r] => Some (CallTrimObsolete r)
  | SubResetFailed, [] => Some CallResetFailed
  | SubResetCompleted, [] => Some CallResetCompleted
  | _, _ => None
  end.

(** ** The HTTP request of a call *)
Inductive meth := GET | POST.
Definition meth_eqb (a b : meth) : bool := match a, b with GET, GET | POST, POST => true | _, _ => false end.
(** The JSON object (libferry/types.go:29-91): all fields of all requests; a
    field that is absent has its zero value, one that is unknown is ignored. *)
Record body := Body {
  b_path : list string; b_clone : string; b_all : bool; b_source : string; b_target : string;
  b_release : Z; b_skip : bool; b_max : Z }.
Definition no_body : body := Body [] "" false "" "" 0 false 0.

(** libferry/main.go:64-66 formURI: everything after the authority
    "localhost.localdomain:0" *)
Definition form_uri (part : string) : string := "/" ++ part.
(** libferry/main.go:137-252: of the calls *)
Definition http_of (c : call) : meth * string * body :=
  match c with
  | CallCreate id => (GET, form_uri ("/api/v1/create/repo/" ++ id), no_body)
  | CallDelete id => (GET, form_uri ("/api/v1/remove/repo/" ++ id), no_body)
  | CallDelta id => (GET, form_uri ("/api/v1/delta/repo/" ++ id), no_body)
  | CallIndex id => (GET, form_uri ("/api/v1/index/repo/" ++ id), no_body)
  | CallImport id paths => (POST, form_uri ("api/v1/import/" ++ id), Body paths "" false "" "" 0 false 0)
  | CallClone id name all => (POST, form_uri ("api/v1/clone/" ++ id), Body [] name all "" "" 0 false 0)
  | CallPull source target => (POST, form_uri ("api/v1/pull/" ++ target), Body [] "" false source "" 0 false 0)
  | CallRemoveSource id source rel => (POST, form_uri ("api/v1/remove/source/" ++ id), Body [] "" false source "" rel false 0)
  | CallCopySource id target source rel skip => (POST, form_uri ("api/v1/copy/source/" ++ id), Body [] "" false source target rel skip 0)
  | CallTrimPackages id keep => (POST, form_uri ("api/v1/trim/packages/" ++ id), Body [] "" false "" "" 0 false keep)
  | CallTrimObsolete id => (GET, form_uri ("/api/v1/trim/obsoletes/" ++ id), no_body)
  | CallResetFailed => (GET, form_uri "/api/v1/reset/failed", no_body)
  | CallResetCompleted => (GET, form_uri "/api/v1/reset/completed", no_body)
  end.

(** Go library, encoding/json: a string written and read back. Bytes that are not
    UTF-8 become U+FFFD; the writer of escape.go with nothing to escape does just
    that, so its model is used. *)
Definition bytes_of (s : string) : list N := map N_of_ascii (list_ascii_of_string s).
Definition string_of (l : list N) : string := string_of_list_ascii (map ascii_of_N l).
Definition json_string (s : string) : string := string_of (Escape.write (fun _ => false) (bytes_of s)).
Definition json_body (b : body) : body :=
  Body (map json_string (b_path b)) (json_string (b_clone b)) (b_all b) (json_string (b_source b)) (json_string (b_target b))
       (b_release b) (b_skip b) (b_max b).

(** Go library, net/url *)
Definition hex_val (c : ascii) : option N :=
  let n := N_of_ascii c in
  if (48 <=? n)%N && (n <=? 57)%N then Some (n - 48)%N
  else if (97 <=? n)%N && (n <=? 102)%N then Some (n - 87)%N
  else if (65 <=? n)%N && (n <=? 70)%N then Some (n - 55)%N
  else None.
Fixpoint unescape (s : string) : option string :=
  match s with
  | EmptyString => Some ""
  | String c t =>
      if Ascii.eqb c "%" then
        match t with
        | String a (String b u) =>
            match hex_val a, hex_val b with
            | Some x, Some y => match unescape u with Some r => Some (String (ascii_of_N (16 * x + y)) r) | None => None end
            | _, _ => None
            end
        | _ => None
        end
      else match unescape t with Some r => Some (String c r) | None => None end
  end.
(** strings.Cut *)
Fixpoint cut (c : ascii) (s : string) : string * string :=
  match s with
  | EmptyString => ("", "")
  | String x t => if Ascii.eqb x c then ("", t) else let '(a, b) := cut c t in (String x a, b)
  end.
Fixpoint any (f : ascii -> bool) (s : string) : bool :=
  match s with EmptyString => false | String c t => f c || any f t end.
Definition control (c : ascii) : bool := (N_of_ascii c <? 32)%N || (N_of_ascii c =? 127)%N.
(** url.Parse in http.NewRequest, what is sent of the URL, and its parsing by the
    server: the decoded path. [None]: an error. The fragment is dropped; a blank
    in the query makes the request line malformed. *)
Definition sent_path (uri : string) : option string :=
  if any control uri then None
  else
    let '(u, frag) := cut "#" uri in
    match unescape frag with
    | None => None
    | Some _ =>
        let '(p, query) := cut "?" u in
        match unescape p with
        | None => None
        | Some path => if any (Ascii.eqb " ") query then None else Some path
        end
    end.

(** ** Routing *)
Inductive route :=
| RtCreate | RtDelete | RtDelta | RtIndex | RtImport | RtClone | RtCopySource | RtPull
| RtRemoveSource | RtTrimPackages | RtTrimObsolete | RtResetCompleted | RtResetFailed
| RtStatus | RtListRepos | RtListPool.
(** server.go:93-124: method, fixed segments, whether ":id" follows *)
Definition routes : list (meth * list string * bool * route) :=
  [ (GET, ["api"; "v1"; "status"], false, RtStatus);
    (GET, ["api"; "v1"; "create"; "repo"], true, RtCreate);
    (GET, ["api"; "v1"; "remove"; "repo"], true, RtDelete);
    (GET, ["api"; "v1"; "delta"; "repo"], true, RtDelta);
    (GET, ["api"; "v1"; "index"; "repo"], true, RtIndex);
    (POST, ["api"; "v1"; "import"], true, RtImport);
    (POST, ["api"; "v1"; "clone"], true, RtClone);
    (POST, ["api"; "v1"; "copy"; "source"], true, RtCopySource);
    (POST, ["api"; "v1"; "pull"], true, RtPull);
    (POST, ["api"; "v1"; "remove"; "source"], true, RtRemoveSource);
    (POST, ["api"; "v1"; "trim"; "packages"], true, RtTrimPackages);
    (GET, ["api"; "v1"; "trim"; "obsoletes"], true, RtTrimObsolete);
    (GET, ["api"; "v1"; "reset"; "completed"], false, RtResetCompleted);
    (GET, ["api"; "v1"; "reset"; "failed"], false, RtResetFailed);
    (GET, ["api"; "v1"; "list"; "repos"], false, RtListRepos);
    (GET, ["api"; "v1"; "list"; "pool"], false, RtListPool) ].

(** httprouter: a path (its segments) matches a route if the fixed segments agree
    and, where there is ":id", exactly one more non-empty segment follows *)
Fixpoint after_fixed (eq : string -> string -> bool) (fixed l : list string) : option (list string) :=
  match fixed, l with
  | [], _ => Some l
  | x :: f, y :: l' => if eq x y then after_fixed eq f l' else None
  | _ :: _, [] => None
  end.
Definition match_one (eq : string -> string -> bool) (m : meth) (l : list string) (r : meth * list string * bool * route)
  : option (list string * route * string) :=
  let '(m', fixed, has_id, rt) := r in
  if meth_eqb m m' then
    match after_fixed eq fixed l with
    | Some [] => if has_id : bool then None else Some (fixed, rt, "")
    | Some [id] => if has_id && negb (seqb id "") then Some (fixed ++ [id], rt, id) else None
    | _ => None
    end
  else None.
Fixpoint match_routes (eq : string -> string -> bool) (m : meth) (l : list string) (rs : list (meth * list string * bool * route))
  : option (list string * route * string) :=
  match rs with
  | [] => None
  | r :: rs' => match match_one eq m l r with Some x => Some x | None => match_routes eq m l rs' end
  end.
(** strings compared without regard to case (simplification: ASCII letters) *)
Definition fold_eqb (a b : string) : bool := seqb (to_lower a) (to_lower b).
(** httprouter CleanPath: like path.Clean, but a final slash or dot leaves a final slash *)
Definition clean_path (p : string) : string :=
  let c := clean p in
  let l := last (split_slash p) "" in
  if (seqb l "" || seqb l ".") && negb (seqb c "/") then c ++ "/" else c.
(** segments without a final empty one *)
Definition without_slash (l : list string) : list string :=
  match rev l with x :: r => if seqb x "" then rev r else l | [] => l end.

Inductive reply := Handle (rt : route) (id : string) | Moved (path : string) | NotFound.
(** httprouter Router.ServeHTTP. http redirects and the client clean the target. *)
Definition serve (m : meth) (path : string) : reply :=
  let l := tl (split_slash path) in
  match match_routes seqb m l routes with
  | Some (_, rt, id) => Handle rt id
  | None =>
      match match_routes seqb m (without_slash l) routes with
      | Some (canon, _, _) => Moved (clean ("/" ++ join_slash canon))
      | None =>
          match match_routes fold_eqb m (without_slash (tl (split_slash (clean_path path)))) routes with
          | Some (canon, _, _) => Moved (clean ("/" ++ join_slash canon))
          | None => NotFound
          end
      end
  end.
(** net/http Client: follows redirects, at most ten *)
Fixpoint follow (fuel : nat) (m : meth) (path : string) : option (route * string) :=
  match fuel with
  | O => None
  | S f => match serve m path with
           | Handle rt id => Some (rt, id)
           | Moved p => follow f m p
           | NotFound => None
           end
  end.

(** ** Handlers *)
(** What the daemon does with a call, and what the client is told: an error; the
    request is queued; a job history is cleared; an answer only. All but the
    first are successes. *)
Inductive result := Refused | Queued (r : request) | Cleared (failed : bool) | Answered.
(** handlers.go:136-310 *)
Definition handle (rt : route) (id : string) (b : body) : result :=
  match rt with
  | RtCreate => Queued (ReqCreate id)
  | RtDelete => Queued (ReqDelete id)
  | RtDelta => Queued (ReqDelta id)
  | RtIndex => Queued (ReqIndex id)
  | RtImport => Queued (ReqImport id (b_path b))
  | RtClone => Queued (ReqClone id (b_clone b) (b_all b))
  | RtPull => Queued (ReqPull id (b_source b))
  | RtRemoveSource => Queued (ReqRemoveSource id (b_source b) (b_release b))
  | RtCopySource => Queued (ReqCopySource id (b_target b) (b_source b) (b_release b) (b_skip b))
  | RtTrimPackages => Queued (ReqTrimPackages id (b_max b))
  | RtTrimObsolete => Queued (ReqTrimObsolete id)
  | RtResetCompleted => Cleared false
  | RtResetFailed => Cleared true
  | RtStatus | RtListRepos | RtListPool => Answered
  end.
(** libferry/main.go:95-135 getBasicResponse, postBasicResponse: a reply of a
    handler has no body, that of an error is not JSON *)
Definition submit (c : call) : result :=
  let '(m, uri, b) := http_of c in
  match sent_path uri with
  | None => Refused
  | Some path => match follow 11 m path with
                 | Some (rt, id) => handle rt id (json_body b)
                 | None => Refused
                 end
  end.
