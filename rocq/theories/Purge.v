(** * Purge: clearing the CDN cache after an index run

    Executable model of core/purge_cloudflare.go. The environment variables, the list
    file and the Cloudflare library (github.com/cloudflare/cloudflare-go) are inputs. No
    proofs. *)
From Verif Require Import Base Paths.
Local Open Scope string_scope. Local Open Scope list_scope.

Definition newline : ascii := ascii_of_nat 10.
(** strings.Split(s, "\n"), purge_cloudflare.go:55 *)
Fixpoint split_lines (s : string) : list string :=
  match s with
  | EmptyString => [EmptyString]
  | String c s' =>
      if Ascii.eqb c newline then EmptyString :: split_lines s'
      else match split_lines s' with
           | [] => [String c EmptyString]
           | h :: t => String c h :: t
           end
  end.

(** what os.Stat and os.ReadFile find (purge_cloudflare.go:43-52); a stat error other
    than "not there" is ignored and met again by the read *)
Inductive listfile := Absent | Unreadable | Lines (content : string).
(** api.PurgeCache (purge_cloudflare.go:64): an error, or the Success flag and the
    messages of the answer *)
Inductive reply := NoReply | Reply (success : bool) (messages : list string).
Record cloud := Cloud {
  cl_token : string;                          (* CLOUDFLARE_API_TOKEN, "" if unset *)
  cl_zone : string;                           (* CLOUDFLARE_ZONE_ID *)
  cl_file : string -> listfile;               (* by cleaned path *)
  cl_client : bool;                           (* cloudflare.NewWithAPIToken succeeds *)
  cl_reply : string -> list string -> reply   (* by zone and files *)
}.

(** purge_cloudflare.go:29-73 purgeCloudflare: the request sent, if any, and the
    result. [result.Errors[0]] panics if there is no message. *)
Definition purge (cl : cloud) (target : string) : option (string * list string) * res unit :=
  if Nat.eqb (String.length (cl_token cl)) 0 then (None, Ok tt)
  else if Nat.eqb (String.length (cl_zone cl)) 0 then (None, Ok tt)
  else match cl_file cl (join "/etc/ferryd" target) with
  | Absent => (None, Ok tt)
  | Unreadable => (None, Err)
  | Lines content =>
      let files := filter (fun e => negb (seqb e "")) (split_lines content) in
      if cl_client cl then
        (Some (cl_zone cl, files),
         match cl_reply cl (cl_zone cl) files with
         | NoReply => Err
         | Reply true _ => Ok tt
         | Reply false (_ :: _) => Err
         | Reply false [] => Panic
         end)
      else (None, Err)
  end.
