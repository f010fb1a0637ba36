(** * Gob: how records become bytes, src/libdb/transcoder.go and
    src/libdb/leveldb.go (PutObject, GetObject, Decode)

    Executable model, no proofs. The encoding itself is Go's encoding/gob; what
    is modelled of it is its documented behaviour:

    - a stream is a sequence of messages, each preceded by its length; a value
      message carries the number of its type, and before the first value of a
      type its definition is sent, once per Encoder;
    - a struct is sent as its exported fields in order, each preceded by the
      distance to the previous one sent; fields with a zero value (and empty
      slices, nil pointers, pointers to such) are left out, except structs;
    - pointers are not sent, what they point to is; a nil pointer as an element
      of a slice is an error;
    - the receiver matches fields by name, leaves fields that were not sent as
      they are, and allocates what nil pointers point to.

    Simplified: the definition of a type is one message holding its whole
    structure (gob sends one message per named type, with its own layout); a
    time is sent as an integer (gob: time.Time's own MarshalBinary); no maps,
    arrays, floats, interfaces or recursive types, which no stored record has;
    field types are checked value by value while decoding, not in advance. *)
From Verif Require Export Base.
From Verif Require Import Model LibDb.
Open Scope string_scope. Open Scope list_scope.

(** ** Go types and values *)
Inductive ty :=
| TyBool | TyInt | TyUint | TyStr | TyTime
| TySlice (t : ty) | TyPtr (t : ty) | TyStruct (f : flds)
with flds := FNil | FCons (n : string) (t : ty) (f : flds).

(** [VNil]: nil pointer; [VNone]: nil slice; [VTime 0]: the zero time *)
Inductive val :=
| VBool (b : bool) | VInt (z : Z) | VUint (n : N) | VStr (s : string) | VTime (z : Z)
| VNil | VNone | VList (l : list val) | VRef (v : val) | VRec (l : list val).

(** Go's zero value of a type *)
Fixpoint zero (t : ty) : val :=
  match t with
  | TyBool => VBool false | TyInt => VInt 0 | TyUint => VUint 0 | TyStr => VStr "" | TyTime => VTime 0
  | TySlice _ => VNone
  | TyPtr _ => VNil
  | TyStruct f => VRec (zeros f)
  end
with zeros (f : flds) : list val := match f with FNil => [] | FCons _ t f' => zero t :: zeros f' end.

(** ** Bytes *)

(** gob's unsigned integers: below 128 one byte; otherwise the negated number of
    bytes, then the bytes, most significant first *)
Definition nbytes (n : N) : nat := N.to_nat (N.div (N.log2 n) 8 + 1).
Definition enc_uint (n : N) : string :=
  if N.ltb n 128 then String (ascii_of_N n) ""
  else String (ascii_of_N (256 - N.of_nat (nbytes n))) (be (nbytes n) n).
Definition dec_uint (s : string) : option (N * string) :=
  match s with
  | "" => None
  | String c r =>
      let b := N_of_ascii c in
      if N.ltb b 128 then Some (b, r)
      else let k := N.to_nat (256 - b) in
           if Nat.ltb 8 k || Nat.ltb (String.length r) k then None
           else Some (be_value (stake k r) 0, sdrop k r)
  end.
(** signed integers: shifted left by one, complemented when negative *)
Definition enc_int (z : Z) : string :=
  enc_uint (if Z.ltb z 0 then (2 * Z.to_N (- z - 1) + 1)%N else (2 * Z.to_N z)%N).
Definition dec_int (s : string) : option (Z * string) :=
  match dec_uint s with
  | None => None
  | Some (u, r) => Some (if N.odd u then (- Z.of_N (N.div u 2) - 1)%Z else Z.of_N (N.div u 2), r)
  end.
Definition enc_str (s : string) : string := (enc_uint (N.of_nat (String.length s)) ++ s)%string.
Definition dec_str (s : string) : option (string * string) :=
  match dec_uint s with
  | None => None
  | Some (n, r) => if N.ltb (N.of_nat (String.length r)) n then None else Some (stake (N.to_nat n) r, sdrop (N.to_nat n) r)
  end.

(** ** What is sent: a value without pointers and without the fields left out *)
Inductive wire :=
| WBool (b : bool) | WInt (z : Z) | WUint (n : N) | WStr (s : string) | WTime (z : Z)
| WList (l : list wire) | WRec (l : list (option wire)).

(** the type as it is sent *)
Fixpoint flat_ty (t : ty) : ty :=
  match t with
  | TyPtr t' => flat_ty t'
  | TySlice t' => TySlice (flat_ty t')
  | TyStruct f => TyStruct (flat_flds f)
  | _ => t
  end
with flat_flds (f : flds) : flds := match f with FNil => FNil | FCons n t f' => FCons n (flat_ty t) (flat_flds f') end.

(** all elements of a slice have to be sent *)
Fixpoint send_all (send : val -> option (option wire)) (l : list val) : option (list wire) :=
  match l with
  | [] => Some []
  | v :: l' =>
      match send v, send_all send l' with
      | Some (Some w), Some ws => Some (w :: ws)
      | _, _ => None
      end
  end.
(** [None]: an error; [Some None]: left out. [z]: also send zero values (inside
    slices and at the top) *)
Fixpoint send (z : bool) (t : ty) (v : val) : option (option wire) :=
  let scalar (zeroval : bool) (w : wire) := if negb z && zeroval then Some None else Some (Some w) in
  match t, v with
  | TyBool, VBool b => scalar (negb b) (WBool b)
  | TyInt, VInt i => scalar (Z.eqb i 0) (WInt i)
  | TyUint, VUint n => scalar (N.eqb n 0) (WUint n)
  | TyStr, VStr s => scalar (seqb s "") (WStr s)
  | TyTime, VTime i => scalar (Z.eqb i 0) (WTime i)
  | TySlice _, VNone => scalar true (WList [])
  | TySlice _, VList [] => scalar true (WList [])
  | TySlice t', VList l => match send_all (send true t') l with Some ws => Some (Some (WList ws)) | None => None end
  | TyPtr _, VNil => if z then None else Some None
  | TyPtr t', VRef v' => send z t' v'
  | TyStruct f, VRec vs => match send_fields f vs with Some ws => Some (Some (WRec ws)) | None => None end
  | _, _ => None
  end
with send_fields (f : flds) (vs : list val) : option (list (option wire)) :=
  match f, vs with
  | FNil, [] => Some []
  | FCons _ t f', v :: vs' =>
      match send false t v, send_fields f' vs' with
      | Some o, Some ws => Some (o :: ws)
      | _, _ => None
      end
  | _, _ => None
  end.

(** its bytes; [g]: distance of the next field to the last one sent *)
Fixpoint enc_wire (t : ty) (w : wire) : string :=
  match t, w with
  | TyBool, WBool b => enc_uint (if b then 1 else 0)
  | TyInt, WInt i => enc_int i
  | TyUint, WUint n => enc_uint n
  | TyStr, WStr s => enc_str s
  | TyTime, WTime i => enc_int i
  | TySlice t', WList l => (enc_uint (N.of_nat (List.length l)) ++ String.concat "" (map (enc_wire t') l))%string
  | TyStruct f, WRec l => enc_fields f l 1
  | _, _ => ""
  end
with enc_fields (f : flds) (l : list (option wire)) (g : N) : string :=
  match f, l with
  | FCons _ t f', Some w :: l' => (enc_uint g ++ enc_wire t w ++ enc_fields f' l' 1)%string
  | FCons _ _ f', None :: l' => enc_fields f' l' (g + 1)
  | _, _ => enc_uint 0
  end.

Fixpoint dec_n {A} (dec : string -> option (A * string)) (n : nat) (s : string) : option (list A * string) :=
  match n with
  | O => Some ([], s)
  | S n' =>
      match dec s with
      | None => None
      | Some (a, s1) => match dec_n dec n' s1 with None => None | Some (l, s2) => Some (a :: l, s2) end
      end
  end.
(** reading a value of a type that was sent; [d]: distance to the next field sent,
    0 at the end of the struct *)
Fixpoint dec_wire (t : ty) (s : string) : option (wire * string) :=
  match t with
  | TyBool => match dec_uint s with Some (n, r) => Some (WBool (negb (N.eqb n 0)), r) | None => None end
  | TyInt => match dec_int s with Some (i, r) => Some (WInt i, r) | None => None end
  | TyUint => match dec_uint s with Some (n, r) => Some (WUint n, r) | None => None end
  | TyStr => match dec_str s with Some (x, r) => Some (WStr x, r) | None => None end
  | TyTime => match dec_int s with Some (i, r) => Some (WTime i, r) | None => None end
  | TySlice t' =>
      match dec_uint s with
      | None => None
      | Some (n, r) =>
          if N.ltb (N.of_nat (String.length r)) n then None
          else match dec_n (dec_wire t') (N.to_nat n) r with Some (l, r') => Some (WList l, r') | None => None end
      end
  | TyPtr t' => dec_wire t' s
  | TyStruct f =>
      match dec_uint s with
      | None => None
      | Some (d, r) => match dec_fields f d r with Some (l, r') => Some (WRec l, r') | None => None end
      end
  end
with dec_fields (f : flds) (d : N) (s : string) : option (list (option wire) * string) :=
  match f with
  | FNil => if N.eqb d 0 then Some ([], s) else None
  | FCons _ t f' =>
      if N.eqb d 1 then
        match dec_wire t s with
        | None => None
        | Some (w, s1) =>
            match dec_uint s1 with
            | None => None
            | Some (d', s2) => match dec_fields f' d' s2 with Some (l, s3) => Some (Some w :: l, s3) | None => None end
            end
        end
      else match dec_fields f' (d - 1) s with Some (l, s3) => Some (None :: l, s3) | None => None end
  end.

(** ** Storing what was received into the destination *)
Fixpoint find_field (n : string) (f : flds) (l : list (option wire)) : option (ty * wire) :=
  match f, l with
  | FCons m t f', o :: l' =>
      if seqb n m then match o with Some w => Some (t, w) | None => None end else find_field n f' l'
  | _, _ => None
  end.
(** elements of a slice go over the elements the destination already has *)
Fixpoint store_all (store : val -> wire -> option val) (z : val) (ds : list val) (ws : list wire) : option (list val) :=
  match ws with
  | [] => Some []
  | w :: ws' =>
      match store (match ds with d :: _ => d | [] => z end) w, store_all store z (tl ds) ws' with
      | Some v, Some vs => Some (v :: vs)
      | _, _ => None
      end
  end.
(** [wt]: the type that was sent; [t], [d]: type and present value of the
    destination. [None]: the types do not match. *)
Fixpoint store (wt t : ty) (d : val) (w : wire) : option val :=
  match t, w with
  | TyBool, WBool b => Some (VBool b)
  | TyInt, WInt i => Some (VInt i)
  | TyUint, WUint n => Some (VUint n)
  | TyStr, WStr s => Some (VStr s)
  | TyTime, WTime i => Some (VTime i)
  | TySlice t', WList ws =>
      match wt with
      | TySlice wt' =>
          match store_all (store wt' t') (zero t') (match d with VList l => l | _ => [] end) ws with
          | Some vs => Some (VList vs)
          | None => None
          end
      | _ => None
      end
  | TyPtr t', _ =>
      match store wt t' (match d with VRef d' => d' | _ => zero t' end) w with Some v => Some (VRef v) | None => None end
  | TyStruct f, WRec ws =>
      match wt, d with
      | TyStruct wf, VRec ds => match store_fields wf ws f ds with Some vs => Some (VRec vs) | None => None end
      | _, _ => None
      end
  | _, _ => None
  end
with store_fields (wf : flds) (ws : list (option wire)) (f : flds) (ds : list val) : option (list val) :=
  match f, ds with
  | FNil, _ => Some []
  | FCons n t f', d :: ds' =>
      match (match find_field n wf ws with Some (wt, w) => store wt t d w | None => Some d end), store_fields wf ws f' ds' with
      | Some v, Some vs => Some (v :: vs)
      | _, _ => None
      end
  | FCons _ _ _, [] => None
  end.

(** ** Messages *)

(** the definition of a type *)
Fixpoint enc_ty (t : ty) : string :=
  match t with
  | TyBool => enc_uint 1 | TyInt => enc_uint 2 | TyUint => enc_uint 3 | TyStr => enc_uint 4 | TyTime => enc_uint 5
  | TySlice t' => (enc_uint 6 ++ enc_ty t')%string
  | TyPtr t' => enc_ty t'
  | TyStruct f => (enc_uint 7 ++ enc_flds f)%string
  end
with enc_flds (f : flds) : string :=
  match f with FNil => enc_uint 0 | FCons n t f' => (enc_uint 1 ++ enc_str n ++ enc_ty t ++ enc_flds f')%string end.
Fixpoint dec_ty (fuel : nat) (s : string) : option (ty * string) :=
  match fuel with
  | O => None
  | S k =>
      match dec_uint s with
      | None => None
      | Some (tag, r) =>
          match tag with
          | 1%N => Some (TyBool, r) | 2%N => Some (TyInt, r) | 3%N => Some (TyUint, r) | 4%N => Some (TyStr, r) | 5%N => Some (TyTime, r)
          | 6%N => match dec_ty k r with Some (t, r') => Some (TySlice t, r') | None => None end
          | 7%N => match dec_flds k r with Some (f, r') => Some (TyStruct f, r') | None => None end
          | _ => None
          end
      end
  end
with dec_flds (fuel : nat) (s : string) : option (flds * string) :=
  match fuel with
  | O => None
  | S k =>
      match dec_uint s with
      | None => None
      | Some (tag, r) =>
          match tag with
          | 0%N => Some (FNil, r)
          | 1%N =>
              match dec_str r with
              | None => None
              | Some (n, r1) =>
                  match dec_ty k r1 with
                  | None => None
                  | Some (t, r2) => match dec_flds k r2 with Some (f, r3) => Some (FCons n t f, r3) | None => None end
                  end
              end
          | _ => None
          end
      end
  end.

(** gob refuses messages of 8 GB and more *)
Definition too_big : N := 2 ^ 33.
Definition enc_msg (body : string) : option string :=
  let n := N.of_nat (String.length body) in
  if N.leb too_big n then None else Some (enc_uint n ++ body)%string.
Definition dec_msg (s : string) : option (string * string) := dec_str s.

(** ** The encoder: transcoder.go:25-66 *)

(** [g_id]: the number of each type, given out by the running process as types
    are met; [g_sent]: the types this encoder has defined already; [g_mem]: the
    array behind its buffer. *)
Record encoder := Encoder { g_ids : ty -> positive; g_sent : list positive; g_mem : string }.
(** transcoder.go:38-44 NewGobEncoderLight *)
Definition new_encoder (ids : ty -> positive) : encoder := Encoder ids [] "".

(** writing [bytes] from the start of a buffer (the deferred Reset of
    transcoder.go:58-60 empties it but keeps its array): in place when they fit,
    otherwise in a new array *)
Definition overwrite (mem bytes : string) : string :=
  if Nat.leb (String.length bytes) (String.length mem)
  then (bytes ++ sdrop (String.length bytes) mem)%string else bytes.

(** gob.Encoder.Encode for a struct or a pointer to one: the bytes written to the buffer *)
Definition encode (g : encoder) (t : ty) (v : val) : option string :=
  let id := g_ids g t in
  match send true t v with
  | Some (Some w) =>
      let known := existsb (Pos.eqb id) (g_sent g) in
      match enc_msg (enc_int (- Zpos id) ++ enc_ty (flat_ty t))%string, enc_msg (enc_int (Zpos id) ++ enc_wire (flat_ty t) w)%string with
      | Some def, Some value => Some (if known then value else (def ++ value)%string)
      | _, _ => None
      end
  | _ => None
  end.
(** transcoder.go:57-66 EncodeType. What it returns is a slice of the encoder's
    own array: [returned] is that slice's content now, and [reread] its content
    after later calls. *)
Definition encode_type (g : encoder) (t : ty) (v : val) : encoder * option string :=
  match encode g t v with
  | Some b => (Encoder (g_ids g) (g_ids g t :: g_sent g) (overwrite (g_mem g) b), Some b)
  | None => (g, None)
  end.
(** what a slice returned by an earlier call of [g0] shows when the encoder has
    become [g1] by one more call (a new array leaves the old one alone) *)
Definition reread (g0 g1 : encoder) (returned : string) : string :=
  if Nat.leb (String.length (g_mem g1)) (String.length (g_mem g0)) then stake (String.length returned) (g_mem g1) else returned.

(** ** The decoder: transcoder.go:31-77 *)

(** the types defined so far in what this decoder has read *)
Definition decoder := list (positive * ty).
(** transcoder.go:47-53 NewGobDecoderLight *)
Definition new_decoder : decoder := [].
Fixpoint known_type (dc : decoder) (i : positive) : option ty :=
  match dc with [] => None | (j, t) :: dc' => if Pos.eqb i j then Some t else known_type dc' i end.

(** gob.Decoder.Decode: definitions up to and including the next value. A second
    definition of a number is an error, so is a number never defined. *)
Fixpoint decode (fuel : nat) (dc : decoder) (s : string) (t : ty) (dest : val) : decoder * option val :=
  match fuel with
  | O => (dc, None)
  | S k =>
      match dec_msg s with
      | None => (dc, None)
      | Some (body, rest) =>
          match dec_int body with
          | Some (Zneg i, r) =>
              match known_type dc i, dec_ty (S (String.length r)) r with
              | None, Some (wt, _) => decode k ((i, wt) :: dc) rest t dest
              | _, _ => (dc, None)
              end
          | Some (Zpos i, r) =>
              match known_type dc i with
              | None => (dc, None)
              | Some wt =>
                  match dec_wire wt r with
                  | Some (w, _) => (dc, store wt t dest w)
                  | None => (dc, None)
                  end
              end
          | _ => (dc, None)
          end
      end
  end.
(** transcoder.go:69-77 DecodeType: whatever is left over is dropped (Reset) *)
Definition decode_type (dc : decoder) (buf : string) (t : ty) (dest : val) : decoder * option val :=
  decode (S (String.length buf)) dc buf t dest.

(** ** leveldb.go:94-98 (PutObject) and 118-124 (Decode): one encoder and one
    decoder per record *)
Definition object_bytes (ids : ty -> positive) (t : ty) (v : val) : option string := snd (encode_type (new_encoder ids) t v).
Definition read_object (t : ty) (dest : val) (bytes : string) : option val := snd (decode_type new_decoder bytes t dest).
(** leveldb.go:76-83 GetObject and 89-104 PutObject on a plain handle *)
Definition put_object (ids : ty -> positive) (db : flat) (prefix id : string) (t : ty) (v : val) : option flat :=
  if reserved id then None
  else match object_bytes ids t v with Some b => ldb_put db prefix id b | None => None end.
Definition get_object (db : flat) (prefix id : string) (t : ty) (dest : val) : option val :=
  match ldb_get db prefix id with Some b => read_object t dest b | None => None end.

(** ** The records ferryd stores (exported fields only) *)
Fixpoint fields (l : list (string * ty)) : flds := match l with [] => FNil | (n, t) :: l' => FCons n t (fields l') end.
Definition struct (l : list (string * ty)) : ty := TyStruct (fields l).
(** core/repo.go:72-82: only ID is exported *)
Definition ty_repository : ty := struct [("ID", TyStr)].
(** core/repo.go:86-92 *)
Definition ty_repo_entry : ty :=
  struct [("SchemaVersion", TyStr); ("Name", TyStr); ("Available", TySlice TyStr); ("Published", TyStr); ("Deltas", TySlice TyStr)].
(** core/pool.go:46-51 *)
Definition ty_delta_information : ty :=
  struct [("FromRelease", TyInt); ("FromID", TyStr); ("ToRelease", TyInt); ("ToID", TyStr)].
(** core/pool.go:55-59 *)
Definition ty_delta_skip : ty := struct [("SchemaVersion", TyStr); ("Name", TyStr); ("Delta", ty_delta_information)].
(** libeopkg/main.go:42-45 *)
Definition ty_localised : ty := struct [("Value", TyStr); ("Lang", TyStr)].
(** libeopkg/metadata.go:28-41 *)
Definition ty_source : ty :=
  struct [("Name", TyStr); ("Homepage", TyStr); ("Packager", struct [("Name", TyStr); ("Email", TyStr)])].
(** libeopkg/metadata.go:45-57 *)
Definition ty_dependency : ty :=
  struct [("Name", TyStr); ("ReleaseFrom", TyInt); ("ReleaseTo", TyInt); ("Release", TyInt);
          ("VersionFrom", TyStr); ("VersionTo", TyStr); ("Version", TyStr)].
(** libeopkg/metadata.go:61-82 *)
Definition ty_update : ty :=
  struct [("Release", TyInt); ("Type", TyStr); ("Date", TyStr); ("Version", TyStr);
          ("Comment", struct [("Value", TyStr)]); ("Name", struct [("Value", TyStr)]); ("Email", TyStr);
          ("Requires", TyPtr (TySlice (struct [("Value", TyStr); ("Package", TyStr)])))].
(** libeopkg/metadata.go:85-95 *)
Definition ty_provides : ty :=
  struct [("COMAR", TySlice (struct [("Value", TyStr); ("Script", TyStr)])); ("PkgConfig", TySlice TyStr); ("PkgConfig32", TySlice TyStr)].
(** libeopkg/metadata.go:104-109 *)
Definition ty_delta : ty := struct [("ReleaseFrom", TyInt); ("PackageURI", TyStr); ("PackageSize", TyInt); ("PackageHash", TyStr)].
(** libeopkg/metadata.go:113-150 *)
Definition ty_meta_package : ty :=
  struct [("Name", TyStr); ("Summary", TySlice ty_localised); ("Description", TySlice ty_localised); ("IsA", TyStr); ("PartOf", TyStr);
          ("License", TySlice TyStr); ("RuntimeDependencies", TyPtr (TySlice ty_dependency)); ("Conflicts", TyPtr (TySlice TyStr));
          ("Replaces", TyPtr (TySlice TyStr)); ("Provides", TyPtr ty_provides); ("History", TySlice ty_update);
          ("BuildHost", TyStr); ("Distribution", TyStr); ("DistributionRelease", TyStr); ("Architecture", TyStr);
          ("InstalledSize", TyInt); ("PackageSize", TyInt); ("PackageHash", TyStr); ("PackageURI", TyStr);
          ("DeltaPackages", TyPtr (TySlice ty_delta)); ("PackageFormat", TyStr); ("Source", ty_source)].
(** core/pool.go:68-74 *)
Definition ty_pool_entry : ty :=
  struct [("SchemaVersion", TyStr); ("Name", TyStr); ("RefCount", TyUint); ("Meta", TyPtr ty_meta_package); ("Delta", TyPtr ty_delta_information)].
(** libferry/types.go:98-102 *)
Definition ty_timing : ty := struct [("Queued", TyTime); ("Begin", TyTime); ("End", TyTime)].
(** jobs/main.go:94-106: id, sequential, description and failure are not exported *)
Definition ty_job_entry : ty := struct [("Type", TyStr); ("Claimed", TyBool); ("Params", TySlice TyStr); ("Timing", ty_timing)].
(** libferry/types.go:146-151 *)
Definition ty_job : ty := struct [("Description", TyStr); ("Timing", ty_timing); ("Failed", TyBool); ("Error", TyStr)].
(** jobs/store.go:68-70 *)
Definition ty_index_record : ty := struct [("Index", TyUint)].
Definition stored_types : list ty :=
  [ty_repository; ty_repo_entry; ty_delta_skip; ty_pool_entry; ty_job_entry; ty_job; ty_index_record].
