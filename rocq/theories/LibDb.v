(** * LibDb: the database layer, src/libdb/leveldb.go

    Executable model, no proofs. The store underneath (goleveldb) is a map from
    byte strings to byte strings iterated in ascending byte order; one Put,
    Delete or Write(batch) is one atomic durable step. Values are the encoded
    bytes (the encoding is modelled in Gob.v). *)
From Verif Require Export Base.
From Verif Require Import Model.
Open Scope string_scope. Open Scope list_scope.

Definition flat := smap string.

(** libdb/leveldb.go:28-31 *)
Definition root_prefix : string := "|rootBucket|".        (* leveldb.go:57 *)
Definition bucket_mark : string := "|bucket|".            (* leveldb.go:30 *)

(** A handle is identified by its prefix. leveldb.go:57 (root),
    leveldb.go:149-165 Bucket: "|bucket|-<prefix>-<id>". A path is the list of
    names given to successive Bucket calls, outermost first. *)
Definition sub_bucket (prefix id : string) : string := (bucket_mark ++ "-" ++ prefix ++ "-" ++ id)%string.
Definition handle_prefix (path : list string) : string := fold_left sub_bucket path root_prefix.
Definition key_prefix (prefix : string) : string := (prefix ++ "-")%string.

(** leveldb.go:72-74 getRealKey *)
Definition real_key (prefix id : string) : string := (prefix ++ "-" ++ id)%string.

(** bytes.TrimPrefix *)
Definition trim_prefix (p s : string) : string :=
  if has_prefix p s then sdrop (String.length p) s else s.

(** leveldb.go:76-87 GetObject, HasObject *)
Definition ldb_get (db : flat) (prefix id : string) : option string := mget db (real_key prefix id).
Definition ldb_has (db : flat) (prefix id : string) : bool := mhas db (real_key prefix id).

(** leveldb.go:126-144 ForEach: what the callback is shown, in order. The
    iterator ranges over util.BytesPrefix(prefix), i.e. the keys that start with
    the bytes of [prefix] (not of keyPrefix); it reads a snapshot. *)
Definition ldb_each (db : flat) (prefix : string) : list (string * string) :=
  map (fun kv => (trim_prefix (key_prefix prefix) (fst kv), snd kv))
      (filter (fun kv => has_prefix prefix (fst kv)) (mlist db)).

(** a write in the raw key space: [Some v] puts, [None] deletes *)
Definition write := (string * option string)%type.
Definition apply_write (db : flat) (w : write) : flat :=
  match snd w with Some v => mput db (fst w) v | None => mdel db (fst w) end.

(** leveldb.go:89-104 PutObject / 106-116 DeleteObject on a plain handle: [None] = error.
    [reserved] is the check of lines 90 and 107. *)
Definition ldb_put (db : flat) (prefix id v : string) : option flat :=
  if reserved id then None else Some (apply_write db (real_key prefix id, Some v)).
Definition ldb_del (db : flat) (prefix id : string) : option flat :=
  if reserved id then None else Some (apply_write db (real_key prefix id, None)).

(** ** Transactions

    The function given to Update, as the sequence of database calls it makes:
    each call names a bucket (path relative to the handle) and what it does next
    may depend on what the call returned. [TDone true] = return nil. *)
Inductive prog :=
| TGet (path : list string) (id : string) (k : option string -> prog)
| TEach (path : list string) (k : list (string * string) -> prog)
| TPut (path : list string) (id v : string) (k : bool -> prog)
| TDel (path : list string) (id : string) (k : bool -> prog)
| TDone (ok : bool).

(** prefix of the bucket at [path] below the handle with prefix [p] *)
Definition below (p : string) (path : list string) : string := fold_left sub_bucket path p.

(** leveldb.go:178-193: reads go to the database, writes to the batch (lines
    98-101, 111-114); Bucket hands the batch on (line 161). *)
Fixpoint run_tx (db : flat) (p : string) (batch : list write) (t : prog) : list write * bool :=
  match t with
  | TGet path id k => run_tx db p batch (k (ldb_get db (below p path) id))
  | TEach path k => run_tx db p batch (k (ldb_each db (below p path)))
  | TPut path id v k =>
      if reserved id then run_tx db p batch (k false)
      else run_tx db p (batch ++ [(real_key (below p path) id, Some v)]) (k true)
  | TDel path id k =>
      if reserved id then run_tx db p batch (k false)
      else run_tx db p (batch ++ [(real_key (below p path) id, None)]) (k true)
  | TDone ok => (batch, ok)
  end.

(** Update: the database after each durable step, and whether it returned nil *)
Definition ldb_update (db : flat) (p : string) (t : prog) : list flat * bool :=
  match run_tx db p [] t with
  | (batch, true) => ([fold_left apply_write batch db], true)
  | (_, false) => ([], false)
  end.
Definition db_after (db : flat) (r : list flat * bool) : flat := last (fst r) db.

(** ** NextSequence *)

(** binary.BigEndian.PutUint64 / Uint64 *)
Fixpoint be (k : nat) (n : N) : string :=
  match k with
  | O => ""
  | S k' => String (ascii_of_N (N.modulo (N.div n (256 ^ N.of_nat k')) 256)) (be k' n)
  end.
Definition be64 (n : N) : string := be 8 n.
Fixpoint be_value (s : string) (acc : N) : N :=
  match s with EmptyString => acc | String c s' => be_value s' (acc * 256 + N_of_ascii c)%N end.
Definition uint64 (n : N) : N := N.modulo n (2 ^ 64).

(** the last key of the range the handle iterates *)
Definition last_key (db : flat) (prefix : string) : option string :=
  match rev (filter (fun kv => has_prefix prefix (fst kv)) (mlist db)) with
  | kv :: _ => Some (fst kv)
  | [] => None
  end.

(** leveldb.go:197-220 NextSequence *)
Definition ldb_next (db : flat) (prefix : string) : string :=
  match last_key db prefix with
  | None => be64 0
  | Some k =>
      let nk := trim_prefix (key_prefix prefix) k in
      if (String.length nk =? 8)%nat then be64 (uint64 (be_value nk 0 + 1)) else be64 0
  end.
