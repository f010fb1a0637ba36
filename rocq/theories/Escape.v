(** * Escape: core/escape.go, the writer that escapes non-ASCII symbols

    Bytes and runes are numbers. The Unicode classification of runes (which runes
    are in Symbol, C or Space) is a parameter. Executable model; no proofs. *)
From Coq Require Import List NArith Bool Lia.
Import ListNotations.
Open Scope N_scope. Open Scope list_scope.

Definition rune_error : N := 65533.
Definition within (lo hi b : N) : bool := (lo <=? b) && (b <=? hi).
(** utf8.DecodeRune of the Go library: rune and size; an invalid sequence gives
    (RuneError, 1). Second-byte ranges as in the library's acceptRanges table. *)
Definition decode_rune (b : list N) : N * nat :=
  match b with
  | [] => (rune_error, O)
  | b0 :: t =>
      if b0 <? 128 then (b0, 1%nat)
      else if within 194 223 b0 then
        match t with
        | b1 :: _ => if within 128 191 b1 then ((b0 - 192) * 64 + (b1 - 128), 2%nat) else (rune_error, 1%nat)
        | _ => (rune_error, 1%nat)
        end
      else if within 224 239 b0 then
        match t with
        | b1 :: b2 :: _ =>
            let lo := if b0 =? 224 then 160 else 128 in
            let hi := if b0 =? 237 then 159 else 191 in
            if within lo hi b1 && within 128 191 b2
            then ((b0 - 224) * 4096 + (b1 - 128) * 64 + (b2 - 128), 3%nat) else (rune_error, 1%nat)
        | _ => (rune_error, 1%nat)
        end
      else if within 240 244 b0 then
        match t with
        | b1 :: b2 :: b3 :: _ =>
            let lo := if b0 =? 240 then 144 else 128 in
            let hi := if b0 =? 244 then 143 else 191 in
            if within lo hi b1 && within 128 191 b2 && within 128 191 b3
            then ((b0 - 240) * 262144 + (b1 - 128) * 4096 + (b2 - 128) * 64 + (b3 - 128), 4%nat) else (rune_error, 1%nat)
        | _ => (rune_error, 1%nat)
        end
      else (rune_error, 1%nat)
  end.

(** utf8.AppendRune of the Go library *)
Definition encode (r : N) : list N :=
  if r <=? 127 then [r]
  else if r <=? 2047 then [192 + r / 64; 128 + r mod 64]
  else if within 55296 57343 r || (1114111 <? r) then [239; 191; 189]
  else if r <=? 65535 then [224 + r / 4096; 128 + r / 64 mod 64; 128 + r mod 64]
  else [240 + r / 262144; 128 + r / 4096 mod 64; 128 + r / 64 mod 64; 128 + r mod 64].

(** fmt %X *)
Definition hex_digit (n : N) : N := if n <? 10 then 48 + n else 55 + n.
Fixpoint hex (fuel : nat) (n : N) (acc : list N) : list N :=
  match fuel with
  | O => acc
  | S f => if n <? 16 then hex_digit n :: acc else hex f (n / 16) (hex_digit (n mod 16) :: acc)
  end.
Definition print_hex (n : N) : list N := hex (S (N.to_nat (N.size n))) n [].

Section Writer.
Variable symbol : N -> bool.
(** escape.go:49-51 mustEscape *)
Definition must_escape (r : N) : bool := (127 <? r) && symbol r.
(** escape.go:38-47 appendRune: the bytes appended *)
Definition append_rune (r : N) : list N :=
  if r =? rune_error then encode rune_error
  else if must_escape r then [38; 35; 120] ++ print_hex r ++ [59]
  else encode r.
(** escape.go:21-36 Write: the bytes passed on for one call (the loop runs at
    most len(b) times, every size is at least 1) *)
Fixpoint write_loop (fuel : nat) (b : list N) : list N :=
  match fuel with
  | O => []
  | S f => match b with
           | [] => []
           | _ => let '(r, size) := decode_rune b in append_rune r ++ write_loop f (skipn size b)
           end
  end.
Definition write (b : list N) : list N := write_loop (List.length b) b.
(** a sequence of Write calls *)
Definition writes (l : list (list N)) : list N := flat_map write l.
End Writer.
