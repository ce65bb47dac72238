(** Model of [ByteStream] of src/decoders/pumps.rs.  A stream is its buffer, its
    byte order and a position; the functions below take the position and return
    the new one. *)
From Coq Require Import String ZArith List Bool.
From Verif Require Import Base Bytes.
Import ListNotations.
Local Open Scope Z_scope.

(** pumps.rs:239-244 [peek_u8], [get_u8] *)
Definition bs_u8 (buf : list Z) (pos : Z) : res (Z * Z) := v <- get buf pos ;; Ok (v, pos + 1).
(** pumps.rs:246-251 [peek_u16], [get_u16] *)
Definition bs_u16 (e : endian) (buf : list Z) (pos : Z) : res (Z * Z) := v <- ru16 e buf pos ;; Ok (v, pos + 2).

(** pumps.rs:264-277 [skip_to_marker].  The count it returns is never used.
    [fuel]: the position grows and is below the length of the buffer. *)
Fixpoint bs_skip (fuel : nat) (buf : list Z) (pos : Z) : res Z :=
  match fuel with
  | O => Loop
  | S fuel' =>
      b <- get buf pos ;;
      found <- (if b =? 0xff then c <- get buf (pos + 1) ;; Ok (negb (c =? 0) && negb (c =? 0xff))
                else Ok false) ;;
      if found then Ok (pos + 1)
      else if zlen buf <=? pos + 1 then Err "No marker found inside rest of buffer"%string
      else bs_skip fuel' buf (pos + 1)
  end.
Definition bs_skip_to_marker (buf : list Z) (pos : Z) : res Z := bs_skip (S (length buf)) buf pos.
