(** Model of the byte-order readers and small helpers of src/decoders/basics.rs. *)
From Coq Require Import ZArith List Bool.
From Verif Require Import Base.
Import ListNotations.
Local Open Scope Z_scope.

(** byteorder 1.x [BigEndian::read_u16] / [LittleEndian::read_u16] and the 32
    bit ones, on a slice of the right length (the callers below slice first).
    Written with shifts and ors as in the crate. *)
Definition be16 (l : list Z) : Z :=
  match l with
  | b0 :: b1 :: _ => Z.lor (Z.shiftl b0 8) b1
  | _ => 0
  end.
Definition le16 (l : list Z) : Z :=
  match l with
  | b0 :: b1 :: _ => Z.lor (Z.shiftl b1 8) b0
  | _ => 0
  end.
Definition be32 (l : list Z) : Z :=
  match l with
  | b0 :: b1 :: b2 :: b3 :: _ =>
      Z.lor (Z.shiftl b0 24) (Z.lor (Z.shiftl b1 16) (Z.lor (Z.shiftl b2 8) b3))
  | _ => 0
  end.
Definition le32 (l : list Z) : Z :=
  match l with
  | b0 :: b1 :: b2 :: b3 :: _ =>
      Z.lor (Z.shiftl b3 24) (Z.lor (Z.shiftl b2 16) (Z.lor (Z.shiftl b1 8) b0))
  | _ => 0
  end.

(** basics.rs:63-65 [BEu32] *)
Definition BEu32 (buf : list Z) (pos : Z) : res Z :=
  s <- slice buf pos (pos + 4) ;; Ok (be32 s).
(** basics.rs:67-69 [LEu32] *)
Definition LEu32 (buf : list Z) (pos : Z) : res Z :=
  s <- slice buf pos (pos + 4) ;; Ok (le32 s).
(** basics.rs:75-77 [BEu16] *)
Definition BEu16 (buf : list Z) (pos : Z) : res Z :=
  s <- slice buf pos (pos + 2) ;; Ok (be16 s).
(** basics.rs:79-81 [LEu16] *)
Definition LEu16 (buf : list Z) (pos : Z) : res Z :=
  s <- slice buf pos (pos + 2) ;; Ok (le16 s).
(** basics.rs:55-57 [BEi32] *)
Definition BEi32 (buf : list Z) (pos : Z) : res Z :=
  v <- BEu32 buf pos ;; Ok (as_i32 v).
(** basics.rs:59-61 [LEi32] *)
Definition LEi32 (buf : list Z) (pos : Z) : res Z :=
  v <- LEu32 buf pos ;; Ok (as_i32 v).

(** basics.rs:19-53 [Endian] : [big] is the only field. *)
Definition endian := bool.
Definition BIG_ENDIAN : endian := true.
Definition LITTLE_ENDIAN : endian := false.
(** basics.rs:25-31 *)
Definition ri32 (e : endian) (buf : list Z) (pos : Z) : res Z :=
  if e then BEi32 buf pos else LEi32 buf pos.
(** basics.rs:33-39 *)
Definition ru32 (e : endian) (buf : list Z) (pos : Z) : res Z :=
  if e then BEu32 buf pos else LEu32 buf pos.
(** basics.rs:41-47 *)
Definition ru16 (e : endian) (buf : list Z) (pos : Z) : res Z :=
  if e then BEu16 buf pos else LEu16 buf pos.
(** basics.rs:49 *)
Definition little (e : endian) : bool := negb e.
