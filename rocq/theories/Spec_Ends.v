(** The only files that may keep the reader busy for ever. *)
From Coq Require Import ZArith List Bool.
From Verif Require Import Base Bytes Clients Spec_Dispatch.
Import ListNotations.
Local Open Scope Z_scope.

(** A Minolta header is a chain of blocks: the first one 8 bytes from the start,
    each of them a tag of four bytes, a length of four bytes and as many bytes as
    the length says.  The u32 addition that skips a block wraps around. *)
Inductive minolta_block (buf : list Z) (limit : Z) : Z -> Prop :=
| first_block : minolta_block buf limit 8
| next_block : forall pos len, minolta_block buf limit pos -> pos + 20 < limit -> BEu32 buf (pos + 4) = Ok len ->
    minolta_block buf limit (pos + (len + 8) mod 2 ^ 32).
(** The header has a block whose length, 2^32 - 8, sends the reader back to it. *)
Definition minolta_trap (file : list Z) : Prop :=
  container_of file Minolta /\
  exists data pos, BEu32 (buffer_new file) 4 = Ok data /\
    minolta_block (buffer_new file) ((data + 8) mod 2 ^ 32) pos /\ pos + 20 < (data + 8) mod 2 ^ 32 /\
    BEu32 (buffer_new file) (pos + 4) = Ok (2 ^ 32 - 8).
