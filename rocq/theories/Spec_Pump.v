(** Specification of the bit readers: a reader is a bit string from which a
    client takes fields.  Independent of the model of the program. *)
From Coq Require Import ZArith List Bool.
From Verif Require Import Spec_Bits.
Import ListNotations.
Local Open Scope Z_scope.

(** What a client can ask: look at the next [n] bits, or take them, or look at
    [n] bits and then drop only [m] of them. *)
Inductive request :=
| RPeek (n : nat)
| RGet (n : nat)
| RPeekDrop (n m : nat).

Definition request_ok (r : request) : Prop :=
  match r with
  | RPeek n | RGet n => (n <= 32)%nat
  | RPeekDrop n m => (n <= 32)%nat /\ (m <= n)%nat
  end.
(** Bits the request needs to be present. *)
Definition needs (r : request) : nat :=
  match r with RPeek n | RGet n => n | RPeekDrop n _ => n end.
(** Bits the request removes. *)
Definition drops (r : request) : nat :=
  match r with RPeek _ => 0 | RGet n => n | RPeekDrop _ m => m end.

(** Every request finds the bits it needs. *)
Fixpoint enough (rs : list request) (bs : list bool) : Prop :=
  match rs with
  | [] => True
  | r :: t => (needs r <= length bs)%nat /\ enough t (skipn (drops r) bs)
  end.

(** The answers, for a most-significant-first or least-significant-first
    reader. *)
Fixpoint answers (value : list bool -> Z) (rs : list request) (bs : list bool) : list Z :=
  match rs with
  | [] => []
  | r :: t => value (firstn (needs r) bs) :: answers value t (skipn (drops r) bs)
  end.

(** What is left after the requests. *)
Fixpoint remaining (rs : list request) (bs : list bool) : list bool :=
  match rs with
  | [] => bs
  | r :: t => remaining t (skipn (drops r) bs)
  end.

(** Whole 32-bit words of a byte string. *)
Definition whole_words (l : list Z) : list Z := firstn (4 * (length l / 4)) l.

(** JPEG entropy-coded data: FF00 stands for FF; FF followed by anything else
    is a marker and ends the data. *)
Fixpoint unstuff (l : list Z) : list Z :=
  match l with
  | [] => []
  | b :: t =>
      if b =? 255 then
        match t with
        | c :: t' => if c =? 0 then 255 :: unstuff t' else []
        | [] => []
        end
      else b :: unstuff t
  end.

(** Two's complement value of a bit string, most significant bit first. *)
Definition signed_value (l : list bool) : Z :=
  match l with
  | true :: _ => number l - 2 ^ Z.of_nat (length l)
  | _ => number l
  end.
