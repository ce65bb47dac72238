(** Base vocabulary of the model: outcomes, machine integers, slices, loops.
    Nothing in this file models one particular function of /repo; it fixes how
    the Rust constructs used everywhere in /repo/src are represented. *)
From Coq Require Import String ZArith List Bool.
Import ListNotations.
Local Open Scope Z_scope.

(** Outcome of a Rust computation.
    [Ok]    the value returned (also the Ok of a Result);
    [Err]   an [Err(String)] returned through a Result;
    [Panic] a Rust panic: index out of range, explicit panic!, arithmetic
            overflow in a debug build, division by zero;
    [Loop]  the fuel given to a loop that need not terminate ran out. *)
Inductive res (A : Type) : Type :=
| Ok (a : A)
| Err (msg : string)
| Panic
| Loop.
Arguments Ok {A} a.
Arguments Err {A} msg.
Arguments Panic {A}.
Arguments Loop {A}.

Definition bind {A B : Type} (x : res A) (k : A -> res B) : res B :=
  match x with
  | Ok a => k a
  | Err e => Err e
  | Panic => Panic
  | Loop => Loop
  end.

Notation "x <- e ;; k" := (bind e (fun x => k))
  (at level 61, e at next level, right associativity).
Notation "' p <- e ;; k" := (bind e (fun x => match x with p => k end))
  (at level 61, p pattern, e at next level, right associativity).

Definition is_ok {A} (r : res A) : bool :=
  match r with Ok _ => true | _ => false end.

(** Build mode.  Cargo.toml: the dev profile checks integer overflow and
    panics, the release profile wraps around. *)
Class Mode := debug : bool.

(** Unsigned [n]-bit arithmetic on an exact result [v]. *)
Definition arith_u {M : Mode} (n v : Z) : res Z :=
  if (0 <=? v) && (v <? 2 ^ n) then Ok v
  else if debug then Panic else Ok (v mod 2 ^ n).

(** Two's complement reading of the low [n] bits of [v]. *)
Definition swrap (n v : Z) : Z := (v + 2 ^ (n - 1)) mod 2 ^ n - 2 ^ (n - 1).

(** Signed [n]-bit arithmetic on an exact result [v]. *)
Definition arith_s {M : Mode} (n v : Z) : res Z :=
  if (- 2 ^ (n - 1) <=? v) && (v <? 2 ^ (n - 1)) then Ok v
  else if debug then Panic else Ok (swrap n v).

(** [usize] is 64 bits wide. *)
Definition usub {M : Mode} (a b : Z) : res Z := arith_u 64 (a - b).
Definition uadd {M : Mode} (a b : Z) : res Z := arith_u 64 (a + b).
Definition umul {M : Mode} (a b : Z) : res Z := arith_u 64 (a * b).
Definition u32sub {M : Mode} (a b : Z) : res Z := arith_u 32 (a - b).
Definition u32add {M : Mode} (a b : Z) : res Z := arith_u 32 (a + b).
Definition u16sub {M : Mode} (a b : Z) : res Z := arith_u 16 (a - b).
Definition u16add {M : Mode} (a b : Z) : res Z := arith_u 16 (a + b).
Definition i32add {M : Mode} (a b : Z) : res Z := arith_s 32 (a + b).
Definition i32sub {M : Mode} (a b : Z) : res Z := arith_s 32 (a - b).
Definition i32mul {M : Mode} (a b : Z) : res Z := arith_s 32 (a * b).

(** Shift amount of an [n]-bit shift: too large an amount panics in a debug
    build and is reduced modulo [n] in a release build. *)
Definition shamt {M : Mode} (n s : Z) : res Z :=
  if (0 <=? s) && (s <? n) then Ok s
  else if debug then Panic else Ok (s mod n).
Definition shl_u {M : Mode} (n a s : Z) : res Z :=
  s' <- shamt n s ;; Ok (Z.shiftl a s' mod 2 ^ n).
Definition shr_u {M : Mode} (n a s : Z) : res Z :=
  s' <- shamt n s ;; Ok (Z.shiftr a s').

(** Casts. *)
Definition as_u8 (v : Z) : Z := v mod 2 ^ 8.
Definition as_u16 (v : Z) : Z := v mod 2 ^ 16.
Definition as_u32 (v : Z) : Z := v mod 2 ^ 32.
Definition as_u64 (v : Z) : Z := v mod 2 ^ 64.
Definition as_i16 (v : Z) : Z := swrap 16 v.
Definition as_i32 (v : Z) : Z := swrap 32 v.

(** Slices. *)
Definition zlen {A} (l : list A) : Z := Z.of_nat (length l).
Definition znth (l : list Z) (i : Z) : Z := nth (Z.to_nat i) l 0.

Definition get {A} (l : list A) (i : Z) : res A :=
  if (0 <=? i) && (i <? zlen l) then
    match nth_error l (Z.to_nat i) with Some x => Ok x | None => Panic end
  else Panic.

Fixpoint upd_nat {A} (l : list A) (n : nat) (v : A) : list A :=
  match l, n with
  | [], _ => []
  | _ :: t, O => v :: t
  | x :: t, S n' => x :: upd_nat t n' v
  end.

Definition upd {A} (l : list A) (i : Z) (v : A) : res (list A) :=
  if (0 <=? i) && (i <? zlen l) then Ok (upd_nat l (Z.to_nat i) v) else Panic.

(** [&buf[a..b]] and [&buf[a..]]. *)
Definition slice {A} (l : list A) (a b : Z) : res (list A) :=
  if (0 <=? a) && (a <=? b) && (b <=? zlen l)
  then Ok (firstn (Z.to_nat (b - a)) (skipn (Z.to_nat a) l)) else Panic.
Definition slice_from {A} (l : list A) (a : Z) : res (list A) :=
  if (0 <=? a) && (a <=? zlen l) then Ok (skipn (Z.to_nat a) l) else Panic.

(** [vec![0; n]].  Memory is unbounded in the model. *)
Definition zeros (n : Z) : list Z := repeat 0 (Z.to_nat n).

(** [for x in xs] with a state and early exit. *)
Fixpoint rfold {A S : Type} (f : A -> S -> res S) (xs : list A) (s : S) : res S :=
  match xs with
  | [] => Ok s
  | x :: t => s' <- f x s ;; rfold f t s'
  end.

Fixpoint mapM {A B : Type} (f : A -> res B) (xs : list A) : res (list B) :=
  match xs with
  | [] => Ok []
  | x :: t => y <- f x ;; ys <- mapM f t ;; Ok (y :: ys)
  end.

(** [lo..hi] and [(lo..hi).step_by(k)]. *)
Definition zrange (lo hi : Z) : list Z :=
  map (fun k => lo + Z.of_nat k) (seq 0 (Z.to_nat (hi - lo))).
Definition zrange_step (lo hi k : Z) : list Z :=
  map (fun j => lo + k * Z.of_nat j) (seq 0 (Z.to_nat ((hi - lo + k - 1) / k))).
