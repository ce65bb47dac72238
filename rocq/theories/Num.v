(** Number types.  The image operations are written once for every type of
    numbers with these operations; F32.v gives the numbers of the program,
    IEEE 754 single precision.  (Properties of exact arithmetic are about the
    same definitions over the real numbers.) *)
From Coq Require Import ZArith List Bool.
From Verif Require Import Base.
Import ListNotations.
Local Open Scope Z_scope.

Class Num (A : Type) := mknum {
  n_add : A -> A -> A;
  n_sub : A -> A -> A;
  n_mul : A -> A -> A;
  n_div : A -> A -> A;
  n_opp : A -> A;
  n_lt : A -> A -> bool;           (* [<], false on NaN *)
  n_le : A -> A -> bool;           (* [<=] *)
  n_eq : A -> A -> bool;           (* [==] *)
  n_min : A -> A -> A;             (* [f32::min] *)
  n_max : A -> A -> A;             (* [f32::max] *)
  n_floor : A -> A;
  n_ceil : A -> A;
  n_trunc : A -> A;
  n_normal : A -> bool;            (* [f32::is_normal] *)
  n_of : Z -> A;                   (* [x as f32] of an integer *)
  n_to : Z -> Z -> A -> Z;         (* [x as uN]: lowest, highest value *)
  n_cbrt : A -> A;                 (* [f32::cbrt] *)
  n_pow : A -> A -> A              (* [f32::powf] *)
}.

Declare Scope num_scope.
Delimit Scope num_scope with num.
Infix "+" := n_add : num_scope.
Infix "-" := n_sub : num_scope.
Infix "*" := n_mul : num_scope.
Infix "/" := n_div : num_scope.

Section Num.
Context {A : Type} {N : Num A}.
Local Open Scope num_scope.
(** The literal [p/q] of a decimal fraction, [q] a power of ten.  Both are
    exact, so that the quotient is the nearest number. *)
Definition lit (p q : Z) : A := n_of p / n_of q.
Definition n0 : A := n_of 0.
Definition n1 : A := n_of 1.
(** [x.fract()] *)
Definition fract (x : A) : A := x - n_trunc x.
(** [x as usize], [x as u16], [x as u8] *)
Definition to_usize (x : A) : Z := n_to 0 (2 ^ 64 - 1)%Z x.
Definition to_u16 (x : A) : Z := n_to 0 65535%Z x.
Definition to_u8 (x : A) : Z := n_to 0 255%Z x.
(** [for k in ks { sum += f(k) }] from 0.0 *)
Definition sum_of (f : Z -> A) (ks : list Z) : A := fold_left (fun s k => s + f k) ks n0.
End Num.

(** [[T;3]] and [[T;4]] *)
Record vec3 (A : Type) := V3 { a0 : A; a1 : A; a2 : A }.
Record vec4 (A : Type) := V4 { e0 : A; e1 : A; e2 : A; e3 : A }.
Arguments V3 {A}.
Arguments a0 {A}.
Arguments a1 {A}.
Arguments a2 {A}.
Arguments V4 {A}.
Arguments e0 {A}.
Arguments e1 {A}.
Arguments e2 {A}.
Arguments e3 {A}.
(** Indexing with a loop variable, which is in range. *)
Definition at3 {A} (v : vec3 A) (i : Z) : A := if i =? 0 then a0 v else if i =? 1 then a1 v else a2 v.
Definition at4 {A} (v : vec4 A) (i : Z) : A := if i =? 0 then e0 v else if i =? 1 then e1 v else if i =? 2 then e2 v else e3 v.
Definition tab3 {A} (f : Z -> A) : vec3 A := V3 (f 0) (f 1) (f 2).
Definition tab4 {A} (f : Z -> A) : vec4 A := V4 (f 0) (f 1) (f 2) (f 3).
Definition map4 {A B} (f : A -> B) (v : vec4 A) : vec4 B := V4 (f (e0 v)) (f (e1 v)) (f (e2 v)) (f (e3 v)).
