(** The transfer function of ITU-R BT.709 (C56). *)
From Coq Require Import ZArith Reals.
From Flocq Require Import Core.
Local Open Scope R_scope.

Definition bt709 (x : R) : R := if Rle_dec x (18 / 1000) then 45 / 10 * x else (1 + 99 / 1000) * Rpower x (45 / 100) - 99 / 1000.
Definition clamp (x : R) : R := Rmax 0 (Rmin 1 x).
(** The table has an entry for every multiple of 2^-16. *)
Definition step_below (x : R) : R := IZR (Zfloor (x * 65536)) / 65536.
