(** Exact arithmetic: the image operations over the real numbers. *)
From Coq Require Import ZArith List Bool Reals.
From Flocq Require Import Core.
From Verif Require Import Base Num.
Import ListNotations.
Local Open Scope Z_scope.

(** [root3] is the cube root, [power] the power function. *)
Definition real_num (root3 : R -> R) (power : R -> R -> R) : Num R := {|
  n_add := Rplus; n_sub := Rminus; n_mul := Rmult; n_div := Rdiv; n_opp := Ropp;
  n_lt := Rlt_bool; n_le := Rle_bool; n_eq := Req_bool;
  n_min := Rmin; n_max := Rmax;
  n_floor := fun x => IZR (Zfloor x); n_ceil := fun x => IZR (Zceil x); n_trunc := fun x => IZR (Ztrunc x);
  n_normal := fun x => negb (Req_bool x 0);
  n_of := IZR; n_to := fun lo hi x => Z.max lo (Z.min hi (Ztrunc x));
  n_cbrt := root3; n_pow := power |}.

(** Products of matrices. *)
Definition dot3 (u v : vec3 R) : R := (a0 u * a0 v + a1 u * a1 v + a2 u * a2 v)%R.
Definition dot4 (u v : vec4 R) : R := (e0 u * e0 v + e1 u * e1 v + e2 u * e2 v + e3 u * e3 v)%R.
Definition col3 (m : vec3 (vec3 R)) : vec3 (vec3 R) :=
  V3 (V3 (a0 (a0 m)) (a0 (a1 m)) (a0 (a2 m))) (V3 (a1 (a0 m)) (a1 (a1 m)) (a1 (a2 m))) (V3 (a2 (a0 m)) (a2 (a1 m)) (a2 (a2 m))).
Definition col4 (m : vec4 (vec3 R)) : vec3 (vec4 R) :=
  V3 (V4 (a0 (e0 m)) (a0 (e1 m)) (a0 (e2 m)) (a0 (e3 m)))
     (V4 (a1 (e0 m)) (a1 (e1 m)) (a1 (e2 m)) (a1 (e3 m)))
     (V4 (a2 (e0 m)) (a2 (e1 m)) (a2 (e2 m)) (a2 (e3 m))).
Definition map3 {A B} (f : A -> B) (v : vec3 A) : vec3 B := V3 (f (a0 v)) (f (a1 v)) (f (a2 v)).
(** A 3 x 3 matrix times a 3 x 3 matrix, a 3 x 4 matrix times a 4 x 3 matrix,
    and matrices times vectors. *)
Definition mul33 (m n : vec3 (vec3 R)) : vec3 (vec3 R) := map3 (fun row => map3 (dot3 row) (col3 n)) m.
Definition mul34 (m : vec3 (vec4 R)) (n : vec4 (vec3 R)) : vec3 (vec3 R) := map3 (fun row => map3 (dot4 row) (col4 n)) m.
Definition app33 (m : vec3 (vec3 R)) (v : vec3 R) : vec3 R := map3 (fun row => dot3 row v) m.
Definition app34 (m : vec3 (vec4 R)) (v : vec4 R) : vec3 R := map3 (fun row => dot4 row v) m.
Definition app43 (m : vec4 (vec3 R)) (v : vec3 R) : vec4 R := map4 (fun row => dot3 row v) m.
Definition one3 : vec3 (vec3 R) := (V3 (V3 1 0 0) (V3 0 1 0) (V3 0 0 1))%R.
Definition det3 (m : vec3 (vec3 R)) : R :=
  (a0 (a0 m) * (a1 (a1 m) * a2 (a2 m) - a1 (a2 m) * a2 (a1 m))
   - a1 (a0 m) * (a0 (a1 m) * a2 (a2 m) - a2 (a1 m) * a0 (a2 m))
   + a2 (a0 m) * (a0 (a1 m) * a1 (a2 m) - a1 (a1 m) * a0 (a2 m)))%R.
(** Only the zero vector is taken to zero: the columns are independent. *)
Definition full_rank (m : vec4 (vec3 R)) : Prop :=
  forall v, app43 m v = (V4 0 0 0 0)%R -> v = (V3 0 0 0)%R.

(** sRGB primaries and the D65 white point (image.rs quotes the same numbers). *)
Definition srgb_primaries : vec3 (vec3 R) := (V3
  (V3 0.412453 0.357580 0.180423)
  (V3 0.212671 0.715160 0.072169)
  (V3 0.019334 0.119193 0.950227))%R.
Definition d65 : vec3 R := (V3 0.9547 1 1.08883)%R.
Definition white3 : vec3 R := (V3 1 1 1)%R.
(** A filter of the camera, given by its response to X, Y and Z, is absent or
    responds to white light. *)
Definition absent (row : vec3 R) : Prop := row = (V3 0 0 0)%R.
Definition response (row : vec3 R) (rgb : vec3 R) : R := dot3 row (app33 srgb_primaries rgb).
Definition sound_filter (row : vec3 R) : Prop := absent row \/ response row white3 <> 0%R.
Definition sound_camera (m : vec4 (vec3 R)) : Prop :=
  sound_filter (e0 m) /\ sound_filter (e1 m) /\ sound_filter (e2 m) /\ sound_filter (e3 m).
(** What the camera measures for light of a colour given in sRGB, each filter
    scaled so that white light gives 1; an absent filter gives 0. *)
Definition measures (m : vec4 (vec3 R)) (rgb : vec3 R) (cam : vec4 R) : Prop :=
  let one row c := (absent row /\ c = 0%R) \/ (response row white3 <> 0%R /\ c = (response row rgb / response row white3)%R) in
  one (e0 m) (e0 cam) /\ one (e1 m) (e1 cam) /\ one (e2 m) (e2 cam) /\ one (e3 m) (e3 cam).
(** Light of that colour in XYZ, relative to white. *)
Definition relative_xyz (rgb : vec3 R) : vec3 R :=
  let v := app33 srgb_primaries rgb in (V3 (a0 v / a0 d65) (a1 v / a1 d65) (a2 v / a2 d65))%R.

(** [root3] is the cube root of positive numbers. *)
Definition is_root3 (root3 : R -> R) : Prop := forall x, (0 < x)%R -> (root3 x * root3 x * root3 x = x)%R.
(** Two colours differ by at most [e] in each component. *)
Definition close3 (e : R) (u v : vec3 R) : Prop :=
  (Rabs (a0 u - a0 v) <= e /\ Rabs (a1 u - a1 v) <= e /\ Rabs (a2 u - a2 v) <= e)%R.
