(** Model of src/decoders/image.rs: the decoded image and its colour matrix. *)
From Coq Require Import String ZArith List Bool.
From Verif Require Import Base Num Cfa Transform.
Import ListNotations.
Local Open Scope Z_scope.

(** image.rs:8-39 [RawImage].  The crops are top, right, bottom, left. *)
Record rawimage (A : Type) := mkimg {
  i_make : string;
  i_model : string;
  i_clean_make : string;
  i_clean_model : string;
  i_width : Z;
  i_height : Z;
  i_cpp : Z;
  i_wb : vec4 A;
  i_whites : vec4 Z;
  i_blacks : vec4 Z;
  i_xyz_to_cam : vec4 (vec3 A);
  i_cfa : CFA;
  i_crops : vec4 Z;
  i_orientation : orientation;
  i_data : list Z
}.
Arguments mkimg {A}.
Arguments i_make {A}.
Arguments i_model {A}.
Arguments i_clean_make {A}.
Arguments i_clean_model {A}.
Arguments i_width {A}.
Arguments i_height {A}.
Arguments i_cpp {A}.
Arguments i_wb {A}.
Arguments i_whites {A}.
Arguments i_blacks {A}.
Arguments i_xyz_to_cam {A}.
Arguments i_cfa {A}.
Arguments i_crops {A}.
Arguments i_orientation {A}.
Arguments i_data {A}.

(** image.rs:277-279 [cropped_cfa] (the shift of Cfa.v takes the crops as a
    list) *)
Definition img_cropped_cfa {M : Mode} {A} (img : rawimage A) : res CFA :=
  let c := i_crops img in cropped_cfa (i_cfa img) [e0 c; e1 c; e2 c; e3 c].
(** image.rs:282-284 [is_monochrome] *)
Definition is_monochrome {A} (img : rawimage A) : bool := (i_cpp img =? 1) && negb (cfa_is_valid (i_cfa img)).

Section Matrix.
Context {A : Type} {N : Num A}.
Local Open Scope num_scope.

(** image.rs:130-135 and colorspaces.rs:71-76, sRGB D65 *)
Definition rgb_to_xyz : vec3 (vec3 A) := V3
  (V3 (lit 412453 1000000) (lit 357580 1000000) (lit 180423 1000000))
  (V3 (lit 212671 1000000) (lit 715160 1000000) (lit 72169 1000000))
  (V3 (lit 19334 1000000) (lit 119193 1000000) (lit 950227 1000000)).
(** image.rs:129 *)
Definition d65_white : vec3 A := V3 (lit 9547 10000) (lit 1 1) (lit 108883 100000).

Definition ix3 : list Z := [0; 1; 2]%Z.
Definition ix4 : list Z := [0; 1; 2; 3]%Z.

(** image.rs:138-146: the product with the RGB matrix *)
Definition rgb_to_cam_raw (xyz_to_cam : vec4 (vec3 A)) : vec4 (vec3 A) :=
  tab4 (fun i => tab3 (fun j => sum_of (fun k => at3 (at4 xyz_to_cam i) k * at3 (at3 rgb_to_xyz k) j) ix3)).
(** image.rs:151-154 *)
Definition row_sum (row : vec3 A) : A := sum_of (at3 row) ix3.
(** image.rs:155-161: each row scaled so that its sum is 1; a row with sum 0
    becomes 0 *)
Definition rgb_to_cam (xyz_to_cam : vec4 (vec3 A)) : vec4 (vec3 A) :=
  map4 (fun row => let num := row_sum row in
          tab3 (fun j => if n_eq num n0 then n0 else at3 row j / num)) (rgb_to_cam_raw xyz_to_cam).
(** image.rs:162 *)
Definition neutral (xyz_to_cam : vec4 (vec3 A)) : vec4 A :=
  map4 (fun row => n1 / row_sum row) (rgb_to_cam_raw xyz_to_cam).

(** image.rs:183-192: the Gram matrix with an identity matrix beside it.  A
    3 x 6 array is a function of row and column. *)
Definition pinv_start (inm : vec4 (vec3 A)) (i j : Z) : A :=
  let start := if j =? i + 3 then n1 else n0 in
  if (j <? 3)%Z
  then fold_left (fun s k => s + at3 (at4 inm k) i * at3 (at4 inm k) j) ix4 start
  else start.
(** image.rs:194-206: one turn of the elimination *)
Definition pinv_step (temp : Z -> Z -> A) (i : Z) (k j : Z) : A :=
  let row j := temp i j / temp i i in
  if (k =? i)%Z then row j else temp k j - row j * temp k i.
(** image.rs:208-219 [pseudoinverse] *)
Definition pseudoinverse (inm : vec4 (vec3 A)) : vec3 (vec4 A) :=
  let temp := pinv_step (pinv_step (pinv_step (pinv_start inm) 0) 1) 2 in
  tab3 (fun j => tab4 (fun i => sum_of (fun k => temp j (k + 3)%Z * at3 (at4 inm i) k) ix3)).

(** image.rs:127-178 [xyz_matrix_and_neutralwb], first part of the result;
    image.rs:110-113 [cam_to_xyz] *)
Definition cam_to_xyz (xyz_to_cam : vec4 (vec3 A)) : vec3 (vec4 A) :=
  let cam_to_rgb := pseudoinverse (rgb_to_cam xyz_to_cam) in
  tab3 (fun i => tab4 (fun j =>
    sum_of (fun k => at4 (at3 cam_to_rgb k) j * at3 (at3 rgb_to_xyz i) k / at3 d65_white i) ix3)).
(** image.rs:117-123 [neutralwb] *)
Definition neutralwb (xyz_to_cam : vec4 (vec3 A)) : vec4 A :=
  let n := neutral xyz_to_cam in map4 (fun x => x / e1 n) n.
End Matrix.
