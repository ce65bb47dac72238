(** Theorems about the colour filter array (C09, C10, C11). *)
From Coq Require Import String Ascii ZArith List Bool.
From Verif Require Import Base Cfa Spec_Cfa P_Cfa P_Cfa2.
Import ListNotations.
Local Open Scope Z_scope.
Local Open Scope string_scope.

(** C09: the colour at any position is the letter of the repeated pattern. *)
Theorem C09_periodic : forall {M : Mode} name f row col,
  pattern_name name -> cfa_new name = Ok f ->
  0 <= row < 2 ^ 63 -> 0 <= col < 2 ^ 63 ->
  exists v, color_at f row col = Ok v /\ colour name row col = Some v.
Proof. exact @color_at_63. Qed.
Example C09_example :
  pattern_name "RGGB" /\ colour "RGGB" 1000000007 14 = Some 1 /\
  bind (cfa_new "RGGB") (fun f => color_at (M := true) f 1000000007 14) = Ok 1 /\
  bind (cfa_new "GMYEGMEYGMYEMGYE") (fun f => color_at (M := true) f 11 4) = Ok 3.
Proof. exact cfa_example. Qed.
Print Assumptions C09_periodic.

(** Beyond the largest object a program can hold the offset of 48 overflows:
    a debug build panics and a release build answers with the wrong colour. *)
Theorem C09_huge_refuted :
  exists name f row, pattern_name name /\ cfa_new name = Ok f /\ 0 <= row < 2 ^ 64 /\
    color_at (M := true) f row 0 = Panic /\
    exists v v', color_at (M := false) f row 0 = Ok v /\ colour name row 0 = Some v' /\ v <> v'.
Proof. exact color_at_huge. Qed.
Print Assumptions C09_huge_refuted.

(** C10: shifting moves the pattern. *)
Theorem C10_shift : forall {M : Mode} name f x y row col,
  cfa_new name = Ok f ->
  0 <= x -> 0 <= y -> 0 <= row -> 0 <= col -> row + y < 2 ^ 63 -> col + x < 2 ^ 63 ->
  exists g v, cfa_shift f x y = Ok g /\
    color_at g row col = Ok v /\ color_at f (row + y) (col + x) = Ok v.
Proof. exact @shift_moves. Qed.
Print Assumptions C10_shift.

(** Shifts add up, starting from any filter already shifted any number of times. *)
Theorem C10_shifts_compose : forall {M : Mode} name f shifts row col,
  cfa_new name = Ok f ->
  Forall (fun s => 0 <= fst s < 2 ^ 63 /\ 0 <= snd s < 2 ^ 63) shifts ->
  0 <= row -> 0 <= col ->
  let total_x := fold_right Z.add 0 (map fst shifts) in
  let total_y := fold_right Z.add 0 (map snd shifts) in
  row + total_y < 2 ^ 63 -> col + total_x < 2 ^ 63 ->
  exists g v, rfold (fun s h => cfa_shift h (fst s) (snd s)) shifts f = Ok g /\
    color_at g row col = Ok v /\ color_at f (row + total_y) (col + total_x) = Ok v.
Proof. exact @shifts_add. Qed.
Example C10_example :
  bind (cfa_new "RGGB") (fun f => bind (rfold (fun s h => cfa_shift (M := true) h (fst s) (snd s)) [(3, 2); (4, 7)] f)
    (fun h => color_at (M := true) h 5 6)) = Ok 1.
Proof. exact shift_example. Qed.
Print Assumptions C10_shifts_compose.

(** Size and validity are unchanged by a shift; a clone is the same filter. *)
Theorem C10_shift_size : forall {M : Mode} name f x y g,
  cfa_new name = Ok f -> 0 <= x < 2 ^ 63 -> 0 <= y < 2 ^ 63 -> cfa_shift f x y = Ok g ->
  cwidth g = cwidth f /\ cheight g = cheight f /\ cfa_is_valid g = cfa_is_valid f.
Proof. exact @shift_size. Qed.
Print Assumptions C10_shift_size.
Theorem C10_clone : forall {M : Mode} name f, cfa_new name = Ok f ->
  cfa_clone f = Ok f /\
  forall x y g, 0 <= x < 2 ^ 63 -> 0 <= y < 2 ^ 63 -> cfa_shift f x y = Ok g -> cfa_clone g = Ok g.
Proof. exact @clone_same. Qed.
Print Assumptions C10_clone.
(** The filter of the cropped image is the filter seen from the crop corner. *)
Theorem C10_crop : forall {M : Mode} name f top right bottom left row col,
  cfa_new name = Ok f -> 0 <= left -> 0 <= top -> 0 <= row -> 0 <= col ->
  row + top < 2 ^ 63 -> col + left < 2 ^ 63 ->
  exists g v, cropped_cfa f [top; right; bottom; left] = Ok g /\
    color_at g row col = Ok v /\ color_at f (row + top) (col + left) = Ok v.
Proof. exact @crop_moves. Qed.
Example C10_crop_example :
  bind (cfa_new "RGGB") (fun f => bind (cropped_cfa (M := true) f [1; 9; 9; 3]) (fun g => color_at (M := true) g 0 0)) = Ok 2.
Proof. exact crop_example. Qed.
Print Assumptions C10_crop.

(** C11: exactly the empty name and the real patterns give a filter ... *)
Theorem C11_accepts_exactly : forall name,
  (exists f, cfa_new name = Ok f) <-> (name = "" \/ pattern_name name).
Proof. exact cfa_new_ok_iff. Qed.
Print Assumptions C11_accepts_exactly.
(** ... every other name is refused by a panic ... *)
Theorem C11_refuses : forall name, ~ (name = "" \/ pattern_name name) -> cfa_new name = Panic.
Proof. exact cfa_new_refuses. Qed.
Print Assumptions C11_refuses.
(** ... every lookup returns a plane below 4, and only the empty name is not valid. *)
Theorem C11_planes : forall {M : Mode} name f row col, cfa_new name = Ok f ->
  0 <= row < 2 ^ 63 -> 0 <= col < 2 ^ 63 ->
  exists v, color_at f row col = Ok v /\ 0 <= v < 4.
Proof. exact @color_at_range63. Qed.
Print Assumptions C11_planes.
Theorem C11_valid : forall name f, cfa_new name = Ok f -> cfa_is_valid f = negb (name =? "").
Proof. exact cfa_new_valid. Qed.
(** The fields are public: for any filter, valid means neither side is zero. *)
Theorem C11_valid_any : forall f, cfa_is_valid f = true <-> cwidth f <> 0 /\ cheight f <> 0.
Proof. exact cfa_valid_any. Qed.
Print Assumptions C11_valid_any.
Example C11_example :
  pattern_name "RGEB" /\ ~ pattern_name "RGUB" /\ ~ pattern_name "RGB" /\
  cfa_new "RGUB" = Panic /\ cfa_new "RGGBR" = Panic.
Proof. exact names_example. Qed.
Print Assumptions C11_valid.
