(** Properties C40 to C44: levels, colours, tone curve and the bytes that come
    out.  Statements with [f32_num] are about single precision arithmetic as it
    is executed; [cbrt] and [pow] stand for the functions of the C library and may
    be any functions.  Statements with [real_num] are about the same program in
    exact arithmetic. *)
From Coq Require Import String ZArith List Bool Reals Lia Lra.
From Flocq Require Import Core BinarySingleNaN.
From Verif Require Import Base Num F32 Cfa Transform Image Gofloat Demosaic Colors Pipeline Spec_Cfa Spec_Orient Spec_Rgb Spec_Real Spec_Spline
  P_Cfa P_Reduce P_Reduce2 P_Color1 P_Color2 P_Color3 P_Matrix P_Lab P_Srgb2 P_White.
Import ListNotations.
Local Open Scope Z_scope.

(** ** C40: bytes and tables *)

(** The gamma table, for every float: the index is in the table of 65537 entries,
    so there is always a result; it is the value in units of 1/65536 rounded down,
    and the ends of the table for NaN, negative and large values. *)
Theorem C40_gamma : forall cbrt pow (v : f32), let N := f32_num cbrt pow in
  0 <= gamma_index v <= 65536 /\ (exists g, gamma_value v = Ok g) /\
  (forall r, is_number v r -> (0 <= r <= 1)%R -> gamma_index v = Zfloor (r * 65536)) /\
  (is_nan v = true \/ f32_lt v (f32_of 0) = true -> gamma_index v = 0) /\
  (f32_le (f32_of 1) v = true -> gamma_index v = 65536).
Proof.
  intros cbrt pow v. exact (conj (proj2 (gamma_index_e cbrt pow v)) (conj (ex_intro _ _ (gamma_ok cbrt pow v))
    (conj (gamma_inside cbrt pow v) (conj (gamma_below cbrt pow v) (gamma_above cbrt pow v))))).
Qed.
Print Assumptions C40_gamma.

(** The table of cube roots, for every float. *)
Theorem C40_cube_roots : forall cbrt pow (v : f32), exists w, labf (N := f32_num cbrt pow) v = Ok w.
Proof. exact labf_ok. Qed.
Print Assumptions C40_cube_roots.

(** The byte for every float: in range, monotone; 255 times the value in single
    precision, rounded down, between the ends. *)
Theorem C40_byte : forall cbrt pow (v : f32), let N := f32_num cbrt pow in
  0 <= srgb_byte v <= 255 /\
  (forall r, is_number v r -> (0 <= r <= 1)%R -> srgb_byte v = Zfloor (nearest (r * 255))) /\
  (is_nan v = true \/ f32_le v (f32_of 0) = true -> srgb_byte v = 0) /\
  (f32_le (f32_of 1) v = true -> srgb_byte v = 255) /\
  (forall w, f32_le v w = true -> srgb_byte v <= srgb_byte w).
Proof.
  intros cbrt pow v. exact (conj (proj2 (byte_e cbrt pow v)) (conj (byte_inside cbrt pow v) (conj (byte_below cbrt pow v)
    (conj (byte_above cbrt pow v) (byte_mono cbrt pow v))))).
Qed.
Print Assumptions C40_byte.

(** The whole conversion, for the pictures that decoders make: it never panics,
    the size is within that of the cropped picture, and there are three bytes for
    every pixel. *)
Theorem C40_to_srgb : forall {M : Mode} cbrt pow (img : rawimage f32) maxwidth maxheight, let N := f32_num cbrt pow in
  raw_ok img -> crop_ok img -> usual img -> shown_width img < 2 ^ 23 -> shown_height img < 2 ^ 23 ->
  room (shown_width img) (shown_height img) maxwidth maxheight ->
  exists w h bytes, to_srgb img maxwidth maxheight = Ok (w, h, bytes) /\
    0 < w <= shown_width img /\ 0 < h <= shown_height img /\
    Z.of_nat (length bytes) = w * h * 3 /\ Forall (fun b => 0 <= b <= 255) bytes.
Proof. exact (@shown_srgb). Qed.
Print Assumptions C40_to_srgb.
Theorem C40_to_rgb : forall {M : Mode} cbrt pow (img : rawimage f32) maxwidth maxheight, let N := f32_num cbrt pow in
  raw_ok img -> crop_ok img -> usual img -> shown_width img < 2 ^ 23 -> shown_height img < 2 ^ 23 ->
  room (shown_width img) (shown_height img) maxwidth maxheight ->
  forall convert, convert = to_rgb \/ convert = to_linear_rgb ->
  exists out, convert img maxwidth maxheight = Ok out /\ well_formed out /\ ocolors out = 3 /\
    owidth out <= shown_width img /\ oheight out <= shown_height img.
Proof. exact (@shown_rgb). Qed.
Print Assumptions C40_to_rgb.

Example C40_example : exists f, cfa_new "RGGB" = Ok f /\ raw_ok (plain f 20 3 1000) /\ crop_ok (plain f 20 3 1000) /\ usual (plain f 20 3 1000) /\
  room (shown_width (plain f 20 3 1000)) (shown_height (plain f 20 3 1000)) 14 2.
Proof.
  destruct rggb as [f [E W]]. exists f. split; [exact E|]. destruct (plain_ok f 20 3 1000) as [H1 H2]; try lia. split; [exact H1|]. split; [exact H2|].
  split; [left; split; [reflexivity|exists "RGGB"%string; split; [exact rggb_name|exact E]]|]. unfold room, shown_width, shown_height. cbn. lia.
Qed.

(** ** C41: levels *)

Theorem C41_value : forall cbrt pow (black white mul v : f32), let N := f32_num cbrt pow in
  is_nan (level_value black white mul v) = false /\ f32_le (level_value black white mul v) (f32_of 1) = true.
Proof. exact level_bounded. Qed.
Print Assumptions C41_value.
Theorem C41_picture : forall cbrt pow (img : rawimage f32) (b : opbuf f32), let N := f32_num cbrt pow in
  well_formed b -> ocolors b = 4 ->
  exists out, level_and_balance img b = Ok out /\ owidth out = owidth b /\ oheight out = oheight b /\ ocolors out = 4 /\
    length (odata out) = length (odata b) /\ Forall (fun v => is_nan v = false /\ f32_le v (f32_of 1) = true) (odata out).
Proof. exact level_all. Qed.
Print Assumptions C41_picture.
Example C41_example : let N := f32_num (fun x => x) (fun x _ => x) in
  f32_le (level_value (f32_of 10) (f32_of 10) (f32_of 1) (f32_of 10)) (f32_of 1) = true /\
  is_nan (n_div (n_sub (f32_of 10) (f32_of 10)) (n_sub (f32_of 10) (f32_of 10))) = true.
Proof. vm_compute. auto. Qed.

(** ** C42: colour matrices *)

(** The general inverse, the pseudo-inverse, the camera to RGB and the camera to
    XYZ transform undo what they are meant to undo. *)
Theorem C42_inverse : forall root3 power m, det3 m <> 0%R ->
  mul33 m (inverse (N := real_num root3 power) m) = one3 /\ mul33 (inverse (N := real_num root3 power) m) m = one3.
Proof. intros root3 power m D. exact (conj (inverse_right root3 power m D) (inverse_left root3 power m D)). Qed.
Print Assumptions C42_inverse.
Theorem C42_pseudoinverse : forall root3 power m, full_rank m -> mul34 (pseudoinverse (N := real_num root3 power) m) m = one3.
Proof. exact pinv_left. Qed.
Print Assumptions C42_pseudoinverse.
Theorem C42_camera_to_rgb : forall root3 power m rgb cam, let N := real_num root3 power in
  sound_camera m -> full_rank m -> measures m rgb cam -> app34 (pseudoinverse (rgb_to_cam m)) cam = rgb.
Proof. exact rgb_inverted. Qed.
Print Assumptions C42_camera_to_rgb.
Theorem C42_camera_to_xyz : forall root3 power m rgb cam, let N := real_num root3 power in
  sound_camera m -> full_rank m -> measures m rgb cam -> app34 (cam_to_xyz m) cam = relative_xyz rgb.
Proof. exact camera_inverted. Qed.
Print Assumptions C42_camera_to_xyz.
(** The neutral white balance makes all filters respond to white light as the
    second one does. *)
Theorem C42_neutral : forall root3 power m, let N := real_num root3 power in
  sound_camera m -> ~ absent (e1 m) ->
  (~ absent (e0 m) -> (e0 (neutralwb m) * response (e0 m) white3 = response (e1 m) white3)%R) /\
  (e1 (neutralwb m) * response (e1 m) white3 = response (e1 m) white3)%R /\
  (~ absent (e2 m) -> (e2 (neutralwb m) * response (e2 m) white3 = response (e1 m) white3)%R) /\
  (~ absent (e3 m) -> (e3 (neutralwb m) * response (e3 m) white3 = response (e1 m) white3)%R).
Proof. exact neutral_balance. Qed.
Print Assumptions C42_neutral.
(** What the matrices promise does not hold of the picture: white light comes out
    reddish, whatever the camera.  The XYZ values are relative to white, and the
    conversion to RGB takes them as absolute. *)
Theorem C42_white_refuted : exists m cam, sound_camera m /\ full_rank m /\ measures m white3 cam /\
  forall (M : Mode) root3 power (img : rawimage R), let N := real_num root3 power in
  is_root3 root3 -> i_xyz_to_cam img = m ->
  exists r g b, (channel3 <- camera_to_lab img (mkop 1 1 4 [e0 cam; e1 cam; e2 cam; e3 cam]) ;;
                 channel3 <- base_curve channel3 ;; lab_to_rec709 channel3) = Ok (mkop 1 1 3 [r; g; b]) /\
    (1.19 < r /\ g < 0.96 /\ b < 0.92)%R.
Proof. exact simple_white. Qed.
Print Assumptions C42_white_refuted.
Theorem C42_white : forall {M : Mode} root3 power, is_root3 root3 -> forall (img : rawimage R) cam, let N := real_num root3 power in
  sound_camera (i_xyz_to_cam img) -> full_rank (i_xyz_to_cam img) -> measures (i_xyz_to_cam img) white3 cam ->
  exists r g b, (channel3 <- camera_to_lab img (mkop 1 1 4 [e0 cam; e1 cam; e2 cam; e3 cam]) ;;
                 channel3 <- base_curve channel3 ;; lab_to_rec709 channel3) = Ok (mkop 1 1 3 [r; g; b]) /\
    (1.19 < r /\ g < 0.96 /\ b < 0.92)%R.
Proof. exact (@white_cast). Qed.
Print Assumptions C42_white.
Example C42_example : sound_camera simple_camera /\ full_rank simple_camera /\ measures simple_camera white3 (V4 1 1 1 0)%R.
Proof. exact simple_sound. Qed.

(** ** C43: Lab *)

(** With exact cube roots the way back is exact; with the table of cube roots it
    is exact to 2/65536 in X, Y and Z. *)
Theorem C43_exact : forall root3 power, is_root3 root3 -> forall x y z : R, let N := real_num root3 power in
  exists lab, xyz_to_lab_with (fun v => Ok (root3 v)) x y z = Ok lab /\ lab_to_xyz (a0 lab) (a1 lab) (a2 lab) = V3 x y z.
Proof. exact exact_trip. Qed.
Print Assumptions C43_exact.
Theorem C43_table_partial : forall root3 power, is_root3 root3 -> forall x y z : R, let N := real_num root3 power in
  exists lab, xyz_to_lab x y z = Ok lab /\ close3 (2 / 65536) (lab_to_xyz (a0 lab) (a1 lab) (a2 lab)) (V3 x y z).
Proof. exact table_trip. Qed.
Print Assumptions C43_table_partial.
Example C43_example : is_root3 (fun x => Rpower x (/ 3)).
Proof. exact root3_exists. Qed.

(** ** C44: the tone curve *)

(** In single precision: every argument has a result, even NaN; at a control
    point and beyond the last one it is the control value. *)
Theorem C44_single : forall {M : Mode} cbrt pow (xs ys : list f32), let N := f32_num cbrt pow in
  points xs ys -> ascending (fun a b => f32_lt a b = true) xs ->
  exists s, spline_new xs ys = Ok s /\
    (forall v, exists r, interpolate s v = Ok r) /\
    (forall i x y, nth_error xs i = Some x -> nth_error ys i = Some y -> interpolate s x = Ok y) /\
    (forall i x y v, S i = length xs -> nth_error xs i = Some x -> nth_error ys i = Some y -> f32_le x v = true -> interpolate s v = Ok y).
Proof. exact (@f32_curve). Qed.
Print Assumptions C44_single.
(** In exact arithmetic: one cubic for each interval between control points, so
    pieces meet at the control points; the first also serves arguments below the
    first point.  If the values rise, so does the curve, within each interval
    between its two values. *)
Theorem C44_exact : forall {M : Mode} root3 power (xs ys : list R), let N := real_num root3 power in
  points xs ys -> ascending Rlt xs ->
  exists s, spline_new xs ys = Ok s /\
    (forall i x y, nth_error xs i = Some x -> nth_error ys i = Some y -> interpolate s x = Ok y) /\
    (forall i x x', nth_error xs i = Some x -> nth_error xs (S i) = Some x' ->
       exists c, (forall v, (x <= v <= x')%R -> interpolate s v = Ok (cubic c v)) /\
         (i = O -> forall v, (v <= x)%R -> interpolate s v = Ok (cubic c v))) /\
    (forall i x y v, S i = length xs -> nth_error xs i = Some x -> nth_error ys i = Some y -> (x <= v)%R -> interpolate s v = Ok y) /\
    (ascending Rle ys ->
       (forall v w a b x, nth_error xs 0 = Some x -> (x <= v)%R -> (v <= w)%R -> interpolate s v = Ok a -> interpolate s w = Ok b -> (a <= b)%R) /\
       (forall v i x x' y y', nth_error xs i = Some x -> nth_error xs (S i) = Some x' -> nth_error ys i = Some y -> nth_error ys (S i) = Some y' ->
          (x <= v <= x')%R -> exists r, interpolate s v = Ok r /\ (y <= r <= y')%R)).
Proof. exact (@r_curve). Qed.
Print Assumptions C44_exact.
(** The base curve meets the hypotheses. *)
Example C44_single_example : let N := f32_num (fun x => x) (fun x _ => x) in
  points base_xs base_ys /\ ascending (fun a b => f32_lt a b = true) base_xs.
Proof. exact base_single. Qed.
Example C44_exact_example : let N := real_num (fun x => x) (fun x _ => x) in
  points base_xs base_ys /\ ascending Rlt base_xs /\ ascending Rle base_ys.
Proof. exact base_exact. Qed.
