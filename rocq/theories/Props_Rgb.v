(** Properties C36 to C39: cropping, demosaicing and reduction of decoded
    images, in single precision arithmetic.  [cbrt] and [pow] stand for the
    functions of the C library, which none of this uses. *)
From Coq Require Import String ZArith List Bool Reals Lia.
From Flocq Require Import Core BinarySingleNaN.
From Verif Require Import Base Num F32 Cfa Transform Image Gofloat Demosaic Spec_Cfa Spec_Orient Spec_Rgb
  P_Cfa P_Gofloat P_Gofloat2 P_Demosaic2 P_Demosaic3 P_Scale2 P_Reduce P_Reduce2.
Import ListNotations.
Local Open Scope Z_scope.

(** ** C36: cropping *)

(** One sample per pixel and a colour filter: one plane of exactly the pixels
    inside the crops. *)
Theorem C36_sensor : forall {M : Mode} cbrt pow (img : rawimage f32), let N := f32_num cbrt pow in
  raw_ok img -> crop_ok img -> i_cpp img = 1 -> cfa_is_valid (i_cfa img) = true ->
  exists out, gofloat img = Ok out /\ well_formed out /\ ocolors out = 1 /\
    owidth out = i_width img - left img - right img /\ oheight out = i_height img - top img - bottom img /\
    forall y x, 0 <= y < oheight out -> 0 <= x < owidth out ->
      exists v, raw_at img (y + top img) (x + left img) 0 = Some v /\ sample_at out y x 0 = Some (f32_of v).
Proof. intros M cbrt pow img N. exact (sensor_crop img). Qed.
Print Assumptions C36_sensor.

(** One sample per pixel and no colour filter: the same value as red, green and
    blue. *)
Theorem C36_monochrome : forall {M : Mode} cbrt pow (img : rawimage f32), let N := f32_num cbrt pow in
  raw_ok img -> crop_ok img -> i_cpp img = 1 -> cfa_is_valid (i_cfa img) = false ->
  exists out, gofloat img = Ok out /\ well_formed out /\ ocolors out = 4 /\
    owidth out = i_width img - left img - right img /\ oheight out = i_height img - top img - bottom img /\
    forall y x, 0 <= y < oheight out -> 0 <= x < owidth out ->
      exists v, raw_at img (y + top img) (x + left img) 0 = Some v /\
        (forall k, 0 <= k < 3 -> sample_at out y x k = Some (f32_of v)) /\ sample_at out y x 3 = Some (f32_of 0).
Proof. intros M cbrt pow img N. exact (mono_crop img). Qed.
Print Assumptions C36_monochrome.

(** Three samples per pixel: the lines are taken from the wrong places of the
    image, as if it had one sample per pixel.  What holds is the shape, and the
    values of the first line if nothing is cropped. *)
Theorem C36_rgb_partial : forall {M : Mode} cbrt pow (img : rawimage f32), let N := f32_num cbrt pow in
  raw_ok img -> crop_ok img -> i_cpp img = 3 ->
  exists out, gofloat img = Ok out /\ well_formed out /\ ocolors out = 4 /\
    owidth out = i_width img - left img - right img /\ oheight out = i_height img - top img - bottom img /\
    forall y x, 0 <= y < oheight out -> 0 <= x < owidth out ->
      (forall k, 0 <= k < 3 -> exists v,
         nth_error (i_data img) (Z.to_nat (i_width img * (y + top img) + left img + 3 * x + k)) = Some v /\
         sample_at out y x k = Some (f32_of v)) /\
      sample_at out y x 3 = Some (f32_of 0).
Proof. intros M cbrt pow img N. exact (rgb_rows img). Qed.
Print Assumptions C36_rgb_partial.
Theorem C36_rgb_refuted : exists img : rawimage f32, raw_ok img /\ crop_ok img /\ i_cpp img = 3 /\
  forall (M : Mode) cbrt pow, exists out, gofloat (N := f32_num cbrt pow) img = Ok out /\
    raw_at img 1 0 0 = Some 4 /\ sample_at out 1 0 0 = Some (f32_of 2).
Proof. exact (ex_intro _ two_pixels rgb_wrong). Qed.
Print Assumptions C36_rgb_refuted.

(** Every image of one value meets the hypotheses. *)
Example C36_example : exists f, cfa_new "RGGB" = Ok f /\ cfa_is_valid f = true /\ raw_ok (plain f 20 3 1000) /\ crop_ok (plain f 20 3 1000).
Proof.
  destruct rggb as [f [E W]]. exists f. split; [exact E|]. split; [exact (cfa_new_valid _ _ E)|].
  apply plain_ok; lia.
Qed.

(** ** C37: demosaicing *)

(** The measured sample stays. *)
Theorem C37_kept : forall {M : Mode} cbrt pow (img : rawimage f32) name, let N := f32_num cbrt pow in
  raw_ok img -> crop_ok img -> i_cpp img = 1 -> cfa_new name = Ok (i_cfa img) -> pattern_name name ->
  forall buf out, gofloat img = Ok buf -> demosaic_and_scale img buf 0 0 = Ok out ->
  forall y x, inside img (y, x) ->
  exists c v, seen img name (y, x) = Some c /\ measured img (y, x) = Some v /\ sample_at out y x c = Some (f32_of v).
Proof. exact @kept. Qed.
Print Assumptions C37_kept.

(** Another colour is the mean of the neighbours of that colour, [ps], correctly
    rounded. *)
Theorem C37_mean : forall {M : Mode} cbrt pow (img : rawimage f32) name, let N := f32_num cbrt pow in
  raw_ok img -> crop_ok img -> i_cpp img = 1 -> cfa_new name = Ok (i_cfa img) -> pattern_name name ->
  forall buf out, gofloat img = Ok buf -> demosaic_and_scale img buf 0 0 = Ok out ->
  forall y x k ps, inside img (y, x) -> 0 <= k < 4 -> seen img name (y, x) <> Some k ->
  NoDup ps -> (forall p, In p ps <-> (inside img p /\ near (y, x) p /\ seen img name p = Some k)) -> ps <> [] ->
  exists f s, sample_at out y x k = Some f /\ sum_measured img ps = Some s /\
    is_number f (nearest (IZR s / IZR (Z.of_nat (length ps)))).
Proof. exact @mean. Qed.
Print Assumptions C37_mean.

(** So it is between the smallest and the largest of them. *)
Theorem C37_between : forall {M : Mode} cbrt pow (img : rawimage f32) name, let N := f32_num cbrt pow in
  raw_ok img -> crop_ok img -> i_cpp img = 1 -> cfa_new name = Ok (i_cfa img) -> pattern_name name ->
  forall buf out, gofloat img = Ok buf -> demosaic_and_scale img buf 0 0 = Ok out ->
  forall y x k lo hi, inside img (y, x) -> 0 <= k < 4 -> seen img name (y, x) <> Some k -> 0 <= lo -> hi < 65536 ->
  (exists p, inside img p /\ near (y, x) p /\ seen img name p = Some k) ->
  (forall p, inside img p -> near (y, x) p -> seen img name p = Some k -> exists v, measured img p = Some v /\ lo <= v <= hi) ->
  exists f, sample_at out y x k = Some f /\ is_finite f = true /\ (IZR lo <= B2R f <= IZR hi)%R.
Proof. exact @P_Demosaic3.between. Qed.
Print Assumptions C37_between.

(** Without neighbours of that colour it is zero. *)
Theorem C37_no_neighbour : forall {M : Mode} cbrt pow (img : rawimage f32) name, let N := f32_num cbrt pow in
  raw_ok img -> crop_ok img -> i_cpp img = 1 -> cfa_new name = Ok (i_cfa img) -> pattern_name name ->
  forall buf out, gofloat img = Ok buf -> demosaic_and_scale img buf 0 0 = Ok out ->
  forall y x k, inside img (y, x) -> 0 <= k < 4 -> seen img name (y, x) <> Some k ->
  (forall p, inside img p -> near (y, x) p -> seen img name p <> Some k) -> sample_at out y x k = Some (f32_of 0).
Proof. exact @no_neighbour. Qed.
Print Assumptions C37_no_neighbour.

(** It always succeeds. *)
Theorem C37_total : forall {M : Mode} cbrt pow (img : rawimage f32) name, let N := f32_num cbrt pow in
  raw_ok img -> crop_ok img -> i_cpp img = 1 -> cfa_new name = Ok (i_cfa img) -> pattern_name name ->
  exists buf out, gofloat img = Ok buf /\ demosaic_and_scale img buf 0 0 = Ok out /\ well_formed out /\ ocolors out = 4 /\
    owidth out = i_width img - left img - right img /\ oheight out = i_height img - top img - bottom img.
Proof. exact @demosaic_total. Qed.
Print Assumptions C37_total.

Example C37_example : exists f, cfa_new "RGGB" = Ok f /\ pattern_name "RGGB" /\ raw_ok (plain f 4 4 7) /\ crop_ok (plain f 4 4 7) /\
  seen (plain f 4 4 7) "RGGB" (1, 1) = Some 2 /\ inside (plain f 4 4 7) (0, 2) /\ near (1, 1) (0, 2) /\
  seen (plain f 4 4 7) "RGGB" (0, 2) = Some 0 /\ measured (plain f 4 4 7) (0, 2) = Some 7.
Proof.
  destruct rggb as [f [E W]]. exists f. split; [exact E|]. split; [exact rggb_name|]. destruct (plain_ok f 4 4 7) as [H1 H2]; try lia.
  split; [exact H1|]. split; [exact H2|]. split; [reflexivity|]. split; [unfold inside; cbn; lia|]. split; [unfold near; cbn; lia|].
  split; reflexivity.
Qed.

(** ** C38: the size of a reduced picture *)

Theorem C38_fits : forall cbrt pow {M : Mode} (img : rawimage f32) buf maxwidth maxheight out, let N := f32_num cbrt pow in
  0 < owidth buf < 2 ^ 23 -> 0 < oheight buf < 2 ^ 23 -> 0 < maxwidth < 2 ^ 23 -> 0 < maxheight < 2 ^ 23 ->
  demosaic_and_scale img buf maxwidth maxheight = Ok out ->
  owidth out <= maxwidth /\ oheight out <= maxheight /\ owidth out <= owidth buf /\ oheight out <= oheight buf /\
  (owidth out = maxwidth \/ oheight out = maxheight \/ (owidth out = owidth buf /\ oheight out = oheight buf)).
Proof. exact @fits. Qed.
Print Assumptions C38_fits.

(** A picture that fits already is not changed in size. *)
Theorem C38_unchanged : forall cbrt pow {M : Mode} (img : rawimage f32) buf maxwidth maxheight out, let N := f32_num cbrt pow in
  0 < owidth buf < 2 ^ 23 -> 0 < oheight buf < 2 ^ 23 -> 0 < maxwidth < 2 ^ 23 -> 0 < maxheight < 2 ^ 23 ->
  demosaic_and_scale img buf maxwidth maxheight = Ok out ->
  owidth buf <= maxwidth -> oheight buf <= maxheight -> owidth out = owidth buf /\ oheight out = oheight buf.
Proof. exact @unchanged. Qed.
Print Assumptions C38_unchanged.

(** The ratio of the sides stays, up to rounding to whole pixels. *)
Theorem C38_ratio : forall cbrt pow {M : Mode} (img : rawimage f32) buf maxwidth maxheight out, let N := f32_num cbrt pow in
  0 < owidth buf < 2 ^ 23 -> 0 < oheight buf < 2 ^ 23 -> 0 < maxwidth < 2 ^ 23 -> 0 < maxheight < 2 ^ 23 ->
  demosaic_and_scale img buf maxwidth maxheight = Ok out ->
  owidth buf <= 2 ^ 22 -> oheight buf <= 2 ^ 22 ->
  Z.abs (owidth out * oheight buf - owidth buf * oheight out) < 2 * Z.max (owidth buf) (oheight buf).
Proof. exact @same_ratio. Qed.
Print Assumptions C38_ratio.

(** A bound of 0 is no bound. *)
Theorem C38_unlimited : forall cbrt pow {M : Mode} (img : rawimage f32) buf maxwidth maxheight out, let N := f32_num cbrt pow in
  maxwidth = 0 \/ maxheight = 0 -> demosaic_and_scale img buf maxwidth maxheight = Ok out ->
  owidth out = owidth buf /\ oheight out = oheight buf.
Proof. exact @unlimited. Qed.
Print Assumptions C38_unlimited.

(** A side that would become shorter than one pixel ends in a panic. *)
Theorem C38_zero_refuted : exists f, forall (M : Mode) cbrt pow, let N := f32_num cbrt pow in
  cfa_new "RGGB" = Ok f /\ raw_ok (plain f 1 10 1000) /\ crop_ok (plain f 1 10 1000) /\
  exists buf, gofloat (plain f 1 10 1000) = Ok buf /\ demosaic_and_scale (plain f 1 10 1000) buf 5 5 = Panic.
Proof. exact no_picture_any. Qed.
Print Assumptions C38_zero_refuted.

(** ** C39: every pixel of a reduced picture comes from the original *)

(** It does not: the steps of rows and columns are exchanged, so the right side
    of an even picture can be black. *)
Theorem C39_blank_refuted : exists f, forall (M : Mode) cbrt pow, let N := f32_num cbrt pow in
  cfa_new "RGGB" = Ok f /\ raw_ok (plain f 20 3 1000) /\ crop_ok (plain f 20 3 1000) /\
  exists buf out, gofloat (plain f 20 3 1000) = Ok buf /\ demosaic_and_scale (plain f 20 3 1000) buf 10 10 = Ok out /\
    owidth out = 10 /\ oheight out = 1 /\ forall k, 0 <= k < 4 -> sample_at out 0 9 k = Some (f32_of 0).
Proof. exact blank_columns_any. Qed.
Print Assumptions C39_blank_refuted.
(** The hypotheses of C38 are met by this picture. *)
Example C38_example : exists f, forall (M : Mode) cbrt pow, let N := f32_num cbrt pow in
  exists buf out, gofloat (plain f 20 3 1000) = Ok buf /\ demosaic_and_scale (plain f 20 3 1000) buf 10 10 = Ok out.
Proof.
  destruct C39_blank_refuted as [f H]. exists f. intros M cbrt pow N. destruct (H M cbrt pow) as [_ [_ [_ [buf [out [H1 [H2 _]]]]]]].
  exists buf, out. split; assumption.
Qed.
