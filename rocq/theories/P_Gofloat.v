(** Cropping and conversion to floating point. *)
From Coq Require Import String ZArith List Bool Reals Lia ZifyBool ZifyNat.
From Flocq Require Import Core BinarySingleNaN.
From Verif Require Import Base Num F32 Threads Cfa Transform Image Gofloat Spec_Orient Spec_Rgb P_Base P_Threads P_Orient P_F32 P_Zip.
Import ListNotations.
Local Open Scope Z_scope.

Section G.
Context {M : Mode} {A : Type} {N : Num A}.

Lemma crop_sizes : forall (img : rawimage A), raw_ok img -> crop_ok img ->
  usub (i_width img) (e1 (i_crops img)) = Ok (i_width img - right img) /\
  usub (i_width img - right img) (e3 (i_crops img)) = Ok (i_width img - right img - left img) /\
  usub (i_height img) (e0 (i_crops img)) = Ok (i_height img - top img) /\
  usub (i_height img - top img) (e2 (i_crops img)) = Ok (i_height img - top img - bottom img).
Proof.
  intros img (H1 & H2 & H3 & H4 & H5 & _) (T & Ri & B & L & X & Y). unfold top, right, bottom, left in *.
  assert (W : i_width img < 2 ^ 61 /\ i_height img < 2 ^ 61).
  { change (2 ^ 61) with 2305843009213693952 in *. split; nia. }
  change (2 ^ 61) with 2305843009213693952 in W. change (2 ^ 64) with 18446744073709551616.
  repeat split; apply usub_ok; change (2 ^ 64) with 18446744073709551616; lia.
Qed.
(** The samples of a line, from its start. *)
Lemma line_start : forall (img : rawimage A) w, raw_ok img -> crop_ok img -> w = i_width img - right img - left img -> forall r, 0 <= r < i_height img - top img - bottom img ->
  let o := i_width img * (r + top img) + left img in
  0 <= o /\ o + w <= i_width img * i_height img.
Proof.
  intros img w (H1 & H2 & H3 & H4 & H5 & _) (T & Ri & B & L & X & Y) -> r Hr o. unfold o.
  assert (i_width img * (r + top img) + i_width img <= i_width img * i_height img).
  { replace (i_width img * (r + top img) + i_width img) with (i_width img * (r + top img + 1)) by ring. apply Z.mul_le_mono_nonneg_l; lia. }
  assert (0 <= i_width img * (r + top img)) by (apply Z.mul_nonneg_nonneg; lia). lia.
Qed.
Definition dat (img : rawimage A) (j : Z) : Z := at0 0 (i_data img) j.
Lemma raw_dat : forall img y x k, raw_ok img -> 0 <= y < i_height img -> 0 <= x < i_width img -> 0 <= k < i_cpp img ->
  raw_at img y x k = Some (dat img ((y * i_width img + x) * i_cpp img + k)).
Proof.
  intros img y x k (H1 & H2 & H3 & H4 & _) Hy Hx Hk. unfold raw_at, dat. apply at0_nth_error. unfold zlen. rewrite H4. apply px_bound; lia.
Qed.

(** Sensor data: one number per pixel. *)
Lemma sensor_crop : forall img, raw_ok img -> crop_ok img -> i_cpp img = 1 -> cfa_is_valid (i_cfa img) = true ->
  exists out, gofloat img = Ok out /\ well_formed out /\ ocolors out = 1 /\
    owidth out = i_width img - left img - right img /\ oheight out = i_height img - top img - bottom img /\
    forall y x, 0 <= y < oheight out -> 0 <= x < owidth out ->
      exists v, raw_at img (y + top img) (x + left img) 0 = Some v /\ sample_at out y x 0 = Some (n_of v).
Proof.
  intros img RO CO C1 V. destruct (crop_sizes img RO CO) as [S1 [S2 [S3 S4]]]. unfold gofloat. rewrite S1. cbn [bind]. rewrite S2. cbn [bind]. rewrite S3. cbn [bind]. rewrite S4. cbn [bind].
  unfold is_monochrome. rewrite C1, V. cbn [Z.eqb Pos.eqb andb negb].
  set (w := i_width img - right img - left img). set (h := i_height img - top img - bottom img).
  assert (Hw : 0 < w) by (destruct CO as (? & ? & ? & ? & ? & ?); unfold w; lia). assert (Hh : 0 < h) by (destruct CO as (? & ? & ? & ? & ? & ?); unfold h; lia).
  assert (Lw : zlen (odata (op_new (n0 : A) w h 1)) = w * 1 * h) by (unfold op_new; cbn [odata]; rewrite zlen_repeat; nia).
  destruct (par_lines_ok (n0 : A) (w * 1) h (odata (op_new n0 w h 1)) (fun line row =>
      src <- slice_from (i_data img) (i_width img * (row + e0 (i_crops img)) + e3 (i_crops img)) ;;
      zip_chunks 1 1 line src (fun _ o i => v <- get i 0 ;; upd o 0 (n_of v)))
      (fun r i => n_of (dat img (i_width img * (r + top img) + left img + i)))) as [d [E [Ld Nd]]]; [lia|lia|exact Lw| |].
  { intros r l Hr Ll _. fold (top img) (left img). destruct (line_start img w RO CO eq_refl r Hr) as [O1 O2]. pose proof RO as (H1 & H2 & H3 & H4 & H5 & H6). rewrite C1 in H4, H5.
    rewrite slice_from_ok by (unfold zlen; lia). cbn [bind].
    destruct (zip_ok (n0 : A) 0 1 1 (fun _ o i => v <- get i 0 ;; upd o 0 (n_of v)) (fun k _ => n_of (dat img (i_width img * (r + top img) + left img + k)))
      eq_refl eq_refl w l (skipn (Z.to_nat (i_width img * (r + top img) + left img)) (i_data img))) as [l' [El [Ll' Nl']]].
    - lia.
    - lia.
    - rewrite zlen_skipn. unfold zlen. lia.
    - intros k o i Hk Lo Li _ Ni. rewrite (get_at0 0) by lia. cbn [bind]. rewrite upd_ok by lia. eexists. split; [reflexivity|]. split; [rewrite zlen_upd_nat; exact Lo|].
      intros j Hj. rewrite (at0_upd_nat n0 o 0 j) by lia. replace (j =? 0) with true by lia. rewrite (Ni 0) by lia. rewrite at0_skipn by lia. unfold dat. f_equal. f_equal. lia.
    - exists l'. split; [exact El|]. split; [lia|]. intros i Hi. specialize (Nl' i 0 ltac:(lia) ltac:(lia)). rewrite <- Nl'. f_equal. lia. }
  rewrite E. cbn [bind]. eexists. split; [reflexivity|]. pose proof RO as (H1 & H2 & H3 & H4 & H5 & H6).
  assert (WB : w * h * 1 < 2 ^ 63).
  { assert (w * h <= i_width img * i_height img) by (destruct CO as (? & ? & ? & ? & ? & ?); apply Z.mul_le_mono_nonneg; unfold w, h; lia). change (2 ^ 61) with 2305843009213693952 in *. change (2 ^ 63) with 9223372036854775808. nia. }
  assert (WF : well_formed (mkop w h 1 d)) by (apply well_formed_mk; [exact Hw|exact Hh|lia|lia|exact WB]).
  split; [exact WF|]. cbn [ocolors owidth oheight]. split; [reflexivity|]. split; [unfold w; lia|]. split; [unfold h; lia|].
  intros y x Hy Hx. exists (dat img ((y + top img) * i_width img + (x + left img))). split.
  - rewrite raw_dat; [rewrite C1; f_equal; f_equal; lia|exact RO| | |lia]; destruct CO as (? & ? & ? & ? & ? & ?); unfold w, h in *; lia.
  - rewrite (sample_px n0) by (cbn [ocolors owidth oheight]; (exact WF || lia)). unfold px. cbn [odata owidth ocolors].
    replace ((y * w + x) * 1 + 0) with (y * (w * 1) + x) by lia. rewrite Nd by lia. f_equal. f_equal. f_equal. lia.
Qed.
End G.
