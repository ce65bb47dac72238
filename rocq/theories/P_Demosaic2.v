(** Demosaicing of sensor data in single precision. *)
From Coq Require Import String ZArith List Bool Reals Lia Lra ZifyBool ZifyNat Permutation.
From Flocq Require Import Core BinarySingleNaN.
From Verif Require Import Base Num F32 Threads Cfa Transform Image Gofloat Demosaic Spec_Cfa Spec_Orient Spec_Rgb P_Base P_Cfa P_Threads P_Orient P_F32 P_Scale P_Scale2 P_Zip P_Gofloat P_Demosaic.
Import ListNotations.
Local Open Scope Z_scope.

Section S.
Context {M : Mode}.
Variables (cbrt : f32 -> f32) (pow : f32 -> f32 -> f32).
Let N : Num f32 := f32_num cbrt pow.
Local Existing Instance N.

(** Sums of few 16-bit numbers are exact. *)
Lemma add_exact : forall a b (x y : f32), is_number x (IZR a) -> is_number y (IZR b) -> 0 <= a -> 0 <= b -> a + b <= 2 ^ 24 -> is_number (n_add x y) (IZR (a + b)).
Proof.
  intros a b x y [Fx Vx] [Fy Vy] Ha Hb Hs. unfold N. cbn [n_add f32_num]. destruct (add_val x y Fx Fy) as [F V].
  - rewrite Vx, Vy, <- plus_IZR, <- abs_IZR. apply IZR_le. change (2 ^ 24) with 16777216 in Hs. change (2 ^ 64) with 18446744073709551616. lia.
  - split; [exact F|]. rewrite V, Vx, Vy, <- plus_IZR. apply RN_id. apply gf_int. lia.
Qed.
Lemma of_number : forall v, 0 <= v <= 2 ^ 24 -> is_number (n_of v) (IZR v).
Proof. intros v H. unfold N. cbn [n_of f32_num]. destruct (of_exact v) as [F [V _]]; [lia|]. split; assumption. Qed.

Variable img : rawimage f32.
Variable name : string.
Hypothesis RO : raw_ok img.
Hypothesis CO : crop_ok img.
Hypothesis C1 : i_cpp img = 1.
Hypothesis EN : cfa_new name = Ok (i_cfa img).
Hypothesis PN : pattern_name name.

Lemma sizes_small : i_width img < 2 ^ 61 /\ i_height img < 2 ^ 61.
Proof. pose proof RO as (H1 & H2 & H3 & H4 & H5 & _). change (2 ^ 61) with 2305843009213693952 in *. split; nia. Qed.
Lemma valid : cfa_is_valid (i_cfa img) = true.
Proof.
  rewrite (cfa_new_valid name _ EN). destruct (String.eqb_spec name "") as [E|E]; [|reflexivity]. destruct PN as [D _]. rewrite E in D. exfalso. apply D. reflexivity.
Qed.
Definition colf (y x : Z) : Z := match colour name (y + top img) (x + left img) with Some c => c | None => 0 end.
Lemma crop_color : exists cfa, img_cropped_cfa img = Ok cfa /\
  forall y x, 0 <= y < i_height img - top img - bottom img -> 0 <= x < i_width img - left img - right img ->
    color_at cfa y x = Ok (colf y x) /\ 0 <= colf y x < 4 /\ colour name (y + top img) (x + left img) = Some (colf y x).
Proof.
  destruct sizes_small as [S1 S2]. change (2 ^ 61) with 2305843009213693952 in *. pose proof CO as (T & Ri & B & L & X & Y).
  destruct (cfa_new_shape name _ EN) as [LP _].
  unfold img_cropped_cfa, cropped_cfa. change (get [e0 (i_crops img); e1 (i_crops img); e2 (i_crops img); e3 (i_crops img)] 3) with (Ok (left img)).
  change (get [e0 (i_crops img); e1 (i_crops img); e2 (i_crops img); e3 (i_crops img)] 0) with (Ok (top img)). cbn [bind].
  destruct (shift_ok (i_cfa img) (left img) (top img) LP) as [g [Eg _]]; [change (2 ^ 64) with 18446744073709551616; lia..|].
  exists g. split; [exact Eg|]. intros y x Hy Hx.
  rewrite (shift_color (i_cfa img) g (left img) (top img) y x LP) by (try exact Eg; change (2 ^ 64) with 18446744073709551616; lia).
  destruct (color_at_real name (i_cfa img) (y + top img) (x + left img) EN PN) as [v [E1 E2]]; [change (2 ^ 64) with 18446744073709551616; lia..|].
  destruct (color_at_range name (i_cfa img) (y + top img) (x + left img) EN) as [v' [E3 R]]; [change (2 ^ 64) with 18446744073709551616; lia..|].
  unfold colf. rewrite E2, E1. rewrite E1 in E3. injection E3 as <-. auto.
Qed.

(** The whole step. *)
Lemma demosaic_exists : exists buf out, gofloat img = Ok buf /\ demosaic_and_scale img buf 0 0 = Ok out /\
  well_formed out /\ ocolors out = 4 /\ owidth out = i_width img - left img - right img /\ oheight out = i_height img - top img - bottom img /\
  well_formed buf /\ ocolors buf = 1 /\ owidth buf = i_width img - left img - right img /\ oheight buf = i_height img - top img - bottom img /\
  (forall y x, 0 <= y < oheight out -> 0 <= x < owidth out -> exists v, measured img (y, x) = Some v /\ 0 <= v < 65536 /\ val buf y x = n_of v) /\
  (forall y x k, 0 <= y < oheight out -> 0 <= x < owidth out -> 0 <= k < 4 -> sample_at out y x k = Some (demosaiced buf colf y x k)).
Proof.
  destruct (sensor_crop img RO CO C1 valid) as [buf [Eb [WB [CB [BW [BH P]]]]]]. exists buf.
  destruct crop_color as [cfa [Ec Hc]].
  destruct (mem_bound cfa buf colf WB CB) with (img := img) as [out [Ef [WO [C4 [OW [OH PO]]]]]].
  - intros y x Hy Hx. destruct (Hc y x) as [A1 [A2 _]]; [lia|lia|]. auto.
  - rewrite BW, BH. pose proof RO as (H1 & H2 & H3 & H4 & H5 & H6). pose proof CO as (T & Ri & B & L & X & Y).
    assert ((i_width img - left img - right img) * (i_height img - top img - bottom img) <= i_width img * i_height img) by (apply Z.mul_le_mono_nonneg; lia).
    change (2 ^ 61) with 2305843009213693952 in *. change (2 ^ 63) with 9223372036854775808. nia.
  - exact Ec.
  - exists out. split; [exact Eb|]. split.
    { unfold demosaic_and_scale, new_size. cbn [Z.eqb orb]. destruct (n0_val cbrt pow) as [F0 V0]. destruct (min_scale_val cbrt pow (cwidth (i_cfa img))) as [F2 V2].
      replace (n_lt n0 (min_scale (cwidth (i_cfa img)))) with true by (symmetry; apply lt_fin; [exact F0|exact F2|]; fold N in V0, V2; unfold f32 in *; lra).
      cbn [orb]. rewrite CB. cbn [Z.eqb Pos.eqb]. rewrite Ef. cbn [bind]. destruct (n1_val cbrt pow) as [F1 V1].
      replace (n_lt n1 n0) with false by (symmetry; apply lt_fin_false; [exact F1|exact F0|]; fold N in V0, V1; unfold f32 in *; lra). reflexivity. }
    split; [exact WO|]. split; [exact C4|]. split; [congruence|]. split; [congruence|]. split; [exact WB|]. split; [exact CB|]. split; [exact BW|]. split; [exact BH|]. split.
    + intros y x Hy Hx. destruct (P y x) as [v [V1 V2]]; [lia|lia|]. exists v. split; [exact V1|]. split.
      * pose proof RO as (_ & _ & _ & _ & _ & H6). rewrite Forall_forall in H6. apply H6. unfold raw_at in V1. apply nth_error_In in V1. exact V1.
      * rewrite (sample_px n0) in V2 by (try exact WB; lia). injection V2 as V2. unfold px in V2. rewrite CB in V2. unfold val. etransitivity; [|exact V2]. f_equal. lia.
    + intros y x k Hy Hx Hk. apply PO; lia.
Qed.
End S.
