(** The size of the picture that [demosaic_and_scale] returns. *)
From Coq Require Import String ZArith List Bool Reals Lia Lra.
From Flocq Require Import Core BinarySingleNaN Relative.
From Verif Require Import Base Num F32 Cfa Transform Image Demosaic P_Base P_F32 P_Scale.
Import ListNotations.
Local Open Scope Z_scope.

Section S.
Variables (cbrt : f32 -> f32) (pow : f32 -> f32 -> f32).
Let N : Num f32 := f32_num cbrt pow.
Local Existing Instance N.

(** The three cases of the new size. *)
Definition fitted (w h mw mh : Z) (s : f32) (nw nh : Z) : Prop :=
  is_finite s = true /\ (B2R s <= 8388608)%R /\
  (((1 < B2R s)%R /\ 0 <= nw <= mw /\ 0 <= nh <= mh /\ nw <= w /\ nh <= h /\ (nw = mw \/ nh = mh) /\ (mw < w \/ mh < h) /\
     (w <= 2 ^ 22 -> h <= 2 ^ 22 -> Z.abs (nw * h - w * nh) < 2 * Z.max w h)) \/
   ((B2R s <= 1)%R /\ w <= mw /\ h <= mh)).
Lemma to_2 : forall a b m k X, IZR (Z.abs (k * b - a * m)) = Rabs X -> (Rabs X < 2 * IZR b)%R -> Z.abs (k * b - a * m) < 2 * b.
Proof. intros a b m k X E H. apply lt_IZR. rewrite E, mult_IZR. exact H. Qed.
Lemma ratio_Z : forall a b m (s : f32), size a -> size b -> size m -> B2R s = RN (IZR b / IZR m) -> (1 < B2R s)%R -> a <= 2 ^ 22 ->
  Z.abs (Ztrunc (RN (IZR a / B2R s)) * b - a * m) < 2 * b.
Proof.
  intros a b m s Ha Hb Hm E L B. pose proof (ratio a b m Ha Hb Hm eq_refl) as R. cbn zeta in R. rewrite <- E in R.
  apply to_2 with (X := (IZR (Ztrunc (RN (IZR a / B2R s))) * IZR b - IZR a * IZR m)%R).
  - rewrite abs_IZR, minus_IZR, !mult_IZR. reflexivity.
  - apply R. pose proof (size_R a Ha). apply IZR_le in B. change (IZR (2 ^ 22)) with 4194304%R in B.
    apply Rmult_le_reg_r with (B2R s); [lra|]. unfold Rdiv. rewrite Rmult_assoc, Rinv_l by lra. nra.
Qed.
Lemma new_size_ok : forall w h mw mh, size w -> size h -> size mw -> size mh ->
  exists s nw nh, new_size w h mw mh = (s, nw, nh) /\ fitted w h mw mh s nw nh.
Proof.
  intros w h mw mh Hw Hh Hmw Hmh. unfold new_size.
  replace (mw =? 0) with false by (unfold size in Hmw; lia). replace (mh =? 0) with false by (unfold size in Hmh; lia). cbn [orb].
  destruct (quot_val w mw Hw Hmw) as [Fx [Vx Bx]]. destruct (quot_val h mh Hh Hmh) as [Fy [Vy By]].
  unfold N. cbn [n_lt n_div n_of f32_num]. set (xs := Bdiv mode_NE (f32_of w) (f32_of mw)) in *. set (ys := Bdiv mode_NE (f32_of h) (f32_of mh)) in *.
  destruct (f32_lt xs ys) eqn:E.
  - rewrite (lt_fin xs ys Fx Fy) in E. assert (Sy : (/ 8388608 <= B2R ys <= 8388608)%R) by lra.
    destruct (side_val w ys Hw Fy Sy) as [_ [_ [_ [T P]]]]. unfold to_usize. cbn [n_to f32_num].
    exists ys, (f32_to 0 (2 ^ 64 - 1) (Bdiv mode_NE (f32_of w) ys)), mh. split; [reflexivity|]. rewrite T.
    pose proof (trunc_bounds _ P) as [_ T0]. unfold fitted. split; [exact Fy|]. split; [apply Sy|].
    destruct (Rlt_le_dec 1 (B2R ys)) as [L|L].
    + left. split; [exact L|]. pose proof (other_strict w mw ys Hw Hmw Fy ltac:(lra) ltac:(lra)).
      pose proof (never_more w ys Hw Fy ltac:(lra)). pose proof (more_than_one h mh Hh Hmh ltac:(lra)).
      split; [lia|]. split; [unfold size in Hmh; lia|]. split; [lia|]. split; [lia|]. split; [lia|]. split; [lia|].
      intros B1 B2. pose proof (ratio_Z w h mh ys Hw Hh Hmh Vy L B1). lia.
    + right. split; [exact L|]. split; [apply at_most_one; [exact Hw|exact Hmw|lra]|apply at_most_one; [exact Hh|exact Hmh|lra]].
  - rewrite (lt_fin_false xs ys Fx Fy) in E. assert (Sx : (/ 8388608 <= B2R xs <= 8388608)%R) by lra.
    destruct (side_val h xs Hh Fx Sx) as [_ [_ [_ [T P]]]]. unfold to_usize. cbn [n_to f32_num].
    exists xs, mw, (f32_to 0 (2 ^ 64 - 1) (Bdiv mode_NE (f32_of h) xs)). split; [reflexivity|]. rewrite T.
    pose proof (trunc_bounds _ P) as [_ T0]. unfold fitted. split; [exact Fx|]. split; [apply Sx|].
    destruct (Rlt_le_dec 1 (B2R xs)) as [L|L].
    + left. split; [exact L|]. pose proof (other_weak h mh xs Hh Hmh Fx ltac:(lra) ltac:(lra)).
      pose proof (never_more h xs Hh Fx ltac:(lra)). pose proof (more_than_one w mw Hw Hmw ltac:(lra)).
      split; [unfold size in Hmw; lia|]. split; [lia|]. split; [lia|]. split; [lia|]. split; [lia|]. split; [lia|].
      intros B1 B2. pose proof (ratio_Z h w mw xs Hh Hw Hmw Vx L B2). lia.
    + right. split; [exact L|]. split; [apply at_most_one; [exact Hw|exact Hmw|lra]|apply at_most_one; [exact Hh|exact Hmh|lra]].
Qed.

Lemma min_scale_val : forall k, is_finite (min_scale k) = true /\ (2 <= B2R (min_scale k))%R.
Proof.
  intros k. unfold min_scale, N. cbn [n_of f32_num].
  destruct (k =? 6); [|destruct (k =? 12)].
  - destruct (of_exact 3) as [F [V _]]; [cbn; lia|]. rewrite V. split; [exact F|lra].
  - destruct (of_exact 12) as [F [V _]]; [cbn; lia|]. rewrite V. split; [exact F|lra].
  - destruct (of_exact 2) as [F [V _]]; [cbn; lia|]. rewrite V. split; [exact F|lra].
Qed.
Lemma n1_val : is_finite (n1 (A := f32)) = true /\ B2R (n1 (A := f32)) = 1%R.
Proof. unfold n1, N. cbn [n_of f32_num]. destruct (of_exact 1) as [F [V _]]; [cbn; lia|]. auto. Qed.
Lemma n0_val : is_finite (n0 (A := f32)) = true /\ B2R (n0 (A := f32)) = 0%R.
Proof. unfold n0, N. cbn [n_of f32_num]. destruct (of_exact 0) as [F [V _]]; [cbn; lia|]. auto. Qed.

Context {M : Mode}.
Lemma full_size : forall img buf out, full (A := f32) img buf = Ok out -> owidth out = owidth buf /\ oheight out = oheight buf.
Proof.
  intros img buf out E. unfold full in E. apply bind_inv in E. destruct E as [cfa [_ E]]. apply bind_inv in E. destruct E as [d1 [_ E]]. apply bind_inv in E. destruct E as [d2 [_ E]].
  injection E as <-. auto.
Qed.
Lemma scale_down_size : forall buf nw nh out, scale_down (A := f32) buf nw nh = Ok out -> owidth out = nw /\ oheight out = nh.
Proof. intros buf nw nh out E. unfold scale_down in E. apply bind_inv in E. destruct E as [d1 [_ E]]. injection E as <-. auto. Qed.
Lemma scaled_size : forall img buf nw nh out, scaled (A := f32) img buf nw nh = Ok out -> owidth out = nw /\ oheight out = nh.
Proof. intros img buf nw nh out E. unfold scaled in E. apply bind_inv in E. destruct E as [cfa [_ E]]. apply bind_inv in E. destruct E as [d1 [_ E]]. injection E as <-. auto. Qed.

(** Which of the sizes the result has. *)
Lemma chosen : forall img buf mw mh (s : f32) nw nh out, new_size (owidth buf) (oheight buf) mw mh = (s, nw, nh) -> is_finite s = true ->
  demosaic_and_scale img buf mw mh = Ok out ->
  ((1 < B2R s)%R /\ owidth out = nw /\ oheight out = nh) \/ ((B2R s <= 1)%R /\ owidth out = owidth buf /\ oheight out = oheight buf).
Proof.
  intros img buf mw mh s nw nh out E F R. unfold demosaic_and_scale in R. rewrite E in R.
  destruct n1_val as [F1 V1]. destruct (min_scale_val (cwidth (i_cfa img))) as [F2 V2].
  destruct (n_lt s (min_scale (cwidth (i_cfa img))) || negb (ocolors buf =? 1)) eqn:B.
  - apply bind_inv in R. destruct R as [mid [R1 R2]].
    assert (K : owidth mid = owidth buf /\ oheight mid = oheight buf).
    { destruct (ocolors buf =? 4); [injection R1 as <-; auto|]. apply full_size with (1 := R1). }
    destruct (n_lt n1 s) eqn:L.
    + left. apply scale_down_size in R2. apply (lt_fin n1 s F1 F) in L. rewrite V1 in L. auto.
    + right. injection R2 as <-. apply (lt_fin_false n1 s F1 F) in L. rewrite V1 in L. tauto.
  - left. apply orb_false_iff in B. destruct B as [B _]. apply (lt_fin_false s _ F F2) in B. apply scaled_size in R. split; [lra|exact R].
Qed.
Lemma fits : forall img buf mw mh out, size (owidth buf) -> size (oheight buf) -> size mw -> size mh -> demosaic_and_scale img buf mw mh = Ok out ->
  owidth out <= mw /\ oheight out <= mh /\ owidth out <= owidth buf /\ oheight out <= oheight buf /\
  (owidth out = mw \/ oheight out = mh \/ (owidth out = owidth buf /\ oheight out = oheight buf)).
Proof.
  intros img buf mw mh out Hw Hh Hmw Hmh R. destruct (new_size_ok _ _ mw mh Hw Hh Hmw Hmh) as [s [nw [nh [E [F [_ C]]]]]].
  destruct (chosen img buf mw mh s nw nh out E F R) as [[L [-> ->]]|[L [-> ->]]]; destruct C as [[L' C]|[L' C]]; try lra; lia.
Qed.
Lemma unchanged : forall img buf mw mh out, size (owidth buf) -> size (oheight buf) -> size mw -> size mh -> demosaic_and_scale img buf mw mh = Ok out ->
  owidth buf <= mw -> oheight buf <= mh -> owidth out = owidth buf /\ oheight out = oheight buf.
Proof.
  intros img buf mw mh out Hw Hh Hmw Hmh R B1 B2. destruct (new_size_ok _ _ mw mh Hw Hh Hmw Hmh) as [s [nw [nh [E [F [_ C]]]]]].
  destruct (chosen img buf mw mh s nw nh out E F R) as [[L [-> ->]]|[L [-> ->]]]; destruct C as [[L' C]|[L' C]]; try lra; lia.
Qed.
Lemma same_ratio : forall img buf mw mh out, size (owidth buf) -> size (oheight buf) -> size mw -> size mh -> demosaic_and_scale img buf mw mh = Ok out ->
  owidth buf <= 2 ^ 22 -> oheight buf <= 2 ^ 22 -> Z.abs (owidth out * oheight buf - owidth buf * oheight out) < 2 * Z.max (owidth buf) (oheight buf).
Proof.
  intros img buf mw mh out Hw Hh Hmw Hmh R B1 B2. destruct (new_size_ok _ _ mw mh Hw Hh Hmw Hmh) as [s [nw [nh [E [F [_ C]]]]]].
  destruct (chosen img buf mw mh s nw nh out E F R) as [[L [-> ->]]|[L [-> ->]]]; destruct C as [[L' C]|[L' C]]; try lra.
  - apply C; assumption.
  - unfold size in Hw, Hh. lia.
Qed.
Lemma unlimited : forall img buf mw mh out, mw = 0 \/ mh = 0 -> demosaic_and_scale img buf mw mh = Ok out ->
  owidth out = owidth buf /\ oheight out = oheight buf.
Proof.
  intros img buf mw mh out Z R. assert (E : new_size (owidth buf) (oheight buf) mw mh = (n0, owidth buf, oheight buf)).
  { unfold new_size. replace ((mw =? 0) || (mh =? 0)) with true by lia. reflexivity. }
  destruct n0_val as [F V]. destruct (chosen _ _ _ _ _ _ _ _ E F R) as [[L _]|[L H]]; [lra|exact H].
Qed.
End S.
