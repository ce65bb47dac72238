(** Levels and white balance in single precision (C55). *)
From Coq Require Import String ZArith List Bool Reals Lia Lra.
From Flocq Require Import Core Relative BinarySingleNaN.
From Verif Require Import Base Num F32 Transform Image Colors Spec_Orient Spec_Level.
From Verif Require Import P_Base P_F32 P_Meta1 P_Color1 P_Color3 P_Srgb1.
Import ListNotations.
Local Open Scope Z_scope.

Lemma normal_big : forall x : f32, is_finite x = true -> (bpow radix2 (-126) <= Rabs (B2R x))%R -> f32_normal x = true.
Proof.
  intros x F H. destruct x as [s|s| |s m e Bd]; try discriminate F.
  - cbn in H. rewrite Rabs_R0 in H. pose proof (bpow_gt_0 radix2 (-126)). lra.
  - cbn [f32_normal]. apply Z.leb_le. destruct (Z_lt_le_dec (Zpos m) (2 ^ 23)) as [L|L]; [exfalso|exact L].
    pose proof Bd as Bd'. unfold SpecFloat.bounded in Bd'. apply andb_prop in Bd'. destruct Bd' as [C _]. unfold SpecFloat.canonical_mantissa in C. apply Zeq_bool_eq in C.
    assert (D : Zpos (SpecFloat.digits2_pos m) <= 23).
    { rewrite Digits.Zpos_digits2_pos. apply Digits.Zdigits_le_Zpower. cbn [Z.abs]. exact L. }
    unfold SpecFloat.fexp, SpecFloat.emin in C. assert (e = -149) by lia. subst e.
    cbn [B2R] in H. rewrite <- F2R_Zabs in H. rewrite abs_cond_Zopp in H. unfold F2R in H. cbn [Fnum Fexp] in H.
    assert (IZR (Z.abs (Zpos m)) < IZR (2 ^ 23))%R by (apply IZR_lt; lia).
    assert (IZR (2 ^ 23) * bpow radix2 (-149) = bpow radix2 (-126))%R by (change (IZR (2 ^ 23)) with (bpow radix2 23); rewrite <- bpow_plus; reflexivity).
    pose proof (bpow_gt_0 radix2 (-149)). nra.
Qed.
Lemma rn_rel2 : forall r, r = 0%R \/ (bpow radix2 (-126) <= Rabs r)%R -> exists eps, (Rabs eps <= / 16777216)%R /\ RN r = (r * (1 + eps))%R.
Proof.
  intros r [-> |H].
  - exists 0%R. split; [rewrite Rabs_R0; lra|]. rewrite RN_0. lra.
  - destruct (relative_error_N_FLT_ex radix2 (-149) 24 ltac:(lia) (fun z => negb (Z.even z)) r) as [eps [E1 E2]]; [exact H|].
    exists eps. split; [|exact E2]. eapply Rle_trans; [exact E1|]. cbn. lra.
Qed.
Lemma min_fin : forall x, is_finite x = true -> is_finite (f32_min x (f32_of 1)) = true /\ B2R (f32_min x (f32_of 1)) = Rmin (B2R x) 1.
Proof.
  intros x F. destruct (small_val 1) as [F1 [N1 [V1 _]]]; [lia|]. unfold f32_min. rewrite N1. destruct (is_nan x) eqn:Nx; [destruct x; discriminate|].
  change (Bltb (f32_of 1) x) with (f32_lt (f32_of 1) x). destruct (f32_lt (f32_of 1) x) eqn:L.
  - apply lt_fin in L; try assumption. rewrite V1 in L. split; [exact F1|]. rewrite V1, Rmin_right by lra. reflexivity.
  - apply lt_fin_false in L; try assumption. rewrite V1 in L. split; [exact F|]. rewrite Rmin_left by lra. reflexivity.
Qed.

(** ** Errors *)
Lemma four_errors : forall a b c d : R, (Rabs a <= / 16777216)%R -> (Rabs b <= / 16777216)%R -> (Rabs c <= / 16777216)%R -> (Rabs d <= / 16777216)%R ->
  (Rabs ((1 + a) * (1 + b) * (1 + c) * (1 + d) - 1) <= / 2097152)%R.
Proof.
  intros a b c d Ha Hb Hc Hd. apply Rabs_le_inv in Ha, Hb, Hc, Hd.
  assert (P2 : (- (3 / 16777216) <= (1 + a) * (1 + b) - 1 <= 3 / 16777216)%R) by (split; nra).
  assert (P3 : (- (4 / 16777216) <= (1 + a) * (1 + b) * (1 + c) - 1 <= 5 / 16777216)%R) by (split; nra).
  apply Rabs_le. split; nra.
Qed.
Lemma min_error : forall x r e : R, (Rabs e <= / 2097152)%R -> x = (r * (1 + e))%R -> (Rabs (Rmin x 1 - Rmin 1 r) <= Rabs (Rmin 1 r) / 2097152)%R.
Proof.
  intros x r e He ->. apply Rabs_le_inv in He. destruct (Rle_dec 1 r) as [L|L].
  - rewrite (Rmin_left 1 r) by lra. rewrite (Rabs_pos_eq 1) by lra. apply Rabs_le. unfold Rmin. destruct (Rle_dec (r * (1 + e)) 1) as [L'|L']; [split; nra|lra].
  - rewrite (Rmin_right 1 r) by lra. unfold Rmin. destruct (Rle_dec (r * (1 + e)) 1) as [L'|L'].
    + replace (r * (1 + e) - r)%R with (r * e)%R by ring. rewrite Rabs_mult. unfold Rdiv. apply Rmult_le_compat_l; [apply Rabs_pos|]. apply Rabs_le. lra.
    + assert (0 < r)%R by nra. rewrite (Rabs_pos_eq r) by lra. apply Rabs_le. split; nra.
Qed.
Lemma big_product : forall a b x y : R, (a <= Rabs x)%R -> (b <= Rabs y)%R -> (0 <= a)%R -> (0 <= b)%R -> (a * b <= Rabs (x * y))%R.
Proof. intros. rewrite Rabs_mult. apply Rmult_le_compat; assumption. Qed.
Lemma near_one : forall e, (Rabs e <= / 16777216)%R -> (/ 2 <= Rabs (1 + e))%R.
Proof. intros e H. apply Rabs_le_inv in H. rewrite Rabs_pos_eq; lra. Qed.
Lemma pow_le : forall k, (-126 <= k) -> (bpow radix2 (-126) <= bpow radix2 k)%R.
Proof. intros. apply bpow_le. assumption. Qed.
Lemma half : (/ 2)%R = bpow radix2 (-1).
Proof. reflexivity. Qed.
Lemma rounded_error : forall black white f e m v, black < white -> white - black < 65536 -> (bpow radix2 (-40) <= f)%R -> (Rabs e <= / 16777216)%R -> m = (f * (1 + e))%R ->
  (v - IZR black)%R = 0%R \/ (bpow radix2 (-40) <= Rabs (v - IZR black))%R ->
  (Rabs (Rmin (RN (RN (RN (v - IZR black) / IZR (white - black)) * m)) 1 - Rmin 1 ((v - IZR black) / IZR (white - black) * f)) <= Rabs (Rmin 1 ((v - IZR black) / IZR (white - black) * f)) / 2097152)%R.
Proof.
  intros black white f e m v Hb Hs Hf He -> Hd. set (d := (v - IZR black)%R) in *. set (s := IZR (white - black)).
  assert (S : (1 <= s <= 65536)%R) by (split; apply IZR_le; lia). clearbody s d. clear Hs.
  assert (Si : (bpow radix2 (-16) <= Rabs (/ s))%R).
  { rewrite Rabs_pos_eq by (left; apply Rinv_0_lt_compat; lra). change (bpow radix2 (-16)) with (/ 65536)%R. apply Rinv_le_contravar; lra. }
  assert (Pos : forall k, (0 <= bpow radix2 k)%R) by (intros; apply bpow_ge_0).
  destruct (rn_rel2 d) as [x1 [B1 E1]]; [destruct Hd as [Hd|Hd]; [left; exact Hd|right; eapply Rle_trans; [apply (pow_le (-40)); lia|exact Hd]]|].
  destruct (rn_rel2 (RN d / s)) as [x2 [B2 E2]].
  { rewrite E1. destruct Hd as [-> |Hd]; [left; unfold Rdiv; ring|right]. apply Rle_trans with (bpow radix2 (-40) * bpow radix2 (-1) * bpow radix2 (-16))%R.
    - rewrite <- !bpow_plus. apply pow_le. lia.
    - unfold Rdiv. repeat apply big_product; try assumption; try apply Rmult_le_pos; try apply Pos. rewrite <- half. apply near_one. exact B1. }
  destruct (rn_rel2 (RN (RN d / s) * (f * (1 + e)))) as [x3 [B3 E3]].
  { rewrite E2, E1. destruct Hd as [-> |Hd]; [left; unfold Rdiv; ring|right].
    apply Rle_trans with (bpow radix2 (-40) * bpow radix2 (-1) * bpow radix2 (-16) * bpow radix2 (-1) * (bpow radix2 (-40) * bpow radix2 (-1)))%R.
    - rewrite <- !bpow_plus. apply pow_le. lia.
    - unfold Rdiv. repeat apply big_product; try assumption; try (rewrite <- half; apply near_one; assumption); repeat (try apply Rmult_le_pos); try apply Pos. rewrite Rabs_pos_eq; [exact Hf|]. eapply Rle_trans; [apply (Pos (-40))|exact Hf]. }
  apply min_error with ((1 + x1) * (1 + x2) * (1 + e) * (1 + x3) - 1)%R; [apply four_errors; assumption|].
  rewrite E3, E2, E1. unfold Rdiv. ring.
Qed.

Section S.
Context {M : Mode} (cbrt : f32 -> f32) (pow : f32 -> f32 -> f32).
Let N : Num f32 := f32_num cbrt pow.
Existing Instance N.

(** ** One value *)
Definition rounded (black white : Z) (m v : R) : R := Rmin (RN (RN (RN (v - IZR black) / IZR (white - black)) * m)) 1.
Lemma rn_bound : forall r k, Z.abs k <= 2 ^ 24 -> (Rabs r <= IZR k)%R -> (Rabs (RN r) <= IZR k)%R.
Proof.
  intros r k Hk H. apply Rabs_le_inv in H. apply Rabs_le. split.
  - rewrite <- opp_IZR. apply RN_ge; [apply gf_int; lia|]. rewrite opp_IZR. lra.
  - apply RN_le; [apply gf_int; lia|]. lra.
Qed.
Lemma level_val : forall black white (m v : f32), is_finite v = true -> (Rabs (B2R v) <= 131072)%R -> 0 <= black < white -> white < 65536 ->
  is_finite m = true -> (0 <= B2R m <= IZR (2 ^ 41))%R ->
  let x := level_value (f32_of black) (f32_of white) m v in is_finite x = true /\ B2R x = rounded black white (B2R m) (B2R v).
Proof.
  intros black white m v Fv Bv Hb Hw Fm Bm x. unfold x, level_value, n1. cbn [n_min n_mul n_div n_sub n_of f32_num N].
  destruct (of_exact black ltac:(lia)) as [Fb [Vb _]]. destruct (of_exact white ltac:(lia)) as [Fw [Vw _]].
  assert (R1 : (0 <= IZR black <= 65535)%R) by (split; apply IZR_le; lia).
  assert (D0 : (Rabs (B2R v - IZR black) <= 262144)%R) by (apply Rabs_le_inv in Bv; apply Rabs_le; lra).
  destruct (sub_val v (f32_of black) Fv Fb) as [F1 V1]; [rewrite Vb; eapply Rle_trans; [exact D0|apply IZR_le; lia]|]. rewrite Vb in V1.
  assert (R2 : (1 <= IZR (white - black) <= 65535)%R) by (split; apply IZR_le; lia).
  destruct (sub_val (f32_of white) (f32_of black) Fw Fb) as [F2 V2].
  { rewrite Vw, Vb, <- minus_IZR, <- abs_IZR. apply IZR_le. lia. }
  rewrite Vw, Vb, <- minus_IZR, RN_id in V2 by (apply gf_int; lia).
  set (d := Bminus mode_NE v (f32_of black)) in *. set (s := Bminus mode_NE (f32_of white) (f32_of black)) in *.
  assert (D1 : (Rabs (B2R d) <= 262144)%R) by (rewrite V1; apply rn_bound; [lia|exact D0]).
  assert (D2 : (Rabs (B2R d / B2R s) <= 262144)%R).
  { rewrite V2. unfold Rdiv. rewrite Rabs_mult, (Rabs_pos_eq (/ _)) by (left; apply Rinv_0_lt_compat; lra).
    apply Rle_trans with (Rabs (B2R d) * 1)%R; [apply Rmult_le_compat_l; [apply Rabs_pos|rewrite <- Rinv_1; apply Rinv_le_contravar; lra]|lra]. }
  destruct (div_val d s F1) as [F3 V3]; [rewrite V2; lra|eapply Rle_trans; [exact D2|apply IZR_le; lia]|].
  set (q := Bdiv mode_NE d s) in *.
  assert (D3 : (Rabs (B2R q) <= 262144)%R) by (rewrite V3; apply rn_bound; [lia|exact D2]).
  destruct (mul_val q m F3 Fm) as [F4 V4].
  { rewrite Rabs_mult, (Rabs_pos_eq (B2R m)) by lra. apply Rle_trans with (262144 * IZR (2 ^ 41))%R; [apply Rmult_le_compat; try apply Rabs_pos; lra|]. rewrite <- mult_IZR. apply IZR_le. lia. }
  destruct (min_fin (Bmult mode_NE q m) F4) as [F5 V5]. split; [exact F5|]. rewrite V5, V4, V3, V1, V2. reflexivity.
Qed.
Lemma rounded_mono : forall black white m v v', black < white -> (0 <= m)%R -> (v <= v')%R -> (rounded black white m v <= rounded black white m v')%R.
Proof.
  intros black white m v v' Hb Hm Hv. unfold rounded. apply Rle_min_compat_r. apply RN_mono. apply Rmult_le_compat_r; [exact Hm|]. apply RN_mono.
  assert (0 < IZR (white - black))%R by (apply IZR_lt; lia). unfold Rdiv. apply Rmult_le_compat_r; [left; apply Rinv_0_lt_compat; assumption|]. apply RN_mono. lra.
Qed.

(** ** White balance *)
Lemma sensible_normal : forall x, sensible x -> f32_normal x = true.
Proof.
  intros x [F [L _]]. apply normal_big; [exact F|]. assert (0 < / IZR (2 ^ 20))%R by (apply Rinv_0_lt_compat; apply IZR_lt; lia). rewrite Rabs_pos_eq by lra.
  eapply Rle_trans; [apply (pow_le (-20)); lia|]. eapply Rle_trans; [|exact L]. right. reflexivity.
Qed.
Lemma ratio_range : forall x y : R, (/ IZR (2 ^ 20) <= x <= IZR (2 ^ 20))%R -> (/ IZR (2 ^ 20) <= y <= IZR (2 ^ 20))%R -> (bpow radix2 (-40) <= x / y <= bpow radix2 40)%R.
Proof.
  intros x y [X1 X2] [Y1 Y2]. assert (P : (0 < / IZR (2 ^ 20))%R) by (apply Rinv_0_lt_compat; apply IZR_lt; lia).
  assert (Yp : (0 < y)%R) by lra. assert (I1 : (/ IZR (2 ^ 20) <= / y)%R) by (apply Rinv_le_contravar; assumption).
  assert (I2 : (/ y <= IZR (2 ^ 20))%R) by (rewrite <- (Rinv_inv (IZR (2 ^ 20))); apply Rinv_le_contravar; assumption).
  change (bpow radix2 (-40)) with (/ IZR (2 ^ 40))%R. change (bpow radix2 40) with (IZR (2 ^ 40)). change (2 ^ 40) with (2 ^ 20 * 2 ^ 20). rewrite mult_IZR, Rinv_mult.
  unfold Rdiv. split; apply Rmult_le_compat; lra.
Qed.
Definition sensible_factor (m : f32) (f : R) : Prop :=
  is_finite m = true /\ (0 <= B2R m <= IZR (2 ^ 41))%R /\ (bpow radix2 (-40) <= f)%R /\ exists e, (Rabs e <= / 16777216)%R /\ B2R m = (f * (1 + e))%R.
Lemma one_factor : sensible_factor (f32_of 1) 1.
Proof.
  destruct (of_exact 1 ltac:(lia)) as [F [V _]]. split; [exact F|]. rewrite V. split; [split; apply IZR_le; lia|]. split; [change 1%R with (bpow radix2 0); apply bpow_le; lia|].
  exists 0%R. split; [rewrite Rabs_R0; lra|lra].
Qed.
Lemma ratio_factor : forall x y, sensible x -> sensible y -> sensible_factor (Bdiv mode_NE x y) (B2R x / B2R y).
Proof.
  intros x y [Fx Bx] [Fy By]. pose proof (ratio_range _ _ Bx By) as [R1 R2]. pose proof (bpow_gt_0 radix2 (-40)) as P0.
  assert (Py : (B2R y <> 0)%R) by (assert (0 < / IZR (2 ^ 20))%R by (apply Rinv_0_lt_compat; apply IZR_lt; lia); lra).
  destruct (div_val x y Fx Py) as [F V]; [rewrite Rabs_pos_eq by lra; eapply Rle_trans; [exact R2|]; change (bpow radix2 40) with (IZR (2 ^ 40)); apply IZR_le; lia|].
  destruct (rn_rel2 (B2R x / B2R y)) as [e [E1 E2]]; [right; rewrite Rabs_pos_eq by lra; eapply Rle_trans; [apply (pow_le (-40)); lia|exact R1]|].
  split; [exact F|]. rewrite V. split; [|split; [exact R1|exists e; auto]]. pose proof (Rabs_le_inv _ _ E1). rewrite E2. split; [nra|].
  apply Rle_trans with (bpow radix2 40 * 2)%R; [apply Rmult_le_compat; lra|]. change (bpow radix2 40) with (IZR (2 ^ 40)). rewrite <- mult_IZR. apply IZR_le. lia.
Qed.
Lemma factors : forall wb c, 0 <= c < 4 -> sensible_balance wb -> sensible_factor (at4 (level_mul wb) c) (factor wb c).
Proof.
  intros wb c Hc (S0 & S1 & S2 & S3).
  assert (K : forall x, sensible x -> sensible_factor (if negb (n_normal x) then n1 else n_div x (e1 wb)) match x with B754_nan | B754_zero _ => 1%R | _ => (B2R x / B2R (e1 wb))%R end).
  { intros x Sx. cbn [n_normal f32_num N]. rewrite (sensible_normal x Sx). cbn [negb n_div f32_num N].
    assert (Q : match x with B754_nan | B754_zero _ => 1%R | _ => (B2R x / B2R (e1 wb))%R end = (B2R x / B2R (e1 wb))%R).
    { pose proof (sensible_normal x Sx) as Nx. destruct x; try discriminate Nx; reflexivity. }
    rewrite Q. apply ratio_factor; assumption. }
  unfold factor, at4, level_mul, map4. cbn [e0 e1 e2 e3].
  destruct (Z.eqb_spec c 0); [apply K; assumption|]. destruct (Z.eqb_spec c 1); [apply K; assumption|]. destruct (Z.eqb_spec c 2); [apply K; assumption|].
  destruct S3 as [S3|[-> |[s ->]]]; [apply K; assumption| |]; cbn [n_normal f32_num N f32_normal negb]; apply one_factor.
Qed.
Lemma ones : forall c, 0 <= c < 4 -> at4 (level_mul (V4 n1 n1 n1 n1)) c = Bdiv mode_NE (f32_of 1) (f32_of 1).
Proof.
  intros c Hc. assert (S1 : sensible (f32_of 1)).
  { destruct (of_exact 1 ltac:(lia)) as [F [V _]]. split; [exact F|]. rewrite V. split; [|apply IZR_le; lia]. rewrite <- Rinv_1. apply Rinv_le_contravar; [lra|apply IZR_le; lia]. }
  unfold at4, level_mul, map4. cbn [e0 e1 e2 e3 n_normal f32_num N]. unfold n1. cbn [n_of f32_num N]. rewrite (sensible_normal _ S1). cbn [negb].
  destruct (c =? 0), (c =? 1), (c =? 2); reflexivity.
Qed.
Definition img_factor (img : rawimage f32) (c : Z) : R := if is_monochrome img then 1%R else factor (i_wb img) c.
Lemma img_factors : forall img c, 0 <= c < 4 -> is_monochrome img = true \/ sensible_balance (i_wb img) -> sensible_factor (at4 (level_mul (level_coeffs img)) c) (img_factor img c).
Proof.
  intros img c Hc H. unfold level_coeffs, img_factor. destruct (is_monochrome img).
  - rewrite ones by exact Hc. assert (S1 : sensible (f32_of 1)).
    { destruct (of_exact 1 ltac:(lia)) as [F [V _]]. split; [exact F|]. rewrite V. split; [|apply IZR_le; lia]. rewrite <- Rinv_1. apply Rinv_le_contravar; [lra|apply IZR_le; lia]. }
    pose proof (ratio_factor _ _ S1 S1) as Q. destruct (of_exact 1 ltac:(lia)) as [_ [V _]]. rewrite V in Q. replace (IZR 1 / IZR 1)%R with 1%R in Q by (change (IZR 1) with 1%R; lra). exact Q.
  - destruct H as [H|H]; [discriminate H|]. pose proof H as (S0 & S1 & S2 & _). cbn [n_normal f32_num N]. rewrite !sensible_normal by assumption. cbn [negb orb]. apply factors; assumption.
Qed.

(** ** Pictures *)
Lemma pixel_at : forall (b : opbuf f32) y x c, well_formed b -> ocolors b = 4 -> 0 <= y < oheight b -> 0 <= x < owidth b -> 0 <= c < 4 ->
  sample_at b y x c = nth_error (pixel b y x) (Z.to_nat c).
Proof.
  intros b y x c WF C4 Hy Hx Hc. unfold sample_at, pixel, run. rewrite C4. rewrite nth_first by lia. rewrite nth_skip. f_equal. nia.
Qed.
Lemma levels : forall img b, well_formed b -> ocolors b = 4 -> sensible_levels img -> is_monochrome img = true \/ sensible_balance (i_wb img) ->
  exists out, level_and_balance img b = Ok out /\ owidth out = owidth b /\ oheight out = oheight b /\ ocolors out = 4 /\
    forall y x c v, 0 <= y < oheight b -> 0 <= x < owidth b -> 0 <= c < 4 -> sample_at b y x c = Some v -> is_finite v = true -> (Rabs (B2R v) <= 131072)%R ->
      exists v' m, sample_at out y x c = Some v' /\ sensible_factor m (img_factor img c) /\ m = at4 (level_mul (level_coeffs img)) c /\
        v' = level_value (f32_of (at4 (i_blacks img) c)) (f32_of (at4 (i_whites img) c)) m v /\
        is_finite v' = true /\ B2R v' = rounded (at4 (i_blacks img) c) (at4 (i_whites img) c) (B2R m) (B2R v).
Proof.
  intros img b WF C4 HL HB. destruct (level_ok img b WF C4) as [out [E [W [O1 [O2 [O3 P]]]]]].
  exists out. do 4 (split; [assumption|]). intros y x c v Hy Hx Hc Hv Fv Bv. destruct (P y x Hy Hx) as [r [g [u [e [P1 P2]]]]]. cbv zeta in P2.
  rewrite (pixel_at b y x c WF C4 Hy Hx Hc), P1 in Hv. destruct (img_factors img c Hc HB) as [Fm [Bm [Bf Er]]]. set (m := at4 (level_mul (level_coeffs img)) c) in *.
  destruct (HL c Hc) as [L1 L2]. destruct (level_val _ _ m v Fv Bv L1 L2 Fm Bm) as [G1 G2].
  exists (level_value (f32_of (at4 (i_blacks img) c)) (f32_of (at4 (i_whites img) c)) m v), m. split; [|split; [split; [exact Fm|split; [exact Bm|split; assumption]]|split; [reflexivity|split; [reflexivity|split; assumption]]]].
  rewrite (pixel_at out y x c W O3) by (rewrite ?O1, ?O2; assumption). rewrite P2. clear P2 P. unfold m.
  assert (c = 0 \/ c = 1 \/ c = 2 \/ c = 3) as [-> |[-> |[-> | ->]]] by lia; cbn [Z.to_nat Pos.to_nat Pos.iter_op Nat.add nth_error] in *;
    change (Z.to_nat 1) with 1%nat in *; change (Z.to_nat 2) with 2%nat in *; change (Z.to_nat 3) with 3%nat in *; cbn [nth_error] in *; injection Hv as <-; reflexivity.
Qed.
Lemma levels_right : forall img b, well_formed b -> ocolors b = 4 -> sensible_levels img -> is_monochrome img = true \/ sensible_balance (i_wb img) ->
  exists out, level_and_balance img b = Ok out /\ owidth out = owidth b /\ oheight out = oheight b /\ ocolors out = 4 /\
    forall y x c v, 0 <= y < oheight b -> 0 <= x < owidth b -> 0 <= c < 4 -> sample_at b y x c = Some v -> ordinary img c v ->
      exists v', sample_at out y x c = Some v' /\ within v' (level_of img (if is_monochrome img then 1%R else factor (i_wb img) c) c (B2R v)).
Proof.
  intros img b WF C4 HL HB. destruct (levels img b WF C4 HL HB) as [out [E [O1 [O2 [O3 P]]]]]. exists out. do 4 (split; [assumption|]).
  intros y x c v Hy Hx Hc Hv [Fv [Bv Hd]]. destruct (P y x c v Hy Hx Hc Hv Fv Bv) as (v' & m & V1 & (_ & _ & Bf & e & He & Em) & _ & _ & Fv' & V2). exists v'. split; [exact V1|]. split; [exact Fv'|].
  destruct (HL c Hc) as [L1 L2]. unfold level_of. fold (img_factor img c). rewrite V2. unfold rounded. rewrite <- minus_IZR. change (IZR (2 ^ 21)) with 2097152%R. 
  apply rounded_error with e; [lia|lia|exact Bf|exact He|exact Em|exact Hd].
Qed.
(** Order *)
Lemma levels_ordered : forall img b, well_formed b -> ocolors b = 4 -> sensible_levels img -> is_monochrome img = true \/ sensible_balance (i_wb img) ->
  exists out, level_and_balance img b = Ok out /\
    forall y x y' x' c v1 v2, 0 <= y < oheight b -> 0 <= x < owidth b -> 0 <= y' < oheight b -> 0 <= x' < owidth b -> 0 <= c < 4 ->
      sample_at b y x c = Some v1 -> sample_at b y' x' c = Some v2 ->
      is_finite v1 = true -> is_finite v2 = true -> (Rabs (B2R v1) <= 131072)%R -> (Rabs (B2R v2) <= 131072)%R -> (B2R v1 <= B2R v2)%R ->
      exists w1 w2, sample_at out y x c = Some w1 /\ sample_at out y' x' c = Some w2 /\ (B2R w1 <= B2R w2)%R.
Proof.
  intros img b WF C4 HL HB. destruct (levels img b WF C4 HL HB) as [out [E [O1 [O2 [O3 P]]]]]. exists out. split; [exact E|].
  intros y x y' x' c v1 v2 Hy Hx Hy' Hx' Hc V1 V2 F1 F2 B1 B2 L.
  destruct (P y x c v1 Hy Hx Hc V1 F1 B1) as (w1 & m1 & W1 & (_ & Bm & _) & M1 & _ & _ & Q1). destruct (P y' x' c v2 Hy' Hx' Hc V2 F2 B2) as (w2 & m2 & W2 & _ & M2 & _ & _ & Q2).
  exists w1, w2. split; [exact W1|]. split; [exact W2|]. rewrite Q1, Q2, M2, <- M1. destruct (HL c Hc) as [L1 _]. apply rounded_mono; [lia|lra|exact L].
Qed.
(** White is one *)
Lemma white_green : forall img b, well_formed b -> ocolors b = 4 -> sensible_levels img -> is_monochrome img = true \/ sensible_balance (i_wb img) ->
  exists out, level_and_balance img b = Ok out /\
    forall y x v, 0 <= y < oheight b -> 0 <= x < owidth b -> sample_at b y x 1 = Some v -> is_finite v = true -> B2R v = IZR (at4 (i_whites img) 1) ->
      exists w, sample_at out y x 1 = Some w /\ B2R w = 1%R.
Proof.
  intros img b WF C4 HL HB. destruct (levels img b WF C4 HL HB) as [out [E [O1 [O2 [O3 P]]]]]. exists out. split; [exact E|].
  intros y x v Hy Hx Hv Fv Ev. destruct (HL 1 ltac:(lia)) as [L1 L2]. destruct (P y x 1 v Hy Hx ltac:(lia) Hv Fv) as (w & m & W1 & _ & M1 & _ & _ & Q1).
  { rewrite Ev, <- abs_IZR. apply IZR_le. lia. }
  exists w. split; [exact W1|]. rewrite Q1, Ev. unfold rounded. rewrite <- minus_IZR. rewrite (RN_id (IZR _)) by (apply gf_int; lia).
  assert (S : (0 < IZR (at4 (i_whites img) 1 - at4 (i_blacks img) 1))%R) by (apply IZR_lt; lia). unfold Rdiv. rewrite Rinv_r by lra.
  assert (Em : B2R m = 1%R).
  { assert (D : forall x, sensible x -> B2R (Bdiv mode_NE x x) = 1%R).
    { intros z [Fz [Bz Cz]]. assert (0 < / IZR (2 ^ 20))%R by (apply Rinv_0_lt_compat; apply IZR_lt; lia). assert (Z1 : (B2R z / B2R z = IZR 1)%R) by (unfold Rdiv; apply Rinv_r; lra).
      destruct (div_val z z Fz) as [_ Vz]; [lra|rewrite Z1, <- abs_IZR; apply IZR_le; lia|]. rewrite Vz, Z1. apply RN_id. apply gf_int. lia. }
    subst m. unfold level_coeffs. destruct (is_monochrome img).
    - rewrite ones by lia. apply D. destruct (of_exact 1 ltac:(lia)) as [F [V _]]. split; [exact F|]. rewrite V. split; [|apply IZR_le; lia]. rewrite <- Rinv_1. apply Rinv_le_contravar; [lra|apply IZR_le; lia].
    - destruct HB as [HB|HB]; [discriminate HB|]. pose proof HB as (S0 & S1 & S2 & _). cbn [n_normal f32_num N]. rewrite !sensible_normal by assumption. cbn [negb orb].
      unfold at4, level_mul, map4. cbn [Z.eqb e1 n_normal f32_num N]. rewrite sensible_normal by assumption. cbn [negb]. apply D. exact S1. }
  rewrite Em. change 1%R with (IZR 1). rewrite (RN_id (IZR 1)) by (apply gf_int; lia). rewrite Rmult_1_r, (RN_id (IZR 1)) by (apply gf_int; lia). apply Rmin_left. lra.
Qed.
End S.

(** An image and a picture of one pixel *)
Definition level_image : rawimage f32 :=
  mkimg "" "" "" "" 1 1 1 (V4 (f32_of 512) (f32_of 256) (f32_of 384) B754_nan) (V4 4095 4095 4095 4095) (V4 64 64 65 64)
    (V4 (V3 (f32_of 1) (f32_of 0) (f32_of 0)) (V3 (f32_of 0) (f32_of 1) (f32_of 0)) (V3 (f32_of 0) (f32_of 0) (f32_of 1)) (V3 (f32_of 0) (f32_of 0) (f32_of 0)))
    (Cfa.mkcfa "RGGB" 2 2 []) (V4 0 0 0 0) Normal [0].
Definition level_buffer : opbuf f32 := mkop 1 1 4 [f32_of 1000; f32_of 4095; f32_of 65; f32_of 0].
Lemma sensible_int : forall z, 1 <= z <= 2 ^ 20 -> sensible (f32_of z).
Proof.
  intros z H. destruct (of_exact z ltac:(lia)) as [F [V _]]. split; [exact F|]. rewrite V. split; [|apply IZR_le; lia].
  apply Rle_trans with 1%R; [|apply IZR_le; lia]. rewrite <- Rinv_1. apply Rinv_le_contravar; [lra|apply IZR_le; lia].
Qed.
Lemma level_image_ok : well_formed level_buffer /\ ocolors level_buffer = 4 /\ sensible_levels level_image /\ sensible_balance (i_wb level_image).
Proof.
  split; [repeat split; lia|]. split; [reflexivity|]. split.
  - intros c Hc. assert (c = 0 \/ c = 1 \/ c = 2 \/ c = 3) as [-> |[-> |[-> | ->]]] by lia; cbn; lia.
  - split; [apply sensible_int; lia|]. split; [apply sensible_int; lia|]. split; [apply sensible_int; lia|]. right. left. reflexivity.
Qed.
Lemma ordinary_int : forall z, 0 <= z <= 65535 -> ordinary level_image 0 (f32_of z).
Proof.
  intros z H. destruct (of_exact z ltac:(lia)) as [F [V _]]. split; [exact F|]. rewrite V. change (at4 (i_blacks level_image) 0) with 64. split; [rewrite <- abs_IZR; apply IZR_le; lia|].
  rewrite <- minus_IZR. destruct (Z.eq_dec z 64) as [-> |Hz]; [left; reflexivity|right]. rewrite <- abs_IZR. apply Rle_trans with 1%R; [|apply IZR_le; lia].
  rewrite <- Rinv_1. apply Rinv_le_contravar; [lra|apply IZR_le; lia].
Qed.
