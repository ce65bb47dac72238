(** Numbers of a file (C51): single precision. *)
From Coq Require Import String Ascii ZArith List Bool Reals Lia Lra.
From Flocq Require Import Core Relative BinarySingleNaN.
From Verif Require Import Base Num F32 Bytes Tiff Decoder Spec_Bits Spec_Tiff Spec_Meta P_Base P_Bits P_F32.
Import ListNotations.
Local Open Scope Z_scope.

Lemma rn_near : forall x r, is_finite x = true -> B2R x = RN r -> nearest x r.
Proof.
  intros x r F E. split; [exact F|]. intros y Fy. rewrite E.
  destruct (round_N_pt radix2 fe (fun z => negb (Z.even z)) r) as [_ H]. apply H. apply gf_B2R.
Qed.
Lemma int_near : forall z, Z.abs z <= 2 ^ 64 -> nearest (f32_of z) (IZR z).
Proof. intros z H. destruct (of_gen z H) as [F [E _]]. apply rn_near; assumption. Qed.

Lemma rn_rel : forall r, (IZR 1 / IZR (2 ^ 40) <= Rabs r)%R -> exists eps, (Rabs eps <= / IZR (2 ^ 24))%R /\ RN r = (r * (1 + eps))%R.
Proof.
  intros r H. destruct (relative_error_N_FLT_ex radix2 (-149) 24 ltac:(lia) (fun z => negb (Z.even z)) r) as [eps [E1 E2]].
  - apply Rle_trans with (IZR 1 / IZR (2 ^ 40))%R; [|exact H]. apply Rle_trans with (bpow radix2 (-40)); [apply bpow_le; lia|].
    right. cbn. unfold Rdiv. rewrite Rmult_1_l. reflexivity.
  - exists eps. split; [|exact E2]. eapply Rle_trans; [exact E1|]. cbn. lra.
Qed.
Lemma of_rel : forall z, Z.abs z <= 2 ^ 32 -> exists eps, (Rabs eps <= / IZR (2 ^ 24))%R /\ B2R (f32_of z) = (IZR z * (1 + eps))%R.
Proof.
  intros z H. destruct (of_gen z ltac:(lia)) as [_ [E _]]. rewrite E. destruct (Z.eq_dec z 0) as [->|N].
  - exists 0%R. split; [rewrite Rabs_R0; cbn; lra|]. rewrite RN_0. lra.
  - destruct (rn_rel (IZR z)) as [eps [E1 E2]]; [|exists eps; auto]. rewrite <- abs_IZR.
    apply Rle_trans with 1%R; [cbn; lra|]. apply IZR_le. lia.
Qed.
Lemma quotient_close : forall a b e1 e2 e3 : R, b <> 0%R -> (Rabs e1 <= / IZR (2 ^ 24))%R -> (Rabs e2 <= / IZR (2 ^ 24))%R -> (Rabs e3 <= / IZR (2 ^ 24))%R ->
  (Rabs ((a * (1 + e1)) / (b * (1 + e2)) * (1 + e3) - a / b) <= Rabs (a / b) / IZR (2 ^ 22))%R.
Proof.
  intros a b e1 e2 e3 Hb H1 H2 H3. change (IZR (2 ^ 24)) with 16777216%R in *. change (IZR (2 ^ 22)) with 4194304%R.
  apply Rabs_le_inv in H1. apply Rabs_le_inv in H2. apply Rabs_le_inv in H3.
  assert (N2 : (1 + e2 <> 0)%R) by lra.
  replace ((a * (1 + e1)) / (b * (1 + e2)) * (1 + e3) - a / b)%R with ((a / b) * ((1 + e1) * (1 + e3) / (1 + e2) - 1))%R by (field; auto).
  rewrite Rabs_mult. unfold Rdiv at 3. apply Rmult_le_compat_l; [apply Rabs_pos|].
  assert (P2 : (0 < 1 + e2)%R) by lra.
  set (u := (/ 16777216)%R) in *. assert (U : (0 < u < / 1000000)%R) by (unfold u; lra).
  assert (V : (/ 4194304 = 4 * u)%R) by (unfold u; field). rewrite V.
  assert (B1 : ((1 + e1) * (1 + e3) <= (1 + u) * (1 + u))%R) by (apply Rmult_le_compat; lra).
  assert (B2 : ((1 - u) * (1 - u) <= (1 + e1) * (1 + e3))%R) by (apply Rmult_le_compat; lra).
  apply Rabs_le. split.
  - apply Rmult_le_reg_r with (1 + e2)%R; [exact P2|]. replace (((1 + e1) * (1 + e3) / (1 + e2) - 1) * (1 + e2))%R with ((1 + e1) * (1 + e3) - (1 + e2))%R by (field; exact N2). nra.
  - apply Rmult_le_reg_r with (1 + e2)%R; [exact P2|]. replace (((1 + e1) * (1 + e3) / (1 + e2) - 1) * (1 + e2))%R with ((1 + e1) * (1 + e3) - (1 + e2))%R by (field; exact N2). nra.
Qed.
Lemma B2R_zero : forall x : f32, is_finite x = true -> B2R x = 0%R -> exists s, x = B754_zero s.
Proof.
  intros x F E. destruct x as [s|s| |s m e Bd]; try discriminate F; [exists s; reflexivity|]. exfalso. cbn in E. apply eq_0_F2R in E. destruct s; discriminate E.
Qed.
Lemma ratio_bounds : forall a b : Z, a <> 0 -> b <> 0 -> Z.abs a <= 2 ^ 32 -> Z.abs b <= 2 ^ 32 -> (/ IZR (2 ^ 32) <= Rabs (IZR a / IZR b) <= IZR (2 ^ 32))%R.
Proof.
  intros a b Ha Hb Ba Bb. unfold Rdiv. rewrite Rabs_mult, Rabs_inv, <- !abs_IZR.
  assert (A1 : (1 <= IZR (Z.abs a))%R) by (apply IZR_le; lia). assert (A2 : (IZR (Z.abs a) <= IZR (2 ^ 32))%R) by (apply IZR_le; lia).
  assert (B1 : (1 <= IZR (Z.abs b))%R) by (apply IZR_le; lia). assert (B2 : (IZR (Z.abs b) <= IZR (2 ^ 32))%R) by (apply IZR_le; lia).
  split.
  - apply Rle_trans with (1 * / IZR (2 ^ 32))%R; [lra|]. apply Rmult_le_compat; [lra|cbn; lra|exact A1|]. apply Rinv_le; lra.
  - apply Rle_trans with (IZR (2 ^ 32) * / 1)%R; [|lra]. apply Rmult_le_compat; [lra|left; apply Rinv_0_lt_compat; lra|exact A2|]. apply Rinv_le; lra.
Qed.
Lemma fraction_read : forall a b, Z.abs a <= 2 ^ 32 -> Z.abs b <= 2 ^ 32 -> reads_fraction (fdiv (f32_of a) (f32_of b)) a b.
Proof.
  intros a b Ha Hb. destruct (of_gen a ltac:(lia)) as [Fa [Ea Sa]]. destruct (of_gen b ltac:(lia)) as [Fb [Eb Sb]].
  destruct (of_rel a Ha) as [e1 [H1 V1]]. destruct (of_rel b Hb) as [e2 [H2 V2]].
  assert (N2 : (1 + e2 <> 0)%R) by (apply Rabs_le_inv in H2; change (IZR (2 ^ 24)) with 16777216%R in H2; lra).
  assert (Q : b <> 0 -> is_finite (fdiv (f32_of a) (f32_of b)) = true /\ B2R (fdiv (f32_of a) (f32_of b)) = RN (B2R (f32_of a) / B2R (f32_of b))).
  { intros Nb. assert (Rb : (IZR b <> 0)%R) by (apply not_0_IZR; exact Nb).
    apply div_val; [exact Fa|rewrite V2; apply Rmult_integral_contrapositive; auto|].
    destruct (Z.eq_dec a 0) as [->|Na]; [rewrite V1; unfold Rdiv; rewrite !Rmult_0_l, Rabs_R0; apply IZR_le; lia|].
    rewrite V1, V2. replace (IZR a * (1 + e1) / (IZR b * (1 + e2)))%R with ((IZR a / IZR b) * ((1 + e1) / (1 + e2)))%R by (field; auto).
    rewrite Rabs_mult. destruct (ratio_bounds a b Na Nb Ha Hb) as [_ R2].
    apply Rle_trans with (IZR (2 ^ 32) * 2)%R; [|rewrite <- mult_IZR; apply IZR_le; lia].
    apply Rmult_le_compat; [apply Rabs_pos|apply Rabs_pos|exact R2|].
    change (IZR (2 ^ 24)) with 16777216%R in *. apply Rabs_le_inv in H1. apply Rabs_le_inv in H2.
    rewrite Rabs_pos_eq by (apply Rle_mult_inv_pos; lra). apply Rmult_le_reg_r with (1 + e2)%R; [lra|]. unfold Rdiv. rewrite Rmult_assoc, Rinv_l, Rmult_1_r by exact N2. lra. }
  split; [|split].
  - intros Nb. destruct (Q Nb) as [F E]. split; [exact F|]. rewrite E, V1, V2. assert (Rb : (IZR b <> 0)%R) by (apply not_0_IZR; exact Nb).
    destruct (Z.eq_dec a 0) as [->|Na].
    { unfold Rdiv. rewrite !Rmult_0_l, RN_0, Rminus_0_r, !Rabs_R0. lra. }
    destruct (rn_rel (IZR a * (1 + e1) / (IZR b * (1 + e2)))) as [e3 [H3 ->]]; [|apply quotient_close; assumption].
    replace (IZR a * (1 + e1) / (IZR b * (1 + e2)))%R with ((IZR a / IZR b) * ((1 + e1) / (1 + e2)))%R by (field; auto).
    rewrite Rabs_mult. destruct (ratio_bounds a b Na Nb Ha Hb) as [R1 _]. change (IZR (2 ^ 24)) with 16777216%R in *. apply Rabs_le_inv in H1. apply Rabs_le_inv in H2.
    apply Rle_trans with (/ IZR (2 ^ 32) * / 2)%R; [cbn; lra|]. apply Rmult_le_compat; [cbn; lra|lra|exact R1|].
    rewrite Rabs_pos_eq by (apply Rle_mult_inv_pos; lra). apply Rmult_le_reg_r with (1 + e2)%R; [lra|]. unfold Rdiv. rewrite (Rmult_assoc (1 + e1)), Rinv_l, Rmult_1_r by exact N2. lra.
  - intros Nb Sa' Sb'. destruct (Q Nb) as [F E]. rewrite (of_val a Sa'), (of_val b Sb') in E. apply rn_near; assumption.
  - intros ->. rewrite of_0. destruct (a =? 0) eqn:A.
    + replace a with 0 by lia. rewrite of_0. reflexivity.
    + assert (NZ : forall s, f32_of a <> B754_zero s).
      { intros s Hs. rewrite Hs in V1. cbn in V1. symmetry in V1. apply Rmult_integral in V1. destruct V1 as [V1|V1]; [apply eq_IZR in V1; lia|].
        apply Rabs_le_inv in H1. change (IZR (2 ^ 24)) with 16777216%R in H1. lra. }
      unfold fdiv. destruct (f32_of a) as [s|s| |s m e Bd]; try discriminate Fa; [destruct (NZ s eq_refl)|]. cbn in Sa |- *. rewrite <- Sa. destruct s; reflexivity.
Qed.
