(** Proofs about the size of a reduced picture. *)
From Coq Require Import ZArith List Bool Reals Lia Lra.
From Flocq Require Import Core BinarySingleNaN Relative.
From Verif Require Import Base Num F32 Demosaic P_F32.
Import ListNotations.
Local Open Scope R_scope.

Notation u := (/ 2 * bpow radix2 (-24 + 1)).
Lemma u_val : u = / 16777216.
Proof. cbn. lra. Qed.
Lemma rel : forall x, / 16777216 <= x -> exists e, Rabs e <= / 16777216 /\ RN x = x * (1 + e).
Proof.
  intros x H. destruct (relative_error_N_FLT_ex radix2 (-149) 24 eq_refl (fun x => negb (Z.even x)) x) as [e [E1 E2]].
  - rewrite Rabs_pos_eq by lra. apply Rle_trans with (bpow radix2 (-24)); [apply bpow_le; lia|]. cbn. lra.
  - exists e. rewrite <- u_val. split; [exact E1|exact E2].
Qed.
Lemma rel_bounds : forall x, / 16777216 <= x -> x * (1 - / 16777216) <= RN x <= x * (1 + / 16777216).
Proof.
  intros x H. destruct (rel x H) as [e [E1 E2]]. rewrite E2. apply Rabs_le_inv in E1. split; apply Rmult_le_compat_l; lra.
Qed.
Lemma RN_below : forall s x, generic_format radix2 fe s -> RN x < s -> x < s.
Proof. intros s x G H. apply Rnot_le_lt. intros H'. apply (RN_ge x s G) in H'. lra. Qed.
Lemma one_gf : generic_format radix2 fe 1.
Proof. apply (gf_int 1). cbn. lia. Qed.
Lemma trunc_le : forall x z, x < IZR z + 1 -> 0 <= x -> (Ztrunc x <= z)%Z.
Proof. intros x z H H0. rewrite Ztrunc_floor by exact H0. apply Z.lt_succ_r. apply lt_IZR. rewrite succ_IZR. pose proof (Zfloor_lb x). lra. Qed.
Lemma trunc_bounds : forall x, 0 <= x -> IZR (Ztrunc x) <= x < IZR (Ztrunc x) + 1 /\ (0 <= Ztrunc x)%Z.
Proof.
  intros x H. rewrite Ztrunc_floor by exact H. split; [split; [apply Zfloor_lb|apply Zfloor_ub]|].
  apply Zfloor_lub. exact H.
Qed.

(** The quotient of two sizes. *)
Definition size (n : Z) : Prop := (0 < n < 2 ^ 23)%Z.
Lemma size_R : forall n, size n -> 1 <= IZR n <= 8388607.
Proof. intros n H. unfold size in H. change (2 ^ 23)%Z with 8388608%Z in H. split; apply IZR_le; lia. Qed.
Lemma size_of : forall n, size n -> is_finite (f32_of n) = true /\ B2R (f32_of n) = IZR n.
Proof.
  intros n H. destruct (of_exact n) as [A [B _]]; [|auto]. unfold size in H. change (2 ^ 24)%Z with 16777216%Z. change (2 ^ 23)%Z with 8388608%Z in H. lia.
Qed.
Lemma quot_bounds : forall a b, size a -> size b -> / 8388607 <= IZR a / IZR b <= 8388607.
Proof.
  intros a b Ha Hb. apply size_R in Ha, Hb. split.
  - apply Rmult_le_reg_r with (IZR b * 8388607); [lra|]. field_simplify; [|lra]. lra.
  - apply Rmult_le_reg_r with (IZR b); [lra|]. field_simplify; [|lra]. nra.
Qed.
Lemma quot_val : forall a b, size a -> size b ->
  is_finite (Bdiv mode_NE (f32_of a) (f32_of b)) = true /\ B2R (Bdiv mode_NE (f32_of a) (f32_of b)) = RN (IZR a / IZR b) /\
  / 8388608 <= RN (IZR a / IZR b) <= 8388608.
Proof.
  intros a b Ha Hb. destruct (size_of a Ha) as [Fa Va]. destruct (size_of b Hb) as [Fb Vb]. pose proof (quot_bounds a b Ha Hb) as Q. pose proof (size_R b Hb).
  destruct (div_val (f32_of a) (f32_of b)) as [D1 D2].
  - exact Fa.
  - rewrite Vb. lra.
  - rewrite Va, Vb. rewrite Rabs_pos_eq by lra. change (IZR (2 ^ 64)) with 18446744073709551616. lra.
  - rewrite Va, Vb in D2. split; [exact D1|]. split; [exact D2|]. pose proof (rel_bounds (IZR a / IZR b) ltac:(lra)). lra.
Qed.

(** The other side: [a] divided by the (rounded) factor [s]. *)
Lemma side_val : forall a (s : f32), size a -> is_finite s = true -> / 8388608 <= B2R s <= 8388608 ->
  let q := Bdiv mode_NE (f32_of a) s in
  is_finite q = true /\ B2R q = RN (IZR a / B2R s) /\ / 8388608 <= IZR a / B2R s <= 70368744177664 /\
  f32_to 0 (2 ^ 64 - 1) q = Ztrunc (RN (IZR a / B2R s)) /\
  0 <= RN (IZR a / B2R s).
Proof.
  intros a s Ha Fs Hs q. destruct (size_of a Ha) as [Fa Va]. pose proof (size_R a Ha) as Ra.
  assert (Q : / 8388608 <= IZR a / B2R s <= 70368744177664).
  { split.
    - apply Rmult_le_reg_r with (B2R s * 8388608); [lra|]. field_simplify; [|lra]. lra.
    - apply Rmult_le_reg_r with (B2R s); [lra|]. unfold Rdiv. rewrite Rmult_assoc, Rinv_l by lra. lra. }
  destruct (div_val (f32_of a) s) as [D1 D2].
  - exact Fa.
  - lra.
  - rewrite Va, Rabs_pos_eq by lra. change (IZR (2 ^ 64)) with 18446744073709551616. lra.
  - rewrite Va in D2. split; [exact D1|]. split; [exact D2|]. split; [exact Q|].
    pose proof (rel_bounds (IZR a / B2R s) ltac:(lra)) as RB.
    assert (P : 0 <= RN (IZR a / B2R s)) by lra. split; [|exact P].
    unfold q. rewrite to_val; [rewrite D2; reflexivity|exact D1|]. rewrite D2. pose proof (trunc_bounds _ P) as [T1 T2].
    split; [exact T2|]. apply le_IZR. change (IZR (2 ^ 64 - 1)) with 18446744073709551615. lra.
Qed.

(** Away from the bound: the factor of the other side is larger. *)
Lemma other_strict : forall a m (s : f32), size a -> size m -> is_finite s = true -> B2R s <= 8388608 -> RN (IZR a / IZR m) < B2R s ->
  (Ztrunc (RN (IZR a / B2R s)) <= m)%Z.
Proof.
  intros a m s Ha Hm Fs Hs L. pose proof (size_R a Ha). pose proof (size_R m Hm). pose proof (quot_val a m Ha Hm) as [_ [_ Q]].
  assert (L0 : / 8388608 <= B2R s) by lra.
  apply RN_below in L; [|apply gf_B2R].
  assert (K : IZR a / B2R s <= IZR m).
  { apply Rmult_le_reg_r with (B2R s); [lra|]. field_simplify; [|lra]. apply Rmult_lt_compat_r with (r := IZR m) in L; [|lra]. unfold Rdiv in L. rewrite Rmult_assoc, Rinv_l in L by lra. lra. }
  apply RN_le in K; [|apply gf_int; unfold size in Hm; change (2 ^ 24)%Z with 16777216%Z; change (2 ^ 23)%Z with 8388608%Z in Hm; lia].
  apply trunc_le; [lra|]. pose proof (side_val a s Ha Fs ltac:(lra)) as [_ [_ [_ [_ P]]]]. exact P.
Qed.
(** With rounding against us: the factor is at least the rounded one. *)
Lemma other_weak : forall a m (s : f32), size a -> size m -> is_finite s = true -> B2R s <= 8388608 -> RN (IZR a / IZR m) <= B2R s ->
  (Ztrunc (RN (IZR a / B2R s)) <= m)%Z.
Proof.
  intros a m s Ha Hm Fs Hs L. pose proof (size_R a Ha). pose proof (size_R m Hm) as Rm. pose proof (quot_val a m Ha Hm) as [_ [_ Q]].
  pose proof (quot_bounds a m Ha Hm) as QB.
  pose proof (rel_bounds (IZR a / IZR m) ltac:(lra)) as RB. pose proof (side_val a s Ha Fs ltac:(lra)) as [_ [_ [SB [_ P]]]].
  pose proof (rel_bounds (IZR a / B2R s) ltac:(lra)) as RB2.
  apply trunc_le; [|exact P].
  assert (K : IZR a / B2R s <= IZR m / (1 - / 16777216)).
  { assert (L2 : IZR a / IZR m * (1 - / 16777216) <= B2R s) by lra.
    apply Rmult_le_reg_r with (B2R s * (1 - / 16777216)); [apply Rmult_lt_0_compat; lra|].
    replace (IZR a / B2R s * (B2R s * (1 - / 16777216))) with (IZR a * (1 - / 16777216)) by (field; lra).
    replace (IZR m / (1 - / 16777216) * (B2R s * (1 - / 16777216))) with (IZR m * B2R s) by (field; lra).
    apply Rmult_le_compat_l with (r := IZR m) in L2; [|lra].
    replace (IZR m * (IZR a / IZR m * (1 - / 16777216))) with (IZR a * (1 - / 16777216)) in L2 by (field; lra). exact L2. }
  apply Rle_lt_trans with (IZR m / (1 - / 16777216) * (1 + / 16777216)).
  - apply Rle_trans with (IZR a / B2R s * (1 + / 16777216)); [apply RB2|]. apply Rmult_le_compat_r; lra.
  - replace (IZR m / (1 - / 16777216) * (1 + / 16777216)) with (IZR m * (16777217 / 16777215)) by field. lra.
Qed.
Lemma never_more : forall a (s : f32), size a -> is_finite s = true -> 1 < B2R s <= 8388608 -> (Ztrunc (RN (IZR a / B2R s)) <= a)%Z.
Proof.
  intros a s Ha Fs Hs. pose proof (size_R a Ha). pose proof (side_val a s Ha Fs ltac:(lra)) as [_ [_ [_ [_ P]]]].
  apply trunc_le; [|exact P].
  assert (K : IZR a / B2R s <= IZR a) by (apply Rmult_le_reg_r with (B2R s); [lra|]; field_simplify; [|lra]; nra).
  apply RN_le in K; [lra|]. apply gf_int. unfold size in Ha. change (2 ^ 24)%Z with 16777216%Z. change (2 ^ 23)%Z with 8388608%Z in Ha. lia.
Qed.
Lemma more_than_one : forall a m, size a -> size m -> 1 < RN (IZR a / IZR m) -> (m < a)%Z.
Proof.
  intros a m Ha Hm L. pose proof (size_R a Ha). pose proof (size_R m Hm). apply lt_IZR. apply Rnot_le_lt. intros K.
  assert (K2 : IZR a / IZR m <= 1) by (apply Rmult_le_reg_r with (IZR m); [lra|]; field_simplify; lra).
  apply RN_le in K2; [lra|apply one_gf].
Qed.
Lemma at_most_one : forall a m, size a -> size m -> RN (IZR a / IZR m) <= 1 -> (a <= m)%Z.
Proof.
  intros a m Ha Hm L. pose proof (size_R a Ha). pose proof (size_R m Hm) as Rm. apply Z.nlt_ge. intros K.
  assert (K2 : 1 + / 8388608 <= IZR a / IZR m).
  { apply Rmult_le_reg_r with (IZR m); [lra|]. assert (IZR m + 1 <= IZR a) by (rewrite <- plus_IZR; apply IZR_le; lia). unfold Rdiv. rewrite Rmult_assoc, Rinv_l by lra. lra. }
  assert (G : generic_format radix2 fe (1 + / 8388608)).
  { rewrite fe_flt. apply generic_format_FLT. exists (Float radix2 8388609 (-23)); [unfold F2R; cbn; lra|cbn; lia|cbn; lia]. }
  apply (RN_ge _ _ G) in K2. lra.
Qed.

(** The ratio of the sides. *)
Lemma ratio : forall a b m, size a -> size b -> size m -> (Z.of_nat 0 < 1)%Z ->
  let s := RN (IZR b / IZR m) in IZR a / s <= 4194304 -> Rabs (IZR (Ztrunc (RN (IZR a / s))) * IZR b - IZR a * IZR m) < 2 * IZR b.
Proof.
  intros a b m Ha Hb Hm _ s B. pose proof (size_R a Ha) as Ra. pose proof (size_R b Hb) as Rb. pose proof (size_R m Hm) as Rm.
  pose proof (quot_bounds b m Hb Hm) as QB. destruct (rel (IZR b / IZR m) ltac:(lra)) as [e [E1 E2]]. fold s in E2.
  assert (Ps : 0 < s) by (rewrite E2; apply Rabs_le_inv in E1; apply Rmult_lt_0_compat; lra).
  pose proof (quot_val b m Hb Hm) as [_ [_ Q]]. fold s in Q.
  assert (LB : / 8388608 <= IZR a / s) by (apply Rmult_le_reg_r with (s * 8388608); [lra|]; field_simplify; [|lra]; lra).
  destruct (rel (IZR a / s) ltac:(lra)) as [e' [E1' E2']].
  set (v := RN (IZR a / s)) in *. assert (Pv : 0 <= v) by (rewrite E2'; apply Rabs_le_inv in E1'; apply Rmult_le_pos; lra).
  pose proof (trunc_bounds v Pv) as [T _]. apply Rabs_le_inv in E1, E1'.
  (* v * b = a * m * (1 + e') / (1 + e) *)
  assert (V : v * (1 + e) * IZR b = IZR a * IZR m * (1 + e')).
  { rewrite E2', E2. field. split; [lra|]. split; lra. }
  assert (VB : v <= 4194304 * (1 + / 16777216)) by (rewrite E2'; apply Rmult_le_compat; lra).
  (* the distance between v * b and a * m *)
  assert (AM : IZR a * IZR m * (1 + e') - IZR a * IZR m = v * (1 + e) * IZR b - IZR a * IZR m) by lra.
  set (X := IZR a * IZR m) in *.
  assert (X0 : 0 < X) by (apply Rmult_lt_0_compat; lra).
  assert (XB : X <= v * IZR b * (1 + / 8000000)).
  { assert (X * (1 - / 16777216) <= v * IZR b * (1 + / 16777216)) by nra. lra. }
  assert (D : Rabs (v * IZR b - X) < IZR b).
  { replace (v * IZR b - X) with (X * e' - v * IZR b * e) by lra.
    apply Rabs_lt. set (Y := v * IZR b) in *. assert (Y0 : 0 <= Y) by (apply Rmult_le_pos; lra).
    assert (YB : Y <= 4194304 * (1 + / 16777216) * IZR b) by (apply Rmult_le_compat_r; lra).
    split; nra. }
  apply Rabs_def2 in D. apply Rabs_lt.
  assert (IZR (Ztrunc v) * IZR b <= v * IZR b) by (apply Rmult_le_compat_r; lra).
  assert (v * IZR b < (IZR (Ztrunc v) + 1) * IZR b) by (apply Rmult_lt_compat_r; lra).
  split; lra.
Qed.
