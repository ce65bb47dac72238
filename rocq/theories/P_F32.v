(** Facts about single precision numbers. *)
From Coq Require Import ZArith List Bool Reals Lia Lra.
From Flocq Require Import Core BinarySingleNaN.
From Verif Require Import Base Num F32.
Import ListNotations.
Local Open Scope Z_scope.

Notation fe := (SpecFloat.fexp 24 128).
Notation RN := (round radix2 fe ZnearestE).
Global Instance fe_valid : Valid_exp fe := fexp_correct 24 128 f32_prec.
Global Instance fe_mono : Monotone_exp fe := fexp_monotone 24 128.

Lemma fe_flt : fe = FLT_exp (-149) 24.
Proof. reflexivity. Qed.
Lemma RN_mono : forall x y : R, (x <= y)%R -> (RN x <= RN y)%R.
Proof. intros. apply round_le; [apply fe_valid|apply valid_rnd_N|assumption]. Qed.
Lemma RN_le : forall x y : R, generic_format radix2 fe y -> (x <= y)%R -> (RN x <= y)%R.
Proof. intros x y G H. apply round_le_generic; [apply fe_valid|apply valid_rnd_N|exact G|exact H]. Qed.
Lemma RN_ge : forall x y : R, generic_format radix2 fe y -> (y <= x)%R -> (y <= RN x)%R.
Proof. intros x y G H. apply round_ge_generic; [apply fe_valid|apply valid_rnd_N|exact G|exact H]. Qed.
Lemma RN_id : forall x : R, generic_format radix2 fe x -> RN x = x.
Proof. intros x G. apply round_generic; [apply valid_rnd_N|exact G]. Qed.
Lemma RN_0 : RN 0 = 0%R.
Proof. apply round_0. apply valid_rnd_N. Qed.

Lemma gf_int : forall z, Z.abs z <= 2 ^ 24 -> generic_format radix2 fe (IZR z).
Proof.
  intros z H. rewrite fe_flt. destruct (Z.eq_dec (Z.abs z) (2 ^ 24)) as [E|E].
  - assert (G : generic_format radix2 (FLT_exp (-149) 24) (bpow radix2 24)).
    { apply generic_format_bpow. unfold FLT_exp. lia. }
    change (bpow radix2 24) with (IZR (2 ^ 24)) in G. destruct (Z.abs_spec z) as [[_ A]|[_ A]]; rewrite A in E.
    + rewrite E. exact G.
    + replace z with (- (2 ^ 24)) by lia. rewrite opp_IZR. apply generic_format_opp. exact G.
  - apply generic_format_FLT. exists (Float radix2 z 0).
    + unfold F2R. cbn. lra.
    + cbn [Fnum]. change (radix2 ^ 24) with (2 ^ 24). lia.
    + cbn. lia.
Qed.
Lemma gf_B2R : forall x : f32, generic_format radix2 fe (B2R x).
Proof. intros. apply generic_format_B2R. Qed.
Lemma big_bound : forall x : R, (Rabs x <= IZR (2 ^ 64))%R -> Rlt_bool (Rabs (RN x)) (bpow radix2 128) = true.
Proof.
  intros x H. apply Rlt_bool_true. apply Rle_lt_trans with (IZR (2 ^ 64)).
  - apply abs_round_le_generic; [apply fe_valid|apply valid_rnd_N| |exact H].
    change (IZR (2 ^ 64)) with (bpow radix2 64). rewrite fe_flt. apply generic_format_bpow. unfold FLT_exp. lia.
  - change (bpow radix2 128) with (IZR (2 ^ 128)). apply IZR_lt. reflexivity.
Qed.

(** ** Integers *)
Lemma of_gen : forall z, Z.abs z <= 2 ^ 64 -> is_finite (f32_of z) = true /\ B2R (f32_of z) = RN (IZR z) /\ Bsign (f32_of z) = (z <? 0).
Proof.
  intros z H. pose proof (binary_normalize_correct 24 128 f32_prec f32_emax mode_NE z 0 false) as C. cbn zeta in C.
  assert (E : F2R (Float radix2 z 0) = IZR z) by (unfold F2R; cbn; lra). rewrite E in C. cbn [round_mode] in C.
  rewrite big_bound in C by (rewrite <- abs_IZR; apply IZR_le; exact H). destruct C as [C1 [C2 C3]].
  split; [exact C2|]. split; [exact C1|]. unfold f32_of. rewrite C3. destruct (Z.ltb_spec z 0) as [L|L].
  - rewrite Rcompare_Lt; [reflexivity|]. apply IZR_lt. exact L.
  - destruct (Z.eq_dec z 0) as [->|N]; [rewrite Rcompare_Eq; reflexivity|]. rewrite Rcompare_Gt; [reflexivity|]. apply IZR_lt. lia.
Qed.
Lemma of_fin : forall z, Z.abs z <= 2 ^ 64 -> is_finite (f32_of z) = true.
Proof. intros. apply of_gen. assumption. Qed.
Lemma of_exact : forall z, Z.abs z <= 2 ^ 24 -> is_finite (f32_of z) = true /\ B2R (f32_of z) = IZR z /\ Bsign (f32_of z) = (z <? 0).
Proof.
  intros z H. destruct (of_gen z) as [A [B C]]; [change (2 ^ 64) with 18446744073709551616; change (2 ^ 24) with 16777216 in H; lia|].
  rewrite RN_id in B by (apply gf_int; exact H). auto.
Qed.
Lemma of_val : forall z, Z.abs z <= 2 ^ 24 -> B2R (f32_of z) = IZR z.
Proof. intros. apply of_exact. assumption. Qed.
Lemma of_0 : f32_of 0 = B754_zero false.
Proof. reflexivity. Qed.

(** ** Truncation *)
Lemma trunc_val : forall x : f32, Btrunc x = Ztrunc (B2R x).
Proof.
  intros x. apply eq_IZR. rewrite Btrunc_correct by apply f32_emax. unfold round, F2R, scaled_mantissa, cexp, FIX_exp. cbn. rewrite !Rmult_1_r. reflexivity.
Qed.
Lemma to_range : forall lo hi x, lo <= 0 -> 0 <= hi -> lo <= f32_to lo hi x <= hi.
Proof. intros lo hi x L H. destruct x as [s|[|]| |s m e B]; cbn [f32_to]; lia. Qed.
Lemma to_val : forall lo hi x, is_finite x = true -> lo <= Ztrunc (B2R x) <= hi -> f32_to lo hi x = Ztrunc (B2R x).
Proof.
  intros lo hi x F H. rewrite <- trunc_val in *. destruct x; try discriminate; cbn [f32_to]; lia.
Qed.

(** ** Comparison *)
Lemma lt_fin : forall x y : f32, is_finite x = true -> is_finite y = true -> f32_lt x y = true <-> (B2R x < B2R y)%R.
Proof. intros x y Fx Fy. unfold f32_lt. rewrite Bltb_correct by assumption. destruct (Rlt_bool_spec (B2R x) (B2R y)); split; intros; (discriminate || lra || reflexivity). Qed.
Lemma le_fin : forall x y : f32, is_finite x = true -> is_finite y = true -> f32_le x y = true <-> (B2R x <= B2R y)%R.
Proof. intros x y Fx Fy. unfold f32_le. rewrite Bleb_correct by assumption. destruct (Rle_bool_spec (B2R x) (B2R y)); split; intros; (discriminate || lra || reflexivity). Qed.
Lemma lt_fin_false : forall x y : f32, is_finite x = true -> is_finite y = true -> f32_lt x y = false <-> (B2R y <= B2R x)%R.
Proof. intros x y Fx Fy. rewrite <- not_true_iff_false, lt_fin by assumption. split; lra. Qed.

(** ** Arithmetic *)
Lemma div_val : forall x y : f32, is_finite x = true -> B2R y <> 0%R -> (Rabs (B2R x / B2R y) <= IZR (2 ^ 64))%R ->
  is_finite (Bdiv mode_NE x y) = true /\ B2R (Bdiv mode_NE x y) = RN (B2R x / B2R y).
Proof.
  intros x y F H B. pose proof (Bdiv_correct 24 128 _ _ mode_NE x y H) as C. cbn [round_mode] in C. rewrite big_bound in C by exact B.
  destruct C as [C1 [C2 _]]. split; [congruence|exact C1].
Qed.
Lemma mul_val : forall x y : f32, is_finite x = true -> is_finite y = true -> (Rabs (B2R x * B2R y) <= IZR (2 ^ 64))%R ->
  is_finite (Bmult mode_NE x y) = true /\ B2R (Bmult mode_NE x y) = RN (B2R x * B2R y).
Proof.
  intros x y F F' B. pose proof (Bmult_correct 24 128 _ _ mode_NE x y) as C. cbn [round_mode] in C. rewrite big_bound in C by exact B.
  destruct C as [C1 [C2 _]]. rewrite F, F' in C2. split; [exact C2|exact C1].
Qed.
Lemma add_val : forall x y : f32, is_finite x = true -> is_finite y = true -> (Rabs (B2R x + B2R y) <= IZR (2 ^ 64))%R ->
  is_finite (Bplus mode_NE x y) = true /\ B2R (Bplus mode_NE x y) = RN (B2R x + B2R y).
Proof.
  intros x y F F' B. pose proof (Bplus_correct 24 128 _ _ mode_NE x y F F') as C. cbn [round_mode] in C. rewrite big_bound in C by exact B.
  destruct C as [C1 [C2 _]]. split; [exact C2|exact C1].
Qed.
Lemma sub_val : forall x y : f32, is_finite x = true -> is_finite y = true -> (Rabs (B2R x - B2R y) <= IZR (2 ^ 64))%R ->
  is_finite (Bminus mode_NE x y) = true /\ B2R (Bminus mode_NE x y) = RN (B2R x - B2R y).
Proof.
  intros x y F F' B. pose proof (Bminus_correct 24 128 _ _ mode_NE x y F F') as C. cbn [round_mode] in C. rewrite big_bound in C by exact B.
  destruct C as [C1 [C2 _]]. split; [exact C2|exact C1].
Qed.
