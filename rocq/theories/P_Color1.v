(** Clipping of single precision numbers to a range of integers. *)
From Coq Require Import ZArith List Bool Reals Lia Lra.
From Flocq Require Import Core BinarySingleNaN Mult_error.
From Verif Require Import Base Num F32 P_F32.
Import ListNotations.
Local Open Scope Z_scope.

(** The infinities as numbers. *)
Definition big : R := IZR (2 ^ 128).
Definition eR (x : f32) : R := match x with B754_infinity true => (- big)%R | B754_infinity false => big | _ => B2R x end.
Lemma big_val : big = bpow radix2 128.
Proof. reflexivity. Qed.
Lemma big_pos : (65536 < big)%R.
Proof. unfold big. apply IZR_lt. reflexivity. Qed.
Lemma eR_fin : forall x, is_finite x = true -> eR x = B2R x.
Proof. intros [s|[|]| |s m e B] H; try discriminate; reflexivity. Qed.
Lemma fin_bound : forall x : f32, is_finite x = true -> (- big < B2R x < big)%R.
Proof.
  intros x F. pose proof (abs_B2R_lt_emax 24 128 x) as H. rewrite <- big_val in H. apply Rabs_lt_inv in H. exact H.
Qed.
Lemma eR_bound : forall x, (- big <= eR x <= big)%R.
Proof.
  intros x. pose proof big_pos. destruct (is_finite x) eqn:F.
  - rewrite eR_fin by exact F. pose proof (fin_bound x F). lra.
  - destruct x as [|[|]| |]; try discriminate; cbn; lra.
Qed.
Lemma eR_range : forall x, is_nan x = false -> (- big < eR x < big)%R -> is_finite x = true.
Proof. intros [s|[|]| |s m e B] N H; try discriminate; try reflexivity; cbn in H; lra. Qed.
Lemma big_format : generic_format radix2 fe big.
Proof. rewrite big_val, fe_flt. apply generic_format_bpow. unfold FLT_exp. lia. Qed.

Lemma lt_e : forall x y, is_nan x = false -> is_nan y = false -> f32_lt x y = true <-> (eR x < eR y)%R.
Proof.
  intros x y Nx Ny. destruct (is_finite x) eqn:Fx; [destruct (is_finite y) eqn:Fy|].
  - rewrite !eR_fin by assumption. apply lt_fin; assumption.
  - rewrite (eR_fin x Fx). pose proof (fin_bound x Fx). destruct y as [|[|]| |]; try discriminate.
    + cbn [eR]. split; [|lra]. destruct x as [|[|]| |[]]; discriminate.
    + cbn [eR]. split; [lra|]. destruct x as [|[|]| |[]]; try discriminate; reflexivity.
  - pose proof big_pos. destruct (is_finite y) eqn:Fy.
    + rewrite (eR_fin y Fy). pose proof (fin_bound y Fy). destruct x as [|[|]| |]; try discriminate; cbn [eR].
      * split; [lra|]. destruct y as [|[|]| |[]]; try discriminate; reflexivity.
      * split; [|lra]. destruct y as [|[|]| |[]]; discriminate.
    + destruct x as [|[|]| |]; try discriminate; destruct y as [|[|]| |]; try discriminate; cbn [eR]; cbn; split; intros; (discriminate || lra || reflexivity).
Qed.
Lemma lt_e_false : forall x y, is_nan x = false -> is_nan y = false -> f32_lt x y = false <-> (eR y <= eR x)%R.
Proof. intros x y Nx Ny. rewrite <- not_true_iff_false, lt_e by assumption. split; lra. Qed.
Lemma max_e : forall x y, is_nan x = false -> is_nan y = false -> is_nan (f32_max x y) = false /\ eR (f32_max x y) = Rmax (eR x) (eR y).
Proof.
  intros x y Nx Ny. unfold f32_max. rewrite Nx, Ny. change (Bltb x y) with (f32_lt x y). destruct (f32_lt x y) eqn:E.
  - apply lt_e in E; try assumption. split; [exact Ny|]. rewrite Rmax_right by lra. reflexivity.
  - apply lt_e_false in E; try assumption. split; [exact Nx|]. rewrite Rmax_left by lra. reflexivity.
Qed.
Lemma min_e : forall x y, is_nan x = false -> is_nan y = false -> is_nan (f32_min x y) = false /\ eR (f32_min x y) = Rmin (eR x) (eR y).
Proof.
  intros x y Nx Ny. unfold f32_min. rewrite Nx, Ny. change (Bltb y x) with (f32_lt y x). destruct (f32_lt y x) eqn:E.
  - apply lt_e in E; try assumption. split; [exact Ny|]. rewrite Rmin_right by lra. reflexivity.
  - apply lt_e_false in E; try assumption. split; [exact Nx|]. rewrite Rmin_left by lra. reflexivity.
Qed.
Definition clip (r : R) : R := Rmax (- big) (Rmin r big).
Lemma clip_id : forall r, (- big <= r <= big)%R -> clip r = r.
Proof. intros r H. unfold clip. rewrite Rmin_left by lra. rewrite Rmax_right by lra. reflexivity. Qed.
Lemma clip_hi : forall r, (big <= r)%R -> clip r = big.
Proof. intros r H. pose proof big_pos. unfold clip. rewrite Rmin_right by lra. rewrite Rmax_right by lra. reflexivity. Qed.
Lemma clip_lo : forall r, (r <= - big)%R -> clip r = (- big)%R.
Proof. intros r H. pose proof big_pos. unfold clip. rewrite Rmin_left by lra. rewrite Rmax_left by lra. reflexivity. Qed.

Definition small (k : Z) : Prop := 1 <= k <= 65536.
Lemma small_val : forall k, 0 <= k <= 65536 -> is_finite (f32_of k) = true /\ is_nan (f32_of k) = false /\ B2R (f32_of k) = IZR k /\ eR (f32_of k) = IZR k /\ Bsign (f32_of k) = false.
Proof.
  intros k H. destruct (of_exact k) as [F [V S]]; [change (2 ^ 24) with 16777216; lia|].
  split; [exact F|]. split; [destruct (f32_of k); (discriminate || reflexivity)|]. split; [exact V|]. split; [rewrite eR_fin by exact F; exact V|].
  rewrite S. lia.
Qed.
Lemma mul_e : forall x k, is_nan x = false -> small k ->
  is_nan (Bmult mode_NE x (f32_of k)) = false /\ eR (Bmult mode_NE x (f32_of k)) = clip (RN (eR x * IZR k)).
Proof.
  intros x k Nx Hk. unfold small in Hk. destruct (small_val k) as [Fk [Nk [Vk [Ek Sk]]]]; [lia|].
  assert (K1 : (1 <= IZR k)%R) by (apply IZR_le; lia). pose proof big_pos as BP.
  destruct (is_finite x) eqn:Fx.
  - pose proof (Bmult_correct 24 128 _ _ mode_NE x (f32_of k)) as C. cbn [round_mode] in C. rewrite Vk in C. rewrite <- big_val in C.
    rewrite (eR_fin x Fx). destruct (Rlt_bool_spec (Rabs (RN (B2R x * IZR k))) big) as [L|L].
    + destruct C as [C1 [C2 C3]]. rewrite Fx, Fk in C2. cbn [andb] in C2. split; [destruct (Bmult mode_NE x (f32_of k)); (discriminate || reflexivity)|].
      rewrite eR_fin by exact C2. rewrite C1. apply Rabs_lt_inv in L. rewrite clip_id by lra. reflexivity.
    + rewrite Sk, xorb_false_r in C. unfold binary_overflow in C. cbn in C.
      assert (S : Bsign x = true /\ (RN (B2R x * IZR k) <= - big)%R \/ Bsign x = false /\ (big <= RN (B2R x * IZR k))%R).
      { destruct (Bsign x) eqn:Sx; [left|right]; (split; [reflexivity|]).
        - assert (B2R x <= 0)%R. { destruct x as [s|s| |s m e B]; try discriminate; [cbn; lra|]. cbn in Sx. subst s. cbn. apply F2R_le_0. cbn. lia. }
          assert (RN (B2R x * IZR k) <= 0)%R. { apply RN_le; [apply (gf_int 0); cbn; lia|nra]. }
          unfold Rabs in L. destruct (Rcase_abs (RN (B2R x * IZR k))); lra.
        - assert (0 <= B2R x)%R. { destruct x as [s|s| |s m e B]; try discriminate; [cbn; lra|]. cbn in Sx. subst s. cbn. apply F2R_ge_0. cbn. lia. }
          assert (0 <= RN (B2R x * IZR k))%R. { apply RN_ge; [apply (gf_int 0); cbn; lia|nra]. }
          unfold Rabs in L. destruct (Rcase_abs (RN (B2R x * IZR k))); lra. }
      destruct (Bmult mode_NE x (f32_of k)) as [s|s| |s m e B] eqn:EB; cbn in C; try discriminate C.
      split; [reflexivity|]. injection C as ->. destruct S as [[-> S]|[-> S]]; cbn [eR].
      * rewrite clip_lo by exact S. reflexivity.
      * rewrite clip_hi by exact S. reflexivity.
  - assert (GB : generic_format radix2 fe (- big)) by (apply generic_format_opp; apply big_format).
    destruct x as [s|s| |s m e B]; try discriminate. destruct (f32_of k) as [s2|s2| |s2 m2 e2 B2] eqn:EK; try discriminate.
    + cbn in Vk. lra.
    + cbn in Sk. subst s2. cbn [Bmult]. rewrite xorb_false_r. split; [destruct s; reflexivity|]. destruct s; cbn [eR].
      * rewrite clip_lo; [reflexivity|]. apply RN_le; [exact GB|]. nra.
      * rewrite clip_hi; [reflexivity|]. apply RN_ge; [exact big_format|]. nra.
Qed.
Lemma to_e : forall x b, is_nan x = false -> 0 <= b <= 65536 -> (0 <= eR x <= IZR b)%R -> forall hi, b <= hi ->
  f32_to 0 hi x = Zfloor (eR x) /\ 0 <= Zfloor (eR x) <= b.
Proof.
  intros x b Nx Hb [H0 H1] hi Hh. assert (BB : (IZR b < big)%R) by (pose proof big_pos; apply Rle_lt_trans with 65536%R; [apply IZR_le; lia|assumption]).
  pose proof big_pos. assert (F : is_finite x = true) by (apply eR_range; [exact Nx|lra]). rewrite (eR_fin x F) in *.
  assert (R : 0 <= Zfloor (B2R x) <= b).
  { split; [apply Zfloor_lub; exact H0|]. apply le_IZR. apply Rle_trans with (2 := H1). apply Zfloor_lb. }
  split; [|exact R]. rewrite <- Ztrunc_floor in R |- * by exact H0. apply to_val; [exact F|lia].
Qed.

Lemma n0_e : is_nan (f32_of 0) = false /\ eR (f32_of 0) = 0%R.
Proof. destruct (small_val 0) as [_ [H [_ [H1 _]]]]; [lia|]. auto. Qed.
Lemma RN_nonneg : forall x, (0 <= x)%R -> (0 <= RN x)%R.
Proof. intros x H. apply RN_ge; [apply (gf_int 0); cbn; lia|exact H]. Qed.
Lemma clip_nonneg : forall x, (0 <= x)%R -> (0 <= clip x)%R.
Proof. intros x H. pose proof big_pos. unfold clip. apply Rle_trans with (2 := Rmax_r _ _). apply Rmin_glb; lra. Qed.
Lemma nan_val : forall x : f32, is_nan x = true -> x = B754_nan.
Proof. intros [s|s| |s m e B] H; try discriminate; reflexivity. Qed.

(** [min(max(v, 0) * k, b)] *)
Lemma clip1 : forall v k b, small k -> small b -> let r := f32_min (Bmult mode_NE (f32_max v (f32_of 0)) (f32_of k)) (f32_of b) in
  is_nan r = false /\ eR r = if is_nan v then 0%R else Rmin (clip (RN (Rmax (eR v) 0 * IZR k))) (IZR b).
Proof.
  intros v k b Hk Hb r. unfold small in Hb. destruct (small_val b) as [_ [Nb [_ [Eb _]]]]; [lia|]. destruct n0_e as [Z1 Z2].
  assert (B1 : (1 <= IZR b)%R) by (apply IZR_le; lia).
  destruct (is_nan v) eqn:Nv.
  - apply nan_val in Nv. subst v. unfold r. change (f32_max B754_nan (f32_of 0)) with (f32_of 0).
    destruct (mul_e (f32_of 0) k Z1 Hk) as [N1 E1]. destruct (min_e _ _ N1 Nb) as [N2 E2]. split; [exact N2|]. unfold r. rewrite E2, E1, Z2, Eb.
    rewrite Rmult_0_l, RN_0, clip_id by (pose proof big_pos; lra). apply Rmin_left. lra.
  - destruct (max_e v (f32_of 0) Nv Z1) as [N0 E0]. destruct (mul_e _ k N0 Hk) as [N1 E1]. destruct (min_e _ _ N1 Nb) as [N2 E2]. split; [exact N2|].
    unfold r. rewrite E2, E1, E0, Z2, Eb. reflexivity.
Qed.
(** [min(max(v * k, 0), b)] *)
Lemma clip2 : forall v k b, small k -> small b -> let r := f32_min (f32_max (Bmult mode_NE v (f32_of k)) (f32_of 0)) (f32_of b) in
  is_nan r = false /\ eR r = if is_nan v then 0%R else Rmin (Rmax (clip (RN (eR v * IZR k))) 0) (IZR b).
Proof.
  intros v k b Hk Hb r. unfold small in Hb. destruct (small_val b) as [_ [Nb [_ [Eb _]]]]; [lia|]. destruct n0_e as [Z1 Z2].
  assert (B1 : (1 <= IZR b)%R) by (apply IZR_le; lia).
  destruct (is_nan v) eqn:Nv.
  - apply nan_val in Nv. subst v. unfold r. replace (Bmult mode_NE B754_nan (f32_of k)) with (B754_nan : f32) by (destruct (f32_of k); reflexivity).
    change (f32_max B754_nan (f32_of 0)) with (f32_of 0).
    destruct (min_e _ _ Z1 Nb) as [N2 E2]. split; [exact N2|]. unfold r. rewrite E2, Z2, Eb. apply Rmin_left. lra.
  - destruct (mul_e v k Nv Hk) as [N1 E1]. destruct (max_e _ (f32_of 0) N1 Z1) as [N0 E0]. destruct (min_e _ _ N0 Nb) as [N2 E2]. split; [exact N2|].
    unfold r. rewrite E2, E0, E1, Z2, Eb. reflexivity.
Qed.
