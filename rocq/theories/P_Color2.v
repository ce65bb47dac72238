(** Tables and bytes: C40, and level correction: C41. *)
From Coq Require Import ZArith List Bool Reals Lia Lra.
From Flocq Require Import Core BinarySingleNaN Mult_error.
From Verif Require Import Base Num F32 Image Gofloat Colors Pipeline Spec_Rgb P_Base P_F32 P_Color1.
Import ListNotations.
Local Open Scope Z_scope.

Section S.
Context {M : Mode}.
Variables (cbrt : f32 -> f32) (pow : f32 -> f32 -> f32).
Let N : Num f32 := f32_num cbrt pow.
Local Existing Instance N.

Lemma small_65536 : small 65536.
Proof. unfold small. lia. Qed.
Lemma small_255 : small 255.
Proof. unfold small. lia. Qed.
Lemma mul65536_exact : forall v : f32, RN (B2R v * 65536) = (B2R v * 65536)%R.
Proof.
  intros v. apply RN_id. change 65536%R with (bpow radix2 16). rewrite fe_flt. apply mult_bpow_pos_exact_FLT; [|lia]. rewrite <- fe_flt. apply gf_B2R.
Qed.
Lemma number_e : forall v r, is_number v r -> is_nan v = false /\ eR v = r.
Proof. intros v r [F V]. split; [destruct v; (discriminate || reflexivity)|]. rewrite eR_fin by exact F. exact V. Qed.

Definition gamma_clipped (v : f32) : R := if is_nan v then 0%R else Rmin (clip (RN (Rmax (eR v) 0 * IZR 65536))) (IZR 65536).
Lemma gamma_index_e : forall v, gamma_index v = Zfloor (gamma_clipped v) /\ 0 <= gamma_index v <= 65536.
Proof.
  intros v. destruct (clip1 v 65536 65536 small_65536 small_65536) as [H1 H2]. cbv zeta in H1, H2. fold (gamma_clipped v) in H2.
  assert (B : (0 <= gamma_clipped v <= IZR 65536)%R).
  { unfold gamma_clipped. destruct (is_nan v); [split; [lra|apply IZR_le; lia]|]. split; [|apply Rmin_r]. apply Rmin_glb; [|apply IZR_le; lia].
    apply clip_nonneg. apply RN_nonneg. apply Rmult_le_pos; [apply Rmax_r|apply IZR_le; lia]. }
  rewrite <- H2 in B. destruct (to_e _ 65536 H1 ltac:(lia) B (2 ^ 64 - 1) ltac:(lia)) as [E R]. rewrite H2 in E, R.
  split; [exact E|]. change (gamma_index v) with (f32_to 0 (2 ^ 64 - 1) (f32_min (Bmult mode_NE (f32_max v (f32_of 0)) (f32_of 65536)) (f32_of 65536))). rewrite E. exact R.
Qed.
Lemma gamma_at : forall v k, gamma_clipped v = IZR k -> gamma_index v = k.
Proof. intros v k H. destruct (gamma_index_e v) as [E _]. rewrite H, Zfloor_IZR in E. exact E. Qed.
Lemma gamma_ok : forall v, gamma_value v = Ok (gamma_entry (gamma_index v)).
Proof. intros v. unfold gamma_value. cbv zeta. destruct (gamma_index_e v) as [_ H]. replace (gamma_index v <? 65537) with true by lia. reflexivity. Qed.
Lemma gamma_inside : forall v r, is_number v r -> (0 <= r <= 1)%R -> gamma_index v = Zfloor (r * 65536).
Proof.
  intros v r Hn Hr. pose proof (number_e v r Hn) as [H1 H2]. destruct (gamma_index_e v) as [-> _]. f_equal. unfold gamma_clipped. rewrite H1, H2, Rmax_left by lra.
  destruct Hn as [F V]. rewrite <- V. change (IZR 65536) with 65536%R. rewrite mul65536_exact, V. rewrite clip_id by (pose proof big_pos; lra). apply Rmin_left. lra.
Qed.
Lemma gamma_below : forall v, is_nan v = true \/ f32_lt v (f32_of 0) = true -> gamma_index v = 0.
Proof.
  intros v H. apply gamma_at. unfold gamma_clipped.
  destruct (is_nan v) eqn:Nv; [reflexivity|]. destruct H as [H|H]; [discriminate|]. destruct n0_e as [Z1 Z2]. apply lt_e in H; try assumption. rewrite Z2 in H.
  rewrite Rmax_right by lra. rewrite Rmult_0_l, RN_0, clip_id by (pose proof big_pos; lra). apply Rmin_left. apply IZR_le. lia.
Qed.
Lemma gamma_above : forall v, f32_le (f32_of 1) v = true -> gamma_index v = 65536.
Proof.
  intros v H. apply gamma_at. unfold gamma_clipped.
  destruct (is_nan v) eqn:Nv; [apply nan_val in Nv; subst v; cbn in H; discriminate|].
  assert (E : (1 <= eR v)%R).
  { destruct (small_val 1) as [F1 [N1 [V1 [E1 _]]]]; [lia|]. destruct (is_finite v) eqn:F.
    - apply le_fin in H; try assumption. rewrite V1 in H. rewrite eR_fin by exact F. exact H.
    - pose proof big_pos. destruct v as [|[|]| |]; try discriminate. cbn. lra. }
  pose proof big_pos. rewrite Rmax_left by lra. apply Rmin_right. change (IZR 65536) with 65536%R.
  assert (65536 <= RN (eR v * 65536))%R by (apply RN_ge; [apply (gf_int 65536); cbn; lia|lra]).
  unfold clip. apply Rle_trans with (2 := Rmax_r _ _). apply Rmin_glb; lra.
Qed.

(** ** Bytes *)
Definition byte_clipped (v : f32) : R := if is_nan v then 0%R else Rmin (Rmax (clip (RN (eR v * IZR 255))) 0) (IZR 255).
Lemma byte_e : forall v, srgb_byte v = Zfloor (byte_clipped v) /\ 0 <= srgb_byte v <= 255.
Proof.
  intros v. destruct (clip2 v 255 255 small_255 small_255) as [H1 H2]. cbv zeta in H1, H2. fold (byte_clipped v) in H2.
  assert (B : (0 <= byte_clipped v <= IZR 255)%R).
  { unfold byte_clipped. destruct (is_nan v); [split; [lra|apply IZR_le; lia]|]. split; [|apply Rmin_r]. apply Rmin_glb; [apply Rmax_r|apply IZR_le; lia]. }
  rewrite <- H2 in B. destruct (to_e _ 255 H1 ltac:(lia) B 255 ltac:(lia)) as [E R]. rewrite H2 in E, R.
  split; [exact E|]. change (srgb_byte v) with (f32_to 0 255 (f32_min (f32_max (Bmult mode_NE v (f32_of 255)) (f32_of 0)) (f32_of 255))). rewrite E. exact R.
Qed.
Lemma byte_at : forall v k, byte_clipped v = IZR k -> srgb_byte v = k.
Proof. intros v k H. destruct (byte_e v) as [E _]. rewrite H, Zfloor_IZR in E. exact E. Qed.
Lemma byte_number : forall v r, is_number v r -> srgb_byte v = Zfloor (Rmin (Rmax (nearest (r * 255)) 0) 255).
Proof.
  intros v r Hn. pose proof (number_e v r Hn) as [H1 H2]. destruct (byte_e v) as [-> _]. f_equal. unfold byte_clipped. rewrite H1, H2. change (nearest (r * 255)) with (RN (r * 255)).
  change (IZR 255) with 255%R. set (z := RN (r * 255)). pose proof big_pos. unfold clip, Rmin, Rmax. repeat destruct Rle_dec; lra.
Qed.
Lemma byte_inside : forall v r, is_number v r -> (0 <= r <= 1)%R -> srgb_byte v = Zfloor (nearest (r * 255)).
Proof.
  intros v r Hn Hr. rewrite (byte_number v r Hn). f_equal. change (nearest (r * 255)) with (RN (r * 255)).
  assert (0 <= RN (r * 255))%R by (apply RN_nonneg; lra). assert (RN (r * 255) <= 255)%R by (apply RN_le; [apply (gf_int 255); cbn; lia|lra]).
  rewrite Rmax_left by lra. apply Rmin_left. lra.
Qed.
Lemma byte_below : forall v, is_nan v = true \/ f32_le v (f32_of 0) = true -> srgb_byte v = 0.
Proof.
  intros v H. apply byte_at. unfold byte_clipped.
  destruct (is_nan v) eqn:Nv; [reflexivity|]. destruct H as [H|H]; [discriminate|].
  assert (E : (eR v <= 0)%R).
  { destruct (small_val 0) as [F1 [N1 [V1 [E1 _]]]]; [lia|]. destruct (is_finite v) eqn:F.
    - apply le_fin in H; try assumption. rewrite V1 in H. rewrite eR_fin by exact F. exact H.
    - pose proof big_pos. destruct v as [|[|]| |]; try discriminate. cbn. lra. }
  assert (RN (eR v * IZR 255) <= 0)%R by (apply RN_le; [apply (gf_int 0); cbn; lia|change (IZR 255) with 255%R; lra]).
  pose proof big_pos. rewrite Rmax_right; [apply Rmin_left; apply IZR_le; lia|]. unfold clip. apply Rmax_lub; [lra|]. apply Rle_trans with (1 := Rmin_l _ _). assumption.
Qed.
Lemma byte_above : forall v, f32_le (f32_of 1) v = true -> srgb_byte v = 255.
Proof.
  intros v H. apply byte_at. unfold byte_clipped.
  destruct (is_nan v) eqn:Nv; [apply nan_val in Nv; subst v; cbn in H; discriminate|].
  assert (E : (1 <= eR v)%R).
  { destruct (small_val 1) as [F1 [N1 [V1 [E1 _]]]]; [lia|]. destruct (is_finite v) eqn:F.
    - apply le_fin in H; try assumption. rewrite V1 in H. rewrite eR_fin by exact F. exact H.
    - pose proof big_pos. destruct v as [|[|]| |]; try discriminate. cbn. lra. }
  assert (255 <= RN (eR v * 255))%R by (apply RN_ge; [apply (gf_int 255); cbn; lia|lra]).
  pose proof big_pos. apply Rmin_right. apply Rle_trans with (2 := Rmax_l _ _). unfold clip. apply Rle_trans with (2 := Rmax_r _ _). apply Rmin_glb; change (IZR 255) with 255%R; lra.
Qed.
Lemma byte_mono : forall v w, f32_le v w = true -> srgb_byte v <= srgb_byte w.
Proof.
  intros v w H. destruct (is_nan v) eqn:Nv; [apply nan_val in Nv; subst v; destruct w; discriminate|].
  destruct (is_nan w) eqn:Nw; [apply nan_val in Nw; subst w; destruct v as [|[]| |[]]; discriminate|].
  assert (E : (eR v <= eR w)%R).
  { pose proof (eR_bound v). pose proof (eR_bound w). destruct (is_finite v) eqn:Fv; destruct (is_finite w) eqn:Fw.
    - apply le_fin in H; try assumption. rewrite !eR_fin by assumption. exact H.
    - destruct w as [|[|]| |]; try discriminate; [destruct v as [|[|]| |[]]; discriminate|]. cbn [eR]. lra.
    - destruct v as [|[|]| |]; try discriminate; [cbn [eR]; lra|destruct w as [|[|]| |[]]; discriminate].
    - destruct v as [|[|]| |]; try discriminate; destruct w as [|[|]| |]; try discriminate; cbn [eR] in *; try lra; discriminate. }
  destruct (byte_e v) as [-> _]. destruct (byte_e w) as [-> _]. apply Zfloor_le. unfold byte_clipped. rewrite Nv, Nw.
  assert (RN (eR v * IZR 255) <= RN (eR w * IZR 255))%R by (apply RN_mono; change (IZR 255) with 255%R; lra).
  apply Rle_min_compat_r. apply Rle_max_compat_r. unfold clip. apply Rle_max_compat_l. apply Rle_min_compat_r. assumption.
Qed.

(** ** The table of cube roots *)
Lemma labf_ok : forall v, exists w, labf v = Ok w.
Proof.
  intros v. unfold labf, labf_with. destruct (n_lt lab_cutoff v); [|eexists; reflexivity].
  destruct (n_lt n0 v && n_lt v n1) eqn:E; [|eexists; reflexivity]. apply andb_prop in E. destruct E as [E1 E2].
  unfold cbrt_lookup. cbv zeta.
  assert (to_usize (n_mul v (n_of 65536)) <= 65536); [|replace (to_usize (n_mul v (n_of 65536)) <? 65537) with true by lia; eexists; reflexivity].
  unfold N, n0, n1 in E1, E2. cbn [n_lt n_of f32_num] in E1, E2.
  destruct (is_nan v) eqn:Nv; [apply nan_val in Nv; subst v; destruct (f32_of 0); discriminate|].
  destruct n0_e as [Z1 Z2]. destruct (small_val 1) as [F1 [N1 [V1 [U1 _]]]]; [lia|]. apply lt_e in E1; try assumption. apply lt_e in E2; try assumption. rewrite Z2 in E1. rewrite U1 in E2.
  destruct (mul_e v 65536 Nv small_65536) as [H1 H2]. pose proof big_pos.
  assert (0 <= RN (eR v * IZR 65536))%R by (apply RN_nonneg; change (IZR 65536) with 65536%R; lra).
  assert (RN (eR v * IZR 65536) <= IZR 65536)%R by (apply RN_le; [apply gf_int; cbn; lia|change (IZR 65536) with 65536%R; lra]).
  rewrite clip_id in H2 by (change (IZR 65536) with 65536%R in *; lra).
  destruct (to_e _ 65536 H1 ltac:(lia) ltac:(rewrite H2; split; assumption) (2 ^ 64 - 1) ltac:(lia)) as [E R].
  unfold to_usize, N. cbn [n_to n_mul n_of f32_num]. rewrite E. lia.
Qed.

(** ** Levels *)
Lemma level_bounded : forall black white mul v, is_nan (level_value black white mul v) = false /\ f32_le (level_value black white mul v) (f32_of 1) = true.
Proof.
  intros black white mul v. unfold level_value, n1, N. cbn [n_min n_of f32_num]. set (x := n_mul _ _).
  destruct (small_val 1) as [F1 [N1 [V1 [E1 _]]]]; [lia|]. unfold f32_min. destruct (is_nan x) eqn:Nx; [split; [exact N1|apply le_fin; try assumption; lra]|].
  rewrite N1. change (Bltb (f32_of 1) x) with (f32_lt (f32_of 1) x). destruct (f32_lt (f32_of 1) x) eqn:L.
  - split; [exact N1|apply le_fin; try assumption; lra].
  - split; [exact Nx|]. apply lt_e_false in L; try assumption. rewrite E1 in L. destruct (is_finite x) eqn:F.
    + apply le_fin; try assumption. rewrite V1. rewrite eR_fin in L by exact F. exact L.
    + pose proof big_pos. destruct x as [|[|]| |]; try discriminate; [|cbn in L; lra]. destruct (f32_of 1) as [|[]| |[]]; try discriminate; reflexivity.
Qed.
End S.
