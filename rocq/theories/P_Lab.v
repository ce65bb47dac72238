(** CIE Lab over the real numbers. *)
From Coq Require Import ZArith List Bool Reals Lia Lra Psatz.
From Flocq Require Import Core.
From Verif Require Import Base Num Image Gofloat Colors Spec_Real P_Base P_Matrix.
Import ListNotations.
Local Open Scope R_scope.

Section S.
Variables (root3 : R -> R) (power : R -> R -> R).
Hypothesis ROOT : is_root3 root3.
Let N : Num R := real_num root3 power.
Local Existing Instance N.

Lemma lt_bool : forall x y : R, n_lt x y = true <-> x < y.
Proof. intros x y. cbn [n_lt N real_num]. split; intros H; [destruct (Rlt_bool_spec x y); (discriminate || assumption)|apply Rlt_bool_true; exact H]. Qed.
Lemma lt_bool_false : forall x y : R, n_lt x y = false <-> y <= x.
Proof. intros x y. cbn [n_lt N real_num]. split; intros H; [destruct (Rlt_bool_spec x y); (discriminate || assumption)|apply Rlt_bool_false; exact H]. Qed.
Lemma cutoff_val : lab_cutoff = 216 / 24389.
Proof. unfold lab_cutoff, lit. cbn [n_mul n_div n_of N real_num]. lra. Qed.
Lemma labinvf_val : forall v, labinvf v = if Rlt_bool (6 / 29) v then v * v * v else (108 / 841) * v - 432 / 24389.
Proof.
  intros v. unfold labinvf, lit. cbn [n_mul n_div n_add n_opp n_of n_lt N real_num]. cbv zeta.
  destruct (Rlt_bool (6 / 29) v); lra.
Qed.
Lemma linear_val : forall v, (v * lab_multiplier + lab_constant)%num = (841 / 108) * v + 4 / 29.
Proof. intros v. unfold lab_multiplier, lab_constant, lit. cbn [n_mul n_div n_add n_of N real_num]. lra. Qed.
Lemma invf_low : forall v, v <= 216 / 24389 -> labinvf (841 / 108 * v + 4 / 29) = v.
Proof. intros v H. rewrite labinvf_val. rewrite Rlt_bool_false by lra. lra. Qed.
Lemma root_big : forall v, 216 / 24389 < v -> 6 / 29 < root3 v.
Proof.
  intros v H. pose proof (ROOT v ltac:(lra)) as E. destruct (Rlt_le_dec (6 / 29) (root3 v)) as [L|L]; [exact L|].
  destruct (Rle_dec 0 (root3 v)) as [P|P]; [|nra].
  assert (root3 v * root3 v <= 36 / 841) by nra. assert (root3 v * root3 v * root3 v <= 36 / 841 * (6 / 29)) by nra. lra.
Qed.
Lemma invf_high : forall v, 216 / 24389 < v -> labinvf (root3 v) = v.
Proof. intros v H. rewrite labinvf_val. rewrite Rlt_bool_true by (apply root_big; exact H). apply ROOT. lra. Qed.

Definition exactly (v : R) : res R := Ok (n_cbrt v).
Lemma labf_exact : forall v, exists w, labf_with exactly v = Ok w /\ labinvf w = v.
Proof.
  intros v. unfold labf_with. destruct (n_lt lab_cutoff v) eqn:E.
  - apply lt_bool in E. rewrite cutoff_val in E. exists (root3 v). split; [|apply invf_high; exact E].
    destruct (n_lt n0 v && n_lt v n1); reflexivity.
  - apply lt_bool_false in E. rewrite cutoff_val in E. exists (841 / 108 * v + 4 / 29). split; [f_equal; apply linear_val|apply invf_low; exact E].
Qed.
(** With the table of 65537 roots. *)
Lemma root_upper : forall v, 0 < v -> v <= 216 / 24389 -> 0 < root3 v <= 6 / 29.
Proof.
  intros v H0 H. pose proof (ROOT v H0) as E. assert (P : 0 < root3 v).
  { destruct (Rlt_le_dec 0 (root3 v)) as [P|P]; [exact P|]. assert (0 <= root3 v * root3 v) by nra. nra. }
  split; [exact P|]. destruct (Rle_lt_dec (root3 v) (6 / 29)) as [L|L]; [exact L|].
  assert (36 / 841 < root3 v * root3 v) by nra. nra.
Qed.
Lemma invf_table : forall v, 580 / 65536 <= v -> v - 1 / 1000000 <= labinvf (root3 v) <= v.
Proof.
  intros v H. destruct (Rlt_le_dec (216 / 24389) v) as [L|L]; [rewrite invf_high by exact L; lra|].
  pose proof (ROOT v ltac:(lra)) as E. destruct (root_upper v ltac:(lra) L) as [P Q]. rewrite labinvf_val. rewrite Rlt_bool_false by lra.
  set (r := root3 v) in *.
  assert (K : v - (108 / 841 * r - 432 / 24389) = (6 / 29 - r) * (6 / 29 - r) * (r + 12 / 29)) by (rewrite <- E; field).
  assert (D : 216 / 24389 - v = (6 / 29 - r) * (36 / 841 + 6 / 29 * r + r * r)) by (rewrite <- E; field).
  assert (D2 : (6 / 29 - r) * (36 / 841) <= 216 / 24389 - v) by (rewrite D; apply Rmult_le_compat_l; nra).
  assert (D3 : 0 <= 6 / 29 - r <= 3 / 10000) by nra.
  assert (D4 : (6 / 29 - r) * (6 / 29 - r) <= 9 / 100000000) by nra.
  assert (D5 : 0 <= (6 / 29 - r) * (6 / 29 - r)) by nra. nra.
Qed.
Lemma labf_table : forall v, exists w, labf v = Ok w /\ v - 2 / 65536 <= labinvf w <= v.
Proof.
  intros v. unfold labf, labf_with. destruct (n_lt lab_cutoff v) eqn:E.
  - apply lt_bool in E. rewrite cutoff_val in E. destruct (n_lt n0 v && n_lt v n1) eqn:B.
    + apply andb_prop in B. destruct B as [_ B]. apply lt_bool in B. change n1 with 1 in B.
      unfold cbrt_lookup, to_usize. cbn [n_to n_mul n_of N real_num]. cbv zeta.
      assert (T : 0 <= v * 65536) by lra. rewrite Ztrunc_floor by exact T. set (k := Zfloor (v * 65536)).
      pose proof (Zfloor_lb (v * 65536)) as K1. pose proof (Zfloor_ub (v * 65536)) as K2. fold k in K1, K2.
      assert (K3 : (580 <= k)%Z) by (apply Zfloor_lub; lra). assert (K4 : (k < 65536)%Z) by (apply lt_IZR; lra).
      replace (Z.max 0 (Z.min (2 ^ 64 - 1) k)) with k by lia. replace (k <? 65537)%Z with true by lia.
      unfold cbrt_entry. cbn [n_cbrt n_div n_of N real_num]. exists (root3 (IZR k / 65536)). split; [reflexivity|].
      assert (K5 : 580 <= IZR k) by (apply IZR_le; exact K3).
      pose proof (invf_table (IZR k / 65536) ltac:(lra)). lra.
    + exists (root3 v). split; [reflexivity|]. rewrite invf_high by exact E. lra.
  - apply lt_bool_false in E. rewrite cutoff_val in E. exists (841 / 108 * v + 4 / 29). split; [f_equal; apply linear_val|rewrite invf_low by exact E; lra].
Qed.
Lemma whites : xw = 9642 / 10000 /\ yw = 1 /\ zw = 8249 / 10000.
Proof. unfold xw, yw, zw, lit. cbn [n_div n_of N real_num]. repeat split; lra. Qed.

Section Root.
Variable root : R -> res R.
Variable err : R.
Hypothesis BACK : forall v, exists w, labf_with root v = Ok w /\ v - err <= labinvf w <= v.
Hypothesis ERR : 0 <= err.
Lemma round_trip : forall x y z, exists lab, xyz_to_lab_with root x y z = Ok lab /\ close3 err (lab_to_xyz (a0 lab) (a1 lab) (a2 lab)) (V3 x y z).
Proof.
  intros x y z. destruct whites as [WX [WY WZ]]. unfold xyz_to_lab_with. rewrite WX, WY, WZ.
  destruct (BACK (n_div y 1)) as [fy [Ey By]]. destruct (BACK (n_div x (9642 / 10000))) as [fx [Ex Bx]]. destruct (BACK (n_div z (8249 / 10000))) as [fz [Ez Bz]].
  rewrite Ey. cbn [bind]. rewrite Ex. cbn [bind]. rewrite Ez. cbn [bind]. eexists. split; [reflexivity|].
  unfold lab_to_xyz. cbv zeta. rewrite WX, WY, WZ. cbn [a0 a1 a2]. unfold lit. cbn [n_div n_mul n_add n_sub n_of N real_num] in *.
  match goal with |- close3 _ (V3 (_ * labinvf ?X) (_ * labinvf ?Y) (_ * labinvf ?Z)) _ =>
    replace X with fx by lra; replace Z with fz by lra; replace Y with fy by lra end.
  replace (x / (9642 / 10000)) with (10000 / 9642 * x) in Bx by field. replace (z / (8249 / 10000)) with (10000 / 8249 * z) in Bz by field. replace (y / 1) with y in By by field.
  unfold close3. cbn [a0 a1 a2]. repeat split; apply Rabs_le; lra.
Qed.
End Root.
Lemma exact_trip : forall x y z, exists lab, xyz_to_lab_with exactly x y z = Ok lab /\ lab_to_xyz (a0 lab) (a1 lab) (a2 lab) = V3 x y z.
Proof.
  intros x y z. destruct (round_trip exactly 0) with (x := x) (y := y) (z := z) as [lab [E C]].
  - intros v. destruct (labf_exact v) as [w [E1 E2]]. exists w. split; [exact E1|lra].
  - lra.
  - exists lab. split; [exact E|]. destruct C as [C0 [C1 C2]]. cbn [a0 a1 a2] in *. destruct (lab_to_xyz (a0 lab) (a1 lab) (a2 lab)) as [p q r]. cbn [a0 a1 a2] in *.
    pose proof (Rabs_pos (p - x)). pose proof (Rabs_pos (q - y)). pose proof (Rabs_pos (r - z)).
    assert (Z : forall u, Rabs u = 0 -> u = 0) by (intros u Hu; destruct (Req_dec u 0) as [|Hn]; [assumption|apply Rabs_no_R0 in Hn; contradiction]).
    apply V3_eq; [specialize (Z (p - x))|specialize (Z (q - y))|specialize (Z (r - z))]; lra.
Qed.
Lemma table_trip : forall x y z, exists lab, xyz_to_lab x y z = Ok lab /\ close3 (2 / 65536) (lab_to_xyz (a0 lab) (a1 lab) (a2 lab)) (V3 x y z).
Proof. intros x y z. apply round_trip; [exact labf_table|lra]. Qed.
End S.
