(** White light does not come out neutral. *)
From Coq Require Import String ZArith List Bool Reals Lia Lra.
From Flocq Require Import Core.
From Verif Require Import Base Num Cfa Transform Image Gofloat Colors Pipeline Spec_Orient Spec_Real P_Base P_Orient P_Matrix P_Lab P_Spline P_Srgb1.
Import ListNotations.
Local Open Scope R_scope.

Section S.
Context {M : Mode}.
Variable root3 : R -> R.
Variable power : R -> R -> R.
Hypothesis ROOT : is_root3 root3.
Local Instance N : Num R := real_num root3 power.

Lemma labf_total : forall v : R, exists w, labf v = Ok w.
Proof. intros v. destruct (labf_table root3 power ROOT v) as [w [E _]]. exists w. exact E. Qed.
Lemma labf_big : forall v : R, 1 <= v -> labf v = labf_with (exactly root3 power) v.
Proof.
  intros v H. unfold labf, labf_with. destruct (n_lt lab_cutoff v); [|reflexivity].
  replace (n_lt v n1) with false; [rewrite andb_false_r; reflexivity|]. symmetry. apply (lt_bool_false root3 power). exact H.
Qed.
Lemma lab_big : forall x y z : R, 9642 / 10000 <= x -> 1 <= y -> 8249 / 10000 <= z -> xyz_to_lab x y z = xyz_to_lab_with (exactly root3 power) x y z.
Proof.
  intros x y z Hx Hy Hz. unfold xyz_to_lab, xyz_to_lab_with. destruct (whites root3 power) as [WX [WY WZ]].
  fold (labf (A := R)).
  assert (Ex : 1 <= n_div x xw). { fold N in WX. rewrite WX. cbn. lra. }
  assert (Ey : 1 <= n_div y yw). { fold N in WY. rewrite WY. cbn. lra. }
  assert (Ez : 1 <= n_div z zw). { fold N in WZ. rewrite WZ. cbn. lra. }
  rewrite !labf_big by assumption. reflexivity.
Qed.
Lemma root_one : root3 1 = 1.
Proof.
  pose proof (ROOT 1 ltac:(lra)) as E. set (r := root3 1) in *. clearbody r.
  assert (F : (r - 1) * (r * r + r + 1) = 0) by lra. apply Rmult_integral in F. destruct F as [F|F]; [lra|]. pose proof (Rle_0_sqr (r + 1 / 2)) as Q. unfold Rsqr in Q. lra.
Qed.
Lemma light_one : forall x z lab, xyz_to_lab_with (exactly root3 power) x 1 z = Ok lab -> a0 lab = 1.
Proof.
  intros x z lab E. unfold xyz_to_lab_with in E. apply bind_inv in E. destruct E as [fy [Ey E]]. apply bind_inv in E. destruct E as [fx [_ E]]. apply bind_inv in E. destruct E as [fz [_ E]].
  apply (f_equal (fun r => match r with Ok v => a0 v | _ => 0 end)) in E. cbn [a0] in E. rewrite <- E.
  destruct (whites root3 power) as [_ [WY _]]. fold N in WY. rewrite WY in Ey. cbn [n_div N real_num] in Ey. replace (1 / 1) with 1 in Ey by lra.
  assert (CV : lab_cutoff = 216 / 24389) by exact (cutoff_val root3 power).
  unfold labf_with in Ey. replace (n_lt lab_cutoff 1) with true in Ey by (symmetry; apply Rlt_bool_true; rewrite CV; lra).
  replace (if n_lt n0 1 && n_lt 1 n1 then exactly root3 power 1 else Ok (n_cbrt 1)) with (Ok (root3 1)) in Ey by (destruct (n_lt n0 1 && n_lt 1 n1); reflexivity).
  rewrite root_one in Ey. injection Ey as <-. cbn [n_sub n_mul n_div n_of N real_num]. lra.
Qed.
Lemma curve_one : forall s, is_spline n0 base_xs base_ys s -> interpolate s 1 = Ok 1.
Proof.
  intros s SP. rewrite (interpolate_eq n0 base_xs base_ys) by (reflexivity || exact SP || (unfold zlen; cbn; lia)).
  change (at0 n0 base_xs (zlen base_xs - 1)) with (1 / 1). change (at0 n0 base_ys (zlen base_xs - 1)) with (1 / 1). replace (1 / 1) with 1 by lra.
  replace (n_le 1 1) with true; [reflexivity|]. symmetry. apply Rle_bool_true. lra.
Qed.
(** The matrix at the end. *)
Lemma matrix_back : forall x y z : R, let m := xyz_to_rec709_matrix in let dot (v : vec3 R) := x * a0 v + y * a1 v + z * a2 v in
  app33 srgb_primaries (V3 (dot (a0 m)) (dot (a1 m)) (dot (a2 m))) = V3 x y z.
Proof.
  intros x y z m dot. pose proof (inverse_right root3 power rgb_to_xyz (rgb_det root3 power)) as I. destruct (primaries root3 power) as [P _].
  fold N in I, P. change (inverse rgb_to_xyz) with m in I. rewrite P in I. clearbody m. destruct m as [[m00 m01 m02] [m10 m11 m12] [m20 m21 m22]].
  unfold mul33, one3, map3, dot3, col3, srgb_primaries in I. unfold app33, map3, dot3, srgb_primaries, dot. cbn [a0 a1 a2] in *.
  pose proof (f_equal (fun v => a0 (a0 v)) I) as I00. pose proof (f_equal (fun v => a1 (a0 v)) I) as I01. pose proof (f_equal (fun v => a2 (a0 v)) I) as I02.
  pose proof (f_equal (fun v => a0 (a1 v)) I) as I10. pose proof (f_equal (fun v => a1 (a1 v)) I) as I11. pose proof (f_equal (fun v => a2 (a1 v)) I) as I12.
  pose proof (f_equal (fun v => a0 (a2 v)) I) as I20. pose proof (f_equal (fun v => a1 (a2 v)) I) as I21. pose proof (f_equal (fun v => a2 (a2 v)) I) as I22.
  cbn [a0 a1 a2] in *. clear I.
  Ltac comb x y z H1 H2 H3 :=
    match type of H1 with ?a = _ => match type of H2 with ?b = _ => match type of H3 with ?c = _ =>
      transitivity (x * a + y * b + z * c); [ring|rewrite H1, H2, H3; ring] end end end.
  apply V3_eq; [comb x y z I00 I01 I02|comb x y z I10 I11 I12|comb x y z I20 I21 I22].
Qed.
Lemma white_xyz : exists x z, relative_xyz white3 = V3 x 1 z /\ x = 950456 / 954700 /\ z = 1088754 / 1088830.
Proof.
  unfold relative_xyz, app33, map3, dot3, srgb_primaries, white3, d65. cbn [a0 a1 a2]. do 2 eexists. split; [apply V3_eq; [reflexivity|lra|reflexivity]|]. split.
  - replace 0.9547 with (9547 / 10000) by lra. replace (0.412453 * 1 + 0.357580 * 1 + 0.180423 * 1) with (950456 / 1000000) by lra. field.
  - replace 1.08883 with (108883 / 100000) by lra. replace (0.019334 * 1 + 0.119193 * 1 + 0.950227 * 1) with (1088754 / 1000000) by lra. field.
Qed.
Lemma one_pixel : forall (c : R) l, pixel (mkop 1 1 4 (c :: l)) 0 0 = firstn 4 (c :: l).
Proof. reflexivity. Qed.
Lemma white_cast : forall (img : rawimage R) cam, sound_camera (i_xyz_to_cam img) -> full_rank (i_xyz_to_cam img) -> measures (i_xyz_to_cam img) white3 cam ->
  exists r g b, (channel3 <- camera_to_lab img (mkop 1 1 4 [e0 cam; e1 cam; e2 cam; e3 cam]) ;; channel3 <- base_curve channel3 ;; lab_to_rec709 channel3) = Ok (mkop 1 1 3 [r; g; b]) /\
    1.19 < r /\ g < 0.96 /\ b < 0.92.
Proof.
  intros img cam S F Me. set (b0 := mkop 1 1 4 [e0 cam; e1 cam; e2 cam; e3 cam]).
  assert (W0 : well_formed b0) by (unfold well_formed, b0; cbn; lia).
  destruct (lab_ok labf_total img b0 W0 eq_refl) as [b1 [E1 [W1 [X1 [Y1 [C1 P1]]]]]]. rewrite E1. cbn [bind].
  destruct (curve_ok b1 W1 C1) as [s [b2 [_ [SP [E2 [W2 [X2 [Y2 [C2 P2]]]]]]]]]. rewrite E2. cbn [bind].
  destruct (rec709_ok b2 W2 C2) as [b3 [E3 [W3 [X3 [Y3 [C3 P3]]]]]]. rewrite E3. clear E1 E2 E3.
  rewrite X1, Y1 in *. rewrite X2, Y2 in *. cbn [b0 owidth oheight] in *.
  destruct (P1 0%Z 0%Z) as [cr [cg [cu [ce [lab [L1 [L2 L3]]]]]]]; [lia|lia|]. unfold b0 in L1. rewrite one_pixel in L1. cbn [firstn] in L1. injection L1 as <- <- <- <-.
  destruct (P2 0%Z 0%Z) as [l [c [d [l' [K1 [K2 K3]]]]]]; [lia|lia|]. rewrite L3 in K1. injection K1 as <- <- <-.
  destruct (P3 0%Z 0%Z) as [l2 [c2 [d2 [J1 J2]]]]; [lia|lia|]. rewrite K3 in J1. injection J1 as <- <- <-. clear P1 P2 P3.
  assert (V : xyz_of (cam_to_xyz (i_xyz_to_cam img)) (e0 cam) (e1 cam) (e2 cam) (e3 cam) = relative_xyz white3).
  { rewrite <- (camera_inverted root3 power _ white3 cam S F Me). fold N. unfold xyz_of, app34, map3, dot4. cbn [n_add n_mul N real_num]. apply V3_eq; ring. }
  cbv zeta in L2. rewrite V in L2. clear V. destruct white_xyz as [x [z [WX [Hx Hz]]]]. rewrite WX in L2. cbn [a0 a1 a2] in L2.
  rewrite lab_big in L2 by lra. pose proof (light_one x z lab L2) as LO. rewrite LO in *. rewrite (curve_one s SP) in K2. injection K2 as <-.
  destruct (exact_trip root3 power ROOT x 1 z) as [lab' [T1 T2]]. fold N in T1, T2. rewrite L2 in T1. injection T1 as <-. rewrite LO in T2.
  unfold rec709 in J2. rewrite T2 in J2. cbn [a0 a1 a2 n_add n_mul N real_num] in J2.
  pose proof (matrix_back x 1 z) as B. cbv zeta in B.
  match type of B with app33 _ (V3 ?p ?q ?u) = _ => change (pixel b3 0 0 = [p; q; u]) in J2; remember p as r; remember q as g; remember u as b end.
  exists r, g, b. split.
  - f_equal. destruct b3 as [w3 h3 c3 d3]. cbn [owidth oheight ocolors] in *. subst w3 h3 c3. f_equal. rewrite <- J2. unfold pixel, run. cbn [owidth ocolors odata Z.mul Z.add Z.to_nat skipn Pos.to_nat Pos.iter_op Nat.add].
    symmetry. apply firstn_all2. destruct W3 as (_ & _ & _ & L & _). cbn [owidth oheight ocolors odata] in L. lia.
  - unfold app33, map3, dot3, srgb_primaries in B. cbn [a0 a1 a2] in B.
    pose proof (f_equal a0 B) as B0. pose proof (f_equal a1 B) as B1. pose proof (f_equal a2 B) as B2. cbn [a0 a1 a2] in B0, B1, B2. subst x z. lra.
Qed.
End S.
