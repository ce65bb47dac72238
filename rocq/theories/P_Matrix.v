(** Colour matrices over the real numbers. *)
From Coq Require Import ZArith List Bool Reals Lia Lra.
From Flocq Require Import Core.
From Verif Require Import Base Num Image Gofloat Colors Spec_Real.
Import ListNotations.
Local Open Scope R_scope.

Section S.
Variables (root3 : R -> R) (power : R -> R -> R).
Let N : Num R := real_num root3 power.
Local Existing Instance N.

Lemma V3_eq : forall {A} (a b c a' b' c' : A), a = a' -> b = b' -> c = c' -> V3 a b c = V3 a' b' c'.
Proof. intros; subst; reflexivity. Qed.
Lemma inverse_right : forall m, det3 m <> 0 -> mul33 m (inverse m) = one3.
Proof.
  intros [[a b c] [d e f] [g h i]] D. unfold det3 in D. cbn [a0 a1 a2] in D. unfold mul33, inverse, one3, map3, dot3, col3, n1.
  cbn [a0 a1 a2 n_mul n_sub n_add n_div n_opp n_of N real_num]. repeat apply V3_eq; field; intros E; apply D; rewrite <- E; ring.
Qed.
Lemma inverse_left : forall m, det3 m <> 0 -> mul33 (inverse m) m = one3.
Proof.
  intros [[a b c] [d e f] [g h i]] D. unfold det3 in D. cbn [a0 a1 a2] in D. unfold mul33, inverse, one3, map3, dot3, col3, n1.
  cbn [a0 a1 a2 n_mul n_sub n_add n_div n_opp n_of N real_num]. repeat apply V3_eq; field; intros E; apply D; rewrite <- E; ring.
Qed.
Lemma rgb_det : det3 rgb_to_xyz <> 0.
Proof. unfold det3, rgb_to_xyz, lit. cbn [a0 a1 a2 n_div n_of N real_num]. lra. Qed.

(** ** Elimination *)
Definition gram (a b c d e f : R) (i j : Z) : R :=
  match i, j with
  | 0%Z, 0%Z => a | 0%Z, 1%Z => b | 0%Z, 2%Z => c
  | 1%Z, 0%Z => b | 1%Z, 1%Z => d | 1%Z, 2%Z => e
  | 2%Z, 0%Z => c | 2%Z, 1%Z => e | 2%Z, 2%Z => f
  | 0%Z, 3%Z => 1 | 1%Z, 4%Z => 1 | 2%Z, 5%Z => 1
  | _, _ => 0
  end.
Definition eliminated (t : Z -> Z -> R) : Z -> Z -> R := pinv_step (pinv_step (pinv_step t 0) 1) 2.
Definition gdet (a b c d e f : R) : R := a * (d * f - e * e) - b * (b * f - e * c) + c * (b * e - d * c).
Lemma elim_inverse : forall a b c d e f, a <> 0 -> a * d - b * b <> 0 -> gdet a b c d e f <> 0 ->
  let g := gram a b c d e f in let t := eliminated g in
  forall i j, (0 <= i < 3)%Z -> (0 <= j < 3)%Z ->
  t i 3%Z * g 0%Z j + t i 4%Z * g 1%Z j + t i 5%Z * g 2%Z j = if Z.eqb i j then 1 else 0.
Proof.
  intros a b c d e f Ha Hm Hd g t i j Hi Hj. unfold gdet in Hd.
  assert (i = 0 \/ i = 1 \/ i = 2)%Z as [->|[->| ->]] by lia; assert (j = 0 \/ j = 1 \/ j = 2)%Z as [->|[->| ->]] by lia;
  unfold t, eliminated, pinv_step, g, gram; cbn [Z.eqb Pos.eqb n_div n_sub n_mul N real_num];
  field; repeat split; try assumption; intros E; first [apply Hm; rewrite <- E; ring | apply Hd; apply Rmult_eq_reg_l with a; [rewrite Rmult_0_r, <- E; ring|exact Ha] | apply Hd; rewrite <- E; ring ].
Qed.
Definition agree (t t' : Z -> Z -> R) : Prop := forall i j, (0 <= i < 3)%Z -> (0 <= j < 6)%Z -> t i j = t' i j.
Lemma agree_step : forall t t' i, (0 <= i < 3)%Z -> agree t t' -> agree (pinv_step t i) (pinv_step t' i).
Proof.
  intros t t' i Hi H k j Hk Hj. unfold pinv_step. destruct (Z.eqb_spec k i) as [->|].
  - rewrite !H by lia. reflexivity.
  - rewrite !H by lia. reflexivity.
Qed.
Lemma agree_elim : forall t t', agree t t' -> agree (eliminated t) (eliminated t').
Proof. intros t t' H. unfold eliminated. apply agree_step; [lia|]. apply agree_step; [lia|]. apply agree_step; [lia|exact H]. Qed.
Lemma start_gram : forall m, let k := col4 m in agree (pinv_start m)
  (gram (dot4 (a0 k) (a0 k)) (dot4 (a0 k) (a1 k)) (dot4 (a0 k) (a2 k)) (dot4 (a1 k) (a1 k)) (dot4 (a1 k) (a2 k)) (dot4 (a2 k) (a2 k))).
Proof.
  intros [[m00 m01 m02] [m10 m11 m12] [m20 m21 m22] [m30 m31 m32]] k i j Hi Hj. unfold k, col4, dot4, pinv_start, gram, ix4, n0, n1.
  assert (i = 0 \/ i = 1 \/ i = 2)%Z as [->|[->| ->]] by lia; assert (j = 0 \/ j = 1 \/ j = 2 \/ j = 3 \/ j = 4 \/ j = 5)%Z as [->|[->|[->|[->|[->| ->]]]]] by lia;
  cbn [at3 at4 a0 a1 a2 e0 e1 e2 e3 Z.eqb Pos.eqb Z.add Pos.add Pos.succ Z.ltb Z.compare Pos.compare Pos.compare_cont fold_left n_add n_mul n_of N real_num]; try reflexivity; ring.
Qed.

(** ** Full rank *)
Lemma squares4 : forall x y z w, x * x + y * y + z * z + w * w = 0 -> x = 0 /\ y = 0 /\ z = 0 /\ w = 0.
Proof. intros x y z w H. repeat split; nra. Qed.
Lemma rank_apply : forall m v, full_rank m -> (let w := app43 m v in dot4 w w = 0) -> v = V3 0 0 0.
Proof.
  intros m v F H. apply F. cbv zeta in H. destruct (app43 m v) as [x y z w]. unfold dot4 in H. cbn [e0 e1 e2 e3] in H.
  destruct (squares4 x y z w H) as [-> [-> [-> ->]]]. reflexivity.
Qed.
Lemma rank_pivots : forall m, full_rank m -> let k := col4 m in
  let a := dot4 (a0 k) (a0 k) in let b := dot4 (a0 k) (a1 k) in let c := dot4 (a0 k) (a2 k) in
  let d := dot4 (a1 k) (a1 k) in let e := dot4 (a1 k) (a2 k) in let f := dot4 (a2 k) (a2 k) in
  a <> 0 /\ a * d - b * b <> 0 /\ gdet a b c d e f <> 0.
Proof.
  intros m F k a b c d e f.
  assert (NORM : forall x y z, let w := app43 m (V3 x y z) in
    dot4 w w = a * x * x + d * y * y + f * z * z + 2 * b * x * y + 2 * c * x * z + 2 * e * y * z).
  { intros x y z. unfold a, b, c, d, e, f, k. destruct m as [[m00 m01 m02] [m10 m11 m12] [m20 m21 m22] [m30 m31 m32]].
    unfold app43, map4, col4, dot4, dot3. cbn [a0 a1 a2 e0 e1 e2 e3]. ring. }
  assert (A : a <> 0).
  { intros E. assert (H : V3 1 0 0 = V3 0 0 0). { apply rank_apply with (1 := F). cbv zeta. rewrite NORM, E. ring. } injection H. lra. }
  assert (B : a * d - b * b <> 0).
  { intros E. assert (H : V3 (- b) a 0 = V3 0 0 0). { apply rank_apply with (1 := F). cbv zeta. rewrite NORM.
      replace (a * - b * - b + d * a * a + f * 0 * 0 + 2 * b * - b * a + 2 * c * - b * 0 + 2 * e * a * 0) with (a * (a * d - b * b)) by ring. rewrite E. ring. }
    injection H. intros. apply A. assumption. }
  split; [exact A|]. split; [exact B|]. intros E.
  assert (H : V3 (b * e - c * d) (b * c - a * e) (a * d - b * b) = V3 0 0 0).
  { apply rank_apply with (1 := F). cbv zeta. rewrite NORM.
    match goal with |- ?l = 0 => replace l with ((a * d - b * b) * gdet a b c d e f) by (unfold gdet; ring) end. rewrite E. ring. }
  injection H. intros H3 _ _. apply B. exact H3.
Qed.
Lemma pinv_left : forall m, full_rank m -> mul34 (pseudoinverse m) m = one3.
Proof.
  intros m F. pose proof (rank_pivots m F) as P. cbv zeta in P. destruct P as [P1 [P2 P3]].
  pose proof (start_gram m) as G. cbv zeta in G. pose proof (elim_inverse _ _ _ _ _ _ P1 P2 P3) as E. cbv zeta in E.
  set (g := gram _ _ _ _ _ _) in *. pose proof (agree_elim _ _ G) as A. 
  assert (Q : forall i j, (0 <= i < 3)%Z -> (0 <= j < 3)%Z ->
    eliminated (pinv_start m) i 3%Z * g 0%Z j + eliminated (pinv_start m) i 4%Z * g 1%Z j + eliminated (pinv_start m) i 5%Z * g 2%Z j = if Z.eqb i j then 1 else 0).
  { intros i j Hi Hj. rewrite !A by lia. apply E; assumption. }
  unfold pseudoinverse. fold (eliminated (pinv_start m)). set (t := eliminated (pinv_start m)) in *. clearbody t. clear A E P1 P2 P3 G F.
  unfold mul34, one3, map3, tab3, tab4, ix3, sum_of, n0. cbn [a0 a1 a2 e0 e1 e2 e3 fold_left Z.add Pos.add Pos.succ]. cbn [n_of n_add n_mul N real_num].
  destruct m as [[m00 m01 m02] [m10 m11 m12] [m20 m21 m22] [m30 m31 m32]]. unfold g, gram, col4, dot4 in Q. unfold dot4, col4. cbn [a0 a1 a2 e0 e1 e2 e3 at3 at4 Z.eqb Pos.eqb] in *.
  repeat apply V3_eq;
  [ etransitivity; [|exact (Q 0%Z 0%Z ltac:(lia) ltac:(lia))] | etransitivity; [|exact (Q 0%Z 1%Z ltac:(lia) ltac:(lia))] | etransitivity; [|exact (Q 0%Z 2%Z ltac:(lia) ltac:(lia))]
  | etransitivity; [|exact (Q 1%Z 0%Z ltac:(lia) ltac:(lia))] | etransitivity; [|exact (Q 1%Z 1%Z ltac:(lia) ltac:(lia))] | etransitivity; [|exact (Q 1%Z 2%Z ltac:(lia) ltac:(lia))]
  | etransitivity; [|exact (Q 2%Z 0%Z ltac:(lia) ltac:(lia))] | etransitivity; [|exact (Q 2%Z 1%Z ltac:(lia) ltac:(lia))] | etransitivity; [|exact (Q 2%Z 2%Z ltac:(lia) ltac:(lia))] ]; cbn [Z.eqb Pos.eqb]; ring.
Qed.

(** ** The matrix of a camera *)
Lemma V3_inj : forall {A} (u v : vec3 A), a0 u = a0 v -> a1 u = a1 v -> a2 u = a2 v -> u = v.
Proof. intros A [a b c] [a' b' c']. cbn. intros; subst; reflexivity. Qed.
Lemma mul34_apply : forall p m v, mul34 p m = one3 -> app34 p (app43 m v) = v.
Proof.
  intros [[p00 p01 p02 p03] [p10 p11 p12 p13] [p20 p21 p22 p23]] [[m00 m01 m02] [m10 m11 m12] [m20 m21 m22] [m30 m31 m32]] [x y z].
  unfold mul34, one3, map3, col4, dot4. cbn [a0 a1 a2 e0 e1 e2 e3]. intros E. injection E as E1 E2 E3 E4 E5 E6 E7 E8 E9.
  unfold app34, app43, map3, map4, dot3, dot4. cbn [a0 a1 a2 e0 e1 e2 e3]. apply V3_eq.
  - transitivity ((p00 * m00 + p01 * m10 + p02 * m20 + p03 * m30) * x + (p00 * m01 + p01 * m11 + p02 * m21 + p03 * m31) * y + (p00 * m02 + p01 * m12 + p02 * m22 + p03 * m32) * z); [ring|].
    rewrite E1, E2, E3. ring.
  - transitivity ((p10 * m00 + p11 * m10 + p12 * m20 + p13 * m30) * x + (p10 * m01 + p11 * m11 + p12 * m21 + p13 * m31) * y + (p10 * m02 + p11 * m12 + p12 * m22 + p13 * m32) * z); [ring|].
    rewrite E4, E5, E6. ring.
  - transitivity ((p20 * m00 + p21 * m10 + p22 * m20 + p23 * m30) * x + (p20 * m01 + p21 * m11 + p22 * m21 + p23 * m31) * y + (p20 * m02 + p21 * m12 + p22 * m22 + p23 * m32) * z); [ring|].
    rewrite E7, E8, E9. ring.
Qed.
Lemma primaries : rgb_to_xyz = srgb_primaries /\ d65_white = d65.
Proof. unfold rgb_to_xyz, srgb_primaries, d65_white, d65, lit. cbn [n_div n_of N real_num]. split; repeat apply V3_eq; lra. Qed.

Definition raw_row (row : vec3 R) : vec3 R := tab3 (fun j => sum_of (fun k => n_mul (at3 row k) (at3 (at3 rgb_to_xyz k) j)) ix3).
Definition cam_row (row : vec3 R) : vec3 R :=
  let num := row_sum (raw_row row) in tab3 (fun j => if n_eq num n0 then n0 else n_div (at3 (raw_row row) j) num).
Lemma rgb_to_cam_rows : forall m, rgb_to_cam m = map4 cam_row m.
Proof. intros [r0 r1 r2 r3]. reflexivity. Qed.
Lemma raw_dot : forall row v, dot3 (raw_row row) v = response row v.
Proof.
  intros [a b c] [x y z]. unfold raw_row, response. destruct primaries as [-> _]. unfold srgb_primaries, app33, map3, dot3, tab3, ix3, sum_of, n0.
  cbn [a0 a1 a2 at3 Z.eqb Pos.eqb fold_left n_of n_add n_mul N real_num]. ring.
Qed.
Lemma row_sum_dot : forall row, row_sum row = dot3 row white3.
Proof. intros [a b c]. unfold row_sum, dot3, white3, ix3, sum_of, n0. cbn [a0 a1 a2 at3 Z.eqb Pos.eqb fold_left n_of n_add n_mul N real_num]. ring. Qed.
Lemma eq_bool : forall x y : R, n_eq x y = true <-> x = y.
Proof. intros x y. cbn [n_eq N real_num]. split; intros H; [destruct (Req_bool_spec x y); (discriminate || assumption)|apply Req_bool_true; exact H]. Qed.
Lemma cam_row_dot : forall row v, response row white3 <> 0 -> dot3 (cam_row row) v = response row v / response row white3.
Proof.
  intros row v H. rewrite <- raw_dot with (v := v). rewrite <- raw_dot in H |- *. rewrite <- row_sum_dot in H |- *. unfold cam_row. cbv zeta.
  destruct (n_eq (row_sum (raw_row row)) n0) eqn:E; [apply eq_bool in E; contradiction|].
  set (s := row_sum (raw_row row)) in *. destruct (raw_row row) as [a b c]. destruct v as [x y z]. unfold tab3, dot3. cbn [a0 a1 a2 at3 Z.eqb Pos.eqb n_div N real_num]. field. exact H.
Qed.
Lemma cam_row_absent : forall row, absent row -> cam_row row = V3 0 0 0.
Proof.
  intros row ->. assert (E : raw_row (V3 0 0 0) = V3 0 0 0).
  { unfold raw_row, tab3, ix3, sum_of, n0. cbn [a0 a1 a2 at3 Z.eqb Pos.eqb fold_left n_of n_add n_mul N real_num]. apply V3_eq; ring. }
  unfold cam_row. cbv zeta. rewrite E. assert (E2 : n_eq (row_sum (V3 0 0 0)) n0 = true).
  { apply eq_bool. rewrite row_sum_dot. unfold dot3, white3, n0. cbn [a0 a1 a2 n_of N real_num]. ring. }
  rewrite E2. reflexivity.
Qed.
Lemma measured_cam : forall m rgb cam, measures m rgb cam -> cam = app43 (rgb_to_cam m) rgb.
Proof.
  intros m rgb [c0 c1 c2 c3] [H0 [H1 [H2 H3]]]. rewrite rgb_to_cam_rows. unfold app43, map4. cbn [e0 e1 e2 e3] in *.
  assert (K : forall row c, (absent row /\ c = 0) \/ (response row white3 <> 0 /\ c = response row rgb / response row white3) -> c = dot3 (cam_row row) rgb).
  { intros row c [[A ->]|[A ->]]; [rewrite cam_row_absent by exact A; unfold dot3; cbn; ring|rewrite cam_row_dot by exact A; reflexivity]. }
  rewrite <- (K _ _ H0), <- (K _ _ H1), <- (K _ _ H2), <- (K _ _ H3). reflexivity.
Qed.
Lemma cam_rank : forall m, sound_camera m -> full_rank m -> full_rank (rgb_to_cam m).
Proof.
  intros m [S0 [S1 [S2 S3]]] F v H. rewrite rgb_to_cam_rows in H. unfold app43, map4 in H. cbn [e0 e1 e2 e3] in H. injection H as H0 H1 H2 H3.
  assert (K : forall row, sound_filter row -> dot3 (cam_row row) v = 0 -> dot3 row (app33 srgb_primaries v) = 0).
  { intros row [A|A] E; [rewrite A; unfold dot3; cbn; ring|]. rewrite cam_row_dot in E by exact A. change (response row v = 0).
    apply Rmult_eq_reg_r with (/ response row white3); [unfold Rdiv in E; lra|]. apply Rinv_neq_0_compat. exact A. }
  assert (Z : app33 srgb_primaries v = V3 0 0 0).
  { apply F. unfold app43, map4. rewrite (K _ S0 H0), (K _ S1 H1), (K _ S2 H2), (K _ S3 H3). reflexivity. }
  destruct v as [x y z]. unfold app33, map3, srgb_primaries, dot3 in Z. cbn [a0 a1 a2] in Z. injection Z as Z0 Z1 Z2. apply V3_eq; lra.
Qed.
Lemma xyz_of_cam : forall m w, let p := app34 (pseudoinverse (rgb_to_cam m)) w in app34 (cam_to_xyz m) w = relative_xyz p.
Proof.
  intros m w p. unfold cam_to_xyz, relative_xyz, p. destruct primaries as [-> ->]. destruct (pseudoinverse (rgb_to_cam m)) as [[p00 p01 p02 p03] [p10 p11 p12 p13] [p20 p21 p22 p23]].
  destruct w as [w0 w1 w2 w3]. unfold srgb_primaries, d65, app34, app33, map3, dot3, dot4, tab3, tab4, ix3, sum_of, n0.
  cbn [a0 a1 a2 e0 e1 e2 e3 at3 at4 Z.eqb Pos.eqb fold_left n_of n_add n_mul n_div N real_num]. apply V3_eq; lra.
Qed.
Lemma camera_inverted : forall m rgb cam, sound_camera m -> full_rank m -> measures m rgb cam -> app34 (cam_to_xyz m) cam = relative_xyz rgb.
Proof.
  intros m rgb cam S F H. rewrite xyz_of_cam. f_equal. apply measured_cam in H. subst cam. apply mul34_apply. apply pinv_left. apply cam_rank; assumption.
Qed.
End S.
