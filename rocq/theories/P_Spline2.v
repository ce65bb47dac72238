(** The base curve over the real numbers: pieces meet, and it does not fall. *)
From Coq Require Import ZArith List Bool Reals Lia Lra Psatz ZifyBool ZifyNat.
From Flocq Require Import Core.
From Verif Require Import Base Num Image Gofloat Colors P_Base P_Orient Spec_Real P_Spline.
Import ListNotations.
Local Open Scope R_scope.

(** A cubic with slopes [p], [q] at the ends and mean slope [m], on the unit interval. *)
Lemma corner_sum : forall u v F00 F10 F01 F11, 0 <= u <= 1 -> 0 <= v <= 1 -> 0 <= F00 -> 0 <= F10 -> 0 <= F01 -> 0 <= F11 ->
  0 <= (1 - u) * (1 - v) * F00 + u * (1 - v) * F10 + (1 - u) * v * F01 + u * v * F11.
Proof.
  intros u v F00 F10 F01 F11 Hu Hv H0 H1 H2 H3.
  assert (0 <= (1 - u) * (1 - v)) by (apply Rmult_le_pos; lra). assert (0 <= u * (1 - v)) by (apply Rmult_le_pos; lra).
  assert (0 <= (1 - u) * v) by (apply Rmult_le_pos; lra). assert (0 <= u * v) by (apply Rmult_le_pos; lra).
  repeat apply Rplus_le_le_0_compat; apply Rmult_le_pos; assumption.
Qed.
Lemma cubic_rises : forall m p q a b, 0 <= m -> 0 <= p <= 3 * m -> 0 <= q <= 3 * m -> 0 <= a <= 1 -> 0 <= b <= 1 ->
  0 <= p + (3 * m - 2 * p - q) * (a + b) + (p + q - 2 * m) * (a * a + a * b + b * b).
Proof.
  intros m p q a b Hm Hp Hq Ha Hb. destruct (Rle_lt_or_eq_dec 0 m Hm) as [P|<-].
  2:{ replace p with 0 by lra. replace q with 0 by lra. lra. }
  set (u := p / (3 * m)). set (v := q / (3 * m)).
  assert (Eu : p = 3 * m * u) by (unfold u; field; lra). assert (Ev : q = 3 * m * v) by (unfold v; field; lra).
  assert (Hu : 0 <= u <= 1).
  { unfold u. split; [apply Rmult_le_pos; [lra|apply Rlt_le, Rinv_0_lt_compat; lra]|]. apply (Rmult_le_reg_r (3 * m)); [lra|]. unfold Rdiv. rewrite Rmult_assoc, Rinv_l by lra. lra. }
  assert (Hv : 0 <= v <= 1).
  { unfold v. split; [apply Rmult_le_pos; [lra|apply Rlt_le, Rinv_0_lt_compat; lra]|]. apply (Rmult_le_reg_r (3 * m)); [lra|]. unfold Rdiv. rewrite Rmult_assoc, Rinv_l by lra. lra. }
  clearbody u v. subst p q.
  assert (G : 0 <= m * ((1 - u) * (1 - v) * (3 * (a + b) - 2 * (a * a + a * b + b * b)) + u * (1 - v) * (3 - 3 * (a + b) + (a * a + a * b + b * b))
     + (1 - u) * v * (a * a + a * b + b * b) + u * v * (3 - 6 * (a + b) + 4 * (a * a + a * b + b * b)))).
  { apply Rmult_le_pos; [exact Hm|]. apply corner_sum; [exact Hu|exact Hv|nra| | |].
    - replace (3 - 3 * (a + b) + (a * a + a * b + b * b)) with ((1 - a) * (1 - a) + (1 - a) * (1 - b) + (1 - b) * (1 - b)) by ring.
      assert (0 <= (1 - a) * (1 - b)) by (apply Rmult_le_pos; lra). nra.
    - assert (0 <= a * b) by (apply Rmult_le_pos; lra). nra.
    - replace (3 - 6 * (a + b) + 4 * (a * a + a * b + b * b)) with ((2 * a + b - 3 / 2) * (2 * a + b - 3 / 2) + 3 * ((b - 1 / 2) * (b - 1 / 2))) by field.
      pose proof (Rle_0_sqr (2 * a + b - 3 / 2)) as S1. pose proof (Rle_0_sqr (b - 1 / 2)) as S2. unfold Rsqr in S1, S2. lra. }
  eapply Rle_trans; [exact G|]. apply Req_le. ring.
Qed.

Section R.
Context {M : Mode}.
Variable root3 : R -> R.
Variable power : R -> R -> R.
Local Instance N : Num R := real_num root3 power.
Variables xs ys : list R.
Notation x_ i := (at0 0%R xs i).
Notation y_ i := (at0 0%R ys i).
Notation n := (zlen xs).
Hypothesis LEN : (2 <= n)%Z.
Hypothesis LENY : zlen ys = n.
Hypothesis SX : forall i j, (0 <= i < j)%Z -> (j < n)%Z -> x_ i < x_ j.
Notation piece := (piece 0%R xs ys).
Notation step i := (step_of 0%R xs i).
Notation slope i := (slope_of 0%R xs ys i).
Notation tan_ i := (tangent 0%R xs ys i).
Lemma step_pos : forall i, (0 <= i < n - 1)%Z -> 0 < step i.
Proof. intros i Hi. unfold step_of. cbn. pose proof (SX i (i + 1) ltac:(lia) ltac:(lia)). lra. Qed.
Lemma step_eq : forall i, step i = x_ (i + 1) - x_ i.
Proof. reflexivity. Qed.
Lemma slope_eq : forall i, slope i = (y_ (i + 1) - y_ i) / step i.
Proof. reflexivity. Qed.
Lemma piece_eq : forall i v, (0 <= i < n - 1)%Z -> piece i v =
  let t := (v - x_ i) / step i in
  y_ i + step i * (tan_ i * t + (3 * slope i - 2 * tan_ i - tan_ (i + 1)) * t * t + (tan_ i + tan_ (i + 1) - 2 * slope i) * t * t * t).
Proof.
  intros i v Hi. pose proof (step_pos i Hi). cbv zeta. unfold P_Spline.piece, curvature, spline_coeffs. cbn [fst snd N real_num n_add n_sub n_mul n_div n1 n_of].
  change (n1 (A := R)) with 1. field. lra.
Qed.
Lemma piece_left : forall i, (0 <= i < n - 1)%Z -> piece i (x_ i) = y_ i.
Proof. intros i Hi. pose proof (step_pos i Hi). rewrite piece_eq by exact Hi. cbv zeta. field. lra. Qed.
Lemma piece_right : forall i, (0 <= i < n - 1)%Z -> piece i (x_ (i + 1)) = y_ (i + 1).
Proof.
  intros i Hi. pose proof (step_pos i Hi). rewrite piece_eq by exact Hi. cbv zeta. replace ((x_ (i + 1) - x_ i) / step i) with 1 by (rewrite step_eq in *; field; lra).
  replace (y_ (i + 1)) with (y_ i + step i * slope i) by (rewrite slope_eq; field; lra). ring.
Qed.
Lemma inner_eq : forall dx m dxn nxt, spline_inner dx m dxn nxt = if Rle_bool (m * nxt) 0 then 0 else 3 * (dx + dxn) / ((dx + dxn + dxn) / m + (dx + dxn + dx) / nxt).
Proof. reflexivity. Qed.
Lemma inner_small : forall dx m dxn nxt, 0 < dx -> 0 < dxn -> 0 <= m -> 0 <= nxt ->
  0 <= spline_inner dx m dxn nxt <= 3 * m /\ spline_inner dx m dxn nxt <= 3 * nxt.
Proof.
  intros dx m dxn nxt H1 H2 H3 H4. rewrite inner_eq. destruct (Rle_bool_spec (m * nxt) 0) as [E|E]; [lra|].
  assert (Pm : 0 < m). { destruct H3 as [H3|<-]; [exact H3|lra]. } assert (Pn : 0 < nxt). { destruct H4 as [H4|<-]; [exact H4|lra]. }
  assert (A1 : 0 < (dx + dxn + dxn) / m) by (apply Rdiv_lt_0_compat; lra). assert (A2 : 0 < (dx + dxn + dx) / nxt) by (apply Rdiv_lt_0_compat; lra).
  set (D := (dx + dxn + dxn) / m + (dx + dxn + dx) / nxt) in *. assert (P : 0 < D) by (unfold D; lra).
  split; [split|].
  - apply Rlt_le, Rdiv_lt_0_compat; lra.
  - apply (Rmult_le_reg_r D); [exact P|]. unfold Rdiv at 1. rewrite Rmult_assoc, Rinv_l by lra.
    assert (E2 : m * D = dx + dxn + dxn + m * ((dx + dxn + dx) / nxt)) by (unfold D; field; lra).
    assert (0 < m * ((dx + dxn + dx) / nxt)) by (apply Rmult_lt_0_compat; lra). lra.
  - apply (Rmult_le_reg_r D); [exact P|]. unfold Rdiv at 1. rewrite Rmult_assoc, Rinv_l by lra.
    assert (E2 : nxt * D = dx + dxn + dx + nxt * ((dx + dxn + dxn) / m)) by (unfold D; field; lra).
    assert (0 < nxt * ((dx + dxn + dxn) / m)) by (apply Rmult_lt_0_compat; lra). lra.
Qed.

Hypothesis SY : forall i j, (0 <= i <= j)%Z -> (j < n)%Z -> y_ i <= y_ j.
Lemma slope_pos : forall i, (0 <= i < n - 1)%Z -> 0 <= slope i.
Proof.
  intros i Hi. rewrite slope_eq. pose proof (step_pos i Hi). pose proof (SY i (i + 1) ltac:(lia) ltac:(lia)).
  apply Rmult_le_pos; [lra|]. apply Rlt_le, Rinv_0_lt_compat; assumption.
Qed.
Lemma tangent_left : forall i, (0 <= i < n - 1)%Z -> 0 <= tan_ i <= 3 * slope i.
Proof.
  intros i Hi. pose proof (slope_pos i Hi). unfold tangent. destruct (Z.eqb_spec i 0) as [->|N0]; [lra|]. destruct (Z.eqb_spec i (n - 1)); [lia|].
  destruct (inner_small (step (i - 1)) (slope (i - 1)) (step i) (slope i)) as [[A B] C]; [apply step_pos; lia|apply step_pos; lia|apply slope_pos; lia|apply slope_pos; lia|].
  split; assumption.
Qed.
Lemma tangent_right : forall i, (0 <= i < n - 1)%Z -> 0 <= tan_ (i + 1) <= 3 * slope i.
Proof.
  intros i Hi. pose proof (slope_pos i Hi). unfold tangent. destruct (Z.eqb_spec (i + 1) 0) as [E|N0]; [lia|]. destruct (Z.eqb_spec (i + 1) (n - 1)) as [E|N1].
  { replace (n - 2)%Z with i by lia. lra. }
  destruct (inner_small (step (i + 1 - 1)) (slope (i + 1 - 1)) (step (i + 1)) (slope (i + 1))) as [[A B] C]; [apply step_pos; lia|apply step_pos; lia|apply slope_pos; lia|apply slope_pos; lia|].
  replace (i + 1 - 1)%Z with i in * by lia. split; assumption.
Qed.
Lemma piece_rises : forall i v w, (0 <= i < n - 1)%Z -> x_ i <= v -> v <= w -> w <= x_ (i + 1) -> piece i v <= piece i w.
Proof.
  intros i v w Hi H1 H2 H3. pose proof (step_pos i Hi) as P. rewrite !piece_eq by exact Hi. cbv zeta.
  set (a := (v - x_ i) / step i). set (b := (w - x_ i) / step i). pose proof (step_eq i) as S. set (h := step i) in *.
  assert (Ea : v - x_ i = a * h) by (unfold a; field; lra). assert (Eb : w - x_ i = b * h) by (unfold b; field; lra).
  assert (Ha : 0 <= a <= 1). { split; apply (Rmult_le_reg_r h); lra. } assert (Hb : 0 <= b <= 1). { split; apply (Rmult_le_reg_r h); lra. }
  assert (AB : a <= b). { apply (Rmult_le_reg_r h); lra. }
  pose proof (cubic_rises (slope i) (tan_ i) (tan_ (i + 1)) a b (slope_pos i Hi) (tangent_left i Hi) (tangent_right i Hi) Ha Hb) as G.
  set (m := slope i) in *. set (p := tan_ i) in *. set (q := tan_ (i + 1)) in *. clearbody a b h m p q.
  assert (G2 : 0 <= h * ((b - a) * (p + (3 * m - 2 * p - q) * (a + b) + (p + q - 2 * m) * (a * a + a * b + b * b)))).
  { apply Rmult_le_pos; [lra|]. apply Rmult_le_pos; [lra|exact G]. }
  apply Rminus_le. match goal with |- ?d <= 0 => replace d with (- (h * ((b - a) * (p + (3 * m - 2 * p - q) * (a + b) + (p + q - 2 * m) * (a * a + a * b + b * b))))) by ring end. lra.
Qed.
Lemma piece_between : forall i v, (0 <= i < n - 1)%Z -> x_ i <= v <= x_ (i + 1) -> y_ i <= piece i v <= y_ (i + 1).
Proof.
  intros i v Hi [H1 H2]. split.
  - rewrite <- (piece_left i Hi) at 1. apply piece_rises; [exact Hi|lra|exact H1|exact H2].
  - rewrite <- (piece_right i Hi). apply piece_rises; [exact Hi|exact H1|exact H2|lra].
Qed.

Variable s : spline (A := R).
Hypothesis SP : is_spline 0%R xs ys s.
Hypothesis LIM : (n < 2 ^ 63)%Z.
Let LT : forall x y : R, True -> True -> (n_lt x y = true <-> x < y).
Proof. intros x y _ _. cbn. destruct (Rlt_bool_spec x y); split; intros; (reflexivity || discriminate || lra). Qed.
Let LE : forall x y : R, True -> True -> (n_le x y = true <-> x <= y).
Proof. intros x y _ _. cbn. destruct (Rle_bool_spec x y); split; intros; (reflexivity || discriminate || lra). Qed.
Notation good := (fun _ : R => True).
Notation key := (fun x : R => x).
Lemma r_point : forall i, (0 <= i < n)%Z -> interpolate s (x_ i) = Ok (y_ i).
Proof. intros i Hi. apply (at_point 0%R xs ys LEN LENY s SP LIM good key LT LE); auto. Qed.
Lemma r_piece : forall i v, (0 <= i < n - 1)%Z -> x_ i <= v <= x_ (i + 1) -> interpolate s v = Ok (piece i v).
Proof.
  clear SY. intros i v Hi [[H1|H1] [H2|H2]]; [|subst v|subst v|subst v].
  - apply (in_piece 0%R xs ys LEN LENY s SP LIM good key LT LE); auto.
  - rewrite piece_right by exact Hi. apply r_point. lia.
  - rewrite piece_left by exact Hi. apply r_point. lia.
  - rewrite piece_left by exact Hi. apply r_point. lia.
Qed.
Lemma r_beyond : forall v, x_ (n - 1) <= v -> interpolate s v = Ok (y_ (n - 1)).
Proof. clear SY. intros v H. apply (beyond 0%R xs ys LEN LENY s SP LIM good key LT LE); auto. Qed.
Lemma r_before : forall v, v < x_ 0 -> interpolate s v = Ok (piece 0 v).
Proof. clear SY. intros v H. apply (before 0%R xs ys LEN LENY s SP LIM good key LT LE); auto. Qed.
(** The piece a value is in. *)
Lemma locate : forall v, x_ 0 <= v -> v < x_ (n - 1) -> exists i, (0 <= i < n - 1)%Z /\ x_ i <= v < x_ (i + 1).
Proof.
  intros v H1 H2. assert (G : forall k : nat, (Z.of_nat k <= n - 1)%Z -> v < x_ (Z.of_nat k) -> exists i, (0 <= i < n - 1)%Z /\ x_ i <= v < x_ (i + 1)).
  { induction k as [|k IH]; intros Hk Hv; [cbn in Hv; lra|]. destruct (Rle_lt_dec (x_ (Z.of_nat k)) v) as [C|C]; [|apply IH; [lia|exact C]].
    exists (Z.of_nat k). split; [lia|]. split; [exact C|]. replace (Z.of_nat k + 1)%Z with (Z.of_nat (S k)) by lia. exact Hv. }
  apply (G (Z.to_nat (n - 1))); [lia|]. rewrite Z2Nat.id by lia. exact H2.
Qed.
Lemma r_value : forall v, x_ 0 <= v -> exists r, interpolate s v = Ok r /\ y_ 0 <= r <= y_ (n - 1) /\
  (forall i, (0 <= i < n)%Z -> x_ i <= v -> y_ i <= r) /\ (forall i, (0 <= i < n)%Z -> v <= x_ i -> r <= y_ i).
Proof.
  intros v H. destruct (Rle_lt_dec (x_ (n - 1)) v) as [C|C].
  - exists (y_ (n - 1)). split; [apply r_beyond, C|]. split; [split; [apply SY; lia|lra]|]. split; [intros i Hi _; apply SY; lia|].
    intros i Hi Hv. destruct (Z.eq_dec i (n - 1)) as [->|NE]; [lra|]. pose proof (SX i (n - 1) ltac:(lia) ltac:(lia)). lra.
  - destruct (locate v H C) as [k [Hk [K1 K2]]]. exists (piece k v). split; [apply r_piece; [exact Hk|lra]|].
    pose proof (piece_between k v Hk ltac:(lra)) as [B1 B2]. split.
    { split; [pose proof (SY 0 k ltac:(lia) ltac:(lia)); lra|pose proof (SY (k + 1) (n - 1) ltac:(lia) ltac:(lia)); lra]. }
    split; intros i Hi Hv.
    + assert (i <= k)%Z. { destruct (Z_le_dec i k); [assumption|]. destruct (Z.eq_dec i (k + 1)) as [->|NE]; [lra|]. pose proof (SX (k + 1) i ltac:(lia) ltac:(lia)). lra. }
      pose proof (SY i k ltac:(lia) ltac:(lia)). lra.
    + destruct (Z_le_dec (k + 1) i) as [G|G]; [pose proof (SY (k + 1) i ltac:(lia) ltac:(lia)); lra|].
      destruct (Z.eq_dec i k) as [->|NE]; [|pose proof (SX i k ltac:(lia) ltac:(lia)); lra]. replace v with (x_ k) by lra. rewrite piece_left by exact Hk. lra.
Qed.
Lemma r_rises : forall v w a b, x_ 0 <= v -> v <= w -> interpolate s v = Ok a -> interpolate s w = Ok b -> a <= b.
Proof.
  intros v w a b H1 H2 Ea Eb. destruct (r_value v H1) as [a' [Ea' [Ba [La Ua]]]]. destruct (r_value w ltac:(lra)) as [b' [Eb' [Bb [Lb Ub]]]].
  replace a' with a in * by congruence. replace b' with b in * by congruence. clear Ea' Eb'.
  destruct (Rle_lt_dec (x_ (n - 1)) w) as [C|C].
  { rewrite r_beyond in Eb by exact C. replace b with (y_ (n - 1)) by congruence. lra. }
  destruct (locate v H1 ltac:(lra)) as [k [Hk [K1 K2]]]. destruct (Rle_lt_dec w (x_ (k + 1))) as [D|D].
  - rewrite (r_piece k) in Ea, Eb by (lia || lra). replace a with (piece k v) by congruence. replace b with (piece k w) by congruence. apply piece_rises; [exact Hk|lra|exact H2|exact D].
  - pose proof (Ua (k + 1)%Z ltac:(lia) ltac:(lra)). pose proof (Lb (k + 1)%Z ltac:(lia) ltac:(lra)). lra.
Qed.
End R.
