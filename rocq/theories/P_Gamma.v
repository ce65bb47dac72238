(** Gamma correction in exact arithmetic (C56). *)
From Coq Require Import String ZArith List Bool Reals Lia Lra.
From Flocq Require Import Core.
From Verif Require Import Base Num Transform Image Colors Spec_Orient Spec_Real Spec_Gamma.
From Verif Require Import P_Base P_Srgb1.
Import ListNotations.
Local Open Scope Z_scope.

(** ** The function *)
Lemma knee : (1638 / 10000 <= Rpower (18 / 1000) (45 / 100))%R.
Proof.
  assert (E1 : Rpower (Rpower (1638 / 10000) (INR 20)) (/ 20) = (1638 / 10000)%R).
  { rewrite Rpower_mult. replace (INR 20 * / 20)%R with 1%R by (cbn; lra). apply Rpower_1. lra. }
  assert (E2 : Rpower (Rpower (18 / 1000) (INR 9)) (/ 20) = Rpower (18 / 1000) (45 / 100)).
  { rewrite Rpower_mult. f_equal. cbn. lra. }
  rewrite <- E1, <- E2. apply Rle_Rpower_l; [lra|]. rewrite !Rpower_pow by lra. split; [apply pow_lt; lra|]. cbn [pow]. lra.
Qed.
Lemma bt709_mono : forall x y, (0 <= x <= y)%R -> (bt709 x <= bt709 y)%R.
Proof.
  intros x y H. unfold bt709. destruct (Rle_dec x (18 / 1000)) as [X|X], (Rle_dec y (18 / 1000)) as [Y|Y].
  - lra.
  - pose proof knee. assert (Rpower (18 / 1000) (45 / 100) <= Rpower y (45 / 100))%R by (apply Rle_Rpower_l; lra). lra.
  - lra.
  - assert (Rpower x (45 / 100) <= Rpower y (45 / 100))%R by (apply Rle_Rpower_l; lra). lra.
Qed.
Lemma one_power : forall y, Rpower 1 y = 1%R.
Proof. intros y. unfold Rpower. rewrite ln_1, Rmult_0_r. apply exp_0. Qed.
Lemma bt709_ends : bt709 0 = 0%R /\ bt709 1 = 1%R.
Proof.
  unfold bt709. destruct (Rle_dec 0 (18 / 1000)); [|lra]. destruct (Rle_dec 1 (18 / 1000)); [lra|]. rewrite one_power. lra.
Qed.
Lemma step_range : forall x, (0 <= x <= 1)%R -> (0 <= step_below x <= 1)%R /\ (step_below x <= x < step_below x + / 65536)%R.
Proof.
  intros x H. unfold step_below. pose proof (Zfloor_lb (x * 65536)). pose proof (Zfloor_ub (x * 65536)).
  assert (0 <= IZR (Zfloor (x * 65536)))%R by (apply (IZR_le 0); apply Zfloor_lub; cbn; lra). lra.
Qed.
Lemma step_mono : forall x y, (x <= y)%R -> (step_below x <= step_below y)%R.
Proof. intros x y H. unfold step_below. assert (IZR (Zfloor (x * 65536)) <= IZR (Zfloor (y * 65536)))%R by (apply IZR_le; apply Zfloor_le; lra). lra. Qed.
Lemma clamp_mono : forall x y, (x <= y)%R -> (clamp x <= clamp y)%R.
Proof. intros x y H. unfold clamp. apply Rle_max_compat_l. apply Rle_min_compat_l. exact H. Qed.

Section S.
Context (root3 : R -> R).
Let N : Num R := real_num root3 Rpower.
Existing Instance N.

Lemma entry_is : forall i, 0 <= i <= 65536 -> gamma_entry i = bt709 (IZR i / 65536)%R.
Proof.
  intros i Hi. unfold gamma_entry, bt709, lit, n1. cbn [n_div n_of n_le n_mul n_sub n_add n_pow real_num N].
  change (IZR 65536) with 65536%R. destruct (Rle_bool_spec (IZR i / 65536) (IZR 18 / IZR 1000)) as [L|L]; destruct (Rle_dec (IZR i / 65536) (18 / 1000)) as [L'|L']; try lra; reflexivity.
Qed.
Lemma clamp_range : forall x, (0 <= clamp x <= 1)%R.
Proof. intros x. unfold clamp. split; [apply Rmax_l|]. apply Rmax_lub; [lra|apply Rmin_l]. Qed.
Lemma index_is : forall v, gamma_index v = Zfloor (clamp v * 65536) /\ 0 <= gamma_index v <= 65536.
Proof.
  intros v. pose proof (clamp_range v) as C.
  assert (E : Rmin (Rmax v (IZR 0) * IZR 65536) (IZR 65536) = (clamp v * 65536)%R).
  { unfold clamp. change (IZR 0) with 0%R. change (IZR 65536) with 65536%R. unfold Rmin, Rmax. destruct (Rle_dec v 0), (Rle_dec 1 v); repeat destruct (Rle_dec _ _); lra. }
  assert (R : 0 <= Zfloor (clamp v * 65536) <= 65536).
  { split; [apply Zfloor_lub; cbn; lra|]. apply le_IZR. apply Rle_trans with (clamp v * 65536)%R; [apply Zfloor_lb|cbn; lra]. }
  assert (Q : gamma_index v = Zfloor (clamp v * 65536)); [|split; [exact Q|rewrite Q; exact R]].
  unfold gamma_index, to_usize. cbn [n_to n_min n_mul n_max n_of real_num N]. unfold n0. cbn [n_of real_num N]. rewrite E, Ztrunc_floor by lra. lia.
Qed.
Lemma value_is : forall v, gamma_value v = Ok (bt709 (step_below (clamp v))).
Proof.
  intros v. destruct (index_is v) as [E R]. unfold gamma_value. replace (gamma_index v <? 65537) with true by (symmetry; apply Z.ltb_lt; lia).
  rewrite entry_is by exact R. rewrite E. reflexivity.
Qed.
Lemma gamma_is : forall (M : Mode) b, well_formed b -> exists out, gamma b = Ok out /\ owidth out = owidth b /\ oheight out = oheight b /\ ocolors out = ocolors b /\
  forall y x c v, 0 <= y < oheight b -> 0 <= x < owidth b -> 0 <= c < ocolors b -> sample_at b y x c = Some v -> sample_at out y x c = Some (bt709 (step_below (clamp v))).
Proof.
  intros M b WF. pose proof WF as (Hw & Hh & Hc & L & _).
  destruct (mutate_each 1 (owidth b * ocolors b) (fun pix => v <- get pix 0 ;; g <- gamma_value v ;; upd pix 0 g) b WF ltac:(lia) ltac:(lia)) as [out [E [W [O1 [O2 [O3 P]]]]]].
  { intros p Lp. destruct p as [|v [|u p]]; unfold zlen in Lp; cbn in Lp; try lia. eexists. split; [unfold get; cbn; rewrite value_is; reflexivity|reflexivity]. }
  exists out. split; [exact E|]. do 3 (split; [assumption|]). intros y x c v Hy Hx Hc' Hv.
  pose proof W as (_ & _ & _ & Lo & _).
  assert (Ho : forall (u : opbuf R), owidth u = owidth b -> oheight u = oheight b -> ocolors u = ocolors b -> well_formed u ->
    exists a, sample_at u y x c = Some a /\ run u 1 y (x * ocolors b + c) = [a]).
  { intros u U1 U2 U3 (_ & _ & _ & Lu & _). unfold sample_at, run. rewrite U1, U3. 
    replace (y * (owidth b * ocolors b) + (x * ocolors b + c) * 1) with ((y * owidth b + x) * ocolors b + c) by ring. set (k := (y * owidth b + x) * ocolors b + c).
    assert (K : 0 <= k < Z.of_nat (length (odata u))).
    { rewrite Lu, U1, U2, U3. unfold k. assert (0 <= y * owidth b + x < owidth b * oheight b) by nia. nia. }
    destruct (nth_error (odata u) (Z.to_nat k)) as [a|] eqn:A; [|apply nth_error_None in A; lia]. exists a. split; [reflexivity|].
    change (Z.to_nat 1) with 1%nat. apply nth_error_split in A. destruct A as (l1 & l2 & -> & <-). rewrite skipn_app, Nat.sub_diag, (skipn_all2 l1) by lia. reflexivity. }
  destruct (Ho b eq_refl eq_refl eq_refl WF) as (a & A1 & A2). destruct (Ho out O1 O2 O3 W) as (a' & B1 & B2).
  assert (a = v) by congruence. subst a. rewrite B1. specialize (P y (x * ocolors b + c) Hy ltac:(nia)). rewrite A2, B2 in P. cbn in P. rewrite value_is in P. cbn in P. injection P as <-. reflexivity.
Qed.

Lemma gamma_order : forall (M : Mode) b, well_formed b -> exists out, gamma b = Ok out /\
  forall y x c v y' x' c' v', 0 <= y < oheight b -> 0 <= x < owidth b -> 0 <= c < ocolors b -> sample_at b y x c = Some v ->
    0 <= y' < oheight b -> 0 <= x' < owidth b -> 0 <= c' < ocolors b -> sample_at b y' x' c' = Some v' -> (v <= v')%R ->
    exists g g', sample_at out y x c = Some g /\ sample_at out y' x' c' = Some g' /\ (0 <= g <= g')%R /\ (g' <= 1)%R.
Proof.
  intros M b WF. destruct (gamma_is M b WF) as (out & E & _ & _ & _ & P). exists out. split; [exact E|]. intros y x c v y' x' c' v' Hy Hx Hc Hv Hy' Hx' Hc' Hv' L.
  eexists. eexists. split; [apply P; eassumption|]. split; [apply P; eassumption|]. destruct bt709_ends as [B0 B1].
  destruct (step_range _ (clamp_range v)) as [[R1 R2] _]. destruct (step_range _ (clamp_range v')) as [[R3 R4] _].
  split; [split|].
  - rewrite <- B0 at 1. apply bt709_mono. lra.
  - apply bt709_mono. split; [exact R1|]. apply step_mono. apply clamp_mono. exact L.
  - rewrite <- B1. apply bt709_mono. lra.
Qed.
End S.
