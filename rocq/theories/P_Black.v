(** Proofs about black levels measured in masked areas (C50). *)
From Coq Require Import String ZArith List Bool Reals Lia Lra ZifyBool ZifyNat.
From Flocq Require Import Core BinarySingleNaN Relative.
From Verif Require Import Base Num F32 Cfa Camera Image Decoder Spec_Bits Spec_Cfa Spec_Meta P_Base P_Cfa2 P_F32.
Import ListNotations.
Local Open Scope Z_scope.

(** A quotient is not rounded over the next integer. *)
Lemma div_floor : forall a n, 0 <= a < 2 ^ 24 -> 0 < n <= 2 ^ 24 -> Ztrunc (RN (IZR a / IZR n)) = a / n.
Proof.
  intros a n Ha Hn. change (2 ^ 24) with 16777216 in *. set (k := a / n).
  assert (Hk : k * n <= a < (k + 1) * n) by (unfold k; pose proof (Z.mul_div_le a n ltac:(lia)); pose proof (Z.mul_succ_div_gt a n ltac:(lia)); lia).
  assert (K0 : 0 <= k) by (apply Z.div_pos; lia). assert (K1 : k < 16777216) by nia.
  assert (Rn : (0 < IZR n)%R) by (apply IZR_lt; lia).
  assert (L : (IZR k <= IZR a / IZR n)%R).
  { apply Rmult_le_reg_r with (IZR n); [exact Rn|]. unfold Rdiv. rewrite Rmult_assoc, Rinv_l, Rmult_1_r by lra. rewrite <- mult_IZR. apply IZR_le. lia. }
  assert (L' : (IZR k <= RN (IZR a / IZR n))%R).
  { apply RN_ge; [|exact L]. apply gf_int. lia. }
  assert (U : (RN (IZR a / IZR n) < IZR (k + 1))%R).
  { destruct (Z.eq_dec a 0) as [->|Na].
    - unfold Rdiv. rewrite Rmult_0_l, RN_0. apply IZR_lt. lia.
    - assert (X : (0 < IZR a / IZR n)%R) by (apply Rdiv_lt_0_compat; [apply IZR_lt; lia|exact Rn]).
      pose proof (relative_error_N_FLT radix2 (-149) 24 ltac:(lia) (fun x => negb (Z.even x)) (IZR a / IZR n)) as E.
      rewrite <- fe_flt in E. rewrite (Rabs_pos_eq (IZR a / IZR n)) in E by lra.
      assert (B : (bpow radix2 (-149 + 24 - 1) <= IZR a / IZR n)%R).
      { apply Rle_trans with (bpow radix2 (-24)); [apply bpow_le; lia|]. change (bpow radix2 (-24)) with (/ IZR 16777216)%R.
        apply Rle_trans with (/ IZR n)%R; [apply Rinv_le; [exact Rn|apply IZR_le; lia]|].
        unfold Rdiv. rewrite <- (Rmult_1_l (/ IZR n)) at 1. apply Rmult_le_compat_r; [left; apply Rinv_0_lt_compat; exact Rn|apply IZR_le; lia]. }
      specialize (E B). apply Rabs_le_inv in E.
      assert (P : (/ 2 * bpow radix2 (-24 + 1) = / IZR 16777216)%R) by (change (bpow radix2 (-24 + 1)) with (/ IZR 8388608)%R; lra).
      change (Z.opp 24 + 1) with (-24 + 1) in E. rewrite P in E. clear P.
      assert (S1 : (/ IZR 16777216 * (IZR a / IZR n) < / IZR n)%R).
      { unfold Rdiv. rewrite <- Rmult_assoc. rewrite <- (Rmult_1_l (/ IZR n)) at 2. apply Rmult_lt_compat_r; [apply Rinv_0_lt_compat; exact Rn|].
        apply Rmult_lt_reg_l with (IZR 16777216); [lra|]. rewrite <- Rmult_assoc, Rinv_r, Rmult_1_l, Rmult_1_r by lra. apply IZR_lt. lia. }
      assert (S2 : (IZR a / IZR n + / IZR n <= IZR (k + 1))%R).
      { apply Rmult_le_reg_r with (IZR n); [exact Rn|]. unfold Rdiv. rewrite Rmult_plus_distr_r, Rmult_assoc, Rinv_l, Rmult_1_r by lra.
        rewrite <- mult_IZR, <- plus_IZR. apply IZR_le. lia. }
      lra. }
  rewrite Ztrunc_floor by (apply Rle_trans with (IZR k); [apply IZR_le; lia|exact L']).
  apply Zfloor_imp. split; [exact L'|exact U].
Qed.

Section Black.
Context {M : Mode}.
Variables (name : string) (f : CFA) (image : list Z) (width height : Z).
Hypothesis Hname : pattern_name name.
Hypothesis Hf : cfa_new name = Ok f.
Hypothesis Hlen : Z.of_nat (length image) = width * height.
Hypothesis Hsam : samples image.
Hypothesis Hw : 0 <= width < 2 ^ 63.
Hypothesis Hh : 0 <= height < 2 ^ 63.

Definition inside (p : Z * Z) : Prop := 0 <= fst p < height /\ 0 <= snd p < width.
(** The accumulators hold these integers. *)
Definition holds (v : vec4 f32) (g : Z -> Z) : Prop := forall c, 0 <= c < 4 -> is_finite (at4 v c) = true /\ B2R (at4 v c) = IZR (g c).

Lemma get4_at : forall {A} (v : vec4 A) c, 0 <= c < 4 -> get4 v c = Ok (at4 v c).
Proof. intros A v c H. assert (c = 0 \/ c = 1 \/ c = 2 \/ c = 3) as [E|[E|[E|E]]] by lia; subst c; reflexivity. Qed.
Lemma set4_at : forall {A} (v : vec4 A) c x, 0 <= c < 4 -> exists v', set4 v c x = Ok v' /\ forall i, 0 <= i < 4 -> at4 v' i = if i =? c then x else at4 v i.
Proof.
  intros A v c x H. assert (c = 0 \/ c = 1 \/ c = 2 \/ c = 3) as [E|[E|[E|E]]] by lia; subst c; (eexists; split; [reflexivity|]);
  intros i Hi; assert (i = 0 \/ i = 1 \/ i = 2 \/ i = 3) as [E|[E|[E|E]]] by lia; subst i; reflexivity.
Qed.
Lemma holds_add : forall v g c x y, holds v g -> 0 <= c < 4 -> is_finite x = true -> B2R x = IZR y -> Z.abs (g c + y) <= 2 ^ 24 ->
  exists v', set4 v c (fadd (at4 v c) x) = Ok v' /\ holds v' (fun i => if i =? c then g i + y else g i).
Proof.
  intros v g c x y H Hc Fx Ex Hb. destruct (set4_at v c (fadd (at4 v c) x) Hc) as [v' [E A]]. exists v'. split; [exact E|].
  intros i Hi. rewrite (A i Hi). destruct (Z.eqb_spec i c) as [->|N]; [|apply H; exact Hi].
  destruct (H c Hc) as [F1 E1]. destruct (add_val (at4 v c) x F1 Fx) as [F2 E2].
  { rewrite E1, Ex, <- plus_IZR, <- abs_IZR. apply IZR_le. change (2 ^ 64) with 18446744073709551616. change (2 ^ 24) with 16777216 in Hb. lia. }
  split; [exact F2|]. unfold fadd. rewrite E2, E1, Ex, <- plus_IZR. apply RN_id. apply gf_int. exact Hb.
Qed.

Definition sum_of (ps : list (Z * Z)) (c : Z) : Z := total (measured name image width ps c).
Definition num_of (ps : list (Z * Z)) (c : Z) : Z := Z.of_nat (length (measured name image width ps c)).
Lemma measured_app : forall a b c, measured name image width (a ++ b) c = measured name image width a c ++ measured name image width b c.
Proof. intros. unfold measured. rewrite filter_app, map_app. reflexivity. Qed.
Lemma total_app : forall a b, total (a ++ b) = total a + total b.
Proof. induction a; intros b; [reflexivity|]. cbn [app total fold_right]. unfold total in *. rewrite IHa. lia. Qed.
Lemma nth_sample : forall k, sample (nth k image 0).
Proof.
  intros k. destruct (Nat.lt_ge_cases k (length image)) as [L|L].
  - exact (proj1 (Forall_forall _ _) Hsam _ (nth_In _ _ L)).
  - rewrite nth_overflow by lia. unfold sample. lia.
Qed.
Lemma total_nonneg : forall ps c, 0 <= sum_of ps c.
Proof.
  intros ps c. unfold sum_of, measured. induction (filter _ ps) as [|p l IH]; [cbn; lia|]. cbn [map total fold_right]. pose proof (nth_sample (Z.to_nat (fst p * width + snd p))) as S. unfold sample in S. unfold total in IH. lia.
Qed.

Lemma pixels_ok : forall ps done st, Forall inside ps ->
  (forall c, 0 <= c < 4 -> sum_of (done ++ ps) c < 2 ^ 24 /\ num_of (done ++ ps) c <= 2 ^ 24) ->
  holds (fst st) (sum_of done) -> holds (snd st) (num_of done) ->
  exists st', rfold (fun '(row, col) => black_pixel f image width row col) ps st = Ok st' /\
    holds (fst st') (sum_of (done ++ ps)) /\ holds (snd st') (num_of (done ++ ps)).
Proof.
  induction ps as [|[r k] ps IH]; intros done [avg count] HF HB HA HC.
  - exists (avg, count). rewrite app_nil_r in *. split; [reflexivity|]. split; assumption.
  - cbn [rfold]. destruct (Forall_inv HF) as [Hr Hk]. cbn [fst snd] in Hr, Hk, HA, HC.
    destruct (color_at_63 name f r k Hname Hf ltac:(lia) ltac:(lia)) as [c [Ec Es]].
    destruct (color_at_range63 name f r k Hf ltac:(lia) ltac:(lia)) as [c' [Ec' Hc]]. rewrite Ec in Ec'. injection Ec' as <-.
    set (v := nth (Z.to_nat (r * width + k)) image 0).
    assert (SM : forall i, sum_of (done ++ [(r, k)]) i = if i =? c then sum_of done i + v else sum_of done i).
    { intros i. unfold sum_of. rewrite measured_app, total_app. unfold measured at 2, under. cbn [filter fst snd]. rewrite Es. rewrite (Z.eqb_sym c i).
      destruct (i =? c); cbn [map total fold_right]; fold v; cbn [fst snd]; lia. }
    assert (NM : forall i, num_of (done ++ [(r, k)]) i = if i =? c then num_of done i + 1 else num_of done i).
    { intros i. unfold num_of. rewrite measured_app, app_length. unfold measured at 2, under. cbn [filter fst snd]. rewrite Es. rewrite (Z.eqb_sym c i).
      destruct (i =? c); cbn [map length]; lia. }
    assert (AS : done ++ (r, k) :: ps = (done ++ [(r, k)]) ++ ps) by (rewrite <- app_assoc; reflexivity). rewrite AS in *.
    destruct (HB c Hc) as [B1 B2].
    assert (B3 : sum_of (done ++ [(r, k)]) c <= sum_of ((done ++ [(r, k)]) ++ ps) c).
    { unfold sum_of at 2. rewrite measured_app, total_app. pose proof (total_nonneg ps c). unfold sum_of in *. lia. }
    assert (B4 : num_of (done ++ [(r, k)]) c <= num_of ((done ++ [(r, k)]) ++ ps) c).
    { unfold num_of. rewrite (measured_app (done ++ [(r, k)]) ps), app_length. lia. }
    rewrite SM, Z.eqb_refl in B3. rewrite NM, Z.eqb_refl in B4.
    pose proof (nth_sample (Z.to_nat (r * width + k))) as Sv. fold v in Sv. unfold sample in Sv. pose proof (total_nonneg done c) as T0.
    assert (N0 : 0 <= num_of done c) by (unfold num_of; lia). change (2 ^ 24) with 16777216 in *.
    destruct (of_exact v) as [Fv [Ev _]]; [change (2 ^ 24) with 16777216; lia|].
    destruct (holds_add avg (sum_of done) c (f32_of v) v HA Hc Fv Ev) as [avg' [Ea Ha']]; [change (2 ^ 24) with 16777216; lia|].
    assert (E1 : is_finite (flit 1 1) = true /\ B2R (flit 1 1) = 1%R).
    { unfold flit, fdiv. destruct (of_exact 1) as [F1 [V1 _]]; [cbn; lia|]. destruct (div_val (f32_of 1) (f32_of 1) F1) as [F2 V2].
      - rewrite V1. lra.
      - rewrite V1. unfold Rdiv. rewrite Rinv_1, Rmult_1_r, Rabs_R1. apply IZR_le. discriminate.
      - split; [exact F2|]. rewrite V2, V1. unfold Rdiv. rewrite Rinv_1, Rmult_1_r. apply RN_id. apply (gf_int 1). cbn. lia. }
    destruct (holds_add count (num_of done) c (flit 1 1) 1 HC Hc (proj1 E1) (proj2 E1)) as [count' [En Hn']]; [change (2 ^ 24) with 16777216; lia|].
    unfold black_pixel at 1. rewrite Ec. cbn [bind]. rewrite get_ok by (unfold zlen; rewrite Hlen; nia). cbn [bind].
    rewrite get4_at by exact Hc. cbn [bind]. unfold znth. fold v. rewrite Ea. cbn [bind]. rewrite get4_at by exact Hc. cbn [bind]. rewrite En. cbn [bind].
    destruct (IH (done ++ [(r, k)]) (avg', count') (Forall_inv_tail HF) HB) as [st' [E' H']].
    + cbn [fst]. intros i Hi. rewrite SM. exact (Ha' i Hi).
    + cbn [snd]. intros i Hi. rewrite NM. exact (Hn' i Hi).
    + exists st'. split; [exact E'|exact H'].
Qed.
End Black.

Lemma rfold_prod : forall {S} (f : Z -> Z -> S -> res S) rs cs st,
  rfold (fun r => rfold (fun c => f r c) cs) rs st = rfold (fun '(r, c) => f r c) (list_prod rs cs) st.
Proof.
  intros S f rs cs. induction rs as [|r rs IH]; intros st; [reflexivity|]. cbn [rfold list_prod]. rewrite rfold_app.
  assert (G : forall cs st, rfold (fun c => f r c) cs st = rfold (fun '(r, c) => f r c) (map (fun y => (r, y)) cs) st).
  { induction cs0 as [|c l IHl]; intros s; [reflexivity|]. cbn [map rfold]. destruct (f r c s); cbn [bind]; [apply IHl|reflexivity..]. }
  rewrite <- G. destruct (rfold _ cs st); cbn [bind]; [apply IH|reflexivity..].
Qed.
Lemma from_to_zrange : forall a b, from_to a b = zrange a b.
Proof. intros. reflexivity. Qed.

Theorem black_levels_ok : forall {M : Mode} name cam width height image,
  pattern_name name -> cfa_new name = Ok (c_cfa cam) ->
  Z.of_nat (length image) = width * height -> samples image -> 0 <= width < 2 ^ 63 -> 0 <= height < 2 ^ 63 ->
  let '(h0, h1) := c_blackareah cam in let '(v0, v1) := c_blackareav cam in
  0 <= h0 -> 0 <= h1 -> h0 + h1 <= height -> 0 <= v0 -> 0 <= v1 -> v0 + v1 <= width -> h1 <> 0 \/ v1 <> 0 ->
  let levels := measured name image width (masked width height (h0, h1) (v0, v1)) in
  (forall c, 0 <= c < 4 -> total (levels c) < 2 ^ 24 /\ Z.of_nat (length (levels c)) <= 2 ^ 24) ->
  exists b, black_levels cam width height image = Ok b /\ forall c, 0 <= c < 4 -> at4 b c = mean (levels c).
Proof.
  intros M name cam width height image Hn Hf Hl Hs Hw Hh. destruct (c_blackareah cam) as [h0 h1] eqn:Eh. destruct (c_blackareav cam) as [v0 v1] eqn:Ev.
  intros H0 H1 H2 V0 V1 V2 NZ levels HB. unfold black_levels. rewrite Eh, Ev.
  replace (negb (h1 =? 0) || negb (v1 =? 0)) with true by lia. cbv zeta.
  set (ps1 := list_prod (zrange h0 (h0 + h1)) (zrange 0 width)). set (ps2 := list_prod (zrange 0 height) (zrange v0 (v0 + v1))).
  assert (EM : masked width height (h0, h1) (v0, v1) = ps1 ++ ps2) by (unfold masked; cbn [fst snd]; rewrite !from_to_zrange; reflexivity).
  unfold levels in *. rewrite EM in *. clear EM levels.
  assert (I1 : Forall (inside width height) (ps1 ++ ps2)).
  { apply Forall_forall. intros [r k] Hp. unfold inside. cbn [fst snd]. apply in_app_or in Hp. destruct Hp as [Hp|Hp]; apply in_prod_iff in Hp; destruct Hp as [A B]; apply zrange_In in A; apply zrange_In in B; lia. }
  rewrite (rfold_prod (fun row col => black_pixel (c_cfa cam) image width row col) (zrange h0 (h0 + h1)) (zrange 0 width)). fold ps1.
  assert (Z0 : forall g, (forall c, g c = 0) -> holds (all4 (f32_of 0)) g).
  { intros g G c Hc. rewrite G. unfold all4, at4. cbn [e0 e1 e2 e3]. destruct (c =? 0), (c =? 1), (c =? 2); split; reflexivity. }
  destruct (pixels_ok name (c_cfa cam) image width height Hn Hf Hl Hs Hw Hh (ps1 ++ ps2) [] (all4 (f32_of 0), all4 (f32_of 0)) I1 HB) as [st [E [HA HC]]].
  { apply Z0. reflexivity. } { apply Z0. reflexivity. }
  rewrite rfold_app in E. destruct (rfold _ ps1 _) as [st1|m| |] eqn:E1; cbn [bind] in E; try discriminate E. cbn [bind].
  rewrite (rfold_prod (fun row col => black_pixel (c_cfa cam) image width row col) (zrange 0 height) (zrange v0 (v0 + v1))). fold ps2. rewrite E. cbn [bind].
  destruct st as [avg count]. cbn [fst snd app] in HA, HC. eexists. split; [reflexivity|].
  intros c Hc. assert (TA : at4 (tab4 (fun i => f32_to 0 65535 (fdiv (at4 avg i) (at4 count i)))) c = f32_to 0 65535 (fdiv (at4 avg c) (at4 count c))).
  { assert (c = 0 \/ c = 1 \/ c = 2 \/ c = 3) as [Q|[Q|[Q|Q]]] by lia; subst c; reflexivity. }
  rewrite TA. destruct (HA c Hc) as [FA VA]. destruct (HC c Hc) as [FC VC]. destruct (HB c Hc) as [B1 B2].
  fold (sum_of name image width (ps1 ++ ps2) c) in B1. fold (num_of name image width (ps1 ++ ps2) c) in B2.
  pose proof (total_nonneg name image width Hs (ps1 ++ ps2) c) as T0.
  unfold mean. destruct (measured name image width (ps1 ++ ps2) c) as [|x l] eqn:EL.
  - unfold sum_of in VA. unfold num_of in VC. rewrite EL in VA, VC. cbn in VA, VC.
    assert (ZA : exists s, at4 avg c = B754_zero s).
    { destruct (at4 avg c) as [s|s| |s m e Bd]; try discriminate FA; [exists s; reflexivity|]. exfalso. cbn in VA. apply eq_0_F2R in VA. destruct s; discriminate VA. }
    assert (ZC : exists s, at4 count c = B754_zero s).
    { destruct (at4 count c) as [s|s| |s m e Bd]; try discriminate FC; [exists s; reflexivity|]. exfalso. cbn in VC. apply eq_0_F2R in VC. destruct s; discriminate VC. }
    destruct ZA as [s1 ->]. destruct ZC as [s2 ->]. reflexivity.
  - rewrite <- EL. assert (N0 : 0 < num_of name image width (ps1 ++ ps2) c) by (unfold num_of; rewrite EL; cbn [length]; lia).
    fold (sum_of name image width (ps1 ++ ps2) c) (num_of name image width (ps1 ++ ps2) c).
    set (a := sum_of name image width (ps1 ++ ps2) c) in *. set (n := num_of name image width (ps1 ++ ps2) c) in *.
    assert (MX : a <= 65535 * n).
    { unfold a, n, sum_of, num_of. assert (G : forall l, samples l -> total l <= 65535 * Z.of_nat (length l)).
      { clear. induction l as [|y l IH]; intros S; [cbn; lia|]. pose proof (Forall_inv S) as S1. unfold sample in S1. specialize (IH (Forall_inv_tail S)). unfold total in *. cbn [fold_right length]. lia. }
      apply G. unfold measured. apply Forall_forall. intros y Hy. apply in_map_iff in Hy. destruct Hy as [p [<- _]]. apply nth_sample. exact Hs. }
    assert (Rn : (0 < IZR n)%R) by (apply IZR_lt; exact N0).
    destruct (div_val (at4 avg c) (at4 count c) FA) as [FD VD].
    + rewrite VC. lra.
    + rewrite VA, VC. rewrite Rabs_pos_eq by (apply Rle_mult_inv_pos; [apply IZR_le; exact T0|exact Rn]).
      apply Rmult_le_reg_r with (IZR n); [exact Rn|]. unfold Rdiv. rewrite Rmult_assoc, Rinv_l, Rmult_1_r by lra. rewrite <- mult_IZR. apply IZR_le. change (2 ^ 64) with 18446744073709551616. nia.
    + unfold fdiv. rewrite to_val; rewrite ?VD, ?VA, ?VC, ?div_floor by lia; [reflexivity|exact FD|].
      split; [apply Z.div_pos; lia|]. apply Z.lt_succ_r. apply Z.div_lt_upper_bound; lia.
Qed.
