(** Proofs about Olympus: whole pictures. *)
From Coq Require Import String ZArith List Bool Lia ZifyBool ZifyNat.
From Verif Require Import Base Bytes Pumps Huffman Packed Threads Dec_Pred Spec_Bits Spec_Pump Spec_Stream Spec_Image Spec_Huffman Spec_Ljpeg Spec_Orf
  P_Base P_Bits P_Pumps P_Huff1 P_Huff4 P_Huff5 P_Ljpeg1 P_Sensor4 P_Pred1 P_Pred10 P_Orf1.
Import ListNotations.
Local Open Scope Z_scope.
Ltac Zify.zify_post_hook ::= Z.div_mod_to_equations.

Section Orf.
Context {M : Mode}.
Variables (pic : Z -> Z -> Z) (w h : Z).
Hypothesis Hw : 0 < w < 2 ^ 31.
Hypothesis Hh : 0 <= h.
Hypothesis Hw2 : w mod 2 = 0.
Hypothesis Hs : forall r c, 0 <= r < h -> 0 <= c < w -> 0 <= pic r c < 2 ^ 15.
Hypothesis Hf : orf_fits pic w h.
Notation e := (orf_residual pic).

Lemma pred_range : forall r c, 0 <= r < h -> 0 <= c < w -> - 2 ^ 15 <= orf_prediction pic r c < 2 ^ 16.
Proof.
  intros r c Hr Hc. change (2 ^ 16) with 65536. change (2 ^ 15) with 32768. unfold orf_prediction.
  assert (H : forall r' c', 0 <= r' < h -> 0 <= c' < w -> 0 <= pic r' c' < 32768) by (intros; apply Hs; assumption).
  destruct (r <? 2) eqn:E1; destruct (c <? 2) eqn:E2; [lia| | |].
  - specialize (H r (c - 2)). lia.
  - specialize (H (r - 2) c). lia.
  - cbv zeta. pose proof (H r (c - 2) ltac:(lia) ltac:(lia)). pose proof (H (r - 2) c ltac:(lia) ltac:(lia)). pose proof (H (r - 2) (c - 2) ltac:(lia) ltac:(lia)).
    set (x := pic r (c - 2)) in *. set (y := pic (r - 2) c) in *. set (z := pic (r - 2) (c - 2)) in *. destruct (_ <? 0); [destruct (_ || _)|destruct (Z.abs (y - z) <? Z.abs (x - z))]; lia.
Qed.
Lemma residual_range : forall r c, 0 <= r < h -> 0 <= c < w -> - 2 ^ 17 <= e r c < 2 ^ 17.
Proof. intros r c Hr Hc. pose proof (pred_range r c Hr Hc). pose proof (Hs r c Hr Hc). unfold orf_residual. change (2 ^ 17) with 131072. change (2 ^ 16) with 65536 in *. change (2 ^ 15) with 32768 in *. lia. Qed.

Definition next_state (st : Z * Z * Z) (x : Z) : Z * Z * Z :=
  let '(before, mean, calm) := st in let m := orf_distance mean x in (m, (3 * (x / 4) + mean) / 32, if 16 <? m then 0 else calm + 1).
Lemma before_next : forall r c, 0 <= c -> orf_before pic r (c + 2) = next_state (orf_before pic r c) (e r c).
Proof.
  intros r c Hc. unfold orf_before. replace (Z.to_nat ((c + 2) / 2)) with (S (Z.to_nat (c / 2))) by lia. cbn [orf_state].
  replace ((c + 2) mod 2) with (c mod 2) by lia. unfold next_state. destruct (orf_state _ _) as [[a b] d].
  replace (2 * Z.of_nat (Z.to_nat (c / 2)) + c mod 2) with c by lia. reflexivity.
Qed.
Lemma before_start : forall r s, 0 <= s < 2 -> orf_before pic r s = (0, 0, 0).
Proof. intros r s H. unfold orf_before. replace (s / 2) with 0 by lia. reflexivity. Qed.
Lemma distance_nonneg : forall mean x, 0 <= orf_distance mean x.
Proof. intros. unfold orf_distance. destruct (_ <? 0) eqn:E; lia. Qed.
Lemma before_range : forall r, 0 <= r < h -> forall n s, 0 <= s < 2 -> 2 * Z.of_nat n + s < w + 2 ->
  let '(before, mean, calm) := orf_before pic r (2 * Z.of_nat n + s) in 0 <= before < 2 ^ 15 /\ - 2 ^ 15 <= mean <= 2 ^ 15 /\ 0 <= calm <= Z.of_nat n.
Proof.
  intros r Hr. induction n as [|n IH]; intros s Hs2 Hn.
  - replace (2 * Z.of_nat 0 + s) with s by lia. rewrite before_start by exact Hs2. change (2 ^ 15) with 32768. lia.
  - replace (2 * Z.of_nat (S n) + s) with (2 * Z.of_nat n + s + 2) by lia. rewrite before_next by lia.
    specialize (IH s Hs2 ltac:(lia)). pose proof (Hf r (2 * Z.of_nat n + s) Hr ltac:(lia)) as F. pose proof (residual_range r (2 * Z.of_nat n + s) Hr ltac:(lia)) as Re.
    destruct (orf_before pic r (2 * Z.of_nat n + s)) as [[b m] k]. cbn [next_state]. pose proof (distance_nonneg m (e r (2 * Z.of_nat n + s))).
    change (2 ^ 15) with 32768 in *. change (2 ^ 17) with 131072 in *. destruct (16 <? _); lia.
Qed.
Lemma before_ok : forall r c, 0 <= r < h -> 0 <= c < w ->
  let '(before, mean, calm) := orf_before pic r c in 0 <= before < 2 ^ 15 /\ - 2 ^ 15 <= mean <= 2 ^ 15 /\ 0 <= calm < 2 ^ 31 - 1.
Proof.
  intros r c Hr Hc. pose proof (before_range r Hr (Z.to_nat (c / 2)) (c mod 2) ltac:(lia) ltac:(lia)) as H.
  replace (2 * Z.of_nat (Z.to_nat (c / 2)) + c mod 2) with c in H by lia. destruct (orf_before pic r c) as [[a b] d]. repeat split; try apply H; lia.
Qed.

Definition St (r c : Z) (st : Z * Z * Z * Z * Z) : Prop :=
  let '(c0, c1, c2, lft, nw) := st in
  (c0, c1, c2) = orf_before pic r c /\ (2 <= c -> lft = pic r (c - 2)) /\ (2 <= r -> 2 <= c -> nw = pic (r - 2) (c - 2)).

Lemma pred_ok : forall lft up nw, 0 <= lft < 2 ^ 15 -> 0 <= up < 2 ^ 15 -> 0 <= nw < 2 ^ 15 ->
  orf_pred lft up nw = Ok (if (lft - nw) * (up - nw) <? 0 then
      (if (32 <? Z.abs (lft - nw)) || (32 <? Z.abs (up - nw)) then lft + up - nw else (lft + up) / 2)
    else if Z.abs (up - nw) <? Z.abs (lft - nw) then lft else up).
Proof.
  intros lft up nw H1 H2 H3. change (2 ^ 15) with 32768 in *. unfold orf_pred.
  rewrite i32sub_ok by (change (2 ^ 31) with 2147483648; lia). cbn [bind]. rewrite i32sub_ok by (change (2 ^ 31) with 2147483648; lia). cbn [bind].
  assert (E : i32mul (lft - nw) (up - nw) = Ok ((lft - nw) * (up - nw))) by (unfold i32mul; apply arith_s_ok; change (2 ^ (32 - 1)) with 2147483648; nia).
  rewrite E. cbn [bind].
  assert (A : forall x y, 0 <= x < 32768 -> 0 <= y < 32768 -> i32abs (x - y) = Ok (Z.abs (x - y))) by (intros; unfold i32abs; apply arith_s_ok; change (2 ^ (32 - 1)) with 2147483648; lia).
  rewrite !A by assumption. destruct ((lft - nw) * (up - nw) <? 0) eqn:D; cbn [bind]; [|reflexivity].
  assert (S1 : i32add lft (up - nw) = Ok (lft + up - nw)) by (rewrite i32add_ok by (change (2 ^ 31) with 2147483648; lia); f_equal; lia).
  assert (S2 : (s <- i32add lft up ;; Ok (s >>> 1)) = Ok ((lft + up) / 2)) by (rewrite i32add_ok by (change (2 ^ 31) with 2147483648; lia); cbn [bind]; rewrite Z.shiftr_div_pow2 by lia; reflexivity).
  destruct (32 <? Z.abs (lft - nw)) eqn:F1; cbn [bind orb]; [exact S1|]. destruct (32 <? Z.abs (up - nw)) eqn:F2; [exact S1|exact S2].
Qed.

Lemma Filled_get : forall out n r c, Filled w h n pic out -> 0 <= r < h -> 0 <= c < w -> r * w + c < n -> get out (r * w + c) = Ok (pic r c).
Proof. intros out n r c [L V] Hr Hc Hn. rewrite get_ok by (rewrite L; nia). f_equal. apply V; lia. Qed.

Lemma step_ok : forall r col s st p out tail, 0 <= r < h -> 0 <= col -> col mod 2 = 0 -> 0 <= s < 2 -> col + s < w -> St r (col + s) st ->
  Filled w h (r * w + (col + s)) pic out -> (15 <= length tail)%nat -> Repr MSB p (orf_pixel_coded pic r (col + s) ++ tail) ->
  exists c0 c1 c2 l n p' out', orf_step w r col s st p out = Ok (c0, c1, c2, l, n, p', out') /\ St r (col + s + 2) (c0, c1, c2, l, n) /\
    Filled w h (r * w + (col + s) + 1) pic out' /\ Repr MSB p' tail.
Proof.
  intros r col s [[[[c0 c1] c2] lft] nw] p out tail Hr Hcol Hcm Hss Hcw [Ec [El En]] Fi Ht R. set (c := col + s) in *. unfold orf_step.
  pose proof (before_ok r c Hr ltac:(lia)) as B. pose proof (Hf r c Hr ltac:(lia)) as D. unfold orf_pixel_coded in R. rewrite <- Ec in B, D, R. destruct B as [B1 [B2 B3]].
  pose proof (residual_range r c Hr ltac:(lia)) as Re.
  destruct (diff_read c0 c1 c2 (e r c) p tail B1 B2 B3 ltac:(change (2 ^ 18) with 262144; change (2 ^ 17) with 131072 in Re; lia) D Ht R) as [p' [E R']].
  rewrite E. cbn [bind].
  assert (Px : exists n out', orf_pixel w r col s (e r c / 4) (e r c mod 4) lft nw out = Ok (pic r c, n, out') /\ (2 <= r -> n = pic (r - 2) c) /\ Filled w h (r * w + c + 1) pic out').
  { unfold orf_pixel. fold c. assert (Ep : exists n, (if (r <? 2) && (col <? 2) then Ok (0, nw)
     else if r <? 2 then Ok (lft, nw)
     else
       up <- get out ((r - 2) * w + c) ;;
       if col <? 2 then Ok (up, up) else pred <- orf_pred lft up nw ;; Ok (pred, up)) = Ok (orf_prediction pic r c, n) /\ (2 <= r -> n = pic (r - 2) c)).
    { unfold orf_prediction. replace (c <? 2) with (col <? 2) by lia. destruct (r <? 2) eqn:F1; destruct (col <? 2) eqn:F2; cbn [andb].
      - eexists. split; [reflexivity|lia].
      - rewrite El by lia. eexists. split; [reflexivity|lia].
      - rewrite (Filled_get out _ (r - 2) c Fi) by nia. cbn [bind]. eexists. split; [reflexivity|reflexivity].
      - rewrite (Filled_get out _ (r - 2) c Fi) by nia. cbn [bind]. rewrite El, En by lia. rewrite pred_ok by (apply Hs; lia). cbn [bind]. eexists. split; reflexivity. }
    destruct Ep as [n [Ep Nn]]. rewrite Ep. cbn [bind].
    pose proof (Hs r c Hr ltac:(lia)) as Sm. pose proof (pred_range r c Hr ltac:(lia)) as Pr. change (2 ^ 15) with 32768 in *. change (2 ^ 16) with 65536 in *. change (2 ^ 17) with 131072 in *.
    rewrite as_i32_small by (rewrite Z.shiftl_mul_pow2 by lia; change (2 ^ 2) with 4; change (2 ^ 31) with 2147483648; lia).
    rewrite lor_split by lia. change (2 ^ 2) with 4. replace (e r c / 4 * 4 + e r c mod 4) with (e r c) by lia.
    assert (Ee : orf_prediction pic r c + e r c = pic r c) by (unfold orf_residual; lia).
    rewrite i32add_ok by (rewrite Ee; change (2 ^ 31) with 2147483648; lia). cbn [bind]. rewrite Ee, as_u16_sample by (unfold sample; lia).
    destruct (Filled_put w h pic out r c (pic r c) Hr ltac:(lia) eq_refl Fi) as [out' [Eu Fu]]. rewrite Eu. cbn [bind]. exists n, out'. split; [reflexivity|split; assumption]. }
  destruct Px as [n [out' [Ex [Hn Fo]]]]. rewrite Ex. cbn [bind]. do 7 eexists. split; [reflexivity|split; [split; [|split]|split; [exact Fo|exact R']]].
  - rewrite before_next by lia. rewrite <- Ec. reflexivity.
  - intros _. f_equal. lia.
  - intros H _. rewrite Hn by exact H. f_equal. lia.
Qed.

Notation half := (w / 2).
Definition row_from (r j : Z) : list bool := flat_map (orf_pixel_coded pic r) (zrange (2 * j) w).
Definition rows_from (r : Z) : list bool := flat_map (fun r => row_from r 0) (zrange r h).

Lemma row_ok : forall r l0 n0 l1 n1 p out tail, 0 <= r < h -> (15 <= length tail)%nat -> Repr MSB p (row_from r 0 ++ tail) -> Filled w h (r * w) pic out ->
  exists a0 a1 a2 x0 m0 b0 b1 b2 x1 m1 p' out', rfold (fun c '(s0, s1, p, out) =>
          '(a0, a1, a2, l, n, p, out) <- orf_step w r (c * 2) 0 s0 p out ;;
          '(b0, b1, b2, m, o, p, out) <- orf_step w r (c * 2) 1 s1 p out ;;
          Ok ((a0, a1, a2, l, n), (b0, b1, b2, m, o), p, out))
        (zrange 0 half) ((0, 0, 0, l0, n0), (0, 0, 0, l1, n1), p, out) = Ok ((a0, a1, a2, x0, m0), (b0, b1, b2, x1, m1), p', out') /\
    Repr MSB p' tail /\ Filled w h ((r + 1) * w) pic out'.
Proof.
  intros r l0 n0 l1 n1 p out tail Hr Ht R Fi.
  match goal with |- context [rfold ?f (zrange 0 half) ?s] => destruct (rfold_zrange f (fun j '(s0, s1, p, out) =>
      St r (2 * j) s0 /\ St r (2 * j + 1) s1 /\ Repr MSB p (row_from r j ++ tail) /\ Filled w h (r * w + 2 * j) pic out) 0 half s) as [[[[s0 s1] p'] out'] [E [_ [_ [R' F']]]]] end.
  - lia.
  - split; [|split; [|split; [exact R|rewrite Z.add_0_r; exact Fi]]]; (split; [rewrite before_start by lia; reflexivity|split; intros; lia]).
  - intros j [[[s0 s1] p1] o1] Hj [S0 [S1 [R1 F1]]].
    assert (Er : row_from r j = orf_pixel_coded pic r (2 * j) ++ orf_pixel_coded pic r (2 * j + 1) ++ row_from r (j + 1)).
    { unfold row_from. rewrite (zrange_cons (2 * j)), (zrange_cons (2 * j + 1)) by lia. cbn [flat_map]. replace (2 * j + 1 + 1) with (2 * (j + 1)) by lia. reflexivity. }
    rewrite Er, <- !app_assoc in R1. rewrite (Z.mul_comm j 2).
    destruct (step_ok r (2 * j) 0 s0 p1 o1 (orf_pixel_coded pic r (2 * j + 1) ++ row_from r (j + 1) ++ tail)) as [a0 [a1 [a2 [x [m [p2 [o2 [E2 [S2 [F2 R2]]]]]]]]]];
      [exact Hr|lia|lia|lia|lia|rewrite Z.add_0_r; exact S0|rewrite Z.add_0_r; exact F1|rewrite !app_length; lia|rewrite Z.add_0_r; exact R1|].
    rewrite E2. cbn [bind]. rewrite Z.add_0_r in S2, F2.
    destruct (step_ok r (2 * j) 1 s1 p2 o2 (row_from r (j + 1) ++ tail)) as [b0 [b1 [b2 [y [n [p3 [o3 [E3 [S3 [F3 R3]]]]]]]]]];
      [exact Hr|lia|lia|lia|lia|exact S1|rewrite Z.add_assoc; exact F2|rewrite !app_length; lia|exact R2|].
    rewrite E3. cbn [bind]. eexists. split; [reflexivity|]. split; [|split; [|split; [exact R3|]]].
    + replace (2 * (j + 1)) with (2 * j + 2) by lia. exact S2.
    + replace (2 * (j + 1) + 1) with (2 * j + 1 + 2) by lia. exact S3.
    + replace (r * w + 2 * (j + 1)) with (r * w + (2 * j + 1) + 1) by lia. exact F3.
  - destruct s0 as [[[[a0 a1] a2] x0] m0]. destruct s1 as [[[[b0 b1] b2] x1] m1]. rewrite E. do 12 eexists. split; [reflexivity|split; [|split]].
    + unfold row_from in R'. replace (2 * half) with w in R' by lia. rewrite zrange_empty in R' by lia. exact R'.
    + destruct F' as [L V]. exact L.
    + intros r' c' H1 H2 H3. apply F'; try assumption. lia.
Qed.

Theorem orf_ok : forall buf rest, (7 <= length buf)%nat -> bytes buf -> stream MSB (skipn 7 buf) 0 = orf_coded pic w h ++ rest -> (15 <= length rest)%nat ->
  exists out, orf_decompress buf w h = Ok out /\ is_image out w h pic.
Proof.
  intros buf rest Hl Hb Es Hr. unfold orf_decompress. rewrite slice_from_ok by (unfold zlen; lia). cbn [bind]. change (Z.to_nat 7) with 7%nat.
  assert (R : Repr MSB (pump_new (skipn 7 buf)) (rows_from 0 ++ rest)).
  { replace (rows_from 0) with (orf_coded pic w h).
    - rewrite <- Es. apply Repr_new. split; [apply Forall_skipn; exact Hb|discriminate].
    - unfold orf_coded, rows_from, row_from. rewrite !upto_zrange. reflexivity. }
  match goal with |- context [rfold ?f (zrange 0 h) ?s] => destruct (rfold_zrange f (fun r '(_, _, _, _, p, out) =>
      Repr MSB p (rows_from r ++ rest) /\ Filled w h (r * w) pic out) 0 h s) as [[[[[[l0 n0] l1] n1] p'] out'] [E [_ F']]] end.
  - exact Hh.
  - split; [exact R|]. apply Filled_0. unfold zlen, zeros. rewrite repeat_length. nia.
  - intros r [[[[[l0 n0] l1] n1] p1] o1] Hr1 [R1 F1].
    assert (Er : rows_from r = row_from r 0 ++ rows_from (r + 1)) by (unfold rows_from; rewrite (zrange_cons r h) by lia; reflexivity).
    rewrite Er, <- app_assoc in R1.
    destruct (row_ok r l0 n0 l1 n1 p1 o1 (rows_from (r + 1) ++ rest) ltac:(lia) ltac:(rewrite app_length; lia) R1 F1) as [a0 [a1 [a2 [x0 [m0 [b0 [b1 [b2 [x1 [m1 [p2 [o2 [E2 [R2 F2]]]]]]]]]]]]]].
    rewrite E2. cbn [bind]. eexists. split; [reflexivity|]. split; [exact R2|exact F2].
  - rewrite E. cbn [bind]. exists out'. split; [reflexivity|]. apply Filled_image. rewrite (Z.mul_comm w h). exact F'.
Qed.
End Orf.
