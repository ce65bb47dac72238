(** Proofs about predictive formats: pairs of pixels (Pentax). *)
From Coq Require Import String ZArith List Bool Lia ZifyBool ZifyNat.
From Verif Require Import Base Bytes Pumps Huffman Packed Tiff Decoder Dec_Pred Spec_Bits Spec_Pump Spec_Stream Spec_Image Spec_Huffman Spec_Ljpeg Spec_Pred
  P_Base P_Bits P_Pumps P_Huff4 P_Huff5 P_Huff6 P_Ljpeg1 P_Ljpeg2.
Import ListNotations.
Local Open Scope Z_scope.
Ltac Zify.zify_post_hook ::= Z.div_mod_to_equations.

Lemma land1 : forall r, r &&& 1 = r mod 2.
Proof. intros. change 1 with (Z.ones 1). rewrite Z.land_ones by lia. reflexivity. Qed.
Lemma as_u16_sample : forall v, sample v -> as_u16 v = v.
Proof. intros v H. unfold sample in H. unfold as_u16. apply Z.mod_small. lia. Qed.
Lemma upd2_ok : forall (l : list Z) a b j v, l = [a; b] -> 0 <= j < 2 -> upd l j v = Ok (if j =? 0 then [v; b] else [a; v]).
Proof. intros l a b j v -> Hj. rewrite upd_ok by (change (zlen [a; b]) with 2; lia). assert (j = 0 \/ j = 1) as [-> | ->] by lia; reflexivity. Qed.
Lemma get2_ok : forall (l : list Z) a b j, l = [a; b] -> 0 <= j < 2 -> get l j = Ok (if j =? 0 then a else b).
Proof. intros l a b j -> Hj. assert (j = 0 \/ j = 1) as [-> | ->] by lia; reflexivity. Qed.

(** The first [n] cells are those of a picture. *)
Definition Filled (w h n : Z) (pic : Z -> Z -> Z) (out : list Z) : Prop :=
  zlen out = w * h /\ forall r c, 0 <= r -> 0 <= c < w -> r * w + c < n -> znth out (r * w + c) = pic r c.

Lemma Filled_0 : forall w h pic out, zlen out = w * h -> Filled w h 0 pic out.
Proof. intros. split; [assumption|]. intros r c Hr Hc Hn. nia. Qed.
Lemma Filled_image : forall w h pic out, Filled w h (w * h) pic out -> is_image out w h pic.
Proof. intros w h pic out [L V]. split; [exact L|]. intros r c Hr Hc. apply V; nia. Qed.
Lemma cell_inj' : forall w c c' r r', 0 <= c < w -> 0 <= c' < w -> r * w + c = r' * w + c' -> r = r' /\ c = c'.
Proof. intros. assert (r = r') by nia. subst. lia. Qed.
(** Writing the next cell. *)
Lemma Filled_put : forall w h pic out r c v, 0 <= r < h -> 0 <= c < w -> v = pic r c -> Filled w h (r * w + c) pic out ->
  exists out', upd out (r * w + c) v = Ok out' /\ Filled w h (r * w + c + 1) pic out'.
Proof.
  intros w h pic out r c v Hr Hc Hv [L V]. assert (Hi : 0 <= r * w + c < zlen out) by (rewrite L; nia).
  rewrite upd_ok by exact Hi. eexists. split; [reflexivity|]. split; [rewrite zlen_upd_nat; exact L|].
  intros r' c' Hr' Hc' Hn. rewrite znth_upd_nat by nia. destruct (r' * w + c' =? r * w + c) eqn:E.
  - destruct (cell_inj' w c' c r' r) as [-> ->]; [lia|lia|lia|]. exact Hv.
  - apply V; lia.
Qed.

(** The values of the last two rows, by parity. *)
Definition above (pic : Z -> Z -> Z) (r j c : Z) : Z := if r - 1 - (r - 1 - j) mod 2 <? 0 then 0 else pic (r - 1 - (r - 1 - j) mod 2) c.
Lemma above_step : forall pic r j c, 0 <= r -> 0 <= j < 2 -> above pic (r + 1) j c = if r mod 2 =? j then pic r c else above pic r j c.
Proof.
  intros pic r j c Hr Hj. unfold above. destruct (r mod 2 =? j) eqn:E.
  - replace (r + 1 - 1 - (r + 1 - 1 - j) mod 2) with r by lia. replace (r <? 0) with false by lia. reflexivity.
  - replace (r + 1 - 1 - (r + 1 - 1 - j) mod 2) with (r - 1) by lia. replace (r - 1 - (r - 1 - j) mod 2) with (r - 1) by lia. reflexivity.
Qed.

Section Pair.
Context {M : Mode}.

Lemma pair_diff_ok : forall t enc fits d1 d2 a b p rest, codes MSB t enc fits -> fits d1 -> fits d2 ->
  - 2 ^ 31 <= a + d1 < 2 ^ 31 -> - 2 ^ 31 <= b + d2 < 2 ^ 31 -> (32 <= length rest)%nat -> Repr MSB p (enc d1 ++ enc d2 ++ rest) ->
  exists p', pair_diff t a b p = Ok (a + d1, b + d2, p') /\ Repr MSB p' rest.
Proof.
  intros t enc fits d1 d2 a b p rest HC F1 F2 A B Hr R. unfold pair_diff.
  destruct (HC d1 p (enc d2 ++ rest) F1 ltac:(rewrite app_length; lia) R) as [p1 [E1 R1]]. rewrite E1. cbn [bind].
  rewrite i32add_ok by exact A. cbn [bind].
  destruct (HC d2 p1 rest F2 Hr R1) as [p2 [E2 R2]]. rewrite E2. cbn [bind]. rewrite i32add_ok by exact B. cbn [bind].
  exists p2. split; [reflexivity|exact R2].
Qed.

Lemma put_pair_ok : forall w h pic out r c, 0 <= r < h -> 0 <= c -> c + 1 < w -> sample (pic r c) -> sample (pic r (c + 1)) ->
  Filled w h (r * w + c) pic out ->
  exists out', put_pair out (r * w + c) (pic r c) (pic r (c + 1)) = Ok out' /\ Filled w h (r * w + (c + 2)) pic out'.
Proof.
  intros w h pic out r c Hr Hc Hw S1 S2 F. unfold put_pair. rewrite !as_u16_sample by assumption.
  destruct (Filled_put w h pic out r c (pic r c)) as [o1 [E1 F1]]; [lia|lia|reflexivity|exact F|]. rewrite E1. cbn [bind].
  replace (r * w + c + 1) with (r * w + (c + 1)) in * by lia.
  destruct (Filled_put w h pic o1 r (c + 1) (pic r (c + 1))) as [o2 [E2 F2]]; [lia|lia|reflexivity|exact F1|]. exists o2.
  split; [exact E2|]. replace (r * w + (c + 2)) with (r * w + (c + 1) + 1) by lia. exact F2.
Qed.

Section Pef.
Variables (t : hufftable) (enc : Z -> list bool) (fits : Z -> Prop) (m h : Z) (pic : Z -> Z -> Z).
Notation w := (2 * m).
Notation step := (step_of (fun _ _ => 0) pic).
Hypothesis Ht : codes MSB t enc fits.
Hypothesis Hs : sample_picture pic w h.
Hypothesis Hf : forall r c, 0 <= r < h -> 0 <= c < w -> fits (step r c).
Hypothesis Hm : 0 < m.
Hypothesis Hh : 0 <= h.

Definition pairs_from (r j : Z) : list bool := flat_map (fun j => enc (step r (2 * j)) ++ enc (step r (2 * j + 1))) (zrange j m).
Lemma pairs_cons : forall r j, j < m -> pairs_from r j = enc (step r (2 * j)) ++ enc (step r (2 * j + 1)) ++ pairs_from r (j + 1).
Proof. intros r j H. unfold pairs_from. rewrite (zrange_cons j) by exact H. cbn [flat_map]. rewrite <- app_assoc. reflexivity. Qed.
Lemma pairs_row : forall (g : Z -> list bool) j, 0 <= j <= m -> flat_map g (zrange (2 * j) (2 * m)) = flat_map (fun j => g (2 * j) ++ g (2 * j + 1)) (zrange j m).
Proof.
  intros g j Hj. replace j with (m - Z.of_nat (Z.to_nat (m - j))) by lia. generalize (Z.to_nat (m - j)) as n. intros n. clear Hj.
  induction n as [|n IH].
  - rewrite !zrange_empty by lia. reflexivity.
  - rewrite (zrange_cons (2 * (m - Z.of_nat (S n)))), (zrange_cons (2 * (m - Z.of_nat (S n)) + 1)), (zrange_cons (m - Z.of_nat (S n))) by lia.
    cbn [flat_map]. rewrite <- app_assoc. do 2 f_equal.
    replace (2 * (m - Z.of_nat (S n)) + 1 + 1) with (2 * (m - Z.of_nat n)) by lia.
    replace (m - Z.of_nat (S n) + 1) with (m - Z.of_nat n) by lia. exact IH.
Qed.
Definition rows_from (r : Z) : list bool := flat_map (fun r => pairs_from r 0) (zrange r h).
Lemma coded_rows : steps_coded (fun _ => enc) (fun _ _ => 0) pic w h = rows_from 0.
Proof.
  unfold steps_coded, rows_from. rewrite !upto_zrange. apply flat_map_ext. intros r. unfold pairs_from.
  replace (zrange 0 w) with (zrange (2 * 0) (2 * m)) by reflexivity.
  rewrite (pairs_row (fun c => enc (step r c)) 0) by lia. reflexivity.
Qed.

Lemma pef_row_ok : forall r p out rest, 0 <= r < h -> (32 <= length rest)%nat -> Repr MSB p (pairs_from r 1 ++ rest) ->
  Filled w h (r * w + 2) pic out ->
  exists a b p' out', rfold (fun col '(a, b, p, out) =>
      '(a, b, p) <- pair_diff t a b p ;;
      out <- put_pair out (r * w + col) a b ;;
      Ok (a, b, p, out)) (zrange_step 2 w 2) (pic r 0, pic r 1, p, out) = Ok (a, b, p', out') /\
    Repr MSB p' rest /\ Filled w h ((r + 1) * w) pic out'.
Proof.
  intros r p out rest Hr Hrest R F.
  replace (zrange_step 2 w 2) with (zrange_step (0 + 2 * 1) (2 * m + 0) 2) by (f_equal; lia). rewrite zrange_step_map by lia. rewrite rfold_map.
  match goal with |- context [rfold ?f _ _] => destruct (rfold_zrange f (fun j '(a, b, p, out) =>
    a = pic r (2 * j - 2) /\ b = pic r (2 * j - 1) /\ Repr MSB p (pairs_from r j ++ rest) /\ Filled w h (r * w + 2 * j) pic out) 1 m (pic r 0, pic r 1, p, out)) as [[[[a b] p'] o'] [E [_ [_ [R' F']]]]] end.
  - lia.
  - split; [reflexivity|]. split; [reflexivity|]. split; [exact R|]. exact F.
  - intros j [[[a b] p1] o1] Hj [-> [-> [R1 F1]]]. rewrite pairs_cons in R1 by lia. rewrite <- !app_assoc in R1.
    assert (S1 : sample (pic r (2 * j - 2))) by (apply Hs; lia). assert (S2 : sample (pic r (2 * j - 1))) by (apply Hs; lia).
    assert (S3 : sample (pic r (2 * j))) by (apply Hs; lia). assert (S4 : sample (pic r (2 * j + 1))) by (apply Hs; lia).
    assert (T1 : step r (2 * j) = pic r (2 * j) - pic r (2 * j - 2)) by (unfold step_of, two_before; replace (2 * j <? 2) with false by lia; reflexivity).
    assert (T2 : step r (2 * j + 1) = pic r (2 * j + 1) - pic r (2 * j - 1)) by (unfold step_of, two_before; replace (2 * j + 1 <? 2) with false by lia; do 2 f_equal; lia).
    unfold sample in *.
    destruct (pair_diff_ok t enc fits (step r (2 * j)) (step r (2 * j + 1)) (pic r (2 * j - 2)) (pic r (2 * j - 1)) p1 (pairs_from r (j + 1) ++ rest)) as [p2 [E2 R2]].
    + exact Ht.
    + apply Hf; lia.
    + apply Hf; lia.
    + rewrite T1. lia.
    + rewrite T2. lia.
    + rewrite app_length. lia.
    + exact R1.
    + rewrite E2. cbn [bind]. clear E2.
      replace (pic r (2 * j - 2) + step r (2 * j)) with (pic r (2 * j)) by lia.
      replace (pic r (2 * j - 1) + step r (2 * j + 1)) with (pic r (2 * j + 1)) by lia.
      change (0 + 2 * j) with (2 * j).
      destruct (put_pair_ok w h pic o1 r (2 * j)) as [o2 [E3 F3]]; [lia|lia|lia|exact S3|exact S4|exact F1|].
      rewrite E3. cbn [bind]. eexists. split; [reflexivity|]. cbv beta iota. split; [f_equal; lia|]. split; [f_equal; lia|]. split; [exact R2|].
      replace (2 * (j + 1)) with (2 * j + 2) by lia. exact F3.
  - exists a, b, p', o'. split; [exact E|]. unfold pairs_from in R'. rewrite zrange_empty in R' by lia. split; [exact R'|].
    replace ((r + 1) * w) with (r * w + 2 * m) by lia. exact F'.
Qed.

Theorem pef_rows_ok : forall src rest, readable MSB src -> stream MSB src 0 = steps_coded (fun _ => enc) (fun _ _ => 0) pic w h ++ rest ->
  (32 <= length rest)%nat -> exists out, pef_rows t src w h = Ok out /\ is_image out w h pic.
Proof.
  intros src rest Hrd Es Hrest. pose proof (Repr_new MSB src 0 Hrd) as R. rewrite Es, coded_rows in R. unfold pef_rows.
  match goal with |- context [rfold ?f (zrange 0 h) ?s] => destruct (rfold_zrange f (fun r '(up1, up2, p, out) =>
      up1 = [above pic r 0 0; above pic r 1 0] /\ up2 = [above pic r 0 1; above pic r 1 1] /\ Repr MSB p (rows_from r ++ rest) /\ Filled w h (r * w) pic out) 0 h s) as [[[[a b] p'] o'] [E [_ [_ [_ F']]]]] end.
  - exact Hh.
  - split; [reflexivity|]. split; [reflexivity|]. split; [exact R|]. apply Filled_0. rewrite zlen_zeros. nia.
  - intros r [[[up1 up2] p1] o1] Hr [U1 [U2 [R1 F1]]]. rewrite land1.
    rewrite (get2_ok _ _ _ _ U1), (get2_ok _ _ _ _ U2) by lia. cbn [bind].
    set (x1 := if r mod 2 =? 0 then above pic r 0 0 else above pic r 1 0). set (x2 := if r mod 2 =? 0 then above pic r 0 1 else above pic r 1 1).
    assert (S0 : sample (pic r 0)) by (apply Hs; lia). assert (S1 : sample (pic r 1)) by (apply Hs; lia).
    assert (T1 : x1 + step r 0 = pic r 0 /\ sample x1).
    { unfold x1, step_of, two_before, above. change (0 <? 2) with true. cbv iota.
      destruct (r <? 2) eqn:Q.
      - assert (r = 0 \/ r = 1) as [-> | ->] by lia; cbn; (split; [lia|unfold sample; lia]).
      - assert (Q2 : sample (pic (r - 2) 0)) by (apply Hs; lia). destruct (r mod 2 =? 0) eqn:Q1.
        + replace (r - 1 - (r - 1 - 0) mod 2) with (r - 2) by lia. replace (r - 2 <? 0) with false by lia. split; [lia|exact Q2].
        + replace (r - 1 - (r - 1 - 1) mod 2) with (r - 2) by lia. replace (r - 2 <? 0) with false by lia. split; [lia|exact Q2]. }
    assert (T2 : x2 + step r 1 = pic r 1 /\ sample x2).
    { unfold x2, step_of, two_before, above. change (1 <? 2) with true. cbv iota.
      destruct (r <? 2) eqn:Q.
      - assert (r = 0 \/ r = 1) as [-> | ->] by lia; cbn; (split; [lia|unfold sample; lia]).
      - assert (Q2 : sample (pic (r - 2) 1)) by (apply Hs; lia). destruct (r mod 2 =? 0) eqn:Q1.
        + replace (r - 1 - (r - 1 - 0) mod 2) with (r - 2) by lia. replace (r - 2 <? 0) with false by lia. split; [lia|exact Q2].
        + replace (r - 1 - (r - 1 - 1) mod 2) with (r - 2) by lia. replace (r - 2 <? 0) with false by lia. split; [lia|exact Q2]. }
    destruct T1 as [T1 X1]. destruct T2 as [T2 X2].
    unfold rows_from in R1. rewrite (zrange_cons r) in R1 by lia. cbn [flat_map] in R1. fold (rows_from (r + 1)) in R1.
    rewrite pairs_cons in R1 by lia. change (2 * 0) with 0 in R1. change (0 + 1) with 1 in R1. rewrite <- !app_assoc in R1.
    unfold sample in *.
    destruct (pair_diff_ok t enc fits (step r 0) (step r 1) x1 x2 p1 (pairs_from r 1 ++ rows_from (r + 1) ++ rest)) as [p2 [E2 R2]].
    + exact Ht.
    + apply Hf; lia.
    + apply Hf; lia.
    + lia.
    + lia.
    + rewrite !app_length. lia.
    + exact R1.
    + rewrite E2. cbn [bind]. clear E2. rewrite T1, T2.
      rewrite (upd2_ok _ _ _ _ _ U1), (upd2_ok _ _ _ _ _ U2) by lia. cbn [bind].
      destruct (put_pair_ok w h pic o1 r 0) as [o2 [E3 F3]]; [lia|lia|lia|exact S0|exact S1|rewrite Z.add_0_r; exact F1|].
      rewrite Z.add_0_r in E3. change (0 + 1) with 1 in E3. rewrite E3. cbn [bind]. clear E3.
      destruct (pef_row_ok r p2 o2 (rows_from (r + 1) ++ rest)) as [a [b [p3 [o3 [E4 [R4 F4]]]]]].
      * lia.
      * rewrite app_length. lia.
      * exact R2.
      * exact F3.
      * rewrite E4. cbn [bind]. eexists. split; [reflexivity|]. cbv beta iota.
        split; [|split; [|split; [exact R4|exact F4]]].
        -- rewrite !above_step by lia. destruct (r mod 2 =? 0) eqn:Q; [replace (r mod 2 =? 1) with false by lia|replace (r mod 2 =? 1) with true by lia]; reflexivity.
        -- rewrite !above_step by lia. destruct (r mod 2 =? 0) eqn:Q; [replace (r mod 2 =? 1) with false by lia|replace (r mod 2 =? 1) with true by lia]; reflexivity.
  - rewrite E. cbn [bind]. exists o'. split; [reflexivity|]. apply Filled_image. replace (w * h) with (h * w) by lia. exact F'.
Qed.
End Pef.
End Pair.
