(** Proofs about predictive formats: the rows of Nikon's compression. *)
From Coq Require Import String ZArith List Bool Lia ZifyBool ZifyNat.
From Verif Require Import Base Bytes Pumps Huffman Packed Lookup Tiff Decoder Dec_Pred Dec_Nef Spec_Bits Spec_Pump Spec_Stream Spec_Image Spec_Huffman Spec_Ljpeg Spec_Curve Spec_Pred Spec_Nikon
  P_Base P_Bits P_Lookup P_Pumps P_Huff4 P_Huff5 P_Huff6 P_Ljpeg1 P_Ljpeg2 P_Pred1.
Import ListNotations.
Local Open Scope Z_scope.
Ltac Zify.zify_post_hook ::= Z.div_mod_to_equations.

(** The values of the last two rows, by parity, or the start values. *)
Definition upper (start pic : Z -> Z -> Z) (r j c : Z) : Z := if r - 1 - (r - 1 - j) mod 2 <? 0 then start j c else pic (r - 1 - (r - 1 - j) mod 2) c.
Lemma upper_step : forall start pic r j c, 0 <= r -> 0 <= j < 2 -> upper start pic (r + 1) j c = if r mod 2 =? j then pic r c else upper start pic r j c.
Proof.
  intros start pic r j c Hr Hj. unfold upper. destruct (r mod 2 =? j) eqn:E.
  - replace (r + 1 - 1 - (r + 1 - 1 - j) mod 2) with r by lia. replace (r <? 0) with false by lia. reflexivity.
  - replace (r + 1 - 1 - (r + 1 - 1 - j) mod 2) with (r - 1) by lia. replace (r - 1 - (r - 1 - j) mod 2) with (r - 1) by lia. reflexivity.
Qed.
Lemma upper_now : forall start pic r c, 0 <= r -> 0 <= c < 2 -> upper start pic r (r mod 2) c = two_before start pic r c.
Proof.
  intros start pic r c Hr Hc. unfold upper, two_before. replace (c <? 2) with true by lia. destruct (r <? 2) eqn:Q.
  - assert (r = 0 \/ r = 1) as [-> | ->] by lia; reflexivity.
  - replace (r - 1 - (r - 1 - r mod 2) mod 2) with (r - 2) by lia. replace (r - 2 <? 0) with false by lia. reflexivity.
Qed.

Lemma noise_range : forall n first, 0 <= first < 2 ^ 32 -> 0 <= noise_after n first < 2 ^ 32.
Proof.
  induction n as [|n IH]; intros first H; [exact H|]. specialize (IH first H). cbn [noise_after]. set (r := noise_after n first) in *. clearbody r.
  change (2 ^ 32) with 4294967296 in *. lia.
Qed.

Lemma pairs_split : forall m (g : Z -> list bool) j, 0 <= j <= m -> flat_map g (zrange (2 * j) (2 * m)) = flat_map (fun j => g (2 * j) ++ g (2 * j + 1)) (zrange j m).
Proof.
  intros m g j Hj. replace j with (m - Z.of_nat (Z.to_nat (m - j))) by lia. generalize (Z.to_nat (m - j)) as n. intros n. clear Hj.
  induction n as [|n IH].
  - rewrite !zrange_empty by lia. reflexivity.
  - rewrite (zrange_cons (2 * (m - Z.of_nat (S n)))), (zrange_cons (2 * (m - Z.of_nat (S n)) + 1)), (zrange_cons (m - Z.of_nat (S n))) by lia.
    cbn [flat_map]. rewrite <- app_assoc. do 2 f_equal.
    replace (2 * (m - Z.of_nat (S n)) + 1 + 1) with (2 * (m - Z.of_nat n)) by lia.
    replace (m - Z.of_nat (S n) + 1) with (m - Z.of_nat n) by lia. exact IH.
Qed.

Section Nef.
Context {M : Mode}.
Lemma dither_exact : forall curve v rand, samples curve -> increasing curve -> not_too_steep curve -> 0 <= v < zlen curve -> 0 <= rand < 2 ^ 32 ->
  dither (map (entry curve) (zrange 0 (zlen curve))) v rand = Ok (toned curve v rand, 15700 * (rand mod 65536) + rand / 65536).
Proof.
  intros curve v rand Hs Hi Hn Hv Hr. unfold dither. rewrite get_table by exact Hv. unfold entry. cbn [bind].
  pose proof (below_le curve v Hi Hv). pose proof (below_sample curve v Hs Hv). pose proof (above_sample curve v Hs Hv). pose proof (at_sample curve v Hs Hv). pose proof (Hn v Hv).
  unfold toned. set (c := Spec_Curve.at_ curve v) in *. set (u := Spec_Curve.above curve v) in *. set (l := below curve v) in *. clearbody c u l.
  change 2047 with (2 ^ 11 - 1). rewrite land_ones_mod by lia. change 65535 with (2 ^ 16 - 1). rewrite land_ones_mod by lia.
  rewrite !(Z.shiftr_div_pow2 rand) by lia.
  change (2 ^ 11) with 2048. change (2 ^ 16) with 65536. change (2 ^ 32) with 4294967296 in *.
  assert (B : 0 <= (u - l) * (rand mod 2048) <= (u - l) * 2047) by (split; [apply Z.mul_nonneg_nonneg; lia|apply Z.mul_le_mono_nonneg_l; lia]).
  set (pr := (u - l) * (rand mod 2048)) in *. clearbody pr.
  rewrite (arith_u_ok 32 pr) by (change (2 ^ 32) with 4294967296; lia). cbn [bind]. unfold u32add.
  rewrite (arith_u_ok 32 (pr + 1024)) by (change (2 ^ 32) with 4294967296; lia). cbn [bind]. rewrite !(Z.shiftr_div_pow2 (pr + 1024)) by lia.
  change (2 ^ 12) with 4096. set (b := if c =? 0 then 0 else c - (u - l + 2) / 4) in *.
  assert (Hb : 0 <= b < 65536) by (unfold b; destruct (c =? 0) eqn:Ec; lia). clearbody b.
  rewrite (arith_u_ok 32 (b + _)) by (change (2 ^ 32) with 4294967296; lia). cbn [bind].
  rewrite (arith_u_ok 32 (15700 * _)) by (change (2 ^ 32) with 4294967296; lia). cbn [bind].
  rewrite arith_u_ok by (change (2 ^ 32) with 4294967296; lia). cbn [bind]. reflexivity.
Qed.
Lemma clamp15 : forall v, 0 <= v < 32768 -> clampbits v 15 = Ok v.
Proof. intros v H. rewrite clampbits_spec by lia. change (2 ^ 15) with 32768. replace (v <? 0) with false by lia. replace (v <? 32768) with true by lia. reflexivity. Qed.

Section Rows.
Variables (t : hufftable) (enc : Z -> list bool) (fits : Z -> Prop) (m h hh : Z) (start pic : Z -> Z -> Z) (curve : list Z) (first : Z).
Notation w := (2 * m).
Notation step := (step_of start pic).
Notation tbl := (map (entry curve) (zrange 0 (zlen curve))).
Notation final := (toned_picture curve pic w first).
Notation noise i := (noise_after (Z.to_nat i) first).
Hypothesis Ht : codes MSB t enc fits.
Hypothesis Cs : samples curve.
Hypothesis Ci : increasing curve.
Hypothesis Cn : not_too_steep curve.
Hypothesis Cl : zlen curve <= 32768.
Hypothesis Hs : forall r c, 0 <= r < h -> 0 <= c < w -> 0 <= pic r c < zlen curve.
Hypothesis Hst : forall r c, 0 <= r < 2 -> 0 <= c < 2 -> sample (start r c).
Hypothesis Hf : forall r c, 0 <= r < h -> 0 <= c < w -> fits (step r c).
Hypothesis Hm : 0 < m.
Hypothesis Hh : 0 <= h <= hh.
Hypothesis Hfirst : 0 <= first < 2 ^ 32.

Lemma noise_next : forall i, 0 <= i -> noise (i + 1) = 15700 * (noise i mod 65536) + noise i / 65536.
Proof. intros i Hi. replace (Z.to_nat (i + 1)) with (S (Z.to_nat i)) by lia. reflexivity. Qed.
Lemma nef_put_ok : forall r c out, 0 <= r < h -> 0 <= c -> c + 1 < w -> Filled w hh (r * w + c) final out ->
  exists out', nef_put tbl out (r * w + c) (pic r c) (pic r (c + 1)) (noise (r * w + c)) = Ok (out', noise (r * w + (c + 2))) /\
    Filled w hh (r * w + (c + 2)) final out'.
Proof.
  intros r c out Hr Hc Hw F. unfold nef_put.
  assert (P1 : 0 <= pic r c < zlen curve) by (apply Hs; lia). assert (P2 : 0 <= pic r (c + 1) < zlen curve) by (apply Hs; lia).
  assert (Hi : 0 <= r * w + c) by nia.
  rewrite clamp15 by lia. cbn [bind]. rewrite as_u16_sample by (unfold sample; lia).
  rewrite dither_exact by (first [assumption|apply noise_range; assumption]). cbn [bind].
  destruct (Filled_put w hh final out r c (final r c)) as [o1 [E1 F1]]; [lia|lia|reflexivity|exact F|].
  unfold toned_picture at 1 in E1. rewrite E1. cbn [bind]. rewrite <- noise_next by exact Hi.
  rewrite clamp15 by lia. cbn [bind]. rewrite as_u16_sample by (unfold sample; lia).
  rewrite dither_exact by (first [assumption|apply noise_range; assumption]). cbn [bind].
  replace (r * w + c + 1) with (r * w + (c + 1)) in * by lia.
  destruct (Filled_put w hh final o1 r (c + 1) (final r (c + 1))) as [o2 [E2 F2]]; [lia|lia|reflexivity|exact F1|].
  unfold toned_picture at 1 in E2. rewrite E2. cbn [bind]. rewrite <- noise_next by lia.
  replace (r * w + (c + 1) + 1) with (r * w + (c + 2)) in * by lia. exists o2. split; [reflexivity|exact F2].
Qed.

Definition npairs (r j : Z) : list bool := flat_map (fun j => enc (step r (2 * j)) ++ enc (step r (2 * j + 1))) (zrange j m).
Lemma npairs_cons : forall r j, j < m -> npairs r j = enc (step r (2 * j)) ++ enc (step r (2 * j + 1)) ++ npairs r (j + 1).
Proof. intros r j H. unfold npairs. rewrite (zrange_cons j) by exact H. cbn [flat_map]. rewrite <- app_assoc. reflexivity. Qed.
Definition nrows (r : Z) : list bool := flat_map (fun r => npairs r 0) (zrange r h).
Lemma ncoded : steps_coded (fun _ => enc) start pic w h = nrows 0.
Proof.
  unfold steps_coded, nrows. rewrite !upto_zrange. apply flat_map_ext. intros r. unfold npairs.
  replace (zrange 0 w) with (zrange (2 * 0) (2 * m)) by reflexivity.
  rewrite (pairs_split m (fun c => enc (step r c)) 0) by lia. reflexivity.
Qed.

Lemma nef_row_ok : forall r p out rest, 0 <= r < h -> (32 <= length rest)%nat -> Repr MSB p (npairs r 1 ++ rest) ->
  Filled w hh (r * w) final out ->
  exists a b p' out', rfold (fun col '(a, b, p, random, out) =>
          '(a, b, p) <- (if 0 <? col then pair_diff t a b p else Ok (a, b, p)) ;;
          '(out, random) <- nef_put tbl out (r * w + col) a b random ;;
          Ok (a, b, p, random, out)) (zrange_step 0 w 2) (pic r 0, pic r 1, p, noise (r * w), out) = Ok (a, b, p', noise ((r + 1) * w), out') /\
    Repr MSB p' rest /\ Filled w hh ((r + 1) * w) final out'.
Proof.
  intros r p out rest Hr Hrest R F.
  replace (zrange_step 0 w 2) with (zrange_step (0 + 2 * 0) (2 * m + 0) 2) by (f_equal; lia). rewrite zrange_step_map by lia. rewrite rfold_map.
  rewrite (zrange_cons 0 m) by lia. cbn [rfold]. change (0 + 2 * 0) with 0. change (0 <? 0) with false. cbv iota. cbn [bind].
  destruct (nef_put_ok r 0 out) as [o0 [E0 F0]]; [lia|lia|lia|rewrite Z.add_0_r; exact F|].
  rewrite Z.add_0_r in E0 |- *. change (0 + 1) with 1 in E0. rewrite E0. cbn [bind]. change (0 + 1) with 1. change (0 + 2) with 2 in *.
  match goal with |- context [rfold ?f _ _] => destruct (rfold_zrange f (fun j '(a, b, p, random, out) =>
    a = pic r (2 * j - 2) /\ b = pic r (2 * j - 1) /\ random = noise (r * w + 2 * j) /\ Repr MSB p (npairs r j ++ rest) /\ Filled w hh (r * w + 2 * j) final out)
    1 m (pic r 0, pic r 1, p, noise (r * w + 2), o0)) as [[[[[a b] p'] rn] o'] [E [_ [_ [N' [R' F']]]]]] end.
  - lia.
  - split; [reflexivity|]. split; [reflexivity|]. split; [reflexivity|]. split; [exact R|]. exact F0.
  - intros j [[[[a b] p1] rn] o1] Hj [-> [-> [-> [R1 F1]]]]. rewrite npairs_cons in R1 by lia. rewrite <- !app_assoc in R1.
    assert (S1 : 0 <= pic r (2 * j - 2) < zlen curve) by (apply Hs; lia). assert (S2 : 0 <= pic r (2 * j - 1) < zlen curve) by (apply Hs; lia).
    assert (S3 : 0 <= pic r (2 * j) < zlen curve) by (apply Hs; lia). assert (S4 : 0 <= pic r (2 * j + 1) < zlen curve) by (apply Hs; lia).
    assert (T1 : step r (2 * j) = pic r (2 * j) - pic r (2 * j - 2)) by (unfold step_of, two_before; replace (2 * j <? 2) with false by lia; reflexivity).
    assert (T2 : step r (2 * j + 1) = pic r (2 * j + 1) - pic r (2 * j - 1)) by (unfold step_of, two_before; replace (2 * j + 1 <? 2) with false by lia; do 2 f_equal; lia).
    change (0 + 2 * j) with (2 * j). replace (0 <? 2 * j) with true by lia. cbv iota.
    destruct (pair_diff_ok t enc fits (step r (2 * j)) (step r (2 * j + 1)) (pic r (2 * j - 2)) (pic r (2 * j - 1)) p1 (npairs r (j + 1) ++ rest)) as [p2 [E2 R2]].
    + exact Ht.
    + apply Hf; lia.
    + apply Hf; lia.
    + rewrite T1. lia.
    + rewrite T2. lia.
    + rewrite app_length. lia.
    + exact R1.
    + rewrite E2. cbn [bind]. clear E2.
      replace (pic r (2 * j - 2) + step r (2 * j)) with (pic r (2 * j)) by lia.
      replace (pic r (2 * j - 1) + step r (2 * j + 1)) with (pic r (2 * j + 1)) by lia.
      destruct (nef_put_ok r (2 * j) o1) as [o2 [E3 F3]]; [lia|lia|lia|exact F1|].
      rewrite E3. cbn [bind]. eexists. split; [reflexivity|]. cbv beta iota. replace (2 * (j + 1)) with (2 * j + 2) by lia.
      split; [f_equal; lia|]. split; [f_equal; lia|]. split; [reflexivity|]. split; [exact R2|exact F3].
  - exists a, b, p', o'. unfold npairs in R'. rewrite zrange_empty in R' by lia. replace ((r + 1) * w) with (r * w + 2 * m) by lia.
    rewrite <- N'. split; [exact E|]. split; [exact R'|exact F'].
Qed.

Definition nef_step (meta : nef_meta) (bps : Z) (width row : Z) (st : hufftable * list Z * list Z * pump * Z * list Z) : res (hufftable * list Z * list Z * pump * Z * list Z) :=
  let '(t, up1, up2, p, random, out) := st in
      t <- (if (0 <? nf_split meta) && (row =? nf_split meta) then nef_hufftable (nf_select meta + 1) bps else Ok t) ;;
      u1 <- get up1 (row &&& 1) ;; u2 <- get up2 (row &&& 1) ;;
      '(u1, u2, p) <- pair_diff t u1 u2 p ;;
      up1 <- upd up1 (row &&& 1) u1 ;; up2 <- upd up2 (row &&& 1) u2 ;;
      '(_, _, p, random, out) <- rfold (fun col '(a, b, p, random, out) =>
          '(a, b, p) <- (if 0 <? col then pair_diff t a b p else Ok (a, b, p)) ;;
          '(out, random) <- nef_put (nf_curve meta) out (row * width + col) a b random ;;
          Ok (a, b, p, random, out)) (zrange_step 0 width 2) (u1, u2, p, random, out) ;;
      Ok (t, up1, up2, p, random, out).
(** The rows before the change of code *)
Theorem nef_rows_before : forall meta bps src rest, nef_hufftable (nf_select meta) bps = Ok t -> nf_curve meta = tbl ->
  nf_up1 meta = (start 0 0, start 1 0) -> nf_up2 meta = (start 0 1, start 1 1) -> nf_split meta <= 0 \/ h <= nf_split meta ->
  readable MSB src -> stream MSB src 0 = steps_coded (fun _ => enc) start pic w h ++ rest -> (32 <= length rest)%nat ->
  first = number (firstn 24 (stream MSB src 0)) ->
  exists up1 up2 p out, Repr MSB p rest /\ up1 = [upper start pic h 0 0; upper start pic h 1 0] /\ up2 = [upper start pic h 0 1; upper start pic h 1 1] /\
    Filled w hh (h * w) final out /\
    nef_rows meta src w hh bps = ('(_, _, _, _, _, out) <- rfold (nef_step meta bps w) (zrange h hh) (t, up1, up2, p, noise (h * w), out) ;; Ok out).
Proof.
  intros meta bps src rest Et Ec Eu1 Eu2 Hsp Hrd Es Hrest Ef. pose proof (Repr_new MSB src 0 Hrd) as R. unfold nef_rows. rewrite Et. cbn [bind].
  destruct (peek_ok MSB (pump_new src) (stream MSB src 0) 24 R) as [p0 [E0 R0]]; [lia|rewrite Es, app_length; lia|].
  change (Z.of_nat 24) with 24 in E0. rewrite E0. cbn [bind]. change (value_of MSB (firstn 24 (stream MSB src 0))) with (number (firstn 24 (stream MSB src 0))). rewrite <- Ef. destruct R0 as [R0 _]. rewrite Es, ncoded in R0. rewrite Eu1, Eu2. cbn [fst snd].
  match goal with |- context [rfold ?f (zrange 0 hh) ?s] => change f with (nef_step meta bps w) end. rewrite (zrange_split 0 h hh) by lia. rewrite rfold_app.
  match goal with |- context [rfold ?f (zrange 0 h) ?s] => destruct (rfold_zrange f (fun r '(t', up1, up2, p, random, out) =>
      t' = t /\ up1 = [upper start pic r 0 0; upper start pic r 1 0] /\ up2 = [upper start pic r 0 1; upper start pic r 1 1] /\
      random = noise (r * w) /\ Repr MSB p (nrows r ++ rest) /\ Filled w hh (r * w) final out) 0 h s) as [[[[[[t' a] b] p'] rn] o'] [E [-> [Ea [Eb [En [R' F']]]]]]] end.
  - lia.
  - split; [reflexivity|]. split; [reflexivity|]. split; [reflexivity|]. split; [reflexivity|]. split; [exact R0|]. apply Filled_0. rewrite zlen_zeros. nia.
  - intros r [[[[[t' up1] up2] p1] rn] o1] Hr [-> [U1 [U2 [-> [R1 F1]]]]]. cbn [nef_step]. rewrite Ec.
    replace ((0 <? nf_split meta) && (r =? nf_split meta)) with false by lia. cbn [bind]. rewrite land1.
    rewrite (get2_ok _ _ _ _ U1), (get2_ok _ _ _ _ U2) by lia. cbn [bind].
    replace (if r mod 2 =? 0 then upper start pic r 0 0 else upper start pic r 1 0) with (two_before start pic r 0).
    2:{ rewrite <- upper_now by lia. assert (r mod 2 = 0 \/ r mod 2 = 1) as [-> | ->] by lia; reflexivity. }
    replace (if r mod 2 =? 0 then upper start pic r 0 1 else upper start pic r 1 1) with (two_before start pic r 1).
    2:{ rewrite <- upper_now by lia. assert (r mod 2 = 0 \/ r mod 2 = 1) as [-> | ->] by lia; reflexivity. }
    assert (S0 : 0 <= pic r 0 < zlen curve) by (apply Hs; lia). assert (S1 : 0 <= pic r 1 < zlen curve) by (apply Hs; lia).
    unfold nrows in R1. rewrite (zrange_cons r) in R1 by lia. cbn [flat_map] in R1. fold (nrows (r + 1)) in R1.
    rewrite npairs_cons in R1 by lia. change (2 * 0) with 0 in R1. change (0 + 1) with 1 in R1. rewrite <- !app_assoc in R1.
    destruct (pair_diff_ok t enc fits (step r 0) (step r 1) (two_before start pic r 0) (two_before start pic r 1) p1 (npairs r 1 ++ nrows (r + 1) ++ rest)) as [p2 [E2 R2]].
    + exact Ht.
    + apply Hf; lia.
    + apply Hf; lia.
    + unfold step_of. lia.
    + unfold step_of. lia.
    + rewrite !app_length. lia.
    + exact R1.
    + rewrite E2. cbn [bind]. clear E2.
      replace (two_before start pic r 0 + step r 0) with (pic r 0) by (unfold step_of; lia). replace (two_before start pic r 1 + step r 1) with (pic r 1) by (unfold step_of; lia).
      rewrite (upd2_ok _ _ _ _ _ U1), (upd2_ok _ _ _ _ _ U2) by lia. cbn [bind].
      destruct (nef_row_ok r p2 o1 (nrows (r + 1) ++ rest)) as [a [b [p3 [o3 [E4 [R4 F4]]]]]].
      * lia.
      * rewrite app_length. lia.
      * exact R2.
      * exact F1.
      * rewrite E4. cbn [bind]. eexists. split; [reflexivity|]. cbv beta iota.
        split; [reflexivity|]. split; [|split; [|split; [reflexivity|split; [exact R4|exact F4]]]].
        -- rewrite !upper_step by lia. destruct (r mod 2 =? 0) eqn:Q; [replace (r mod 2 =? 1) with false by lia|replace (r mod 2 =? 1) with true by lia]; reflexivity.
        -- rewrite !upper_step by lia. destruct (r mod 2 =? 0) eqn:Q; [replace (r mod 2 =? 1) with false by lia|replace (r mod 2 =? 1) with true by lia]; reflexivity.
  - rewrite E. cbn [bind]. exists a, b, p', o'. unfold nrows in R'. rewrite zrange_empty in R' by lia. split; [exact R'|]. split; [exact Ea|]. split; [exact Eb|]. split; [exact F'|]. rewrite En. reflexivity.
Qed.
End Rows.
Theorem nef_rows_ok : forall t enc fits m h start pic curve first, let w := 2 * m in let tbl := map (entry curve) (zrange 0 (zlen curve)) in
  codes MSB t enc fits -> samples curve -> increasing curve -> not_too_steep curve -> zlen curve <= 32768 ->
  (forall r c, 0 <= r < h -> 0 <= c < w -> 0 <= pic r c < zlen curve) -> (forall r c, 0 <= r < 2 -> 0 <= c < 2 -> sample (start r c)) ->
  (forall r c, 0 <= r < h -> 0 <= c < w -> fits (step_of start pic r c)) -> 0 < m -> 0 <= h -> 0 <= first < 2 ^ 32 ->
  forall meta bps src rest, nef_hufftable (nf_select meta) bps = Ok t -> nf_curve meta = tbl ->
  nf_up1 meta = (start 0 0, start 1 0) -> nf_up2 meta = (start 0 1, start 1 1) -> nf_split meta <= 0 \/ h <= nf_split meta ->
  readable MSB src -> stream MSB src 0 = steps_coded (fun _ => enc) start pic w h ++ rest -> (32 <= length rest)%nat ->
  first = number (firstn 24 (stream MSB src 0)) ->
  exists out, nef_rows meta src w h bps = Ok out /\ is_image out w h (toned_picture curve pic w first).
Proof.
  intros t enc fits m h start pic curve first w tbl Ht Cs Ci Cn Cl Hs Hst Hf Hm Hh Hfirst meta bps src rest Et Ec Eu1 Eu2 Hsp Hrd Es Hrest Ef.
  destruct (nef_rows_before t enc fits m h h start pic curve first) with (meta := meta) (bps := bps) (src := src) (rest := rest) as [up1 [up2 [p [out [_ [_ [_ [F E]]]]]]]]; try assumption; [lia|].
  exists out. fold w in E. rewrite E, zrange_empty by lia. cbn [rfold bind]. split; [reflexivity|]. apply Filled_image. replace (w * h) with (h * w) by lia. exact F.
Qed.
End Nef.
