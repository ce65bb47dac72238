(** Packed layouts: whole images. *)
From Coq Require Import ZArith List Bool Lia ZifyBool ZifyNat Arith.
From Verif Require Import Base Bytes Threads Lookup Packed Spec_Bits Spec_Image Spec_Packed
  P_Base P_Bits P_Threads P_Pumps P_Packed.
Import ListNotations.
Local Open Scope Z_scope.
Ltac Zify.zify_post_hook ::= Z.div_mod_to_equations.

Lemma swapped_split : forall k q l, (0 < k)%nat -> (k * q <= length l)%nat ->
  swapped k l = swapped k (firstn (k * q) l) ++ swapped k (skipn (k * q) l).
Proof.
  intros k q. induction q as [|q IH]; intros l Hk Hl.
  - rewrite Nat.mul_0_r. cbn [firstn skipn]. reflexivity.
  - rewrite Nat.mul_succ_r in *.
    rewrite (swapped_step k l) by lia.
    rewrite (swapped_step k (firstn _ l)) by (rewrite ?firstn_length_le; lia).
    rewrite firstn_firstn, Nat.min_l by lia. rewrite <- app_assoc. f_equal.
    rewrite (IH (skipn k l)) by (rewrite ?skipn_length; lia). f_equal.
    + f_equal. rewrite skipn_firstn_comm. f_equal. lia.
    + rewrite skipn_skipn'. do 2 f_equal. lia.
Qed.
Lemma swapped_length : forall k q l, (0 < k)%nat -> length l = (k * q)%nat -> length (swapped k l) = (k * q)%nat.
Proof.
  intros k q. induction q as [|q IH]; intros l Hk Hl.
  - rewrite Nat.mul_0_r in *. rewrite swapped_short by lia. reflexivity.
  - rewrite Nat.mul_succ_r in *. rewrite swapped_step by lia.
    rewrite app_length, rev_length, firstn_length_le by lia.
    rewrite IH by (try assumption; rewrite skipn_length; lia). lia.
Qed.
Lemma swapped_skipn : forall k q l, (0 < k)%nat -> (k * q <= length l)%nat ->
  swapped k (skipn (k * q) l) = skipn (k * q) (swapped k l).
Proof.
  intros k q l Hk Hl. rewrite (swapped_split k q l) by assumption.
  rewrite skipn_app_exact; [reflexivity|]. symmetry. apply swapped_length; [assumption|]. apply firstn_length_le. assumption.
Qed.
Lemma bits_split : forall n l, bits_of l = bits_of (firstn n l) ++ bits_of (skipn n l).
Proof. intros. rewrite <- bits_of_app, firstn_skipn. reflexivity. Qed.
Lemma bits_lsb_split : forall n l, bits_of_lsb l = bits_of_lsb (firstn n l) ++ bits_of_lsb (skipn n l).
Proof. intros. rewrite <- bits_of_lsb_app, firstn_skipn. reflexivity. Qed.

(** * One line *)
Lemma line_12be : forall m out inb, length out = (2 * m)%nat -> (3 * m <= length inb)%nat -> bytes inb ->
  zip_chunks 2 3 body_12be out inb = Ok (fields number 12 (2 * m) (bits_of inb)).
Proof.
  intros m out inb. apply (zip_chunks_fields 2 3 body_12be ltac:(lia) bits_of number 12 ltac:(lia)).
  - intros. apply bits_split.
  - intros i Hi. rewrite bits_of_length, Hi. reflexivity.
  - apply body_12be_ok.
Qed.
Lemma line_12le : forall m out inb, length out = (2 * m)%nat -> (3 * m <= length inb)%nat -> bytes inb ->
  zip_chunks 2 3 body_12le out inb = Ok (fields number_lsb 12 (2 * m) (bits_of_lsb inb)).
Proof.
  intros m out inb. apply (zip_chunks_fields 2 3 body_12le ltac:(lia) bits_of_lsb number_lsb 12 ltac:(lia)).
  - intros. apply bits_lsb_split.
  - intros i Hi. rewrite bits_of_lsb_length, Hi. reflexivity.
  - apply body_12le_ok.
Qed.
Lemma line_10le_lsb16 : forall m out inb, length out = (8 * m)%nat -> (10 * m <= length inb)%nat -> bytes inb ->
  zip_chunks 8 10 body_10le_lsb16 out inb = Ok (fields number 10 (8 * m) (bits_of (swapped 2 inb))).
Proof.
  intros m out inb.
  apply (zip_chunks_fields 8 10 body_10le_lsb16 ltac:(lia) (fun l => bits_of (swapped 2 l)) number 10 ltac:(lia)).
  - intros l Hl. rewrite (swapped_split 2 5) by (cbn; lia). apply bits_of_app.
  - intros i Hi. rewrite bits_of_length, (swapped_length 2 5) by (cbn; lia). reflexivity.
  - apply body_10le_lsb16_ok.
Qed.
Lemma line_12be_msb16 : forall m out inb, length out = (4 * m)%nat -> (6 * m <= length inb)%nat -> bytes inb ->
  zip_chunks 4 6 body_12be_msb16 out inb = Ok (fields number 12 (4 * m) (bits_of (swapped 2 inb))).
Proof.
  intros m out inb.
  apply (zip_chunks_fields 4 6 body_12be_msb16 ltac:(lia) (fun l => bits_of (swapped 2 l)) number 12 ltac:(lia)).
  - intros l Hl. rewrite (swapped_split 2 3) by (cbn; lia). apply bits_of_app.
  - intros i Hi. rewrite bits_of_length, (swapped_length 2 3) by (cbn; lia). reflexivity.
  - apply body_12be_msb16_ok.
Qed.
Lemma line_12be_msb32 : forall m out inb, length out = (8 * m)%nat -> (12 * m <= length inb)%nat -> bytes inb ->
  zip_chunks 8 12 body_12be_msb32 out inb = Ok (fields number 12 (8 * m) (bits_of (swapped 4 inb))).
Proof.
  intros m out inb.
  apply (zip_chunks_fields 8 12 body_12be_msb32 ltac:(lia) (fun l => bits_of (swapped 4 l)) number 12 ltac:(lia)).
  - intros l Hl. rewrite (swapped_split 4 3) by (cbn; lia). apply bits_of_app.
  - intros i Hi. rewrite bits_of_length, (swapped_length 4 3) by (cbn; lia). reflexivity.
  - apply body_12be_msb32_ok.
Qed.

(** * Images *)
Lemma zeros_length : forall n, length (zeros n) = Z.to_nat n.
Proof. intros. unfold zeros. apply repeat_length. Qed.
Lemma is_image_ext : forall img w h p q, (forall r c, 0 <= r < h -> 0 <= c < w -> p r c = q r c) ->
  is_image img w h p -> is_image img w h q.
Proof. intros img w h p q H [L P]. split; [assumption|]. intros. rewrite P by assumption. auto. Qed.
Lemma rows_fields : forall w h (src : Z -> res (list Z)) line value nb (B : Z -> list bool),
  0 < w -> 0 <= h ->
  (forall r, 0 <= r < h -> exists inb, src r = Ok inb /\
     line (zeros w) inb = Ok (fields value nb (Z.to_nat w) (B r))) ->
  exists img, decode_threaded w h (fun out row => inb <- src row ;; line out inb) = Ok img /\
    is_image img w h (fun r c => value (firstn nb (skipn (nb * Z.to_nat c) (B r)))).
Proof.
  intros w h src line value nb B Hw Hh H. apply decode_threaded_image; [assumption..|].
  intros r Hr. destruct (H r Hr) as [inb [E1 E2]]. rewrite E1. cbn [bind].
  eexists. split; [exact E2|]. split; [unfold zlen; rewrite fields_length; lia|].
  intros c Hc. unfold znth. apply fields_nth. lia.
Qed.

Lemma sample_row : forall nb buf o rw c, 8 * o = Z.of_nat nb * rw -> 0 <= o -> 0 <= rw -> 0 <= c ->
  number (firstn nb (skipn (nb * Z.to_nat c) (bits_of (skipn (Z.to_nat o) buf)))) = packed_sample nb buf (rw + c).
Proof.
  intros nb buf o rw c E Ho Hrw Hc. unfold packed_sample, field. do 2 f_equal.
  rewrite bits_of_skipn, skipn_skipn'. f_equal. nia.
Qed.
Lemma sample_row_lsb : forall nb buf o rw c, 8 * o = Z.of_nat nb * rw -> 0 <= o -> 0 <= rw -> 0 <= c ->
  number_lsb (firstn nb (skipn (nb * Z.to_nat c) (bits_of_lsb (skipn (Z.to_nat o) buf)))) = packed_sample_lsb nb buf (rw + c).
Proof.
  intros nb buf o rw c E Ho Hrw Hc. unfold packed_sample_lsb, field_lsb. do 2 f_equal.
  rewrite bits_of_lsb_skipn, skipn_skipn'. f_equal. nia.
Qed.

Lemma even_rows : forall w r, w mod 2 = 0 -> 0 <= r -> 0 <= w -> 8 * (r * w * 12 / 8) = 12 * (r * w).
Proof. intros w r Hw Hr Hw0. assert (exists a, w = 2 * a) as [a ->] by (exists (w / 2); lia).
  replace (r * (2 * a) * 12) with ((3 * (r * a)) * 8) by lia. rewrite Z.div_mul by lia. lia. Qed.

Theorem decode_12be_image : forall buf w h, bytes buf -> 0 < w -> w mod 2 = 0 -> 0 <= h ->
  w * h * 12 <= 8 * zlen buf ->
  exists img, decode_12be buf w h = Ok img /\ is_image img w h (fun r c => packed_sample 12 buf (r * w + c)).
Proof.
  intros buf w h Hb Hw He Hh Hl. unfold decode_12be.
  destruct (rows_fields w h (fun row => slice_from buf (row * w * 12 / 8)) (zip_chunks 2 3 body_12be)
    number 12 (fun r => bits_of (skipn (Z.to_nat (r * w * 12 / 8)) buf)) Hw Hh) as [img [E I]]; [|].
  - intros r Hr. pose proof (even_rows w r He ltac:(lia) ltac:(lia)) as Eo. set (o := r * w * 12 / 8) in *.
    assert (Ho : 0 <= o) by nia. assert (Hfit : o + 3 * (w / 2) <= zlen buf) by nia.
    eexists. split; [apply slice_from_ok; lia|].
    rewrite (line_12be (Z.to_nat (w / 2))).
    + do 2 f_equal. lia.
    + rewrite zeros_length. lia.
    + rewrite skipn_length. unfold zlen in *. lia.
    + apply Forall_skipn; assumption.
  - exists img. split; [exact E|]. eapply is_image_ext; [|exact I]. intros r c Hr Hc. cbv beta.
    apply sample_row; first [rewrite even_rows by lia; lia | nia].
Qed.
Theorem decode_12le_image : forall buf w h, bytes buf -> 0 < w -> w mod 2 = 0 -> 0 <= h ->
  w * h * 12 <= 8 * zlen buf ->
  exists img, decode_12le buf w h = Ok img /\ is_image img w h (fun r c => packed_sample_lsb 12 buf (r * w + c)).
Proof.
  intros buf w h Hb Hw He Hh Hl. unfold decode_12le.
  destruct (rows_fields w h (fun row => slice_from buf (row * w * 12 / 8)) (zip_chunks 2 3 body_12le)
    number_lsb 12 (fun r => bits_of_lsb (skipn (Z.to_nat (r * w * 12 / 8)) buf)) Hw Hh) as [img [E I]]; [|].
  - intros r Hr. pose proof (even_rows w r He ltac:(lia) ltac:(lia)) as Eo. set (o := r * w * 12 / 8) in *.
    assert (Ho : 0 <= o) by nia. assert (Hfit : o + 3 * (w / 2) <= zlen buf) by nia.
    eexists. split; [apply slice_from_ok; lia|].
    rewrite (line_12le (Z.to_nat (w / 2))).
    + do 2 f_equal. lia.
    + rewrite zeros_length. lia.
    + rewrite skipn_length. unfold zlen in *. lia.
    + apply Forall_skipn; assumption.
  - exists img. split; [exact E|]. eapply is_image_ext; [|exact I]. intros r c Hr Hc. cbv beta.
    apply sample_row_lsb; first [rewrite even_rows by lia; lia | nia].
Qed.
(** Rows start on a 16-bit boundary; despite its name the samples are most
    significant bit first. *)
Theorem decode_12le_16bitaligned_image : forall buf w h, bytes buf -> 0 < w -> w mod 2 = 0 -> 0 <= h ->
  let stride := 2 * ((w * 12 / 8 + 1) / 2) in
  h * stride <= zlen buf ->
  exists img, decode_12le_16bitaligned buf w h = Ok img /\
    is_image img w h (fun r c => packed_sample 12 (skipn (Z.to_nat (r * stride)) buf) c).
Proof.
  intros buf w h Hb Hw He Hh stride Hl. unfold decode_12le_16bitaligned.
  rewrite Z.shiftr_div_pow2, Z.shiftl_mul_pow2 by lia. change (2 ^ 1) with 2.
  replace ((w * 12 / 8 + 1) / 2 * 2) with stride by (unfold stride; lia).
  assert (Hs : w * 12 / 8 <= stride) by (unfold stride; lia). assert (Hs0 : 0 <= stride) by lia.
  destruct (rows_fields w h (fun row => slice_from buf (row * stride)) (zip_chunks 2 3 body_12be)
    number 12 (fun r => bits_of (skipn (Z.to_nat (r * stride)) buf)) Hw Hh) as [img [E I]]; [|].
  - intros r Hr. assert (Hfit : r * stride + 3 * (w / 2) <= zlen buf) by nia.
    eexists. split; [apply slice_from_ok; nia|].
    rewrite (line_12be (Z.to_nat (w / 2))).
    + do 2 f_equal. lia.
    + rewrite zeros_length. lia.
    + rewrite skipn_length. unfold zlen in *. nia.
    + apply Forall_skipn; assumption.
  - exists img. split; [exact E|]. eapply is_image_ext; [|exact I]. intros r c Hr Hc. reflexivity.
Qed.

Theorem decode_10le_lsb16_image : forall buf w h, bytes buf -> 0 < w -> w mod 8 = 0 -> 0 <= h ->
  w * h * 10 <= 8 * zlen buf ->
  exists img, decode_10le_lsb16 buf w h = Ok img /\
    is_image img w h (fun r c => packed_sample 10 (swapped 2 buf) (r * w + c)).
Proof.
  intros buf w h Hb Hw He Hh Hl. unfold decode_10le_lsb16.
  assert (exists a, w = 8 * a) as [a Ea] by (exists (w / 8); lia).
  assert (Eo : forall r, r * w * 10 / 8 = 2 * (5 * (r * a))).
  { intros r. rewrite Ea. replace (r * (8 * a) * 10) with (2 * (5 * (r * a)) * 8) by lia. apply Z.div_mul. lia. }
  destruct (rows_fields w h (fun row => slice_from buf (row * w * 10 / 8)) (zip_chunks 8 10 body_10le_lsb16)
    number 10 (fun r => bits_of (swapped 2 (skipn (Z.to_nat (r * w * 10 / 8)) buf))) Hw Hh) as [img [E I]]; [|].
  - intros r Hr. rewrite (Eo r). assert (Hfit : 2 * (5 * (r * a)) + 10 * a <= zlen buf) by nia.
    eexists. split; [apply slice_from_ok; nia|].
    rewrite (line_10le_lsb16 (Z.to_nat a)).
    + do 2 f_equal. lia.
    + rewrite zeros_length. lia.
    + rewrite skipn_length. unfold zlen in *. nia.
    + apply Forall_skipn; assumption.
  - exists img. split; [exact E|]. eapply is_image_ext; [|exact I]. intros r c Hr Hc. cbv beta.
    rewrite Eo. replace (Z.to_nat (2 * (5 * (r * a)))) with (2 * Z.to_nat (5 * (r * a)))%nat by nia.
    rewrite swapped_skipn by (try lia; unfold zlen in *; nia).
    replace (2 * Z.to_nat (5 * (r * a)))%nat with (Z.to_nat (2 * (5 * (r * a)))) by nia.
    apply sample_row; nia.
Qed.

Lemma sequential_image : forall img w h nb B, 0 < w -> 0 <= h ->
  img = fields number nb (Z.to_nat (w * h)) (bits_of B) ->
  is_image img w h (fun r c => packed_sample nb B (r * w + c)).
Proof.
  intros img w h nb B Hw Hh ->. split.
  - rewrite fields_length. nia.
  - intros r c Hr Hc. rewrite fields_nth by nia. reflexivity.
Qed.
Theorem decode_12be_msb16_image : forall buf w h, bytes buf -> 0 < w -> 0 <= h -> (w * h) mod 4 = 0 ->
  w * h * 12 <= 8 * zlen buf ->
  exists img, decode_12be_msb16 buf w h = Ok img /\
    is_image img w h (fun r c => packed_sample 12 (swapped 2 buf) (r * w + c)).
Proof.
  intros buf w h Hb Hw Hh He Hl. unfold decode_12be_msb16. set (n := w * h) in *.
  eexists. split.
  - apply (line_12be_msb16 (Z.to_nat (n / 4))); [rewrite zeros_length; nia|unfold zlen in *; nia|assumption].
  - apply sequential_image; [assumption..|]. f_equal. fold n. nia.
Qed.
Theorem decode_12be_msb32_image : forall buf w h, bytes buf -> 0 < w -> 0 <= h -> (w * h) mod 8 = 0 ->
  w * h * 12 <= 8 * zlen buf ->
  exists img, decode_12be_msb32 buf w h = Ok img /\
    is_image img w h (fun r c => packed_sample 12 (swapped 4 buf) (r * w + c)).
Proof.
  intros buf w h Hb Hw Hh He Hl. unfold decode_12be_msb32. set (n := w * h) in *.
  eexists. split.
  - apply (line_12be_msb32 (Z.to_nat (n / 8))); [rewrite zeros_length; nia|unfold zlen in *; nia|assumption].
  - apply sequential_image; [assumption..|]. f_equal. fold n. nia.
Qed.

(** Interlaced: even rows from the start, odd rows from a second field. *)
Lemma interlaced_image : forall buf second w h, bytes buf -> bytes second -> 0 < w -> w mod 2 = 0 -> 0 <= h ->
  (h + 1) / 2 * w * 12 <= 8 * zlen buf -> h / 2 * w * 12 <= 8 * zlen second ->
  exists img, interlaced_rows buf second w h = Ok img /\
    is_image img w h (fun r c => packed_sample 12 (if r mod 2 =? 0 then buf else second) (r / 2 * w + c)).
Proof.
  intros buf second w h Hb Hb2 Hw He Hh Hl Hl2. unfold interlaced_rows.
  destruct (rows_fields w h
    (fun row => if row mod 2 =? 0 then slice_from buf (row / 2 * w * 12 / 8) else slice_from second (row / 2 * w * 12 / 8))
    (zip_chunks 2 3 body_12be) number 12
    (fun r => bits_of (skipn (Z.to_nat (r / 2 * w * 12 / 8)) (if r mod 2 =? 0 then buf else second))) Hw Hh)
    as [img [E I]]; [|].
  - intros r Hr. set (B := if r mod 2 =? 0 then buf else second).
    pose proof (even_rows w (r / 2) He ltac:(lia) ltac:(lia)) as Eo. set (o := r / 2 * w * 12 / 8) in *.
    assert (Hp : 0 <= r / 2 * w) by (apply Z.mul_nonneg_nonneg; lia).
    clearbody o. assert (Ho : 0 <= o) by lia.
    assert (HB : bytes B) by (unfold B; destruct (r mod 2 =? 0); assumption).
    assert (Hfit : o + 3 * (w / 2) <= zlen B).
    { unfold B. destruct (r mod 2 =? 0) eqn:Er.
      - assert (Hm : (r / 2 + 1) * w <= (h + 1) / 2 * w) by (apply Z.mul_le_mono_nonneg_r; lia).
        rewrite Z.mul_add_distr_r in Hm. lia.
      - assert (Hm : (r / 2 + 1) * w <= h / 2 * w) by (apply Z.mul_le_mono_nonneg_r; lia).
        rewrite Z.mul_add_distr_r in Hm. lia. }
    exists (skipn (Z.to_nat o) B). split.
    + unfold B in *. destruct (r mod 2 =? 0); apply slice_from_ok; lia.
    + rewrite (line_12be (Z.to_nat (w / 2))).
      * do 2 f_equal. lia.
      * rewrite zeros_length. lia.
      * rewrite skipn_length. unfold zlen in *. lia.
      * apply Forall_skipn; assumption.
  - exists img. split; [exact E|]. eapply is_image_ext; [|exact I]. intros r c Hr Hc. cbv beta.
    assert (Hp : 0 <= r / 2 * w) by (apply Z.mul_nonneg_nonneg; lia).
    pose proof (even_rows w (r / 2) He ltac:(lia) ltac:(lia)).
    apply sample_row; lia.
Qed.
Theorem decode_12be_interlaced_image : forall buf w h, bytes buf -> 0 < w -> w mod 2 = 0 -> 0 <= h ->
  let second := 2048 * ((h + 1) / 2 * w * 3 / 2 / 2048 + 1) in
  second + h / 2 * (w * 12 / 8) <= zlen buf ->
  exists img, decode_12be_interlaced buf w h = Ok img /\
    is_image img w h (fun r c => packed_sample 12
      (if r mod 2 =? 0 then buf else skipn (Z.to_nat second) buf) (r / 2 * w + c)).
Proof.
  intros buf w h Hb Hw He Hh second Hl. unfold decode_12be_interlaced.
  rewrite !Z.shiftr_div_pow2, Z.shiftl_mul_pow2 by lia. change (2 ^ 1) with 2. change (2 ^ 11) with 2048.
  replace (((h + 1) / 2 * w * 3 / 2 / 2048 + 1) * 2048) with second by (unfold second; lia).
  assert (exists a, w = 2 * a) as [a Ea] by (exists (w / 2); lia).
  assert (E8 : w * 12 / 8 = 3 * a) by lia. rewrite E8 in Hl.
  assert (Hs : 3 * ((h + 1) / 2 * a) <= second).
  { unfold second. replace ((h + 1) / 2 * w * 3 / 2) with (3 * ((h + 1) / 2 * a)); [lia|].
    rewrite Ea. replace ((h + 1) / 2 * (2 * a) * 3) with (3 * ((h + 1) / 2 * a) * 2) by lia.
    rewrite Z.div_mul by lia. reflexivity. }
  assert (Hp : 0 <= h / 2 * (3 * a)) by (apply Z.mul_nonneg_nonneg; lia).
  rewrite slice_from_ok by nia. cbn [bind].
  apply interlaced_image; auto.
  - apply Forall_skipn; assumption.
  - nia.
  - rewrite zlen_skipn. nia.
Qed.
Theorem decode_12be_interlaced_unaligned_image : forall buf w h, bytes buf -> 0 < w -> w mod 2 = 0 -> 0 <= h ->
  w * h * 12 <= 8 * zlen buf ->
  exists img, decode_12be_interlaced_unaligned buf w h = Ok img /\
    is_image img w h (fun r c => packed_sample 12 buf (if r mod 2 =? 0 then r / 2 * w + c else ((h + 1) / 2 + r / 2) * w + c)).
Proof.
  intros buf w h Hb Hw He Hh Hl. unfold decode_12be_interlaced_unaligned.
  rewrite !Z.shiftr_div_pow2 by lia. change (2 ^ 1) with 2.
  pose proof (even_rows w ((h + 1) / 2) He ltac:(lia) ltac:(lia)) as Eo. set (o := (h + 1) / 2 * w * 12 / 8) in *.
  clearbody o.
  assert (Hp1 : 0 <= (h + 1) / 2 * w) by (apply Z.mul_nonneg_nonneg; lia).
  assert (Hp2 : 0 <= h / 2 * w) by (apply Z.mul_nonneg_nonneg; lia).
  assert (Ho : 0 <= o) by lia.
  assert (Hsum : (h + 1) / 2 * w + h / 2 * w = w * h).
  { rewrite <- Z.mul_add_distr_r. replace ((h + 1) / 2 + h / 2) with h by lia. lia. }
  rewrite slice_from_ok by lia. cbn [bind].
  destruct (interlaced_image buf (skipn (Z.to_nat o) buf) w h) as [img [E I]]; auto.
  - apply Forall_skipn; assumption.
  - lia.
  - rewrite zlen_skipn. lia.
  - exists img. split; [exact E|]. eapply is_image_ext; [|exact I]. intros r c Hr Hc. cbv beta.
    destruct (r mod 2 =? 0); [reflexivity|].
    unfold packed_sample at 1, field. replace (((h + 1) / 2 + r / 2) * w + c) with ((h + 1) / 2 * w + (r / 2 * w + c)) by lia.
    assert (Hp3 : 0 <= r / 2 * w) by (apply Z.mul_nonneg_nonneg; lia).
    rewrite <- (sample_row 12 buf o) by lia. reflexivity.
Qed.

(** Control bytes. *)
Lemma without_control_fuel : forall f1 f2 l, (length l <= f1)%nat -> (length l <= f2)%nat ->
  without_control_aux f1 l = without_control_aux f2 l.
Proof.
  induction f1; intros f2 l H1 H2.
  - destruct l; [|cbn in H1; lia]. destruct f2; reflexivity.
  - destruct f2; [destruct l; [reflexivity|cbn in H2; lia]|].
    cbn [without_control_aux]. destruct l as [|x l]; [reflexivity|]. f_equal.
    apply IHf1; rewrite skipn_length; cbn [length] in *; lia.
Qed.
Lemma without_control_step : forall l, without_control l = firstn 15 l ++ without_control (skipn 16 l).
Proof.
  intros [|x l]; [reflexivity|]. unfold without_control. cbn [length without_control_aux]. f_equal.
  apply without_control_fuel; [rewrite skipn_length; cbn [length]; lia|lia].
Qed.
Lemma without_control_length : forall n l, length l = n ->
  length (without_control l) = (n - n / 16)%nat.
Proof.
  intros n. induction n as [n IH] using lt_wf_ind. intros l Hl. destruct l as [|x l].
  - cbn in Hl. subst n. reflexivity.
  - rewrite without_control_step, app_length, firstn_length.
    rewrite (IH (n - 16)%nat); [|cbn [length] in Hl; lia|rewrite skipn_length; lia]. rewrite Hl.
    destruct (Nat.le_gt_cases 16 n); lia.
Qed.
Lemma without_control_bytes : forall n l, (length l <= n)%nat -> bytes l -> bytes (without_control l).
Proof.
  induction n; intros l Hl Hb; [destruct l; [constructor|cbn in Hl; lia]|].
  destruct l as [|x l]; [constructor|]. rewrite without_control_step. apply Forall_app. split.
  - apply Forall_firstn; assumption.
  - apply IHn; [rewrite skipn_length; cbn [length] in *; lia|apply Forall_skipn; assumption].
Qed.
Section Control.
Variables (body : list Z -> list Z -> res (list Z)) (bo : list Z -> list bool) (value : list bool -> Z).
Hypothesis bo_split : forall a b, bo (a ++ b) = bo a ++ bo b.
Hypothesis bo_length : forall l, length (bo l) = (8 * length l)%nat.
Hypothesis line_ok : forall m out inb, length out = (2 * m)%nat -> (3 * m <= length inb)%nat -> bytes inb ->
  zip_chunks 2 3 body out inb = Ok (fields value 12 (2 * m) (bo inb)).
Lemma fields_cut : forall n a b, (12 * n <= 8 * length a)%nat ->
  fields value 12 n (bo (a ++ b)) = fields value 12 n (bo a).
Proof.
  intros n a b H. rewrite bo_split. rewrite <- (firstn_skipn (12 * n) (bo a)), <- app_assoc.
  rewrite !fields_prefix by (rewrite firstn_length_le by (rewrite bo_length; lia); lia). reflexivity.
Qed.
Lemma control_line : forall k m out inb, (m <= k)%nat -> length out = (2 * m)%nat ->
  (3 * m <= length (without_control inb))%nat -> bytes inb ->
  zip_chunks 10 16 (fun oc ic => zip_chunks 2 3 body oc ic) out inb =
  Ok (fields value 12 (2 * m) (bo (without_control inb))).
Proof.
  induction k as [|k IH]; intros m out inb Hk Ho Hi Hb.
  - replace m with O in * by lia. destruct out; [|discriminate]. reflexivity.
  - destruct (Nat.eq_dec m 0) as [->|Hm]; [destruct out; [|discriminate]; reflexivity|].
    assert (Hne : inb <> []) by (intros ->; cbn in Hi; lia).
    rewrite zip_chunks_cons by (try lia; try assumption; intros ->; cbn in Ho; lia).
    rewrite (without_control_step inb) in *. rewrite app_length, firstn_length in Hi.
    destruct (Nat.le_gt_cases m 5) as [H5|H5].
    + assert (Lf : (3 * m <= length (firstn 15 inb))%nat).
      { rewrite firstn_length. assert (length (without_control (skipn 16 inb)) = 0 \/ 16 < length inb)%nat; [|lia].
        destruct (Nat.lt_ge_cases 16 (length inb)); [auto|left]. rewrite skipn_all2 by assumption. reflexivity. }
      rewrite (firstn_all2 out) by lia. rewrite (skipn_all2 out) by lia.
      rewrite (line_ok m) by (first [assumption | apply Forall_firstn; assumption |
        rewrite firstn_length in *; lia]).
      cbn [bind]. rewrite zip_chunks_nil. cbn [bind]. rewrite app_nil_r. f_equal.
      assert (E16 : firstn 16 inb = firstn 15 inb ++ skipn 15 (firstn 16 inb)).
      { rewrite <- (firstn_skipn 15 (firstn 16 inb)) at 1. rewrite firstn_firstn. reflexivity. }
      rewrite E16. rewrite !fields_cut by lia. reflexivity.
    + assert (L15 : length (firstn 15 inb) = 15%nat).
      { rewrite firstn_length. destruct (Nat.lt_ge_cases 16 (length inb)); [lia|].
        rewrite (skipn_all2 inb) in Hi by assumption. change (length (without_control [])) with 0%nat in Hi. lia. }
      rewrite (line_ok 5); [|rewrite firstn_length_le; lia|rewrite firstn_length in *; lia|apply Forall_firstn; assumption].
      cbn [bind]. rewrite (IH (m - 5)%nat); [|lia|rewrite skipn_length; lia|rewrite firstn_length in L15; lia|apply Forall_skipn; assumption].
      cbn [bind]. f_equal.
      assert (E16 : firstn 16 inb = firstn 15 inb ++ skipn 15 (firstn 16 inb)).
      { rewrite <- (firstn_skipn 15 (firstn 16 inb)) at 1. rewrite firstn_firstn. reflexivity. }
      rewrite E16. rewrite (fields_cut (2 * 5)) by (rewrite L15; lia).
      rewrite <- (fields_cut (2 * 5) (firstn 15 inb) (without_control (skipn 16 inb))) by (rewrite L15; lia).
      rewrite bo_split. rewrite fields_app by (rewrite bo_length, L15; lia). f_equal. lia.
Qed.
Lemma control_image : forall buf w h, bytes buf -> 0 < w -> w mod 2 = 0 -> 0 <= h ->
  let perline := w * 12 / 8 + (w + 2) / 10 in
  h * perline <= zlen buf ->
  exists img, decode_threaded w h (fun out row => inb <- slice_from buf (row * perline) ;;
      zip_chunks 10 16 (fun oc ic => zip_chunks 2 3 body oc ic) out inb) = Ok img /\
    is_image img w h (fun r c => value (firstn 12 (skipn (12 * Z.to_nat c)
      (bo (without_control (skipn (Z.to_nat (r * perline)) buf)))))).
Proof.
  intros buf w h Hb Hw He Hh perline Hl.
  apply (rows_fields w h (fun row => slice_from buf (row * perline))
    (zip_chunks 10 16 (fun oc ic => zip_chunks 2 3 body oc ic)) value 12
    (fun r => bo (without_control (skipn (Z.to_nat (r * perline)) buf)))); [assumption..|].
  intros r Hr. assert (Hp : 0 < perline) by (unfold perline; lia).
  assert (Hfit : r * perline + perline <= zlen buf) by nia.
  assert (Hrp : 0 <= r * perline) by nia.
  exists (skipn (Z.to_nat (r * perline)) buf). split; [apply slice_from_ok; lia|].
  rewrite (control_line (Z.to_nat (w / 2)) (Z.to_nat (w / 2))).
  - do 2 f_equal. lia.
  - lia.
  - rewrite zeros_length. lia.
  - rewrite (without_control_length _ _ eq_refl), skipn_length.
    set (len := (length buf - Z.to_nat (r * perline))%nat).
    assert (Hlen : perline <= Z.of_nat len) by (unfold len, zlen in *; lia).
    unfold perline in Hlen. clear - Hlen Hw He. lia.
  - apply Forall_skipn; assumption.
Qed.
End Control.
Theorem decode_12be_wcontrol_image : forall buf w h, bytes buf -> 0 < w -> w mod 2 = 0 -> 0 <= h ->
  let perline := w * 12 / 8 + (w + 2) / 10 in
  h * perline <= zlen buf ->
  exists img, decode_12be_wcontrol buf w h = Ok img /\
    is_image img w h (fun r c => packed_sample 12 (without_control (skipn (Z.to_nat (r * perline)) buf)) c).
Proof.
  intros buf w h. apply (control_image body_12be bits_of number bits_of_app bits_of_length line_12be buf w h).
Qed.
Theorem decode_12le_wcontrol_image : forall buf w h, bytes buf -> 0 < w -> w mod 2 = 0 -> 0 <= h ->
  let perline := w * 12 / 8 + (w + 2) / 10 in
  h * perline <= zlen buf ->
  exists img, decode_12le_wcontrol buf w h = Ok img /\
    is_image img w h (fun r c => packed_sample_lsb 12 (without_control (skipn (Z.to_nat (r * perline)) buf)) c).
Proof.
  intros buf w h. apply (control_image body_12le bits_of_lsb number_lsb bits_of_lsb_app bits_of_lsb_length line_12le buf w h).
Qed.
