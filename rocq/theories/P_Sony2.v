(** Proofs about Sony's compression of blocks (C58): rows and pictures. *)
From Coq Require Import String ZArith List Bool Lia ZifyBool ZifyNat.
From Verif Require Import Base Bytes Pumps Packed Threads Lookup Arw Spec_Bits Spec_Pump Spec_Stream Spec_Image Spec_Packed Spec_Ljpeg Spec_Curve Spec_Nikon Spec_Sony
  P_Base P_Bits P_Threads P_Pumps P_Packed3 P_Huff1 P_Huff3 P_Huff4 P_Huff5 P_Ljpeg1 P_Lookup P_Pred1 P_Pred7 P_Sony1.
Import ListNotations.
Local Open Scope Z_scope.

Section Picture.
Context {M : Mode}.
Variables (pic imax imin : Z -> Z -> Z) (m h : Z) (curve : list Z).
Notation w := (32 * m).
Hypothesis Hm : 0 < m.
Hypothesis Hp : sony_picture pic imax imin w h.
Hypothesis Cs : samples curve.
Hypothesis Ci : increasing curve.
Hypothesis Cn : not_too_steep curve.
Hypothesis Cl : 4095 <= zlen curve.
Notation tbl := (map (entry curve) (zrange 0 (zlen curve))).
Notation blk r b := (block_bits (block_of pic r b) (imax r b) (imin r b)).

Lemma blocks_count : w / 16 = 2 * m.
Proof. replace (32 * m) with (2 * m * 16) by lia. apply Z.div_mul. lia. Qed.
Lemma block_fits : forall r b, 0 <= r < h -> 0 <= b < 2 * m -> (forall i, 0 <= i < 16 -> 0 <= block_of pic r b i < 2048) /\ extremes (block_of pic r b) (imax r b) (imin r b).
Proof.
  intros r b Hr Hb. destruct Hp as [P1 P2]. split; [|apply P2; [exact Hr|rewrite blocks_count; exact Hb]].
  intros i Hi. unfold block_of. apply P1; [exact Hr|]. pose proof (Z.div_mod b 2 ltac:(lia)). pose proof (Z.mod_pos_bound b 2 ltac:(lia)). lia.
Qed.
Lemma block_length : forall v a b, 0 <= a < 16 -> 0 <= b < 16 -> a <> b -> length (block_bits v a b) = 128%nat.
Proof.
  intros v a b Ha Hb Hab. unfold block_bits. rewrite !app_length, !sample_bits_lsb_length.
  assert (L : length (flat_map (fun i => if (i =? a) || (i =? b) then [] else sample_bits_lsb 7 (block_word v a b i)) (upto 16)) = 98%nat); [|lia].
  assert (G : forall l, length (flat_map (fun i => if (i =? a) || (i =? b) then [] else sample_bits_lsb 7 (block_word v a b i)) l) = (7 * length (filter (fun i => negb ((i =? a) || (i =? b))%Z) l))%nat).
  { induction l as [|x l IH]; [reflexivity|]. cbn [flat_map filter]. rewrite app_length, IH. destruct ((x =? a) || (x =? b)); cbn [negb length]; [lia|]. rewrite sample_bits_lsb_length. lia. }
  rewrite G. 
  assert (C : forallb (fun a => forallb (fun b => (a =? b) || Nat.eqb (length (filter (fun i => negb ((i =? a) || (i =? b))) (zrange 0 16))) 14) (zrange 0 16)) (zrange 0 16) = true) by (vm_compute; reflexivity).
  pose proof (proj1 (forallb_forall _ _) C a ltac:(apply zrange_In; exact Ha)) as C1. cbv beta in C1.
  pose proof (proj1 (forallb_forall _ _) C1 b ltac:(apply zrange_In; exact Hb)) as C2. cbv beta in C2.
  rewrite upto_zrange. replace (a =? b) with false in C2 by lia. cbn [orb] in C2. apply Nat.eqb_eq in C2. rewrite C2. reflexivity.
Qed.
Lemma row_length : forall r, 0 <= r < h -> Z.of_nat (length (sony_row pic imax imin w r)) = 8 * w.
Proof.
  intros r Hr. unfold sony_row. rewrite blocks_count, upto_zrange.
  assert (G : forall l, (forall b, In b l -> 0 <= b < 2 * m) -> length (flat_map (fun b => blk r b) l) = (128 * length l)%nat).
  { induction l as [|x l IH]; intros Hl; [reflexivity|]. cbn [flat_map]. rewrite app_length, IH by (intros; apply Hl; right; assumption).
    destruct (block_fits r x Hr (Hl x (or_introl eq_refl))) as [_ (E1 & E2 & E3 & _)]. rewrite block_length by assumption. cbn [length]. lia. }
  rewrite G by (intros b Hb; apply zrange_In; exact Hb). pose proof (zlen_zrange 0 (2 * m)) as L. unfold zlen in L. lia.
Qed.

Lemma column : forall k q, 0 <= q < 32 -> block_number (32 * k + q) = 2 * k + q mod 2 /\ block_place (32 * k + q) = q / 2.
Proof.
  intros k q Hq. unfold block_number, block_place. assert (D : (32 * k + q) / 32 = k) by (symmetry; apply Z.div_unique with q; lia).
  assert (R : (32 * k + q) mod 32 = q) by (symmetry; apply Z.mod_unique with k; lia). rewrite D, R. split; [|reflexivity]. f_equal.
  replace (32 * k + q) with (q + 16 * k * 2) by lia. apply Z.mod_add. lia.
Qed.
Definition drawn r first c := toned curve (2 * sony_value pic imax imin r c) (noise_after (Z.to_nat (16 * block_number c + block_place c)) first).
Lemma piece_read : forall r k p tail first out, 0 <= r < h -> 0 <= k < m -> 0 <= first < 2 ^ 32 -> zlen out = 32 ->
  Repr LSB p (blk r (2 * k) ++ blk r (2 * k + 1) ++ tail) ->
  exists p' out', rfold (arw2_half tbl) (zrange 0 2) (p, noise_after (Z.to_nat (32 * k)) first, out) = Ok (p', noise_after (Z.to_nat (32 * (k + 1))) first, out') /\
    Repr LSB p' tail /\ zlen out' = 32 /\ forall q, 0 <= q < 32 -> znth out' q = drawn r first (32 * k + q).
Proof.
  intros r k p tail first out Hr Hk Hf Ho R. pose proof (noise_range (Z.to_nat (32 * k)) first Hf) as N1.
  destruct (block_fits r (2 * k) Hr ltac:(lia)) as [A1 A2]. destruct (block_fits r (2 * k + 1) Hr ltac:(lia)) as [B1 B2].
  destruct (half_read _ _ _ A1 A2 curve Cs Ci Cn Cl 0 p _ _ out (or_introl eq_refl) N1 Ho R) as (p1 & o1 & E1 & R1 & L1 & V1).
  pose proof (noise_range 16 _ N1) as N2.
  destruct (half_read _ _ _ B1 B2 curve Cs Ci Cn Cl 1 p1 _ _ o1 (or_intror eq_refl) N2 L1 R1) as (p2 & o2 & E2 & R2 & L2 & V2).
  exists p2, o2. change (zrange 0 2) with [0; 1]. cbn [rfold]. rewrite E1. cbn [bind]. rewrite E2. cbn [bind].
  rewrite <- !noise_add. replace (16 + 16 + Z.to_nat (32 * k))%nat with (Z.to_nat (32 * (k + 1))) by lia. split; [reflexivity|]. split; [exact R2|]. split; [exact L2|]. intros q Hq.
  rewrite V2 by exact Hq. pose proof (Z.mod_pos_bound q 2 ltac:(lia)) as Q. pose proof (Z.div_pos q 2 ltac:(lia) ltac:(lia)).
  unfold drawn, sony_value. destruct (column k q Hq) as [-> ->]. destruct (q mod 2 =? 1) eqn:E.
  - rewrite <- !noise_add. replace (q mod 2) with 1 by lia. match goal with |- toned _ _ (noise_after ?a _) = toned _ _ (noise_after ?b _) => replace a with b by lia end. reflexivity.
  - rewrite V1 by exact Hq. replace (q mod 2 =? 0) with true by lia. replace (q mod 2) with 0 by lia. rewrite Z.add_0_r, <- noise_add. match goal with |- toned _ _ (noise_after ?a _) = toned _ _ (noise_after ?b _) => replace a with b by lia end. reflexivity.
Qed.
Lemma line_read : forall r first n k p tail done, 0 <= r < h -> 0 <= first < 2 ^ 32 -> 0 <= k -> k + Z.of_nat n = m ->
  zlen done = 32 * k -> (forall c, 0 <= c < 32 * k -> znth done c = drawn r first c) ->
  Repr LSB p (flat_map (fun b => blk r b) (zrange (2 * k) (2 * m)) ++ tail) ->
  exists p' rnd done', rfold (fun piece '(p, random, done) =>
      '(p, random, piece) <- rfold (arw2_half tbl) (zrange 0 2) (p, random, piece) ;;
      Ok (p, random, done ++ piece)) (repeat (repeat 0 32) n) (p, noise_after (Z.to_nat (32 * k)) first, done) = Ok (p', rnd, done') /\
    zlen done' = w /\ forall c, 0 <= c < w -> znth done' c = drawn r first c.
Proof.
  intros r first. induction n as [|n IH]; intros k p tail done Hr Hf Hk Hn Ld Vd R.
  - cbn [repeat rfold]. do 3 eexists. split; [reflexivity|]. replace m with k by lia. auto.
  - rewrite (zrange_cons (2 * k)), (zrange_cons (2 * k + 1)) in R by lia. cbn [flat_map] in R. rewrite <- !app_assoc in R.
    destruct (piece_read r k p _ first (repeat 0 32) Hr ltac:(lia) Hf eq_refl R) as (p1 & o1 & E1 & R1 & L1 & V1).
    cbn [repeat rfold]. change (0 :: 0 :: 0 :: 0 :: 0 :: 0 :: 0 :: 0 :: 0 :: 0 :: 0 :: 0 :: 0 :: 0 :: 0 :: 0 :: 0 :: 0 :: 0 :: 0 :: 0 :: 0 :: 0 :: 0 :: 0 :: 0 :: 0 :: 0 :: 0 :: 0 :: 0 :: 0 :: []) with (repeat 0 32).
    rewrite E1. cbn [bind].
    apply (IH (k + 1) p1 tail (done ++ o1)); try assumption; try lia.
    + rewrite zlen_app, Ld, L1. lia.
    + intros c Hc. destruct (Z.ltb_spec c (32 * k)).
      * unfold znth. rewrite app_nth1 by (unfold zlen in Ld; lia). apply Vd. lia.
      * unfold znth. rewrite app_nth2 by (unfold zlen in Ld; lia). specialize (V1 (c - 32 * k) ltac:(lia)). unfold znth in V1.
        replace (Z.to_nat c - length done)%nat with (Z.to_nat (c - 32 * k)) by (unfold zlen in Ld; lia). rewrite V1. f_equal. lia.
    + replace (2 * (k + 1)) with (2 * k + 1 + 1) by lia. exact R1.
Qed.
Lemma sony_decoded : forall buf rest, bytes buf -> 0 <= h -> bits_of_lsb buf = flat_map (sony_row pic imax imin w) (upto h) ++ rest ->
  exists out, decode_arw2 buf w h tbl = Ok out /\ is_image out w h (sony_toned curve pic imax imin w).
Proof.
  intros buf rest Hb Hh Eb. unfold decode_arw2. apply decode_threaded_image; [lia|exact Hh|]. intros r Hr.
  assert (Rows : forall n, 0 <= n <= h -> Z.of_nat (length (flat_map (sony_row pic imax imin w) (zrange 0 n))) = 8 * w * n).
  { intros n Hn. pose proof (proj1 Hn) as Hn0. revert Hn. pattern n. apply natlike_ind; [|clear n Hn0|exact Hn0].
    - intros _. cbn. lia.
    - intros n Hn0 IH Hn. unfold Z.succ. rewrite zrange_snoc by lia. rewrite flat_map_app, app_length. cbn [flat_map]. rewrite app_nil_r, Nat2Z.inj_add, IH, row_length by lia. lia. }
  assert (Lb : 8 * Z.of_nat (length buf) = 8 * w * h + Z.of_nat (length rest)).
  { pose proof (f_equal (@length bool) Eb) as L. rewrite bits_of_lsb_length, app_length, upto_zrange in L. pose proof (Rows h ltac:(lia)). lia. }
  assert (Hrw : 0 <= r * w /\ r * w + w <= Z.of_nat (length buf)) by nia.
  rewrite slice_from_ok by (unfold zlen; lia). cbn [bind].
  set (src := skipn (Z.to_nat (r * w)) buf).
  assert (Bs : bytes src) by (apply Forall_forall; intros x Hx; apply (proj1 (Forall_forall _ _) Hb); rewrite <- (firstn_skipn (Z.to_nat (r * w)) buf); apply in_or_app; right; exact Hx).
  assert (Ls : Z.of_nat (length src) = Z.of_nat (length buf) - r * w) by (unfold src; rewrite skipn_length; lia).
  assert (Es : exists tail, stream LSB src 0 = sony_row pic imax imin w r ++ tail).
  { cbn [stream]. unfold whole_words. rewrite bits_of_lsb_firstn. unfold src at 2. rewrite bits_of_lsb_skipn, Eb, upto_zrange.
    rewrite (zrange_split 0 r h) by lia. rewrite flat_map_app, (zrange_cons r) by lia. cbn [flat_map]. rewrite <- !app_assoc.
    pose proof (Rows r ltac:(lia)) as Rr. rewrite skipn_app. rewrite skipn_all2 by lia. cbn [app].
    replace (8 * Z.to_nat (r * w) - length (flat_map (sony_row pic imax imin w) (zrange 0 r)))%nat with 0%nat by lia. cbn [skipn].
    pose proof (row_length r Hr) as Lr. rewrite firstn_app. rewrite firstn_all2; [eexists; reflexivity|].
    assert (8 * m <= Z.of_nat (length src / 4)); [|lia]. rewrite Nat2Z.inj_div. apply Z.div_le_lower_bound; lia. }
  destruct Es as [tail Es]. pose proof (Repr_new LSB src 0 ltac:(split; [exact Bs|discriminate])) as R. rewrite Es in R.
  pose proof (row_length r Hr) as Lr.
  destruct (peek_ok LSB (pump_new src) _ 24 R ltac:(lia) ltac:(rewrite app_length; lia)) as (p1 & E1 & R1 & _). change (Z.of_nat 24) with 24 in E1. rewrite E1. cbn [bind].
  change (value_of LSB) with number_lsb. rewrite firstn_app. replace (24 - length (sony_row pic imax imin w r))%nat with 0%nat by lia. rewrite firstn_O, app_nil_r.
  set (first := number_lsb (firstn 24 (sony_row pic imax imin w r))).
  assert (Hf : 0 <= first < 2 ^ 32).
  { pose proof (number_lsb_range (firstn 24 (sony_row pic imax imin w r))) as N. rewrite firstn_length_le in N by lia. fold first in N. change (2 ^ 32) with 4294967296. change (2 ^ Z.of_nat 24) with 16777216 in N. lia. }
  unfold arw2_line. unfold zeros. replace (Z.to_nat w) with (32 * Z.to_nat m)%nat by lia. rewrite chunks_repeat by lia.
  unfold sony_row in R1. rewrite blocks_count, upto_zrange in R1.
  destruct (line_read r first (Z.to_nat m) 0 p1 tail [] Hr Hf ltac:(lia) ltac:(lia) eq_refl ltac:(intros; lia) R1) as (p' & rnd & line & E & L & V).
  change (Z.to_nat (32 * 0)) with 0%nat in E. cbn [noise_after] in E. rewrite E. cbn [bind]. exists line. split; [reflexivity|]. split; [exact L|].
  intros c Hc. rewrite V by exact Hc. reflexivity.
Qed.
End Picture.
