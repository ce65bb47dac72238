(** Proofs about Panasonic: whole pictures. *)
From Coq Require Import String ZArith List Bool Lia ZifyBool ZifyNat.
From Verif Require Import Base Bytes Pumps Huffman Packed Threads Dec_Pred Spec_Bits Spec_Pump Spec_Stream Spec_Image Spec_Huffman Spec_Ljpeg Spec_Pana
  P_Base P_Bits P_Threads P_Pumps P_Huff1 P_Huff4 P_Huff5 P_Ljpeg1 P_Pred1 P_Pana1 P_Pana2.
Import ListNotations.
Local Open Scope Z_scope.
Ltac Zify.zify_post_hook ::= Z.div_mod_to_equations.

(** A picture decoded in parts of [n] rows. *)
Lemma multiline_cells : forall w h n (f : list Z -> Z -> res (list Z)) (P : Z -> Z -> Prop), 0 < w -> 0 <= h -> 0 < n ->
  (forall row m, 0 <= row -> 0 < m -> row + m <= h -> exists line, f (zeros (w * m)) row = Ok line /\ zlen line = w * m /\ forall c, 0 <= c < w * m -> P (w * row + c) (znth line c)) ->
  exists img, decode_threaded_multiline w h n f = Ok img /\ zlen img = w * h /\ forall k, 0 <= k < w * h -> P k (znth img k).
Proof.
  intros w h n f P Hw Hh Hn H. unfold decode_threaded_multiline. replace (w * n =? 0) with false by nia. cbv zeta.
  assert (G : forall q j, 0 <= j -> (Z.to_nat (h - j * n) <= q)%nat -> exists ls,
    mapM (fun '(row, line) => f line (row * n)) (combine (zrange j (j + zlen (chunks (Z.to_nat (w * n)) (zeros (w * (h - j * n)))))) (chunks (Z.to_nat (w * n)) (zeros (w * (h - j * n))))) = Ok ls /\
    zlen (concat ls) = Z.max 0 (w * (h - j * n)) /\ forall k, 0 <= k < w * (h - j * n) -> P (w * (j * n) + k) (znth (concat ls) k)).
  { induction q as [|q IH]; intros j Hj Hq.
    - assert (h - j * n <= 0) by lia. unfold zeros. replace (Z.to_nat (w * (h - j * n))) with 0%nat by nia. cbn [repeat chunks chunks_aux]. replace (chunks (Z.to_nat (w * n)) []) with (@nil (list Z)) by (unfold chunks; reflexivity). exists []. split; [destruct (zrange j _); reflexivity|split; [cbn; nia|nia]].
    - destruct (Z.le_gt_cases (h - j * n) 0) as [L|L].
      { apply (IH j Hj). lia. }
      set (m := Z.min n (h - j * n)).
      assert (Ec : chunks (Z.to_nat (w * n)) (zeros (w * (h - j * n))) = zeros (w * m) :: chunks (Z.to_nat (w * n)) (zeros (w * (h - (j + 1) * n)))).
      { rewrite chunks_cons; [|nia|unfold zeros; assert (0 < Z.to_nat (w * (h - j * n)))%nat by nia; destruct (Z.to_nat (w * (h - j * n))); [lia|discriminate]].
        unfold zeros. rewrite skipn_repeat. f_equal.
        - unfold m. destruct (Z.le_gt_cases n (h - j * n)) as [Q|Q].
          + rewrite Z.min_l by lia. apply firstn_repeat_le. nia.
          + rewrite Z.min_r by lia. apply firstn_all2. rewrite repeat_length. nia.
        - f_equal. f_equal. nia. }
      rewrite Ec. rewrite zlen_cons. pose proof (zlen_nonneg (chunks (Z.to_nat (w * n)) (zeros (w * (h - (j + 1) * n))))) as Hz. set (cs := chunks (Z.to_nat (w * n)) (zeros (w * (h - (j + 1) * n)))) in *.
      rewrite (zrange_cons j) by lia. cbn [combine mapM].
      destruct (H (j * n) m ltac:(nia) ltac:(lia) ltac:(lia)) as [line [El [Ll Vl]]]. rewrite El. cbn [bind].
      destruct (IH (j + 1) ltac:(lia) ltac:(nia)) as [ls [Es [Ls Vs]]]. change (chunks (Z.to_nat (w * n)) (zeros (w * (h - (j + 1) * n)))) with cs in Es. replace (j + 1 + zlen cs) with (j + (1 + zlen cs)) in Es by lia. replace (j + (zlen cs + 1)) with (j + (1 + zlen cs)) by lia. rewrite Es. cbn [bind].
      exists (line :: ls). split; [reflexivity|]. cbn [concat]. rewrite zlen_app, Ll, Ls. assert (Hm : w * (h - j * n) = w * m + Z.max 0 (w * (h - (j + 1) * n))) by (unfold m; nia).
      split; [nia|]. intros k Hk. destruct (Z.lt_ge_cases k (w * m)) as [K|K].
      + unfold znth. rewrite app_nth1 by (unfold zlen in Ll; lia). apply Vl. lia.
      + unfold znth. rewrite app_nth2 by (unfold zlen in Ll; lia).
        assert (Em : m = n) by (unfold m in *; nia). specialize (Vs (k - w * m) ltac:(nia)). unfold znth in Vs.
        replace (Z.to_nat k - length line)%nat with (Z.to_nat (k - w * m)) by (unfold zlen in Ll; lia).
        replace (w * (j * n) + k) with (w * ((j + 1) * n) + (k - w * m)) by (rewrite Em; ring). exact Vs. }
  destruct (G (Z.to_nat h) 0 ltac:(lia) ltac:(lia)) as [ls [E [L V]]]. unfold enumerate. replace (h - 0 * n) with h in * by lia. cbn [Z.add] in E. rewrite E. cbn [bind].
  exists (concat ls). split; [reflexivity|split; [nia|]]. intros k Hk. specialize (V k Hk). replace (w * (0 * n) + k) with k in V by lia. exact V.
Qed.

Section Picture.
Context {M : Mode}.
Variables (buf : list Z) (split : bool) (N : Z) (Q : Z -> Z -> Z -> Prop).
Hypothesis Hb : bytes buf.
Hypothesis Hlen : zlen buf < 2 ^ 64.
Hypothesis Hroom : forall g b, 0 <= g < N -> 0 <= b < 16 -> pana_place split (16 * g + b) + 1 < zlen buf.
Hypothesis Hgroup : forall g p sh done, 0 <= g < N -> Pa buf split (128 * g) p -> 0 <= sh <= 4 ->
  exists p' sh' line, pana_group (zeros 14) (p, sh, done) = Ok (p', sh', done ++ line) /\ Pa buf split (128 * (g + 1)) p' /\ 0 <= sh' <= 4 /\ zlen line = 14 /\
    forall i, 0 <= i < 14 -> Q g i (znth line i).

(** A row of groups. *)
Lemma groups_run : forall q g p sh done, 0 <= g -> g + Z.of_nat q <= N -> Pa buf split (128 * g) p -> 0 <= sh <= 4 ->
  exists p' sh' line, rfold pana_group (repeat (zeros 14) q) (p, sh, done) = Ok (p', sh', done ++ line) /\ zlen line = 14 * Z.of_nat q /\
    forall k, 0 <= k < 14 * Z.of_nat q -> Q (g + k / 14) (k mod 14) (znth line k).
Proof.
  induction q as [|q IH]; intros g p sh done Hg Hq P Hs.
  - exists p, sh, []. rewrite app_nil_r. split; [reflexivity|split; [reflexivity|lia]].
  - destruct (Hgroup g p sh done ltac:(lia) P Hs) as [p1 [s1 [l1 [E1 [P1 [S1 [L1 V1]]]]]]]. cbn [repeat rfold]. rewrite E1. cbn [bind].
    destruct (IH (g + 1) p1 s1 (done ++ l1) ltac:(lia) ltac:(lia) P1 S1) as [p2 [s2 [l2 [E2 [L2 V2]]]]]. exists p2, s2, (l1 ++ l2). rewrite E2, <- app_assoc. split; [reflexivity|].
    split; [rewrite zlen_app; lia|]. intros k Hk. destruct (Z.lt_ge_cases k 14) as [K|K].
    + replace (k / 14) with 0 in * by lia. rewrite Z.add_0_r in *. replace (k mod 14) with k by lia. unfold znth. rewrite app_nth1 by (unfold zlen in L1; lia). apply V1. lia.
    + unfold znth. rewrite app_nth2 by (unfold zlen in L1; lia). replace (Z.to_nat k - length l1)%nat with (Z.to_nat (k - 14)) by (unfold zlen in L1; lia).
      specialize (V2 (k - 14) ltac:(lia)). replace (g + 1 + (k - 14) / 14) with (g + k / 14) in V2 by lia. replace ((k - 14) mod 14) with (k mod 14) in V2 by lia. exact V2.
Qed.

(** The bytes before the first group of a part of the picture are skipped. *)
Lemma skip_run : forall g, 0 <= g <= N -> 16384 * (16 * g / 16384) <= zlen buf ->
  exists p, rfold (fun _ p => '(_, p) <- pana_bits p 8 ;; Ok p) (zrange 0 (16 * g mod 16384)) (pana_new (skipn (Z.to_nat (16384 * (16 * g / 16384))) buf) split) = Ok p /\ Pa buf split (128 * g) p.
Proof.
  intros g Hg Hz. set (B := 16 * g / 16384) in *.
  match goal with |- context [rfold ?f (zrange 0 ?n) ?s] => destruct (rfold_zrange f (fun i p => Pa buf split (131072 * B + 8 * i) p) 0 n s) as [p' [E P]] end.
  - lia.
  - exists B, 0, 0. unfold pana_new. repeat split; lia.
  - intros i p Hi P. assert (Hat : at_place split (131072 * B + 8 * i) 8 + 1 < zlen buf).
    { unfold at_place. apply Hroom; unfold B in *; lia. }
    destruct (read_at buf split Hb Hlen (131072 * B + 8 * i) 8 p P ltac:(lia) ltac:(lia) Hat) as [p1 [E1 P1]]. rewrite E1. cbn [bind].
    exists p1. split; [reflexivity|]. replace (131072 * B + 8 * (i + 1)) with (131072 * B + 8 * i + 8) by lia. exact P1.
  - exists p'. split; [exact E|]. replace (128 * g) with (131072 * B + 8 * (16 * g mod 16384)) by (unfold B; lia). exact P.
Qed.
Lemma place_from : forall j, 0 <= j -> 16384 * (j / 16384) <= pana_place split j.
Proof. intros j Hj. unfold pana_place. destruct split; lia. Qed.

(** The rows from [row] on. *)
Lemma part_run : forall q row m, 0 < q -> 0 <= row -> 0 < m -> q * (row + m) <= N ->
  exists line, (let skip := (14 * q * row * 9 + 14 * q / 14 * 2 * row) / 8 in
    src <- slice_from buf (skip / 0x4000 * 0x4000) ;;
    p <- rfold (fun _ p => '(_, p) <- pana_bits p 8 ;; Ok p) (zrange 0 (skip mod 0x4000)) (pana_new src split) ;;
    '(_, _, done) <- rfold pana_group (chunks 14 (zeros (14 * q * m))) (p, 0, []) ;;
    Ok done) = Ok line /\ zlen line = 14 * q * m /\
    forall c, 0 <= c < 14 * q * m -> Q ((14 * q * row + c) / 14) ((14 * q * row + c) mod 14) (znth line c).
Proof.
  intros q row m Hq Hr Hm HN. cbv zeta. assert (H1 : 0 <= q * row) by nia. assert (H2 : 0 < q * m) by nia. assert (H3 : q * row + q * m <= N) by nia.
  assert (Es : (14 * q * row * 9 + 14 * q / 14 * 2 * row) / 8 = 16 * (q * row)).
  { replace (14 * q / 14) with q by lia. replace (14 * q * row * 9 + q * 2 * row) with ((16 * (q * row)) * 8) by ring. apply Z.div_mul. lia. }
  rewrite Es. change 0x4000 with 16384. set (g := q * row) in *. rewrite (Z.mul_comm (16 * g / 16384)).
  assert (Hz : 16384 * (16 * g / 16384) <= zlen buf).
  { pose proof (Hroom g 0 ltac:(lia) ltac:(lia)) as R. pose proof (place_from (16 * g + 0) ltac:(lia)) as R2. rewrite Z.add_0_r in *. lia. }
  rewrite slice_from_ok by lia. cbn [bind]. destruct (skip_run g ltac:(lia) Hz) as [p [E P]]. rewrite E. cbn [bind].
  assert (Ec : chunks 14 (zeros (14 * q * m)) = repeat (zeros 14) (Z.to_nat (q * m))).
  { unfold zeros. replace (Z.to_nat (14 * q * m)) with (14 * Z.to_nat (q * m))%nat by lia. rewrite chunks_repeat by lia. reflexivity. }
  rewrite Ec. destruct (groups_run (Z.to_nat (q * m)) g p 0 [] H1 ltac:(lia) P ltac:(lia)) as [p' [s' [line [E2 [L2 V2]]]]]. rewrite E2. cbn [bind app].
  exists line. split; [reflexivity|split; [lia|]]. intros c Hc. replace ((14 * q * row + c) / 14) with (g + c / 14) by (unfold g; lia). replace ((14 * q * row + c) mod 14) with (c mod 14) by (unfold g; lia).
  apply V2. lia.
Qed.
Lemma pictures_run : forall w h, 0 < w -> 0 <= h -> w mod 14 = 0 -> w / 14 * h <= N ->
  exists img, pana_decompress buf w h split = Ok img /\ zlen img = w * h /\ forall k, 0 <= k < w * h -> Q (k / 14) (k mod 14) (znth img k).
Proof.
  intros w h Hw Hh H14 HN. unfold pana_decompress. apply (multiline_cells w h 5 _ (fun k x => Q (k / 14) (k mod 14) x)); [exact Hw|exact Hh|lia|].
  intros row m Hr Hm Hrm. assert (Ew : w = 14 * (w / 14)) by lia. assert (Hq : 0 < w / 14) by lia.
  destruct (part_run (w / 14) row m Hq Hr Hm ltac:(nia)) as [line [E [L Vl]]].
  rewrite <- Ew in *. exists line. split; [exact E|split; [exact L|exact Vl]].
Qed.
End Picture.

Lemma cell_div : forall w r c, 0 <= c < w -> (r * w + c) / w = r /\ (r * w + c) mod w = c.
Proof. intros w r c Hc. split; [rewrite Z.div_add_l, Z.div_small by lia; lia|rewrite Z.add_comm, Z.mod_add, Z.mod_small by lia; lia]. Qed.

Section Whole.
Context {M : Mode}.
Variables (buf : list Z) (split : bool) (w h : Z) (choice byte : Z -> Z -> Z) (pic : Z -> Z -> Z).
Hypothesis Hw : 0 < w.
Hypothesis Hh : 0 <= h.
Hypothesis H14 : w mod 14 = 0.
Hypothesis Hb : bytes buf.
Hypothesis Hlen : zlen buf < 2 ^ 64.
Hypothesis Hroom : forall g b, 0 <= g < w / 14 * h -> 0 <= b < 16 -> pana_place split (16 * g + b) + 1 < zlen buf.
Hypothesis Hcode : forall g, 0 <= g < w / 14 * h -> unbroken split g ->
  pana_group_fits (choice g) (byte g) (pana_values pic w g) /\ bits_of (pana_group_bytes split buf g) = pana_group_coded (choice g) (byte g) (pana_values pic w g).
Lemma pana_run : exists img, pana_decompress buf w h split = Ok img /\ zlen img = w * h /\
  forall k, 0 <= k < w * h -> unbroken split (k / 14) -> znth img k = pic (k / w) (k mod w).
Proof.
  destruct (pictures_run buf split (w / 14 * h) (fun g i x => unbroken split g -> x = pana_values pic w g i) Hb Hlen Hroom) with (w := w) (h := h) as [img [E [L Vl]]]; [|exact Hw|exact Hh|exact H14|lia|].
  - intros g p sh done Hg P Hs. destruct (group_any buf split Hb Hlen g (fun b H => Hroom g b Hg H) p sh done P Hs) as [p1 [s1 [l1 [E1 [P1 [S1 L1]]]]]].
    exists p1, s1, l1. repeat (split; [assumption|]). intros i Hi U. destruct (Hcode g Hg U) as [F C].
    destruct (group_ok buf split Hb Hlen g (proj1 Hg) (fun b H => Hroom g b Hg H) U (choice g) (byte g) (pana_values pic w g) F C p sh done P) as [p2 [s2 [l2 [E2 [_ [_ V2]]]]]].
    rewrite E1 in E2. injection E2 as _ _ E2. apply app_inv_head in E2. subst l2. apply V2. exact Hi.
  - exists img. split; [exact E|split; [exact L|]]. intros k Hk U. rewrite (Vl k Hk U). unfold pana_values.
    replace (14 * (k / 14) + k mod 14) with k by lia. reflexivity.
Qed.
End Whole.

(** Data in order *)
Lemma pana_ok : forall {M : Mode} pic w h choice byte, 0 < w -> 0 <= h -> w mod 14 = 0 ->
  (forall g, 0 <= g < w / 14 * h -> pana_group_fits (choice g) (byte g) (pana_values pic w g)) ->
  forall buf, bytes buf -> zlen buf < 2 ^ 64 -> 16 * (w / 14 * h) < zlen buf ->
  (forall g, 0 <= g < w / 14 * h -> bits_of (pana_group_bytes false buf g) = pana_group_coded (choice g) (byte g) (pana_values pic w g)) ->
  exists out, pana_decompress buf w h false = Ok out /\ is_image out w h pic.
Proof.
  intros M pic w h choice byte Hw Hh H14 Hf buf Hb Hlen Hroom Hc.
  destruct (pana_run buf false w h choice byte pic Hw Hh H14 Hb Hlen) as [out [E [L Vv]]].
  - intros g b Hg Hb2. unfold pana_place. lia.
  - intros g Hg _. split; [apply Hf|apply Hc]; exact Hg.
  - exists out. split; [exact E|]. split; [exact L|]. intros r c Hr Hcc. assert (Hk : 0 <= r * w + c < w * h) by nia.
    specialize (Vv _ Hk (or_introl eq_refl)). rewrite (proj1 (cell_div w r c Hcc)), (proj2 (cell_div w r c Hcc)) in Vv. exact Vv.
Qed.

(** Data in two parts *)
Lemma pana_split_ok : forall {M : Mode} pic w h choice byte, 0 < w -> 0 <= h -> w mod 14 = 0 ->
  (forall g, 0 <= g < w / 14 * h -> pana_group_fits (choice g) (byte g) (pana_values pic w g)) ->
  forall buf, bytes buf -> zlen buf < 2 ^ 64 -> 16384 * ((w / 14 * h + 1023) / 1024) < zlen buf ->
  (forall g, 0 <= g < w / 14 * h -> bits_of (pana_group_bytes true buf g) = pana_group_coded (choice g) (byte g) (pana_values pic w g)) ->
  exists out, pana_decompress buf w h true = Ok out /\ zlen out = w * h /\
    forall r c, 0 <= r < h -> 0 <= c < w -> (r * w + c) / 14 mod 1024 <> 512 -> nth (Z.to_nat (r * w + c)) out 0 = pic r c.
Proof.
  intros M pic w h choice byte Hw Hh H14 Hf buf Hb Hlen Hroom Hc.
  destruct (pana_run buf true w h choice byte pic Hw Hh H14 Hb Hlen) as [out [E [L Vv]]].
  - intros g b Hg Hb2. unfold pana_place. generalize dependent (w / 14 * h). intros N. intros. lia.
  - intros g Hg _. split; [apply Hf|apply Hc]; exact Hg.
  - exists out. split; [exact E|]. split; [exact L|]. intros r c Hr Hcc U. assert (Hk : 0 <= r * w + c < w * h) by nia.
    specialize (Vv _ Hk (or_intror U)). rewrite (proj1 (cell_div w r c Hcc)), (proj2 (cell_div w r c Hcc)) in Vv. exact Vv.
Qed.

(** The group in the middle of a block: a black picture followed by a byte that is not
    part of it. *)
Section Middle.
Context {M : Mode}.
Variable buf : list Z.
Hypothesis Hb : bytes buf.
Hypothesis Hz : zlen buf = 16385.
Hypothesis H0 : forall j, 0 <= j < 16384 -> znth buf j = 0.
Hypothesis H1 : znth buf 16384 = 255.
Let Hlen : zlen buf < 2 ^ 64.
Proof. rewrite Hz. reflexivity. Qed.
Let Hroom : forall g b, 0 <= g < 513 -> 0 <= b < 16 -> pana_place true (16 * g + b) + 1 < zlen buf.
Proof. intros g b Hg Hb2. unfold pana_place. lia. Qed.
Lemma black_coded : forall g, 0 <= g < 513 -> bits_of (pana_group_bytes true buf g) = pana_group_coded (fun _ => 0) (fun _ => 0) (fun _ => 0).
Proof.
  intros g Hg. unfold pana_group_bytes. rewrite (map_ext_in _ (fun _ => 0)).
  - vm_compute. reflexivity.
  - intros i Hi. rewrite upto_zrange in Hi. apply zrange_In in Hi. apply H0. unfold pana_place. lia.
Qed.
Lemma black_fits : pana_group_fits (fun _ => 0) (fun _ => 0) (fun _ => 0).
Proof.
  intros i Hi. unfold pana_pixel_fits. split; [lia|split; [unfold sample; lia|]].
  assert (E : pana_started (fun _ => 0) i = false) by (unfold pana_started; induction (upto i) as [|a l IH]; [reflexivity|cbn [existsb]; rewrite IH, andb_false_r; reflexivity]).
  rewrite E. lia.
Qed.
Lemma middle_read : forall u n p, Pa buf true (65536 + u) p -> 0 <= u -> 1 <= n <= 8 -> u + n <= 128 ->
  exists p', pana_bits p n = Ok ((if (128 - u - n) / 8 =? 7 then 65280 else 0) / 2 ^ ((128 - u - n) mod 8) mod 2 ^ n, p') /\ Pa buf true (65536 + (u + n)) p'.
Proof.
  intros u n p P Hu Hn Hun. assert (Ea : at_place true (65536 + u) n = pana_place true (16 * 512 + (128 - u - n) / 8)) by (unfold at_place; f_equal; lia).
  destruct (read_at buf true Hb Hlen (65536 + u) n p P Hn ltac:(lia)) as [p' [E P']].
  - rewrite Ea. apply Hroom; lia.
  - exists p'. split; [|replace (65536 + (u + n)) with (65536 + u + n) by lia; exact P']. rewrite E. f_equal. f_equal. rewrite Ea.
    replace ((128 - (65536 + u) mod 128 - n) mod 8) with ((128 - u - n) mod 8) by lia. f_equal. f_equal.
    assert (Hk : 0 <= (128 - u - n) / 8 < 16) by lia. generalize dependent ((128 - u - n) / 8). intros k _ Hk. unfold pana_place. destruct (k =? 7) eqn:Ek.
    + replace k with 7 by lia. change (16384 * ((16 * 512 + 7) / 16384) + ((16 * 512 + 7) mod 16384 + 8184) mod 16384) with 16383. change (16383 + 1) with 16384. rewrite (H0 16383), H1 by lia. reflexivity.
    + rewrite !H0 by lia. reflexivity.
Qed.
Definition Black (i : Z) (st : pana * Z * list Z * list Z * list Z) : Prop :=
  exists p sh out, st = (p, sh, [0; 0], [0; 0], out) /\ 0 <= sh <= 4 /\ zlen out = 14 /\ Pa buf true (65536 + (8 * i + 2 * (i / 3))) p.
Lemma black_shift : forall i p sh, 0 <= i < 8 -> 0 <= sh <= 4 -> Pa buf true (65536 + (8 * i + 2 * (i / 3))) p ->
  exists p1 sh1, (if i mod 3 =? 2 then '(b0, p0) <- pana_bits p 2 ;; s0 <- u32sub 3 b0 ;; Ok (4 >>> s0, p0) else Ok (sh, p)) = Ok (sh1, p1) /\ 0 <= sh1 <= 4 /\ Pa buf true (65536 + (8 * i + 2 * ((i + 1) / 3))) p1.
Proof.
  intros i p sh Hi Hs P. destruct (i mod 3 =? 2) eqn:E.
  - destruct (middle_read (8 * i + 2 * (i / 3)) 2 p P ltac:(lia) ltac:(lia) ltac:(lia)) as [p1 [E1 P1]]. rewrite E1. cbn [bind].
    replace ((128 - (8 * i + 2 * (i / 3)) - 2) / 8 =? 7) with false by lia. rewrite Z.div_0_l, Z.mod_0_l by (apply Z.pow_nonzero || discriminate; lia).
    unfold u32sub. rewrite arith_u_ok by (change (2 ^ 32) with 4294967296; lia). cbn [bind]. exists p1, (4 >>> (3 - 0)). split; [reflexivity|split; [cbn; lia|]].
    replace (8 * i + 2 * ((i + 1) / 3)) with (8 * i + 2 * (i / 3) + 2) by lia. exact P1.
  - exists p, sh. split; [reflexivity|split; [exact Hs|]]. replace ((i + 1) / 3) with (i / 3) by lia. exact P.
Qed.
Lemma pixel_black : forall i st, 0 <= i < 7 -> Black i st -> exists st', pana_pixel i st = Ok st' /\ Black (i + 1) st'.
Proof.
  intros i st Hi [p [sh [out [-> [Hs [Lo P]]]]]]. unfold pana_pixel.
  destruct (black_shift i p sh ltac:(lia) Hs P) as [p1 [sh1 [E1 [Hs1 P1]]]]. rewrite E1. cbn [bind]. rewrite land1.
  rewrite (get2_ok [0; 0] 0 0 (i mod 2) eq_refl) by lia. cbn [bind]. replace (if i mod 2 =? 0 then 0 else 0) with 0 by (destruct (i mod 2 =? 0); reflexivity). cbn [Z.eqb negb].
  destruct (middle_read (8 * i + 2 * ((i + 1) / 3)) 8 p1 P1 ltac:(lia) ltac:(lia) ltac:(lia)) as [p2 [E2 P2]]. rewrite E2. cbn [bind].
  replace ((128 - (8 * i + 2 * ((i + 1) / 3)) - 8) / 8 =? 7) with false by lia. rewrite Z.div_0_l, Z.mod_0_l by (apply Z.pow_nonzero || discriminate; lia).
  replace (negb (0 =? 0) || (11 <? i)) with false by lia. cbn [bind]. rewrite (upd2_ok [0; 0] 0 0 (i mod 2) 0 eq_refl) by lia. cbn [bind].
  replace (if i mod 2 =? 0 then [0; 0] else [0; 0]) with [0; 0] by (destruct (i mod 2 =? 0); reflexivity).
  rewrite upd_ok by lia. cbn [bind]. eexists. split; [reflexivity|]. do 3 eexists. split; [reflexivity|split; [exact Hs1|split; [rewrite zlen_upd_nat; exact Lo|]]].
  replace (8 * (i + 1) + 2 * ((i + 1) / 3)) with (8 * i + 2 * ((i + 1) / 3) + 8) by lia. exact P2.
Qed.
Lemma pixel_keeps : forall i p sh preds nonzs out p' sh' preds' nonzs' out', pana_pixel i (p, sh, preds, nonzs, out) = Ok (p', sh', preds', nonzs', out') ->
  exists x, upd out i x = Ok out'.
Proof.
  intros i p sh preds nonzs out p' sh' preds' nonzs' out' E. unfold pana_pixel in E.
  match type of E with bind ?x _ = _ => destruct x as [[? ?]| | |]; cbn [bind] in E; try discriminate E end.
  match type of E with bind ?x _ = _ => destruct x as [?| | |]; cbn [bind] in E; try discriminate E end.
  match type of E with bind ?x _ = _ => destruct x as [?| | |]; cbn [bind] in E; try discriminate E end.
  match type of E with bind ?x _ = _ => destruct x as [[[? pr] ?]| | |]; cbn [bind] in E; try discriminate E end.
  match type of E with bind ?x _ = _ => destruct x as [?| | |]; cbn [bind] in E; try discriminate E end.
  match type of E with bind ?x _ = _ => destruct x as [?| | |]; cbn [bind] in E; try discriminate E end.
  match type of E with bind ?x _ = _ => destruct x as [?| | |] eqn:Eu; cbn [bind] in E; try discriminate E end.
  injection E as _ _ _ _ ->. exists (as_u16 pr). exact Eu.
Qed.
Lemma middle_wrong : forall p sh done, Pa buf true (128 * 512) p -> 0 <= sh <= 4 ->
  exists p' sh' line, pana_group (zeros 14) (p, sh, done) = Ok (p', sh', done ++ line) /\ znth line 7 = 3840.
Proof.
  intros p sh done P Hs. unfold pana_group. rewrite (zrange_split 0 7 14), rfold_app by lia.
  match goal with |- context [rfold ?f (zrange 0 7) ?s] => destruct (rfold_zrange f Black 0 7 s) as [st1 [E1 [p1 [sh1 [out1 [-> [Hs1 [Lo1 P1]]]]]]]] end.
  - lia.
  - exists p, sh, (zeros 14). split; [reflexivity|split; [exact Hs|split; [reflexivity|exact P]]].
  - exact pixel_black.
  - rewrite E1. cbn [bind]. rewrite (zrange_cons 7 14) by lia. cbn [rfold].
    assert (E2 : exists p2 sh2 out2, pana_pixel 7 (p1, sh1, [0; 0], [0; 0], out1) = Ok (p2, sh2, [0; 3840], [0; 240], out2) /\ 0 <= sh2 <= 4 /\ zlen out2 = 14 /\ znth out2 7 = 3840 /\ Pa buf true (65536 + 72) p2).
    { unfold pana_pixel. change (7 mod 3 =? 2) with false. cbn [bind]. change (7 &&& 1) with 1. change (get [0; 0] 1) with (Ok 0 : res Z). cbn [bind Z.eqb negb].
      destruct (middle_read 60 8 p1 P1 ltac:(lia) ltac:(lia) ltac:(lia)) as [p2 [E2 P2]]. rewrite E2. cbn [bind].
      match goal with |- context [negb (?x =? 0)] => change x with 240 end. cbn [Z.eqb negb orb].
      destruct (middle_read 68 4 p2 P2 ltac:(lia) ltac:(lia) ltac:(lia)) as [p3 [E3 P3]]. rewrite E3. cbn [bind].
      match goal with |- context [Z.lor ?x ?y] => change (Z.lor x y) with 3840 end. change (upd [0; 0] 1 240) with (Ok [0; 240]). change (upd [0; 0] 1 3840) with (Ok [0; 3840]). cbn [bind].
      rewrite upd_ok by lia. cbn [bind]. do 3 eexists. split; [reflexivity|split; [exact Hs1|split; [rewrite zlen_upd_nat; exact Lo1|split; [|exact P3]]]].
      rewrite znth_upd_nat by lia. reflexivity. }
    destruct E2 as [p2 [sh2 [out2 [E2 [Hs2 [Lo2 [V2 P2]]]]]]]. rewrite E2. cbn [bind]. change (7 + 1) with 8.
    match goal with |- context [rfold ?f (zrange 8 14) ?s] => destruct (rfold_zrange f (fun i st => Any buf true 512 i st /\ 8 <= i /\ znth (snd st) 7 = 3840) 8 14 s) as [[[[[p3 sh3] pr3] nz3] out3] [E3 [_ [_ V3]]]] end.
    + lia.
    + split; [|split; [lia|exact V2]]. split; [exact Hs2|split; [exact Lo2|]]. exists 0, 3840, 0, 240. repeat (split; [reflexivity || lia|]). exact P2.
    + intros i [[[[pi si] pri] nzi] outi] Hi [A [_ Vi]]. destruct (pixel_any buf true Hb Hlen 512 (fun b H => Hroom 512 b ltac:(lia) H) i _ ltac:(lia) A) as [[[[[pj sj] prj] nzj] outj] [Ej Aj]].
      eexists. split; [exact Ej|]. split; [exact Aj|split; [lia|]]. cbn [snd] in *. destruct (pixel_keeps _ _ _ _ _ _ _ _ _ _ _ Ej) as [x Ex]. destruct A as [_ [La _]].
      rewrite upd_ok in Ex by lia. injection Ex as <-. rewrite znth_upd_nat by lia. destruct (7 =? i) eqn:E7; [lia|]. exact Vi.
    + rewrite E3. cbn [bind]. exists p3, sh3, out3. split; [reflexivity|exact V3].
Qed.
Lemma middle_picture : exists img, pana_decompress buf 14 513 true = Ok img /\ znth img (512 * 14 + 7) = 3840.
Proof.
  destruct (pictures_run buf true 513 (fun g i x => g = 512 -> i = 7 -> x = 3840) Hb Hlen Hroom) with (w := 14) (h := 513) as [img [E [L Vl]]]; [|lia|lia|reflexivity|lia|].
  - intros g p sh done Hg P Hs. destruct (group_any buf true Hb Hlen g (fun b H => Hroom g b Hg H) p sh done P Hs) as [p1 [s1 [l1 [E1 [P1 [S1 L1]]]]]].
    exists p1, s1, l1. repeat (split; [assumption|]). intros i Hi -> ->. destruct (middle_wrong p sh done P Hs) as [p2 [s2 [l2 [E2 V2]]]].
    rewrite E1 in E2. injection E2 as _ _ E2. apply app_inv_head in E2. subst l2. exact V2.
  - exists img. split; [exact E|]. apply Vl; reflexivity || lia.
Qed.
End Middle.
Definition middle_file : list Z := repeat 0 (Z.to_nat 16384) ++ [255].
Lemma middle_file_ok : bytes middle_file /\ zlen middle_file = 16385 /\ (forall j, 0 <= j < 16384 -> znth middle_file j = 0) /\ znth middle_file 16384 = 255.
Proof.
  unfold middle_file. assert (L : length (repeat 0 (Z.to_nat 16384)) = Z.to_nat 16384) by apply repeat_length. revert L. generalize (Z.to_nat 16384) (Z2Nat.id 16384 ltac:(lia)). intros n Hn L. split; [|split; [|split]].
  - apply Forall_app. split; [|repeat constructor; unfold byte; lia]. apply Forall_forall. intros x Hx. apply repeat_spec in Hx. subst x. unfold byte. lia.
  - rewrite zlen_app. unfold zlen. rewrite L. cbn [length]. lia.
  - intros j Hj. unfold znth. rewrite app_nth1 by lia. rewrite nth_repeat. reflexivity.
  - unfold znth. assert (Z.to_nat 16384 = n) as -> by lia. rewrite app_nth2 by lia. rewrite L, Nat.sub_diag. reflexivity.
Qed.
Lemma pana_split_wrong : exists buf pic choice byte, bytes buf /\ zlen buf = 16385 /\
  (forall g, 0 <= g < 513 -> pana_group_fits (choice g) (byte g) (pana_values pic 14 g) /\ bits_of (pana_group_bytes true buf g) = pana_group_coded (choice g) (byte g) (pana_values pic 14 g)) /\
  pic 512 7 = 0 /\ forall M : Mode, exists out, pana_decompress buf 14 513 true = Ok out /\ nth (Z.to_nat (512 * 14 + 7)) out 0 = 3840.
Proof.
  destruct middle_file_ok as [Hb [Hz [H0 H1]]]. exists middle_file, (fun _ _ => 0), (fun _ _ => 0), (fun _ _ => 0).
  split; [exact Hb|split; [exact Hz|split; [|split; [reflexivity|]]]].
  - intros g Hg. split; [exact (black_fits middle_file Hz H0)|]. apply black_coded; assumption.
  - intros M. destruct (middle_picture middle_file Hb Hz H0 H1) as [img [E V]]. exists img. split; [exact E|exact V].
Qed.
Lemma pana_end : forall M : Mode, exists buf pic choice byte, bytes buf /\ zlen buf = 16 /\
  pana_group_fits (choice 0) (byte 0) (pana_values pic 14 0) /\ bits_of (pana_group_bytes false buf 0) = pana_group_coded (choice 0) (byte 0) (pana_values pic 14 0) /\
  pana_decompress buf 14 1 false = Panic.
Proof.
  intros M. exists (zeros 16), (fun _ _ => 0), (fun _ _ => 0), (fun _ _ => 0). destruct middle_file_ok as [_ [Hz [H0 _]]].
  split; [repeat constructor; unfold byte; lia|split; [reflexivity|split; [exact (black_fits middle_file Hz H0)|split; [vm_compute; reflexivity|]]]].
  destruct M; vm_compute; reflexivity.
Qed.
Lemma split_example : forall M : Mode, exists buf out, pana_decompress buf 14 513 true = Ok out /\ zlen out = 7182 /\
  forall c, 0 <= c < 14 -> nth (Z.to_nat (511 * 14 + c)) out 0 = 0.
Proof.
  intros M. destruct middle_file_ok as [Hb [Hz [H0 H1]]]. exists middle_file.
  destruct (pana_split_ok (fun _ _ => 0) 14 513 (fun _ _ => 0) (fun _ _ => 0) ltac:(lia) ltac:(lia) eq_refl) with (buf := middle_file) as [out [E [L V]]].
  - intros g Hg. exact (black_fits middle_file Hz H0).
  - exact Hb.
  - rewrite Hz. reflexivity.
  - rewrite Hz. reflexivity.
  - intros g Hg. apply black_coded; assumption.
  - exists out. split; [exact E|split; [exact L|]]. intros c Hc. apply (V 511 c).
    + clear. lia.
    + exact Hc.
    + clear - Hc. replace ((511 * 14 + c) / 14) with 511.
      * discriminate.
      * apply Z.div_unique with c; lia.
Qed.
