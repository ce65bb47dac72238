(** Proofs about lossless JPEG: pictures with subsampled colour. *)
From Coq Require Import String ZArith List Bool Lia ZifyBool ZifyNat.
From Verif Require Import Base Bytes Pumps ByteStream Threads Packed Huffman Ljpeg Spec_Bits Spec_Pump Spec_Stream Spec_Huffman Spec_Ljpeg
  P_Base P_Bits P_Pumps P_Huff4 P_Huff5 P_Huff6 P_Ljpeg1 P_Ljpeg2 P_Ljpeg3 P_Ljpeg6 P_Ljpeg8.
Import ListNotations.
Local Open Scope Z_scope.
Ltac Zify.zify_post_hook ::= Z.div_mod_to_equations.

Section Rows.
Context {M : Mode}.
Variables (t1 t2 t3 : hufftable) (enc : Z -> Z -> list bool) (fits : Z -> Z -> Prop).
Hypothesis Hc1 : codes JPEG t1 (enc 0) (fits 0).
Hypothesis Hc2 : codes JPEG t2 (enc 1) (fits 1).
Hypothesis Hc3 : codes JPEG t3 (enc 2) (fits 2).
Hypothesis Hfits : forall i d, fits i d -> -32768 <= d <= 32767.
Variables (v base : Z) (pic : picture) (w h : Z) (out0 : list Z).
Hypothesis Hv : v = 1 \/ v = 2.
Hypothesis Hbase : 0 <= base < 65536.
Hypothesis Hpic : forall r j i, 0 <= r < h -> 0 <= j < w -> 0 <= i < 2 * v + 2 -> 0 <= pic r j i < 65536.
Hypothesis Hcodable : forall r j i, 0 <= r < h -> 0 <= j < w -> 0 <= i < 2 * v + 2 -> fits (sub_component v i) (sub_residual v base pic r j i).
Hypothesis Hw : 0 < w.
Hypothesis Hh : 0 < h.
Hypothesis Hout : v * h * (6 * w) <= zlen out0.

Notation blk := (block t1 t2 t3 v).
Notation cell := (cell v).
Definition sbits (r j : Z) : list bool := flat_map (fun i => enc (sub_component v i) (sub_residual v base pic r j i)) (zrange 0 (2 * v + 2)).

Record SInv (r j : Z) (out : list Z) : Prop := {
  S_len : zlen out = zlen out0;
  S_done : forall r' j' k o, 0 <= r' < h -> 0 <= j' < w -> 0 <= k < v -> 0 <= o < 6 -> (r' < r \/ r' = r /\ j' < j) ->
    znth out ((v * r' + k) * (6 * w) + 6 * j' + o) = cell (pic r' j') k o;
  S_keep : forall q, v * h * (6 * w) <= q -> znth out q = znth out0 q
}.

Lemma sub_bound : forall r j k o, 0 <= r < h -> 0 <= j < w -> 0 <= k < v -> 0 <= o < 6 ->
  0 <= (v * r + k) * (6 * w) + 6 * j + o < v * h * (6 * w).
Proof.
  intros r j k o Hr Hj Hk Ho. assert (0 <= v * r + k <= v * h - 1) by nia. assert (0 <= 6 * j + o < 6 * w) by lia.
  set (a := v * r + k) in *. set (b := v * h) in *. nia.
Qed.

Lemma step_ok : forall r j py pcb pcr out p rest, 0 <= r < h -> 0 <= j < w -> SInv r j out ->
  py = sub_prediction v base pic r j 0 -> pcb = sub_prediction v base pic r j (2 * v) -> pcr = sub_prediction v base pic r j (2 * v + 1) ->
  (32 <= length rest)%nat -> Repr JPEG p (sbits r j ++ rest) ->
  exists out' p', blk out r (6 * j) (6 * w) py pcb pcr p = Ok (out', p') /\ Repr JPEG p' rest /\ SInv r (j + 1) out'.
Proof.
  intros r j py pcb pcr out p rest Hr Hj [L D K] -> -> -> Hl R.
  assert (HP : forall i, 0 <= i < 2 * v + 2 -> 0 <= sub_prediction v base pic r j i < 65536).
  { intros i Hi. unfold sub_prediction, prediction. destruct (i =? 0) eqn:E0; [destruct (j =? 0) eqn:Ej; [destruct (r =? 0) eqn:Er|]|destruct (i <? 2 * v) eqn:E1; [|destruct (j =? 0) eqn:Ej; [destruct (r =? 0) eqn:Er|]]]; try exact Hbase; apply Hpic; lia. }
  destruct (block_ok t1 t2 t3 enc fits Hc1 Hc2 Hc3 Hfits v Hv out r (6 * j) (6 * w)
     (sub_prediction v base pic r j 0) (sub_prediction v base pic r j (2 * v)) (sub_prediction v base pic r j (2 * v + 1)) p
     (fun i => sub_residual v base pic r j i) (pic r j) rest) as [o' [p' [E [R' [L' [A B]]]]]].
  - lia.
  - lia.
  - lia.
  - pose proof (sub_bound r j (v - 1) 5 Hr Hj ltac:(lia) ltac:(lia)). rewrite L. replace (v * r + (v - 1)) with (v * r + v - 1) in * by lia. lia.
  - apply HP; lia.
  - apply HP; lia.
  - apply HP; lia.
  - intros i Hi. apply Hcodable; assumption.
  - intros i Hi. unfold sub_residual. destruct (i =? 0) eqn:E0.
    + assert (i = 0) by lia. subst i. rewrite wrap16_undo; [reflexivity|]. apply Hpic; lia.
    + unfold sub_prediction. rewrite E0. replace (i <? 2 * v) with true by lia. rewrite wrap16_undo; [reflexivity|]. apply Hpic; lia.
  - unfold sub_residual. rewrite wrap16_undo; [reflexivity|]. apply Hpic; lia.
  - unfold sub_residual. rewrite wrap16_undo; [reflexivity|]. apply Hpic; lia.
  - exact Hl.
  - exact R.
  - exists o', p'. split; [exact E|]. split; [exact R'|]. split; [lia| |].
    + intros r' j' k o Hr' Hj' Hk Ho Hd. destruct (Z.eq_dec r r') as [Er|Er]; [destruct (Z.eq_dec j j') as [Ej|Ej]|].
      * subst r' j'. apply A; assumption.
      * subst r'. rewrite B; [apply D; lia|apply sub_bound; assumption|].
        intros k2 o2 Hk2 Ho2 C. rewrite <- !Z.add_assoc in C. apply (cell_inj (6 * w) (6 * j' + o) (6 * j + o2) (v * r + k) (v * r + k2)) in C; lia.
      * rewrite B; [apply D; lia|apply sub_bound; assumption|].
        intros k2 o2 Hk2 Ho2 C. rewrite <- !Z.add_assoc in C. apply (cell_inj (6 * w) (6 * j' + o) (6 * j + o2) (v * r' + k) (v * r + k2)) in C; [|lia|lia].
        destruct Hv as [Ev|Ev]; rewrite Ev in *; lia.
    + intros q Hq. rewrite B; [apply K; assumption|nia|]. intros k2 o2 Hk2 Ho2 C. pose proof (sub_bound r j k2 o2 Hr Hj Hk2 Ho2). lia.
Qed.

Definition srow (r j : Z) : list bool := flat_map (sbits r) (zrange j w).
Definition srows (r : Z) : list bool := flat_map (fun r => srow r 0) (zrange r h).

Lemma get_done : forall r j out r' j' k o, SInv r j out -> 0 <= r' < h -> 0 <= j' < w -> 0 <= k < v -> 0 <= o < 6 -> (r' < r \/ r' = r /\ j' < j) ->
  get out ((v * r' + k) * (6 * w) + 6 * j' + o) = Ok (cell (pic r' j') k o).
Proof.
  intros r j out r' j' k o I Hr Hj Hk Ho Hd. pose proof (sub_bound r' j' k o Hr Hj Hk Ho).
  rewrite get_ok by (rewrite (S_len _ _ _ I); lia). f_equal. apply (S_done _ _ _ I); assumption.
Qed.

Definition body (r col : Z) (st : list Z * pump) : res (list Z * pump) :=
  let '(out, p) := st in
  let pos := if col =? 0 then v * (r - 1) * (6 * w) else (v * r + v - 1) * (6 * w) + col - 3 in
  py <- get out pos ;; pcb <- get out (pos + 1) ;; pcr <- get out (pos + 2) ;;
  blk out r col (6 * w) py pcb pcr p.

Lemma cell_y : forall b k, cell b k 0 = b (2 * k).
Proof. intros. unfold P_Ljpeg8.cell. change (0 mod 3 =? 0) with true. cbn iota. change (0 / 3) with 0. f_equal. lia. Qed.
Lemma cell_y1 : forall b k, cell b k 3 = b (2 * k + 1).
Proof. reflexivity. Qed.

Lemma srow_ok : forall r j0 out p rest, 0 <= r < h -> 0 <= j0 <= w -> (r = 0 -> 0 < j0) -> SInv r j0 out -> (32 <= length rest)%nat ->
  Repr JPEG p (srow r j0 ++ rest) ->
  exists out' p', rfold (body r) (zrange_step (6 * j0) (6 * w) 6) (out, p) = Ok (out', p') /\ SInv r w out' /\ Repr JPEG p' rest.
Proof.
  intros r j0 out p rest Hr Hj0 H0 HI Hl R.
  pose proof (zrange_step_map 0 6 j0 w ltac:(lia)) as EZ. rewrite Z.add_0_l, Z.add_0_r in EZ. rewrite EZ, rfold_map.
  destruct (rfold_zrange (fun j => body r (0 + 6 * j)) (fun j '(out, p) => SInv r j out /\ Repr JPEG p (srow r j ++ rest)) j0 w (out, p))
    as [[out' p'] [E [I' R']]].
  - lia.
  - split; assumption.
  - intros j [o1 p1] Hj [I1 R1]. unfold srow in R1. rewrite zrange_cons in R1 by lia. cbn [flat_map] in R1. rewrite <- app_assoc in R1.
    rewrite Z.add_0_l. unfold body. cbv zeta.
    assert (G : exists k, let pos := if 6 * j =? 0 then v * (r - 1) * (6 * w) else (v * r + v - 1) * (6 * w) + 6 * j - 3 in
       get o1 pos = Ok (sub_prediction v base pic r j 0) /\ get o1 (pos + 1) = Ok (sub_prediction v base pic r j (2 * v)) /\
       get o1 (pos + 2) = Ok (sub_prediction v base pic r j (2 * v + 1)) /\ k = 0).
    { exists 0. cbv zeta. unfold sub_prediction, prediction. change (0 =? 0) with true. cbn iota.
      replace (2 * v =? 0) with false by lia. replace (2 * v + 1 =? 0) with false by lia. replace (2 * v <? 2 * v) with false by lia. replace (2 * v + 1 <? 2 * v) with false by lia.
      destruct (j =? 0) eqn:Ej.
      - replace (6 * j =? 0) with true by lia. replace (r =? 0) with false by lia.
        split; [|split; [|split; [|reflexivity]]].
        + change (pic (r - 1) 0 0) with (pic (r - 1) 0 (2 * 0)). rewrite <- (cell_y (pic (r - 1) 0) 0). rewrite <- (get_done r j o1 (r - 1) 0 0 0 I1) by lia. f_equal. lia.
        + change (pic (r - 1) 0 (2 * v)) with (cell (pic (r - 1) 0) 0 1). rewrite <- (get_done r j o1 (r - 1) 0 0 1 I1) by lia. f_equal. lia.
        + change (pic (r - 1) 0 (2 * v + 1)) with (cell (pic (r - 1) 0) 0 2). rewrite <- (get_done r j o1 (r - 1) 0 0 2 I1) by lia. f_equal. lia.
      - replace (6 * j =? 0) with false by lia.
        split; [|split; [|split; [|reflexivity]]].
        + replace (2 * v - 1) with (2 * (v - 1) + 1) by lia. rewrite <- (cell_y1 (pic r (j - 1)) (v - 1)). rewrite <- (get_done r j o1 r (j - 1) (v - 1) 3 I1) by lia. f_equal. lia.
        + change (pic r (j - 1) (2 * v)) with (cell (pic r (j - 1)) (v - 1) 4). rewrite <- (get_done r j o1 r (j - 1) (v - 1) 4 I1) by lia. f_equal. lia.
        + change (pic r (j - 1) (2 * v + 1)) with (cell (pic r (j - 1)) (v - 1) 5). rewrite <- (get_done r j o1 r (j - 1) (v - 1) 5 I1) by lia. f_equal. lia. }
    destruct G as [k [G1 [G2 [G3 _]]]]. cbv zeta in G1, G2, G3. rewrite G1, G2, G3. cbn [bind].
    destruct (step_ok r j _ _ _ o1 p1 (flat_map (sbits r) (zrange (j + 1) w) ++ rest) Hr ltac:(lia) I1 eq_refl eq_refl eq_refl ltac:(rewrite app_length; lia) R1)
      as [o2 [p2 [E2 [R2 I2]]]].
    exists (o2, p2). split; [exact E2|]. split; assumption.
  - exists out', p'. split; [exact E|]. split; [exact I'|]. unfold srow in R'. rewrite zrange_empty in R' by lia. exact R'.
Qed.

Lemma snext_row : forall r out, SInv r w out -> SInv (r + 1) 0 out.
Proof. intros r out [L D K]. split; [assumption| |assumption]. intros. apply D; lia. Qed.

Lemma sub_all : forall p rest, (32 <= length rest)%nat -> Repr JPEG p (srows 0 ++ rest) ->
  exists out' p', ('(out, p) <- blk out0 0 0 (6 * w) base base base p ;;
    rfold (fun r st => rfold (body r) (zrange_step (if r =? 0 then 6 else 0) (6 * w) 6) st) (zrange 0 h) (out, p)) = Ok (out', p') /\ SInv h 0 out'.
Proof.
  intros p rest Hl R. unfold srows in R. rewrite zrange_cons in R by lia. cbn [flat_map] in R. rewrite <- app_assoc in R.
  unfold srow at 1 in R. rewrite zrange_cons in R by lia. cbn [flat_map] in R. rewrite <- app_assoc in R.
  destruct (step_ok 0 0 base base base out0 p
     (flat_map (sbits 0) (zrange (0 + 1) w) ++ flat_map (fun r => srow r 0) (zrange (0 + 1) h) ++ rest) ltac:(lia) ltac:(lia)) as [o1 [p1 [E1 [R1 I1]]]].
  - split; [reflexivity| |reflexivity]. intros; lia.
  - reflexivity.
  - unfold sub_prediction. replace (2 * v =? 0) with false by lia. replace (2 * v <? 2 * v) with false by lia. reflexivity.
  - unfold sub_prediction. replace (2 * v + 1 =? 0) with false by lia. replace (2 * v + 1 <? 2 * v) with false by lia. reflexivity.
  - rewrite !app_length. lia.
  - exact R.
  - change (6 * 0) with 0 in E1. rewrite E1. cbn [bind]. change (0 + 1) with 1 in *.
    match goal with |- context [rfold ?f (zrange 0 h) _] =>
    destruct (rfold_zrange f (fun r '(out, p) => if r =? 0 then SInv 0 1 out /\ Repr JPEG p (srow 0 1 ++ srows 1 ++ rest)
      else SInv r 0 out /\ Repr JPEG p (srows r ++ rest)) 0 h (o1, p1)) as [[out' p'] [E I']] end.
    + lia.
    + split; assumption.
    + intros r [o2 p2] Hr HI1.
      assert (HS : exists j0, (if r =? 0 then 6 else 0) = 6 * j0 /\ 0 <= j0 <= w /\ (r = 0 -> 0 < j0) /\ SInv r j0 o2 /\
         Repr JPEG p2 (srow r j0 ++ srows (r + 1) ++ rest)).
      { destruct (r =? 0) eqn:Er.
        - assert (r = 0) by lia. subst r. exists 1. destruct HI1. split; [lia|]. split; [lia|]. split; [lia|]. split; assumption.
        - exists 0. destruct HI1 as [I2 R2]. split; [lia|]. split; [lia|]. split; [lia|]. split; [assumption|].
          unfold srows in R2. rewrite zrange_cons in R2 by lia. cbn [flat_map] in R2. rewrite <- app_assoc in R2. exact R2. }
      destruct HS as [j0 [E0 [Hj0 [Hj1 [I2 R2]]]]]. rewrite E0.
      destruct (srow_ok r j0 o2 p2 (srows (r + 1) ++ rest) Hr Hj0 Hj1 I2 ltac:(rewrite app_length; lia) R2) as [o3 [p3 [E3 [I3 R3]]]].
      exists (o3, p3). split; [exact E3|]. replace (r + 1 =? 0) with false by lia. split; [|exact R3]. apply snext_row. exact I3.
    + exists out', p'. split; [exact E|]. replace (h =? 0) with false in I' by lia. apply I'.
Qed.

Lemma SInv_final : forall out, SInv h 0 out -> length out = length out0 /\
  (forall R q, 0 <= R < v * h -> 0 <= q < 6 * w -> nth (Z.to_nat (R * (6 * w) + q)) out 0 = sub_sample v pic R q) /\
  (forall q, v * h * (6 * w) <= Z.of_nat q -> nth q out 0 = nth q out0 0).
Proof.
  intros out [L D K]. split; [unfold zlen in L; lia|]. split.
  - intros R q HR Hq.
    assert (HR2 : R / v < h) by (apply Z.div_lt_upper_bound; lia).
    assert (HR1 : 0 <= R / v) by (apply Z.div_pos; lia).
    assert (HR3 : 0 <= R mod v < v) by (apply Z.mod_pos_bound; lia).
    specialize (D (R / v) (q / 6) (R mod v) (q mod 6) ltac:(lia) ltac:(lia) HR3 ltac:(lia) ltac:(lia)).
    unfold znth in D. replace ((v * (R / v) + R mod v) * (6 * w) + 6 * (q / 6) + q mod 6) with (R * (6 * w) + q) in D.
    2:{ pose proof (Z.div_mod R v ltac:(lia)) as ED. rewrite <- ED. lia. }
    rewrite D. unfold P_Ljpeg8.cell, sub_sample. replace (q mod 6 mod 3) with (q mod 3) by lia.
    assert (q mod 3 = 0 \/ q mod 3 = 1 \/ q mod 3 = 2) as [E|[E|E]] by lia; rewrite E; reflexivity.
  - intros q Hq. specialize (K (Z.of_nat q) Hq). unfold znth in K. rewrite Nat2Z.id in K. exact K.
Qed.
Lemma srows_coded : forall codes, (forall i d, enc i d = code_of (codes i) d) -> srows 0 = sub_coded codes v base pic w h.
Proof.
  intros codes He. unfold srows, sub_coded. rewrite !upto_zrange. apply flat_map_ext. intros r.
  unfold srow. apply flat_map_ext. intros j.
  unfold sbits, sub_block. rewrite upto_zrange. apply flat_map_ext. intros i. apply He.
Qed.
End Rows.

Lemma sub_ok : forall {M : Mode} lj dng codes v pic w h out pad rest,
  let P := s_precision (lj_sof lj) in
  let base := 2 ^ (P - lj_pt lj - 1) in
  v = 1 \/ v = 2 -> 0 < w -> 0 < h -> s_width (lj_sof lj) = 2 * w -> s_height (lj_sof lj) = v * h ->
  0 <= lj_pt lj < P -> P <= 16 -> reads_with lj dng codes 3 ->
  readable JPEG (lj_buffer lj) ->
  stream JPEG (lj_buffer lj) pad = sub_coded codes v base pic w h ++ rest -> (32 <= length rest)%nat ->
  picture_of_samples pic (2 * v + 2) w h -> sub_codable P codes v base pic w h ->
  v * h * (6 * w) <= zlen out ->
  exists out', (if v =? 1 then decode_ljpeg_422 lj out (6 * w) (v * h) else decode_ljpeg_420 lj out (6 * w) (v * h)) = Ok out' /\
   length out' = length out /\
   (forall R q, 0 <= R < v * h -> 0 <= q < 6 * w -> nth (Z.to_nat (R * (6 * w) + q)) out' 0 = sub_sample v pic R q) /\
   (forall q, v * h * (6 * w) <= Z.of_nat q -> nth q out' 0 = nth q out 0).
Proof.
  intros M lj dng codes v pic w h out pad rest P base Hv Hw Hh EW EH Hpt HP HT Hr Es Hl Hpic Hcod Hout.
  destruct (base_ok lj ltac:(lia) ltac:(fold P; lia)) as [EB HB]. fold P base in EB, HB.
  set (enc := fun i d => code_of (codes i) d).
  set (fits := fun i d => -32768 <= d <= 32767 /\ has_word P (codes i) d).
  assert (Hf : forall i d, fits i d -> -32768 <= d <= 32767) by (intros i d [A _]; exact A).
  assert (HC : forall i, 0 <= i < 3 -> exists t, lj_table lj i = Ok t /\ P_Ljpeg1.codes JPEG t (enc i) (fits i)).
  { intros i Hi. destruct (HT i Hi) as [G [D [t [E1 E2]]]]. exists t. split; [exact E1|].
    apply (code_codes JPEG P dng (codes i) t); [discriminate|lia|assumption|assumption|assumption]. }
  destruct (HC 0 ltac:(lia)) as [t1 [T1 C1]]. destruct (HC 1 ltac:(lia)) as [t2 [T2 C2]]. destruct (HC 2 ltac:(lia)) as [t3 [T3 C3]].
  assert (Hcod' : forall r j i, 0 <= r < h -> 0 <= j < w -> 0 <= i < 2 * v + 2 -> fits (sub_component v i) (sub_residual v base pic r j i)).
  { intros r j i A B C. split; [apply wrap16_range|]. apply Hcod; assumption. }
  pose proof (Repr_new JPEG (lj_buffer lj) pad Hr) as R. rewrite Es in R.
  rewrite <- (srows_coded enc v base pic w h codes (fun i d => eq_refl)) in R.
  destruct (sub_all t1 t2 t3 enc fits C1 C2 C3 Hf v base pic w h out Hv HB Hpic Hcod' Hw Hh Hout _ rest Hl R) as [o' [p' [E I]]].
  exists o'. split.
  - destruct Hv as [Ev|Ev]; rewrite Ev in *; cbn [Z.eqb Pos.eqb].
    + change (1 * h) with (Z.mul 1 h). unfold decode_ljpeg_422. rewrite EW, EH. replace (2 * w * 3 =? 6 * w) with true by lia. replace (1 * h =? 1 * h) with true by lia. cbn [negb orb].
      rewrite T1, T2, T3. cbn [bind]. rewrite EB. cbn [bind].
      unfold block in E. change (1 =? 1) with true in E. cbn iota in E.
      destruct (block_422 t1 t2 t3 out 0 0 (6 * w) base base base (pump_new (lj_buffer lj))) as [[o1 p1]|s| |]; cbn [bind] in *; try discriminate.
      replace (1 * h) with h by lia.
      match goal with |- context [rfold ?f (zrange 0 h) (o1, p1)] => replace (rfold f (zrange 0 h) (o1, p1)) with (@Ok (list Z * pump) (o', p')) end; [reflexivity|].
      rewrite <- E. symmetry. apply P_Ljpeg6.rfold_ext. intros r [o2 p2] _. cbv zeta.
      apply P_Ljpeg6.rfold_ext. intros c [o3 p3] _. unfold body, block. cbv zeta. change (1 =? 1) with true. cbn iota.
      replace (1 * (r - 1)) with (r - 1) by lia. replace (1 * r + 1 - 1) with r by lia. reflexivity.
    + unfold decode_ljpeg_420. rewrite EW, EH. replace (2 * w * 3 =? 6 * w) with true by lia. replace (2 * h =? 2 * h) with true by lia. cbn [negb orb].
      rewrite T1, T2, T3. cbn [bind]. rewrite EB. cbn [bind].
      unfold block in E. change (2 =? 1) with false in E. cbn iota in E. change (2 * 0) with 0 in E.
      destruct (block_420 t1 t2 t3 out 0 0 (6 * w) base base base (pump_new (lj_buffer lj))) as [[o1 p1]|s| |]; cbn [bind] in *; try discriminate.
      pose proof (zrange_step_map 0 2 0 h ltac:(lia)) as EZ. rewrite Z.add_0_l, Z.add_0_r in EZ. change (2 * 0) with 0 in EZ. rewrite EZ, rfold_map.
      match goal with |- context [rfold ?f (zrange 0 h) (o1, p1)] => replace (rfold f (zrange 0 h) (o1, p1)) with (@Ok (list Z * pump) (o', p')) end; [reflexivity|].
      rewrite <- E. symmetry. apply P_Ljpeg6.rfold_ext. intros r [o2 p2] _. cbv zeta.
      replace (0 + 2 * r =? 0) with (r =? 0) by lia.
      apply P_Ljpeg6.rfold_ext. intros c [o3 p3] _. unfold body, block. cbv zeta. change (2 =? 1) with false. cbn iota.
      replace (2 * (r - 1)) with (0 + 2 * r - 2) by lia. replace (2 * r + 2 - 1) with (0 + 2 * r + 1) by lia. replace (2 * r) with (0 + 2 * r) at 3 by lia. reflexivity.
  - eapply SInv_final; eassumption.
Qed.
