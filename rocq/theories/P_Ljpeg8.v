(** Proofs about lossless JPEG: subsampled colour. *)
From Coq Require Import String ZArith List Bool Lia ZifyBool ZifyNat.
From Verif Require Import Base Bytes Pumps ByteStream Threads Packed Huffman Ljpeg Spec_Bits Spec_Pump Spec_Stream Spec_Huffman Spec_Ljpeg
  P_Base P_Bits P_Pumps P_Huff4 P_Huff5 P_Huff6 P_Ljpeg1 P_Ljpeg2 P_Ljpeg3.
Import ListNotations.
Local Open Scope Z_scope.
Ltac Zify.zify_post_hook ::= Z.div_mod_to_equations.

Section Sub.
Context {M : Mode}.
Variables (t1 t2 t3 : hufftable) (enc : Z -> Z -> list bool) (fits : Z -> Z -> Prop).
Hypothesis Hc1 : codes JPEG t1 (enc 0) (fits 0).
Hypothesis Hc2 : codes JPEG t2 (enc 1) (fits 1).
Hypothesis Hc3 : codes JPEG t3 (enc 2) (fits 2).
Hypothesis Hfits : forall i d, fits i d -> -32768 <= d <= 32767.

Fixpoint sums (y : Z) (ds : list Z) : list Z := match ds with [] => [] | d :: t => (y + d) :: sums (y + d) t end.
Lemma running_ok : forall ds y p rest, Forall (fits 0) ds -> -1000000 + 32768 * zlen ds <= y <= 1000000 - 32768 * zlen ds -> (32 <= length rest)%nat ->
  Repr JPEG p (flat_map (enc 0) ds ++ rest) ->
  exists p', running (length ds) t1 y p = Ok (sums y ds, p') /\ Repr JPEG p' rest.
Proof.
  induction ds as [|d ds IH]; intros y p rest HF Hy Hr R.
  - exists p. split; [reflexivity|exact R].
  - cbn [length running sums flat_map] in *. rewrite zlen_cons in Hy. rewrite <- app_assoc in R. pose proof (zlen_nonneg ds).
    pose proof (Hfits 0 d (Forall_inv HF)).
    destruct (Hc1 d p (flat_map (enc 0) ds ++ rest) (Forall_inv HF) ltac:(rewrite app_length; lia) R) as [p1 [E1 R1]].
    rewrite E1. cbn [bind]. rewrite i32add_ok by lia. cbn [bind].
    destruct (IH (y + d) p1 rest (Forall_inv_tail HF) ltac:(lia) Hr R1) as [p2 [E2 R2]]. rewrite E2. cbn [bind].
    exists p2. split; [reflexivity|exact R2].
Qed.

(** Where a block goes. *)
Variable v : Z.
Hypothesis Hv : v = 1 \/ v = 2.
Definition block (out : list Z) (r col width py pcb pcr : Z) (p : pump) : res (list Z * pump) :=
  if v =? 1 then block_422 t1 t2 t3 out r col width py pcb pcr p else block_420 t1 t2 t3 out (2 * r) col width py pcb pcr p.

(** The samples of a block: [o] in 0..5, row [k] of the block. *)
Definition cell (b : Z -> Z) (k o : Z) : Z :=
  if o mod 3 =? 0 then b (2 * k + o / 3) else if o mod 3 =? 1 then b (2 * v) else b (2 * v + 1).

Lemma six : forall (P : Z -> Prop), P 0 -> P 1 -> P 2 -> P 3 -> P 4 -> P 5 -> forall o, 0 <= o < 6 -> P o.
Proof.
  intros P H0 H1 H2 H3 H4 H5 o Ho. assert (o = 0 \/ o = 1 \/ o = 2 \/ o = 3 \/ o = 4 \/ o = 5) as [E|[E|[E|[E|[E|E]]]]] by lia; subst; assumption.
Qed.

Lemma block_ok : forall out r col width py pcb pcr p dd b rest,
  0 <= r -> 0 <= col -> col + 6 <= width -> (v * r + v - 1) * width + col + 6 <= zlen out ->
  0 <= py < 65536 -> 0 <= pcb < 65536 -> 0 <= pcr < 65536 ->
  (forall i, 0 <= i < 2 * v + 2 -> fits (sub_component v i) (dd i)) ->
  (forall i, 0 <= i < 2 * v -> b i = ((if i =? 0 then py else b (i - 1)) + dd i) mod 65536) ->
  b (2 * v) = (pcb + dd (2 * v)) mod 65536 -> b (2 * v + 1) = (pcr + dd (2 * v + 1)) mod 65536 ->
  (32 <= length rest)%nat ->
  Repr JPEG p (flat_map (fun i => enc (sub_component v i) (dd i)) (zrange 0 (2 * v + 2)) ++ rest) ->
  exists out' p', block out r col width py pcb pcr p = Ok (out', p') /\ Repr JPEG p' rest /\ zlen out' = zlen out /\
    (forall k o, 0 <= k < v -> 0 <= o < 6 -> znth out' ((v * r + k) * width + col + o) = cell b k o) /\
    (forall q, 0 <= q -> (forall k o, 0 <= k < v -> 0 <= o < 6 -> q <> (v * r + k) * width + col + o) -> znth out' q = znth out q).
Proof.
  intros out r col width py pcb pcr p dd b rest Hr Hcol Hw Hout Hpy Hpcb Hpcr HF HB Hcb Hcr Hl R.
  unfold block. destruct Hv as [Ev|Ev]; rewrite Ev in *.
  - change (1 =? 1) with true. cbn iota. unfold block_422.
    change (zrange 0 (2 * 1 + 2)) with [0; 1; 2; 3] in R. cbn [flat_map] in R. unfold sub_component in *. cbn [Z.ltb Z.compare Z.mul Pos.mul Z.sub Z.add Z.opp Pos.add Pos.compare Pos.compare_cont] in R.
    change (3 <? 2) with false in R. cbn iota in R. change (2 + -2 + 1) with 1 in R. change (3 + -2 + 1) with 2 in R. change (Z.pos_sub 2 2 + 1) with 1 in R. change (Z.pos_sub 3 2 + 1) with 2 in R.
    rewrite app_nil_r, <- !app_assoc in R.
    pose proof (HF 0 ltac:(lia)) as F0. pose proof (HF 1 ltac:(lia)) as F1. pose proof (HF 2 ltac:(lia)) as F2. pose proof (HF 3 ltac:(lia)) as F3.
    change (fits 0 (dd 0)) in F0. change (fits 0 (dd 1)) in F1. change (fits 1 (dd 2)) in F2. change (fits 2 (dd 3)) in F3.
    destruct (running_ok [dd 0; dd 1] py p (enc 1 (dd 2) ++ enc 2 (dd 3) ++ rest)) as [p1 [E1 R1]].
    { repeat constructor; assumption. } { change (zlen [dd 0; dd 1]) with 2. lia. } { rewrite !app_length. lia. } { cbn [flat_map]. rewrite app_nil_r, <- app_assoc. exact R. }
    cbn [length sums] in E1. rewrite E1. cbn [bind].
    destruct (Hc2 (dd 2) p1 (enc 2 (dd 3) ++ rest) F2 ltac:(rewrite app_length; lia) R1) as [p2 [E2 R2]]. rewrite E2. cbn [bind].
    pose proof (Hfits _ _ F2). rewrite i32add_ok by lia. cbn [bind].
    destruct (Hc3 (dd 3) p2 rest F3 Hl R2) as [p3 [E3 R3]]. rewrite E3. cbn [bind].
    pose proof (Hfits _ _ F3). rewrite i32add_ok by lia. cbn [bind].
    unfold set_yuv_422. set (vs := map as_u16 _).
    destruct (store_ok vs out (r * width + col)) as [o' [E4 [L4 [A4 B4]]]]; [nia|change (zlen vs) with 6; lia|].
    rewrite E4. cbn [bind]. exists o', p3. split; [reflexivity|]. split; [exact R3|]. split; [exact L4|].
    change (zlen vs) with 6 in A4, B4. split.
    + intros k o Hk Ho. assert (k = 0) by lia. subst k. replace ((1 * r + 0) * width + col + o) with (r * width + col + o) by lia. rewrite A4 by lia.
      pose proof (HB 0 ltac:(lia)) as B0. pose proof (HB 1 ltac:(lia)) as B1. change (0 =? 0) with true in B0. change (1 =? 0) with false in B1. cbn iota in B0, B1. change (1 - 1) with 0 in B1.
      change (2 * 1) with 2 in *. change (2 + 1) with 3 in *. clear A4 B4 E4.
      assert (V1 : as_u16 (py + dd 0 + dd 1) = b 1) by (unfold as_u16; change (2 ^ 16) with 65536; rewrite B1, B0, Z.add_mod_idemp_l by lia; reflexivity).
      revert o Ho. apply six; unfold cell, vs; rewrite ?Ev.
      * change (as_u16 (py + dd 0) = b 0). rewrite B0. reflexivity.
      * change (as_u16 (pcb + dd 2) = b 2). rewrite Hcb. reflexivity.
      * change (as_u16 (pcr + dd 3) = b 3). rewrite Hcr. reflexivity.
      * exact V1.
      * change (as_u16 (pcb + dd 2) = b 2). rewrite Hcb. reflexivity.
      * change (as_u16 (pcr + dd 3) = b 3). rewrite Hcr. reflexivity.
    + intros q Hq Hnot. apply B4; [assumption|]. intros C. apply (Hnot 0 (q - (r * width + col))); lia.
  - change (2 =? 1) with false. cbn iota. unfold block_420.
    change (zrange 0 (2 * 2 + 2)) with [0; 1; 2; 3; 4; 5] in R. cbn [flat_map] in R.
    change (sub_component 2 0) with 0 in R. change (sub_component 2 1) with 0 in R. change (sub_component 2 2) with 0 in R. change (sub_component 2 3) with 0 in R.
    change (sub_component 2 4) with 1 in R. change (sub_component 2 5) with 2 in R.
    rewrite app_nil_r, <- !app_assoc in R.
    pose proof (HF 0 ltac:(lia)) as F0. pose proof (HF 1 ltac:(lia)) as F1. pose proof (HF 2 ltac:(lia)) as F2. pose proof (HF 3 ltac:(lia)) as F3.
    pose proof (HF 4 ltac:(lia)) as F4. pose proof (HF 5 ltac:(lia)) as F5.
    change (fits 0 (dd 0)) in F0. change (fits 0 (dd 1)) in F1. change (fits 0 (dd 2)) in F2. change (fits 0 (dd 3)) in F3. change (fits 1 (dd 4)) in F4. change (fits 2 (dd 5)) in F5.
    destruct (running_ok [dd 0; dd 1; dd 2; dd 3] py p (enc 1 (dd 4) ++ enc 2 (dd 5) ++ rest)) as [p1 [E1 R1]].
    { repeat constructor; assumption. } { change (zlen [dd 0; dd 1; dd 2; dd 3]) with 4. lia. } { rewrite !app_length. lia. } { cbn [flat_map]. rewrite app_nil_r, <- !app_assoc. exact R. }
    cbn [length sums] in E1. rewrite E1. cbn [bind].
    destruct (Hc2 (dd 4) p1 (enc 2 (dd 5) ++ rest) F4 ltac:(rewrite app_length; lia) R1) as [p2 [E2 R2]]. rewrite E2. cbn [bind].
    pose proof (Hfits _ _ F4). rewrite i32add_ok by lia. cbn [bind].
    destruct (Hc3 (dd 5) p2 rest F5 Hl R2) as [p3 [E3 R3]]. rewrite E3. cbn [bind].
    pose proof (Hfits _ _ F5). rewrite i32add_ok by lia. cbn [bind].
    unfold set_yuv_420. set (vs := map as_u16 [py + dd 0; _; _; _; _; _]). set (vs' := map as_u16 _).
    destruct (store_ok vs out (2 * r * width + col)) as [o1 [E4 [L4 [A4 B4]]]]; [nia|change (zlen vs) with 6; nia|].
    rewrite E4. cbn [bind].
    destruct (store_ok vs' o1 ((2 * r + 1) * width + col)) as [o2 [E5 [L5 [A5 B5]]]]; [nia|change (zlen vs') with 6; lia|].
    rewrite E5. cbn [bind]. exists o2, p3. split; [reflexivity|]. split; [exact R3|]. split; [lia|].
    change (zlen vs) with 6 in A4, B4. change (zlen vs') with 6 in A5, B5. split.
    + pose proof (HB 0 ltac:(lia)) as B0'. pose proof (HB 1 ltac:(lia)) as B1'. pose proof (HB 2 ltac:(lia)) as B2'. pose proof (HB 3 ltac:(lia)) as B3'.
      change (b 0 = (py + dd 0) mod 65536) in B0'. change (b 1 = (b 0 + dd 1) mod 65536) in B1'. change (b 2 = (b 1 + dd 2) mod 65536) in B2'. change (b 3 = (b 2 + dd 3) mod 65536) in B3'.
      change (2 * 2) with 4 in *. change (4 + 1) with 5 in *.
      assert (V1 : as_u16 (py + dd 0 + dd 1) = b 1) by (unfold as_u16; change (2 ^ 16) with 65536; rewrite B1', B0', Z.add_mod_idemp_l by lia; reflexivity).
      assert (V2 : as_u16 (py + dd 0 + dd 1 + dd 2) = b 2) by (unfold as_u16 in *; change (2 ^ 16) with 65536 in *; rewrite B2', <- V1, Z.add_mod_idemp_l by lia; reflexivity).
      assert (V3 : as_u16 (py + dd 0 + dd 1 + dd 2 + dd 3) = b 3) by (unfold as_u16 in *; change (2 ^ 16) with 65536 in *; rewrite B3', <- V2, Z.add_mod_idemp_l by lia; reflexivity).
      intros k o Hk Ho. assert (k = 0 \/ k = 1) as [K|K] by lia; subst k.
      * rewrite B5 by nia. replace ((2 * r + 0) * width + col + o) with (2 * r * width + col + o) by lia. rewrite A4 by lia.
        clear A4 B4 E4 A5 B5 E5. revert o Ho. apply six; unfold cell, vs; rewrite ?Ev.
        -- change (as_u16 (py + dd 0) = b 0). rewrite B0'. reflexivity.
        -- change (as_u16 (pcb + dd 4) = b 4). rewrite Hcb. reflexivity.
        -- change (as_u16 (pcr + dd 5) = b 5). rewrite Hcr. reflexivity.
        -- exact V1.
        -- change (as_u16 (pcb + dd 4) = b 4). rewrite Hcb. reflexivity.
        -- change (as_u16 (pcr + dd 5) = b 5). rewrite Hcr. reflexivity.
      * rewrite A5 by lia.
        clear A4 B4 E4 A5 B5 E5. revert o Ho. apply six; unfold cell, vs'; rewrite ?Ev.
        -- exact V2.
        -- change (as_u16 (pcb + dd 4) = b 4). rewrite Hcb. reflexivity.
        -- change (as_u16 (pcr + dd 5) = b 5). rewrite Hcr. reflexivity.
        -- exact V3.
        -- change (as_u16 (pcb + dd 4) = b 4). rewrite Hcb. reflexivity.
        -- change (as_u16 (pcr + dd 5) = b 5). rewrite Hcr. reflexivity.
    + intros q Hq Hnot. rewrite B5, B4; try assumption; try reflexivity; intros C.
      * apply (Hnot 0 (q - (2 * r * width + col))); lia.
      * apply (Hnot 1 (q - ((2 * r + 1) * width + col))); lia.
Qed.
End Sub.
