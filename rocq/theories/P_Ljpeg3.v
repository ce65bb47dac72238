(** Proofs about lossless JPEG: the decoders. *)
From Coq Require Import String ZArith List Bool Lia ZifyBool ZifyNat.
From Verif Require Import Base Pumps Threads Packed Huffman Ljpeg Spec_Bits Spec_Pump Spec_Stream Spec_Huffman Spec_Ljpeg
  P_Base P_Bits P_Pumps P_Huff4 P_Huff5 P_Huff6 P_Ljpeg1 P_Ljpeg2.
Import ListNotations.
Local Open Scope Z_scope.
Ltac Zify.zify_post_hook ::= Z.div_mod_to_equations.

Lemma shl_1 : forall {M : Mode} b, 0 <= b <= 30 -> shl_i32 1 b = Ok (2 ^ b).
Proof.
  intros M b Hb. unfold shl_i32. rewrite shamt_ok by lia. cbn [bind]. rewrite Z.shiftl_1_l. f_equal.
  unfold as_i32, swrap. change (2 ^ (32 - 1)) with 2147483648. change (2 ^ 32) with 4294967296.
  assert (0 < 2 ^ b <= 2 ^ 30) by (split; [apply Z.pow_pos_nonneg; lia|apply Z.pow_le_mono_r; lia]).
  change (2 ^ 30) with 1073741824 in *. rewrite Z.mod_small; lia.
Qed.
Lemma base_ok : forall {M : Mode} lj, 0 <= lj_pt lj -> lj_pt lj < s_precision (lj_sof lj) <= 16 ->
  base_prediction lj = Ok (2 ^ (s_precision (lj_sof lj) - lj_pt lj - 1)) /\
  0 <= 2 ^ (s_precision (lj_sof lj) - lj_pt lj - 1) < 65536.
Proof.
  intros M lj H0 H1. unfold base_prediction. rewrite usub_ok by lia. cbn [bind]. rewrite usub_ok by lia. cbn [bind].
  rewrite shl_1 by lia. split; [reflexivity|]. set (b := _ - _ - 1).
  assert (0 < 2 ^ b <= 2 ^ 15) by (split; [apply Z.pow_pos_nonneg; lia|apply Z.pow_le_mono_r; lia]).
  change (2 ^ 15) with 32768 in *. lia.
Qed.

(** The tables of the components. *)
Definition reads_with {M : Mode} (lj : ljpeg) (dng : bool) (codes : Z -> hcode) (n : Z) : Prop :=
  forall i, 0 <= i < n -> good_code debug (s_precision (lj_sof lj)) (codes i) /\ (dng = true -> ~ In 16 (hc_syms (codes i))) /\
    exists t, lj_table lj i = Ok t /\
      huff_new (0 :: hc_counts (codes i)) (padded (hc_syms (codes i))) (s_precision (lj_sof lj)) dng = Ok t.

Lemma components_ok : forall {M : Mode} lj dng codes n pic x sw w h out buf pad rest,
  let P := s_precision (lj_sof lj) in let W := s_width (lj_sof lj) in let H := s_height (lj_sof lj) in
  let base := 2 ^ (P - lj_pt lj - 1) in
  0 < n -> 0 <= lj_pt lj < P -> P <= 16 -> W < 2 ^ 64 -> reads_with lj dng codes n ->
  lj_buffer lj = buf -> readable JPEG buf ->
  stream JPEG buf pad = coded codes n base pic W H ++ rest -> (32 <= length rest)%nat ->
  picture_of_samples pic n W H -> codable P codes n base pic W H ->
  0 < w <= W -> 0 < h <= H -> 0 <= x -> x + n * w <= sw -> (h - 1) * sw + x + n * w <= zlen out ->
  exists out', decode_components n lj out x sw (n * w) h = Ok out' /\ pasted n x sw w h pic out out'.
Proof.
  intros M lj dng codes n pic x sw w h out buf pad rest P W H base Hn Hpt HP HW HT Hbuf Hr Es Hl Hpic Hcod Hw Hh Hx Hsw Hout.
  unfold decode_components. fold W H. replace (W * n <? n * w) with false by nia. replace (H <? h) with false by lia. cbn [orb].
  set (tab := fun i => match lj_table lj i with Ok t => t | _ => huff_empty 0 end).
  rewrite (mapM_map _ tab).
  2:{ intros i Hi. apply zrange_In in Hi. destruct (HT i Hi) as [_ [_ [t [E _]]]]. unfold tab. rewrite E. reflexivity. }
  cbn [bind]. destruct (base_ok lj ltac:(lia) ltac:(fold P; lia)) as [EB HB]. fold P base in EB, HB. rewrite EB. cbn [bind].
  set (enc := fun i d => code_of (codes i) d).
  set (fits := fun i d => -32768 <= d <= 32767 /\ has_word P (codes i) d).
  assert (Hc : forall i, 0 <= i < n -> P_Ljpeg1.codes JPEG (tab i) (enc i) (fits i)).
  { intros i Hi. destruct (HT i Hi) as [G [D [t [E1 E2]]]]. unfold tab. rewrite E1. fold P in G, E2.
    apply (code_codes JPEG P dng (codes i) t); [discriminate|lia|assumption|assumption|assumption]. }
  assert (Hf : forall i d, fits i d -> -32768 <= d <= 32767) by (intros i d [A _]; exact A).
  assert (Hcod' : forall r j i, 0 <= r < H -> 0 <= j < W -> 0 <= i < n -> fits i (residual base pic r j i)).
  { intros r j i A B C. split; [apply wrap16_range|]. apply Hcod; assumption. }
  pose proof (Repr_new JPEG buf pad Hr) as R. rewrite Es in R.
  rewrite <- (rows_coded n enc base pic W H codes (fun i d => eq_refl)) in R. rewrite Hbuf.
  destruct (first_ok n tab enc fits Hn Hc Hf base pic W H x sw w h out HB Hpic Hcod' Hw Hh Hx Hsw Hout _ rest Hl R) as [o1 [p1 [E1 [I1 R1]]]].
  rewrite E1. cbn [bind].
  replace (n * w / n) with w by (rewrite Z.mul_comm, Z.div_mul; lia). rewrite usub_ok by lia. cbn [bind].
  destruct (rows_ok n tab enc fits Hn Hc Hf base pic W H x sw w h out HB Hpic Hcod' Hw Hh Hx Hsw Hout p1 rest o1 Hl I1 R1) as [o2 [p2 [E2 [I2 R2]]]].
  cbv zeta in E2. rewrite E2. cbn [bind]. exists o2. split; [reflexivity|].
  eapply Inv_pasted; eassumption.
Qed.
