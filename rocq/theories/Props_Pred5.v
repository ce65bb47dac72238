(** Theorems about the compressions of camera makers (C47): Nikon's change of code. *)
From Coq Require Import String ZArith List Bool Lia ZifyBool ZifyNat.
From Verif Require Import Base Bytes Pumps Packed Tiff Decoder Dec_Pred Dec_Nef Spec_Bits Spec_Pump Spec_Stream Spec_Image Spec_Huffman Spec_Ljpeg Spec_Curve Spec_Pred Spec_Nikon
  P_Pred9 P_Srw3b P_Nikon2.
Import ListNotations.
Local Open Scope Z_scope.

(** In one version of Nikon's compression the maker note names a row from which
    on another code is used.  Some leaves of that code are not lengths, but the
    program takes them for lengths: if the first word after the change has such a
    leaf (three bits 0 to 4 of the code for 12 bits, 2 to 5 of that for 14 bits), a
    debug build does not decode the picture. *)
Theorem C47_nikon_change_refuted : forall tiff d en e (bits14 : bool) skipped x1 x2 x3 x4 points more curve src w h pic b1 b2 b3 rest out,
  let note := nikon_note e 68 32 skipped x1 x2 x3 x4 points more in
  let start := nikon_start x1 x2 x3 x4 in
  let bps := if bits14 then 14 else 12 in
  let s := nikon_second e 68 32 note in
  fetch_ifd tiff T_NefMeta1 = Ok d -> i_endian d = e ->
  find_entry d T_NefMeta2 = Some en \/ find_entry d T_NefMeta2 = None /\ fetch_tag d T_NefMeta1 = Ok en -> e_data en = note -> bytes note ->
  Z.of_nat (length skipped) = nikon_skipped 68 32 -> sample x1 -> sample x2 -> sample x3 -> sample x4 -> samples points -> Z.of_nat (length points) < 65536 ->
  nikon_curve 68 32 bps points curve -> increasing curve -> not_too_steep curve -> 564 <= Z.of_nat (length note) ->
  0 < s < h -> 0 < w -> Z.even w = true ->
  (forall r c, 0 <= r < s -> 0 <= c < w -> 0 <= pic r c < Z.of_nat (length curve) /\ Z.abs (step_of start pic r c) < 2 ^ bps) ->
  readable MSB src -> stream MSB src 0 = steps_coded (fun _ => code_of (nikon_code bits14 false)) start pic w s ++ b1 :: b2 :: b3 :: rest -> (32 <= length rest)%nat ->
  (if bits14 then 2 <= number [b1; b2; b3] < 6 else number [b1; b2; b3] < 5) ->
  nef_decompress (M := true) tiff src w h bps <> Ok out.
Proof. exact nikon_change. Qed.
Print Assumptions C47_nikon_change_refuted.

Definition change_more : list Z := repeat 0 546 ++ [0; 1].
Definition change_note : entry := mkentry T_NefMeta1 7 564 0 0 (nikon_note true 68 32 [] 1000 1000 1000 1000 [0; 4096] change_more) true.
Example C47_nikon_change_example : forall out,
  nef_decompress (M := true) (mkifd [(T_NefMeta1, change_note)] [] 0 0 true) [247; 128; 0; 0; 0; 0; 0; 0] 2 2 12 <> Ok out.
Proof.
  intros out. apply (C47_nikon_change_refuted (mkifd [(T_NefMeta1, change_note)] [] 0 0 true) (mkifd [(T_NefMeta1, change_note)] [] 0 0 true) change_note true false
    [] 1000 1000 1000 1000 [0; 4096] change_more (upto 4096) [247; 128; 0; 0; 0; 0; 0; 0] 2 2 (fun _ _ => 1000) false false false (repeat false 51) out).
  - reflexivity.
  - reflexivity.
  - right. split; reflexivity.
  - reflexivity.
  - apply bytes_check. vm_compute. reflexivity.
  - reflexivity.
  - unfold sample. lia.
  - unfold sample. lia.
  - unfold sample. lia.
  - unfold sample. lia.
  - apply Forall_forall. intros x Hx. cbn in Hx. unfold sample. lia.
  - reflexivity.
  - right. right. split; [reflexivity|split; [reflexivity|]]. exists 4096. split; [lia|split; [reflexivity|]].
    change (2 ^ 12) with 4096. rewrite <- map_id at 1. apply map_ext_in. intros i Hi. apply in_map_iff in Hi. destruct Hi as [k [<- Hk]]. apply in_seq in Hk.
    rewrite (Z.div_small (Z.of_nat k)), (Z.mod_small (Z.of_nat k)) by lia. change (at_ [0; 4096] 0) with 0. change (at_ [0; 4096] (0 + 1)) with 4096. apply Z.div_unique_exact; lia.
  - apply upto_increasing. lia.
  - apply upto_not_steep. lia.
  - apply Z.leb_le. vm_compute. reflexivity.
  - replace (nikon_second _ _ _ _) with 1 by (vm_compute; reflexivity). lia.
  - lia.
  - reflexivity.
  - replace (nikon_second _ _ _ _) with 1 by (vm_compute; reflexivity). intros r c Hr Hc. change (Z.of_nat (length (upto 4096))) with (zlen (upto 4096)). rewrite zlen_upto by lia.
    split; [lia|]. assert (r = 0) as -> by lia. assert (c = 0 \/ c = 1) as [-> | ->] by lia; reflexivity.
  - split; [repeat constructor; unfold byte; lia|discriminate].
  - vm_compute. reflexivity.
  - apply Nat.leb_le. reflexivity.
  - vm_compute. reflexivity.
Qed.
