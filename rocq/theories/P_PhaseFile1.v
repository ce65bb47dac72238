(** Whole Phase One files (C65). *)
From Coq Require Import String Ascii ZArith List Bool Reals Lia ZifyBool ZifyNat.
From Flocq Require Import Core BinarySingleNaN.
From Verif Require Import Base Num F32 Bytes Pumps Packed Tiff Transform Image Camera Clients Decoder Dec_Pred Dispatch.
From Verif Require Import Spec_Bits Spec_Image Spec_Pump Spec_Stream Spec_Packed Spec_Tiff Spec_Camera Spec_Known Spec_Meta Spec_File Spec_Tree Spec_Header Spec_Phase Spec_PhaseFile.
From Verif Require Import P_Base P_Bits P_Pumps P_Packed2 P_Packed3 P_Tiff5 P_File1 P_Tree2 P_Tree3 P_Tree13 P_Header2 P_Pred10.
Import ListNotations.
Local Open Scope Z_scope.

Definition gather (vs : list (Z * Z)) (q : iiq_info) : iiq_info := fold_left (fun q x => iiq_entry (fst x) (snd x) q) vs q.
Lemma gather_keeps : forall (f : iiq_info -> Z) tag, (forall t v q, t <> tag -> f (iiq_entry t v q) = f q) -> forall vs q, (forall v, ~ In (tag, v) vs) -> f (gather vs q) = f q.
Proof.
  intros f tag Hk vs. induction vs as [|[t v] vs IH]; intros q Hn; [reflexivity|]. cbn [gather fold_left fst snd]. fold (gather vs (iiq_entry t v q)). rewrite IH by (intros v' H; apply (Hn v'); right; exact H).
  apply Hk. intros ->. apply (Hn v). left. reflexivity.
Qed.
Lemma gather_value : forall (f : iiq_info -> Z) (g : Z -> Z) tag, (forall t v q, t <> tag -> f (iiq_entry t v q) = f q) -> (forall v q, f (iiq_entry tag v q) = g v) ->
  forall vs v q, own_value vs tag v -> f (gather vs q) = g v.
Proof.
  intros f g tag Hk Hg vs v q (a & b & -> & Hn). unfold gather. rewrite fold_left_app. cbn [fold_left fst snd].
  fold (gather b (iiq_entry tag v (fold_left (fun q x => iiq_entry (fst x) (snd x) q) a q))). rewrite (gather_keeps f tag Hk b _ Hn). apply Hg.
Qed.
Ltac entry_field := intros; unfold iiq_entry, Own_Balance, Own_Width, Own_Height, Own_Data, Own_Rows, Own_Black in *; repeat match goal with |- context [if ?b then _ else _] => destruct b eqn:? end; cbn [q_wb q_width q_height q_data q_strip q_black]; try reflexivity; lia.
Lemma gather_width : forall vs v q, own_value vs Own_Width v -> q_width (gather vs q) = v.
Proof. intros vs v q. apply (gather_value q_width (fun v => v)); entry_field. Qed.
Lemma gather_height : forall vs v q, own_value vs Own_Height v -> q_height (gather vs q) = v.
Proof. intros vs v q. apply (gather_value q_height (fun v => v)); entry_field. Qed.
Lemma gather_data : forall vs v q, own_value vs Own_Data v -> q_data (gather vs q) = 8 + v.
Proof. intros vs v q. apply (gather_value q_data (fun v => 8 + v)); entry_field. Qed.
Lemma gather_rows : forall vs v q, own_value vs Own_Rows v -> q_strip (gather vs q) = 8 + v.
Proof. intros vs v q. apply (gather_value q_strip (fun v => 8 + v)); entry_field. Qed.
Lemma gather_balance : forall vs v q, own_value vs Own_Balance v -> q_wb (gather vs q) = 8 + v.
Proof. intros vs v q. apply (gather_value q_wb (fun v => 8 + v)); entry_field. Qed.
Lemma gather_black : forall vs v q, own_value vs Own_Black v -> q_black (gather vs q) = as_u16 (v >>> 2).
Proof. intros vs v q. apply (gather_value q_black (fun v => as_u16 (v >>> 2))); entry_field. Qed.
Lemma gather_no_black : forall vs q, (forall v, ~ In (Own_Black, v) vs) -> q_black (gather vs q) = q_black q.
Proof. intros vs q. apply (gather_keeps q_black); entry_field. Qed.
Lemma header_read : forall file vs, own_list file vs -> iiq_header (buffer_new file) = Ok (gather vs (mkiiq 0 0 0 0 0 0)).
Proof.
  intros file vs (start & S1 & S2 & Hv). unfold iiq_header. rewrite (le32_placed _ _ _ S1). cbn [bind]. rewrite (Z.add_comm start 8), (le32_placed _ _ _ S2). cbn [bind].
  match goal with |- rfold ?f _ _ = _ => destruct (rfold_zrange f (fun i q => q = gather (firstn (Z.to_nat i) vs) (mkiiq 0 0 0 0 0 0)) 0 (Z.of_nat (length vs)) (mkiiq 0 0 0 0 0 0)) as (q & E & Eq) end.
  - lia.
  - reflexivity.
  - intros i q Hi ->. destruct (nth_error vs (Z.to_nat i)) as [[t v]|] eqn:N; [|apply nth_error_None in N; lia].
    destruct (Hv _ _ _ N) as [N1 N2]. rewrite Z2Nat.id in N1, N2 by lia. replace (8 + start + (8 + i * 16)) with (8 + start + 8 + 16 * i) by lia.
    rewrite (le32_placed _ _ _ N1). cbn [bind]. rewrite (le32_placed _ _ _ N2). cbn [bind]. eexists. split; [reflexivity|].
    replace (Z.to_nat (i + 1)) with (S (Z.to_nat i)) by lia. destruct (nth_error_split vs _ N) as (a & b & Ea & La). rewrite Ea, <- La.
    assert (F1 : firstn (length a) (a ++ (t, v) :: b) = a) by (rewrite firstn_app, firstn_all, Nat.sub_diag; cbn [firstn]; apply app_nil_r).
    assert (F2 : firstn (S (length a)) (a ++ (t, v) :: b) = a ++ [(t, v)]) by (rewrite firstn_app, firstn_all2 by lia; replace (S (length a) - length a)%nat with 1%nat by lia; reflexivity).
    rewrite F1, F2. unfold gather. rewrite fold_left_app. reflexivity.
  - rewrite E, Eq, Nat2Z.id, firstn_all. reflexivity.
Qed.
Lemma number_held : forall file pos v, number_at file pos v -> little_endian_value (firstn 4 (skipn (Z.to_nat pos) (buffer_new file))) = v /\ 0 <= pos /\ pos + 4 <= zlen file.
Proof.
  intros file pos v [(a & b & -> & L) Hv]. split; [|unfold zlen; rewrite !app_length; cbn [little length]; lia].
  unfold buffer_new. rewrite <- !app_assoc. rewrite skipn_app, skipn_all2 by lia. replace (Z.to_nat pos - length a)%nat with 0%nat by lia. change (2 ^ 32) with 4294967296 in Hv.
  cbn [skipn app little firstn little_endian_value]. lia.
Qed.
Lemma rows_read : forall {M : Mode} file data table choice pic w h, bytes file -> 0 < w < 2 ^ 32 -> 0 < h -> 0 <= data -> 0 <= table -> coded_rows file data table choice pic w h ->
  exists out, iiq_decompress (buffer_new file) (8 + data) (8 + table) w h = Ok out /\ is_image out w h pic.
Proof.
  intros M file data table choice pic w h Hb Hw Hh Hd Ht H.
  set (buf := buffer_new file).
  set (s r := stream MSB32 (skipn (Z.to_nat (8 + data + little_endian_value (firstn 4 (skipn (Z.to_nat (8 + table + 4 * r)) buf)))) buf) 0).
  apply phase_ok with (choice := choice) (rest := fun r => skipn (length (phase_row choice pic w r)) (s r)); try lia.
  - apply Forall_app. split; [exact Hb|apply zeros_bytes].
  - destruct (H (h - 1) ltac:(lia)) as (_ & pos & code & more & rest & N & _). apply number_held in N. unfold buf, buffer_new. rewrite app_length. unfold zlen in N. lia.
  - intros r Hr. destruct (H r Hr) as (Hp & pos & code & more & rest & N & F & L4 & Eb). split; [exact Hp|]. destruct N as [N1 N2]. destruct (number_held _ _ _ (conj N1 N2)) as (V & _). fold buf in V. cbv zeta.
    unfold s at 1. rewrite !V. split; [destruct F as [F _]; unfold buf, buffer_new; rewrite app_length; lia|].
    assert (Es : stream MSB32 (skipn (Z.to_nat (8 + data + pos)) buf) 0 = phase_row choice pic w r ++ rest ++ bits_of (swapped 4 (more ++ zeros 16))).
    { destruct F as [F1 F2]. unfold buf, buffer_new. rewrite skipn_app, F2. replace (Z.to_nat (8 + data + pos) - length file)%nat with 0%nat by lia. rewrite skipn_O, <- app_assoc. cbn [stream].
      assert (exists q, length code = (4 * q)%nat) as [q Lq] by (exists (length code / 4)%nat; pose proof (Nat.div_mod (length code) 4); lia).
      rewrite (swapped_app 4 q) by first [lia|apply swapped_length; [lia|exact Lq]]. rewrite (swapped_swapped 4 q) by first [exact Lq|lia]. rewrite bits_of_app, Eb, <- app_assoc. reflexivity. }
    rewrite Es. rewrite skipn_app, skipn_all, Nat.sub_diag. reflexivity.
Qed.
Section Any.
Context {M : Mode} (powf : f32 -> f32 -> f32) (parse_f32 : string -> option f32).
Variables (db : list table) (l : loader).
Hypothesis Hl : loader_new db = Ok l.
Lemma phase_make : forall make, In make ["Phase One A/S"; "Leaf"]%string -> lookup_make makes make = Some IIQ.
Proof. intros make [<-|[<-|[]]]; reflexivity. Qed.
Lemma own_range : forall file vs tag v, own_list file vs -> own_value vs tag v -> 0 <= v < 2 ^ 32.
Proof.
  intros file vs tag v (start & _ & _ & H) (a & b & -> & _). destruct (H (length a) tag v) as [_ [_ R]]; [|exact R]. rewrite nth_error_app2, Nat.sub_diag by lia. reflexivity.
Qed.
Lemma phase_file_ok : forall big ts make model file o cam choice pic w h black r g b, In make ["Phase One A/S"; "Leaf"]%string ->
  nested_photo l "" big ts make model file o cam -> phase_photo file choice pic w h black r g b -> 0 < w -> 0 < h -> black < 2 ^ 18 ->
  exists img, lib_decode powf parse_f32 db file = Ok img /\ shows img cam o w h /\ is_image (i_data img) w h pic /\ i_blacks img = V4 (black / 4) (black / 4) (black / 4) (black / 4) /\
    ieee (fst (fst r)) (snd (fst r)) (snd r) (e0 (i_wb img)) /\ ieee (fst (fst g)) (snd (fst g)) (snd g) (e1 (i_wb img)) /\ ieee (fst (fst b)) (snd (fst b)) (snd b) (e2 (i_wb img)) /\ e3 (i_wb img) = B754_nan.
Proof.
  intros big ts make model file o cam choice pic w h black r g b Hm Hp [(vs & data & table & levels & L & Vw & Vh & Vd & Vt & Hr & Vb & Vl & P1 & Q1 & P2 & Q2 & P3 & Q3)] Hw Hh Hbl.
  destruct (nested_opened _ _ _ _ _ _ _ _ _ IIQ Hp (phase_make _ Hm)) as (root & [G P C N]).
  pose proof (tf_bytes _ _ _ (np_file _ _ _ _ _ _ _ _ _ Hp)) as B.
  destruct (rows_read file data table choice pic w h B (conj Hw (proj2 (own_range _ _ _ _ L Vw))) Hh (proj1 (own_range _ _ _ _ L Vd)) (proj1 (own_range _ _ _ _ L Vt)) Hr) as (out & D1 & D2).
  destruct (float_placed _ _ _ (conj P1 Q1)) as (xr & R1 & R2). destruct (float_placed _ _ _ (conj P2 Q2)) as (xg & G1 & G2). destruct (float_placed _ _ _ (conj P3 Q3)) as (xb & B1 & B2).
  destruct (finished cam o w h (V4 xr xg xb NAN) out N) as (img & I1 & [S1 S2 S3 S4 S5 S6] & I3 & I4 & I5).
  assert (Eb : q_black (gather vs (mkiiq 0 0 0 0 0 0)) = black / 4).
  { destruct Vb as [Vb|[Vb ->]]; [|rewrite gather_no_black by exact Vb; reflexivity]. rewrite (gather_black _ _ _ Vb). pose proof (own_range _ _ _ _ L Vb) as R. rewrite Z.shiftr_div_pow2 by lia. change (2 ^ 2) with 4.
    unfold as_u16. change (2 ^ 18) with 262144 in Hbl. apply Z.mod_small. change (2 ^ 16) with 65536. lia. }
  exists (img_set_blacks (all4 (black / 4)) img). split.
  - eapply lib_decodes; [exact Hl|]. unfold decode. rewrite G. cbn [bind decoder_image]. unfold iiq_image, check_supported. rewrite C. cbn [bind]. rewrite (header_read _ _ L). cbn [bind].
    rewrite (gather_width _ _ _ Vw), (gather_height _ _ _ Vh), (gather_data _ _ _ Vd), (gather_rows _ _ _ Vt), (gather_balance _ _ _ Vl), Eb.
    replace (w <=? 0) with false by lia. replace (h <=? 0) with false by lia. cbn [orb]. rewrite D1. cbn [bind]. rewrite R1. cbn [bind]. rewrite G1. cbn [bind]. rewrite B1. cbn [bind].
    unfold ok_image_with_blacklevels. rewrite I1. reflexivity.
  - split; [|split; [unfold img_set_blacks; cbn [i_data]; rewrite I3; exact D2|split; [reflexivity|]]].
    + destruct S4. split; cbn [img_set_blacks i_width i_height i_cpp i_crops i_orientation]; try assumption. split; assumption.
    + unfold img_set_blacks. cbn [i_wb]. rewrite I5. cbn [e0 e1 e2 e3]. auto 10.
Qed.
End Any.
