(** Whole files of several makers (C53). *)
From Coq Require Import String Ascii ZArith List Bool Reals Lia.
From Flocq Require Import Core BinarySingleNaN.
From Verif Require Import Base Num F32 Bytes Packed Tiff Transform Image Camera Clients Decoder Dec_Simple Dec_Pred Dec_Nef Dispatch.
From Verif Require Import Spec_Bits Spec_Image Spec_Stream Spec_Packed Spec_Tiff Spec_Camera Spec_Known Spec_Pred Spec_Meta Spec_File.
From Verif Require Import P_Base P_F32 P_Tiff3 P_Tiff5 P_Packed5 P_Black P_Meta1 P_Meta2 P_File1.
From Verif Require Props_Packed Props_Pred.
Import ListNotations.
Local Open Scope Z_scope.

Section Any.
Context {M : Mode}.
(** Levels *)
Lemma numbers_found : forall big fs root sub tag vs, Parsed big fs root sub -> has_numbers fs tag vs ->
  exists en, find_entry root tag = Some en /\ find_entry sub tag = Some en /\ e_count en = Z.of_nat (length vs) /\
    (forall k v, nth_error vs k = Some v -> get_u32 en (Z.of_nat k) = Ok v /\ get_f32 en (Z.of_nat k) = Ok (f32_of v) /\ 0 <= v < 2 ^ 32).
Proof.
  intros big fs root sub tag vs P H.
  assert (exists typ, (typ = 3 \/ typ = 4) /\ In (mkfield tag typ vs) fs /\ Forall (fun v => 0 <= v < 256 ^ type_size typ) vs /\ Forall (fun v => 0 <= v < 2 ^ 32) vs) as (typ & Ht & Hf & Hv & Hw).
  { destruct H as [[Hf Hv]|[Hf Hv]]; [exists 3|exists 4]; (split; [auto|split; [exact Hf|]]); (split; [exact Hv|]); [|exact Hv].
    eapply Forall_impl; [|exact Hv]. cbv beta. intros v. lia. }
  destruct (p_root _ _ _ _ P _ Hf) as (en & E1 & E2 & E3). exists en. split; [exact E1|]. split; [exact E2|]. split; [apply E3|]. intros k v Hk.
  assert (It : integer_type typ = true) by (destruct Ht as [->| ->]; reflexivity).
  pose proof (get_u32_holds big (mkfield tag typ vs) en k v It Hv E3 Hk) as G. split; [exact G|]. split.
  - pose proof E3 as (_ & T & _). cbn [f_typ] in T. unfold get_f32. rewrite T.
    replace (typ =? 5) with false by lia. replace (typ =? 10) with false by lia. rewrite G. reflexivity.
  - exact (proj1 (Forall_forall _ _) Hw v (nth_error_In _ _ Hk)).
Qed.
Lemma level_exact : forall v, 0 <= v < 2 ^ 16 -> f32_to 0 65535 (f32_of v) = v.
Proof.
  intros v H. destruct (of_exact v ltac:(lia)) as [F [E _]]. assert (T : Ztrunc (B2R (f32_of v)) = v) by (rewrite E; apply Ztrunc_IZR).
  rewrite to_val; [exact T|exact F|rewrite T; lia].
Qed.
Lemma number_near : forall v, 0 <= v < 2 ^ 32 -> nearest (f32_of v) (IZR v).
Proof. intros v H. apply int_near. lia. Qed.
Lemma even_mod : forall w, Z.even w = true -> w mod 2 = 0.
Proof. intros w H. apply Z.even_spec in H. destruct H as [k ->]. rewrite Z.mul_comm. apply Z.mod_mul. lia. Qed.

Context (powf : f32 -> f32 -> f32) (parse_f32 : string -> option f32).
Variables (db : list table) (l : loader).
Hypothesis Hl : loader_new db = Ok l.

Ltac open f Hp :=
  destruct (photo_opened _ _ _ _ _ _ _ _ _ _ _ _ f Hp eq_refl) as (root & sub & [G P (off & O1 & O2 & O3) C B N]).
Ltac enter G := eapply lib_decodes; [exact Hl|]; unfold decode; rewrite G; cbn [bind decoder_image].

(** ** Mamiya *)
Lemma mef_file : forall big fs model gap samples rest file w h o cam,
  photo l "" big fs "Mamiya-OP Co.,Ltd." model T_StripOffsets gap (pack 12 samples ++ rest) file o cam ->
  In T_CFAPattern (map f_tag fs) -> has_number fs T_ImageWidth w -> has_number fs T_ImageLength h -> 0 < w -> Z.even w = true -> Z.of_nat (length samples) = w * h -> Forall (Spec_Packed.fits 12) samples ->
  exists img, lib_decode powf parse_f32 db file = Ok img /\ shows img cam o w h /\ i_data img = samples /\ i_blacks img = c_blacks cam.
Proof.
  intros big fs model gap samples rest file w h o cam Hp Hc Tw Th Hw He Hn Hs. open MEF Hp. destruct (size_read _ _ _ _ _ _ P Tw) as [W Rw]. destruct (size_read _ _ _ _ _ _ P Th) as [H Rh].
  destruct (finished cam o w h nans samples N) as (img & I1 & I2 & I3 & I4 & _).
  exists img. split; [|auto]. enter G. unfold mef_image, check_supported.
  rewrite C. cbn [bind]. rewrite (ifd_found _ _ _ _ _ P Hc). cbn [bind]. rewrite W, H, O2. cbn [bind]. rewrite O3. cbn [bind].
  rewrite <- app_assoc in *. apply Forall_app in B.
  rewrite Props_Packed.C06_12be; [exact I1|lia|apply even_mod; exact He|lia|exact Hn|exact Hs|exact (proj2 B)].
Qed.

(** ** Pentax *)
Lemma pef_rest : forall big fs root sub cam o image w h r g1 g2 b blacks, Parsed big fs root sub -> no_black_area cam ->
  has_numbers fs T_PefWB [r; g1; g2; b] ->
  (has_no fs T_PefBlackLevels /\ blacks = c_blacks cam \/
   (exists b0 b1 b2 b3, has_numbers fs T_PefBlackLevels [b0; b1; b2; b3] /\ Forall (fun v => v < 2 ^ 16) [b0; b1; b2; b3] /\ blacks = V4 b0 b1 b2 b3)) ->
  exists img, (blacks <- pef_blacks root (c_blacks (set_orientation o cam)) ;;
     levels <- fetch_tag root T_PefWB ;; r <- get_f32 levels 0 ;; g <- get_f32 levels 1 ;; b <- get_f32 levels 3 ;;
     ok_image_with_blacklevels (set_orientation o cam) w h (V4 r g b NAN) blacks image) = Ok img /\
    shows img cam o w h /\ i_data img = image /\ i_blacks img = blacks /\ balance img r g1 b.
Proof.
  intros big fs root sub cam o image w h r g1 g2 b blacks P Hb Hw Hk.
  destruct (numbers_found _ _ _ _ _ _ P Hw) as (en & E1 & _ & _ & V).
  destruct (V 0%nat r eq_refl) as (_ & R1 & R2). destruct (V 1%nat g1 eq_refl) as (_ & G1 & G2). destruct (V 3%nat b eq_refl) as (_ & B1 & B2).
  change (Z.of_nat 0) with 0 in R1. change (Z.of_nat 1) with 1 in G1. change (Z.of_nat 3) with 3 in B1. clear V.
  assert (K : pef_blacks root (c_blacks (set_orientation o cam)) = Ok blacks).
  { unfold pef_blacks. destruct Hk as [[N ->]|(b0 & b1 & b2 & b3 & Hk & Hv & ->)].
    - rewrite (proj1 (p_none _ _ _ _ P _ N)). reflexivity.
    - destruct (numbers_found _ _ _ _ _ _ P Hk) as (en' & F1 & _ & _ & V). rewrite F1.
      destruct (V 0%nat b0 eq_refl) as (_ & X0 & Y0). destruct (V 1%nat b1 eq_refl) as (_ & X1 & Y1). destruct (V 2%nat b2 eq_refl) as (_ & X2 & Y2). destruct (V 3%nat b3 eq_refl) as (_ & X3 & Y3).
      change (Z.of_nat 0) with 0 in X0. change (Z.of_nat 1) with 1 in X1. change (Z.of_nat 2) with 2 in X2. change (Z.of_nat 3) with 3 in X3. rewrite X0, X1, X2, X3. cbn [bind].
      inversion Hv as [|? ? Z0 Hv1]; subst. inversion Hv1 as [|? ? Z1 Hv2]; subst. inversion Hv2 as [|? ? Z2 Hv3]; subst. inversion Hv3 as [|? ? Z3 _]; subst.
      rewrite !level_exact by lia. reflexivity. }
  rewrite K. unfold fetch_tag. rewrite E1. cbn [bind]. rewrite R1, G1, B1. cbn [bind].
  destruct (finished cam o w h (V4 (f32_of r) (f32_of g1) (f32_of b) NAN) image Hb) as (img & I1 & [S1 S2 S3 S4 S5 S6] & I3 & I4 & I5).
  unfold ok_image_with_blacklevels. rewrite I1. cbn [bind]. eexists. split; [reflexivity|]. split; [|split; [exact I3|split; [reflexivity|]]].
  - destruct S4. split; cbn [img_set_blacks i_width i_height i_cpp i_crops i_orientation]; try assumption. split; assumption.
  - unfold balance, img_set_blacks. cbn [i_wb]. rewrite I5. cbn [e0 e1 e2 e3]. repeat (split; [apply number_near; assumption|]). reflexivity.
Qed.
Lemma pef_file : forall big fs make model gap data file w h o cam samples rest r g1 g2 b blacks, In make ["PENTAX"; "PENTAX Corporation"; "RICOH IMAGING COMPANY, LTD."]%string ->
  photo l "" big fs make model T_StripOffsets gap data file o cam ->
  has_number fs T_ImageWidth w -> has_number fs T_ImageLength h -> 0 < w -> Z.of_nat (length samples) = w * h ->
  has_number fs T_Compression 1 /\ data = pack16 true samples ++ rest /\ Forall (Spec_Packed.fits 16) samples \/
  has_number fs T_Compression 32773 /\ data = pack 12 samples ++ rest /\ Forall (Spec_Packed.fits 12) samples /\ Z.even w = true ->
  has_numbers fs T_PefWB [r; g1; g2; b] ->
  has_no fs T_PefBlackLevels /\ blacks = c_blacks cam \/
   (exists b0 b1 b2 b3, has_numbers fs T_PefBlackLevels [b0; b1; b2; b3] /\ Forall (fun v => v < 2 ^ 16) [b0; b1; b2; b3] /\ blacks = V4 b0 b1 b2 b3) ->
  exists img, lib_decode powf parse_f32 db file = Ok img /\ shows img cam o w h /\ i_data img = samples /\ i_blacks img = blacks /\ balance img r g1 b.
Proof.
  intros big fs make model gap data file w h o cam samples rest r g1 g2 b blacks Hm Hp Tw Th Hw Hn Hd Hwb Hk.
  assert (Lm : lookup_make makes make = Some PEF) by (destruct Hm as [<-|[<-|[<-|[]]]]; reflexivity).
  destruct (photo_opened _ _ _ _ _ _ _ _ _ _ _ _ PEF Hp Lm) as (root & sub & [G P (off & O1 & O2 & O3) C B N]).
  destruct (size_read _ _ _ _ _ _ P Tw) as [W Rw]. destruct (size_read _ _ _ _ _ _ P Th) as [H Rh].
  destruct (pef_rest big fs root sub cam o samples w h r g1 g2 b blacks P N Hwb Hk) as (img & I1 & I2).
  exists img. split; [|exact I2]. enter G. unfold pef_image, check_supported. rewrite C. cbn [bind].
  assert (Hs : In T_StripOffsets (map f_tag fs)) by (eapply number_tag; exact (rf_start _ _ _ _ _ _ _ _ (ph_file _ _ _ _ _ _ _ _ _ _ _ _ Hp))).
  rewrite (ifd_found _ _ _ _ _ P Hs). cbn [bind]. rewrite W, H, O2. cbn [bind]. rewrite O3. cbn [bind].
  destruct Hd as [(Hc & -> & Hs2)|(Hc & -> & Hs2 & He)]; rewrite (proj2 (usize_read _ _ _ _ _ _ P Hc)); cbn [bind Z.eqb Pos.eqb];
    rewrite <- app_assoc in *; apply Forall_app in B.
  - rewrite Props_Packed.C06_16be; [exact I1|lia|lia|exact Hn|exact Hs2|exact (proj2 B)].
  - rewrite Props_Packed.C06_12be; [exact I1|lia|apply even_mod; exact He|lia|exact Hn|exact Hs2|exact (proj2 B)].
Qed.
End Any.
