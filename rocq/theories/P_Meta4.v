(** What an image says besides its samples: examples and whole images (C50, C51, C52). *)
From Coq Require Import String Ascii ZArith List Bool Reals Lia Lra.
From Flocq Require Import Core BinarySingleNaN.
From Verif Require Import Base Num F32 Bytes Tiff Cfa Camera Image Decoder Dec_Ljpeg.
From Verif Require Import Spec_Bits Spec_Cfa Spec_Tiff Spec_Meta P_F32 P_Black P_Black2 P_Meta1 P_Meta2 P_Meta3.
Import ListNotations.
Local Open Scope Z_scope.

Theorem image_blacks : forall (M : Mode) name cam width height wb image h0 h1 v0 v1,
  pattern_name name -> cfa_new name = Ok (c_cfa cam) ->
  Z.of_nat (length image) = width * height -> samples image -> 0 <= width < 2 ^ 63 -> 0 <= height < 2 ^ 63 ->
  c_blackareah cam = (h0, h1) -> c_blackareav cam = (v0, v1) ->
  0 <= h0 -> 0 <= h1 -> h0 + h1 <= height -> 0 <= v0 -> 0 <= v1 -> v0 + v1 <= width -> h1 <> 0 \/ v1 <> 0 ->
  let levels := measured name image width (masked width height (h0, h1) (v0, v1)) in
  (forall c, 0 <= c < 4 -> total (levels c) < 2 ^ 24 /\ Z.of_nat (length (levels c)) <= 2 ^ 24) ->
  exists img, ok_image cam width height wb image = Ok img /\ forall c, 0 <= c < 4 -> at4 (i_blacks img) c = mean (levels c).
Proof.
  intros M name cam width height wb image h0 h1 v0 v1 Hn Hf Hl Hs Hw Hh Eh Ev H0 H1 H2 V0 V1 V2 NZ levels HB.
  pose proof (black_levels_ok name cam width height image Hn Hf Hl Hs Hw Hh) as G. rewrite Eh, Ev in G. destruct (G H0 H1 H2 V0 V1 V2 NZ HB) as [b [E A]].
  unfold ok_image. rewrite E. cbn [bind]. eexists. split; [reflexivity|]. exact A.
Qed.
Theorem image_no_areas : forall (M : Mode) cam width height wb image, snd (c_blackareah cam) = 0 -> snd (c_blackareav cam) = 0 ->
  exists img, ok_image cam width height wb image = Ok img /\ i_blacks img = c_blacks cam.
Proof.
  intros M cam width height wb image Hh Hv. unfold ok_image, black_levels. destruct (c_blackareah cam) as [h0 h1]. destruct (c_blackareav cam) as [v0 v1]. cbn [snd] in Hh, Hv. subst h1 v1.
  cbn [bind Z.eqb negb orb]. eexists. split; reflexivity.
Qed.
Theorem other_types_f32 : forall en idx, In (e_typ en) [2; 6; 11; 12] -> get_f32 en idx = Panic.
Proof. intros en idx H. unfold get_f32, get_u32. cbn [In] in H. repeat (destruct H as [<-|H]; [reflexivity|]). destruct H. Qed.

Definition meta_fields : list field := [mkfield T_AsShotNeutral 5 (map (fraction true) [(3, 4); (1, 3); (7, 0)]); mkfield T_CFAPattern 1 [2; 1; 1; 0]].
Lemma meta_kept : Forall kept_field meta_fields.
Proof.
  unfold meta_fields. apply Forall_cons; [|apply Forall_cons; [|apply Forall_nil]];
  (split; [apply P_Tiff3.known_In; reflexivity|]; split; [|cbn [f_typ]; lia]; cbn [f_tag]; intros H; repeat (destruct H as [H|H]; [discriminate H|]); destruct H).
Qed.
Lemma three_quarters : B2R (fdiv (f32_of 3) (f32_of 4)) = (3 / 4)%R.
Proof.
  destruct (of_exact 3 ltac:(lia)) as [F3 [V3 _]]. destruct (of_exact 4 ltac:(lia)) as [_ [V4 _]].
  destruct (div_val (f32_of 3) (f32_of 4) F3) as [_ V]; rewrite ?V3, ?V4; [lra|rewrite Rabs_pos_eq; cbn; lra|].
  unfold fdiv. rewrite V, V3, V4. apply RN_id. rewrite fe_flt. apply generic_format_FLT. exists (Float radix2 3 (-2)); [unfold F2R; cbn; lra|reflexivity|cbn; lia].
Qed.
Theorem meta_example : forall M : Mode, Forall kept_field meta_fields /\ NoDup (map f_tag meta_fields) /\
  Forall (fun q => fits 5 (fst q) /\ fits 5 (snd q)) [(3, 4); (1, 3); (7, 0)] /\
  exists root en x y p, ifd_new_file (tiff_file true meta_fields) = Ok root /\ find_entry root T_AsShotNeutral = Some en /\
  get_f32 en 0 = Ok x /\ B2R x = (3 / 4)%R /\ get_f32 en 2 = Ok y /\ y = B754_infinity false /\
  match find_entry root T_CFAPattern with Some en => cfa_new_from_tag en | None => Panic end = Ok p /\
  color_at p 0 0 = Ok 2 /\ color_at p 5 4 = Ok 1 /\ color_at p 7 9 = Ok 0.
Proof.
  intros M. split; [exact meta_kept|]. assert (ND : NoDup (map f_tag meta_fields)) by (repeat constructor; cbn; intuition discriminate). split; [exact ND|].
  split; [repeat (apply Forall_cons; [split; left; cbn [fst snd]; lia|]); apply Forall_nil|].
  eexists. eexists. exists (fdiv (f32_of 3) (f32_of 4)), (fdiv (f32_of 7) (f32_of 0)).
  assert (NP : cfa_new "BGGR" <> Panic /\ pattern_name "BGGR").
  { assert (P : pattern_name "BGGR") by (split; [discriminate|]; intros c Hc; cbn in Hc; intuition (subst; discriminate)).
    split; [|exact P]. destruct (proj2 (P_Cfa.cfa_new_ok_iff "BGGR") (or_intror P)) as [f E]. rewrite E. discriminate. }
  destruct NP as [_ NP]. destruct (proj2 (P_Cfa.cfa_new_ok_iff "BGGR") (or_intror NP)) as [p E]. exists p.
  split; [destruct M; vm_compute; reflexivity|]. split; [reflexivity|]. split; [reflexivity|]. split; [exact three_quarters|]. split; [reflexivity|]. split; [reflexivity|].
  split; [cbn [find_entry lookup]; rewrite <- E; reflexivity|].
  repeat split.
  - destruct (P_Cfa2.color_at_63 "BGGR" p 0 0 NP E ltac:(lia) ltac:(lia)) as [v [E1 E2]]. rewrite E1. vm_compute in E2. congruence.
  - destruct (P_Cfa2.color_at_63 "BGGR" p 5 4 NP E ltac:(lia) ltac:(lia)) as [v [E1 E2]]. rewrite E1. vm_compute in E2. congruence.
  - destruct (P_Cfa2.color_at_63 "BGGR" p 7 9 NP E ltac:(lia) ltac:(lia)) as [v [E1 E2]]. rewrite E1. vm_compute in E2. congruence.
Qed.

Definition daylight : Tiff.entry := mkentry T_Cr2ColorData 3 67 0 0 (repeat 0 126 ++ [8; 8; 0; 4; 0; 4; 128; 5]) false.
Theorem daylight_colours : forall (M : Mode) cam, c_wb_offset cam = 0 -> find_hint cam "40d_yuv" = false ->
  convert_to_rgb (mkifd [(T_Cr2ColorData, daylight)] [] 0 0 false) cam [10000; 16383; 17383; 60000; 0; 50000] = Ok [21914; 38000; 29062; 65535; 65535; 65535].
Proof.
  intros M cam Eo Eh.
  pose proof (canon_colours (mkifd [(T_Cr2ColorData, daylight)] [] 0 0 false) cam daylight 2056 1024 1408 [(10000, 16383, 17383); (60000, 0, 50000)] eq_refl) as H.
  rewrite Eo, Eh in H. cbn [Z.eqb Z.add] in H. specialize (H eq_refl eq_refl eq_refl ltac:(lia) ltac:(lia) ltac:(lia)).
  change (flat_map parts _) with [10000; 16383; 17383; 60000; 0; 50000] in H. rewrite H; [vm_compute; reflexivity|].
  unfold samples. repeat (apply Forall_cons; [unfold sample; lia|]). apply Forall_nil.
Qed.
