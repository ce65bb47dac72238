(** Proofs about lossless JPEG: round trips of whole files with subsampled
    colour and of Hasselblad files. *)
From Coq Require Import String ZArith List Bool Lia ZifyBool ZifyNat.
From Verif Require Import Base Bytes Pumps ByteStream Threads Packed Huffman Ljpeg Spec_Bits Spec_Pump Spec_Stream Spec_Huffman Spec_Ljpeg
  P_Base P_Bits P_Pumps P_Huff4 P_Huff5 P_Huff6 P_Ljpeg1 P_Ljpeg2 P_Ljpeg3 P_Ljpeg4 P_Ljpeg5 P_Ljpeg9 P_Ljpeg10 P_Ljpeg12.
Import ListNotations.
Local Open Scope Z_scope.
Ltac Zify.zify_post_hook ::= Z.div_mod_to_equations.

Lemma last_app_ne : forall (a b : list Z) d, b <> [] -> last (a ++ b) d = last b d.
Proof.
  induction a as [|y a IHa]; intros b d Hne; [reflexivity|]. cbn [app]. destruct (a ++ b) eqn:Eab; [destruct a; [cbn in Eab; congruence|discriminate]|].
  rewrite <- Eab. specialize (IHa b d Hne). rewrite Eab in *. cbn [last]. exact IHa.
Qed.
Lemma scan_readable : forall data tail, bytes data -> bytes tail -> last (217 :: tail) 0 <> 255 ->
  4 <= Z.of_nat (length (stuff data ++ [255; 217] ++ tail)) < 2 ^ 64 -> readable JPEG (stuff data ++ [255; 217] ++ tail).
Proof.
  intros data tail Hb Hbt Hlast H4. split.
  - apply Forall_app. split; [apply stuff_bytes; exact Hb|]. apply Forall_app. split; [repeat constructor; unfold byte; lia|exact Hbt].
  - intros _. split; [exact H4|]. replace (stuff data ++ [255; 217] ++ tail) with ((stuff data ++ [255]) ++ 217 :: tail) by (rewrite <- app_assoc; reflexivity).
    rewrite last_app_ne by discriminate. exact Hlast.
Qed.

Lemma factors_all : forall cs : list (Z * (Z * Z)), Forall (fun '(_, (a, b)) => 0 <= a <= 15 /\ 0 <= b <= 15) cs -> Forall ok_factors cs.
Proof. intros cs H. eapply Forall_impl; [|exact H]. intros [i [a b]] Q. exact Q. Qed.

Lemma comp_first : forall (cs : list (Z * (Z * Z))) (tables : list Z) id a b cs', length tables = length cs -> cs = (id, (a, b)) :: cs' ->
  exists t, get (map scomp1 (combine cs tables)) 0 = Ok (mkcomp id t a b).
Proof.
  intros cs tables id a b cs' L E. subst cs. destruct tables as [|t tables']; [discriminate L|]. exists t. reflexivity.
Qed.

Lemma sub_file : forall {M : Mode} hs prec v w h id1 id2 id3 s2 s3 tables predictor pt data tail dng csfix pic filler,
  let comps := [(id1, (2, v)); (id2, s2); (id3, s3)] in
  let codes i := nth (Z.to_nat (nth (Z.to_nat i) tables 0)) hs (mkcode [] []) in
  let base := 2 ^ (prec - pt - 1) in
  v = 1 \/ v = 2 ->
  (1 <= length hs <= 4)%nat -> Forall (good_code debug prec) hs -> (dng = true -> Forall (fun c => ~ In 16 (hc_syms c)) hs) ->
  12 <= prec <= 16 -> 0 < w /\ 2 * w < 65536 -> 0 < h /\ v * h < 65536 -> 0 <= pt < Z.min prec 16 ->
  Forall (fun '(_, (a, b)) => 0 <= a <= 15 /\ 0 <= b <= 15) comps ->
  NoDup [id1; id2; id3] -> length tables = 3%nat -> Forall (fun t => 0 <= t < Z.of_nat (length hs)) tables ->
  (csfix = true -> [id1; id2; id3] = upto 3) ->
  bytes data -> bytes tail -> last (217 :: tail) 0 <> 255 -> 4 <= Z.of_nat (length (stuff data ++ [255; 217] ++ tail)) < 2 ^ 64 ->
  picture_of_samples pic (2 * v + 2) w h -> sub_codable prec codes v base pic w h ->
  bits_of data = sub_coded codes v base pic w h ++ filler ->
  exists lj, ljpeg_new_full (jpeg_sampled hs prec (2 * w) (v * h) comps tables predictor pt (stuff data ++ [255; 217] ++ tail)) dng csfix = Ok lj /\
    lj_width lj = 6 * w /\ lj_height lj = v * h /\
    forall out x stride, v * h * (6 * w) <= Z.of_nat (length out) ->
      exists out', ljpeg_decode lj out x stride (6 * w) (v * h) = Ok out' /\ length out' = length out /\
        (forall R q, 0 <= R < v * h -> 0 <= q < 6 * w -> nth (Z.to_nat (R * (6 * w) + q)) out' 0 = sub_sample v pic R q) /\
        (forall q, v * h * (6 * w) <= Z.of_nat q -> nth q out' 0 = nth q out 0).
Proof.
  intros M hs prec v w h id1 id2 id3 s2 s3 tables predictor pt data tail dng csfix pic filler comps codes base Hv Hhs Hg Hd Hp Hw Hh Hpt Hfa Hdup Hlt Hsel Hfix Hb Hbt Hlast H4 Hpic Hcod Ebits.
  destruct (snew_file hs prec (2 * w) (v * h) comps tables predictor pt (stuff data ++ [255; 217] ++ tail) dng csfix Hhs Hg Hp ltac:(lia) ltac:(lia) ltac:(lia)
     ltac:(unfold comps; cbn [length]; lia) (factors_all _ Hfa) Hdup Hlt Hsel Hfix)
    as [lj [E [Eb [Epr [Ept [[cmps [Es Ecomps]] Et]]]]]].
  exists lj. split; [exact E|]. unfold lj_width, lj_height. rewrite Es. cbn [s_width s_cps s_height]. split; [unfold comps; cbn [length]; lia|]. split; [reflexivity|].
  intros out x stride Hout.
  assert (HR : reads_with lj dng codes 3).
  { intros i Hi. rewrite Es. cbn [s_precision].
    assert (HIn : In (codes i) hs).
    { unfold codes. apply nth_In. assert (0 <= nth (Z.to_nat i) tables 0 < Z.of_nat (length hs)); [|lia].
      apply (proj1 (Forall_forall _ _) Hsel). apply nth_In. lia. }
    split; [exact (proj1 (Forall_forall _ _) Hg _ HIn)|]. split.
    { intros Dt. exact (proj1 (Forall_forall _ _) (Hd Dt) _ HIn). }
    destruct (Et (Z.to_nat i) ltac:(unfold comps; cbn [length]; lia)) as [t [E1 E2]]. rewrite Z2Nat.id in E1 by lia. exists t. split; [exact E1|exact E2]. }
  destruct (sub_ok lj dng codes v pic w h out 32 (filler ++ repeat false 32)) as [out' [E' HP]].
  - exact Hv.
  - lia.
  - lia.
  - rewrite Es. reflexivity.
  - rewrite Es. reflexivity.
  - rewrite Es, Ept. cbn [s_precision]. lia.
  - rewrite Es. cbn [s_precision]. lia.
  - exact HR.
  - rewrite Eb. apply scan_readable; assumption.
  - rewrite Eb, Es, Ept. cbn [s_precision stream app]. rewrite unstuff_stuff by exact Hb. fold base. rewrite Ebits, <- app_assoc. reflexivity.
  - rewrite app_length, repeat_length. lia.
  - exact Hpic.
  - rewrite Es, Ept. exact Hcod.
  - exact Hout.
  - exists out'. split; [|exact HP]. unfold ljpeg_decode. rewrite Es. cbn [s_comps]. rewrite Ecomps.
    destruct (comp_first comps tables _ _ _ _ Hlt eq_refl) as [t ->]. cbn [bind c_super_h c_super_v].
    destruct Hv as [-> | ->]; exact E'.
Qed.

Lemma hass_file : forall {M : Mode} hs prec w0 w h id a b comps tables pt scan dng csfix pic pad rest,
  let cs := (id, (a, b)) :: comps in
  let c := nth (Z.to_nat (nth 0 tables 0)) hs (mkcode [] []) in
  (1 <= length hs <= 4)%nat -> Forall (good_code debug prec) hs -> (dng = true -> Forall (fun c => ~ In 16 (hc_syms c)) hs) ->
  12 <= prec <= 16 -> 0 < w0 < 65536 -> 0 <= h < 65536 -> 0 <= pt < 16 -> a <> 2 ->
  (length cs <= 4)%nat -> Z.of_nat (length cs) * w0 = 2 * w -> w <= 32767 ->
  Forall (fun '(_, (a, b)) => 0 <= a <= 15 /\ 0 <= b <= 15) cs ->
  NoDup (map fst cs) -> length tables = length cs -> Forall (fun t => 0 <= t < Z.of_nat (length hs)) tables ->
  (csfix = true -> map fst cs = upto (Z.of_nat (length cs))) ->
  readable MSB32 scan -> stream MSB32 scan pad = hass_coded c pic w h ++ rest -> (32 <= length rest)%nat ->
  picture_of_samples pic 2 w h ->
  (forall r j i, 0 <= r < h -> 0 <= j < w -> 0 <= i < 2 -> has_word prec c (hass_residual pic r j i)) ->
  exists lj, ljpeg_new_full (jpeg_sampled hs prec w0 h cs tables 8 pt scan) dng csfix = Ok lj /\
    lj_width lj = 2 * w /\ lj_height lj = h /\
    forall out x stride height, Z.of_nat (length out) = 2 * w * h ->
      ljpeg_decode lj out x stride (2 * w) height = Ok (hass_samples pic w h).
Proof.
  intros M hs prec w0 w h id a b comps tables pt scan dng csfix pic pad rest cs c Hhs Hg Hd Hp Hw0 Hh Hpt Ha Hcs Hw Hw2 Hfa Hdup Hlt Hsel Hfix Hr Es Hl Hpic Hcod.
  assert (L1 : (1 <= length cs)%nat) by (unfold cs; cbn [length]; lia).
  destruct (snew_file hs prec w0 h cs tables 8 pt scan dng csfix Hhs Hg Hp Hw0 Hh Hpt ltac:(lia) (factors_all _ Hfa) Hdup Hlt Hsel Hfix)
    as [lj [E [Eb [Epr [Ept [[cmps [Eso Ecomps]] Et]]]]]].
  exists lj. split; [exact E|]. unfold lj_width, lj_height. rewrite Eso. cbn [s_width s_cps s_height]. split; [lia|]. split; [reflexivity|].
  intros out x stride height Hout.
  assert (HIn : In c hs).
  { unfold c. apply nth_In. assert (0 <= nth 0 tables 0 < Z.of_nat (length hs)); [|lia].
    apply (proj1 (Forall_forall _ _) Hsel). apply nth_In. lia. }
  destruct (Et 0%nat ltac:(lia)) as [t [E1 E2]].
  unfold ljpeg_decode. rewrite Eso. cbn [s_comps s_cps]. rewrite Ecomps.
  destruct (comp_first cs tables _ _ _ _ Hlt eq_refl) as [t0 ->]. cbn [bind c_super_h c_super_v].
  replace (a =? 2) with false by lia. cbn [andb]. rewrite Epr. change (8 =? 1) with false. change (8 =? 8) with true. cbn iota.
  apply (hasselblad_ok lj dng c t pic w h out pad rest).
  - rewrite Eso. cbn [s_precision]. lia.
  - rewrite Eso. exact (proj1 (Forall_forall _ _) Hg _ HIn).
  - intros Dt. exact (proj1 (Forall_forall _ _) (Hd Dt) _ HIn).
  - exact E1.
  - rewrite Eso. exact E2.
  - rewrite Eb. exact Hr.
  - rewrite Eb. exact Es.
  - exact Hl.
  - exact Hpic.
  - rewrite Eso. exact Hcod.
  - lia.
  - lia.
  - exact Hout.
Qed.

(** Predictor 1 with sampling factors that the program does not look at *)
Lemma comps_file : forall {M : Mode} hs prec w h id a b comps tables pt data tail dng csfix pic filler,
  let cs := (id, (a, b)) :: comps in
  let n := Z.of_nat (length cs) in
  let codes i := nth (Z.to_nat (nth (Z.to_nat i) tables 0)) hs (mkcode [] []) in
  let base := 2 ^ (prec - pt - 1) in
  (a = 2 -> b <> 1 /\ b <> 2) ->
  (1 <= length hs <= 4)%nat -> Forall (good_code debug prec) hs -> (dng = true -> Forall (fun c => ~ In 16 (hc_syms c)) hs) ->
  12 <= prec <= 16 -> 0 < w < 65536 -> 0 < h < 65536 -> 0 <= pt < Z.min prec 16 ->
  2 <= n <= 4 -> Forall (fun '(_, (a, b)) => 0 <= a <= 15 /\ 0 <= b <= 15) cs ->
  NoDup (map fst cs) -> length tables = length cs -> Forall (fun t => 0 <= t < Z.of_nat (length hs)) tables ->
  (csfix = true -> map fst cs = upto n) ->
  bytes data -> bytes tail -> last (217 :: tail) 0 <> 255 -> 4 <= Z.of_nat (length (stuff data ++ [255; 217] ++ tail)) < 2 ^ 64 ->
  picture_of_samples pic n w h -> codable prec codes n base pic w h ->
  bits_of data = coded codes n base pic w h ++ filler ->
  exists lj, ljpeg_new_full (jpeg_sampled hs prec w h cs tables 1 pt (stuff data ++ [255; 217] ++ tail)) dng csfix = Ok lj /\
    lj_width lj = n * w /\ lj_height lj = h /\ (exists t, get (s_comps (lj_sof lj)) 0 = Ok (mkcomp id t a b)) /\
    forall out x stride w' h', 0 < w' <= w -> 0 < h' <= h -> 0 <= x -> x + n * w' <= stride ->
      (h' - 1) * stride + x + n * w' <= Z.of_nat (length out) -> (n = 4 -> x = 0 /\ stride = n * w') ->
      exists out', ljpeg_decode lj out x stride (n * w') h' = Ok out' /\ pasted n x stride w' h' pic out out'.
Proof.
  intros M hs prec w h id a b comps tables pt data tail dng csfix pic filler cs n codes base Hab Hhs Hg Hd Hp Hw Hh Hpt Hn Hfa Hdup Hlt Hsel Hfix Hb Hbt Hlast H4 Hpic Hcod Ebits.
  destruct (snew_file hs prec w h cs tables 1 pt (stuff data ++ [255; 217] ++ tail) dng csfix Hhs Hg Hp Hw ltac:(lia) ltac:(lia) ltac:(unfold n in Hn; lia) (factors_all _ Hfa) Hdup Hlt Hsel Hfix)
    as [lj [E [Eb [Epr [Ept [[cmps [Es Ecomps]] Et]]]]]].
  exists lj. split; [exact E|]. unfold lj_width, lj_height. rewrite Es. cbn [s_width s_cps s_height s_comps]. split; [fold n; lia|]. split; [reflexivity|].
  destruct (comp_first cs tables _ _ _ _ Hlt eq_refl) as [t0 Ef]. rewrite <- Ecomps in Ef. split; [exists t0; exact Ef|].
  intros out x stride w' h' Hw' Hh' Hx Hst Hout H4c.
  assert (HR : reads_with lj dng codes n).
  { intros i Hi. rewrite Es. cbn [s_precision].
    assert (HIn : In (codes i) hs).
    { unfold codes. apply nth_In. assert (0 <= nth (Z.to_nat i) tables 0 < Z.of_nat (length hs)); [|lia].
      apply (proj1 (Forall_forall _ _) Hsel). apply nth_In. unfold n in Hi. lia. }
    split; [exact (proj1 (Forall_forall _ _) Hg _ HIn)|]. split.
    { intros Dt. exact (proj1 (Forall_forall _ _) (Hd Dt) _ HIn). }
    destruct (Et (Z.to_nat i) ltac:(unfold n in Hi; lia)) as [t [E1 E2]]. rewrite Z2Nat.id in E1 by lia. exists t. split; [exact E1|exact E2]. }
  destruct (components_ok lj dng codes n pic x stride w' h' out (stuff data ++ [255; 217] ++ tail) 32 (filler ++ repeat false 32)) as [out' [E' HP]].
  - lia.
  - rewrite Es, Ept. cbn [s_precision]. lia.
  - rewrite Es. cbn [s_precision]. lia.
  - rewrite Es. cbn [s_width]. lia.
  - exact HR.
  - exact Eb.
  - apply scan_readable; assumption.
  - rewrite Es, Ept. cbn [s_precision s_width s_height]. cbn [stream app]. rewrite unstuff_stuff by exact Hb. fold base. rewrite Ebits, <- app_assoc. reflexivity.
  - rewrite app_length, repeat_length. lia.
  - rewrite Es. exact Hpic.
  - rewrite Es, Ept. exact Hcod.
  - rewrite Es. exact Hw'.
  - rewrite Es. exact Hh'.
  - exact Hx.
  - exact Hst.
  - exact Hout.
  - exists out'. split; [|exact HP]. unfold ljpeg_decode. rewrite Es. cbn [s_comps s_cps]. rewrite Epr, Ef. cbn [bind c_super_h c_super_v].
    replace ((a =? 2) && (b =? 2)) with false by lia. replace ((a =? 2) && (b =? 1)) with false by lia. change (1 =? 1) with true. cbn iota.
    fold n. assert (n = 2 \/ n = 3 \/ n = 4) as [N|[N|N]] by lia; rewrite N in *.
    + exact E'.
    + exact E'.
    + destruct (H4c eq_refl) as [-> ->]. exact E'.
Qed.
