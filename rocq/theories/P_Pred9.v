(** Proofs about predictive formats: Nikon. *)
From Coq Require Import String ZArith List Bool Lia ZifyBool ZifyNat.
From Verif Require Import Base Bytes Pumps Huffman Packed Lookup Tiff Decoder Dec_Pred Dec_Nef Spec_Bits Spec_Pump Spec_Stream Spec_Image Spec_Huffman Spec_Ljpeg Spec_Pred Spec_Curve Spec_Nikon
  P_Base P_Bits P_Lookup P_Pumps P_Huff4 P_Huff5 P_Huff6 P_Ljpeg1 P_Ljpeg2 P_Ljpeg4 P_Pred1 P_Pred2 P_Pred3 P_Pred4 P_Pred7 P_Pred8.
Import ListNotations.
Local Open Scope Z_scope.
Ltac Zify.zify_post_hook ::= Z.div_mod_to_equations.

Lemma at_upto : forall n i, 0 <= i < n -> Spec_Curve.at_ (upto n) i = i.
Proof. intros n i H. unfold Spec_Curve.at_. rewrite upto_zrange. rewrite zrange_nth by lia. lia. Qed.
Lemma zlen_upto : forall n, 0 <= n -> zlen (upto n) = n.
Proof. intros n H. rewrite upto_zrange. unfold zlen. rewrite zrange_length. lia. Qed.
Lemma upto_samples : forall n, n <= 65536 -> samples (upto n).
Proof. intros n H. apply Forall_forall. intros x Hx. rewrite upto_zrange in Hx. apply zrange_In in Hx. unfold sample. lia. Qed.
Lemma above_upto : forall n i, 0 <= i < n -> Spec_Curve.above (upto n) i = Z.min (i + 1) (n - 1).
Proof.
  intros n i H. unfold Spec_Curve.above. change (Z.of_nat (length (upto n))) with (zlen (upto n)). rewrite zlen_upto by lia.
  destruct (i =? n - 1) eqn:E; rewrite at_upto; lia.
Qed.
Lemma below_upto : forall n i, 0 <= i < n -> below (upto n) i = Z.max (i - 1) 0.
Proof. intros n i H. unfold below. destruct (i =? 0) eqn:E; rewrite at_upto; lia. Qed.
Lemma upto_increasing : forall n, 0 <= n -> increasing (upto n).
Proof. intros n Hn i j Hi Hj. change (Z.of_nat (length (upto n))) with (zlen (upto n)) in Hj. rewrite zlen_upto in Hj by lia. rewrite !at_upto; lia. Qed.
Lemma upto_not_steep : forall n, 0 <= n -> not_too_steep (upto n).
Proof.
  intros n Hn i Hi Hz. change (Z.of_nat (length (upto n))) with (zlen (upto n)) in Hi. rewrite zlen_upto in Hi by lia.
  rewrite at_upto in * by lia. rewrite above_upto, below_upto by lia. lia.
Qed.

Section Main.
Context {M : Mode}.
Lemma meta_ok : forall e (a : bool) v0 v1 skipped x1 x2 x3 x4 points more curve,
  let note := nikon_note e v0 v1 skipped x1 x2 x3 x4 points more in
  zlen skipped = nikon_skipped v0 v1 -> sample x1 -> sample x2 -> sample x3 -> sample x4 -> samples points -> zlen points < 65536 ->
  nikon_curve v0 v1 (bits_of a) points curve -> increasing curve -> not_too_steep curve ->
  bytes note -> (v0 = 68 -> v1 = 32 -> 564 <= zlen note) ->
  samples curve /\ 0 <= zlen curve <= 32768 /\
  exists m, nef_meta_new note e (bits_of a) = Ok m /\ nf_select m = nikon_select a (v0 =? 70) /\ nf_curve m = map (entry curve) (zrange 0 (zlen curve)) /\
    nf_up1 m = (x1, x2) /\ nf_up2 m = (x3, x4) /\ nf_split m = nikon_second e v0 v1 note.
Proof.
  intros e a v0 v1 skipped x1 x2 x3 x4 points more curve note Hsk S1 S2 S3 S4 Hp Hpl Hc Ci Cn Hby H564. unfold nikon_curve in Hc.
  assert (Hmax : 2 ^ bits_of a = 4096 \/ 2 ^ bits_of a = 16384) by (destruct a; cbn; lia).
  assert (Cs : samples curve /\ 0 <= zlen curve <= 32768).
  { destruct Hc as [[_ ->]|[[_ [_ [L ->]]]|[_ [_ [step [Hst [Hsl ->]]]]]]].
    - split; [apply upto_samples; lia|rewrite zlen_upto; lia].
    - split; [exact Hp|unfold zlen; lia].
    - split.
      + apply Forall_forall. intros x Hx. apply in_map_iff in Hx. destruct Hx as [i [<- Hi]]. rewrite upto_zrange in Hi. apply zrange_In in Hi.
        apply (line_sample points step i Hp Hst). change (zlen points) with (Z.of_nat (length points)). lia.
      + rewrite zlen_map, zlen_upto by lia. lia. }
  split; [apply Cs|]. split; [apply Cs|]. destruct Cs as [Cs Cl].
  assert (A0 : At note 2 (skipped ++ flat_map (two_bytes e) ([x1; x2; x3; x4] ++ [Z.of_nat (length points)] ++ points) ++ more)).
  { exists [v0; v1]. split; reflexivity. }
  apply At_app in A0. rewrite Hsk in A0. cbn [app flat_map] in A0. rewrite <- !app_assoc in A0.
  destruct (nikon_table a (v0 =? 70)) as [t [Et _]].
  unfold nef_meta_new. unfold bs_get_u8 at 1, bs_peek_u8, bs_new. cbn [bsbuf bspos bsend].
  rewrite (At_get note 0 v0 (tl note)) by (exists []; split; reflexivity). cbn [bind].
  unfold bs_get_u8 at 1, bs_peek_u8. cbn [bsbuf bspos bsend].
  rewrite (At_get note (0 + 1) v1 (tl (tl note))) by (exists [v0]; split; reflexivity). cbn [bind].
  change (0 + 1 + 1) with 2.
  replace (if (v0 =? 73) || (v1 =? 88) then bs_consume (mkbs note 2 e) 2110 else mkbs note 2 e) with (mkbs note (2 + nikon_skipped v0 v1) e).
  2:{ unfold nikon_skipped. destruct ((v0 =? 73) || (v1 =? 88)); reflexivity. }
  replace ((if v0 =? 70 then 2 else 0) + (if bits_of a =? 14 then 3 else 0)) with (nikon_select a (v0 =? 70)).
  2:{ unfold nikon_select. destruct a; reflexivity. }
  rewrite Et. cbn [bind]. clear Et t.
  destruct (get16 _ _ _ _ _ S1 A0) as [E1 A1]. rewrite E1. cbn [bind]. clear E1 A0.
  destruct (get16 _ _ _ _ _ S2 A1) as [E1 A2]. rewrite E1. cbn [bind]. clear E1 A1.
  destruct (get16 _ _ _ _ _ S3 A2) as [E1 A3]. rewrite E1. cbn [bind]. clear E1 A2.
  destruct (get16 _ _ _ _ _ S4 A3) as [E1 A4]. rewrite E1. cbn [bind]. clear E1 A3.
  replace (shl_u 64 1 (bits_of a)) with (@Ok Z (2 ^ bits_of a)) by (destruct a; reflexivity). cbn [bind].
  replace (2 ^ bits_of a &&& 32767) with (2 ^ bits_of a) by (destruct a; reflexivity).
  assert (Hpn : 0 <= zlen points) by apply zlen_nonneg.
  destruct (get16 e note _ (zlen points) _ ltac:(lia) A4) as [E1 A5]. change (zlen points) with (Z.of_nat (length points)) in E1 at 1. cbv zeta. unfold zlen in E1. rewrite E1. cbn [bind]. clear E1 A4.
  set (pos := 2 + nikon_skipped v0 v1 + 2 + 2 + 2 + 2 + 2) in *. clearbody pos.
  change (Z.of_nat (length points)) with (zlen points). change (Z.of_nat (length points)) with (zlen points) in Hc.
  set (max := 2 ^ bits_of a) in *. clearbody max.
  assert (exists base, base = zrange 0 65536 /\ zlen base = 65536) as [base [Eb Lb]].
  { eexists. split; [reflexivity|]. unfold zlen. rewrite zrange_length. reflexivity. }
  assert (Hgo : exists points' max' split, (if (v0 =? 68) && (v1 =? 32) && (0 <? (if 1 <? zlen points then max / (zlen points - 1) else 0)) then
       points' <- nef_points_split (zlen points) (if 1 <? zlen points then max / (zlen points - 1) else 0) max (mkbs note pos e) ;;
       split <- ru16 e note 562 ;; Ok (points', max, split)
     else if negb (v0 =? 70) && (zlen points <=? 0x4001) then
       points' <- nef_points_plain (zlen points) (mkbs note pos e) ;; Ok (points', zlen points, 0)
     else Ok (zrange 0 65536, max, 0)) = Ok (points', max', split) /\ max' = zlen curve /\ zlen points' = 65536 /\
     (forall i, 0 <= i < max' -> znth points' i = Spec_Curve.at_ curve i) /\ split = nikon_second e v0 v1 note).
  { unfold nikon_second. destruct Hc as [[E70 Ec]|[[E70 [E68 [L Ec]]]|[E68 [E32 [step [Hst [Hsl Ec]]]]]]].
    - replace ((v0 =? 68) && (v1 =? 32)) with false by lia. cbn [andb]. replace (v0 =? 70) with true by lia. cbn [negb andb].
      exists base, max, 0. rewrite <- Eb. split; [reflexivity|]. subst curve. rewrite zlen_upto by lia. split; [reflexivity|]. split; [exact Lb|]. split; [|reflexivity].
      intros i Hi. rewrite at_upto by lia. rewrite Eb. unfold znth. rewrite zrange_nth by lia. lia.
    - replace ((v0 =? 68) && (v1 =? 32)) with false by lia. cbn [andb]. replace (v0 =? 70) with false by lia. cbn [negb andb].
      replace (zlen points <=? 16385) with true by lia.
      destruct (plain_ok e note pos points more base Hp ltac:(lia) Eb A5) as [v [Ev [Lv V]]]. rewrite Ev. cbn [bind].
      exists v, (zlen points), 0. subst curve. split; [reflexivity|]. split; [reflexivity|]. split; [lia|]. split; [exact V|reflexivity].
    - assert (Hn : 1 < zlen points) by nia. replace (1 <? zlen points) with true by lia.
      replace (max / (zlen points - 1)) with step by (rewrite <- Hsl; rewrite Z.div_mul by lia; reflexivity).
      replace ((v0 =? 68) && (v1 =? 32)) with true by lia. replace (0 <? step) with true by lia. cbn [andb].
      destruct (split_ok e note pos points more base step max Hp Hst Hsl ltac:(lia) ltac:(lia) Eb A5) as [v [Ev [Lv V]]]. rewrite Ev. cbn [bind].
      assert (E562 : ru16 e note 562 = Ok (if e then big_endian_value (sub_list note 562 2) else little_endian_value (sub_list note 562 2))).
      { specialize (H564 E68 E32). unfold ru16. destruct e; [rewrite BEu16_spec by (first [exact Hby|lia])|rewrite LEu16_spec by (first [exact Hby|lia])]; reflexivity. }
      rewrite E562. cbn [bind]. eexists _, _, _. split; [reflexivity|]. subst curve. rewrite zlen_map, zlen_upto by lia.
      split; [reflexivity|]. split; [lia|]. split; [|destruct e; reflexivity].
      intros i Hi. rewrite V by exact Hi. unfold Spec_Curve.at_ at 1.
      rewrite (nth_indep _ 0 (line points step 0)) by (rewrite map_length, upto_zrange, zrange_length; lia).
      change (fun i0 : Z => _) with (line points step). rewrite map_nth, upto_zrange, zrange_nth by lia. f_equal. lia. }
  destruct Hgo as [points' [max' [split [E [Em [Lp [V Esp]]]]]]]. rewrite E. cbn [bind]. subst max'.
  rewrite (slice_values points' curve) by (first [lia|exact V]). cbn [bind].
  rewrite lookup_new_ok by assumption. cbn [bind]. eexists. split; [reflexivity|]. cbn [nf_select nf_curve nf_up1 nf_up2 nf_split].
  repeat (split; [reflexivity|]). exact Esp.
Qed.

Theorem nikon_ok : forall tiff d en e (bits14 : bool) v0 v1 skipped x1 x2 x3 x4 points more curve src w h pic rest,
  let note := nikon_note e v0 v1 skipped x1 x2 x3 x4 points more in
  let start := nikon_start x1 x2 x3 x4 in
  let bps := if bits14 then 14 else 12 in
  fetch_ifd tiff T_NefMeta1 = Ok d -> i_endian d = e ->
  find_entry d T_NefMeta2 = Some en \/ find_entry d T_NefMeta2 = None /\ fetch_tag d T_NefMeta1 = Ok en -> e_data en = note -> bytes note ->
  Z.of_nat (length skipped) = nikon_skipped v0 v1 -> sample x1 -> sample x2 -> sample x3 -> sample x4 -> samples points -> Z.of_nat (length points) < 65536 ->
  nikon_curve v0 v1 bps points curve -> increasing curve -> not_too_steep curve ->
  (v0 = 68 -> v1 = 32 -> 564 <= Z.of_nat (length note)) -> nikon_second e v0 v1 note = 0 \/ h <= nikon_second e v0 v1 note ->
  0 < w -> Z.even w = true -> 0 <= h ->
  (forall r c, 0 <= r < h -> 0 <= c < w -> 0 <= pic r c < Z.of_nat (length curve) /\ Z.abs (step_of start pic r c) < 2 ^ bps) ->
  readable MSB src -> stream MSB src 0 = steps_coded (fun _ => code_of (nikon_code bits14 (v0 =? 70))) start pic w h ++ rest -> (32 <= length rest)%nat ->
  exists out, nef_decompress tiff src w h bps = Ok out /\
    is_image out w h (toned_picture curve pic w (number (firstn 24 (stream MSB src 0)))).
Proof.
  intros tiff d en e a v0 v1 skipped x1 x2 x3 x4 points more curve src w h pic rest note start bps
    Ed Ee En Edata Hby Hsk S1 S2 S3 S4 Hp Hpl Hc Ci Cn H564 Hsp Hw He Hh Hs Hrd Es Hr.
  apply Z.even_spec in He. destruct He as [m ->].
  destruct (meta_ok e a v0 v1 skipped x1 x2 x3 x4 points more curve Hsk S1 S2 S3 S4 Hp Hpl Hc Ci Cn Hby H564) as [Cs [Cl [mt [Em [Esel [Ecur [Eu1 [Eu2 Espl]]]]]]]].
  fold note in Em, Espl. unfold nef_decompress. rewrite Ed. cbn [bind].
  replace (match find_entry d T_NefMeta2 with Some m0 => Ok m0 | None => fetch_tag d T_NefMeta1 end) with (@Ok Tiff.entry en).
  2:{ destruct En as [-> | [-> ->]]; reflexivity. }
  cbn [bind]. rewrite Edata, Ee. change bps with (bits_of a). rewrite Em. cbn [bind].
  destruct (nikon_table a (v0 =? 70)) as [t [Et Ht]].
  apply (nef_rows_ok t (code_of (nikon_code a (v0 =? 70))) (fun d => -32768 <= d <= 32767 /\ has_word (bits_of a) (nikon_code a (v0 =? 70)) d)
    m h start pic curve (number (firstn 24 (stream MSB src 0)))) with (rest := rest).
  - exact Ht.
  - exact Cs.
  - exact Ci.
  - exact Cn.
  - lia.
  - intros r c Hr' Hc'. apply Hs; assumption.
  - intros r c _ _. unfold start, nikon_start. destruct (c =? 0), (r =? 0); assumption.
  - intros r c Hr' Hc'. apply nikon_words. apply Hs; assumption.
  - lia.
  - exact Hh.
  - pose proof (number_range (firstn 24 (stream MSB src 0))) as N. pose proof (Z.pow_le_mono_r 2 (Z.of_nat (length (firstn 24 (stream MSB src 0)))) 32 ltac:(lia)) as P.
    specialize (P ltac:(rewrite firstn_length; lia)). lia.
  - rewrite Esel. exact Et.
  - exact Ecur.
  - exact Eu1.
  - exact Eu2.
  - rewrite Espl. lia.
  - exact Hrd.
  - exact Es.
  - exact Hr.
  - reflexivity.
Qed.

(** Without loss: every pixel is the pixel that was coded, or one below. *)
Lemma toned_upto : forall n v noise, 0 <= v < n -> n <= 65536 -> 0 <= noise ->
  toned (upto n) v noise = if (v =? 0) || (v =? n - 1) then v else if noise mod 2048 <? 1536 then v - 1 else v.
Proof.
  intros n v noise Hv Hn Hz. unfold toned. rewrite at_upto, above_upto, below_upto by lia.
  destruct (v =? 0) eqn:E0; cbn [orb].
  - replace v with 0 by lia. destruct (n =? 1) eqn:En; [replace (Z.min (0 + 1) (n - 1)) with 0 by lia|replace (Z.min (0 + 1) (n - 1)) with 1 by lia]; replace (Z.max (0 - 1) 0) with 0 by lia; lia.
  - destruct (v =? n - 1) eqn:E1.
    + replace (Z.min (v + 1) (n - 1) - Z.max (v - 1) 0) with 1 by lia. lia.
    + replace (Z.min (v + 1) (n - 1) - Z.max (v - 1) 0) with 2 by lia. destruct (noise mod 2048 <? 1536) eqn:E2; lia.
Qed.
(** Every pixel is near the point of the curve. *)
Lemma toned_near : forall curve v noise, increasing curve -> samples curve -> 0 <= v < zlen curve -> 0 <= noise -> near curve v (toned curve v noise).
Proof.
  intros curve v noise Hi Hs Hv Hz. pose proof (below_le curve v Hi Hv). pose proof (below_sample curve v Hs Hv). pose proof (above_sample curve v Hs Hv).
  unfold near, toned. set (c := Spec_Curve.at_ curve v) in *. set (u := Spec_Curve.above curve v) in *. set (l := below curve v) in *. clearbody c u l.
  assert (B : 0 <= (u - l) * (noise mod 2048) <= (u - l) * 2047) by (split; [apply Z.mul_nonneg_nonneg; lia|apply Z.mul_le_mono_nonneg_l; lia]).
  set (pr := (u - l) * (noise mod 2048)) in *. clearbody pr.
  destruct (c =? 0) eqn:E.
  - exists ((pr + 1024) / 4096). replace c with 0 by lia. split; [reflexivity|]. lia.
  - exists ((pr + 1024) / 4096 - (u - l + 2) / 4). split; [f_equal; lia|]. lia.
Qed.
End Main.

(** A file without loss whose pixels come out one too low. *)
Definition lossless_note : Tiff.entry := mkentry T_NefMeta1 7 12 0 0 (nikon_note true 70 48 [] 1000 1000 1000 1000 [] []) true.
Definition lossless_bytes : list Z := [247; 128; 0; 0; 0; 0; 0; 0].
Lemma lossless_wrong : forall M : Mode, exists pic out rest, (forall r c, pic r c = 1000) /\
  stream MSB lossless_bytes 0 = steps_coded (fun _ => code_of (nikon_code false true)) (nikon_start 1000 1000 1000 1000) pic 2 1 ++ rest /\
  nef_decompress (mkifd [(T_NefMeta1, lossless_note)] [] 0 0 true) lossless_bytes 2 1 12 = Ok out /\ nth 0 out 0 = 999 /\ ~ is_image out 2 1 pic.
Proof.
  intros M. exists (fun _ _ => 1000).
  destruct (nikon_ok (mkifd [(T_NefMeta1, lossless_note)] [] 0 0 true) (mkifd [(T_NefMeta1, lossless_note)] [] 0 0 true) lossless_note true false 70 48 [] 1000 1000 1000 1000 [] []
    (upto 4096) lossless_bytes 2 1 (fun _ _ => 1000) (repeat false 54)) as [out [E I]].
  - reflexivity.
  - reflexivity.
  - right. split; reflexivity.
  - reflexivity.
  - apply Forall_forall. intros x Hx. cbn in Hx. unfold byte. lia.
  - reflexivity.
  - unfold sample. lia.
  - unfold sample. lia.
  - unfold sample. lia.
  - unfold sample. lia.
  - constructor.
  - cbn. lia.
  - left. split; reflexivity.
  - apply upto_increasing. lia.
  - apply upto_not_steep. lia.
  - intros H. discriminate H.
  - left. reflexivity.
  - lia.
  - reflexivity.
  - lia.
  - intros r c Hr Hc. change (Z.of_nat (length (upto 4096))) with (zlen (upto 4096)). rewrite zlen_upto by lia. split; [lia|].
    assert (r = 0) as -> by lia. assert (c = 0 \/ c = 1) as [-> | ->] by lia; reflexivity.
  - split; [apply Forall_forall; intros x Hx; cbn in Hx; unfold byte; lia|discriminate].
  - vm_compute. reflexivity.
  - apply Nat.leb_le. reflexivity.
  - destruct I as [L V]. specialize (V 0 0 ltac:(lia) ltac:(lia)). change (nth 0 out 0 = toned_picture (upto 4096) (fun _ _ => 1000) 2 (number (firstn 24 (stream MSB lossless_bytes 0))) 0 0) in V.
    unfold toned_picture in V. change (noise_after (Z.to_nat (0 * 2 + 0)) (number (firstn 24 (stream MSB lossless_bytes 0)))) with (number (firstn 24 (stream MSB lossless_bytes 0))) in V.
    replace (number (firstn 24 (stream MSB lossless_bytes 0))) with 16220160 in V by (vm_compute; reflexivity).
    rewrite toned_upto in V by lia. change (nth 0 out 0 = 999) in V.
    exists out, (repeat false 54). split; [reflexivity|]. split; [vm_compute; reflexivity|]. split; [exact E|]. split; [exact V|].
    intros [_ J]. specialize (J 0 0 ltac:(lia) ltac:(lia)). change (nth 0 out 0 = 1000) in J. lia.
Qed.
