(** Proofs about the size of decoded images (C45): the decompressors. *)
From Coq Require Import String ZArith List Bool Lia ZifyBool ZifyNat.
From Verif Require Import Base Num F32 Bytes Pumps Huffman Threads Lookup Packed Ljpeg Tiff Image Camera Arw Raf Mos Cr2 Decoder.
From Verif Require Import Dec_Simple Dec_Header Dec_Crw Dec_Pred Dec_Nef Dec_Ljpeg.
From Verif Require Import Spec_Bits P_Base P_Threads P_Always.
Import ListNotations.
Local Open Scope Z_scope.

Ltac fold_with I := first
  [ eapply (always_bindP I); [apply always_rfold; [intros ? ? ? ?; pairs|]|intros ? ?; pairs]
  | apply (always_rfold I); [intros ? ? ? ?; pairs|] ].
Section Shape.
Context {M : Mode}.

(** ** Lossless JPEG *)
Lemma first_pixel_pic : forall ts base n out pos p, pic n out -> always (fun '(o, _) => pic n o) (first_pixel ts base out pos p).
Proof. induction ts as [|t ts IH]; intros base n out pos p P; cbn [first_pixel]; [apply always_Ok; exact P|]. sh. Qed.
Lemma next_pixel_pic : forall ts n out from to p, pic n out -> always (fun '(o, _) => pic n o) (next_pixel ts out from to p).
Proof.
  intros. unfold next_pixel. do 2 sh1. apply (always_bindP (Forall sample)); [apply always_mapM; intros [? ?] _; sh|]. intros vs V. sh.
Qed.
Hint Resolve first_pixel_pic next_pixel_pic : shape.
Lemma components_pic : forall k lj n out x sw w h, pic n out -> always (pic n) (decode_components k lj out x sw w h).
Proof.
  intros. unfold decode_components. sh. fold_with (fun s : list Z * pump => let '(o, _) := s in pic n o); [|assumption|sh].
  sh. fold_with (fun s : list Z * pump => let '(o, _) := s in pic n o); [sh|assumption|skip; sh].
Qed.
Lemma set_420_pic : forall n out row col w a b c d e f, pic n out -> always (pic n) (set_yuv_420 out row col w a b c d e f).
Proof. intros. unfold set_yuv_420. sh. Qed.
Lemma set_422_pic : forall n out row col w a b c d, pic n out -> always (pic n) (set_yuv_422 out row col w a b c d).
Proof. intros. unfold set_yuv_422. sh. Qed.
Hint Resolve set_420_pic set_422_pic : shape.
Lemma block_420_pic : forall t1 t2 t3 n out row col w a b c p, pic n out -> always (fun '(o, _) => pic n o) (block_420 t1 t2 t3 out row col w a b c p).
Proof. intros. unfold block_420. sh. Qed.
Lemma block_422_pic : forall t1 t2 t3 n out row col w a b c p, pic n out -> always (fun '(o, _) => pic n o) (block_422 t1 t2 t3 out row col w a b c p).
Proof. intros. unfold block_422. sh. Qed.
Hint Resolve components_pic block_420_pic block_422_pic : shape.
Lemma ljpeg_420_pic : forall lj n out w h, pic n out -> always (pic n) (decode_ljpeg_420 lj out w h).
Proof.
  intros. unfold decode_ljpeg_420. sh. fold_with (fun s : list Z * pump => let '(o, _) := s in pic n o); [|assumption|sh].
  sh. fold_with (fun s : list Z * pump => let '(o, _) := s in pic n o); [sh|assumption].
Qed.
Lemma ljpeg_422_pic : forall lj n out w h, pic n out -> always (pic n) (decode_ljpeg_422 lj out w h).
Proof.
  intros. unfold decode_ljpeg_422. sh. fold_with (fun s : list Z * pump => let '(o, _) := s in pic n o); [|assumption|sh].
  sh. fold_with (fun s : list Z * pump => let '(o, _) := s in pic n o); [sh|assumption].
Qed.
Lemma map_state_pic : forall {S} (f : list Z -> S -> res (list Z * S)), (forall c s n, pic n c -> always (fun '(o, _) => pic n o) (f c s)) ->
  forall cs s n, pic n (concat cs) -> always (fun '(o, _) => pic n o) (map_state f cs s).
Proof.
  intros S f F cs. induction cs as [|c cs IH]; intros s n [L P]; cbn [map_state concat] in *; [apply always_Ok; split; assumption|].
  apply Forall_app in P. destruct P as [P1 P2]. eapply always_bindP; [apply (F c s (zlen c)); split; [reflexivity|exact P1]|]. intros [o s'] Ho.
  eapply always_bindP; [apply (IH s' (zlen (concat cs))); split; [reflexivity|exact P2]|]. intros [r s''] Hr. apply always_Ok.
  rewrite zlen_app in L. subst n. apply pic_app; assumption.
Qed.
Lemma hasselblad_pic : forall lj n out w, 0 <= w -> pic n out -> always (pic n) (decode_hasselblad lj out w).
Proof.
  intros lj n out w W P. unfold decode_hasselblad. sh1. sh1; [sh|]. eapply always_bindP.
  - apply (map_state_pic (fun line p => '(line, (_, _, p)) <- map_state (hasselblad_pair a) (chunks 2 line) (0x8000, 0x8000, p) ;; Ok (line, p)) ).
    + intros c s m Pc. eapply always_bindP; [apply (map_state_pic (hasselblad_pair a)); [|rewrite chunks_concat by lia; exact Pc]|].
      * intros c' s' m' Pc'. unfold hasselblad_pair. destruct s' as [[p1 p2] p]. sh.
      * intros [l [[? ?] ?]] Hl. apply always_Ok. exact Hl.
    + rewrite chunks_concat by lia. exact P.
  - intros [o p] Ho. apply always_Ok. exact Ho.
Qed.
Hint Resolve ljpeg_420_pic ljpeg_422_pic hasselblad_pic : shape.
Lemma ljpeg_pic : forall lj n out x sw w h, 0 <= w -> pic n out -> always (pic n) (ljpeg_decode lj out x sw w h).
Proof. intros. unfold ljpeg_decode. sh. Qed.
Lemma leaf_pic : forall lj w h, 0 <= w -> 0 <= h -> always (pic (w * h)) (decode_leaf lj w h).
Proof.
  intros lj w h W H. unfold decode_leaf. sh. apply multiline_pic; try lia. intros m line row R P. sh. apply always_unwrap.
  unfold decode_leaf_strip. sh. fold_with (fun s : list Z * pump => let '(o, _) := s in pic m o); [|assumption|sh].
  sh. fold_with (fun s : list Z * pump => let '(o, _) := s in pic m o); [sh|assumption].
Qed.
(** ** Other formats *)
Lemma arw1_column_pic : forall fuel w h col row p sum n out, pic n out -> always (fun '(_, _, o) => pic n o) (arw1_column fuel w h col row p sum out).
Proof. induction fuel as [|f IH]; intros; cbn [arw1_column]; sh. Qed.
Hint Resolve arw1_column_pic : shape.
Lemma arw1_pic : forall buf w h, 0 <= w -> 0 <= h -> always (pic (w * h)) (decode_arw1 buf w h).
Proof.
  intros. unfold decode_arw1. fold_with (fun s : pump * Z * list Z => let '(_, _, o) := s in pic (w * h) o); [sh|apply pic_zeros; nia|sh].
Qed.
Lemma arw2_pic : forall buf w h curve, 0 <= w -> 0 <= h -> always (pic (w * h)) (decode_arw2 buf w h curve).
Proof.
  intros. unfold decode_arw2. apply threaded_pic; try lia. intros m line row R P. sh. unfold arw2_line.
  assert (G : forall cs st, pic m (snd st ++ concat cs) -> always (fun st => pic m (snd st)) (rfold (fun piece '(p, random, done) =>
      '(p, random, piece) <- rfold (arw2_half curve) (zrange 0 2) (p, random, piece) ;; Ok (p, random, done ++ piece)) cs st)).
  { induction cs as [|c cs IH]; intros [[p0 r0] done] D; cbn [rfold concat snd] in *; [apply always_Ok; cbn; rewrite app_nil_r in D; exact D|].
    destruct D as [L F]. apply Forall_app in F. destruct F as [F1 F2]. apply Forall_app in F2. destruct F2 as [F2 F3].
    eapply always_bindP; [eapply (always_bindP (fun s : pump * Z * list Z => let '(_, _, o) := s in pic (zlen c) o))|].
    - apply always_rfold; [|split; [reflexivity|exact F2]]. intros j [[p1 r1] o] _ Po. unfold arw2_half. sh.
      fold_with (fun s : pump * Z * list Z => let '(_, _, o) := s in pic (zlen c) o); [sh|assumption].
    - intros [[p1 r1] o] Po. apply always_Ok. 
      instantiate (1 := fun st => exists o, snd st = done ++ o /\ pic (zlen c) o). exists o. split; [reflexivity|exact Po].
    - intros [[p1 r1] d] [o [E Po]]. apply IH. cbn [snd] in *. subst d. rewrite !zlen_app in L. split.
      + destruct Po as [Lo _]. rewrite !zlen_app. lia.
      + destruct Po as [_ Fo]. rewrite !Forall_app. tauto. }
  eapply always_bindP; [apply G; cbn [snd]; rewrite app_nil_l, chunks_concat by lia; exact P|]. intros [[? ?] d] D. apply always_Ok. exact D.
Qed.

Lemma iiq_line_pic : forall n w col st, always (pic (Z.of_nat n)) (iiq_line n w col st).
Proof.
  induction n as [|n IH]; intros w col st; cbn [iiq_line]; [apply always_Ok; split; [reflexivity|constructor]|].
  apply (always_bindP (fun '(v, _) => sample v)).
  - unfold iiq_pixel. destruct st as [[p [p0 p1]] [l0 l1]]. sh.
  - intros [v st'] V. apply (always_bindP _ _ _ _ (IH w (col + 1) st')). intros r [L F]. apply always_Ok. split; [unfold zlen in *; cbn [length]; lia|constructor; assumption].
Qed.
Lemma iiq_pic : forall buf a b w h, 0 <= w -> 0 <= h -> always (pic (w * h)) (iiq_decompress buf a b w h).
Proof.
  intros. unfold iiq_decompress. apply threaded_pic; try lia. intros m line row R [L F]. sh. eapply always_imp; [apply iiq_line_pic|]. intros x [X Y]. split; [unfold zlen in *; lia|exact Y].
Qed.
Lemma put_pair_pic : forall n out i a b, pic n out -> always (pic n) (put_pair out i a b).
Proof. intros. unfold put_pair. sh. Qed.
Hint Resolve put_pair_pic : shape.
Lemma pef_pic : forall t src w h, 0 <= w -> 0 <= h -> always (pic (w * h)) (pef_rows t src w h).
Proof.
  intros. unfold pef_rows. fold_with (fun s : list Z * list Z * pump * list Z => let '(_, _, _, o) := s in pic (w * h) o); [|apply pic_zeros; nia|sh].
  sh. fold_with (fun s : Z * Z * pump * list Z => let '(_, _, _, o) := s in pic (w * h) o); [sh|assumption|sh].
Qed.
Lemma orf_pixel_pic : forall w row col s diff low lft nw n out, pic n out -> always (fun '(_, _, o) => pic n o) (orf_pixel w row col s diff low lft nw out).
Proof. intros. unfold orf_pixel. sh. Qed.
Hint Resolve orf_pixel_pic : shape.
Lemma orf_step_pic : forall w row col s st p n out, pic n out -> always (fun '(_, _, _, _, _, _, o) => pic n o) (orf_step w row col s st p out).
Proof. intros. unfold orf_step. pairs. sh. Qed.
Hint Resolve orf_step_pic : shape.
Lemma orf_pic : forall buf w h, 0 <= w -> 0 <= h -> always (pic (w * h)) (orf_decompress buf w h).
Proof.
  intros. unfold orf_decompress. sh1. fold_with (fun s : Z * Z * Z * Z * pump * list Z => let '(_, _, _, _, _, o) := s in pic (w * h) o); [|apply pic_zeros; nia|sh].
  fold_with (fun s : (Z * Z * Z * Z * Z) * (Z * Z * Z * Z * Z) * pump * list Z => let '(_, _, _, o) := s in pic (w * h) o); [sh|assumption|sh].
Qed.
Lemma pana_pixel_pic : forall i st n, pic n (snd st) -> always (fun st => pic n (snd st)) (pana_pixel i st).
Proof. intros i [[[[p sh0] preds] nonzs] out] n P. cbn [snd] in P. unfold pana_pixel. sh. Qed.
(** Pieces put together again *)
Lemma grow : forall {S} (f : list Z -> S * list Z -> res (S * list Z)) cs st n,
  (forall c s done, always (fun '(_, d) => exists o, d = done ++ o /\ (Forall sample c -> pic (zlen c) o)) (f c (s, done))) ->
  pic n (snd st ++ concat cs) -> always (fun st => pic n (snd st)) (rfold f cs st).
Proof.
  intros S f cs. induction cs as [|c cs IH]; intros [s done] n F P; cbn [rfold concat snd] in *; [apply always_Ok; cbn; rewrite app_nil_r in P; exact P|].
  eapply always_bindP; [apply F|]. intros [s' d] [o [E Po]]. apply IH; [exact F|]. cbn [snd]. subst d. destruct P as [L P]. rewrite !Forall_app in P. destruct P as [P1 [P2 P3]].
  destruct (Po P2) as [Lo Fo]. rewrite !zlen_app in L. split; [rewrite !zlen_app; lia|]. rewrite !Forall_app. tauto.
Qed.
Lemma pana_pic : forall buf w h split, 0 <= w -> 0 <= h -> always (pic (w * h)) (pana_decompress buf w h split).
Proof.
  intros. unfold pana_decompress. apply multiline_pic; try lia. intros m line row R P. sh1. skip.
  eapply always_bindP; [apply (grow pana_group) with (n := m)|].
  - intros c [p0 s0] done. unfold pana_group. apply always_bind. intros [[[[p1 s1] pr] nz] o] E. apply always_Ok. exists o. split; [reflexivity|]. intros F.
    eapply (always_rfold (fun st => pic (zlen c) (snd st))) in E; [exact E| |split; [reflexivity|exact F]]. intros. apply pana_pixel_pic. assumption.
  - cbn [snd]. rewrite app_nil_l, chunks_concat by lia. exact P.
  - intros [[? ?] d] D. apply always_Ok. exact D.
Qed.
Lemma nef_put_pic : forall c n out i a b r, pic n out -> always (fun '(o, _) => pic n o) (nef_put c out i a b r).
Proof. intros. unfold nef_put. sh. Qed.
Hint Resolve nef_put_pic : shape.
Lemma nef_pic : forall m src w h bps, 0 <= w -> 0 <= h -> always (pic (w * h)) (nef_rows m src w h bps).
Proof.
  intros. unfold nef_rows. sh. fold_with (fun s : hufftable * list Z * list Z * pump * Z * list Z => let '(_, _, _, _, _, o) := s in pic (w * h) o); [|apply pic_zeros; nia|sh].
  sh. fold_with (fun s : Z * Z * pump * Z * list Z => let '(_, _, _, _, o) := s in pic (w * h) o); [sh|assumption|sh].
Qed.
Lemma snef_pixel_pic : forall c r b y cb cr rnd, always (fun '(l, _) => Forall sample l) (snef_pixel c r b y cb cr rnd).
Proof. intros. unfold snef_pixel. sh. constructor; [apply sample_u16|constructor; [assumption|constructor; [apply sample_u16|constructor]]]. Qed.
Lemma rfold_upd_pic : forall (l : list (Z * Z)) n o, Forall (fun p => sample (snd p)) l -> pic n o -> always (pic n) (rfold (fun '(i, v) o => upd o i v) l o).
Proof.
  intros l n o F P. apply always_rfold; [|exact P]. intros [i v] s I Ps. apply pic_upd; [exact Ps|]. rewrite Forall_forall in F. apply (F (i, v)). exact I.
Qed.
Lemma snef_pic : forall powf t src w h, 0 <= w -> 0 <= h -> always (pic (w * 3 * h)) (snef_decompress powf t src w h).
Proof.
  intros powf t src w h W Hh. unfold snef_decompress. sh1. sh1. apply threaded_pic; try lia. intros m line row R P. sh1. sh1. apply always_bind. intros [rnd done] E. apply always_Ok.
  assert (G : forall cs r d rnd' done', pic (zlen d) d -> (length d + length (concat cs) <= length line)%nat -> Forall (Forall sample) cs ->
    forall ins, rfold (snef_group a0 (f32_to (- 2 ^ 31) (2 ^ 31 - 1) (fdiv (flit 1024 1) (e0 a))) (f32_to (- 2 ^ 31) (2 ^ 31 - 1) (fdiv (flit 1024 1) (e2 a)))) (combine cs ins) (r, d) = Ok (rnd', done') ->
    pic (zlen done') done' /\ (length done' <= length line)%nat).
  { induction cs as [|c cs IH]; intros r d rnd' done' [_ D] L F ins H; cbn [combine] in H.
    - cbn [rfold] in H. injection H as <- <-. cbn in L. split; [split; [reflexivity|exact D]|lia].
    - destruct ins as [|i ins]; cbn [rfold] in H; [injection H as <- <-; split; [split; [reflexivity|exact D]|lia]|].
      apply bind_inv in H. destruct H as [[r1 d1] [E1 H]]. inversion F as [|x y Fc Ft]; subst. cbn [concat] in L. rewrite app_length in L.
      assert (exists o, d1 = d ++ o /\ pic (zlen c) o) as [o [-> [Lo Fo]]].
      { cbn [snef_group] in E1. do 6 (apply bind_inv in E1; destruct E1 as [? [_ E1]]).
        apply bind_inv in E1. destruct E1 as [[p1 r2] [X1 E1]]. apply bind_inv in E1. destruct E1 as [[p2 r3] [X2 E1]].
        apply bind_inv in E1. destruct E1 as [o [X3 E1]]. injection E1 as <- <-. exists o. split; [reflexivity|].
        apply snef_pixel_pic in X1. apply snef_pixel_pic in X2. eapply rfold_upd_pic; [|split; [reflexivity|exact Fc]|exact X3].
        apply Forall_forall. intros [k v] I. apply enumerate_In in I. destruct I as [_ I]. cbn. apply in_app_or in I. rewrite Forall_forall in X1, X2. destruct I; auto. }
      eapply IH; [| |exact Ft|exact H].
      + split; [reflexivity|]. apply Forall_app. split; assumption.
      + unfold zlen in Lo. rewrite app_length. lia. }
  destruct P as [L F]. apply G in E; [|split; [reflexivity|constructor]|rewrite chunks_concat by lia; cbn; lia|apply chunks_all; [lia|exact F]].
  destruct E as [[_ D] Ld]. split; [rewrite zlen_app; unfold zlen in *; rewrite skipn_length; lia|]. apply Forall_app. split; [exact D|apply Forall_skipn; exact F].
Qed.
Lemma srw1_pixel_pic : forall w img col c dir l up lft st n, pic n (snd st) -> always (fun st => pic n (snd st)) (srw1_pixel w img col c dir l up lft st).
Proof. intros w img col c dir l up lft [p out] n P. cbn [snd] in P. unfold srw1_pixel. sh. Qed.
Lemma srw1_group_pic : forall w row col st n, pic n (snd st) -> always (fun st => pic n (snd st)) (srw1_group w row col st).
Proof.
  intros w row col [[p lens] out] n P. cbn [snd] in P. unfold srw1_group. sh. skip.
  do 2 (fold_with (fun s : pump * list Z => pic n (snd s)); [sh1; apply srw1_pixel_pic; assumption|assumption|]). cbn [snd] in *. sh.
Qed.
Lemma swap_pic : forall n out i j, pic n out -> always (pic n) (swap out i j).
Proof. intros. unfold swap. sh. Qed.
Lemma srw1_pic : forall buf lo w h, 0 <= w -> 0 <= h -> always (pic (w * h)) (decode_srw1 buf lo w h).
Proof.
  intros. unfold decode_srw1. fold_with (pic (w * h)); [|apply pic_zeros; nia|].
  - sh. fold_with (fun s : pump * list Z * list Z => pic (w * h) (snd s)); [apply srw1_group_pic; assumption|assumption|]. cbn [snd] in *. sh.
  - fold_with (pic (w * h)); [|assumption]. fold_with (pic (w * h)); [|assumption]. apply swap_pic. assumption.
Qed.
Lemma srw2_pic : forall buf w h, 0 <= w -> 0 <= h -> always (pic (w * h)) (decode_srw2 buf w h).
Proof.
  intros. unfold decode_srw2. fold_with (fun s : list Z * list Z * pump * list Z => let '(_, _, _, o) := s in pic (w * h) o); [|apply pic_zeros; nia|sh].
  fold_with (fun s : list Z * list Z * pump * list Z => let '(_, _, _, o) := s in pic (w * h) o); [|assumption]. unfold srw2_pixel. sh.
Qed.
Lemma u16add_sample : forall a b, always sample (u16add a b).
Proof. intros a b v E. unfold u16add in E. apply arith_u_range in E; [|lia]. unfold sample. lia. Qed.
Hint Resolve u16add_sample pic_get : shape.
Lemma half_sample : forall v, sample v -> sample (v >>> 1).
Proof. intros v H. unfold sample in *. rewrite Z.shiftr_div_pow2 by lia. change (2 ^ 1) with 2. lia. Qed.
Hint Resolve half_sample : shape.
Lemma srw3_reference_pic : forall w row col motion iv n out, sample iv -> pic n out -> always (pic n) (srw3_reference w row col motion iv out).
Proof.
  intros. unfold srw3_reference. cbv zeta. sh1; [|sh1; [sh|sh1; sh1]]; fold_with (pic n); try assumption.
  - apply (always_bindP sample); [sh|]. intros v V. sh.
  - apply (always_bindP sample); [|intros v V; sh]. sh1; [|eapply pic_get; eassumption]. sh.
Qed.
Lemma srw3_pic : forall buf w h, 0 <= w -> 0 <= h -> always (pic (w * h)) (decode_srw3 buf w h).
Proof.
  intros. unfold decode_srw3. apply (always_bindP (fun '(_, _, iv, _) => sample iv)); [unfold srw3_header; sh|]. intros [[[bd of] iv] p0] IV.
  fold_with (fun s : Z * pump * list Z => let '(_, _, o) := s in pic (w * h) o); [|apply pic_zeros; nia|sh].
  sh. fold_with (fun s : pump * Z * Z * list (Z * Z) * list Z => let '(_, _, _, _, o) := s in pic (w * h) o); [|assumption|sh].
  unfold srw3_group. sh1. sh1. eapply always_bindP; [apply srw3_reference_pic; [exact IV|eassumption]|]. intros o1 Ho1. sh1. sh1.
  unfold srw3_diffs. fold_with (fun s : pump * list Z => let '(_, o) := s in pic (w * h) o); [sh|assumption|sh].
Qed.
End Shape.
