(** Proofs about whole files: opening one ends, and no panic escapes (C26, C27). *)
From Coq Require Import String ZArith List Bool Lia ZifyBool ZifyNat.
From Verif Require Import Base Num F32 Bytes Ljpeg Tiff Ciff Camera CameraData Clients Image Decoder Dec_Simple Dec_Header Dec_Crw Dec_Pred Dec_Nef Dec_Ljpeg Dispatch.
From Verif Require Import Spec_Bits Spec_Dispatch Spec_Ends P_Base P_Bits P_Tiff2 P_Tiff3 P_Ends1 P_Ends2 P_Ends3 P_Ends4 P_Ends5 P_Dispatch.
Import ListNotations.
Local Open Scope Z_scope.
Ltac Zify.zify_post_hook ::= Z.div_mod_to_equations.

Section Whole.
Context {M : Mode}.

Lemma u32add_cases : forall a b v, 0 <= a < 2 ^ 32 -> 0 <= b -> u32add a b = Ok v -> v = (a + b) mod 2 ^ 32 /\ (debug = true -> a + b < 2 ^ 32).
Proof.
  intros a b v A B H. unfold u32add, arith_u in H. destruct ((0 <=? a + b) && (a + b <? 2 ^ 32)) eqn:E.
  - apply Ok_inj' in H. subst v. rewrite Z.mod_small; lia.
  - destruct debug eqn:D; [discriminate|]. apply Ok_inj' in H. subst v. split; [reflexivity|discriminate].
Qed.
(** A scan that uses all its turns stood still at some block. *)
Lemma mrw_scan_loop : forall fuel buf limit pos m, bytes buf -> 0 <= pos -> (Z.to_nat (zlen buf - pos) < fuel)%nat ->
  minolta_block buf limit pos -> mrw_scan fuel buf limit pos m = Loop ->
  debug = false /\ exists pos, minolta_block buf limit pos /\ pos + 20 < limit /\ BEu32 buf (pos + 4) = Ok (2 ^ 32 - 8).
Proof.
  induction fuel as [|n IH]; intros buf limit pos m B P F C H; [lia|]. cbn [mrw_scan] in H.
  destruct (pos + 20 <? limit) eqn:L; [|discriminate].
  destruct (BEu32 buf pos) as [tag|? | |] eqn:Et; cbn [bind] in H; try discriminate.
  2: { exfalso. apply (ends_BEu32 buf pos). exact Et. }
  destruct (BEu32 buf (pos + 4)) as [len|? | |] eqn:El; cbn [bind] in H; try discriminate.
  2: { exfalso. apply (ends_BEu32 buf (pos + 4)). exact El. }
  destruct (mrw_block buf pos tag m) as [m2|? | |] eqn:Em; cbn [bind] in H; try discriminate.
  2: { exfalso. apply (ends_mrw_block buf pos tag m). exact Em. }
  pose proof (ru32_range true _ _ _ B El) as R.
  destruct (u32add len 8) as [step|? | |] eqn:Es; cbn [bind] in H; try discriminate.
  2: { exfalso. apply (ends_u32add len 8). exact Es. }
  destruct (u32add_cases len 8 step ltac:(change (2 ^ 32) with 4294967296; lia) ltac:(lia) Es) as [S D].
  assert (Q : pos < zlen buf).
  { destruct (Z_lt_le_dec pos (zlen buf)); [assumption|]. rewrite BEu32_oob in Et by lia. discriminate. }
  destruct (Z.eq_dec step 0) as [Z0|Z0].
  - assert (len = 2 ^ 32 - 8) by (change (2 ^ 32) with 4294967296 in *; lia). subst len. split.
    + destruct debug; [|reflexivity]. specialize (D eq_refl). lia.
    + exists pos. split; [exact C|split; [lia|exact El]].
  - apply IH in H; [exact H|exact B|lia|lia|]. rewrite S. eapply next_block; [exact C|lia|exact El].
Qed.
(** Standing still, it does so for ever. *)
Lemma mrw_scan_stuck : forall fuel buf limit pos m tag, debug = false -> pos + 20 < limit -> BEu32 buf pos = Ok tag ->
  BEu32 buf (pos + 4) = Ok (2 ^ 32 - 8) -> ~ In tag [0x505244; 0x574247; 0x545457] -> mrw_scan fuel buf limit pos m = Loop.
Proof.
  induction fuel as [|n IH]; intros buf limit pos m tag D L T E N; [reflexivity|]. cbn [mrw_scan]. replace (pos + 20 <? limit) with true by lia.
  rewrite T. cbn [bind]. rewrite E. cbn [bind]. unfold mrw_block. cbn in N.
  destruct (Z.eqb_spec tag 0x505244); [subst; tauto|]. destruct (Z.eqb_spec tag 0x574247); [subst; tauto|]. destruct (Z.eqb_spec tag 0x545457); [subst; tauto|]. cbn [bind].
  unfold u32add, arith_u. change ((0 <=? 2 ^ 32 - 8 + 8) && (2 ^ 32 - 8 + 8 <? 2 ^ 32)) with false. rewrite D. cbv iota. cbn [bind].
  replace (pos + (2 ^ 32 - 8 + 8) mod 2 ^ 32) with pos by (change ((2 ^ 32 - 8 + 8) mod 2 ^ 32) with 0; lia). apply IH with (tag := tag); assumption.
Qed.
Lemma mrw_new_loop : forall file, bytes file -> container_of file Minolta -> mrw_new (buffer_new file) = Loop -> debug = false /\ minolta_trap file.
Proof.
  intros file B C H. pose proof (bytes_buffer file B) as B2. unfold mrw_new in H.
  destruct (BEu32 (buffer_new file) 4) as [o|? | |] eqn:Eo; cbn [bind] in H; try discriminate.
  2: { exfalso. apply (ends_BEu32 _ _ Eo). }
  pose proof (ru32_range true _ _ _ B2 Eo) as R.
  destruct (u32add o 8) as [off|? | |] eqn:Es; cbn [bind] in H; try discriminate.
  2: { exfalso. apply (ends_u32add o 8). exact Es. }
  destruct (u32add_cases o 8 off ltac:(change (2 ^ 32) with 4294967296; lia) ltac:(lia) Es) as [S D].
  destruct (mrw_scan _ _ _ _ _) as [m|? | |] eqn:Em; cbn [bind] in H; try discriminate.
  - exfalso. destruct (slice_from _ _) as [sub|? | |] eqn:E1; cbn [bind] in H; try discriminate; [|exact (ends_slice_from _ _ E1)].
    destruct (unwrap _) as [t|? | |] eqn:E2; cbn [bind] in H; try discriminate. revert E2. apply ends_unwrap. apply ends_ifd_new.
  - apply mrw_scan_loop in Em; [|exact B2|lia|unfold zlen; lia|constructor]. destruct Em as [Db [pos [Hb [Hl He]]]]. split; [exact Db|]. split; [exact C|].
    exists o, pos. rewrite S in *. auto.
Qed.

Context (powf : f32 -> f32 -> f32) (parse_f32 : string -> option f32).
Lemma ends_by_size : forall l s, ends (by_size l s). Proof. intros; unfold by_size; et. Qed.
Lemma ends_by_tiff : forall l s t, ends (by_tiff l s t).
Proof. intros; unfold by_tiff. pose proof (ends_by_size l s). et. Qed.
Lemma ends_decoder_image : forall l buf d, bytes buf -> ends (decoder_image powf parse_f32 l buf d).
Proof. intros l buf d B. unfold decoder_image. destruct d; et. Qed.
Lemma get_decoder_loop : forall l file, bytes file -> get_decoder l (buffer_new file) (zlen file) = Loop -> debug = false /\ minolta_trap file.
Proof.
  intros l file B H. destruct (container_exactly file B) as [c [C _]]. rewrite (get_decoder_by l file c B C) in H. destruct c.
  - apply mrw_new_loop; [exact B|exact C|]. destruct (mrw_new _); cbn [bind] in H; try discriminate. reflexivity.
  - exfalso. revert H. apply ends_bind; [apply ends_cifd_new_file|intros; et].
  - discriminate.
  - exfalso. revert H. apply ends_bind; [et|intros; et].
  - exfalso. unfold by_content in H. pose proof (ends_ifd_new_file (buffer_new file)) as K. destruct (ifd_new_file _); [exact (ends_by_tiff _ _ _ H)|exact (ends_by_size _ _ H)|discriminate|exact (K eq_refl)].
Qed.
Theorem decode_loop : forall l file, bytes file -> decode powf parse_f32 l file = Loop -> debug = false /\ minolta_trap file.
Proof.
  intros l file B H. unfold decode in H. cbv zeta in H. destruct (get_decoder _ _ _) as [d|? | |] eqn:E; cbn [bind] in H; try discriminate.
  - exfalso. exact (ends_decoder_image l _ d (bytes_buffer _ B) H).
  - eapply get_decoder_loop; [exact B|exact E].
Qed.
Theorem lib_decode_answer : forall db file, bytes file -> (exists l, loader_new db = Ok l) ->
  (exists img, lib_decode powf parse_f32 db file = Ok img) \/ (exists m, lib_decode powf parse_f32 db file = Err m) \/
  (debug = false /\ minolta_trap file).
Proof.
  intros db file B [l L]. unfold lib_decode. rewrite L. cbn [bind]. unfold decode_safe.
  destruct (decode powf parse_f32 l file) as [img|m| |] eqn:E; eauto. right. right. eapply decode_loop; [exact B|exact E].
Qed.
Theorem lib_decode_no_panic : forall db file, (exists l, loader_new db = Ok l) -> lib_decode powf parse_f32 db file <> Panic.
Proof. intros db file [l L]. unfold lib_decode. rewrite L. cbn [bind]. unfold decode_safe. destruct (decode powf parse_f32 l file); discriminate. Qed.
End Whole.

(** A file whose second block is its first one *)
Definition trap : list Z := 0 :: codes "MRM" ++ [0; 0; 0; 100; 0; 0; 0; 0; 255; 255; 255; 248] ++ zeros 30.
Lemma trap_bytes : bytes trap.
Proof. unfold trap, codes. cbn. repeat (constructor; [unfold byte; lia|]). constructor. Qed.
Lemma trap_minolta : container_of trap Minolta.
Proof. split; [exists [], (skipn 4 trap); split; reflexivity|]. intros c L. destruct c; cbn in L; lia. Qed.
Lemma trap_scan : forall fuel m, mrw_scan (M := false) fuel (buffer_new trap) 108 8 m = Loop.
Proof. intros fuel m. apply mrw_scan_stuck with (tag := 0); try reflexivity. cbn. lia. Qed.
Lemma trap_decode : forall powf parse_f32 l, decode (M := false) powf parse_f32 l trap = Loop.
Proof.
  intros powf parse_f32 l. unfold decode. cbv zeta. rewrite (get_decoder_by (M := false) l trap Minolta trap_bytes trap_minolta). unfold mrw_new.
  change (BEu32 (buffer_new trap) 4) with (Ok 100). cbn [bind]. change (u32add (M := false) 100 8) with (Ok 108). cbn [bind]. rewrite trap_scan. reflexivity.
Qed.
Lemma trap_is : minolta_trap trap.
Proof. exact (proj2 (decode_loop (M := false) (fun x _ => x) (fun _ => None) [] trap trap_bytes (trap_decode _ _ _))). Qed.
Lemma caught : exists file, bytes file /\ forall (M : Mode) powf parse_f32 l,
  decode powf parse_f32 l file = Panic /\ decode_safe powf parse_f32 l file = Err "Caught a panic while decoding."%string.
Proof.
  destruct fuji_short as [file [B [_ H]]]. exists file. split; [exact B|]. intros M powf parse_f32 l.
  assert (E : decode powf parse_f32 l file = Panic) by (unfold decode; cbv zeta; rewrite H; reflexivity).
  split; [exact E|]. unfold decode_safe. rewrite E. reflexivity.
Qed.
