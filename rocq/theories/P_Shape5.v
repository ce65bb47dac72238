(** Proofs about the size of decoded images (C45): a Canon file with an odd width and double lines. *)
From Coq Require Import String ZArith List Bool Lia.
From Verif Require Import Base Num F32 Bytes Ljpeg Tiff Image Camera Clients Decoder Dec_Ljpeg Dispatch.
From Verif Require Import Spec_Bits Spec_Camera Spec_Ljpeg Spec_Shape P_Base P_Ljpeg5 P_Ljpeg7.
Import ListNotations.
Local Open Scope Z_scope.
(** The directory of the file, with the make, the model, the place of the
    picture and a colour pattern. *)
Definition odd_head : list Z :=
  [73; 73; 42; 0; 8; 0; 0; 0; 4; 0;
   15; 1; 2; 0; 6; 0; 0; 0; 62; 0; 0; 0;
   16; 1; 2; 0; 2; 0; 0; 0; 65; 0; 0; 0;
   17; 1; 4; 0; 1; 0; 0; 0; 68; 0; 0; 0;
   142; 130; 1; 0; 1; 0; 0; 0; 0; 0; 0; 0;
   0; 0; 0; 0; 67; 97; 110; 111; 110; 0].
(** A picture of one row of three samples *)
Definition odd_jpeg (tail : list Z) : list Z := jpeg_file [dc_code] 14 1 1 [1; 2; 3] [0; 0; 0] 0 [0] tail.
Definition odd_file : list Z := odd_head ++ odd_jpeg [].
Definition canon_db (hints : list value) : list table :=
  [[("make", VStr "Canon"); ("model", VStr "A"); ("clean_make", VStr "Canon"); ("clean_model", VStr "A"); ("whitepoint", VInt 4095);
    ("blackpoint", VInt 7); ("hints", VArr hints)]]%string.
Definition odd_db : list table := canon_db [VStr "double_line"].
Definition canon_known {M : Mode} (db : list table) (file : list Z) :=
  match (l <- loader_new db ;; d <- get_decoder l (buffer_new file) (zlen file) ;;
    match d with DTiff CR2 t => c <- check_supported l t ;; Ok (t, c) | _ => Err "" end) with
  | Ok (t, c) => Some (find_hint c "linearization", find_hint c "double_line", c_blackareah c, c_blackareav c,
      match cr2_raw t with Ok (raw, o) => Some (o, has_entry raw T_Cr2StripeWidths) | _ => None end,
      has_entry t T_Cr2ColorData, has_entry t T_Cr2PowerShotWB, has_entry t T_Cr2OldWB)
  | _ => None
  end.
Lemma odd_facts : forall M : Mode, canon_known odd_db odd_file = Some (false, true, (0, 0), (0, 0), Some (68, false), false, false, false).
Proof. intros [|]; lazy; reflexivity. Qed.
Lemma single_facts : forall M : Mode, canon_known (canon_db []) odd_file = Some (false, false, (0, 0), (0, 0), Some (68, false), false, false, false).
Proof. intros [|]; lazy; reflexivity. Qed.
Lemma odd_rest : slice_from (buffer_new odd_file) 68 = Ok (odd_jpeg (zeros 16)).
Proof. lazy. reflexivity. Qed.
Lemma odd_lj : forall M : Mode, exists lj, ljpeg_new (odd_jpeg (zeros 16)) = Ok lj /\ lj_width lj = 3 /\ lj_height lj = 1 /\ lj_super_h lj = Ok 1 /\
  exists out, ljpeg_decode lj (zeros 3) 0 3 3 1 = Ok out /\ length out = 3%nat.
Proof.
  intros M. set (pic := (fun r j i => 8192) : picture).
  destruct (new_file [dc_code] 14 1 1 [1; 2; 3] [0; 0; 0] 0 [0] (zeros 16) false false) as [lj' [E' [_ [_ [_ [[cs [Es Ec]] _]]]]]].
  - ncomp.
  - constructor; [apply dc_good|constructor].
  - zcomp.
  - zcomp.
  - zcomp.
  - zcomp.
  - ncomp.
  - repeat constructor; cbn [In]; lia.
  - reflexivity.
  - repeat constructor; cbn [length]; lia.
  - discriminate.
  - destruct (file_round_trip [dc_code] 14 1 1 [1; 2; 3] [0; 0; 0] 0 [0] (zeros 16) false false pic [false; false]) as [lj [E [Ew [Eh H]]]].
    + ncomp.
    + constructor; [apply dc_good|constructor].
    + discriminate.
    + zcomp.
    + zcomp.
    + zcomp.
    + zcomp.
    + zcomp.
    + repeat constructor; cbn [In]; lia.
    + reflexivity.
    + repeat constructor; cbn [length]; lia.
    + discriminate.
    + repeat constructor; discriminate.
    + apply Forall_forall. intros x Hx. apply repeat_spec in Hx. subst x. unfold byte. lia.
    + discriminate.
    + zcomp.
    + intros r j i Hr Hj Hi. unfold pic, sample. lia.
    + intros r j i Hr Hj Hi. cbn [length] in Hi.
      assert (r = 0) by lia; assert (j = 0) by lia; assert (i = 0 \/ i = 1 \/ i = 2) as [I|[I|I]] by lia; subst; dc_word.
    + vm_compute. reflexivity.
    + rewrite E in E'. injection E' as <-. exists lj. split; [exact E|]. split; [exact Ew|]. split; [exact Eh|]. split.
      * unfold lj_super_h. rewrite Es, Ec. reflexivity.
      * destruct (H (zeros 3) 0 3 1 1) as [out [Eo P]]; cbn [length]; try lia; [vm_compute; discriminate|]. exists out. split; [exact Eo|].
        destruct P as [P _]. exact P.
Qed.
Lemma doubled : forall (M : Mode) powf parse_f32 db file two o src lj out,
  canon_known db file = Some (false, two, (0, 0), (0, 0), Some (o, false), false, false, false) ->
  slice_from (buffer_new file) o = Ok src -> ljpeg_new src = Ok lj -> lj_super_h lj = Ok 1 ->
  ljpeg_decode lj (zeros (lj_width lj * lj_height lj)) 0 (lj_width lj) (lj_width lj) (lj_height lj) = Ok out ->
  exists l t c img, loader_new db = Ok l /\ get_decoder l (buffer_new file) (zlen file) = Ok (DTiff CR2 t) /\
    lib_decode powf parse_f32 db file = Ok img /\
    check_supported l t = Ok c /\ find_hint c "double_line" = two /\
    i_width img = (if two then lj_width lj / 2 else lj_width lj) /\ i_height img = (if two then lj_height lj * 2 else lj_height lj) /\ i_cpp img = 1 /\ i_data img = out.
Proof.
  intros M powf parse_f32 db file two o src lj out F Sl N Sh O. unfold canon_known in F.
  destruct (loader_new db) as [l|m| |] eqn:L; cbn [bind] in F; try discriminate F.
  destruct (get_decoder l _ _) as [d|m| |] eqn:D; cbn [bind] in F; try discriminate F.
  destruct d as [| | | |f t|]; try discriminate F. destruct f; try discriminate F.
  destruct (check_supported l t) as [c|m| |] eqn:C; cbn [bind] in F; try discriminate F.
  destruct (cr2_raw t) as [[raw o']|m| |] eqn:R; try discriminate F. injection F as F1 F2 F3 F4 F5 F6 F7 F8 F9. subst o'.
  unfold has_entry in *.
  exists l, t, c. eexists. split; [reflexivity|split; [exact D|split]].
  - unfold lib_decode. rewrite L. cbn [bind]. unfold decode_safe, decode. cbv zeta. rewrite D. cbn [bind decoder_image].
    unfold cr2_image. rewrite C. cbn [bind]. rewrite R. cbn [bind]. rewrite Sl. cbn [bind]. rewrite N. cbn [bind]. cbv zeta. rewrite Sh. cbn [bind].
    rewrite O. cbn [bind]. unfold cr2_linearize. rewrite F1. cbn [bind]. unfold cr2_size. cbn [Z.eqb Pos.eqb]. rewrite F2.
    assert (Q : (if two then Ok (lj_width lj / 2, lj_height lj * 2, out) else Ok (lj_width lj, lj_height lj, out)) =
      Ok ((if two then lj_width lj / 2 else lj_width lj), (if two then lj_height lj * 2 else lj_height lj), out)) by (destruct two; reflexivity).
    rewrite Q. cbn [bind].
    unfold cr2_stripes. destruct (find_entry raw T_Cr2StripeWidths); [discriminate F6|]. cbn [bind]. unfold cr2_wb.
    destruct (find_entry t T_Cr2ColorData); [discriminate F7|]. destruct (find_entry t T_Cr2PowerShotWB); [discriminate F8|]. destruct (find_entry t T_Cr2OldWB); [discriminate F9|].
    cbn [bind]. unfold ok_image, black_levels. rewrite F3, F4. cbn [bind]. reflexivity.
  - cbn [i_width i_height i_cpp i_data]. auto 8.
Qed.
Lemma odd_bytes : bytes odd_file.
Proof. apply Forall_forall. intros x Hx. unfold byte. revert x Hx. apply Forall_forall. lazy. repeat (constructor; [split; [discriminate|reflexivity]|]). constructor. Qed.
Lemma odd_toml : is_toml odd_db.
Proof. intros ct m [<-|[]] [<-|[]]. unfold unique_keys. cbn. repeat (constructor; [cbn; intuition discriminate|]). constructor. Qed.
Lemma odd_image : forall (M : Mode) powf parse_f32, exists db file img, bytes file /\ file <> [] /\ is_toml db /\
  lib_decode powf parse_f32 db file = Ok img /\ i_width img = 1 /\ i_height img = 2 /\ i_cpp img = 1 /\ length (i_data img) = 3%nat.
Proof.
  intros M powf parse_f32. destruct (odd_lj M) as [lj [N [W [Hh [Sh [out [O Lo]]]]]]].
  destruct (doubled M powf parse_f32 odd_db odd_file true 68 _ lj out (odd_facts M) odd_rest N Sh) as [l [t [c [img [L [D [E [_ [_ [Ew [Eh [Ec Ed]]]]]]]]]]]].
  { rewrite W, Hh. exact O. }
  exists odd_db, odd_file, img. rewrite W in Ew. rewrite Hh in Eh. split; [exact odd_bytes|]. split; [discriminate|]. split; [exact odd_toml|]. split; [exact E|].
  split; [exact Ew|]. split; [exact Eh|]. split; [exact Ec|]. rewrite Ed. exact Lo.
Qed.
Lemma single_image : forall (M : Mode) powf parse_f32, exists db file img l t, lib_decode powf parse_f32 db file = Ok img /\
  loader_new db = Ok l /\ get_decoder l (buffer_new file) (zlen file) = Ok (DTiff CR2 t) /\ ordinary l (buffer_new file) t img /\
  i_width img = 3 /\ i_height img = 1 /\ i_cpp img = 1 /\ length (i_data img) = 3%nat.
Proof.
  intros M powf parse_f32. destruct (odd_lj M) as [lj [N [W [Hh [Sh [out [O Lo]]]]]]].
  destruct (doubled M powf parse_f32 (canon_db []) odd_file false 68 _ lj out (single_facts M) odd_rest N Sh) as [l [t [c [img [L [D [E [C [Hd [Ew [Eh [Ec Ed]]]]]]]]]]]].
  { rewrite W, Hh. exact O. }
  exists (canon_db []), odd_file, img, l, t. rewrite W in Ew. rewrite Hh in Eh. split; [exact E|]. split; [exact L|]. split; [exact D|]. split.
  - left. split; [exact Ec|]. right. left. intros [c' [C' H']]. rewrite C in C'. injection C' as ->. congruence.
  - split; [exact Ew|]. split; [exact Eh|]. split; [exact Ec|]. rewrite Ed. exact Lo.
Qed.
