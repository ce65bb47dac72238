(** Files that cannot be decoded (C66). *)
From Coq Require Import String Ascii ZArith List Bool Reals Lia.
From Verif Require Import Base Num F32 Bytes Tiff Transform Image Camera Clients Decoder Dec_Simple Dec_Pred Dec_Nef Dec_Ljpeg Dispatch.
From Verif Require Import Spec_Tiff Spec_Camera Spec_Meta Spec_File Spec_Tree Spec_TreeDng Spec_TreeMore Spec_Missing.
From Verif Require Import P_Base P_File1 P_Tree1 P_Tree2 P_Tree3 P_Tree7 P_Tree14.
Import ListNotations.
Local Open Scope Z_scope.

Lemma in_makes : forall make, lookup_make makes make <> None -> In make (camera_first ++ camera_later).
Proof.
  intros make. unfold makes. cbn [lookup_make camera_first camera_later app].
  repeat match goal with |- context [String.eqb make ?s] => destruct (String.eqb_spec make s) as [->|_]; [intros _; repeat (first [apply in_eq|apply in_cons])|] end. intros H. destruct (H eq_refl).
Qed.
Section Any.
Context {M : Mode} (powf : f32 -> f32 -> f32) (parse_f32 : string -> option f32).
Variables (db : list table) (l : loader).
Hypothesis Hl : loader_new db = Ok l.

Lemma lib_fails : forall file m, decode powf parse_f32 l file = Err m -> lib_decode powf parse_f32 db file = Err m.
Proof. intros file m H. unfold lib_decode, decode_safe. rewrite Hl. cbn [bind]. rewrite H. reflexivity. Qed.
Lemma lib_panics : forall file, decode powf parse_f32 l file = Panic -> lib_decode powf parse_f32 db file = Err "Caught a panic while decoding.".
Proof. intros file H. unfold lib_decode, decode_safe. rewrite Hl. cbn [bind]. rewrite H. reflexivity. Qed.
Lemma named_opened : forall big ts make model file f, named_file big ts make model file -> lookup_make makes make = Some f ->
  exists root, get_decoder l (buffer_new file) (zlen file) = Ok (DTiff f root) /\ Nested big ts root.
Proof.
  intros big ts make model file f [Hf Hn Hd Hm] Hk. destruct (tree_opened _ _ _ Hf) as (root & G & P). exists root. split; [|exact P]. rewrite G. eapply see_make; [apply P|eassumption..].
Qed.
Lemma unknown_make : forall big ts make model file, named_file big ts make model file -> ~ In make (camera_first ++ camera_later) ->
  lib_decode powf parse_f32 db file = Err "Couldn't find a decoder for make".
Proof.
  intros big ts make model file [Hf [C1 C2 C3 C4] Hd Hm] Hk. destruct (tree_opened _ _ _ Hf) as (root & G & N). pose proof (n_sees _ _ _ N) as P. apply lib_fails. unfold decode. rewrite G.
  destruct (see_text _ _ _ _ _ P C1 C2) as (en & E1 & E2). destruct (see_text _ _ _ _ _ P C3 C4) as (en' & E3 & E4).
  unfold by_tiff, has_entry. rewrite (s_no _ _ _ P _ Hd), E3. unfold fetch_tag. rewrite E3. cbn [bind]. rewrite E4. cbn [bind].
  rewrite (proj2 (String.eqb_neq _ _) Hm), E1. cbn [bind]. rewrite E2. cbn [bind]. destruct (lookup_make makes make) eqn:E; [|reflexivity].
  exfalso. apply Hk, in_makes. congruence.
Qed.
Lemma camera_missing : forall big ts make model file root, named_file big ts make model file -> Nested big ts root -> find_camera l make model "" = None -> check_supported l root = Err "Couldn't find camera".
Proof.
  intros big ts make model file root [Hf [C1 C2 C3 C4] Hd Hm] N Hc. pose proof (n_sees _ _ _ N) as P.
  destruct (see_text _ _ _ _ _ P C1 C2) as (en & E1 & E2). destruct (see_text _ _ _ _ _ P C3 C4) as (en' & E3 & E4).
  unfold check_supported, check_supported_with_mode, fetch_tag. rewrite E1. cbn [bind]. rewrite E2. cbn [bind]. rewrite E3. cbn [bind]. rewrite E4. cbn [bind].
  unfold check_supported_with_everything. rewrite Hc. reflexivity.
Qed.
Lemma unknown_camera : forall big ts make model file, named_file big ts make model file -> In make camera_first -> find_camera l make model "" = None ->
  lib_decode powf parse_f32 db file = Err "Couldn't find camera".
Proof.
  intros big ts make model file Hp Hk Hc. apply lib_fails. unfold decode.
  assert (exists f, lookup_make makes make = Some f /\ f <> NEF /\ f <> RW2 /\ f <> DNG /\ f <> MOS) as (f & F & F1 & F2 & F3 & F4).
  { clear - Hk. unfold camera_first in Hk. cbn [In] in Hk. repeat (destruct Hk as [<-|Hk]; [eexists; split; [reflexivity|repeat split; discriminate]|]). destruct Hk. }
  destruct (named_opened _ _ _ _ _ _ Hp F) as (root & G & N). rewrite G. cbn [bind]. pose proof (camera_missing _ _ _ _ _ _ Hp N Hc) as C.
  destruct f; try congruence; cbn [decoder_image];
    [unfold arw_image|unfold mef_image|unfold orf_image|unfold srw_image|unfold erf_image|unfold kdc_image|unfold dcs_image|unfold dcr_image|unfold raf_image|unfold pef_image|unfold iiq_image|unfold tfr_image|unfold nrw_image|unfold cr2_image];
    rewrite C; reflexivity.
Qed.
Lemma no_picture : forall big ts make tag model mode file o cam, nested_photo l mode big ts make model file o cam -> In (make, tag) picture_tag -> mode = ""%string \/ make = "NIKON CORPORATION"%string ->
  has_no (visible ts) tag -> lib_decode powf parse_f32 db file = Err "Couldn't find ifd with tag".
Proof.
  intros big ts make tag model mode file o cam Hp Hk Hm Hn. apply lib_fails. unfold decode.
  assert (Q : forall f, lookup_make makes make = Some f -> exists root, get_decoder l (buffer_new file) (zlen file) = Ok (DTiff f root) /\
    fetch_ifd root tag = Err "Couldn't find ifd with tag" /\ (mode = ""%string -> check_supported l root = Ok (set_orientation o cam))).
  { intros f F. destruct (nested_opened _ _ _ _ _ _ _ _ _ f Hp F) as (root & [G P C N]). exists root. split; [exact G|]. split; [|intros ->; exact C]. unfold fetch_ifd. rewrite (n_without _ _ _ P _ Hn). reflexivity. }
  clear Hp Hn. unfold picture_tag in Hk. cbn [In] in Hk.
  repeat (destruct Hk as [Hk|Hk];
    [injection Hk as <- <-; destruct (Q _ eq_refl) as (root & G & F & C); rewrite G; cbn [bind decoder_image];
     first [unfold nef_image; rewrite F; reflexivity
           |destruct Hm as [Hm|Hm]; [|discriminate Hm]; specialize (C Hm);
            first [unfold mef_image; rewrite C; cbn [bind]; rewrite F; reflexivity
                  |unfold erf_image; rewrite C; cbn [bind]; rewrite F; reflexivity
                  |unfold dcr_image; rewrite C; cbn [bind]; rewrite F; reflexivity
                  |unfold orf_image; rewrite C; cbn [bind]; rewrite F; reflexivity
                  |unfold pef_image; rewrite C; cbn [bind]; rewrite F; reflexivity
                  |unfold srw_image; rewrite C; cbn [bind]; rewrite F; reflexivity
                  |unfold tfr_image; rewrite C; cbn [bind]; rewrite F; reflexivity
                  |unfold raf_image; rewrite C; cbn [bind]; rewrite F; reflexivity]]|]).
  destruct Hk.
Qed.
Lemma none_wide : forall big cs is, Again big cs is -> Forall (fun t => exists w, has_number (visible [t]) T_ImageWidth w /\ w <= 1000) cs -> find_wide is = Panic.
Proof.
  intros big cs is H. induction H as [|t i ts is Hr H IH|t i ts is Hr H IH]; intros Hs; [reflexivity| |].
  - inversion Hs as [|? ? (w & Hw & L) Hs']; subst. rewrite (find_wide_step i is w big t Hr Hw). replace (1000 <? w) with false by lia. apply IH, Hs'.
  - inversion Hs as [|? ? (w & Hw & L) Hs']; subst. rewrite (find_wide_step i _ w big t Hr Hw). replace (1000 <? w) with false by lia. apply IH, Hs.
Qed.
Lemma small_pictures : forall big ts make tag model file o cam, nested_photo l "" big ts make model file o cam ->
  make = "KODAK"%string /\ tag = T_StripOffsets \/ make = "NIKON"%string /\ tag = T_CFAPattern -> all_small ts tag ->
  decode powf parse_f32 l file = Panic /\ lib_decode powf parse_f32 db file = Err "Caught a panic while decoding.".
Proof.
  intros big ts make tag model file o cam Hp Hk Hs. assert (D : decode powf parse_f32 l file = Panic); [|split; [exact D|apply lib_panics, D]]. unfold decode.
  destruct Hk as [[-> ->]|[-> ->]].
  - destruct (nested_opened _ _ _ _ _ _ _ _ _ DCS Hp eq_refl) as (root & [G P C N]). rewrite G. cbn [bind decoder_image]. unfold dcs_image, check_supported. rewrite C. cbn [bind].
    destruct (n_tree _ _ _ P) as (is & -> & R). rewrite (none_wide big _ _ (root_again big T_StripOffsets ts is 0 0 big R) Hs). reflexivity.
  - destruct (nested_opened _ _ _ _ _ _ _ _ _ NRW Hp eq_refl) as (root & [G P C N]). rewrite G. cbn [bind decoder_image]. unfold nrw_image, check_supported. rewrite C. cbn [bind].
    destruct (n_tree _ _ _ P) as (is & -> & R). rewrite (none_wide big _ _ (root_again big T_CFAPattern ts is 0 0 big R) Hs). reflexivity.
Qed.
(** The makers that have more than one place for the picture *)
Lemma missing_elsewhere : forall big ts make tags message model mode file o cam, nested_photo l mode big ts make model file o cam -> picture_elsewhere mode cam make tags message ->
  Forall (has_no (visible ts)) tags -> lib_decode powf parse_f32 db file = Err message.
Proof.
  intros big ts make tags message model mode file o cam Hp Hk Hn. apply lib_fails. unfold decode.
  inversion Hk as [mk Hmk E1 E2 E3|Em E1 E2 E3|Em Hc E1 E2 E3|Em Hc E1 E2 E3|Em E1 E2 E3]; subst.
  - inversion Hn as [|? ? N1 Hn']; subst. inversion Hn' as [|? ? N2 _]; subst.
    destruct (nested_opened _ _ _ _ _ _ _ _ _ RW2 Hp ltac:(destruct Hmk as [->| ->]; reflexivity)) as (root & [G P C N]). rewrite G. cbn [bind decoder_image]. unfold rw2_image.
    rewrite (n_without _ _ _ P _ N1). unfold fetch_ifd. rewrite (n_without _ _ _ P _ N2). reflexivity.
  - inversion Hn as [|? ? N1 Hn']; subst. inversion Hn' as [|? ? N2 Hn'']; subst. inversion Hn'' as [|? ? N3 _]; subst.
    destruct (nested_opened _ _ _ _ _ _ _ _ _ CR2 Hp eq_refl) as (root & [G P C N]). rewrite G. cbn [bind decoder_image]. unfold cr2_image, check_supported. rewrite C. cbn [bind]. unfold cr2_raw.
    rewrite (n_without _ _ _ P _ N1), (n_without _ _ _ P _ N2), (s_no _ _ _ (n_sees _ _ _ P) _ N3). reflexivity.
  - inversion Hn as [|? ? N1 Hn']; subst. inversion Hn' as [|? ? N2 _]; subst.
    destruct (nested_opened _ _ _ _ _ _ _ _ _ ARW Hp eq_refl) as (root & [G P C N]). rewrite G. cbn [bind decoder_image]. unfold arw_image, check_supported. rewrite C. cbn [bind].
    rewrite (n_without _ _ _ P _ N1). change (c_model (set_orientation o cam)) with (c_model cam). rewrite Hc. cbn [String.eqb Ascii.eqb Bool.eqb]. unfold a100_image. rewrite (n_without _ _ _ P _ N2). reflexivity.
  - inversion Hn as [|? ? N1 Hn']; subst. inversion Hn' as [|? ? N2 _]; subst.
    destruct (nested_opened _ _ _ _ _ _ _ _ _ ARW Hp eq_refl) as (root & [G P C N]). rewrite G. cbn [bind decoder_image]. unfold arw_image, check_supported. rewrite C. cbn [bind].
    rewrite (n_without _ _ _ P _ N1). change (c_model (set_orientation o cam)) with (c_model cam). rewrite (proj2 (String.eqb_neq _ _) Hc). unfold srf_image. rewrite (n_without _ _ _ P _ N2). reflexivity.
  - inversion Hn as [|? ? N1 _]; subst.
    destruct (nested_opened _ _ _ _ _ _ _ _ _ KDC Hp eq_refl) as (root & [G P C N]). rewrite G. cbn [bind decoder_image]. unfold kdc_image, check_supported. rewrite C. cbn [bind].
    unfold tag_usize, fetch_tag. rewrite (s_no _ _ _ (n_sees _ _ _ P) _ N1). reflexivity.
Qed.
(** A DNG with previews only *)
Lemma only_previews : forall big ts file, tree_file big ts file -> In T_DNGVersion (map f_tag (visible ts)) -> Forall marked (flat_map all_trees ts) -> find shows_picture (flat_map all_trees ts) = None ->
  decode powf parse_f32 l file = Panic /\ lib_decode powf parse_f32 db file = Err "Caught a panic while decoding.".
Proof.
  intros big ts file Hf V Hm Hs. assert (D : decode powf parse_f32 l file = Panic); [|split; [exact D|apply lib_panics, D]]. unfold decode.
  destruct (tree_opened _ _ _ Hf) as (root & G & N). pose proof (n_sees _ _ _ N) as P. rewrite G. assert (W : by_tiff l (zlen file) root = Ok (DTiff DNG root)).
  { apply in_map_iff in V. destruct V as [f [E Hv]]. destruct (s_in _ _ _ P _ Hv) as (en & E1 & _). unfold by_tiff, has_entry. rewrite <- E, E1. reflexivity. }
  rewrite W. cbn [bind decoder_image]. destruct (n_tree _ _ _ N) as (is & -> & R). destruct (root_full big ts is 0 0 big R Hm) as (r & R1 & R2). rewrite Hs in R2. cbn [leads] in R2. subst r.
  unfold dng_image. rewrite R1. reflexivity.
Qed.
End Any.
