(** More files that lack something (C66). *)
From Coq Require Import String Ascii ZArith List Bool Reals Lia.
From Verif Require Import Base Num F32 Bytes Tiff Transform Image Camera Clients Decoder Dec_Simple Dec_Pred Dispatch.
From Verif Require Import Spec_Tiff Spec_Camera Spec_Meta Spec_File Spec_Tree Spec_Missing.
From Verif Require Import P_Base P_File1 P_Tree1 P_Tree2 P_Tree3 P_Missing1.
Import ListNotations.
Local Open Scope Z_scope.
Section Any.
Context {M : Mode} (powf : f32 -> f32 -> f32) (parse_f32 : string -> option f32).
Variables (db : list table) (l : loader).
Hypothesis Hl : loader_new db = Ok l.
Lemma few_places : forall big ts model file w h o cam vs, nested_photo l "" big ts "EASTMAN KODAK COMPANY" model file o cam ->
  has_number (visible ts) T_KdcWidth w -> has_number (visible ts) T_KdcLength h -> has_numbers (visible ts) T_KdcOffset vs -> Z.of_nat (length vs) < 13 ->
  decode powf parse_f32 l file = Panic /\ lib_decode powf parse_f32 db file = Err "Caught a panic while decoding.".
Proof.
  intros big ts model file w h o cam vs Hp Hw Hh Hv Hn. assert (D : decode powf parse_f32 l file = Panic); [|split; [exact D|eapply lib_panics; [exact Hl|exact D]]]. unfold decode.
  destruct (nested_opened _ _ _ _ _ _ _ _ _ KDC Hp eq_refl) as (root & [G P C N]). pose proof (n_sees _ _ _ P) as S1.
  destruct (see_usize _ _ _ _ _ S1 Hw) as [Uw _]. destruct (see_usize _ _ _ _ _ S1 Hh) as [Uh _]. destruct (see_numbers _ _ _ _ _ S1 Hv) as (en & F1 & F2 & _).
  rewrite G. cbn [bind decoder_image]. unfold kdc_image, check_supported, fetch_tag. rewrite C. cbn [bind]. rewrite Uw. cbn [bind]. rewrite Uh. cbn [bind]. rewrite F1. cbn [bind]. rewrite F2.
  unfold zlen. replace (Z.of_nat (length vs) <? 13) with true by lia. reflexivity.
Qed.
End Any.
