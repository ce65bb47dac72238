(** ARRI files (C63), and checks for the examples. *)
From Coq Require Import String Ascii ZArith List Bool Reals Lia ZifyBool.
From Flocq Require Import Core BinarySingleNaN.
From Verif Require Import Base Num F32 Bytes Packed Tiff Ciff Transform Image Camera Clients Decoder Dec_Simple Dispatch.
From Verif Require Import Spec_Bits Spec_Packed Spec_Tiff Spec_Camera Spec_Known Spec_Meta Spec_File Spec_Tree Spec_TreeMore Spec_Dispatch Spec_Header.
From Verif Require Import P_Base P_Bits P_Tiff5 P_Meta2 P_File1 P_File5 P_Tree3 P_Tree6 P_Tree14 P_Dispatch.
Import ListNotations.
Local Open Scope Z_scope.

Lemma lossy_text : forall l rest fuel, Forall (fun c => 32 <= c < 127) l -> (length l < fuel)%nat -> exists more, utf8_lossy fuel (l ++ 0 :: rest) = l ++ 0 :: more.
Proof.
  intros l rest. induction l as [|c l IH]; intros fuel H Hf; (destruct fuel as [|fuel]; [cbn in Hf; lia|]).
  - exists (utf8_lossy fuel rest). reflexivity.
  - inversion H as [|? ? Hc Ht]; subst. destruct (IH fuel Ht ltac:(cbn in Hf; lia)) as [more E]. exists more. cbn [app utf8_lossy]. replace (c <? 0x80) with true by lia. rewrite E. reflexivity.
Qed.
Lemma split_text : forall l more cur, Forall (fun c => 32 <= c < 127) l -> exists tl, split_nul (l ++ 0 :: more) cur = (rev cur ++ l) :: tl.
Proof.
  induction l as [|c l IH]; intros more cur H; cbn [app split_nul].
  - exists (split_nul more []). cbn [Z.eqb]. rewrite app_nil_r. reflexivity.
  - inversion H as [|? ? Hc Ht]; subst. replace (c =? 0) with false by lia. destruct (IH more (c :: cur) Ht) as [tl E]. exists tl. rewrite E. cbn [rev]. rewrite <- app_assoc. reflexivity.
Qed.
Lemma first_text : forall s rest, printable s -> first_string (codes_of s ++ 0 :: rest) = s.
Proof.
  intros s rest [H _]. unfold first_string. destruct (lossy_text (codes_of s) rest (length (codes_of s ++ 0 :: rest)) H) as [more E]; [rewrite app_length; cbn; lia|].
  rewrite E. destruct (split_text (codes_of s) more [] H) as [tl ->]. apply str_text. exact H.
Qed.
Lemma le32_placed : forall file pos v, placed file pos (little 4 v) /\ 0 <= v < 2 ^ 32 -> LEu32 (buffer_new file) pos = Ok v.
Proof.
  intros file pos v [H Hv]. apply (ru32_at false); [|change (2 ^ 32) with 4294967296 in Hv; exact Hv]. destruct H as (a & b & -> & L). exists a, (b ++ zeros 16). unfold buffer_new. rewrite <- !app_assoc. split; [reflexivity|exact L].
Qed.
Lemma float_placed : forall file pos x, placed file pos (little 4 (float_bits x)) /\ float_ok x -> exists v, LEf32 (buffer_new file) pos = Ok v /\ ieee (fst (fst x)) (snd (fst x)) (snd x) v.
Proof.
  intros file pos [[s e] m] [(a & b & -> & L) [He Hm]]. unfold buffer_new. rewrite <- !app_assoc, <- L. cbn [fst snd float_bits]. apply floats_read; assumption.
Qed.
Section Whole.
Context {M : Mode} (powf : f32 -> f32 -> f32) (parse_f32 : string -> option f32).
Variables (db : list table) (l : loader).
Hypothesis Hl : loader_new db = Ok l.
Lemma arri_ok : forall file model off w h r g b cam samples rest,
  arri_file file model off w h r g b -> from file off (swapped 4 (pack 12 samples) ++ rest) ->
  find_camera l "ARRI" model "" = Some cam -> no_black_area cam ->
  0 < w -> (w * h) mod 8 = 0 -> Z.of_nat (length samples) = w * h -> Forall (Spec_Packed.fits 12) samples ->
  exists img, lib_decode powf parse_f32 db file = Ok img /\ shows img cam (c_orientation cam) w h /\ i_data img = samples /\ i_blacks img = c_blacks cam /\
    ieee (fst (fst r)) (snd (fst r)) (snd r) (e0 (i_wb img)) /\ ieee (fst (fst g)) (snd (fst g)) (snd g) (e1 (i_wb img)) /\ ieee (fst (fst b)) (snd (fst b)) (snd b) (e2 (i_wb img)) /\ e3 (i_wb img) = B754_nan.
Proof.
  intros file model off w h r g b cam samples rest [[K1 K2] Hb Ho Hw Hh Hr Hg Hbl [Hm Hp]] Hd Hc N Pw P8 Ls Hf.
  destruct (from_slice _ _ _ Hd Hb) as [Sd Bd]. rewrite <- app_assoc in Sd, Bd. apply Forall_app in Bd.
  destruct (float_placed _ _ _ Hr) as (xr & R1 & R2). destruct (float_placed _ _ _ Hg) as (xg & G1 & G2). destruct (float_placed _ _ _ Hbl) as (xb & B1 & B2).
  destruct (finished cam (c_orientation cam) w h (V4 xr xg xb NAN) samples N) as (img & I1 & I2 & I3 & I4 & I5).
  replace (set_orientation (c_orientation cam) cam) with cam in I1 by (destruct cam; reflexivity).
  exists img. split; [|rewrite I5; cbn [e0 e1 e2 e3]; auto 10].
  eapply lib_decodes; [exact Hl|]. unfold decode.
  destruct (recognise file Hb) as (m & c & a & x & Em & Ec & Ea & _ & Fm & Fc & Fa & _).
  assert (m = false) as -> by (destruct m; [exfalso; apply (K2 Minolta); [cbn; lia|apply Fm; reflexivity]|reflexivity]).
  assert (c = false) as -> by (destruct c; [exfalso; apply (K2 CanonCiff); [cbn; lia|apply Fc; reflexivity]|reflexivity]).
  assert (a = true) as -> by (apply Fa; exact K1).
  unfold get_decoder. rewrite Em. cbn [bind]. rewrite Ec. cbn [bind]. rewrite Ea. cbn [bind decoder_image]. unfold ari_image.
  rewrite (le32_placed _ _ _ Ho). cbn [bind]. rewrite (le32_placed _ _ _ Hw). cbn [bind]. rewrite (le32_placed _ _ _ Hh). cbn [bind].
  destruct Hm as (u & v & Ef & Lu). assert (Sm : slice_from (buffer_new file) 668 = Ok (codes_of model ++ 0 :: v ++ zeros 16)).
  { unfold buffer_new. rewrite Ef, <- !app_assoc. rewrite slice_from_ok by (rewrite zlen_app; pose proof (zlen_nonneg (codes_of model ++ [0] ++ v ++ zeros 16)); unfold zlen in *; lia).
    replace (Z.to_nat 668) with (length u) by lia. rewrite skipn_app, skipn_all, Nat.sub_diag. reflexivity. }
  rewrite Sm. cbn [bind]. rewrite first_text by exact Hp. unfold check_supported_with_everything. rewrite Hc. cbn [bind]. rewrite Sd. cbn [bind].
  rewrite msb32_app; [|exact Pw|lia|exact P8|exact Ls|exact Hf|exact (proj2 Bd)]. cbn [bind]. unfold ari_wb. rewrite R1. cbn [bind]. rewrite G1. cbn [bind]. rewrite B1. cbn [bind]. exact I1.
Qed.
End Whole.

(** ** Checks *)
Lemma stands_check : forall file n word, same (firstn (length word) (skipn n file)) word = true -> (n <= length file)%nat -> stands_at file n word.
Proof.
  intros file n word H L. apply same_ok in H. exists (firstn n file), (skipn (length word) (skipn n file)). split; [|rewrite firstn_length; lia].
  rewrite <- H at 1. rewrite firstn_skipn. symmetry. apply firstn_skipn.
Qed.
Lemma stands_not : forall file n word, same (firstn (length word) (skipn n file)) word = false -> ~ stands_at file n word.
Proof.
  intros file n word H (a & b & -> & <-). rewrite skipn_app, skipn_all, Nat.sub_diag in H. cbn [skipn app] in H. rewrite firstn_app, firstn_all, Nat.sub_diag in H. cbn [firstn] in H. rewrite app_nil_r in H.
  assert (R : forall v, same v v = true) by (induction v as [|x v IH]; [reflexivity|]; cbn [same]; rewrite Z.eqb_refl, IH; reflexivity). rewrite R in H. discriminate H.
Qed.
Lemma arri_check : forall file, same (firstn 4 file) (codes "ARRI") && negb (same (firstn 4 file) (0 :: codes "MRM")) && negb (same (firstn 8 (skipn 6 file)) (codes "HEAPCCDR")) = true -> container_of file Arri.
Proof.
  intros file H. apply andb_prop in H. destruct H as [H H3]. apply andb_prop in H. destruct H as [H1 H2]. split.
  - apply stands_check; [exact H1|lia].
  - intros c' Hc. destruct c'; cbn in Hc; try lia; apply stands_not; apply negb_true_iff; assumption.
Qed.
