(** Checks on concrete files for the examples of C62. *)
From Coq Require Import String Ascii ZArith List Bool Lia ZifyBool.
From Verif Require Import Base Num F32 Tiff Transform Image Camera Spec_Bits Spec_Packed Spec_Ljpeg Spec_Curve Spec_Tiff Spec_Camera Spec_Known Spec_Meta Spec_File Spec_Tree Spec_TreeMore.
From Verif Require Import P_Base P_Srw3b P_Crw4 P_File5 P_Tree6.
Import ListNotations.
Local Open Scope Z_scope.

Definition is_curve (c : list Z) : bool :=
  forallb (fun v => (0 <=? v) && (v <? 65536)) c && forallb (fun i => at_ c i <=? at_ c (i + 1)) (upto (Z.of_nat (length c) - 1)) &&
  forallb (fun i => (at_ c i =? 0) || (((above c i - below c i + 2) / 4 <=? at_ c i) && (above c i - below c i <? 65534))) (upto (Z.of_nat (length c))).
Lemma curve_check : forall c, is_curve c = true -> samples c /\ increasing c /\ not_too_steep c.
Proof.
  intros c H. unfold is_curve in H. apply andb_prop in H. destruct H as [H H3]. apply andb_prop in H. destruct H as [H1 H2]. split; [|split].
  - apply Forall_forall. intros v Hv. pose proof (proj1 (forallb_forall _ _) H1 v Hv) as Q. cbv beta in Q. unfold sample. lia.
  - assert (A : forall k i, 0 <= i -> i + Z.of_nat k < Z.of_nat (length c) -> at_ c i <= at_ c (i + Z.of_nat k)).
    { induction k as [|k IH]; intros i Hi Hk; [rewrite Z.add_0_r; lia|]. pose proof (IH i Hi ltac:(lia)) as Q. pose proof (upto_all _ _ H2 (i + Z.of_nat k) ltac:(lia)) as R. cbv beta in R.
      replace (i + Z.of_nat (S k)) with (i + Z.of_nat k + 1) by lia. lia. }
    intros i j Hij Hj. specialize (A (Z.to_nat (j - i)) i ltac:(lia)). replace (i + Z.of_nat (Z.to_nat (j - i))) with j in A by lia. apply A. exact Hj.
  - intros i Hi Hz. pose proof (upto_all _ _ H3 i Hi) as R. cbv beta in R. lia.
Qed.
Lemma numbers_check : forall fs tag vs, In (mkfield tag 3 vs) fs -> forallb (fun v => (0 <=? v) && (v <? 65536)) vs = true -> has_numbers fs tag vs.
Proof. intros fs tag vs H1 H2. left. split; [exact H1|]. apply Forall_forall. intros v Hv. pose proof (proj1 (forallb_forall _ _) H2 v Hv) as Q. cbv beta in Q. change (2 ^ 16) with 65536. lia. Qed.
Lemma fits12_check : forall vs, forallb (fun v => (0 <=? v) && (v <? 4096)) vs = true -> Forall (Spec_Packed.fits 12) vs.
Proof. intros vs H. apply Forall_forall. intros v Hv. pose proof (proj1 (forallb_forall _ _) H v Hv) as Q. cbv beta in Q. unfold Spec_Packed.fits. change (2 ^ 12) with 4096. change (2 ^ Z.of_nat 12) with 4096. lia. Qed.
Lemma wide_check : forall ts head which raw first more w0 w h data at_, Z.of_nat (length head) = at_ -> filter (has_value which) (flat_map all_trees ts) = first :: raw :: more ->
  has_number (visible [first]) T_ImageWidth w0 -> w0 <= 1000 -> has_number (visible [raw]) T_ImageWidth w -> 1000 < w -> has_number (visible [raw]) T_ImageLength h ->
  has_number (visible [raw]) T_StripOffsets at_ -> wide_picture_at ts (head ++ data) which raw w h data.
Proof.
  intros ts head which raw first more w0 w h data at_ La Hf H1 L1 H2 L2 H3 H4. split; try assumption.
  - exists [first], more. split; [exact Hf|]. split; [constructor; [eauto|constructor]|eauto].
  - exists at_. split; [exact H4|apply from_app; exact La].
Qed.
Definition with_hint (make model : string) (hints : list string) : list table :=
  [[("make", VStr make); ("model", VStr model); ("mode", VStr ""); ("clean_make", VStr "m"); ("clean_model", VStr "a"); ("whitepoint", VInt 4095); ("blackpoint", VInt 7); ("hints", VArr (map VStr hints))]]%string.
Lemma coolpix_check : forall (M : Mode) db make model split msb nowb,
  match loader_new db with
  | Ok l => match find_camera l make model "" with
            | Some cam => (snd (c_blackareah cam) =? 0) && (snd (c_blackareav cam) =? 0) && Bool.eqb (find_hint cam "coolpixsplit") split && Bool.eqb (find_hint cam "msb32") msb && Bool.eqb (find_hint cam "nowb") nowb
            | None => false end
  | _ => false
  end = true ->
  exists l cam, loader_new db = Ok l /\ find_camera l make model "" = Some cam /\ no_black_area cam /\
    find_hint cam "coolpixsplit" = split /\ find_hint cam "msb32" = msb /\ find_hint cam "nowb" = nowb.
Proof.
  intros M db make model split msb nowb H. destruct (loader_new db) as [l| | |]; try discriminate H. exists l. destruct (find_camera l make model "") as [cam|]; [|discriminate H].
  exists cam. apply andb_prop in H. destruct H as [H H5]. apply andb_prop in H. destruct H as [H H4]. apply andb_prop in H. destruct H as [H H3]. apply andb_prop in H. destruct H as [H1 H2].
  split; [reflexivity|]. split; [reflexivity|]. split; [split; lia|]. apply eqb_prop in H3, H4, H5. auto.
Qed.
