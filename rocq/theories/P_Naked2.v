(** Checks for the examples of C64. *)
From Coq Require Import String Ascii ZArith List Bool Lia ZifyBool.
From Verif Require Import Base Num F32 Tiff Transform Image Camera Spec_Bits Spec_Packed Spec_Camera Spec_Known Spec_File Spec_Dispatch.
From Verif Require Import P_Packed2 P_Packed3 P_Tree6 P_Header2.
Import ListNotations.
Local Open Scope Z_scope.

Definition sized_camera (size w h : Z) (hints : list string) : list table :=
  [[("make", VStr "Canon"); ("model", VStr "Bare"); ("mode", VStr ""); ("clean_make", VStr "m"); ("clean_model", VStr "a"); ("whitepoint", VInt 4095); ("blackpoint", VInt 7);
    ("filesize", VInt size); ("raw_width", VInt w); ("raw_height", VInt h); ("hints", VArr (map VStr hints))]]%string.
Lemma naked_check : forall (M : Mode) db size w h hint,
  match loader_new db with
  | Ok l => match find_naked l size with
            | Some cam => (snd (c_blackareah cam) =? 0) && (snd (c_blackareav cam) =? 0) && (c_raw_width cam =? w) && (c_raw_height cam =? h) && Bool.eqb (find_hint cam "12le_16bitaligned") hint
            | None => false end
  | _ => false
  end = true ->
  exists l cam, loader_new db = Ok l /\ find_naked l size = Some cam /\ no_black_area cam /\ c_raw_width cam = w /\ c_raw_height cam = h /\ find_hint cam "12le_16bitaligned" = hint.
Proof.
  intros M db size w h hint H. destruct (loader_new db) as [l| | |]; try discriminate H. exists l. destruct (find_naked l size) as [cam|]; [|discriminate H].
  exists cam. apply andb_prop in H. destruct H as [H H5]. apply andb_prop in H. destruct H as [H H4]. apply andb_prop in H. destruct H as [H H3]. apply andb_prop in H. destruct H as [H1 H2].
  apply eqb_prop in H5. split; [reflexivity|]. split; [reflexivity|]. split; [split; lia|]. split; [lia|]. split; [lia|exact H5].
Qed.
Lemma bare_check : forall file,
  negb (same (firstn 4 file) (0 :: codes "MRM")) && negb (same (firstn 8 (skipn 6 file)) (codes "HEAPCCDR")) && negb (same (firstn 4 file) (codes "ARRI")) && negb (same (firstn 4 file) (codes "FOVb")) &&
  negb (same (firstn 2 file) (codes "II")) && negb (same (firstn 2 file) (codes "MM")) && negb (same (firstn 8 file) (codes "FUJIFILM")) = true -> container_of file NoSignature /\ ~ tiff_like file.
Proof.
  intros file H. repeat match type of H with _ && _ = true => let H' := fresh "H" in apply andb_prop in H; destruct H as [H H'] end. split; [split; [exact I|]|].
  - intros c' Hc. destruct c'; cbn in Hc; try lia; apply stands_not; apply negb_true_iff; assumption.
  - intros [Q|[Q|Q]]; revert Q; apply stands_not; apply negb_true_iff; assumption.
Qed.
Lemma easy_check : forall (M : Mode) db make model,
  match loader_new db with
  | Ok l => match find_camera l make model "" with
            | Some cam => (snd (c_blackareah cam) =? 0) && (snd (c_blackareav cam) =? 0) && negb (find_hint cam "easyshare_offset_hack")
            | None => false end
  | _ => false
  end = true ->
  exists l cam, loader_new db = Ok l /\ find_camera l make model "" = Some cam /\ no_black_area cam /\ find_hint cam "easyshare_offset_hack" = false.
Proof.
  intros M db make model H. destruct (loader_new db) as [l| | |]; try discriminate H. exists l. destruct (find_camera l make model "") as [cam|]; [|discriminate H].
  exists cam. apply andb_prop in H. destruct H as [H H3]. apply andb_prop in H. destruct H as [H1 H2]. apply negb_true_iff in H3. split; [reflexivity|]. split; [reflexivity|]. split; [split; lia|exact H3].
Qed.
(** A picture of which every sample is different from its neighbours *)
Definition easy_samples : list Z := concat (repeat [291; 4095] (Z.to_nat 2911)).
Lemma easy_length : Z.of_nat (length easy_samples) = 5822.
Proof. vm_compute. reflexivity. Qed.
Lemma easy_bytes : Z.of_nat (length (pack 12 easy_samples)) = 8733.
Proof. pose proof easy_length as L. rewrite (pack_length 12 easy_samples (Z.to_nat 8733)); lia. Qed.
