(** Examples and corollaries about turned, interlaced and cut up pictures. *)
From Coq Require Import String ZArith List Bool Lia ZifyBool ZifyNat.
From Verif Require Import Base Raf Mos Cr2 Spec_Bits Spec_Image Spec_Sensor P_Base P_Sensor2 P_Sensor3.
Import ListNotations.
Local Open Scope Z_scope.
Ltac Zify.zify_post_hook ::= Z.div_mod_to_equations.

Lemma diagonals : forall cw r c, let move p dy dx := (fst p + dy, snd p + dx) in
  turned cw r (c + 1) = move (turned cw r c) (-1) 1 /\
  turned cw (r + 2) c = move (turned cw r c) 1 1 /\
  turned cw (r + 1) c = (if Z.even r then move (turned cw r c) 0 1 else move (turned cw r c) 1 0) /\
  turned_alt cw (r + 1) c = move (turned_alt cw r c) 1 1 /\
  turned_alt cw r (c + 2) = move (turned_alt cw r c) (-1) 1 /\
  turned_alt cw r (c + 1) = (if Z.even c then move (turned_alt cw r c) 0 1 else move (turned_alt cw r c) (-1) 0).
Proof.
  intros cw r c move. unfold turned, turned_alt, move. cbn [fst snd]. rewrite !Zeven_mod. unfold Zeq_bool.
  repeat split; try (f_equal; lia).
  - destruct (r mod 2 ?= 0) eqn:E; rewrite ?Z.compare_eq_iff, ?Z.compare_lt_iff, ?Z.compare_gt_iff in E; f_equal; lia.
  - destruct (c mod 2 ?= 0) eqn:E; rewrite ?Z.compare_eq_iff, ?Z.compare_lt_iff, ?Z.compare_gt_iff in E; f_equal; lia.
Qed.

Lemma odd_height : forall M : Mode, exists src width height,
  Z.of_nat (length src) = width * height /\ 0 < width /\ 0 < height /\
  rotate_image src false (0, 0, 0, 0) width height = Panic.
Proof. intros M. exists [1; 2; 3; 4; 5; 6], 2, 3. split; [reflexivity|]. split; [lia|]. split; [lia|]. destruct M; vm_compute; reflexivity. Qed.
Lemma odd_width : forall M : Mode, exists src width height,
  Z.of_nat (length src) = width * height /\ 0 < width /\ 0 < height /\
  rotate_image src true (0, 0, 0, 0) width height = Panic.
Proof. intros M. exists [1; 2; 3; 4; 5; 6], 3, 2. split; [reflexivity|]. split; [lia|]. split; [lia|]. destruct M; vm_compute; reflexivity. Qed.

Lemma interlaced_permutation : forall h r, 0 <= r < h -> exists i, (0 <= i < h /\ interlaced h i = r) /\
  forall j, 0 <= j < h -> interlaced h j = r -> j = i.
Proof.
  intros h r Hr. destruct (interlaced_surj h r Hr) as [i [Hi Ei]]. exists i. split; [tauto|].
  intros j Hj Ej. apply (interlaced_inj h); congruence || assumption.
Qed.

Lemma stripes_v2_two_lines : forall {M : Mode} data pix lw lh width h fw nf T H2 L3 lh2,
  lw = 3 * L3 -> fw = 3 * T -> h = 2 * H2 -> 0 < L3 -> 0 < T -> 0 <= H2 -> 0 <= nf -> nf * fw <= width ->
  is_image data lw lh pix -> 2 * lh2 <= lh -> nf * H2 * T <= lh2 * L3 ->
  forall fws, Z.of_nat (length fws) = nf -> get fws 0 = Ok fw ->
  exists out, stripes_v2 data lw width h fws = Ok out /\ is_image out width h (two_line_stripes pix lw fw nf h).
Proof. intros. eapply (stripes_v2_ok data pix lw lh width h fw nf T H2 L3 lh2); eassumption. Qed.

Lemma last_stripe : forall M : Mode, exists data fws out,
  stripes_v2 data 9 9 2 fws = Ok out /\ fws = [3; 6] /\
  data = [1; 1; 1; 2; 2; 2; 3; 3; 3;   4; 4; 4; 5; 5; 5; 6; 6; 6] /\ out <> data.
Proof.
  intros M. exists [1; 1; 1; 2; 2; 2; 3; 3; 3;   4; 4; 4; 5; 5; 5; 6; 6; 6], [3; 6]. eexists.
  split; [vm_compute; reflexivity|]. split; [reflexivity|]. split; [reflexivity|discriminate].
Qed.
