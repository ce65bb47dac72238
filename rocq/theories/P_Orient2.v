(** Orientation: composition laws and examples. *)
From Coq Require Import ZArith List Bool Lia ZifyBool ZifyNat.
From Verif Require Import Base Threads Transform Spec_Orient P_Base P_Threads P_Orient.
Import ListNotations.
Local Open Scope Z_scope.

Section Comp.
Context {M : Mode} {A : Type} (z : A).
Lemma moved_comp : forall o1 o2 o3 (b r1 r2 : opbuf A), well_formed b ->
  after (matrix o2) (matrix o1) = matrix o3 ->
  moved z o1 b r1 -> moved z o2 r1 r2 -> moved z o3 b r2.
Proof.
  intros o1 o2 o3 b r1 r2 (Bw & Bh & Bc & _) E (W & C & Hw & Hh & P) (W' & C' & Hw' & Hh' & P').
  destruct o1, o2, o3; vm_compute in E; try discriminate E; clear E;
  unfold moved, swaps in *; cbn [to_flips fst snd source] in *;
  (split; [exact W'|]; split; [congruence|]; split; [congruence|]; split; [congruence|];
   intros y x k Hy Hx Hk; rewrite P' by lia; rewrite P by lia; f_equal; lia).
Qed.
Lemma rotate_comp : forall o1 o2 o3 (b : opbuf A), well_formed b ->
  after (matrix o2) (matrix o1) = matrix o3 ->
  (r1 <- rotate_buffer z b o1 ;; rotate_buffer z r1 o2) = rotate_buffer z b o3.
Proof.
  intros o1 o2 o3 b W E. destruct (rotate_ok z b o1 W) as [r1 [E1 M1]]. rewrite E1. cbn [bind].
  destruct (rotate_ok z r1 o2) as [r2 [E2 M2]]; [apply M1|]. rewrite E2.
  destruct (rotate_ok z b o3 W) as [r3 [E3 M3]]. rewrite E3. f_equal.
  eapply moved_unique; [|exact M3]. eapply moved_comp; eassumption.
Qed.
Lemma orient_rotate : forall (b : opbuf A) o, orient z b o = rotate_buffer z b o.
Proof. intros b []; reflexivity. Qed.
Lemma exif_shown : forall (b : opbuf A) tag sides, well_formed b -> exif tag = Some sides ->
  exists out, orient z b (from_u16 tag) = Ok out /\ shown sides b out.
Proof.
  intros b tag sides W E. rewrite orient_rotate. destruct (rotate_ok z b (from_u16 tag) W) as [r [Er Mr]].
  exists r. split; [exact Er|]. eapply shown_moved; eassumption.
Qed.
Lemma shown_all : forall sides (b out : opbuf A), well_formed b -> shown sides b out -> (exists tag, exif tag = Some sides) ->
  forall y x, 0 <= y < oheight out -> 0 <= x < owidth out ->
  exists r c, 0 <= r < oheight b /\ 0 <= c < owidth b /\ seen_at sides r c (owidth out) (oheight out) = Some (y, x) /\
    forall k, 0 <= k < ocolors b -> sample_at out y x k = sample_at b r c k.
Proof.
  intros sides b out (Bw & Bh & Bc & _) (W & C & D & P) [tag T] y x Hy Hx.
  assert (S : exists r c, 0 <= r < oheight b /\ 0 <= c < owidth b /\ seen_at sides r c (owidth out) (oheight out) = Some (y, x)).
  { unfold exif in T.
    repeat match type of T with match ?v with _ => _ end = _ => destruct v; try discriminate T end;
    injection T as <-; cbn [turned fst snd] in D; unfold seen_at; cbn [fst snd from_side];
    first [ exists y, x; split; [lia|]; split; [lia|]; f_equal; f_equal; lia
          | exists (oheight out - 1 - y), x; split; [lia|]; split; [lia|]; f_equal; f_equal; lia
          | exists y, (owidth out - 1 - x); split; [lia|]; split; [lia|]; f_equal; f_equal; lia
          | exists (oheight out - 1 - y), (owidth out - 1 - x); split; [lia|]; split; [lia|]; f_equal; f_equal; lia
          | exists x, y; split; [lia|]; split; [lia|]; f_equal; f_equal; lia
          | exists (owidth out - 1 - x), y; split; [lia|]; split; [lia|]; f_equal; f_equal; lia
          | exists x, (oheight out - 1 - y); split; [lia|]; split; [lia|]; f_equal; f_equal; lia
          | exists (owidth out - 1 - x), (oheight out - 1 - y); split; [lia|]; split; [lia|]; f_equal; f_equal; lia ]. }
  destruct S as (r & c & Hr & Hc & S). exists r, c. split; [assumption|]. split; [assumption|]. split; [assumption|].
  destruct (P r c Hr Hc) as (y' & x' & S' & _ & _ & K). rewrite S in S'. injection S' as <- <-. exact K.
Qed.
Lemma other_tags : forall (b : opbuf A) tag, exif tag = None -> orient z b (from_u16 tag) = Ok b.
Proof.
  intros b tag E. assert (from_u16 tag = Unknown) as ->; [|reflexivity].
  assert (N : ~ (1 <= tag <= 8)).
  { intros H. assert (K : tag = 1 \/ tag = 2 \/ tag = 3 \/ tag = 4 \/ tag = 5 \/ tag = 6 \/ tag = 7 \/ tag = 8) by lia.
    repeat destruct K as [->|K]; [..|subst tag]; discriminate E. }
  unfold from_u16. repeat match goal with |- context [tag =? ?n] => replace (tag =? n) with false by lia end. reflexivity.
Qed.
Lemma rotate_zero_width : forall h c (o : orientation), o <> Normal -> o <> Unknown ->
  swaps o = false -> orient z (mkop 0 h c []) o = Panic.
Proof. intros h c [] H1 H2 H3; try congruence; try discriminate; reflexivity. Qed.

(** Every orientation has an inverse in the table. *)
Definition inverse (o : orientation) : orientation :=
  match o with Rotate90 => Rotate270 | Rotate270 => Rotate90 | o => o end.
Lemma rotate_inverse : forall (b : opbuf A) o, well_formed b ->
  (r <- rotate_buffer z b o ;; rotate_buffer z r (inverse o)) = Ok b.
Proof. intros b o W. rewrite (rotate_comp o (inverse o) Normal b W) by (destruct o; reflexivity). reflexivity. Qed.
Lemma rotate_invertible : forall o, exists o', forall (b : opbuf A), well_formed b ->
  (r <- rotate_buffer z b o ;; rotate_buffer z r o') = Ok b /\
  (r <- rotate_buffer z b o' ;; rotate_buffer z r o) = Ok b.
Proof.
  intros o. exists (inverse o). intros b W. split; [apply rotate_inverse; assumption|].
  rewrite (rotate_comp (inverse o) o Normal b W) by (destruct o; reflexivity). reflexivity.
Qed.
Lemma involutions : forall (b : opbuf A), well_formed b ->
  (r <- flip_horizontal z b ;; flip_horizontal z r) = Ok b /\
  (r <- flip_vertical z b ;; flip_vertical z r) = Ok b /\
  (r <- transpose z b ;; transpose z r) = Ok b.
Proof.
  intros b W. split; [exact (rotate_inverse b HorizontalFlip W)|].
  split; [exact (rotate_inverse b VerticalFlip W)|exact (rotate_inverse b Transpose W)].
Qed.
Lemma quarter_turns : forall (b : opbuf A), well_formed b ->
  (r <- rotate_buffer z b Rotate90 ;; rotate_buffer z r Rotate90) = rotate_buffer z b Rotate180 /\
  (r <- rotate_buffer z b Rotate90 ;; rotate_buffer z r Rotate180) = rotate_buffer z b Rotate270.
Proof. intros b W. split; apply rotate_comp; try assumption; reflexivity. Qed.
Lemma closed : forall o1 o2, exists o3, after (matrix o2) (matrix o1) = matrix o3.
Proof.
  intros [] []; first [exists Normal; reflexivity | exists HorizontalFlip; reflexivity | exists Rotate180; reflexivity
   | exists VerticalFlip; reflexivity | exists Transpose; reflexivity | exists Rotate90; reflexivity
   | exists Transverse; reflexivity | exists Rotate270; reflexivity].
Qed.
End Comp.

Definition sample_buf : opbuf Z := mkop 3 2 1 [1; 2; 3; 4; 5; 6].
Lemma sample_buf_wf : well_formed sample_buf.
Proof. vm_compute. repeat split; intros; discriminate. Qed.
