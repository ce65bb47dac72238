(** Theorems about orientation (C12, C13). *)
From Coq Require Import ZArith List Bool.
From Verif Require Import Base Transform Spec_Orient P_Orient2.
Import ListNotations.
Local Open Scope Z_scope.

(** C12: the image with EXIF orientation 1..8 is shown as the standard says. *)
Theorem C12_exif : forall {M : Mode} {A : Type} (z : A) (b : opbuf A) tag sides,
  well_formed b -> exif tag = Some sides ->
  exists out, orient z b (from_u16 tag) = Ok out /\ shown sides b out.
Proof. exact @exif_shown. Qed.
Example C12_example :
  well_formed sample_buf /\ exif 6 = Some (Right, Top) /\
  orient (M := true) 0 sample_buf (from_u16 6) = Ok (mkop 2 3 1 [4; 1; 5; 2; 6; 3]).
Proof. split; [exact sample_buf_wf|]. split; [reflexivity|]. vm_compute. reflexivity. Qed.
Print Assumptions C12_exif.
(** [shown] accounts for every pixel of the output. *)
Theorem C12_every_output_pixel : forall {A : Type} sides (b out : opbuf A),
  well_formed b -> shown sides b out -> (exists tag, exif tag = Some sides) ->
  forall y x, 0 <= y < oheight out -> 0 <= x < owidth out ->
  exists r c, 0 <= r < oheight b /\ 0 <= c < owidth b /\
    seen_at sides r c (owidth out) (oheight out) = Some (y, x) /\
    forall k, 0 <= k < ocolors b -> sample_at out y x k = sample_at b r c k.
Proof. exact @shown_all. Qed.
Print Assumptions C12_every_output_pixel.
(** Any other value of the tag leaves the image alone. *)
Theorem C12_other_tags : forall {M : Mode} {A : Type} (z : A) (b : opbuf A) tag,
  exif tag = None -> orient z b (from_u16 tag) = Ok b.
Proof. exact @other_tags. Qed.
Example C12_other_example : exif 0 = None /\ exif 9 = None /\ exif 65535 = None.
Proof. repeat split. Qed.
Print Assumptions C12_other_tags.
(** An empty image cannot be oriented. *)
Theorem C12_empty_refuted : exists (b : opbuf Z),
  owidth b = 0 /\ Z.of_nat (length (odata b)) = owidth b * oheight b * ocolors b /\
  forall M : Mode, orient 0 b HorizontalFlip = Panic.
Proof. exists (mkop 0 4 3 []). repeat split. Qed.
Print Assumptions C12_empty_refuted.

(** C13: orientations compose as linear maps of the plane ... *)
Theorem C13_compose : forall {M : Mode} {A : Type} (z : A) o1 o2 o3 (b : opbuf A),
  well_formed b -> after (matrix o2) (matrix o1) = matrix o3 ->
  bind (rotate_buffer z b o1) (fun r => rotate_buffer z r o2) = rotate_buffer z b o3.
Proof. exact @rotate_comp. Qed.
Print Assumptions C13_compose.
(** ... the eight maps are closed under composition ... *)
Theorem C13_closed : forall o1 o2, exists o3, after (matrix o2) (matrix o1) = matrix o3.
Proof. exact closed. Qed.
Print Assumptions C13_closed.
(** ... and every orientation can be undone. *)
Theorem C13_invertible : forall {M : Mode} {A : Type} (z : A) o, exists o', forall (b : opbuf A),
  well_formed b ->
  bind (rotate_buffer z b o) (fun r => rotate_buffer z r o') = Ok b /\
  bind (rotate_buffer z b o') (fun r => rotate_buffer z r o) = Ok b.
Proof. exact @rotate_invertible. Qed.
Print Assumptions C13_invertible.
Theorem C13_involutions : forall {M : Mode} {A : Type} (z : A) (b : opbuf A), well_formed b ->
  bind (flip_horizontal z b) (flip_horizontal z) = Ok b /\
  bind (flip_vertical z b) (flip_vertical z) = Ok b /\
  bind (transpose z b) (transpose z) = Ok b.
Proof. exact @involutions. Qed.
Print Assumptions C13_involutions.
Theorem C13_quarter_turns : forall {M : Mode} {A : Type} (z : A) (b : opbuf A), well_formed b ->
  bind (rotate_buffer z b Rotate90) (fun r => rotate_buffer z r Rotate90) = rotate_buffer z b Rotate180 /\
  bind (rotate_buffer z b Rotate90) (fun r => rotate_buffer z r Rotate180) = rotate_buffer z b Rotate270.
Proof. exact @quarter_turns. Qed.
Example C13_example :
  bind (rotate_buffer (M := true) 0 sample_buf Rotate90) (fun r => rotate_buffer (M := true) 0 r Rotate90)
  = Ok (mkop 3 2 1 [6; 5; 4; 3; 2; 1]).
Proof. vm_compute. reflexivity. Qed.
Print Assumptions C13_quarter_turns.
