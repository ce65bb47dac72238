(** C58: Sony's compression of blocks.  A row is cut into blocks of sixteen values
    of eleven bits; a block takes sixteen bytes.  [Spec_Sony] says how it is written
    and what is left out. *)
From Coq Require Import ZArith List Bool Lia.
From Verif Require Import Base Lookup Arw Spec_Bits Spec_Image Spec_Ljpeg Spec_Curve Spec_Nikon Spec_Sony.
From Verif Require Import P_Ljpeg1 P_Srw3b P_Sony3 P_Sony4.
Import ListNotations.
Local Open Scope Z_scope.

(** The picture that comes out is the one that the blocks tell, sent through the
    curve of the file. *)
Theorem C58_decoded : forall {M : Mode} pic imax imin w h e1 e2 e3 e4 buf rest,
  0 < w -> w mod 32 = 0 -> 0 <= h -> sony_picture pic imax imin w h ->
  0 <= e1 -> 0 <= e2 -> 0 <= e3 -> 0 <= e4 -> 4 <= curve_point e1 <= curve_point e2 -> curve_point e2 <= curve_point e3 <= curve_point e4 ->
  bytes buf -> bits_of_lsb buf = flat_map (sony_row pic imax imin w) (upto h) ++ rest ->
  exists table out, arw_curve [e1; e2; e3; e4] = Ok table /\ decode_arw2 buf w h table = Ok out /\
    is_image out w h (sony_toned (curve_table (curve_point e1) (curve_point e2) (curve_point e3) (curve_point e4)) pic imax imin w).
Proof. exact @sony_whole. Qed.
Print Assumptions C58_decoded.

(** A pixel is near the curve at a value that is at most fifteen below the one that
    was coded. *)
Theorem C58_near : forall pic imax imin w h p1 p2 p3 p4 r c, 0 < w -> w mod 32 = 0 -> sony_picture pic imax imin w h ->
  4 <= p1 <= p2 -> p2 <= p3 <= p4 -> p4 <= 4095 -> 0 <= r < h -> 0 <= c < w ->
  let curve := curve_table p1 p2 p3 p4 in
  pic r c - 15 <= sony_value pic imax imin r c <= pic r c /\
  near curve (2 * sony_value pic imax imin r c) (sony_toned curve pic imax imin w r c).
Proof. exact sony_near. Qed.
Print Assumptions C58_near.

(** A block whose values span less than 128 loses nothing. *)
Theorem C58_lossless : forall v imax imin, (forall i, 0 <= i < 16 -> 0 <= v i < 2048) -> extremes v imax imin -> forall i, 0 <= i < 16 ->
  v i - 15 <= block_value v imax imin i <= v i /\ (v imax - v imin < 128 -> block_value v imax imin i = v i).
Proof. exact value_bounds. Qed.
Print Assumptions C58_lossless.

(** Every block can be written. *)
Theorem C58_extremes : forall v, exists imax imin, extremes v imax imin.
Proof. exact extremes_exist. Qed.
Print Assumptions C58_extremes.

(** Only pictures whose width is a multiple of 32 are ever decoded. *)
Theorem C58_widths : forall {M : Mode} buf w h table out, 0 < w -> 0 < h -> decode_arw2 buf w h table = Ok out -> w mod 32 = 0.
Proof. exact @sony_widths. Qed.
Print Assumptions C58_widths.

(** Two rows of 32 pixels: the first has big differences, the second small ones. *)
Definition sony_pic (r c : Z) : Z := if r =? 0 then (c * c * 13 + 40 * c) mod 2048 else 1000 + (c * 7) mod 100.
Definition sony_max (r b : Z) : Z := if r =? 0 then (if b =? 0 then 8 else 5) else if b =? 0 then 7 else 6.
Definition sony_min (r b : Z) : Z := if (r =? 1) && (b =? 1) then 14 else 0.
Definition sony_data : list Z := [128; 7; 0; 2; 226; 194; 66; 170; 39; 66; 218; 29; 8; 49; 15; 77; 221; 175; 65; 193; 162; 99; 171; 154; 178; 146; 232; 133; 124; 131; 192; 175;
  74; 68; 223; 129; 131; 163; 194; 25; 169; 12; 13; 202; 70; 148; 130; 21; 67; 92; 159; 57; 65; 2; 114; 241; 148; 2; 136; 135; 165; 67; 90; 29].
Lemma sony_pic_ok : sony_picture sony_pic sony_max sony_min 32 2.
Proof.
  split.
  - intros r c Hr Hc. unfold sony_pic. destruct (r =? 0); [apply Z.mod_pos_bound; lia|]. pose proof (Z.mod_pos_bound (c * 7) 100 ltac:(lia)). lia.
  - intros r b Hr Hb. change (32 / 16) with 2 in Hb.
    assert (H : forallb (fun r => forallb (fun b => forallb (fun i => let v := block_of sony_pic r b in (v (sony_min r b) <=? v i) && (v i <=? v (sony_max r b))) (upto 16)) (upto 2)) (upto 2) = true) by (vm_compute; reflexivity).
    assert (U : forall n x, 0 <= x < n -> In x (upto n)) by (intros n x Hx; rewrite upto_zrange; apply P_Base.zrange_In; exact Hx).
    unfold extremes. split; [|split; [|split]].
    + unfold sony_max. destruct (r =? 0), (b =? 0); lia.
    + unfold sony_min. destruct ((r =? 1) && (b =? 1)); lia.
    + unfold sony_max, sony_min. destruct (r =? 0) eqn:E0, (r =? 1) eqn:E1, (b =? 0) eqn:E2, (b =? 1) eqn:E3; cbn [andb]; lia.
    + intros i Hi. pose proof (proj1 (forallb_forall _ _) H r (U 2 r Hr)) as H1. cbv beta in H1. pose proof (proj1 (forallb_forall _ _) H1 b (U 2 b Hb)) as H2. cbv beta in H2.
      pose proof (proj1 (forallb_forall _ _) H2 i (U 16 i Hi)) as H3. cbv beta zeta in H3. apply andb_prop in H3. lia.
Qed.
Example C58_example : forall M : Mode, exists table out, arw_curve [8000; 10400; 12900; 14100] = Ok table /\ decode_arw2 (sony_data ++ [1; 2]) 32 2 table = Ok out /\
  is_image out 32 2 (sony_toned (curve_table 2000 2600 3225 3525) sony_pic sony_max sony_min 32).
Proof.
  intros M. refine (C58_decoded sony_pic sony_max sony_min 32 2 8000 10400 12900 14100 (sony_data ++ [1; 2]) (bits_of_lsb [1; 2]) _ _ _ sony_pic_ok _ _ _ _ _ _ _ _); try lia; try reflexivity.
  - unfold curve_point. lia.
  - unfold curve_point. lia.
  - apply bytes_check. vm_compute. reflexivity.
Qed.
(** Nothing is lost in the second row; the first loses some. *)
Example C58_values : forallb (fun c => sony_value sony_pic sony_max sony_min 1 c =? sony_pic 1 c) (upto 32) = true /\
  map (fun c => (sony_pic 0 c, sony_value sony_pic sony_max sony_min 0 c)) [2; 4; 7; 30; 31] = [(132, 128); (368, 368); (917, 917); (612, 608); (1445, 1445)].
Proof. split; vm_compute; reflexivity. Qed.
