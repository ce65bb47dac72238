(** Levels, white balance and splines, put in terms of lists. *)
From Coq Require Import String ZArith List Bool Reals Lia Lra ZifyBool ZifyNat.
From Flocq Require Import Core BinarySingleNaN.
From Verif Require Import Base Num F32 Cfa Transform Image Gofloat Colors Pipeline Spec_Orient Spec_Rgb Spec_Real Spec_Spline
  P_Base P_Orient P_F32 P_Color1 P_Color2 P_Matrix P_Lab P_Spline P_Spline2 P_Srgb1 P_Srgb2 P_White.
Import ListNotations.
Local Open Scope Z_scope.

Lemma nth_first : forall {A} (l : list A) n i, (i < n)%nat -> nth_error (firstn n l) i = nth_error l i.
Proof. intros A l. induction l as [|a l IH]; intros [|n] [|i] H; cbn; try lia; try reflexivity. apply IH. lia. Qed.
Lemma nth_skip : forall {A} (l : list A) n i, nth_error (skipn n l) i = nth_error l (n + i).
Proof. intros A l n. revert l. induction n as [|n IH]; intros l i; [reflexivity|]. destruct l; [destruct i; reflexivity|]. apply IH. Qed.

Lemma all_pixels : forall {A} (P : A -> Prop) (out : opbuf A) w h, well_formed out -> ocolors out = 4 -> owidth out = w -> oheight out = h ->
  (forall y x, 0 <= y < h -> 0 <= x < w -> exists a b c d, pixel out y x = [a; b; c; d] /\ P a /\ P b /\ P c /\ P d) ->
  Forall P (odata out).
Proof.
  intros A P out w h (B1 & B2 & B3 & L & _) C <- <- H. apply Forall_forall. intros v I. apply In_nth_error in I. destruct I as [k I].
  assert (K : (k < length (odata out))%nat) by (apply nth_error_Some; congruence).
  destruct (px_split (owidth out) (oheight out) 4 (Z.of_nat k)) as [y [x [c [Hy [Hx [Hc Ek]]]]]]; [lia|lia|rewrite C in L; lia|].
  destruct (H y x Hy Hx) as (a & b & u & d & Q & Pa & Pb & Pu & Pd).
  assert (G : nth_error (pixel out y x) (Z.to_nat c) = Some v).
  { unfold pixel, run. rewrite C. rewrite nth_first, nth_skip by lia. rewrite <- I. f_equal. lia. }
  rewrite Q in G. assert (D : c = 0 \/ c = 1 \/ c = 2 \/ c = 3) by lia.
  destruct D as [-> | [-> | [-> | ->]]]; cbn in G; injection G as <-; assumption.
Qed.

Section F.
Context {M : Mode}.
Variable cbrt : f32 -> f32.
Variable pow : f32 -> f32 -> f32.
Local Instance N : Num f32 := f32_num cbrt pow.

Lemma level_all : forall (img : rawimage f32) (b : opbuf f32), well_formed b -> ocolors b = 4 ->
  exists out, level_and_balance img b = Ok out /\ owidth out = owidth b /\ oheight out = oheight b /\ ocolors out = 4 /\
    length (odata out) = length (odata b) /\ Forall (fun v => is_nan v = false /\ f32_le v (f32_of 1) = true) (odata out).
Proof.
  intros img b W C. destruct (level_ok (N := N) img b W C) as [out [E [W2 [Ew [Eh [Ec P]]]]]]. exists out.
  split; [exact E|]. split; [exact Ew|]. split; [exact Eh|]. split; [exact Ec|]. split.
  - destruct W as (_ & _ & _ & L & _). destruct W2 as (_ & _ & _ & L2 & _). apply Nat2Z.inj. rewrite L, L2, Ew, Eh, Ec, C. reflexivity.
  - apply (all_pixels _ out _ _ W2 Ec Ew Eh). intros y x Hy Hx. destruct (P y x Hy Hx) as (r & g & u & e & _ & Q). cbv zeta in Q.
    do 4 eexists. split; [exact Q|]. repeat split; apply level_bounded.
Qed.

Lemma le_e : forall x y, is_nan x = false -> is_nan y = false -> f32_le x y = true <-> (eR x <= eR y)%R.
Proof.
  intros x y Nx Ny. rewrite <- lt_e_false by assumption. unfold f32_le, f32_lt, Bleb, Bltb, SpecFloat.SFleb, SpecFloat.SFltb.
  change (SpecFloat.SFcompare (B2SF x) (B2SF y)) with (Bcompare x y). change (SpecFloat.SFcompare (B2SF y) (B2SF x)) with (Bcompare y x).
  rewrite (Bcompare_swap _ _ x y). destruct (Bcompare x y) as [[]|] eqn:E; cbn; try (split; congruence).
  destruct x as [[]|[]| |[]], y as [[]|[]| |[]]; cbn in Nx, Ny; try discriminate; cbn in E; discriminate.
Qed.
Lemma lt_nan : forall x y, f32_lt x y = true -> is_nan x = false /\ is_nan y = false.
Proof. intros [[]|[]| |[]] [[]|[]| |[]] H; cbn in H |- *; auto; discriminate. Qed.
Lemma le_nan : forall x y, f32_le x y = true -> is_nan x = false /\ is_nan y = false.
Proof. intros [[]|[]| |[]] [[]|[]| |[]] H; cbn in H |- *; auto; discriminate. Qed.

Lemma some_at0 : forall {A} (z : A) l i a, nth_error l i = Some a -> Z.of_nat i < zlen l /\ at0 z l (Z.of_nat i) = a.
Proof.
  intros A z l i a H. assert (K : (i < length l)%nat) by (apply nth_error_Some; congruence). split; [unfold zlen; lia|].
  unfold at0. rewrite Nat2Z.id. apply nth_error_nth. exact H.
Qed.

Lemma f32_curve : forall xs ys : list f32, points xs ys -> ascending (fun a b => f32_lt a b = true) xs ->
  exists s, spline_new xs ys = Ok s /\
    (forall v, exists r, interpolate s v = Ok r) /\
    (forall i x y, nth_error xs i = Some x -> nth_error ys i = Some y -> interpolate s x = Ok y) /\
    (forall i x y v, S i = length xs -> nth_error xs i = Some x -> nth_error ys i = Some y -> f32_le x v = true -> interpolate s v = Ok y).
Proof.
  intros xs ys [EL L] SX. assert (LEN : 2 <= zlen xs) by (unfold zlen; lia). assert (LENY : zlen ys = zlen xs) by (unfold zlen; lia).
  assert (LIM : zlen xs < 2 ^ 63) by (unfold zlen; lia). set (z := f32_of 0).
  assert (SX2 : forall i j, 0 <= i < j -> j < zlen xs -> f32_lt (at0 z xs i) (at0 z xs j) = true).
  { intros i j Hi Hj. apply (SX (Z.to_nat i) (Z.to_nat j)); [lia|apply at0_nth_error; lia|apply at0_nth_error; lia]. }
  assert (GX : forall i, 0 <= i < zlen xs -> is_nan (at0 z xs i) = false).
  { intros i Hi. destruct (Z.eq_dec i 0) as [->|NE]; [apply (lt_nan _ _ (SX2 0 1 ltac:(lia) ltac:(lia)))|apply (lt_nan _ _ (SX2 0 i ltac:(lia) ltac:(lia)))]. }
  assert (SORTED : forall i j, 0 <= i < j -> j < zlen xs -> (eR (at0 z xs i) < eR (at0 z xs j))%R).
  { intros i j Hi Hj. apply lt_e; [apply GX; lia|apply GX; lia|apply SX2; assumption]. }
  destruct (spline_new_ok z xs ys LEN LENY) as [s [E SP]]. exists s. split; [exact E|].
  split; [intros v; apply (interpolate_total z xs ys LEN LENY s SP LIM)|]. split.
  - intros i x y Hx Hy. destruct (some_at0 z xs i x Hx) as [Bi <-]. destruct (some_at0 z ys i y Hy) as [_ <-].
    apply (at_point z xs ys LEN LENY s SP LIM (fun v => is_nan v = false) eR lt_e le_e GX SORTED); [apply GX; lia|lia|reflexivity].
  - intros i x y v Ei Hx Hy Hv. destruct (some_at0 z xs i x Hx) as [Bi <-]. destruct (some_at0 z ys i y Hy) as [_ <-].
    replace (Z.of_nat i) with (zlen xs - 1) in * by (unfold zlen; lia). destruct (le_nan _ _ Hv) as [Na Nv].
    apply (beyond z xs ys LEN LENY s SP LIM (fun v => is_nan v = false) eR lt_e le_e GX); [exact Nv|]. apply le_e; assumption.
Qed.
End F.

Section R.
Context {M : Mode}.
Variable root3 : R -> R.
Variable power : R -> R -> R.
Local Instance NR : Num R := real_num root3 power.

Lemma r_curve : forall xs ys : list R, points xs ys -> ascending Rlt xs ->
  exists s, spline_new xs ys = Ok s /\
    (forall i x y, nth_error xs i = Some x -> nth_error ys i = Some y -> interpolate s x = Ok y) /\
    (forall i x x', nth_error xs i = Some x -> nth_error xs (S i) = Some x' ->
       exists c, (forall v, (x <= v <= x')%R -> interpolate s v = Ok (cubic c v)) /\
         (i = O -> forall v, (v <= x)%R -> interpolate s v = Ok (cubic c v))) /\
    (forall i x y v, S i = length xs -> nth_error xs i = Some x -> nth_error ys i = Some y -> (x <= v)%R -> interpolate s v = Ok y) /\
    (ascending Rle ys ->
       (forall v w a b x, nth_error xs 0 = Some x -> (x <= v)%R -> (v <= w)%R -> interpolate s v = Ok a -> interpolate s w = Ok b -> (a <= b)%R) /\
       (forall v i x x' y y', nth_error xs i = Some x -> nth_error xs (S i) = Some x' -> nth_error ys i = Some y -> nth_error ys (S i) = Some y' ->
          (x <= v <= x')%R -> exists r, interpolate s v = Ok r /\ (y <= r <= y')%R)).
Proof.
  intros xs ys [EL L] SX. assert (LEN : 2 <= zlen xs) by (unfold zlen; lia). assert (LENY : zlen ys = zlen xs) by (unfold zlen; lia).
  assert (LIM : zlen xs < 2 ^ 63) by (unfold zlen; lia).
  assert (SX2 : forall i j, 0 <= i < j -> j < zlen xs -> (at0 0%R xs i < at0 0%R xs j)%R).
  { intros i j Hi Hj. apply (SX (Z.to_nat i) (Z.to_nat j)); [lia|apply at0_nth_error; lia|apply at0_nth_error; lia]. }
  destruct (spline_new_ok 0%R xs ys LEN LENY) as [s [E SP]]. exists s. split; [exact E|].
  assert (PT : forall i x y, nth_error xs i = Some x -> nth_error ys i = Some y -> interpolate s x = Ok y).
  { intros i x y Hx Hy. destruct (some_at0 0%R xs i x Hx) as [Bi <-]. destruct (some_at0 0%R ys i y Hy) as [_ <-]. apply (r_point root3 power xs ys LEN LENY SX2 s SP LIM). lia. }
  split; [exact PT|]. split; [|split].
  - intros i x x' Hx Hx'. destruct (some_at0 0%R xs i x Hx) as [Bi <-]. destruct (some_at0 0%R xs (S i) x' Hx') as [Bj <-].
    replace (Z.of_nat (S i)) with (Z.of_nat i + 1) in * by lia. set (k := Z.of_nat i) in *.
    assert (Hk : 0 <= k < zlen xs - 1) by lia.
    assert (Q : exists c, forall v, piece 0%R xs ys k v = cubic c v).
    { set (x := at0 0%R xs k). set (y := at0 0%R ys k). set (t := tangent 0%R xs ys k). set (a := fst (curvature 0%R xs ys k)). set (b := snd (curvature 0%R xs ys k)).
      exists (y - t * x + a * x * x - b * x * x * x, t - 2 * a * x + 3 * b * x * x, a - 3 * b * x, b)%R. intros v. unfold piece, cubic. fold x y t a b.
      cbn [n_add n_sub n_mul NR real_num]. ring. }
    destruct Q as [c Q]. exists c. split.
    + intros v Hv. rewrite <- Q. apply (r_piece root3 power xs ys LEN LENY SX2 s SP LIM); [exact Hk|exact Hv].
    + intros -> v [Hv|Hv]; rewrite <- Q.
      * apply (r_before root3 power xs ys LEN LENY SX2 s SP LIM). exact Hv.
      * apply (r_piece root3 power xs ys LEN LENY SX2 s SP LIM); [exact Hk|]. subst v. split; [apply Rle_refl|]. apply Rlt_le, SX2; lia.
  - intros i x y v Ei Hx Hy Hv. destruct (some_at0 0%R xs i x Hx) as [Bi <-]. destruct (some_at0 0%R ys i y Hy) as [_ <-].
    replace (Z.of_nat i) with (zlen xs - 1) in * by (unfold zlen; lia). apply (r_beyond root3 power xs ys LEN LENY s SP LIM). exact Hv.
  - intros SY. assert (SY2 : forall i j, 0 <= i <= j -> j < zlen xs -> (at0 0%R ys i <= at0 0%R ys j)%R).
    { intros i j Hi Hj. destruct (Z.eq_dec i j) as [->|NE]; [apply Rle_refl|]. apply (SY (Z.to_nat i) (Z.to_nat j)); [lia|apply at0_nth_error; lia|apply at0_nth_error; lia]. }
    split.
    + intros v w a b x Hx H1 H2 Ea Eb. destruct (some_at0 0%R xs 0 x Hx) as [_ <-].
      exact (r_rises root3 power xs ys LEN LENY SX2 SY2 s SP LIM v w a b H1 H2 Ea Eb).
    + intros v i x x' y y' Hx Hx' Hy Hy' Hv.
      destruct (some_at0 0%R xs i x Hx) as [Bi <-]. destruct (some_at0 0%R xs (S i) x' Hx') as [Bj <-].
      destruct (some_at0 0%R ys i y Hy) as [_ <-]. destruct (some_at0 0%R ys (S i) y' Hy') as [_ <-].
      replace (Z.of_nat (S i)) with (Z.of_nat i + 1) in * by lia.
      eexists. split; [apply (r_piece root3 power xs ys LEN LENY SX2 s SP LIM (Z.of_nat i) v); [lia|exact Hv]|].
      apply (piece_between root3 power xs ys SX2 SY2); [lia|exact Hv].
Qed.

Lemma rgb_inverted : forall m rgb cam, sound_camera m -> full_rank m -> measures m rgb cam -> app34 (pseudoinverse (rgb_to_cam m)) cam = rgb.
Proof.
  intros m rgb cam S F H. apply (measured_cam root3 power) in H. subst cam. apply mul34_apply. apply (pinv_left root3 power). apply cam_rank; assumption.
Qed.
Lemma neutral_row : forall row g, response row white3 <> 0%R -> response g white3 <> 0%R ->
  (n_div (n_div n1 (row_sum (raw_row root3 power row))) (n_div n1 (row_sum (raw_row root3 power g))) * response row white3 = response g white3)%R.
Proof.
  intros row g H1 H2. rewrite !(row_sum_dot root3 power), !(raw_dot root3 power). unfold n1. cbn [n_div n_of NR real_num]. field. auto.
Qed.
Lemma neutral_balance : forall m, sound_camera m -> ~ absent (e1 m) ->
  (~ absent (e0 m) -> (e0 (neutralwb m) * response (e0 m) white3 = response (e1 m) white3)%R) /\
  (e1 (neutralwb m) * response (e1 m) white3 = response (e1 m) white3)%R /\
  (~ absent (e2 m) -> (e2 (neutralwb m) * response (e2 m) white3 = response (e1 m) white3)%R) /\
  (~ absent (e3 m) -> (e3 (neutralwb m) * response (e3 m) white3 = response (e1 m) white3)%R).
Proof.
  intros [r0 r1 r2 r3] (S0 & S1 & S2 & S3) P1. cbn [e0 e1 e2 e3] in *. destruct S1 as [S1|S1]; [contradiction|].
  assert (G : forall row, sound_filter row -> ~ absent row -> response row white3 <> 0%R) by (intros row [A|A] B; [contradiction|exact A]).
  repeat split; intros; apply neutral_row; auto.
Qed.

Definition simple_camera : vec4 (vec3 R) := (V4 (V3 1 0 0) (V3 0 1 0) (V3 0 0 1) (V3 0 0 0))%R.
Lemma simple_sound : sound_camera simple_camera /\ full_rank simple_camera /\ measures simple_camera white3 (V4 1 1 1 0)%R.
Proof.
  assert (R0 : response (V3 1 0 0)%R white3 <> 0%R) by (unfold response, dot3, app33, map3, srgb_primaries, white3; cbn [a0 a1 a2]; unfold dot3; cbn [a0 a1 a2]; lra).
  assert (R1 : response (V3 0 1 0)%R white3 <> 0%R) by (unfold response, dot3, app33, map3, srgb_primaries, white3; cbn [a0 a1 a2]; unfold dot3; cbn [a0 a1 a2]; lra).
  assert (R2 : response (V3 0 0 1)%R white3 <> 0%R) by (unfold response, dot3, app33, map3, srgb_primaries, white3; cbn [a0 a1 a2]; unfold dot3; cbn [a0 a1 a2]; lra).
  split; [|split].
  - unfold sound_camera, simple_camera, sound_filter. cbn [e0 e1 e2 e3]. repeat split; (right; assumption) || (left; reflexivity).
  - intros [a b c] H. unfold app43, simple_camera, map4, dot3 in H. cbn [e0 e1 e2 e3 a0 a1 a2] in H. injection H as H1 H2 H3 _. f_equal; lra.
  - unfold measures, simple_camera. cbn [e0 e1 e2 e3]. repeat split; (right; split; [assumption|]; field; assumption) || (left; split; reflexivity).
Qed.
End R.

(** The cube root of the library of real numbers. *)
Lemma root3_exists : is_root3 (fun x => Rpower x (/ 3)).
Proof.
  intros x H. rewrite <- !Rpower_plus. replace (/ 3 + / 3 + / 3)%R with 1%R by field. apply Rpower_1. exact H.
Qed.

Lemma simple_white : exists m cam, sound_camera m /\ full_rank m /\ measures m white3 cam /\
  forall (M : Mode) root3 power (img : rawimage R), let N := real_num root3 power in
  is_root3 root3 -> i_xyz_to_cam img = m ->
  exists r g b, (channel3 <- camera_to_lab img (mkop 1 1 4 [e0 cam; e1 cam; e2 cam; e3 cam]) ;;
                 channel3 <- base_curve channel3 ;; lab_to_rec709 channel3) = Ok (mkop 1 1 3 [r; g; b]) /\
    (1.19 < r /\ g < 0.96 /\ b < 0.92)%R.
Proof.
  exists simple_camera, (V4 1 1 1 0)%R. destruct simple_sound as [S [F Me]]. split; [exact S|]. split; [exact F|]. split; [exact Me|].
  intros M root3 power img N0 ROOT E. apply (white_cast root3 power ROOT); rewrite E; assumption.
Qed.

Lemma shown_srgb : forall {M : Mode} cbrt pow (img : rawimage f32) maxwidth maxheight, let N := f32_num cbrt pow in
  raw_ok img -> crop_ok img -> usual img -> shown_width img < 2 ^ 23 -> shown_height img < 2 ^ 23 ->
  room (shown_width img) (shown_height img) maxwidth maxheight ->
  exists w h bytes, to_srgb img maxwidth maxheight = Ok (w, h, bytes) /\
    0 < w <= shown_width img /\ 0 < h <= shown_height img /\
    Z.of_nat (length bytes) = w * h * 3 /\ Forall (fun b => 0 <= b <= 255) bytes.
Proof.
  intros M cbrt pow img mw mh N0 RO CO US SW SH R. apply srgb_ok; try assumption; unfold shown_width, shown_height in *; destruct (sideways (i_orientation img)); assumption.
Qed.
Lemma shown_rgb : forall {M : Mode} cbrt pow (img : rawimage f32) maxwidth maxheight, let N := f32_num cbrt pow in
  raw_ok img -> crop_ok img -> usual img -> shown_width img < 2 ^ 23 -> shown_height img < 2 ^ 23 ->
  room (shown_width img) (shown_height img) maxwidth maxheight ->
  forall convert, convert = to_rgb \/ convert = to_linear_rgb ->
  exists out, convert img maxwidth maxheight = Ok out /\ well_formed out /\ ocolors out = 3 /\
    owidth out <= shown_width img /\ oheight out <= shown_height img.
Proof.
  intros M cbrt pow img mw mh N0 RO CO US SW SH R convert [-> | ->]; apply decoder_ok; try assumption;
    unfold shown_width, shown_height in *; destruct (sideways (i_orientation img)); assumption.
Qed.

Lemma ascending_list : forall {A} (lt : A -> A -> Prop) l,
  ForallOrdPairs lt l -> ascending lt l.
Proof.
  intros A lt l H. induction H as [|a l H1 H2 IH]; intros i j p q L Hi Hj; [destruct i; discriminate|].
  destruct j as [|j]; [lia|]. cbn in Hj. destruct i as [|i].
  - cbn in Hi. injection Hi as <-. rewrite Forall_forall in H1. apply H1. exact (nth_error_In _ _ Hj).
  - cbn in Hi. apply (IH i j); [lia|exact Hi|exact Hj].
Qed.
Lemma base_single : let N := f32_num (fun x => x) (fun x _ => x) in
  points base_xs base_ys /\ ascending (fun a b => f32_lt a b = true) base_xs.
Proof.
  cbv zeta. split; [split; [reflexivity|cbn; lia]|]. apply ascending_list. unfold base_xs.
  repeat (apply FOP_cons; [repeat (apply Forall_cons; [vm_compute; reflexivity|]); apply Forall_nil|]). apply FOP_nil.
Qed.
Lemma base_exact : let N := real_num (fun x => x) (fun x _ => x) in
  points base_xs base_ys /\ ascending Rlt base_xs /\ ascending Rle base_ys.
Proof.
  cbv zeta. split; [split; [reflexivity|cbn; lia]|]. split; apply ascending_list; unfold base_xs, base_ys, lit; cbn [n_div n_of real_num];
    repeat (apply FOP_cons; [repeat (apply Forall_cons; [lra|]); apply Forall_nil|]); apply FOP_nil.
Qed.
