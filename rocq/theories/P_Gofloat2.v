(** Pictures with three components, and black-and-white sensors. *)
From Coq Require Import String ZArith List Bool Reals Lia ZifyBool ZifyNat.
From Flocq Require Import Core BinarySingleNaN.
From Verif Require Import Base Num F32 Threads Cfa Transform Image Gofloat Spec_Orient Spec_Rgb P_Base P_Threads P_Orient P_F32 P_Zip P_Gofloat.
Import ListNotations.
Local Open Scope Z_scope.

Section G.
Context {M : Mode} {A : Type} {N : Num A}.

Lemma four : forall (o : list A) a b c, zlen o = 4 ->
  exists o', (o <- upd o 0 a ;; o <- upd o 1 b ;; o <- upd o 2 c ;; upd o 3 n0) = Ok o' /\ zlen o' = 4 /\
    forall j, 0 <= j < 4 -> at0 n0 o' j = if j =? 0 then a else if j =? 1 then b else if j =? 2 then c else n0.
Proof.
  intros o a b c L. rewrite upd_ok by lia. cbn [bind]. rewrite upd_ok by (rewrite zlen_upd_nat; lia). cbn [bind]. rewrite upd_ok by (rewrite !zlen_upd_nat; lia). cbn [bind].
  rewrite upd_ok by (rewrite !zlen_upd_nat; lia). eexists. split; [reflexivity|]. split; [rewrite !zlen_upd_nat; exact L|].
  intros j Hj. rewrite (at0_upd_nat n0 _ 3 j) by (rewrite ?zlen_upd_nat; lia). rewrite (at0_upd_nat n0 _ 2 j) by (rewrite ?zlen_upd_nat; lia).
  rewrite (at0_upd_nat n0 _ 1 j) by (rewrite ?zlen_upd_nat; lia). rewrite (at0_upd_nat n0 o 0 j) by lia.
  destruct (Z.eqb_spec j 0) as [->|]; [reflexivity|]. destruct (Z.eqb_spec j 1) as [->|]; [reflexivity|]. destruct (Z.eqb_spec j 2) as [->|]; [reflexivity|].
  replace (j =? 3) with true by lia. reflexivity.
Qed.

(** Both ways that give four numbers per pixel. *)
Lemma four_colors : forall (img : rawimage A) (m : Z) (body : Z -> list A -> list Z -> res (list A)) (val : (Z -> Z) -> Z -> A), raw_ok img -> crop_ok img -> 0 < m <= i_cpp img ->
  (forall k o i, zlen o = 4 -> zlen i = m -> exists o', body k o i = Ok o' /\ zlen o' = 4 /\ forall j, 0 <= j < 4 -> at0 n0 o' j = val (at0 0 i) j) ->
  (forall f g, (forall j, 0 <= j < m -> f j = g j) -> forall j, val f j = val g j) ->
  exists d, par_lines ((i_width img - right img - left img) * 4) (odata (op_new n0 (i_width img - right img - left img) (i_height img - top img - bottom img) 4)) (fun line row =>
      src <- slice_from (i_data img) (i_width img * (row + e0 (i_crops img)) + e3 (i_crops img)) ;;
      zip_chunks 4 (Z.to_nat m) line src body) = Ok d /\
    well_formed (mkop (i_width img - right img - left img) (i_height img - top img - bottom img) 4 d) /\
    forall y x k, 0 <= y < i_height img - top img - bottom img -> 0 <= x < i_width img - right img - left img -> 0 <= k < 4 ->
      sample_at (mkop (i_width img - right img - left img) (i_height img - top img - bottom img) 4 d) y x k =
        Some (val (fun j => dat img (i_width img * (y + top img) + left img + (x * m + j))) k).
Proof.
  intros img m body val RO CO Hm Hbody Hval.
  set (w := i_width img - right img - left img). set (h := i_height img - top img - bottom img).
  assert (Hw : 0 < w) by (destruct CO as (? & ? & ? & ? & ? & ?); unfold w; lia). assert (Hh : 0 < h) by (destruct CO as (? & ? & ? & ? & ? & ?); unfold h; lia).
  assert (Lw : zlen (odata (op_new (n0 : A) w h 4)) = w * 4 * h) by (unfold op_new; cbn [odata]; rewrite zlen_repeat; nia).
  destruct (par_lines_ok (n0 : A) (w * 4) h (odata (op_new n0 w h 4)) (fun line row =>
      src <- slice_from (i_data img) (i_width img * (row + e0 (i_crops img)) + e3 (i_crops img)) ;;
      zip_chunks 4 (Z.to_nat m) line src body)
      (fun r i => val (fun j => dat img (i_width img * (r + top img) + left img + (i / 4 * m + j))) (i mod 4))) as [d [E [Ld Nd]]]; [lia|lia|exact Lw| |].
  { intros r l Hr Ll _. fold (top img) (left img). destruct (line_start img w RO CO eq_refl r Hr) as [O1 O2]. pose proof RO as (H1 & H2 & H3 & H4 & H5 & H6).
    assert (P : 0 < i_width img * i_height img) by (apply Z.mul_pos_pos; lia).
    assert (Q : i_width img * i_height img <= zlen (i_data img)).
    { unfold zlen. rewrite H4. assert (i_width img * i_height img * 1 <= i_width img * i_height img * i_cpp img) by (apply Z.mul_le_mono_nonneg_l; lia). lia. }
    assert (Q2 : m * w <= zlen (i_data img) - (i_width img * (r + top img) + left img)).
    { unfold zlen. rewrite H4. set (o := i_width img * (r + top img) + left img) in *. set (T := i_width img * i_height img) in *.
      assert (T * m <= T * i_cpp img) by (apply Z.mul_le_mono_nonneg_l; lia).
      assert (0 <= (m - 1) * (T - w)) by (apply Z.mul_nonneg_nonneg; lia). nia. }
    rewrite slice_from_ok by lia. cbn [bind].
    destruct (zip_ok (n0 : A) 0 4 m body (fun k => val (fun j => dat img (i_width img * (r + top img) + left img + (k * m + j))))
      eq_refl ltac:(lia) w l (skipn (Z.to_nat (i_width img * (r + top img) + left img)) (i_data img))) as [l' [El [Ll' Nl']]].
    - lia.
    - lia.
    - rewrite zlen_skipn. lia.
    - intros k o i Hk Lo Li _ Ni. destruct (Hbody k o i Lo Li) as [o' [Eo [Lo' No]]]. exists o'. split; [exact Eo|]. split; [exact Lo'|].
      intros j Hj. rewrite No by exact Hj. apply Hval. intros j' Hj'. rewrite Ni by exact Hj'. assert (0 <= k * m) by (apply Z.mul_nonneg_nonneg; lia). rewrite at0_skipn by lia. reflexivity.
    - exists l'. split; [exact El|]. split; [lia|]. intros i Hi. pose proof (Z.div_mod i 4 ltac:(lia)) as D. pose proof (Z.mod_pos_bound i 4 ltac:(lia)) as Bd.
      rewrite D at 1. rewrite (Z.mul_comm 4). apply Nl'; [|exact Bd]. split; [apply Z.div_pos; lia|]. apply Z.div_lt_upper_bound; lia. }
  exists d. split; [exact E|]. pose proof RO as (H1 & H2 & H3 & H4 & H5 & H6).
  assert (WB : w * h * 4 < 2 ^ 63).
  { assert (w * h <= i_width img * i_height img) by (destruct CO as (? & ? & ? & ? & ? & ?); apply Z.mul_le_mono_nonneg; unfold w, h; lia). change (2 ^ 61) with 2305843009213693952 in *. change (2 ^ 63) with 9223372036854775808. nia. }
  assert (WF : well_formed (mkop w h 4 d)) by (apply well_formed_mk; [exact Hw|exact Hh|lia|lia|exact WB]).
  split; [exact WF|]. intros y x k Hy Hx Hk.
  rewrite (sample_px n0) by (cbn [ocolors owidth oheight]; (exact WF || lia)). unfold px. cbn [odata owidth ocolors].
  replace ((y * w + x) * 4 + k) with (y * (w * 4) + (x * 4 + k)) by ring. rewrite Nd by lia. f_equal.
  replace ((x * 4 + k) / 4) with x by (symmetry; rewrite Z.div_add_l by lia; rewrite Z.div_small by lia; lia).
  replace ((x * 4 + k) mod 4) with k by (symmetry; rewrite Z.add_comm, Z.mod_add by lia; apply Z.mod_small; lia). reflexivity.
Qed.

Lemma mono_crop : forall img, raw_ok img -> crop_ok img -> i_cpp img = 1 -> cfa_is_valid (i_cfa img) = false ->
  exists out, gofloat img = Ok out /\ well_formed out /\ ocolors out = 4 /\
    owidth out = i_width img - left img - right img /\ oheight out = i_height img - top img - bottom img /\
    forall y x, 0 <= y < oheight out -> 0 <= x < owidth out ->
      exists v, raw_at img (y + top img) (x + left img) 0 = Some v /\
        (forall k, 0 <= k < 3 -> sample_at out y x k = Some (n_of v)) /\ sample_at out y x 3 = Some n0.
Proof.
  intros img RO CO C1 V. destruct (crop_sizes img RO CO) as [S1 [S2 [S3 S4]]]. unfold gofloat. rewrite S1. cbn [bind]. rewrite S2. cbn [bind]. rewrite S3. cbn [bind]. rewrite S4. cbn [bind].
  unfold is_monochrome. rewrite C1, V. cbn [Z.eqb Pos.eqb andb negb].
  destruct (four_colors img 1 (fun _ o i => v <- get i 0 ;; let v := n_of v in o <- upd o 0 v ;; o <- upd o 1 v ;; o <- upd o 2 v ;; upd o 3 n0)
    (fun f j => if j =? 0 then n_of (f 0) else if j =? 1 then n_of (f 0) else if j =? 2 then n_of (f 0) else n0) RO CO ltac:(lia)) as [d [E [WF Nd]]].
  - intros k o i Lo Li. rewrite (get_at0 0) by lia. cbn [bind]. apply four. exact Lo.
  - intros f g H j. rewrite (H 0) by lia. reflexivity.
  - change (Z.to_nat 1) with 1%nat in E. cbv zeta in E |- *. rewrite E. cbn [bind]. eexists. split; [reflexivity|]. split; [exact WF|]. cbn [ocolors owidth oheight]. split; [reflexivity|]. split; [lia|]. split; [lia|].
    intros y x Hy Hx. exists (dat img ((y + top img) * i_width img + (x + left img))). split; [|split].
    + rewrite raw_dat; [rewrite C1; f_equal; f_equal; lia|exact RO| | |lia]; destruct CO as (? & ? & ? & ? & ? & ?); lia.
    + intros k Hk. rewrite Nd by lia. f_equal. replace (i_width img * (y + top img) + left img + (x * 1 + 0)) with ((y + top img) * i_width img + (x + left img)) by lia.
      destruct (k =? 0) eqn:K0; [reflexivity|]. destruct (k =? 1) eqn:K1; [reflexivity|]. replace (k =? 2) with true by lia. reflexivity.
    + rewrite Nd by lia. reflexivity.
Qed.
(** What the program does with three components per pixel: rows are read one
    picture width apart, not three. *)
Lemma rgb_rows : forall img, raw_ok img -> crop_ok img -> i_cpp img = 3 ->
  exists out, gofloat img = Ok out /\ well_formed out /\ ocolors out = 4 /\
    owidth out = i_width img - left img - right img /\ oheight out = i_height img - top img - bottom img /\
    forall y x, 0 <= y < oheight out -> 0 <= x < owidth out ->
      (forall k, 0 <= k < 3 -> exists v, nth_error (i_data img) (Z.to_nat (i_width img * (y + top img) + left img + 3 * x + k)) = Some v /\ sample_at out y x k = Some (n_of v)) /\
      sample_at out y x 3 = Some n0.
Proof.
  intros img RO CO C1. destruct (crop_sizes img RO CO) as [S1 [S2 [S3 S4]]]. unfold gofloat. rewrite S1. cbn [bind]. rewrite S2. cbn [bind]. rewrite S3. cbn [bind]. rewrite S4. cbn [bind].
  unfold is_monochrome. rewrite C1. cbn [Z.eqb Pos.eqb andb negb].
  destruct (four_colors img 3 (fun _ o i => a <- get i 0 ;; o <- upd o 0 (n_of a) ;; b <- get i 1 ;; o <- upd o 1 (n_of b) ;; c <- get i 2 ;; o <- upd o 2 (n_of c) ;; upd o 3 n0)
    (fun f j => if j =? 0 then n_of (f 0) else if j =? 1 then n_of (f 1) else if j =? 2 then n_of (f 2) else n0) RO CO ltac:(lia)) as [d [E [WF Nd]]].
  - intros k o i Lo Li. rewrite (get_at0 0) by lia. cbn [bind]. destruct (four o (n_of (at0 0 i 0)) (n_of (at0 0 i 1)) (n_of (at0 0 i 2)) Lo) as [o' [F1 F2]].
    exists o'. split; [|exact F2]. rewrite <- F1. destruct (upd o 0 (n_of (at0 0 i 0))); cbn [bind]; try reflexivity.
    rewrite (get_at0 0) by lia. cbn [bind]. destruct (upd a 1 (n_of (at0 0 i 1))); cbn [bind]; try reflexivity. rewrite (get_at0 0) by lia. reflexivity.
  - intros f g H j. rewrite (H 0), (H 1), (H 2) by lia. reflexivity.
  - change (Z.to_nat 3) with 3%nat in E. cbv zeta in E |- *. rewrite E. cbn [bind]. eexists. split; [reflexivity|]. split; [exact WF|]. cbn [ocolors owidth oheight]. split; [reflexivity|]. split; [lia|]. split; [lia|].
    intros y x Hy Hx. split.
    + intros k Hk. exists (dat img (i_width img * (y + top img) + left img + 3 * x + k)). split.
      * apply at0_nth_error. destruct (line_start img _ RO CO eq_refl y Hy) as [O1 O2]. destruct RO as (H1 & H2 & H3 & H4 & H5 & H6). unfold zlen. rewrite H4, C1. destruct CO as (? & ? & ? & ? & ? & ?). 
        set (T := i_width img * i_height img) in *. assert (i_width img * 1 <= T) by (apply Z.mul_le_mono_nonneg_l; lia). lia.
      * rewrite Nd by lia. f_equal. replace (x * 3) with (3 * x) by lia. rewrite !Z.add_assoc.
        destruct (Z.eqb_spec k 0) as [->|]; [reflexivity|]. destruct (Z.eqb_spec k 1) as [->|]; [reflexivity|]. destruct (Z.eqb_spec k 2) as [->|]; [reflexivity|lia].
    + rewrite Nd by lia. reflexivity.
Qed.
End G.

Lemma rgb_wrong : raw_ok two_pixels /\ crop_ok two_pixels /\ i_cpp two_pixels = 3 /\
  forall (M : Mode) cbrt pow, exists out, gofloat (N := f32_num cbrt pow) two_pixels = Ok out /\
    raw_at two_pixels 1 0 0 = Some 4 /\ sample_at out 1 0 0 = Some (f32_of 2).
Proof.
  assert (RO : raw_ok two_pixels) by (unfold raw_ok; cbn; repeat split; try lia; repeat constructor; lia).
  assert (CO : crop_ok two_pixels) by (unfold crop_ok; cbn; lia).
  split; [exact RO|]. split; [exact CO|]. split; [reflexivity|]. intros M cbrt pow.
  destruct (rgb_rows (N := f32_num cbrt pow) two_pixels RO CO eq_refl) as [out [E [_ [_ [W [H P]]]]]].
  exists out. split; [exact E|]. split; [reflexivity|]. destruct (P 1 0) as [P1 _]; [rewrite H; cbn; lia|rewrite W; cbn; lia|].
  destruct (P1 0 ltac:(lia)) as [v [V1 V2]]. cbn in V1. injection V1 as <-. exact V2.
Qed.
