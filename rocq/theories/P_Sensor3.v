(** Proofs about interlaced lines and stripes. *)
From Coq Require Import String ZArith List Bool Lia ZifyBool ZifyNat.
From Verif Require Import Base Threads Mos Cr2 Spec_Bits Spec_Image Spec_Huffman Spec_Sensor P_Base P_Threads P_Huff2 P_Huff4 P_Ljpeg2 P_Ljpeg6.
Import ListNotations.
Local Open Scope Z_scope.
Ltac Zify.zify_post_hook ::= Z.div_mod_to_equations.

(** A loop in which step [x] gives the cells of [D x] their final value. *)
Lemma rfold_writes : forall {A} (step : A -> list Z -> res (list Z)) (D : A -> Z -> bool) (f : Z -> Z) L xs out,
  zlen out = L ->
  (forall x o, In x xs -> zlen o = L -> exists o', step x o = Ok o' /\ zlen o' = L /\
     forall j, 0 <= j < L -> znth o' j = if D x j then f j else znth o j) ->
  exists r, rfold step xs out = Ok r /\ zlen r = L /\
    forall j, 0 <= j < L -> znth r j = if existsb (fun x => D x j) xs then f j else znth out j.
Proof.
  intros A step D f L. induction xs as [|x xs IH]; intros out Lo H.
  - exists out. split; [reflexivity|]. split; [exact Lo|]. reflexivity.
  - destruct (H x out (or_introl eq_refl) Lo) as [o1 [E1 [L1 V1]]]. cbn [rfold]. rewrite E1. cbn [bind].
    destruct (IH o1 L1) as [r [E [Lr V]]]; [intros y o Hy; apply H; right; exact Hy|].
    exists r. split; [exact E|]. split; [exact Lr|]. intros j Hj. rewrite V by exact Hj. cbn [existsb].
    rewrite V1 by exact Hj. destruct (D x j); destruct (existsb (fun x0 => D x0 j) xs); reflexivity.
Qed.

Lemma copy_at_ok : forall out a b line, 0 <= a -> b <= zlen out -> zlen line = b - a ->
  exists o, copy_at out a b line = Ok o /\ zlen o = zlen out /\
    forall j, 0 <= j -> znth o j = if (a <=? j) && (j <? b) then znth line (j - a) else znth out j.
Proof.
  intros out a b line Ha Hb Hl. pose proof (zlen_nonneg line) as Hn. unfold copy_at. rewrite slice_ok by lia. cbn [bind].
  replace (zlen line =? b - a) with true by lia. eexists. split; [reflexivity|]. split.
  - rewrite !zlen_app, zlen_firstn, zlen_skipn. lia.
  - intros j Hj. destruct ((a <=? j) && (j <? b)) eqn:E.
    + rewrite znth_app_r by (rewrite zlen_firstn; lia). rewrite zlen_firstn. rewrite znth_app_l by lia. f_equal. lia.
    + destruct (Z_lt_ge_dec j a).
      * rewrite znth_app_l by (rewrite zlen_firstn; lia). apply (znth_firstn a); lia.
      * rewrite znth_app_r by (rewrite zlen_firstn; lia). rewrite zlen_firstn. rewrite znth_app_r by lia.
        replace (Z.to_nat b) with (Z.to_nat b) by reflexivity. rewrite znth_skipn by lia. f_equal. lia.
Qed.

(** ** Interlaced lines *)
Section Interlace.
Context {M : Mode}.

Lemma interlaced_range : forall h i, 0 <= i < h -> 0 <= interlaced h i < h.
Proof. intros h i Hi. unfold interlaced. destruct (Z.even i); lia. Qed.
Lemma interlaced_inj : forall h i j, 0 <= i < h -> 0 <= j < h -> interlaced h i = interlaced h j -> i = j.
Proof.
  intros h i j Hi Hj. unfold interlaced. rewrite !Zeven_mod. unfold Zeq_bool. 
  destruct (i mod 2 ?= 0) eqn:E1; destruct (j mod 2 ?= 0) eqn:E2;
  rewrite ?Z.compare_eq_iff, ?Z.compare_lt_iff, ?Z.compare_gt_iff in *; lia.
Qed.
Lemma interlaced_surj : forall h r, 0 <= r < h -> exists i, 0 <= i < h /\ interlaced h i = r.
Proof.
  intros h r Hr. destruct (Z_lt_ge_dec (2 * r) h) as [H|H].
  - exists (2 * r). split; [lia|]. unfold interlaced. rewrite Z.even_mul. cbn [Z.even orb]. lia.
  - exists (2 * (h - 1 - r) + 1). split; [lia|]. unfold interlaced. rewrite Z.even_add, Z.even_mul. cbn [Z.even orb Bool.eqb]. lia.
Qed.

Lemma chunks_rows : forall (data : list Z) w h, 0 < w -> 0 <= h -> zlen data = w * h ->
  enumerate (chunks (Z.to_nat w) data) = map (fun i => (i, firstn (Z.to_nat w) (skipn (Z.to_nat (i * w)) data))) (zrange 0 h).
Proof.
  intros data w h Hw Hh L. destruct (chunks_spec (Z.to_nat w) data ltac:(lia)) as [E [B1 B2]].
  assert (Lc : length (chunks (Z.to_nat w) data) = Z.to_nat h) by (unfold zlen in L; nia).
  rewrite E, Lc, enumerate_map. unfold zrange. rewrite Z.sub_0_r, map_map. apply map_ext. intros i.
  rewrite Z.add_0_l. f_equal. unfold chunk_of. f_equal. f_equal. nia.
Qed.

Theorem interlace_ok : forall data w h pix, 0 < w -> 0 <= h < 2 ^ 63 ->
  is_image data w h (fun i c => pix (interlaced h i) c) ->
  exists out, mos_interlace data w h = Ok out /\ is_image out w h pix.
Proof.
  intros data w h pix Hw Hh [L V]. fold (zlen data) in L. unfold mos_interlace. replace (w =? 0) with false by lia.
  rewrite (chunks_rows data w h Hw (proj1 Hh) L).
  destruct (rfold_writes (fun '(row, line) out =>
    orow <- (if Z.land row 1 =? 1 then (a <- usub h 1 ;; usub a (row / 2)) else Ok (row / 2)) ;;
    copy_at out (orow * w) ((orow + 1) * w) line) (fun p j => j / w =? interlaced h (fst p)) (fun j => pix (j / w) (j mod w)) (w * h)
    (map (fun i => (i, firstn (Z.to_nat w) (skipn (Z.to_nat (i * w)) data))) (zrange 0 h)) (zeros (w * h))) as [out [E [Lo Vo]]].
  - rewrite zlen_zeros. nia.
  - intros p o Hp Lo. apply in_map_iff in Hp. destruct Hp as [i [<- Hi]]. apply zrange_In in Hi. cbn [fst].
    assert (Er : (if Z.land i 1 =? 1 then (a <- usub h 1 ;; usub a (i / 2)) else Ok (i / 2)) = Ok (interlaced h i)).
    { change 1 with (2 ^ 1 - 1) at 1. rewrite (land_ones_mod i 1) by lia. change (2 ^ 1) with 2. unfold interlaced. rewrite Zeven_mod. unfold Zeq_bool.
      destruct (i mod 2 ?= 0) eqn:E1; rewrite ?Z.compare_eq_iff, ?Z.compare_lt_iff, ?Z.compare_gt_iff in *.
      - replace (i mod 2 =? 1) with false by lia. reflexivity.
      - lia.
      - replace (i mod 2 =? 1) with true by lia. rewrite (usub_ok h 1) by lia. cbn [bind]. rewrite usub_ok by lia. reflexivity. }
    rewrite Er. cbn [bind]. pose proof (interlaced_range h i Hi) as Ri. set (orow := interlaced h i) in *.
    destruct (copy_at_ok o (orow * w) ((orow + 1) * w) (firstn (Z.to_nat w) (skipn (Z.to_nat (i * w)) data))) as [o' [E' [L' V']]];
      [nia|rewrite Lo; nia|rewrite zlen_firstn, zlen_skipn, L; nia|].
    exists o'. split; [exact E'|]. split; [lia|]. intros j Hj. rewrite V' by lia.
    assert (Q : ((orow * w <=? j) && (j <? (orow + 1) * w)) = (j / w =? orow)).
    { destruct (j / w =? orow) eqn:Eq.
      - apply Z.eqb_eq in Eq. pose proof (Z.div_mod j w ltac:(lia)). pose proof (Z.mod_pos_bound j w Hw). nia.
      - apply Z.eqb_neq in Eq. destruct ((orow * w <=? j) && (j <? (orow + 1) * w)) eqn:X; [|reflexivity]. exfalso. apply Eq.
        symmetry. apply (Z.div_unique j w orow (j - orow * w)); lia. }
    rewrite Q. destruct (j / w =? orow) eqn:Eq; [|reflexivity].
    apply Z.eqb_eq in Eq. pose proof (Z.div_mod j w ltac:(lia)). pose proof (Z.mod_pos_bound j w Hw).
    replace (j - orow * w) with (j mod w) by nia. rewrite znth_firstn by lia. rewrite znth_skipn by nia.
    specialize (V i (j mod w) Hi ltac:(lia)). unfold znth. rewrite V. unfold orow in Eq. rewrite Eq. reflexivity.
  - exists out. split; [exact E|]. split; [exact Lo|]. intros r c Hr Hc. fold (znth out (r * w + c)).
    rewrite Vo by nia. rewrite Z.div_add_l by lia. rewrite (Z.div_small c) by lia.
    rewrite (Z.add_comm (r * w)), Z_mod_plus_full, Z.mod_small by lia. rewrite Z.add_0_r.
    destruct (interlaced_surj h r Hr) as [i [Hi Ei]].
    match goal with |- (if ?b then _ else _) = _ => assert (Hb : b = true) end.
    { apply existsb_exists. eexists. split; [apply in_map; apply zrange_In; exact Hi|]. cbn [fst]. lia. }
    rewrite Hb. reflexivity.
Qed.
End Interlace.

(** ** Stripes *)
Section Stripes.
Context {M : Mode}.

Definition v1_step (ljpegout : list Z) (width height sh cpp : Z) (fieldwidth : Z) (st : Z * Z * list Z) : res (Z * Z * list Z) :=
  let '(fieldstart, fieldpos, out) := st in
  if sh =? 0 then Panic else
  let fieldwidth := fieldwidth / sh * cpp in
  out <- rfold (stripe_line ljpegout width fieldstart fieldpos fieldwidth) (zrange 0 height) out ;;
  Ok (fieldstart + fieldwidth, fieldpos + fieldwidth * height, out).
Lemma stripes_v1_eq : forall ljpegout width height sh cpp fws, stripes_v1 ljpegout width height sh cpp fws =
  ('(_, _, out) <- rfold (v1_step ljpegout width height sh cpp) fws (0, 0, zeros (width * height)) ;; Ok out).
Proof. reflexivity. Qed.

Lemma stripe_ok : forall data before after width h start fw pix out,
  0 <= start -> 0 <= fw -> start + fw <= width -> 0 <= h -> zlen out = width * h ->
  is_image data fw h pix ->
  exists o, rfold (stripe_line (before ++ data ++ after) width start (zlen before) fw) (zrange 0 h) out = Ok o /\ zlen o = width * h /\
    forall r c, 0 <= r < h -> 0 <= c < width ->
      znth o (r * width + c) = if (start <=? c) && (c <? start + fw) then pix r (c - start) else znth out (r * width + c).
Proof.
  intros data before after width h start fw pix out Hs Hf Hw Hh Lo [Ld Vd]. fold (zlen data) in Ld.
  pose proof (zlen_nonneg before) as Pb. pose proof (zlen_nonneg after) as Pa.
  destruct (rfold_writes (stripe_line (before ++ data ++ after) width start (zlen before) fw)
     (fun row j => (row * width + start <=? j) && (j <? row * width + start + fw))
     (fun j => pix (j / width) (j mod width - start)) (width * h) (zrange 0 h) out Lo) as [o [E [L V]]].
  - intros row o Hr Lo'. apply zrange_In in Hr. unfold stripe_line. rewrite slice_ok by nia. cbn [bind].
    rewrite slice_ok by (rewrite ?zlen_app; nia). cbn [bind].
    destruct (copy_at_ok o (row * width + start) (row * width + start + fw)
      (firstn (Z.to_nat (zlen before + row * fw + fw - (zlen before + row * fw))) (skipn (Z.to_nat (zlen before + row * fw)) (before ++ data ++ after))))
      as [o' [E' [L' V']]].
    + nia.
    + nia.
    + rewrite zlen_firstn, zlen_skipn, !zlen_app. nia.
    + exists o'. split; [exact E'|]. split; [lia|]. intros j Hj. rewrite V' by lia.
      destruct ((row * width + start <=? j) && (j <? row * width + start + fw)) eqn:Ej; [|reflexivity].
      assert (Eq : j / width = row) by (symmetry; apply (Z.div_unique j width row (j - row * width)); lia).
      assert (Em : j mod width = j - row * width) by (symmetry; apply (Z.mod_unique j width row); lia).
      rewrite Eq, Em. rewrite znth_firstn by lia. rewrite znth_skipn by nia. rewrite znth_app_r by nia. rewrite znth_app_l by nia.
      rewrite <- (Vd row (j - row * width - start)) by lia. unfold znth. f_equal. f_equal. lia.
  - exists o. split; [exact E|]. split; [exact L|]. intros r c Hr Hc. rewrite V by nia.
    rewrite Z.div_add_l by lia. rewrite (Z.div_small c) by lia.
    rewrite (Z.add_comm (r * width)), Z_mod_plus_full, Z.mod_small by lia. rewrite Z.add_0_r.
    destruct ((start <=? c) && (c <? start + fw)) eqn:Ec.
    + match goal with |- (if ?b then _ else _) = _ => assert (Hb : b = true) end.
      { apply existsb_exists. exists r. split; [apply zrange_In; exact Hr|]. lia. }
      rewrite Hb. reflexivity.
    + match goal with |- (if ?b then _ else _) = _ => destruct b eqn:Hb end; [|reflexivity].
      apply existsb_exists in Hb. destruct Hb as [r' [Hr' Hb]]. apply zrange_In in Hr'.
      assert (r' = r) by nia. subst r'. lia.
Qed.

Lemma stripes_loop : forall parts datas before after width h sh cpp fws start out,
  sh <> 0 -> 0 <= h -> 0 <= start -> zlen out = width * h ->
  Forall2 (fun p d => 0 <= fst p /\ is_image d (fst p) h (snd p)) parts datas ->
  map (fun f => f / sh * cpp) fws = map fst parts -> start + total_width parts <= width ->
  exists s p o, rfold (v1_step (before ++ concat datas ++ after) width h sh cpp) fws (start, zlen before, out) = Ok (s, p, o) /\
    zlen o = width * h /\
    forall r c, 0 <= r < h -> 0 <= c < width ->
      znth o (r * width + c) = if (start <=? c) && (c <? start + total_width parts) then side_by_side parts r (c - start)
                               else znth out (r * width + c).
Proof.
  intros parts datas before after width h sh cpp fws start out Hsh Hh. 
  revert datas before fws start out. induction parts as [|[w pix] parts IH]; intros datas before fws start out Hs Lo F E T.
  - destruct fws; [|discriminate]. inversion F; subst. exists start, (zlen before), out. split; [reflexivity|]. split; [exact Lo|].
    intros r c Hr Hc. unfold total_width. cbn [map sum fold_right]. replace ((start <=? c) && (c <? start + 0)) with false by lia. reflexivity.
  - destruct fws as [|f fws]; [discriminate|]. cbn [map fst] in E. injection E as Ew E.
    inversion F as [|? d ? ds [Pw Id] F']; subst. cbn [fst snd] in *. cbn [concat rfold].
    unfold v1_step at 1. replace (sh =? 0) with false by lia. cbv zeta.
    assert (P : 0 <= total_width parts).
    { clear -F'. unfold total_width. induction F' as [|p d ps ds [H _] F IH]; cbn [map sum fold_right]; [lia|]. fold (sum (map fst ps)). lia. }
    assert (T' : total_width ((f / sh * cpp, pix) :: parts) = f / sh * cpp + total_width parts) by reflexivity.
    rewrite T' in T |- *.
    destruct (stripe_ok d before (concat ds ++ after) width h start (f / sh * cpp) pix out) as [o1 [E1 [L1 V1]]];
      try assumption; try lia.
    rewrite <- app_assoc, E1. cbn [bind].
    assert (Eb : zlen before + f / sh * cpp * h = zlen (before ++ d)) by (rewrite zlen_app; destruct Id as [Ld _]; unfold zlen in *; lia).
    rewrite Eb. destruct (IH ds (before ++ d) fws (start + f / sh * cpp) o1 ltac:(lia) L1 F' E ltac:(lia)) as [s [p [o [Eo [Lz V]]]]].
    rewrite <- app_assoc in Eo. exists s, p, o. split; [exact Eo|]. split; [exact Lz|].
    intros r c Hr Hc. rewrite V, V1 by assumption. cbn [side_by_side].
    destruct (c <? start) eqn:C1.
    + replace ((start + f / sh * cpp <=? c) && (c <? start + f / sh * cpp + total_width parts)) with false by lia.
      replace ((start <=? c) && (c <? start + f / sh * cpp)) with false by lia.
      replace ((start <=? c) && (c <? start + (f / sh * cpp + total_width parts))) with false by lia. reflexivity.
    + destruct (c <? start + f / sh * cpp) eqn:C2.
      * replace ((start + f / sh * cpp <=? c) && (c <? start + f / sh * cpp + total_width parts)) with false by lia.
        replace ((start <=? c) && true) with true by lia.
        replace ((start <=? c) && (c <? start + (f / sh * cpp + total_width parts))) with true by lia.
        replace (c - start <? f / sh * cpp) with true by lia. reflexivity.
      * replace (c - start <? f / sh * cpp) with false by lia. rewrite andb_false_r.
        destruct (c <? start + f / sh * cpp + total_width parts) eqn:C3.
        -- replace ((start + f / sh * cpp <=? c) && true) with true by lia.
           replace ((start <=? c) && (c <? start + (f / sh * cpp + total_width parts))) with true by lia. f_equal. lia.
        -- rewrite andb_false_r.
           replace ((start <=? c) && (c <? start + (f / sh * cpp + total_width parts))) with false by lia. reflexivity.
Qed.

Theorem stripes_v1_ok : forall parts datas after width h sh cpp fws,
  sh <> 0 -> 0 <= h -> 0 <= width ->
  Forall2 (fun p d => 0 <= fst p /\ is_image d (fst p) h (snd p)) parts datas ->
  map (fun f => f / sh * cpp) fws = map fst parts -> total_width parts <= width ->
  exists out, stripes_v1 (concat datas ++ after) width h sh cpp fws = Ok out /\ is_image out width h (side_by_side parts).
Proof.
  intros parts datas after width h sh cpp fws Hsh Hh Hw F E T. rewrite stripes_v1_eq.
  destruct (stripes_loop parts datas [] after width h sh cpp fws 0 (zeros (width * h)) Hsh Hh ltac:(lia)) as [s [p [o [Eo [Lo V]]]]];
    try assumption; [rewrite zlen_zeros; nia|].
  cbn [app] in Eo. change (zlen (@nil Z)) with 0 in Eo. rewrite Eo. cbn [bind]. exists o. split; [reflexivity|].
  split; [exact Lo|]. intros r c Hr Hc. fold (znth o (r * width + c)). rewrite V by assumption. rewrite Z.sub_0_r.
  replace (0 <=? c) with true by lia. cbn [andb]. destruct (c <? 0 + total_width parts) eqn:C; [reflexivity|].
  rewrite znth_zeros. symmetry.
  assert (G : forall ps c, Forall (fun p => 0 <= fst p) ps -> total_width ps <= c -> side_by_side ps r c = 0).
  { induction ps as [|[w pix] ps IH]; intros c' Fp Tc; [reflexivity|]. inversion Fp; subst. cbn [fst] in *. cbn [side_by_side].
    unfold total_width in Tc. cbn [map fst sum fold_right] in Tc. fold (sum (map fst ps)) in Tc. fold (total_width ps) in Tc.
    assert (0 <= total_width ps).
    { clear -H2. unfold total_width. induction ps; cbn [map sum fold_right]; [lia|]. inversion H2; subst. specialize (IHps H3). unfold sum in *. lia. }
    replace (c' <? w) with false by lia. apply IH; [assumption|lia]. }
  apply G; [|lia]. clear -F. induction F; constructor; tauto.
Qed.

(** Two lines at a time. *)
Lemma flat_pos : forall k p j H T, 0 <= k -> 0 <= p -> 0 <= j -> 0 <= H -> 0 <= T -> 0 <= (k * H + p) * T + j.
Proof. intros. nia. Qed.
Lemma flat_lt : forall k p j H T n, 0 <= k < n -> 0 <= p < H -> 0 <= j < T -> (k * H + p) * T + j < n * H * T.
Proof.
  intros k p j H T n Hk Hp Hj. assert (A : k * H + p + 1 <= n * H) by nia.
  assert (B : (k * H + p + 1) * T <= n * H * T) by (apply Z.mul_le_mono_nonneg_r; lia). lia.
Qed.
Lemma row_fit : forall width h y a n, 0 <= y < h -> 0 <= a -> a + n <= width -> 0 <= n ->
  0 <= y * width + a /\ y * width + a + n <= width * h.
Proof.
  intros width h y a n Hy Ha Hn Hn0. assert (A : 0 <= y * width) by (apply Z.mul_nonneg_nonneg; lia).
  assert (B : (y + 1) * width <= h * width) by (apply Z.mul_le_mono_nonneg_r; lia). lia.
Qed.
Lemma cell_between : forall width y a n r c, 0 <= a -> a + n <= width -> 0 <= c < width ->
  ((y * width + a <=? r * width + c) && (r * width + c <? y * width + a + n)) = ((r =? y) && (a <=? c) && (c <? a + n)).
Proof.
  intros width y a n r c Ha Hn Hc.
  destruct ((y * width + a <=? r * width + c) && (r * width + c <? y * width + a + n)) eqn:X.
  - assert (E : r * width + c = y * width + (a + (r * width + c - (y * width + a)))) by lia.
    apply cell_inj in E; [|exact Hc|lia]. destruct E as [E1 E2]. subst y. lia.
  - destruct ((r =? y) && (a <=? c) && (c <? a + n)) eqn:Y; [|reflexivity]. exfalso.
    assert (r = y) by lia. subst y. lia.
Qed.

Section V2.
Variables (data : list Z) (pix : Z -> Z -> Z) (lw lh width h fw nf T H2 L3 lh2 : Z).
Hypothesis Elw : lw = 3 * L3.
Hypothesis Efw : fw = 3 * T.
Hypothesis Eh : h = 2 * H2.
Hypothesis P3 : 0 < L3.
Hypothesis PT : 0 < T.
Hypothesis PH : 0 <= H2.
Hypothesis Hnf : 0 <= nf.
Hypothesis Hnw : nf * fw <= width.
Hypothesis Hdata : is_image data lw lh pix.
Hypothesis Hlh : 2 * lh2 <= lh.
Hypothesis Henough : nf * H2 * T <= lh2 * L3.

Lemma fw3 : fw / 3 = T. Proof. rewrite Efw. rewrite Z.mul_comm. apply Z.div_mul. discriminate. Qed.
Lemma lw3 : lw / 3 = L3. Proof. rewrite Elw. rewrite Z.mul_comm. apply Z.div_mul. discriminate. Qed.
Lemma h2 : h / 2 = H2. Proof. rewrite Eh. rewrite Z.mul_comm. apply Z.div_mul. discriminate. Qed.

Definition ipos (n : Z) : Z := (n / L3) * (2 * lw) + 3 * (n mod L3).
Definition num (r c : Z) : Z := (c / fw * H2 + r / 2) * T + c mod fw / 3.
Definition Inv (N : Z) (out : list Z) : Prop :=
  zlen out = width * h /\
  forall r c, 0 <= r < h -> 0 <= c < width ->
    znth out (r * width + c) = if (c <? nf * fw) && (num r c <? N) then two_line_stripes pix lw fw nf h r c else 0.

Lemma data_at : forall n s k, 0 <= n < lh2 * L3 -> 0 <= s < 2 -> 0 <= k < 3 ->
  0 <= ipos n + s * lw + k < zlen data /\ znth data (ipos n + s * lw + k) = two_lines pix lw n s k.
Proof.
  intros n s k Hn Hs Hk. destruct Hdata as [Ld Vd]. fold (zlen data) in Ld.
  pose proof (Z.mod_pos_bound n L3 P3) as B.
  assert (Q : 0 <= n / L3 < lh2) by (split; [apply Z.div_pos; lia|apply Z.div_lt_upper_bound; lia]).
  assert (R : 0 <= 2 * (n / L3) + s < lh) by lia. assert (C : 0 <= 3 * (n mod L3) + k < lw) by lia.
  assert (E : ipos n + s * lw + k = (2 * (n / L3) + s) * lw + (3 * (n mod L3) + k)) by (unfold ipos; ring).
  rewrite E. split.
  - rewrite Ld. destruct (row_fit lw lh (2 * (n / L3) + s) (3 * (n mod L3) + k) 1 R ltac:(lia) ltac:(lia) ltac:(lia)). lia.
  - unfold two_lines. rewrite lw3. rewrite <- Vd by assumption. reflexivity.
Qed.

Lemma ipos_next : forall n, 0 <= n ->
  (if (ipos n + 3) mod lw =? 0 then ipos n + 3 + lw else ipos n + 3) = ipos (n + 1).
Proof.
  intros n Hn. pose proof (Z.mod_pos_bound n L3 P3) as B.
  pose proof (Z.div_mod n L3 ltac:(lia)) as D.
  assert (Em : (ipos n + 3) mod lw = (3 * (n mod L3) + 3) mod lw).
  { unfold ipos. replace (n / L3 * (2 * lw) + 3 * (n mod L3) + 3) with (3 * (n mod L3) + 3 + (n / L3 * 2) * lw) by ring.
    apply Z_mod_plus_full. }
  rewrite Em. set (q := n / L3) in *. set (m := n mod L3) in *.
  destruct (Z.eq_dec m (L3 - 1)) as [E|E].
  - replace (3 * m + 3) with lw by lia. rewrite Z_mod_same_full. cbn [Z.eqb]. unfold ipos. fold q m.
    assert (X : n + 1 = L3 * (q + 1) + 0) by (rewrite D, E; ring).
    assert (E1 : (n + 1) / L3 = q + 1) by (symmetry; apply (Z.div_unique _ _ _ 0); [lia|exact X]).
    assert (E2 : (n + 1) mod L3 = 0) by (symmetry; apply (Z.mod_unique _ _ (q + 1)); [lia|exact X]).
    rewrite E1, E2, E, Elw. ring.
  - rewrite (Z.mod_small (3 * m + 3)) by lia. replace (3 * m + 3 =? 0) with false by lia. unfold ipos. fold q m.
    assert (X : n + 1 = L3 * q + (m + 1)) by lia.
    assert (E1 : (n + 1) / L3 = q) by (symmetry; apply (Z.div_unique _ _ _ (m + 1)); [lia|exact X]).
    assert (E2 : (n + 1) mod L3 = m + 1) by (symmetry; apply (Z.mod_unique _ _ q); [lia|exact X]).
    rewrite E1, E2. ring.
Qed.

Lemma sub_bound : forall c, 0 <= c mod fw / 3 < T.
Proof. intros c. pose proof (Z.mod_pos_bound c fw ltac:(lia)) as B. split; [apply Z.div_pos; lia|apply Z.div_lt_upper_bound; lia]. Qed.
Lemma half_bound : forall r, 0 <= r < h -> 0 <= r / 2 < H2.
Proof. intros r Hr. split; [apply Z.div_pos; lia|apply Z.div_lt_upper_bound; lia]. Qed.

Lemma num_is : forall r c k p j, 0 <= r < h -> 0 <= p < H2 -> 0 <= j < T ->
  num r c = (k * H2 + p) * T + j <-> (c / fw = k /\ r / 2 = p /\ c mod fw / 3 = j).
Proof.
  intros r c k p j Hr Hp Hj. unfold num. pose proof (sub_bound c) as B1. pose proof (half_bound r Hr) as B2.
  split; [|intros [-> [-> ->]]; reflexivity].
  intros E. apply cell_inj in E; [|assumption|assumption]. destruct E as [E1 E2]. apply cell_inj in E1; [|assumption|assumption]. tauto.
Qed.

(** The pixels of one column pair. *)
Lemma num_block : forall r c k p j, 0 <= r < h -> 0 <= p < H2 -> 0 <= j < T ->
  num r c = (k * H2 + p) * T + j <-> (2 * p <= r <= 2 * p + 1 /\ k * fw + 3 * j <= c < k * fw + 3 * j + 3).
Proof.
  intros r c k p j Hr Hp Hj. rewrite num_is by assumption. split.
  - intros [E1 [E2 E3]]. pose proof (Z.div_mod c fw ltac:(lia)) as D. rewrite E1 in D.
    pose proof (Z.div_mod (c mod fw) 3 ltac:(lia)) as D3. rewrite E3 in D3. pose proof (Z.mod_pos_bound (c mod fw) 3 ltac:(lia)).
    rewrite Z.mul_comm in D. lia.
  - intros [E1 E2].
    assert (E3 : c / fw = k) by (symmetry; apply (Z.div_unique _ _ _ (c - k * fw)); [lia|rewrite (Z.mul_comm fw); lia]).
    assert (E4 : c mod fw = c - k * fw) by (symmetry; apply (Z.mod_unique _ _ k); [lia|rewrite (Z.mul_comm fw); lia]).
    split; [exact E3|]. split; [lia|]. rewrite E4. symmetry. apply (Z.div_unique _ _ _ (c - k * fw - 3 * j)); lia.
Qed.

Lemma block_value : forall r c k p j, 0 <= k < nf -> 0 <= p < H2 -> 0 <= j < T ->
  2 * p <= r <= 2 * p + 1 -> k * fw + 3 * j <= c < k * fw + 3 * j + 3 ->
  znth (firstn 3 (skipn (Z.to_nat (ipos ((k * H2 + p) * T + j) + (r - 2 * p) * lw)) data)) (c - (k * fw + 3 * j)) =
      two_line_stripes pix lw fw nf h r c /\ (c <? nf * fw) = true.
Proof.
  intros r c k p j Hk Hp Hj Er Ec. set (N := (k * H2 + p) * T + j).
  assert (N1 : 0 <= N < lh2 * L3).
  { split; [apply flat_pos; lia|]. eapply Z.lt_le_trans; [apply flat_lt; eassumption|exact Henough]. }
  assert (Cl : (k + 1) * fw <= nf * fw) by (apply Z.mul_le_mono_nonneg_r; lia).
  assert (C : (c <? nf * fw) = true) by lia.
  split; [|exact C]. unfold two_line_stripes. rewrite C, fw3, h2.
  assert (En : num r c = N) by (apply num_block; try assumption; lia).
  apply num_is in En; [|lia|exact Hp|exact Hj]. destruct En as [E3 [E7 E5]].
  rewrite E3, E7, E5. fold N.
  assert (E6 : c mod 3 = c - (k * fw + 3 * j)) by (symmetry; apply (Z.mod_unique _ _ (k * T + j)); [lia|rewrite Efw; ring]).
  assert (E8 : r mod 2 = r - 2 * p) by lia.
  rewrite E6, E8. change 3%nat with (Z.to_nat 3). rewrite znth_firstn by lia.
  destruct (data_at N (r - 2 * p) (c - (k * fw + 3 * j)) N1 ltac:(lia) ltac:(lia)) as [B V]. rewrite <- V.
  destruct (data_at N (r - 2 * p) 0 N1 ltac:(lia) ltac:(lia)) as [B0 _].
  rewrite znth_skipn; [reflexivity|lia|lia].
Qed.

Lemma pair_step : forall k p j out, 0 <= k < nf -> 0 <= p < H2 -> 0 <= j < T ->
  Inv ((k * H2 + p) * T + j) out ->
  exists out', stripe_pair data lw width (k * fw) (2 * p) (3 * j) (ipos ((k * H2 + p) * T + j), out) =
    Ok (ipos ((k * H2 + p) * T + j + 1), out') /\ Inv ((k * H2 + p) * T + j + 1) out'.
Proof.
  intros k p j out Hk Hp Hj [Lo Vo]. set (N := (k * H2 + p) * T + j) in *.
  assert (N1 : 0 <= N < lh2 * L3).
  { split; [apply flat_pos; lia|]. eapply Z.lt_le_trans; [apply flat_lt; eassumption|exact Henough]. }
  assert (Cl : (k + 1) * fw <= nf * fw) by (apply Z.mul_le_mono_nonneg_r; lia).
  assert (K0 : 0 <= k * fw) by (apply Z.mul_nonneg_nonneg; lia).
  set (a := k * fw + 3 * j) in *.
  assert (Cb : 0 <= a /\ a + 3 <= width) by (unfold a; lia).
  assert (Rb : 0 <= 2 * p /\ 2 * p + 1 < h) by lia.
  destruct (row_fit width h (2 * p) a 3) as [F1 F2]; try lia.
  destruct (row_fit width h (2 * p + 1) a 3) as [F3 F4]; try lia.
  unfold stripe_pair.
  pose proof (data_at N 0 0 N1 ltac:(lia) ltac:(lia)) as [D00 _].
  pose proof (data_at N 0 2 N1 ltac:(lia) ltac:(lia)) as [D02 _].
  pose proof (data_at N 1 0 N1 ltac:(lia) ltac:(lia)) as [D10 _].
  pose proof (data_at N 1 2 N1 ltac:(lia) ltac:(lia)) as [D12 _].
  replace (2 * p * width + k * fw + 3 * j) with (2 * p * width + a) by (unfold a; ring).
  replace ((2 * p + 1) * width + k * fw + 3 * j) with ((2 * p + 1) * width + a) by (unfold a; ring).
  rewrite slice_ok by lia. cbn [bind].
  replace (Z.to_nat (ipos N + 3 - ipos N)) with 3%nat by lia. replace (Z.to_nat (ipos N + lw + 3 - (ipos N + lw))) with 3%nat by lia.
  destruct (copy_at_ok out (2 * p * width + a) (2 * p * width + a + 3) (firstn 3 (skipn (Z.to_nat (ipos N)) data))) as [o1 [E1 [L1 V1]]];
    [lia|lia|rewrite zlen_firstn, zlen_skipn; lia|].
  rewrite E1. cbn [bind]. rewrite slice_ok by lia. cbn [bind].
  replace (Z.to_nat (ipos N + lw + 3 - (ipos N + lw))) with 3%nat by lia.
  destruct (copy_at_ok o1 ((2 * p + 1) * width + a) ((2 * p + 1) * width + a + 3)
    (firstn 3 (skipn (Z.to_nat (ipos N + lw)) data))) as [o2 [E2 [L2 V2]]];
    [lia|lia|rewrite zlen_firstn, zlen_skipn; lia|].
  rewrite E2. cbn [bind]. replace (lw =? 0) with false by lia. rewrite ipos_next by lia.
  exists o2. split; [reflexivity|]. split; [lia|].
  intros r c Hr Hc. assert (J : 0 <= r * width + c) by (destruct (row_fit width h r c 0); lia).
  rewrite V2, V1 by exact J. rewrite Vo by assumption. rewrite !cell_between by lia.
  destruct ((r =? 2 * p + 1) && (a <=? c) && (c <? a + 3)) eqn:X1.
  - destruct (block_value r c k p j Hk Hp Hj ltac:(lia) ltac:(fold a; lia)) as [Z1 Z2]. fold N a in Z1.
    assert (En : num r c = N) by (apply num_block; try assumption; split; [lia|fold a; lia]).
    rewrite Z2, En. replace (N <? N + 1) with true by lia. cbn [andb]. rewrite <- Z1.
    assert (r = 2 * p + 1) by lia. subst r. replace (2 * p + 1 - 2 * p) with 1 by lia. rewrite Z.mul_1_l.
    f_equal. lia.
  - destruct ((r =? 2 * p) && (a <=? c) && (c <? a + 3)) eqn:X2.
    + destruct (block_value r c k p j Hk Hp Hj ltac:(lia) ltac:(fold a; lia)) as [Z1 Z2]. fold N a in Z1.
      assert (En : num r c = N) by (apply num_block; try assumption; split; [lia|fold a; lia]).
      rewrite Z2, En. replace (N <? N + 1) with true by lia. cbn [andb]. rewrite <- Z1.
      assert (r = 2 * p) by lia. subst r. rewrite Z.sub_diag, Z.mul_0_l, Z.add_0_r. f_equal. lia.
    + destruct (c <? nf * fw) eqn:C; [|reflexivity]. cbn [andb].
      assert (Nn : num r c <> N).
      { intros En. apply num_block in En; try assumption. fold a in En. lia. }
      replace (num r c <? N + 1) with (num r c <? N) by lia. reflexivity.
Qed.

Definition v2_row (fieldstart : Z) (row : Z) (st : Z * list Z) : res (Z * list Z) :=
  let '(inpos, out) := st in
  rfold (stripe_pair data lw width fieldstart row) (zrange_step 0 fw 3) (inpos, out).
Definition v2_field (_ : Z) (st : Z * Z * list Z) : res (Z * Z * list Z) :=
  let '(fieldstart, inpos, out) := st in
  '(inpos, out) <- rfold (v2_row fieldstart) (zrange_step 0 h 2) (inpos, out) ;;
  Ok (fieldstart + fw, inpos, out).
Lemma stripes_v2_eq : forall fws, zlen fws = nf -> get fws 0 = Ok fw -> stripes_v2 data lw width h fws =
  ('(_, _, out) <- rfold v2_field (zrange 0 nf) (0, 0, zeros (width * h)) ;; Ok out).
Proof. intros fws Hl Hg. unfold stripes_v2. rewrite Hg, Hl. reflexivity. Qed.

Lemma rfold_map : forall {A B S} (f : B -> S -> res S) (g : A -> B) xs s, rfold f (map g xs) s = rfold (fun x => f (g x)) xs s.
Proof. induction xs as [|x xs IH]; intros s; [reflexivity|]. cbn [map rfold]. destruct (f (g x) s); cbn [bind]; auto. Qed.

Lemma step3 : zrange_step 0 fw 3 = map (fun j => 3 * j) (zrange 0 T).
Proof.
  pose proof (zrange_step_map 0 3 0 T ltac:(lia)) as E. rewrite Z.mul_0_r, !Z.add_0_r in E.
  rewrite Efw, E. apply map_ext. intros j. lia.
Qed.
Lemma step2 : zrange_step 0 h 2 = map (fun j => 2 * j) (zrange 0 H2).
Proof.
  pose proof (zrange_step_map 0 2 0 H2 ltac:(lia)) as E. rewrite Z.mul_0_r, !Z.add_0_r in E.
  rewrite Eh, E. apply map_ext. intros j. lia.
Qed.

Lemma row_ok : forall k p out, 0 <= k < nf -> 0 <= p < H2 -> Inv ((k * H2 + p) * T) out ->
  exists out', v2_row (k * fw) (2 * p) (ipos ((k * H2 + p) * T), out) = Ok (ipos ((k * H2 + (p + 1)) * T), out') /\
    Inv ((k * H2 + (p + 1)) * T) out'.
Proof.
  intros k p out Hk Hp I. unfold v2_row. rewrite step3, rfold_map.
  destruct (rfold_zrange (fun x => stripe_pair data lw width (k * fw) (2 * p) (3 * x))
    (fun j st => exists o, st = (ipos ((k * H2 + p) * T + j), o) /\ Inv ((k * H2 + p) * T + j) o) 0 T
    (ipos ((k * H2 + p) * T), out)) as [st [E [o [-> Io]]]].
  - lia.
  - exists out. rewrite Z.add_0_r. split; [reflexivity|exact I].
  - intros j st Hj [o [-> Io]]. destruct (pair_step k p j o Hk Hp Hj Io) as [o' [E Io']].
    eexists. split; [exact E|]. exists o'. rewrite Z.add_assoc. split; [reflexivity|exact Io'].
  - replace ((k * H2 + p) * T + T) with ((k * H2 + (p + 1)) * T) in * by ring. exists o. split; [exact E|exact Io].
Qed.

Lemma field_ok : forall k out, 0 <= k < nf -> Inv (k * H2 * T) out ->
  exists out', v2_field k (k * fw, ipos (k * H2 * T), out) = Ok ((k + 1) * fw, ipos ((k + 1) * H2 * T), out') /\
    Inv ((k + 1) * H2 * T) out'.
Proof.
  intros k out Hk I. unfold v2_field. rewrite step2, rfold_map.
  destruct (rfold_zrange (fun x => v2_row (k * fw) (2 * x))
    (fun p st => exists o, st = (ipos ((k * H2 + p) * T), o) /\ Inv ((k * H2 + p) * T) o) 0 H2
    (ipos (k * H2 * T), out)) as [st [E [o [-> Io]]]].
  - lia.
  - exists out. rewrite Z.add_0_r. split; [reflexivity|exact I].
  - intros p st Hp [o [-> Io]]. destruct (row_ok k p o Hk Hp Io) as [o' [E Io']].
    eexists. split; [exact E|]. exists o'. split; [reflexivity|exact Io'].
  - rewrite E. cbn [bind]. replace ((k * H2 + H2) * T) with ((k + 1) * H2 * T) in * by ring.
    replace (k * fw + fw) with ((k + 1) * fw) by ring. exists o. split; [reflexivity|exact Io].
Qed.

Theorem stripes_v2_ok : forall fws, zlen fws = nf -> get fws 0 = Ok fw ->
  exists out, stripes_v2 data lw width h fws = Ok out /\ is_image out width h (two_line_stripes pix lw fw nf h).
Proof.
  intros fws Hl Hg. rewrite (stripes_v2_eq fws Hl Hg).
  assert (W0 : 0 <= width) by (assert (0 <= nf * fw) by (apply Z.mul_nonneg_nonneg; lia); lia).
  assert (NN : forall r c, 0 <= r < h -> 0 <= c -> 0 <= num r c).
  { intros r c Hr Hc. unfold num. pose proof (sub_bound c). pose proof (half_bound r Hr). apply flat_pos; try lia. apply Z.div_pos; lia. }
  destruct (rfold_zrange v2_field (fun k st => exists o, st = (k * fw, ipos (k * H2 * T), o) /\ Inv (k * H2 * T) o) 0 nf
    (0, 0, zeros (width * h))) as [st [E [o [-> [Lo Vo]]]]].
  - lia.
  - exists (zeros (width * h)). split.
    + reflexivity.
    + split; [rewrite zlen_zeros; assert (0 <= width * h) by (apply Z.mul_nonneg_nonneg; lia); lia|].
      intros r c Hr Hc. rewrite znth_zeros. specialize (NN r c Hr ltac:(lia)).
      replace (num r c <? 0 * H2 * T) with false by lia. rewrite andb_false_r. reflexivity.
  - intros k st Hk [o [-> Io]]. destruct (field_ok k o Hk Io) as [o' [E Io']]. eexists. split; [exact E|].
    exists o'. split; [reflexivity|exact Io'].
  - rewrite E. cbn [bind]. exists o. split; [reflexivity|]. split; [exact Lo|]. intros r c Hr Hc. fold (znth o (r * width + c)).
    rewrite Vo by assumption. destruct (c <? nf * fw) eqn:C; [|unfold two_line_stripes; rewrite C; reflexivity]. cbn [andb].
    assert (B : num r c < nf * H2 * T).
    { unfold num. apply flat_lt; [|apply half_bound; exact Hr|apply sub_bound].
      split; [apply Z.div_pos; lia|apply Z.div_lt_upper_bound; lia]. }
    replace (num r c <? nf * H2 * T) with true by lia. reflexivity.
Qed.
End V2.
End Stripes.
