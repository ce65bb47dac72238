(** Proofs about Sony's compression of blocks (C58): the curve, and what is lost. *)
From Coq Require Import String ZArith List Bool Lia ZifyBool ZifyNat.
From Verif Require Import Base Bytes Pumps Packed Threads Lookup Arw Spec_Bits Spec_Image Spec_Packed Spec_Ljpeg Spec_Curve Spec_Nikon Spec_Sony
  P_Base P_Bits P_Threads P_Ljpeg1 P_Lookup P_Pred7 P_Pred9 P_Sony1 P_Sony2.
Import ListNotations.
Local Open Scope Z_scope.

(** ** What a block keeps *)
Lemma value_bounds : forall v imax imin, (forall i, 0 <= i < 16 -> 0 <= v i < 2048) -> extremes v imax imin -> forall i, 0 <= i < 16 ->
  v i - 15 <= block_value v imax imin i <= v i /\ (v imax - v imin < 128 -> block_value v imax imin i = v i).
Proof.
  intros v imax imin Hv He i Hi. pose proof (value_range v imax imin Hv He i Hi) as V.
  pose proof He as (E1 & E2 & _ & E3). pose proof (E3 imax E1) as D. pose proof (Hv imax E1). pose proof (Hv imin E2).
  destruct (left_out_shift (v imax - v imin) ltac:(lia)) as [_ L]. assert (2 ^ left_out (v imax - v imin) <= 2 ^ 4) by (apply Z.pow_le_mono_r; lia).
  split; [change (2 ^ 4) with 16 in *; lia|]. intros S. unfold left_out in V. replace (v imax - v imin <? 128) with true in V by lia. change (2 ^ 0) with 1 in V. lia.
Qed.
Lemma best_place : forall (P : Z -> Z -> Prop) (v : Z -> Z) n, (forall a, P a a) -> (forall a b c, P a b -> P b c -> P a c) -> (forall a b, P a b \/ P b a) -> 0 <= n ->
  exists k, 0 <= k < n + 1 /\ forall i, 0 <= i < n + 1 -> P (v k) (v i).
Proof.
  intros P v n Rf Tr To Hn. pattern n. apply natlike_ind; [| |exact Hn].
  - exists 0. split; [lia|]. intros i Hi. replace i with 0 by lia. apply Rf.
  - intros x Hx (k & Hk & IH). destruct (To (v k) (v (x + 1))) as [T|T].
    + exists k. split; [lia|]. intros i Hi. destruct (Z.eq_dec i (x + 1)) as [->|]; [exact T|]. apply IH. lia.
    + exists (x + 1). split; [lia|]. intros i Hi. destruct (Z.eq_dec i (x + 1)) as [->|]; [apply Rf|]. apply Tr with (v k); [exact T|]. apply IH. lia.
Qed.
Lemma extremes_exist : forall v, exists imax imin, extremes v imax imin.
Proof.
  intros v. destruct (best_place Z.ge v 15) as (a & Ha & A); try lia. destruct (best_place Z.le v 15) as (b & Hb & B); try lia.
  destruct (Z.eq_dec a b) as [->|N].
  - exists 0, 1. split; [lia|]. split; [lia|]. split; [lia|]. intros i Hi. pose proof (A i Hi). pose proof (B i Hi).
    pose proof (A 1 ltac:(lia)). pose proof (B 1 ltac:(lia)). pose proof (A 0 ltac:(lia)). pose proof (B 0 ltac:(lia)). lia.
  - exists a, b. split; [lia|]. split; [lia|]. split; [lia|]. intros i Hi. pose proof (A i Hi). pose proof (B i Hi). lia.
Qed.

(** ** The curve *)
Section Curve.
Variables p1 p2 p3 p4 : Z.
Hypothesis H1 : 4 <= p1.
Hypothesis H2 : p1 <= p2.
Hypothesis H3 : p2 <= p3.
Hypothesis H4 : p3 <= p4.
Hypothesis H5 : p4 <= 4095.
Notation f := (sony_curve p1 p2 p3 p4).

Lemma curve_zero : f 0 = 0.
Proof. unfold sony_curve. lia. Qed.
Lemma part_step : forall a b x, a <= b -> Z.max 0 (Z.min x b - a) = Z.max 0 (Z.min (x - 1) b - a) + (if (a <? x) && (x <=? b) then 1 else 0).
Proof. intros a b x H. destruct (Z.ltb_spec a x), (Z.leb_spec x b); cbn [andb]; lia. Qed.
Lemma curve_step : forall x, 0 < x <= 4095 -> f x = f (x - 1) + (if x <=? p1 then 1 else if x <=? p2 then 2 else if x <=? p3 then 4 else if x <=? p4 then 8 else 16).
Proof.
  intros x Hx. unfold sony_curve. rewrite (part_step 0 p1 x), (part_step p1 p2 x), (part_step p2 p3 x), (part_step p3 p4 x), (part_step p4 4095 x) by lia.
  generalize (Z.max 0 (Z.min (x - 1) p1 - 0)) (Z.max 0 (Z.min (x - 1) p2 - p1)) (Z.max 0 (Z.min (x - 1) p3 - p2)) (Z.max 0 (Z.min (x - 1) p4 - p3)) (Z.max 0 (Z.min (x - 1) 4095 - p4)).
  intros a b c d e. replace (0 <? x) with true by lia. replace (x <=? 4095) with true by lia.
  destruct (Z.leb_spec x p1); [replace (p1 <? x) with false by lia; replace (p2 <? x) with false by lia; replace (p3 <? x) with false by lia; replace (p4 <? x) with false by lia; cbn [andb]; lia|].
  destruct (Z.leb_spec x p2); [replace (p1 <? x) with true by lia; replace (p2 <? x) with false by lia; replace (p3 <? x) with false by lia; replace (p4 <? x) with false by lia; cbn [andb]; lia|].
  destruct (Z.leb_spec x p3); [replace (p1 <? x) with true by lia; replace (p2 <? x) with true by lia; replace (p3 <? x) with false by lia; replace (p4 <? x) with false by lia; cbn [andb]; lia|].
  destruct (Z.leb_spec x p4); [replace (p1 <? x) with true by lia; replace (p2 <? x) with true by lia; replace (p3 <? x) with true by lia; replace (p4 <? x) with false by lia; cbn [andb]; lia|].
  replace (p1 <? x) with true by lia; replace (p2 <? x) with true by lia; replace (p3 <? x) with true by lia; replace (p4 <? x) with true by lia; cbn [andb]; lia.
Qed.
Lemma slope_range : forall x, 1 <= (if x <=? p1 then 1 else if x <=? p2 then 2 else if x <=? p3 then 4 else if x <=? p4 then 8 else 16) <= 16.
Proof. intros x. destruct (x <=? p1), (x <=? p2), (x <=? p3), (x <=? p4); lia. Qed.
Lemma curve_low : forall x, 0 <= x <= 4095 -> x <= f x <= 16 * x.
Proof.
  intros x Hx. pose proof (proj1 Hx) as H0. revert Hx. pattern x. apply natlike_ind; [intros _; rewrite curve_zero; lia| |exact H0].
  intros n Hn IH Hn2. pose proof (curve_step (Z.succ n) ltac:(lia)) as St. pose proof (slope_range (Z.succ n)) as R. revert St R.
  generalize (if Z.succ n <=? p1 then 1 else if Z.succ n <=? p2 then 2 else if Z.succ n <=? p3 then 4 else if Z.succ n <=? p4 then 8 else 16). intros t St R.
  replace (Z.succ n - 1) with n in St by lia. specialize (IH ltac:(lia)). lia.
Qed.
Lemma curve_mono : forall x y, 0 <= x <= y -> y <= 4095 -> f x <= f y.
Proof.
  intros x y Hx Hy. unfold sony_curve.
  assert (P : forall a b, Z.max 0 (Z.min x b - a) <= Z.max 0 (Z.min y b - a)) by (intros; lia).
  pose proof (P 0 p1). pose proof (P p1 p2). pose proof (P p2 p3). pose proof (P p3 p4). pose proof (P p4 4095). clear P.
  repeat match goal with H : ?a <= ?b |- _ => match a with Z.max _ _ => revert H; generalize a b; intros ? ? H end end. lia.
Qed.

Lemma table_length : zlen (curve_table p1 p2 p3 p4) = 4096.
Proof. unfold curve_table. rewrite upto_zrange. unfold zlen. rewrite map_length, zrange_length. reflexivity. Qed.
Lemma table_at : forall x, 0 <= x < 4096 -> at_ (curve_table p1 p2 p3 p4) x = f x.
Proof.
  intros x Hx. unfold at_, curve_table. rewrite upto_zrange. rewrite nth_indep with (d' := f 0) by (rewrite map_length, zrange_length; lia).
  rewrite map_nth, zrange_nth by lia. f_equal. lia.
Qed.
Lemma table_samples : samples (curve_table p1 p2 p3 p4).
Proof.
  unfold curve_table. rewrite upto_zrange. apply Forall_map, Forall_forall. intros x Hx. apply zrange_In in Hx. pose proof (curve_low x ltac:(lia)).
  pose proof (curve_mono x 4095 ltac:(lia) ltac:(lia)). unfold sample. lia.
Qed.
Lemma table_increasing : increasing (curve_table p1 p2 p3 p4).
Proof. intros i j Hi Hj. pose proof table_length as L. unfold zlen in L. rewrite !table_at by lia. apply curve_mono; lia. Qed.
Lemma table_not_steep : not_too_steep (curve_table p1 p2 p3 p4).
Proof.
  intros i Hi. pose proof table_length as L. unfold zlen in L. rewrite L in Hi. unfold above, below. rewrite L. rewrite (table_at i) by lia. intros N.
  assert (0 < i) by (destruct (Z.eq_dec i 0) as [->|]; [rewrite curve_zero in N; lia|lia]). replace (i =? 0) with false by lia. rewrite (table_at (i - 1)) by lia.
  pose proof (curve_low i ltac:(lia)) as B. pose proof (curve_step i ltac:(lia)) as S1. pose proof (curve_low (i - 1) ltac:(lia)) as B1.
  assert (T : forall u, u = f i \/ (i < 4095 /\ u = f (i + 1)) -> (u - f (i - 1) + 2) / 4 <= f i /\ u - f (i - 1) < 65534).
  { intros u [->|[Hi2 ->]].
    - split; [apply Z.div_le_upper_bound; [lia|]|]; destruct (i <=? p1), (i <=? p2), (i <=? p3), (i <=? p4); lia.
    - pose proof (curve_step (i + 1) ltac:(lia)) as S2. replace (i + 1 - 1) with i in S2 by lia.
      assert (P : p1 < i + 1 -> p1 <= f (i - 1) + 1) by lia.
      split.
      + apply Z.lt_succ_r, Z.div_lt_upper_bound; [lia|].
        destruct (Z.leb_spec (i + 1) p1); [destruct (Z.leb_spec i p1); lia|].
        destruct (Z.leb_spec i p1), (Z.leb_spec i p2), (Z.leb_spec i p3), (Z.leb_spec i p4), (Z.leb_spec (i + 1) p2), (Z.leb_spec (i + 1) p3), (Z.leb_spec (i + 1) p4); lia.
      + destruct (i + 1 <=? p1), (i + 1 <=? p2), (i + 1 <=? p3), (i + 1 <=? p4), (i <=? p1), (i <=? p2), (i <=? p3), (i <=? p4); lia. }
  destruct (Z.eqb_spec i (4096 - 1)); [apply T; left; reflexivity|]. rewrite (table_at (i + 1)) by lia. apply T. right. split; [lia|reflexivity].
Qed.

Context {M : Mode}.
Lemma segment_filled : forall k a b out, 0 <= k < 5 -> 0 <= a <= b -> b <= 4095 -> zlen out = 4096 -> (forall j, 0 <= j <= a -> znth out j = f j) ->
  (forall j, a < j <= b -> f j = f (j - 1) + 2 ^ k) ->
  exists out', rfold (fun j out => v <- get out (j - 1) ;; w <- u16add v (Z.shiftl 1 k) ;; upd out j w) (zrange (a + 1) (b + 1)) out = Ok out' /\
    zlen out' = 4096 /\ forall j, 0 <= j <= b -> znth out' j = f j.
Proof.
  intros k a b out Hk Hab Hb L V St.
  destruct (rfold_zrange (fun j out => v <- get out (j - 1) ;; w <- u16add v (Z.shiftl 1 k) ;; upd out j w)
    (fun n o => zlen o = 4096 /\ forall j, 0 <= j < n -> znth o j = f j) (a + 1) (b + 1) out) as (o & E & Lo & Vo).
  - lia.
  - split; [exact L|]. intros j Hj. apply V. lia.
  - intros j o Hj [Lo Vo]. rewrite get_ok by lia. cbn [bind]. rewrite Vo by lia. rewrite Z.shiftl_1_l.
    pose proof (St j ltac:(lia)) as Sj. pose proof (curve_low j ltac:(lia)). unfold u16add. rewrite arith_u_ok by (change (2 ^ 16) with 65536; lia). cbn [bind].
    rewrite upd_ok by lia. eexists. split; [reflexivity|]. split; [rewrite zlen_upd_nat; exact Lo|]. intros i Hi. rewrite znth_upd_nat by lia.
    destruct (Z.eqb_spec i j) as [->|]; [lia|]. apply Vo. lia.
  - exists o. split; [exact E|]. split; [exact Lo|]. intros j Hj. apply Vo. lia.
Qed.
Lemma curve_filled : curve_fill [0; p1; p2; p3; p4; 4095] = Ok (curve_table p1 p2 p3 p4).
Proof.
  unfold curve_fill. change (zrange 0 5) with [0; 1; 2; 3; 4].
  assert (Z0 : zlen (zeros 4096) = 4096) by (unfold zlen, zeros; rewrite repeat_length; reflexivity).
  assert (Z1 : forall j, 0 <= j <= 0 -> znth (zeros 4096) j = f j) by (intros j Hj; replace j with 0 by lia; rewrite curve_zero; reflexivity).
  revert Z0 Z1. generalize (zeros 4096) at 1 2 3. intros o0 L0 V0.
  destruct (segment_filled 0 0 p1 o0 ltac:(lia) ltac:(lia) ltac:(lia) L0 V0) as (o1 & E1 & L1 & V1).
  { intros j Hj. rewrite curve_step by lia. change (2 ^ 0) with 1. destruct (Z.leb_spec j p1); lia. }
  destruct (segment_filled 1 p1 p2 o1 ltac:(lia) ltac:(lia) ltac:(lia) L1 V1) as (o2 & E2 & L2 & V2).
  { intros j Hj. rewrite curve_step by lia. change (2 ^ 1) with 2. destruct (Z.leb_spec j p1), (Z.leb_spec j p2); lia. }
  destruct (segment_filled 2 p2 p3 o2 ltac:(lia) ltac:(lia) ltac:(lia) L2 V2) as (o3 & E3 & L3 & V3).
  { intros j Hj. rewrite curve_step by lia. change (2 ^ 2) with 4. destruct (Z.leb_spec j p1), (Z.leb_spec j p2), (Z.leb_spec j p3); lia. }
  destruct (segment_filled 3 p3 p4 o3 ltac:(lia) ltac:(lia) ltac:(lia) L3 V3) as (o4 & E4 & L4 & V4).
  { intros j Hj. rewrite curve_step by lia. change (2 ^ 3) with 8. destruct (Z.leb_spec j p1), (Z.leb_spec j p2), (Z.leb_spec j p3), (Z.leb_spec j p4); lia. }
  destruct (segment_filled 4 p4 4095 o4 ltac:(lia) ltac:(lia) ltac:(lia) L4 V4) as (o5 & E5 & L5 & V5).
  { intros j Hj. rewrite curve_step by lia. change (2 ^ 4) with 16. destruct (Z.leb_spec j p1), (Z.leb_spec j p2), (Z.leb_spec j p3), (Z.leb_spec j p4); lia. }
  cbn [rfold].
  repeat match goal with |- context [get ?l ?i] => let v := eval vm_compute in (get l i) in idtac end.
  change (get [0; p1; p2; p3; p4; 4095] 0) with (Ok 0). change (get [0; p1; p2; p3; p4; 4095] (0 + 1)) with (Ok p1). cbn [bind]. rewrite E1. cbn [bind].
  change (get [0; p1; p2; p3; p4; 4095] 1) with (Ok p1). change (get [0; p1; p2; p3; p4; 4095] (1 + 1)) with (Ok p2). cbn [bind]. rewrite E2. cbn [bind].
  change (get [0; p1; p2; p3; p4; 4095] 2) with (Ok p2). change (get [0; p1; p2; p3; p4; 4095] (2 + 1)) with (Ok p3). cbn [bind]. rewrite E3. cbn [bind].
  change (get [0; p1; p2; p3; p4; 4095] 3) with (Ok p3). change (get [0; p1; p2; p3; p4; 4095] (3 + 1)) with (Ok p4). cbn [bind]. rewrite E4. cbn [bind].
  change (get [0; p1; p2; p3; p4; 4095] 4) with (Ok p4). change (get [0; p1; p2; p3; p4; 4095] (4 + 1)) with (Ok 4095). cbn [bind]. rewrite E5. cbn [bind].
  f_equal. apply list_eq_znth; [rewrite L5, table_length; reflexivity|]. intros j Hj. rewrite V5 by lia. symmetry. apply table_at. lia.
Qed.
End Curve.
Lemma arw_curve_read : forall {M : Mode} e1 e2 e3 e4, 0 <= e1 -> 0 <= e2 -> 0 <= e3 -> 0 <= e4 ->
  4 <= curve_point e1 <= curve_point e2 -> curve_point e2 <= curve_point e3 <= curve_point e4 ->
  let curve := curve_table (curve_point e1) (curve_point e2) (curve_point e3) (curve_point e4) in
  arw_curve [e1; e2; e3; e4] = Ok (map (entry curve) (zrange 0 (zlen curve))).
Proof.
  intros M e1 e2 e3 e4 G1 G2 G3 G4 A B curve. unfold arw_curve.
  assert (P : forall e, Z.land (Z.shiftr e 2) 4095 = curve_point e).
  { intros e. rewrite Z.shiftr_div_pow2 by lia. change 4095 with (Z.ones 12). rewrite Z.land_ones by lia. reflexivity. }
  cbn [map app]. rewrite !P. assert (curve_point e4 < 4096) by (apply Z.mod_pos_bound; lia).
  rewrite curve_filled by lia. cbn [bind]. apply lookup_new_ok; [apply table_samples|apply table_increasing|apply table_not_steep]; lia.
Qed.

Lemma sony_whole : forall {M : Mode} pic imax imin w h e1 e2 e3 e4 buf rest,
  0 < w -> w mod 32 = 0 -> 0 <= h -> sony_picture pic imax imin w h ->
  0 <= e1 -> 0 <= e2 -> 0 <= e3 -> 0 <= e4 -> 4 <= curve_point e1 <= curve_point e2 -> curve_point e2 <= curve_point e3 <= curve_point e4 ->
  bytes buf -> bits_of_lsb buf = flat_map (sony_row pic imax imin w) (upto h) ++ rest ->
  exists table out, arw_curve [e1; e2; e3; e4] = Ok table /\ decode_arw2 buf w h table = Ok out /\
    is_image out w h (sony_toned (curve_table (curve_point e1) (curve_point e2) (curve_point e3) (curve_point e4)) pic imax imin w).
Proof.
  intros M pic imax imin w h e1 e2 e3 e4 buf rest Hw Hm Hh Hp G1 G2 G3 G4 A B Hb Eb.
  assert (W : w = 32 * (w / 32)) by (pose proof (Z.div_mod w 32 ltac:(lia)); lia).
  assert (0 < w / 32) by lia. assert (curve_point e4 < 4096) by (apply Z.mod_pos_bound; lia).
  pose proof (arw_curve_read e1 e2 e3 e4 G1 G2 G3 G4 A B) as C. cbv zeta in C.
  set (curve := curve_table (curve_point e1) (curve_point e2) (curve_point e3) (curve_point e4)) in *.
  revert Hp Eb. rewrite W. intros Hp Eb.
  destruct (sony_decoded pic imax imin (w / 32) h curve ltac:(lia) Hp ltac:(apply table_samples; lia) ltac:(apply table_increasing; lia)
    ltac:(apply table_not_steep; lia) ltac:(unfold curve; rewrite table_length; lia) buf rest Hb Hh Eb) as (out & E & I).
  exists (map (entry curve) (zrange 0 (zlen curve))), out. auto.
Qed.
Lemma sony_value_range : forall pic imax imin m h r c, 0 < m -> sony_picture pic imax imin (32 * m) h -> 0 <= r < h -> 0 <= c < 32 * m ->
  0 <= sony_value pic imax imin r c /\ pic r c - 15 <= sony_value pic imax imin r c <= pic r c.
Proof.
  intros pic imax imin m h r c Hm Hp Hr Hc. pose proof (Z.div_mod c 32 ltac:(lia)) as D. pose proof (Z.mod_pos_bound c 32 ltac:(lia)) as B.
  set (k := c / 32) in *. set (q := c mod 32) in *. assert (Hk : 0 <= k < m) by lia. destruct (column k q B) as [C1 C2].
  unfold sony_value. rewrite D, C1, C2. pose proof (Z.div_mod q 2 ltac:(lia)) as Q. pose proof (Z.mod_pos_bound q 2 ltac:(lia)) as Q2.
  assert (Hb : 0 <= 2 * k + q mod 2 < 2 * m) by lia. destruct (block_fits pic imax imin m h Hm Hp r (2 * k + q mod 2) Hr Hb) as [F E].
  assert (Hi : 0 <= q / 2 < 16) by lia. destruct (value_bounds _ _ _ F E (q / 2) Hi) as [V _].
  assert (P : block_of pic r (2 * k + q mod 2) (q / 2) = pic r (32 * k + q)).
  { unfold block_of. f_equal. assert ((2 * k + q mod 2) / 2 = k) as -> by (symmetry; apply Z.div_unique with (q mod 2); lia).
    assert ((2 * k + q mod 2) mod 2 = q mod 2) as -> by (symmetry; apply Z.mod_unique with k; lia). lia. }
  rewrite P in V. split; [|exact V]. apply (value_nonneg _ _ _ F E _ Hi).
Qed.
Lemma sony_near : forall pic imax imin w h p1 p2 p3 p4 r c, 0 < w -> w mod 32 = 0 -> sony_picture pic imax imin w h ->
  4 <= p1 <= p2 -> p2 <= p3 <= p4 -> p4 <= 4095 -> 0 <= r < h -> 0 <= c < w ->
  let curve := curve_table p1 p2 p3 p4 in
  pic r c - 15 <= sony_value pic imax imin r c <= pic r c /\
  near curve (2 * sony_value pic imax imin r c) (sony_toned curve pic imax imin w r c).
Proof.
  intros pic imax imin w h p1 p2 p3 p4 r c Hw Hm Hp A B C Hr Hc curve.
  assert (W : w = 32 * (w / 32)) by (pose proof (Z.div_mod w 32 ltac:(lia)); lia). assert (Hm2 : 0 < w / 32) by lia.
  pose proof Hp as [P1 _]. specialize (P1 r c Hr Hc). rewrite W in Hp.
  destruct (sony_value_range pic imax imin (w / 32) h r c Hm2 Hp Hr ltac:(lia)) as [V0 V]. split; [exact V|].
  unfold sony_toned. apply toned_near; [apply table_increasing; lia|apply table_samples; lia|unfold curve; rewrite table_length; lia|].
  set (l := firstn 24 (sony_row pic imax imin w r)). pose proof (number_lsb_range l) as N. pose proof (firstn_le_length 24 (sony_row pic imax imin w r)) as L. fold l in L.
  assert (2 ^ Z.of_nat (length l) <= 2 ^ 24) by (apply Z.pow_le_mono_r; lia). apply P_Pred7.noise_range. change (2 ^ 32) with 4294967296. change (2 ^ 24) with 16777216 in *. lia.
Qed.
