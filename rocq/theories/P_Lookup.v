(** Clamping and the dithered tone curve. *)
From Coq Require Import ZArith List Bool Lia ZifyBool ZifyNat.
From Verif Require Import Base Bytes Threads Lookup Packed Spec_Bits Spec_Image Spec_Curve P_Base P_Bits P_Threads P_Packed4.
Import ListNotations.
Local Open Scope Z_scope.
Ltac Zify.zify_post_hook ::= Z.div_mod_to_equations.

Section L.
Context {M : Mode}.
Theorem clampbits_spec : forall v bits, 1 <= bits <= 31 -> - 2 ^ 31 <= v < 2 ^ 31 ->
  clampbits v bits = Ok (if v <? 0 then 0 else if v <? 2 ^ bits then v else -1).
Proof.
  intros v bits Hb Hv. unfold clampbits. rewrite shamt_ok by lia. cbn [bind].
  rewrite Z.shiftr_div_pow2 by lia.
  assert (Hp : 0 < 2 ^ bits) by (apply Z.pow_pos_nonneg; lia).
  assert (Hq : 0 < 2 ^ (32 - bits)) by (apply Z.pow_pos_nonneg; lia).
  assert (Hpq : 2 ^ bits * 2 ^ (32 - bits) = 2 ^ 32) by (rewrite <- Z.pow_add_r by lia; f_equal; lia).
  destruct (v / 2 ^ bits =? 0) eqn:E; cbn [negb].
  - f_equal. assert (0 <= v < 2 ^ bits) by (split; nia). destruct (v <? 0) eqn:E1; [lia|]. destruct (v <? 2 ^ bits) eqn:E2; [reflexivity|lia].
  - unfold u32sub. rewrite arith_u_ok by p2lia. cbn [bind]. rewrite shamt_ok by lia. cbn [bind]. f_equal.
    rewrite Z.shiftr_div_pow2 by lia.
    unfold Z.lnot. change (2 ^ 31) with 2147483648 in Hv. change (2 ^ 32) with 4294967296 in Hpq.
    assert (Hq2 : 2 ^ 1 <= 2 ^ (32 - bits)) by (apply Z.pow_le_mono_r; lia). change (2 ^ 1) with 2 in Hq2.
    set (P := 2 ^ bits) in *. set (Q := 2 ^ (32 - bits)) in *.
    pose proof (Z.div_mod v P ltac:(lia)) as D. pose proof (Z.mod_pos_bound v P Hp) as B. set (t := v / P) in *. set (m := v mod P) in *.
    destruct (v <? 0) eqn:E1.
    + assert (t < 0) by nia.
      assert (-Q < t).
      { destruct (Z_lt_le_dec (-Q) t) as [|Hc]; [assumption|exfalso].
        assert (P * t <= P * (- Q)) by (apply Z.mul_le_mono_nonneg_l; lia).
        assert (P * 2 <= P * Q) by (apply Z.mul_le_mono_nonneg_l; lia). lia. }
      apply Z.div_small. lia.
    + assert (0 < t) by nia.
      assert (t < Q).
      { destruct (Z_lt_le_dec t Q) as [|Hc]; [assumption|exfalso].
        assert (P * Q <= P * t) by (apply Z.mul_le_mono_nonneg_l; lia). lia. }
      destruct (v <? P) eqn:E2; [nia|].
      symmetry. apply Z.div_unique with (r := Q - t - 1); lia.
Qed.
Theorem clampbits_16 : forall v, - 2 ^ 31 <= v < 2 ^ 31 ->
  exists c, clampbits v 16 = Ok c /\ as_u16 c = saturate 16 v.
Proof.
  intros v Hv. rewrite clampbits_spec by (try assumption; lia). eexists. split; [reflexivity|].
  unfold as_u16, saturate. p2. destruct (v <? 0) eqn:E1; [lia|]. destruct (v <? 65536) eqn:E2; lia.
Qed.

(** * Curve *)
Lemma get_at : forall curve i, 0 <= i < Z.of_nat (length curve) -> get curve i = Ok (at_ curve i).
Proof. intros. apply get_ok. exact H. Qed.
Lemma at_sample : forall curve i, samples curve -> 0 <= i < Z.of_nat (length curve) -> 0 <= at_ curve i < 65536.
Proof. intros. apply (znth_Forall sample); assumption. Qed.
Lemma below_le : forall curve i, increasing curve -> 0 <= i < Z.of_nat (length curve) ->
  below curve i <= at_ curve i <= above curve i.
Proof.
  intros curve i Hi Hr. unfold below, above. split.
  - destruct (i =? 0) eqn:E; [replace i with 0 by lia; lia|apply Hi; lia].
  - destruct (i =? _) eqn:E; [lia|apply Hi; lia].
Qed.
Lemma below_sample : forall curve i, samples curve -> 0 <= i < Z.of_nat (length curve) -> 0 <= below curve i < 65536.
Proof. intros curve i Hs Hr. unfold below. destruct (i =? 0) eqn:E; apply at_sample; auto; lia. Qed.
Lemma above_sample : forall curve i, samples curve -> 0 <= i < Z.of_nat (length curve) -> 0 <= above curve i < 65536.
Proof. intros curve i Hs Hr. unfold above. destruct (i =? _) eqn:E; apply at_sample; auto; lia. Qed.

Definition entry (curve : list Z) (i : Z) : Z * Z * Z :=
  let c := at_ curve i in let d := above curve i - below curve i in
  (c, (if c =? 0 then 0 else c - (d + 2) / 4), d).
Lemma lookup_entry_ok : forall curve i, samples curve -> increasing curve -> not_too_steep curve ->
  0 <= i < Z.of_nat (length curve) -> lookup_entry curve i = Ok (entry curve i).
Proof.
  intros curve i Hs Hi Hn Hr. unfold lookup_entry. rewrite get_at by assumption. cbn [bind].
  assert (El : (if 0 <? i then get curve (i - 1) else Ok (at_ curve i)) = Ok (below curve i)).
  { unfold below. destruct (0 <? i) eqn:E, (i =? 0) eqn:E'; try lia; [apply get_at; lia|]. replace i with 0 by lia. reflexivity. }
  rewrite El. cbn [bind].
  assert (Eu : (if i <? zlen curve - 1 then get curve (i + 1) else Ok (at_ curve i)) = Ok (above curve i)).
  { unfold above, zlen. destruct (i <? _) eqn:E, (i =? _) eqn:E'; try lia; [apply get_at; lia|reflexivity]. }
  rewrite Eu. cbn [bind].
  pose proof (below_le curve i Hi Hr). pose proof (below_sample curve i Hs Hr). pose proof (above_sample curve i Hs Hr).
  pose proof (at_sample curve i Hs Hr). unfold entry. specialize (Hn i Hr).
  set (c := at_ curve i) in *. set (u := above curve i) in *. set (l := below curve i) in *.
  unfold u16sub, u16add. rewrite !(arith_u_ok 16 (u - l)) by p2lia. cbn [bind].
  destruct (c =? 0) eqn:Ec; cbn [bind]; [reflexivity|].
  rewrite !(arith_u_ok 16 (u - l + 2)) by p2lia. cbn [bind]. rewrite arith_u_ok by (p2; lia). reflexivity.
Qed.
Lemma lookup_new_ok : forall curve, samples curve -> increasing curve -> not_too_steep curve ->
  lookup_new curve = Ok (map (entry curve) (zrange 0 (zlen curve))).
Proof.
  intros curve Hs Hi Hn. unfold lookup_new. apply mapM_map. intros i Hr. apply zrange_In in Hr.
  apply lookup_entry_ok; assumption.
Qed.
Lemma get_table : forall curve i, 0 <= i < zlen curve ->
  get (map (entry curve) (zrange 0 (zlen curve))) i = Ok (entry curve i).
Proof.
  intros curve i Hi. unfold get. rewrite zlen_map. unfold zlen at 1. rewrite zrange_length.
  replace ((0 <=? i) && (i <? Z.of_nat (Z.to_nat (zlen curve - 0)))) with true by lia.
  rewrite (nth_error_nth' _ (entry curve 0)) by (rewrite map_length, zrange_length; lia).
  rewrite map_nth, zrange_nth by lia. do 2 f_equal. lia.
Qed.

(** The random state never overflows and the pixel is the base plus at most half
    the span. *)
Lemma dither_ok : forall tbl v rand c b d, get tbl v = Ok (c, b, d) -> 0 <= b < 65536 -> 0 <= d < 65536 -> 0 <= rand < 2 ^ 32 ->
  exists t rand', dither tbl v rand = Ok (as_u16 (b + t), rand') /\ 0 <= t <= d / 2 /\ 0 <= rand' < 2 ^ 32.
Proof.
  intros tbl v rand c b d Hg Hb Hd Hr. unfold dither. rewrite Hg. cbn [bind].
  change 2047 with (2 ^ 11 - 1). rewrite land_ones_mod by lia. change 65535 with (2 ^ 16 - 1). rewrite land_ones_mod by lia.
  rewrite !(Z.shiftr_div_pow2 rand) by lia.
  pose proof (Z.mod_pos_bound rand (2 ^ 11) ltac:(lia)) as B1. pose proof (Z.mod_pos_bound rand (2 ^ 16) ltac:(lia)) as B2.
  set (r1 := rand mod 2 ^ 11) in *. set (r2 := rand mod 2 ^ 16) in *.
  assert (Hp : 0 <= d * r1 <= d * 2047) by (change (2 ^ 11) with 2048 in B1; split; [apply Z.mul_nonneg_nonneg; lia|apply Z.mul_le_mono_nonneg_l; lia]).
  set (pr := d * r1) in *. clearbody pr r1 r2.
  rewrite (arith_u_ok 32 pr) by p2lia. cbn [bind]. unfold u32add.
  rewrite (arith_u_ok 32 (pr + 1024)) by p2lia. cbn [bind]. rewrite !(Z.shiftr_div_pow2 (pr + 1024)) by lia.
  assert (Ht : 0 <= (pr + 1024) / 2 ^ 12 <= d / 2) by p2lia. set (t := (pr + 1024) / 2 ^ 12) in *. clearbody t.
  rewrite (arith_u_ok 32 (b + t)) by p2lia. cbn [bind].
  rewrite (arith_u_ok 32 (15700 * r2)) by p2lia. cbn [bind].
  assert (Hq : 0 <= rand / 2 ^ 16 < 65536) by p2lia. set (q := rand / 2 ^ 16) in *. clearbody q.
  rewrite arith_u_ok by p2lia. cbn [bind].
  exists t. eexists. split; [reflexivity|]. split; [assumption|]. p2lia.
Qed.

Lemma dither_near : forall curve i rand, samples curve -> increasing curve -> not_too_steep curve ->
  0 <= i < zlen curve -> 0 <= rand < 2 ^ 32 ->
  exists tbl p rand', lookup_new curve = Ok tbl /\ dither tbl i rand = Ok (p, rand') /\ 0 <= rand' < 2 ^ 32 /\ near curve i p.
Proof.
  intros curve i rand Hs Hi Hn Hr Hrand. rewrite lookup_new_ok by assumption. eexists.
  pose proof (get_table curve i Hr) as G.
  pose proof (below_le curve i Hi Hr). pose proof (below_sample curve i Hs Hr). pose proof (above_sample curve i Hs Hr).
  pose proof (at_sample curve i Hs Hr). unfold entry in G at 2. specialize (Hn i Hr).
  set (c := at_ curve i) in *. set (u := above curve i) in *. set (l := below curve i) in *.
  destruct (dither_ok _ i rand _ _ _ G) as [t [rand' [E [Ht Hr']]]]; try lia.
  { destruct (c =? 0) eqn:Ec; lia. }
  exists (as_u16 ((if c =? 0 then 0 else c - (u - l + 2) / 4) + t)), rand'.
  split; [reflexivity|]. split; [exact E|]. split; [assumption|].
  unfold near. fold c u l. exists (if c =? 0 then t else t - (u - l + 2) / 4).
  unfold as_u16. change (2 ^ 16) with 65536. destruct (c =? 0) eqn:Ec.
  - split; [f_equal; lia|lia].
  - split; [f_equal; lia|lia].
Qed.
Lemma dither_between : forall curve i rand, samples curve -> increasing curve -> not_too_steep curve ->
  0 <= i < zlen curve -> balanced curve i -> 0 <= rand < 2 ^ 32 ->
  exists tbl p rand', lookup_new curve = Ok tbl /\ dither tbl i rand = Ok (p, rand') /\ 0 <= rand' < 2 ^ 32 /\
    below curve i <= p <= above curve i.
Proof.
  intros curve i rand Hs Hi Hn Hr [B1 B2] Hrand.
  destruct (dither_near curve i rand Hs Hi Hn Hr Hrand) as [tbl [p [rand' [E1 [E2 [E3 [e [Ep He]]]]]]]].
  exists tbl, p, rand'. split; [assumption|]. split; [assumption|]. split; [assumption|].
  pose proof (below_le curve i Hi Hr). pose proof (below_sample curve i Hs Hr). pose proof (above_sample curve i Hs Hr).
  pose proof (at_sample curve i Hs Hr).
  set (c := at_ curve i) in *. set (u := above curve i) in *. set (l := below curve i) in *.
  destruct (c =? 0) eqn:Ec; rewrite Z.mod_small in Ep by lia; lia.
Qed.

(** * The 8-bit layout *)
Lemma dither_line_ok : forall curve tbl, samples curve -> increasing curve -> not_too_steep curve -> zlen curve = 256 ->
  lookup_new curve = Ok tbl ->
  forall out inb rand, bytes inb -> (length out <= length inb)%nat -> 0 <= rand < 2 ^ 32 ->
  exists line, dither_line tbl out inb rand = Ok line /\ zlen line = zlen out /\
    forall c, 0 <= c < zlen out -> near curve (znth inb c) (znth line c).
Proof.
  intros curve tbl Hs Hi Hn Hl Ht. induction out as [|o out IH]; intros inb rand Hb Hle Hr.
  - destruct inb; (exists []; split; [reflexivity|]; split; [reflexivity|]; intros c Hc; unfold zlen in Hc; cbn in Hc; lia).
  - destruct inb as [|i inb]; [cbn in Hle; lia|]. inversion Hb as [|? ? Bi Bb]; subst. cbn [dither_line].
    destruct (dither_near curve i rand Hs Hi Hn ltac:(unfold byte in Bi; lia) Hr) as [tbl' [p [rand' [E1 [E2 [E3 E4]]]]]].
    rewrite E1 in Ht. injection Ht as ->. rewrite E2. cbn [bind].
    destruct (IH inb rand' Bb ltac:(cbn in Hle; lia) E3) as [line [F1 [F2 F3]]]. rewrite F1. cbn [bind].
    eexists. split; [reflexivity|]. split; [rewrite !zlen_cons; lia|].
    intros c Hc. rewrite zlen_cons in Hc. destruct (Z.eq_dec c 0) as [->|Hc0].
    + exact E4.
    + rewrite !znth_cons_S by lia. apply F3. lia.
Qed.
Theorem decode_8bit_image : forall curve buf w h, samples curve -> increasing curve -> not_too_steep curve -> zlen curve = 256 ->
  bytes buf -> 0 < w -> 0 <= h -> w * h <= zlen buf -> (h - 1) * w + 4 <= zlen buf ->
  exists tbl img, lookup_new curve = Ok tbl /\ decode_8bit_wtable buf tbl w h = Ok img /\ zlen img = w * h /\
    forall r c, 0 <= r < h -> 0 <= c < w -> near curve (znth buf (r * w + c)) (znth img (r * w + c)).
Proof.
  intros curve buf w h Hs Hi Hn Hlc Hb Hw Hh Hl Hl4.
  pose proof (lookup_new_ok curve Hs Hi Hn) as Et. set (tbl := map _ _) in Et. exists tbl.
  assert (HF : exists ls, Forall2 (fun r l => (inb <- slice_from buf (r * w) ;; random <- LEu32 inb 0 ;; dither_line tbl (zeros w) inb random) = Ok l) (zrange 0 h) ls /\
     Forall (fun l => zlen l = w) ls /\
     Forall2 (fun r l => forall c, 0 <= c < w -> near curve (znth buf (r * w + c)) (znth l c)) (zrange 0 h) ls).
  { assert (HI : forall r, In r (zrange 0 h) -> 0 <= r < h) by (intros; apply zrange_In; assumption).
    induction (zrange 0 h) as [|r t IH].
    - exists []. repeat constructor.
    - destruct IH as [ls [I1 [I2 I3]]]; [intros; apply HI; right; assumption|].
      assert (Hr : 0 <= r < h) by (apply HI; left; reflexivity).
      assert (Hrw : 0 <= r * w) by (apply Z.mul_nonneg_nonneg; lia).
      assert (Hrh : r * w <= (h - 1) * w) by (apply Z.mul_le_mono_nonneg_r; lia).
      assert (Hb' : bytes (skipn (Z.to_nat (r * w)) buf)) by (apply Forall_skipn; assumption).
      set (inb := skipn (Z.to_nat (r * w)) buf) in *.
      assert (Li : zlen inb = zlen buf - r * w) by (unfold inb; rewrite zlen_skipn; lia).
      pose proof (LEu32_spec inb 0 Hb' ltac:(lia) ltac:(lia)) as Er.
      pose proof (little_endian_value_range (sub_list inb 0 4) (sub_list_bytes _ _ _ Hb')) as Rr.
      rewrite sub_list_length in Rr by lia. change (256 ^ Z.of_nat 4) with (2 ^ 32) in Rr.
      destruct (dither_line_ok curve tbl Hs Hi Hn Hlc Et (zeros w) inb _ Hb' ltac:(rewrite P_Packed2.zeros_length; unfold zlen in *; lia) Rr)
        as [line [F1 [F2 F3]]]. rewrite zlen_zeros in F2, F3.
      exists (line :: ls). split; [|split].
      + constructor; [|assumption]. rewrite slice_from_ok by lia. cbn [bind]. fold inb. rewrite Er. cbn [bind]. exact F1.
      + constructor; [lia|assumption].
      + constructor; [|assumption]. intros c Hc. specialize (F3 c ltac:(lia)). unfold inb in F3.
        rewrite znth_skipn in F3 by lia. exact F3. }
  destruct HF as [ls [F1 [F2 F3]]].
  exists (concat ls). split; [exact Et|].
  assert (LL : zlen ls = h).
  { apply Forall2_length in F1. rewrite zrange_length in F1. unfold zlen. lia. }
  split; [|split].
  - unfold decode_8bit_wtable. rewrite decode_threaded_rows by assumption. rewrite (Forall2_mapM_Ok _ _ _ F1). reflexivity.
  - rewrite (concat_length_const _ w) by assumption. lia.
  - intros r c Hr Hc. rewrite (znth_concat ls w) by (try assumption; lia).
    assert (G : forall rs ls, Forall2 (fun r l => forall c, 0 <= c < w -> near curve (znth buf (r * w + c)) (znth l c)) rs ls ->
       forall n, (n < length rs)%nat -> near curve (znth buf (nth n rs 0 * w + c)) (znth (nth n ls []) c)).
    { clear - Hc. induction 1 as [|r l rs ls E _ IH]; intros n Hn; cbn in Hn; [lia|].
      destruct n; cbn [nth]; [apply E; assumption|]. apply IH; lia. }
    specialize (G _ _ F3 (Z.to_nat r)). rewrite zrange_length in G. specialize (G ltac:(lia)).
    rewrite zrange_nth in G by lia. replace (0 + Z.of_nat (Z.to_nat r)) with r in G by lia. exact G.
Qed.
Lemma dither_line_keeps : forall tbl out inb rand line, Forall sample out -> dither_line tbl out inb rand = Ok line ->
  zlen line = zlen out /\ Forall sample line.
Proof.
  intros tbl. induction out as [|o out IH]; intros inb rand line Ho H.
  - destruct inb; cbn in H; injection H as <-; auto.
  - destruct inb as [|i inb]; cbn [dither_line] in H; [injection H as <-; auto|].
    apply bind_inv in H. destruct H as [[p rand'] [E1 H]]. apply bind_inv in H. destruct H as [r [E2 H]]. injection H as <-.
    inversion Ho; subst. destruct (IH _ _ _ ltac:(eassumption) E2) as [L F]. rewrite !zlen_cons, L. split; [reflexivity|].
    constructor; [|assumption]. unfold dither in E1.
    repeat match goal with H : bind _ _ = Ok _ |- _ => apply bind_inv in H; destruct H as [? [? H]] end.
    destruct x as [[? ?] ?].
    repeat match goal with H : bind _ _ = Ok _ |- _ => apply bind_inv in H; destruct H as [? [? H]] end.
    injection E1 as <- _. unfold sample, as_u16. p2lia.
Qed.
End L.

Lemma clamp_wrong : exists v, 0 <= v < 2 ^ 31 /\ forall M : Mode, clampbits v 15 <> Ok (saturate 15 v).
Proof. exists 40000. split; [lia|]. intros M. destruct M; vm_compute; discriminate. Qed.
Definition ok_fst (r : res (Z * Z)) : Z := match r with Ok (p, _) => p | _ => -1 end.
(** A curve whose table cannot be built in a checked build. *)
Lemma curve_underflow : exists curve, samples curve /\ increasing curve /\ lookup_new (M := true) curve = Panic.
Proof.
  exists [0; 1; 1000]. split; [repeat constructor; discriminate|]. split.
  - intros i j Hij Hj. change (Z.of_nat (length [0; 1; 1000])) with 3 in Hj.
    assert (i = 0 \/ i = 1 \/ i = 2) as [-> | [-> | ->]] by lia;
    assert (j = 0 \/ j = 1 \/ j = 2) as [-> | [-> | ->]] by lia; vm_compute; try discriminate; try lia.
  - reflexivity.
Qed.
(** The end of the curve: a white sample comes out black. *)
Lemma curve_wraps : exists curve rand, samples curve /\ increasing curve /\ 0 <= rand < 2 ^ 32 /\
  forall M : Mode, exists tbl p rand', lookup_new curve = Ok tbl /\ dither tbl 2 rand = Ok (p, rand') /\
    p < at_ curve 0 < at_ curve 1 /\ at_ curve 1 < at_ curve 2.
Proof.
  exists [60000; 65000; 65535], 2047. split; [repeat constructor; discriminate|]. split; [|split].
  - intros i j Hij Hj. change (Z.of_nat (length [60000; 65000; 65535])) with 3 in Hj.
    assert (i = 0 \/ i = 1 \/ i = 2) as [-> | [-> | ->]] by lia;
    assert (j = 0 \/ j = 1 \/ j = 2) as [-> | [-> | ->]] by lia; vm_compute; try discriminate; try lia.
  - lia.
  - intros M. exists [(60000, 58750, 5000); (65000, 63616, 5535); (65535, 65401, 535)], 132, 32137900.
    destruct M; (split; [reflexivity|]; split; [reflexivity|]; vm_compute; auto).
Qed.
Lemma dither_total : forall {M : Mode} tbl v rand c b d, get tbl v = Ok (c, b, d) -> 0 <= b < 65536 -> 0 <= d < 65536 -> 0 <= rand < 2 ^ 32 ->
  exists p rand', dither tbl v rand = Ok (p, rand') /\ 0 <= p < 65536 /\ 0 <= rand' < 2 ^ 32.
Proof.
  intros M tbl v rand c b d Hg Hb Hd Hr. destruct (dither_ok tbl v rand c b d Hg Hb Hd Hr) as [t [r' [E [_ R]]]].
  exists (as_u16 (b + t)), r'. split; [exact E|]. split; [unfold as_u16; p2lia|exact R].
Qed.
