(** Proofs about Samsung's third compression: reading. *)
From Coq Require Import String ZArith List Bool Lia ZifyBool ZifyNat.
From Verif Require Import Base Bytes Pumps Huffman Packed Lookup Threads Dec_Nef Spec_Bits Spec_Pump Spec_Stream Spec_Image Spec_Huffman Spec_Ljpeg Spec_Srw1 Spec_Srw3
  P_Base P_Bits P_Threads P_Pumps P_Huff1 P_Huff4 P_Huff5 P_Ljpeg1 P_Ljpeg2 P_Pred1 P_Pred10 P_Srw1 P_Srw1b P_Lookup.
Import ListNotations.
Local Open Scope Z_scope.
Ltac Zify.zify_post_hook ::= Z.div_mod_to_equations.

Section Srw3.
Context {M : Mode}.

(** A reader of [N] bits that has still to read [t] *)
Definition Reads (N : Z) (p : pump) (t : list bool) : Prop := Repr MSB32 p t /\ 8 * ppos p - pnbits p + zlen t = N.

Lemma get_bits_counts : forall p t (n : nat) v p', Repr MSB32 p t -> (n <= 32)%nat -> (n <= length t)%nat -> get_bits MSB32 p (Z.of_nat n) = Ok (v, p') ->
  8 * ppos p' - pnbits p' = 8 * ppos p - pnbits p + Z.of_nat n.
Proof.
  intros p t n v p' R Hn Ht E. pose proof (r_wf _ _ _ R) as W. pose proof (wf_nb _ _ W) as Wn. unfold get_bits in E. destruct (Z.of_nat n =? 0) eqn:Q; [injection E as _ <-; lia|].
  apply bind_inv in E. destruct E as [[v1 p1] [E1 E]]. apply bind_inv in E. destruct E as [p2 [E2 E]]. injection E as _ ->.
  destruct (peek_ok MSB32 p t n R Hn Ht) as [q [Eq [Rq Bq]]]. rewrite Eq in E1. injection E1 as _ ->. cbn [consume_bits] in E2. unfold msb_consume in E2.
  pose proof (wf_nb _ _ (r_wf _ _ _ Rq)) as Wq.
  assert (P : 8 * ppos p1 - pnbits p1 = 8 * ppos p - pnbits p).
  { cbn [peek_bits] in Eq. unfold msb32_peek in Eq. apply bind_inv in Eq. destruct Eq as [q1 [F1 F2]]. apply bind_inv in F2. destruct F2 as [v2 [_ F2]]. injection F2 as _ <-.
    destruct (pnbits p <? Z.of_nat n) eqn:Qn; [|injection F1 as <-; reflexivity].
    apply bind_inv in F1. destruct F1 as [inb [_ F1]]. unfold msb_push32 in F1. apply bind_inv in F1. destruct F1 as [hi [_ F1]]. unfold u32add in F1. rewrite arith_u_ok in F1 by (change (2 ^ 32) with 4294967296; lia). cbn [bind] in F1. injection F1 as <-. cbn [ppos pnbits]. lia. }
  unfold u32sub in E2. rewrite arith_u_ok in E2 by (change (2 ^ 32) with 4294967296; lia). cbn [bind] in E2. apply bind_inv in E2. destruct E2 as [one [_ E2]]. apply bind_inv in E2. destruct E2 as [m [_ E2]]. injection E2 as <-. cbn [ppos pnbits]. lia.
Qed.
Lemma reads_any : forall N (n : nat) bs p t, (n <= 32)%nat -> length bs = n -> Reads N p (bs ++ t) ->
  exists p', get_bits MSB32 p (Z.of_nat n) = Ok (number bs, p') /\ Reads N p' t.
Proof.
  intros N n bs p t Hn L [R C]. destruct (get_bits_ok MSB32 p _ n R Hn ltac:(rewrite app_length; lia)) as [p' [E R']]. exists p'.
  rewrite <- L in R' at 1. rewrite skipn_pre in R'. cbn [value_of] in E. rewrite <- L in E at 2. rewrite firstn_pre in E. split; [exact E|]. split; [exact R'|].
  rewrite (get_bits_counts p _ n _ p' R Hn ltac:(rewrite app_length; lia) E). unfold zlen in *. rewrite app_length in C. lia.
Qed.
Lemma reads_word : forall N (n : nat) v p t, (n <= 32)%nat -> 0 <= v < 2 ^ Z.of_nat n -> Reads N p (binary n v ++ t) ->
  exists p', get_bits MSB32 p (Z.of_nat n) = Ok (v, p') /\ Reads N p' t.
Proof.
  intros N n v p t Hn Hv R. destruct (reads_any N n (binary n v) p t Hn) as [p' [E R']]; [rewrite binary_zbits, zbits_length; reflexivity|exact R|].
  exists p'. split; [|exact R']. rewrite E, binary_zbits, number_zbits, Z.mod_small by assumption. reflexivity.
Qed.
Lemma reads_bit : forall N b p t, Reads N p (b :: t) -> exists p', get_bits MSB32 p 1 = Ok (Z.b2z b, p') /\ Reads N p' t.
Proof.
  intros N b p t R. apply (reads_word N 1 (Z.b2z b) p t); [lia|destruct b; cbn; lia|]. cbn [binary app Z.of_nat]. destruct b; exact R.
Qed.
Lemma reads_signed : forall N l v p t, 0 <= l <= 32 -> signed_fits l v -> Reads N p (signed_bits l v ++ t) ->
  exists p', get_ibits_sextended MSB32 p l = Ok (v, p') /\ Reads N p' t.
Proof.
  intros N l v p t Hl Hv [R C]. destruct (signed_read MSB32 l v p t ltac:(discriminate) Hl Hv R) as [p' [E R']]. exists p'. split; [exact E|split; [exact R'|]].
  unfold get_ibits_sextended, get_ibits in E. apply bind_inv in E. destruct E as [[v1 p1] [E1 E]]. apply bind_inv in E1. destruct E1 as [[v2 p2] [E1 E2]]. injection E2 as _ ->.
  apply bind_inv in E. destruct E as [s [_ E]]. injection E as _ ->. replace l with (Z.of_nat (Z.to_nat l)) in E1 by lia.
  assert (Lb : length (signed_bits l v) = Z.to_nat l) by (unfold signed_bits; rewrite binary_zbits, zbits_length; reflexivity).
  rewrite (get_bits_counts p _ (Z.to_nat l) _ p' R ltac:(lia) ltac:(rewrite app_length; lia) E1). unfold zlen in *. rewrite app_length in C. lia.
Qed.
Lemma reads_new : forall src, bytes src -> Reads (zlen (stream MSB32 src 0)) (pump_new src) (stream MSB32 src 0).
Proof. intros src H. split; [apply Repr_new; split; [exact H|discriminate]|]. unfold pump_new. cbn [ppos pnbits]. lia. Qed.
Lemma pos_ok : forall N p t, Reads N p t -> 0 <= N - zlen t < 2 ^ 64 -> msb32_get_pos p = Ok ((N - zlen t + 7) / 8).
Proof.
  intros N p t [R C] H. pose proof (wf_nb _ _ (r_wf _ _ _ R)) as Wn. unfold msb32_get_pos, usub. rewrite Z.shiftr_div_pow2 by lia. change (2 ^ 3) with 8.
  change (2 ^ 64) with 18446744073709551616 in H. rewrite arith_u_ok by (change (2 ^ 64) with 18446744073709551616; lia). f_equal. lia.
Qed.
Lemma header_ok : forall N e x other p t, 1 <= n_depth e <= 15 -> 0 <= n_init e < 2 ^ 14 -> Reads N p (n_header e x other ++ t) ->
  exists fl p', srw3_header p = Ok (n_depth e, fl, n_init e, p') /\ Reads N p' t /\
    (fl &&& 4 =? 0) = negb (n_plain e) /\ (fl &&& 2 =? 0) = negb (n_simple e) /\ (fl &&& 1 =? 0) = negb (n_full e).
Proof.
  intros N e x other p t Hd Hi R. unfold n_header in R. rewrite <- !app_assoc in R. unfold srw3_header.
  assert (Lb : forall n v, length (binary n v) = n) by (intros; rewrite binary_zbits, zbits_length; reflexivity).
  Ltac any R n Lb := let E := fresh "E" in let p1 := fresh "p" in let R1 := fresh "R" in
    destruct (reads_any _ n _ _ _ ltac:(lia) (Lb n _) R) as [p1 [E R1]]; cbn [Z.of_nat Pos.of_succ_nat Pos.succ] in E; rewrite E; cbn [bind]; clear E R; rename R1 into R.
  any R 16%nat Lb. any R 4%nat Lb.
  destruct (reads_word _ 4 (n_depth e - 1) _ _ ltac:(lia) ltac:(change (2 ^ Z.of_nat 4) with 16; lia) R) as [q [Eq Rq]]. change (Z.of_nat 4) with 4 in Eq. rewrite Eq. cbn [bind]. clear R Eq. rename Rq into R.
  any R 4%nat Lb. any R 4%nat Lb. any R 16%nat Lb. any R 16%nat Lb. any R 16%nat Lb. any R 4%nat Lb.
  destruct (reads_any _ 4 _ _ _ ltac:(lia) (eq_refl : length [x; n_plain e; n_simple e; n_full e] = 4%nat) R) as [q2 [Eq Rq]]. change (Z.of_nat 4) with 4 in Eq. rewrite Eq. cbn [bind]. clear R Eq. rename Rq into R.
  any R 8%nat Lb. any R 8%nat Lb. any R 8%nat Lb. any R 2%nat Lb.
  destruct (reads_word _ 14 (n_init e) _ _ ltac:(lia) ltac:(change (Z.of_nat 14) with 14; lia) R) as [q3 [Eq Rq]]. change (Z.of_nat 14) with 14 in Eq. rewrite Eq. cbn [bind].
  do 2 eexists. split; [|split; [exact Rq|]].
  - do 2 f_equal. f_equal; [|unfold as_u16; change (2 ^ 14) with 16384 in Hi; change (2 ^ 16) with 65536; apply Z.mod_small; lia]. f_equal. lia.
  - destruct x, (n_plain e), (n_simple e), (n_full e); repeat split; reflexivity.
Qed.

Lemma clamp_max : forall v d, 1 <= d <= 15 -> - 2 ^ 31 <= v < 2 ^ d -> clampbits v d = Ok (Z.max 0 v).
Proof.
  intros v d Hd Hv. rewrite clampbits_spec; [|lia|].
  - destruct (v <? 0) eqn:E1; [f_equal; lia|]. replace (v <? 2 ^ d) with true by lia. f_equal. lia.
  - assert (2 ^ d <= 2 ^ 15) by (apply Z.pow_le_mono_r; lia). change (2 ^ 15) with 32768 in *. change (2 ^ 31) with 2147483648 in *. lia.
Qed.

Section Rows.
Variables (e : samsung3) (pic : Z -> Z -> Z) (w h fl N : Z).
Hypothesis Hfit : n_fits e pic w h.
Hypothesis Hw : 0 < w.
Hypothesis Hw16 : w mod 16 = 0.
Hypothesis F4 : (fl &&& 4 =? 0) = negb (n_plain e).
Hypothesis F2 : (fl &&& 2 =? 0) = negb (n_simple e).
Hypothesis F1 : (fl &&& 1 =? 0) = negb (n_full e).
Notation groups := (w / 16).

Lemma scale_ok : forall r g sc p t, 0 <= r < h -> 0 <= g < groups -> (n_scaled e g = true -> sc = 0) -> Reads N p (n_scale_bits e r g ++ t) ->
  exists p', srw3_scale fl (16 * g) sc p = Ok (n_scale_at e r g, p') /\ Reads N p' t.
Proof.
  intros r g sc p t Hr Hg Hs R. unfold srw3_scale, n_scale_at, n_scale_bits in *. rewrite F4.
  replace ((16 * g) &&& 63 =? 0) with (g mod 4 =? 0) by (change 63 with (Z.ones 6); rewrite Z.land_ones by lia; change (2 ^ 6) with 64; lia).
  change (negb (n_plain e) && (g mod 4 =? 0)) with (n_scaled e g). destruct (n_scaled e g) eqn:Es; [|exists p; split; [reflexivity|exact R]].
  pose proof (nf_scale _ _ _ _ Hfit r g Hr Hg Es) as Hf. rewrite (Hs eq_refl). rewrite <- app_assoc in R. unfold n_scale_fits in Hf.
  destruct (reads_word N 2 (n_scale_op e r g) p _ ltac:(lia) ltac:(change (2 ^ Z.of_nat 2) with 4; lia) R) as [p1 [E1 R1]]. change (Z.of_nat 2) with 2 in E1. rewrite E1. cbn [bind].
  destruct Hf as [[O S]|[[O S]|[[O S]|[O S]]]]; rewrite O in *; cbn [Z.ltb Z.eqb Z.compare Pos.compare Pos.compare_cont Pos.eqb app] in *.
  - exists p1. rewrite S. split; [reflexivity|exact R1].
  - exists p1. rewrite S. split; [reflexivity|exact R1].
  - exists p1. rewrite S. split; [reflexivity|exact R1].
  - destruct (reads_word N 12 (n_scale e r g) p1 _ ltac:(lia) ltac:(change (2 ^ Z.of_nat 12) with 4096; lia) R1) as [p2 [E2 R2]]. change (Z.of_nat 12) with 12 in E2. rewrite E2. cbn [bind].
    exists p2. split; [|exact R2]. do 2 f_equal. unfold as_i32, swrap. change (2 ^ (32 - 1)) with 2147483648. change (2 ^ 32) with 4294967296. lia.
Qed.
Lemma motion_ok : forall r g p t, 0 <= r < h -> 0 <= g < groups -> Reads N p (n_motion_bits e r g ++ t) ->
  exists p', srw3_motion fl r (n_motion_before e r g) p = Ok (n_motion e r g, p') /\ Reads N p' t.
Proof.
  intros r g p t Hr Hg R. destruct (nf_motion _ _ _ _ Hfit r g Hr Hg) as [H0 [H2 H3]]. unfold srw3_motion, n_motion_bits in *. rewrite F2, negb_involutive.
  assert (Fin : (r <? 2) && negb (n_motion e r g =? 7) = false) by (destruct (r <? 2) eqn:Q; [|reflexivity]; rewrite (H2 ltac:(lia)); reflexivity).
  destruct (n_simple e).
  - destruct (reads_bit N _ p _ R) as [p1 [E1 R1]]. rewrite E1. cbn [bind]. exists p1. split; [|exact R1].
    destruct H3 as [H3|H3]; rewrite H3 in *; cbn [Z.eqb Pos.eqb Z.b2z negb bind] in *; rewrite Fin; reflexivity.
  - destruct (n_keep e r g) eqn:K.
    + destruct (reads_bit N _ p _ R) as [p1 [E1 R1]]. rewrite E1. cbn [bind Z.b2z Z.eqb]. exists p1. split; [|exact R1]. rewrite <- (H3 eq_refl). rewrite Fin. reflexivity.
    + cbn [app] in R. destruct (reads_bit N _ p _ R) as [p1 [E1 R1]]. rewrite E1. cbn [bind Z.b2z Z.eqb].
      destruct (reads_word N 3 (n_motion e r g) p1 _ ltac:(lia) ltac:(change (2 ^ Z.of_nat 3) with 8; lia) R1) as [p2 [E2 R2]]. change (Z.of_nat 3) with 3 in E2. rewrite E2. cbn [bind].
      exists p2. split; [|exact R2]. rewrite Fin. reflexivity.
Qed.

(** Pixels decoded before group [g] of row [r] *)
Definition Fd (r g r' c' : Z) : Z := if (r' <? r) || (r' =? r) && (c' <? 16 * g) then pic r' c' else 0.
(** ... and the first [k] predictions of the group *)
Definition Fp (r g k r' c' : Z) : Z := if (r' =? r) && (16 * g <=? c') && (c' <? 16 * g + k) then n_predicted e pic r c' else Fd r g r' c'.
Lemma group_in : forall g, 0 <= g < groups -> 16 * g + 16 <= w.
Proof. intros g Hg. lia. Qed.
Lemma Shows_get : forall f out r c, 0 <= r < h -> 0 <= c < w -> Shows w h f out -> get out (r * w + c) = Ok (f r c).
Proof. intros f out r c Hr Hc [L V]. pose proof (cell_range w h r c Hr Hc). rewrite get_ok by lia. rewrite <- V by assumption. reflexivity. Qed.
Lemma pic_range : forall r c, 0 <= r < h -> 0 <= c < w -> 0 <= pic r c < 32768.
Proof.
  intros r c Hr Hc. pose proof (nf_pic _ _ _ _ Hfit r c Hr Hc). pose proof (nf_depth _ _ _ _ Hfit). assert (2 ^ n_depth e <= 2 ^ 15) by (apply Z.pow_le_mono_r; lia). change (2 ^ 15) with 32768 in *. lia.
Qed.
Lemma odd_mod : forall c, Z.odd c = negb (c mod 2 =? 0).
Proof. intros c. rewrite <- Z.negb_even, evm. reflexivity. Qed.
Lemma predict_ok : forall r g i out, 0 <= r < h -> 0 <= g < groups -> 0 <= i < 16 -> Shows w h (Fp r g i) out ->
  let m := n_motion e r g in
  (if m =? 7 then if 16 * g =? 0 then Ok (n_init e) else get out (w * r + 16 * g + i - 2)
   else if r <? 2 then Panic
   else slide <- get [-4; -2; -2; 0; 0; 2; 4] m ;; average <- get [0; 0; 1; 0; 1; 0; 0] m ;;
      let refpixel := if negb ((r + i) &&& 1 =? 0) then w * (Z.max 2 r - 2) + 16 * g + i + slide
                      else if negb (i mod 2 =? 0) then w * (Z.max 1 r - 1) + 16 * g + i - 1 + slide
                      else w * (Z.max 1 r - 1) + 16 * g + i + 1 + slide in
      if negb (average =? 0) then
              a <- get out refpixel ;; b <- get out (refpixel + 2) ;;
              s <- u16add a b ;; s <- u16add s 1 ;; Ok (s >>> 1)
            else get out refpixel) = Ok (n_predicted e pic r (16 * g + i)).
Proof.
  intros r g i out Hr Hg Hi HS m. pose proof (group_in g Hg) as G. unfold n_predicted. replace ((16 * g + i) / 16) with g by lia. cbv zeta. fold m.
  destruct (nf_motion _ _ _ _ Hfit r g Hr Hg) as [H0 [H2 _]]. fold m in H0, H2.
  destruct (m =? 7) eqn:E7.
  - destruct (g =? 0) eqn:Eg; [replace (16 * g =? 0) with true by lia; reflexivity|]. replace (16 * g =? 0) with false by lia.
    replace (w * r + 16 * g + i - 2) with (r * w + (16 * g + i - 2)) by lia. rewrite (Shows_get (Fp r g i)) by (assumption || lia). f_equal. unfold Fp, Fd.
    replace (r =? r) with true by lia. replace (r <? r) with false by lia. cbn [andb orb]. destruct (i <? 2) eqn:Ei.
    + replace (16 * g <=? 16 * g + i - 2) with false by lia. cbn [andb]. replace (16 * g + i - 2 <? 16 * g) with true by lia. f_equal. lia.
    + replace (16 * g <=? 16 * g + i - 2) with true by lia. replace (16 * g + i - 2 <? 16 * g + i) with true by lia. cbn [andb]. unfold n_predicted. cbv zeta.
      replace ((16 * g + i - 2) / 16) with g by lia. fold m. rewrite E7, Eg. f_equal. lia.
  - destruct (r <? 2) eqn:Er; [rewrite H2 in E7 by lia; discriminate E7|].
    destruct (nf_inside _ _ _ _ Hfit r (16 * g + i) Hr ltac:(lia)) as [I1 I2]; [replace ((16 * g + i) / 16) with g by lia; fold m; lia|].
    replace ((16 * g + i) / 16) with g in I1, I2 by lia. fold m in I1, I2.
    assert (Eslide : get [-4; -2; -2; 0; 0; 2; 4] m = Ok (n_slide m)).
    { unfold n_slide. rewrite get_ok by (change (zlen [-4; -2; -2; 0; 0; 2; 4]) with 7; lia). reflexivity. }
    assert (Emean : exists a, get [0; 0; 1; 0; 1; 0; 0] m = Ok a /\ negb (a =? 0) = n_mean m).
    { assert (m = 0 \/ m = 1 \/ m = 2 \/ m = 3 \/ m = 4 \/ m = 5 \/ m = 6) as Hm by lia. destruct Hm as [-> |[-> |[-> |[-> |[-> |[-> | ->]]]]]]; eexists; split; reflexivity. }
    destruct Emean as [av [Ea Eb]]. rewrite Eslide. cbn [bind]. rewrite Ea. cbn [bind]. rewrite Eb.
    replace ((r + i) &&& 1 =? 0) with ((r + i) mod 2 =? 0) by (change 1 with (Z.ones 1) at 1; rewrite Z.land_ones by lia; reflexivity).
    set (rr := n_above_row r (16 * g + i)) in *. set (cc := n_above_column m r (16 * g + i)) in *.
    assert (Rr : 0 <= rr < r) by (unfold rr, n_above_row; destruct (Z.odd _); lia).
    assert (Pos : (if negb ((r + i) mod 2 =? 0) then w * (Z.max 2 r - 2) + 16 * g + i + n_slide m
                      else if negb (i mod 2 =? 0) then w * (Z.max 1 r - 1) + 16 * g + i - 1 + n_slide m
                      else w * (Z.max 1 r - 1) + 16 * g + i + 1 + n_slide m) = rr * w + cc).
    { unfold rr, cc, n_above_row, n_above_column. rewrite !odd_mod. replace ((r + (16 * g + i)) mod 2) with ((r + i) mod 2) by lia. replace ((16 * g + i) mod 2) with (i mod 2) by lia.
      replace (Z.max 2 r - 2) with (r - 2) by lia. replace (Z.max 1 r - 1) with (r - 1) by lia. destruct ((r + i) mod 2 =? 0), (i mod 2 =? 0); cbn [negb]; lia. }
    rewrite Pos. clear Pos.
    assert (Gt : forall c, 0 <= c < w -> get out (rr * w + c) = Ok (pic rr c)).
    { intros c Hc. rewrite (Shows_get (Fp r g i)) by (assumption || lia). f_equal. unfold Fp, Fd. replace (rr =? r) with false by lia. replace (rr <? r) with true by lia. reflexivity. }
    destruct (n_mean m).
    + rewrite Gt by lia. cbn [bind]. replace (rr * w + cc + 2) with (rr * w + (cc + 2)) by lia. rewrite Gt by lia. cbn [bind].
      pose proof (pic_range rr cc ltac:(lia) ltac:(lia)). pose proof (pic_range rr (cc + 2) ltac:(lia) ltac:(lia)). unfold u16add.
      rewrite arith_u_ok by (change (2 ^ 16) with 65536; lia). cbn [bind]. rewrite arith_u_ok by (change (2 ^ 16) with 65536; lia). cbn [bind].
      rewrite Z.shiftr_div_pow2 by lia. reflexivity.
    + apply Gt. lia.
Qed.
Lemma reference_ok : forall r g out, 0 <= r < h -> 0 <= g < groups -> Shows w h (Fd r g) out ->
  exists out', srw3_reference w r (16 * g) (n_motion e r g) (n_init e) out = Ok out' /\ Shows w h (Fp r g 16) out'.
Proof.
  intros r g out Hr Hg HS. pose proof (group_in g Hg) as G.
  assert (S0 : Shows w h (Fp r g 0) out).
  { eapply Shows_ext; [|exact HS]. intros r' c' Hr' Hc'. unfold Fp. replace ((r' =? r) && (16 * g <=? c') && (c' <? 16 * g + 0)) with false by lia. reflexivity. }
  assert (Step : forall i o, 0 <= i < 16 -> Shows w h (Fp r g i) o -> exists o', upd o (w * r + 16 * g + i) (n_predicted e pic r (16 * g + i)) = Ok o' /\ Shows w h (Fp r g (i + 1)) o').
  { intros i o Hi So. replace (w * r + 16 * g + i) with (r * w + (16 * g + i)) by lia. destruct (Shows_upd w h (Fp r g i) o r (16 * g + i) (n_predicted e pic r (16 * g + i)) Hr ltac:(lia) So) as [o' [E' S']].
    exists o'. split; [exact E'|]. eapply Shows_ext; [|exact S']. intros r' c' Hr' Hc'. cbv beta. destruct ((r' =? r) && (c' =? 16 * g + i)) eqn:Q.
    - assert (r' = r /\ c' = 16 * g + i) as [-> ->] by lia. unfold Fp. replace ((r =? r) && (16 * g <=? 16 * g + i) && (16 * g + i <? 16 * g + (i + 1))) with true by lia. reflexivity.
    - unfold Fp. replace ((r' =? r) && (16 * g <=? c') && (c' <? 16 * g + (i + 1))) with ((r' =? r) && (16 * g <=? c') && (c' <? 16 * g + i)) by lia. reflexivity. }
  assert (Main : forall f, (forall i o o', 0 <= i < 16 -> Shows w h (Fp r g i) o -> upd o (w * r + 16 * g + i) (n_predicted e pic r (16 * g + i)) = Ok o' -> f i o = Ok o') ->
    exists out', rfold f (zrange 0 16) out = Ok out' /\ Shows w h (Fp r g 16) out').
  { intros f Hf. destruct (rfold_zrange f (fun i => Shows w h (Fp r g i)) 0 16 out) as [o [E S1]]; [lia|exact S0| |exists o; split; assumption].
    intros i o Hi So. destruct (Step i o Hi So) as [o' [E' S']]. exists o'. split; [apply Hf; assumption|exact S']. }
  unfold srw3_reference. cbv zeta. pose proof (fun i o Hi So => predict_ok r g i o Hr Hg Hi So) as P. cbv zeta in P. destruct (n_motion e r g =? 7).
  - apply Main. intros i o o' Hi So Eu. rewrite (P i o Hi So). exact Eu.
  - destruct (r <? 2); [specialize (P 0 out ltac:(lia) S0); discriminate P|].
    pose proof (P 0 out ltac:(lia) S0) as P0. apply bind_inv in P0. destruct P0 as [sl [Es P0]]. apply bind_inv in P0. destruct P0 as [av [Ea _]].
    rewrite Es in *. cbn [bind] in *. rewrite Ea in *. cbn [bind] in *. apply Main. intros i o o' Hi So Eu. rewrite (P i o Hi So). exact Eu.
Qed.
End Rows.
End Srw3.
