(** Proofs about Samsung's third compression: whole pictures. *)
From Coq Require Import String ZArith List Bool Lia ZifyBool ZifyNat.
From Verif Require Import Base Bytes Pumps Huffman Packed Lookup Threads Dec_Nef Spec_Bits Spec_Pump Spec_Stream Spec_Image Spec_Huffman Spec_Ljpeg Spec_Srw1 Spec_Srw3
  P_Base P_Bits P_Threads P_Pumps P_Huff1 P_Huff4 P_Huff5 P_Ljpeg1 P_Ljpeg2 P_Pred1 P_Pred10 P_Srw1 P_Srw1b P_Lookup P_Packed2 P_Pred6 P_Crw4 P_Srw3.
Import ListNotations.
Local Open Scope Z_scope.
Ltac Zify.zify_post_hook ::= Z.div_mod_to_equations.

Section Srw3.
Context {M : Mode}.
Lemma shows_get : forall w h f out r c, 0 <= r < h -> 0 <= c < w -> Shows w h f out -> get out (r * w + c) = Ok (f r c).
Proof. intros w h f out r c Hr Hc [L V]. pose proof (cell_range w h r c Hr Hc). rewrite get_ok by lia. rewrite <- V by assumption. reflexivity. Qed.
Section Rows.
Variables (e : samsung3) (pic : Z -> Z -> Z) (w h fl N : Z).
Hypothesis Hfit : n_fits e pic w h.
Hypothesis Hw : 0 < w.
Hypothesis Hw16 : w mod 16 = 0.
Hypothesis F4 : (fl &&& 4 =? 0) = negb (n_plain e).
Hypothesis F2 : (fl &&& 2 =? 0) = negb (n_simple e).
Hypothesis F1 : (fl &&& 1 =? 0) = negb (n_full e).
Notation groups := (w / 16).
Notation before r i g := (n_before e r i (Z.to_nat g)).

(** The lengths of the quarters *)
Definition Modes (r g : Z) (modes : list (Z * Z)) : Prop :=
  exists x, modes = if Z.even r then [(before r 2 g, before r 3 g); x; (before r 0 g, before r 1 g)]
                    else [(before r 0 g, before r 1 g); (before r 2 g, before r 3 g); x].
Lemma before_next : forall r i g, 0 <= g -> before r i (g + 1) = if n_skip e r g then before r i g else n_len e r g i.
Proof. intros r i g Hg. replace (Z.to_nat (g + 1)) with (S (Z.to_nat g)) by lia. cbn [n_before]. rewrite Z2Nat.id by lia. reflexivity. Qed.
Lemma len_read : forall r g i p t, 0 <= r < h -> 0 <= g < groups -> 0 <= i < 4 -> n_skip e r g = false ->
  Reads N p ((if n_op e r g i =? 3 then binary 4 (n_len e r g i) else []) ++ t) ->
  exists p', (if n_op e r g i =? 0 then Ok (before r i g, p)
              else if n_op e r g i =? 1 then b <- u32add (before r i g) 1 ;; Ok (b, p)
              else if n_op e r g i =? 2 then b <- u32sub (before r i g) 1 ;; Ok (b, p)
              else get_bits MSB32 p 4) = Ok (n_len e r g i, p') /\ Reads N p' t /\ (n_depth e + 1 <? n_len e r g i) = false.
Proof.
  intros r g i p t Hr Hg Hi Hs R. destruct (nf_len _ _ _ _ Hfit r g i Hr Hg Hi Hs) as [Hl Ho]. cbv zeta in Ho. pose proof (nf_depth _ _ _ _ Hfit) as Hd.
  destruct Ho as [[O E]|[[O E]|[[O E]|[O E]]]]; rewrite O in *; cbn [Z.eqb Pos.eqb app] in *.
  - exists p. rewrite <- E. split; [reflexivity|split; [exact R|lia]].
  - unfold u32add. rewrite arith_u_ok by (change (2 ^ 32) with 4294967296; lia). cbn [bind]. exists p. rewrite <- E. split; [reflexivity|split; [exact R|lia]].
  - unfold u32sub. rewrite arith_u_ok by (change (2 ^ 32) with 4294967296; lia). cbn [bind]. exists p. rewrite <- E. split; [reflexivity|split; [exact R|lia]].
  - destruct (reads_word N 4 (n_len e r g i) p t ltac:(lia) ltac:(change (2 ^ Z.of_nat 4) with 16; lia) R) as [p' [E' R']]. exists p'. split; [exact E'|split; [exact R'|lia]].
Qed.
Lemma op_range : forall r g i, 0 <= r < h -> 0 <= g < groups -> 0 <= i < 4 -> n_skip e r g = false -> 0 <= n_op e r g i < 4.
Proof. intros r g i Hr Hg Hi Hs. destruct (nf_len _ _ _ _ Hfit r g i Hr Hg Hi Hs) as [_ H]. cbv zeta in H. lia. Qed.
Lemma lens_ok : forall r g p modes t, 0 <= r < h -> 0 <= g < groups -> n_skip e r g = false -> Modes r g modes ->
  Reads N p (flat_map (fun i => binary 2 (n_op e r g i)) (upto 4) ++ flat_map (fun i => if n_op e r g i =? 3 then binary 4 (n_len e r g i) else []) (upto 4) ++ t) ->
  exists p' modes', ('(f0, p) <- get_bits MSB32 p 2 ;; '(f1, p) <- get_bits MSB32 p 2 ;;
       '(f2, p) <- get_bits MSB32 p 2 ;; '(f3, p) <- get_bits MSB32 p 2 ;;
       rfold (srw3_bits r (n_depth e)) (enumerate [f0; f1; f2; f3]) (p, modes, zeros 4)) =
    Ok (p', modes', [n_len e r g 0; n_len e r g 1; n_len e r g 2; n_len e r g 3]) /\ Modes r (g + 1) modes' /\ Reads N p' t.
Proof.
  intros r g p modes t Hr Hg Hs [x ->] R. change (upto 4) with [0; 1; 2; 3] in R. cbn [flat_map] in R. rewrite !app_nil_r in R. rewrite <- !app_assoc in R.
  pose proof (fun i Hi => op_range r g i Hr Hg Hi Hs) as Ho.
  destruct (reads_word N 2 _ p _ ltac:(lia) (Ho 0 ltac:(lia)) R) as [p1 [E1 R1]]. change (Z.of_nat 2) with 2 in E1. rewrite E1. cbn [bind]. clear R E1 p.
  destruct (reads_word N 2 _ p1 _ ltac:(lia) (Ho 1 ltac:(lia)) R1) as [p2 [E2 R2]]. change (Z.of_nat 2) with 2 in E2. rewrite E2. cbn [bind]. clear R1 E2 p1.
  destruct (reads_word N 2 _ p2 _ ltac:(lia) (Ho 2 ltac:(lia)) R2) as [p3 [E3 R3]]. change (Z.of_nat 2) with 2 in E3. rewrite E3. cbn [bind]. clear R2 E3 p2.
  destruct (reads_word N 2 _ p3 _ ltac:(lia) (Ho 3 ltac:(lia)) R3) as [p4 [E4 R4]]. change (Z.of_nat 2) with 2 in E4. rewrite E4. cbn [bind]. clear R3 E4 p3.
  change (enumerate [n_op e r g 0; n_op e r g 1; n_op e r g 2; n_op e r g 3]) with [(0, n_op e r g 0); (1, n_op e r g 1); (2, n_op e r g 2); (3, n_op e r g 3)]. cbn [rfold].
  destruct (len_read r g 0 p4 _ Hr Hg ltac:(lia) Hs R4) as [q0 [E0 [R0 L0]]].
  destruct (len_read r g 1 q0 _ Hr Hg ltac:(lia) Hs R0) as [q1 [E1 [R1 L1]]].
  destruct (len_read r g 2 q1 _ Hr Hg ltac:(lia) Hs R1) as [q2 [E2 [R2 L2]]].
  destruct (len_read r g 3 q2 _ Hr Hg ltac:(lia) Hs R2) as [q3 [E3 [R3 L3]]].
  exists q3. unfold srw3_bits. unfold Modes. pose proof (fun i => before_next r i g (proj1 Hg)) as Bn. rewrite Hs in Bn.
  pose proof (evm r) as Ev. destruct (Z.even r) eqn:Er; rewrite <- Ev; cbn [negb].
  - change ((0 >>> 1 + 2) mod 3) with 2. change ((1 >>> 1 + 2) mod 3) with 2. change ((2 >>> 1 + 2) mod 3) with 0. change ((3 >>> 1 + 2) mod 3) with 0.
    match goal with |- context [get [?a; ?b; ?c] 2] => change (get [a; b; c] 2) with (@Ok (Z * Z) c) end. cbn [bind]. rewrite E0. cbn [bind].
    match goal with |- context [upd [?a; ?b; ?c] 2 ?v] => change (upd [a; b; c] 2 v) with (@Ok (list (Z * Z)) [a; b; v]) end. cbn [bind].
    match goal with |- context [upd (zeros 4) 0 ?v] => change (upd (zeros 4) 0 v) with (@Ok (list Z) [v; 0; 0; 0]) end. cbn [bind]. rewrite L0. cbn [bind].
    match goal with |- context [get [?a; ?b; ?c] 2] => change (get [a; b; c] 2) with (@Ok (Z * Z) c) end. cbn [bind]. rewrite E1. cbn [bind].
    match goal with |- context [upd [?a; ?b; ?c] 2 ?v] => change (upd [a; b; c] 2 v) with (@Ok (list (Z * Z)) [a; b; v]) end. cbn [bind].
    match goal with |- context [upd [?a; 0; 0; 0] 1 ?v] => change (upd [a; 0; 0; 0] 1 v) with (@Ok (list Z) [a; v; 0; 0]) end. cbn [bind]. rewrite L1. cbn [bind].
    match goal with |- context [get [?a; ?b; ?c] 0] => change (get [a; b; c] 0) with (@Ok (Z * Z) a) end. cbn [bind]. rewrite E2. cbn [bind].
    match goal with |- context [upd [?a; ?b; ?c] 0 ?v] => change (upd [a; b; c] 0 v) with (@Ok (list (Z * Z)) [v; b; c]) end. cbn [bind].
    match goal with |- context [upd [?a; ?b; 0; 0] 2 ?v] => change (upd [a; b; 0; 0] 2 v) with (@Ok (list Z) [a; b; v; 0]) end. cbn [bind]. rewrite L2. cbn [bind].
    match goal with |- context [get [?a; ?b; ?c] 0] => change (get [a; b; c] 0) with (@Ok (Z * Z) a) end. cbn [bind]. rewrite E3. cbn [bind].
    match goal with |- context [upd [?a; ?b; ?c] 0 ?v] => change (upd [a; b; c] 0 v) with (@Ok (list (Z * Z)) [v; b; c]) end. cbn [bind].
    match goal with |- context [upd [?a; ?b; ?c; 0] 3 ?v] => change (upd [a; b; c; 0] 3 v) with (@Ok (list Z) [a; b; c; v]) end. cbn [bind]. rewrite L3. cbn [bind].
    eexists. split; [reflexivity|split; [exists x; rewrite !Bn; reflexivity|exact R3]].
  - change (0 >>> 1) with 0. change (1 >>> 1) with 0. change (2 >>> 1) with 1. change (3 >>> 1) with 1.
    match goal with |- context [get [?a; ?b; ?c] 0] => change (get [a; b; c] 0) with (@Ok (Z * Z) a) end. cbn [bind]. rewrite E0. cbn [bind].
    match goal with |- context [upd [?a; ?b; ?c] 0 ?v] => change (upd [a; b; c] 0 v) with (@Ok (list (Z * Z)) [v; b; c]) end. cbn [bind].
    match goal with |- context [upd (zeros 4) 0 ?v] => change (upd (zeros 4) 0 v) with (@Ok (list Z) [v; 0; 0; 0]) end. cbn [bind]. rewrite L0. cbn [bind].
    match goal with |- context [get [?a; ?b; ?c] 0] => change (get [a; b; c] 0) with (@Ok (Z * Z) a) end. cbn [bind]. rewrite E1. cbn [bind].
    match goal with |- context [upd [?a; ?b; ?c] 0 ?v] => change (upd [a; b; c] 0 v) with (@Ok (list (Z * Z)) [v; b; c]) end. cbn [bind].
    match goal with |- context [upd [?a; 0; 0; 0] 1 ?v] => change (upd [a; 0; 0; 0] 1 v) with (@Ok (list Z) [a; v; 0; 0]) end. cbn [bind]. rewrite L1. cbn [bind].
    match goal with |- context [get [?a; ?b; ?c] 1] => change (get [a; b; c] 1) with (@Ok (Z * Z) b) end. cbn [bind]. rewrite E2. cbn [bind].
    match goal with |- context [upd [?a; ?b; ?c] 1 ?v] => change (upd [a; b; c] 1 v) with (@Ok (list (Z * Z)) [a; v; c]) end. cbn [bind].
    match goal with |- context [upd [?a; ?b; 0; 0] 2 ?v] => change (upd [a; b; 0; 0] 2 v) with (@Ok (list Z) [a; b; v; 0]) end. cbn [bind]. rewrite L2. cbn [bind].
    match goal with |- context [get [?a; ?b; ?c] 1] => change (get [a; b; c] 1) with (@Ok (Z * Z) b) end. cbn [bind]. rewrite E3. cbn [bind].
    match goal with |- context [upd [?a; ?b; ?c] 1 ?v] => change (upd [a; b; c] 1 v) with (@Ok (list (Z * Z)) [a; v; c]) end. cbn [bind].
    match goal with |- context [upd [?a; ?b; ?c; 0] 3 ?v] => change (upd [a; b; c; 0] 3 v) with (@Ok (list Z) [a; b; c; v]) end. cbn [bind]. rewrite L3. cbn [bind].
    eexists. split; [reflexivity|split; [exists x; rewrite !Bn; reflexivity|exact R3]].
Qed.

(** The differences *)
Definition Fs (r g k r' c' : Z) : Z :=
  if (r' =? r) && (16 * g <=? c') && (c' <? 16 * g + 16) && existsb (fun i => 16 * g + n_order r i =? c') (zrange 0 k) then pic r c' else Fp e pic r g 16 r' c'.
Lemma order_range : forall r i, 0 <= i < 16 -> 0 <= n_order r i < 16.
Proof. intros r i Hi. unfold n_order. destruct (Z.even r); lia. Qed.
Lemma order_model : forall r i, 0 <= i < 16 -> (if negb (r mod 2 =? 0) then Z.shiftl (i &&& 7) 1 + 1 - (i >>> 3) else Z.shiftl (i &&& 7) 1 + (i >>> 3)) = n_order r i.
Proof.
  intros r i Hi. unfold n_order. rewrite evm. change 7 with (Z.ones 3). rewrite Z.land_ones by lia. rewrite Z.shiftl_mul_pow2, Z.shiftr_div_pow2 by lia. change (2 ^ 3) with 8. change (2 ^ 1) with 2.
  destruct (r mod 2 =? 0); cbn [negb]; lia.
Qed.
Lemma order_onto : forall r k, 0 <= k < 16 -> existsb (fun i => n_order r i =? k) (zrange 0 16) = true.
Proof.
  intros r k Hk. apply existsb_exists. exists (k / 2 + 8 * (if Z.even r then k mod 2 else 1 - k mod 2)). split; [apply zrange_In; destruct (Z.even r); lia|]. unfold n_order. destruct (Z.even r); lia.
Qed.
Lemma order_inj : forall r i j, 0 <= i < 16 -> 0 <= j < 16 -> n_order r i = n_order r j -> i = j.
Proof. intros r i j Hi Hj E. unfold n_order in E. destruct (Z.even r); lia. Qed.
Lemma scale_range : forall r g, 0 <= r < h -> 0 <= g < groups -> -2 <= n_scale_at e r g < 4096.
Proof. intros r g Hr Hg. unfold n_scale_at. destruct (n_scaled e g) eqn:E; [|lia]. pose proof (nf_scale _ _ _ _ Hfit r g Hr Hg E) as H. unfold n_scale_fits in H. lia. Qed.
Lemma predicted_range : forall r c, 0 <= r < h -> 0 <= c < w -> 0 <= n_predicted e pic r c < 32768.
Proof.
  intros r c Hr Hc. pose proof (pic_range e pic w h Hfit) as P. pose proof (nf_inside _ _ _ _ Hfit r c Hr Hc) as I. unfold n_inside in I. cbv zeta in I. unfold n_predicted. cbv zeta.
  pose proof (nf_init _ _ _ _ Hfit) as Hi. change (2 ^ 14) with 16384 in Hi. destruct (nf_motion _ _ _ _ Hfit r (c / 16) Hr ltac:(lia)) as [_ [H2 _]].
  destruct (n_motion e r (c / 16) =? 7) eqn:E7; [destruct (c / 16 =? 0) eqn:E0; [lia|apply P; lia]|]. specialize (I ltac:(lia)). destruct I as [I1 I2].
  assert (2 <= r) by (destruct (Z.lt_ge_cases r 2); [rewrite H2 in E7 by lia; discriminate E7|assumption]).
  assert (0 <= n_above_row r c < h) by (unfold n_above_row; destruct (Z.odd (r + c)); lia).
  set (cc := n_above_column (n_motion e r (c / 16)) r c) in *. destruct (n_mean _); [|apply P; lia].
  pose proof (P (n_above_row r c) cc ltac:(lia) ltac:(lia)). pose proof (P (n_above_row r c) (cc + 2) ltac:(lia) ltac:(lia)). lia.
Qed.
Lemma diffs_ok : forall r g p bits out t, 0 <= r < h -> 0 <= g < groups -> zlen bits = 4 -> (forall i, 0 <= i < 4 -> znth bits i = n_len_at e r g i) ->
  Shows w h (Fp e pic r g 16) out -> Reads N p (n_diffs_bits e r g ++ t) ->
  exists p' out', srw3_diffs w r (16 * g) (n_depth e) (n_scale_at e r g) bits (p, out) = Ok (p', out') /\ Shows w h (Fd pic r (g + 1)) out' /\ Reads N p' t.
Proof.
  intros r g p bits out t Hr Hg Lb Vb HS R. assert (G : 16 * g + 16 <= w) by lia. unfold srw3_diffs, n_diffs_bits in *. rewrite upto_zrange in R.
  set (enc := fun i => signed_bits (n_len_at e r g (i / 4)) (n_diff e r (16 * g + n_order r i))) in *.
  match goal with |- context [rfold ?f (zrange 0 16) ?st0] => destruct (rfold_zrange f (fun k '(p, out) => Shows w h (Fs r g k) out /\ Reads N p (flat_map enc (zrange k 16) ++ t)) 0 16 st0) as [[p1 o1] [E [S1 R1]]] end.
  - lia.
  - split; [|exact R]. eapply Shows_ext; [|exact HS]. intros r' c' Hr' Hc'. unfold Fs. rewrite (zrange_empty 0 0) by lia. cbn [existsb]. rewrite andb_false_r. reflexivity.
  - intros i [p1 o1] Hi [S1 R1]. rewrite (zrange_cons i 16) in R1 by lia. cbn [flat_map] in R1. rewrite <- app_assoc in R1.
    assert (Hq : 0 <= i / 4 < 4) by lia. rewrite Z.shiftr_div_pow2 by lia. change (2 ^ 2) with 4. rewrite get_ok by lia. fold (znth bits (i / 4)). cbn [bind]. rewrite Vb by exact Hq.
    pose proof (nf_diff _ _ _ _ Hfit r g i Hr Hg Hi) as Hd. pose proof (nf_depth _ _ _ _ Hfit) as Hdep.
    assert (Hl : 0 <= n_len_at e r g (i / 4) <= 16).
    { unfold n_len_at. destruct (n_skip e r g) eqn:Sk; [lia|]. destruct (nf_len _ _ _ _ Hfit r g (i / 4) Hr Hg Hq Sk) as [Hl _]. lia. }
    destruct (reads_signed N (n_len_at e r g (i / 4)) _ p1 _ ltac:(lia) Hd R1) as [p2 [E2 R2]]. rewrite E2. cbn [bind].
    pose proof (scale_range r g Hr Hg) as Hsc. set (sc := n_scale_at e r g) in *. pose proof (order_range r i Hi) as Ho. set (c := 16 * g + n_order r i) in *. set (d := n_diff e r c) in *.
    assert (Hdr : -65536 <= d <= 65536).
    { unfold signed_fits in Hd. set (l := n_len_at e r g (i / 4)) in *. destruct (l =? 0) eqn:El; [lia|]. assert (2 ^ (l - 1) <= 2 ^ 16) by (apply Z.pow_le_mono_r; lia). change (2 ^ 16) with 65536 in *. lia. }
    unfold i32mul. rewrite arith_s_ok by (change (2 ^ (32 - 1)) with 2147483648; lia). cbn [bind]. rewrite i32add_ok by (change (2 ^ 31) with 2147483648; lia). cbn [bind].
    assert (Bm : - 65536 * 8192 <= d * (sc * 2 + 1) <= 65536 * 8192) by nia.
    rewrite arith_s_ok by (change (2 ^ (32 - 1)) with 2147483648; lia). cbn [bind]. rewrite i32add_ok by (change (2 ^ 31) with 2147483648; lia). cbn [bind].
    rewrite order_model by exact Hi. replace (n_order r i + w * r + 16 * g) with (r * w + c) by (unfold c; lia).
    assert (Hc : 0 <= c < w) by (unfold c; lia).
    rewrite (shows_get w h (Fs r g i)) by (assumption || lia). cbn [bind].
    assert (Ef : Fs r g i r c = n_predicted e pic r c).
    { unfold Fs. replace (existsb (fun i0 => 16 * g + n_order r i0 =? c) (zrange 0 i)) with false.
      - rewrite andb_false_r. unfold Fp. replace ((r =? r) && (16 * g <=? c) && (c <? 16 * g + 16)) with true by (unfold c; lia). reflexivity.
      - symmetry. apply not_true_iff_false. intros Q. apply existsb_exists in Q. destruct Q as [j [Hj Q]]. apply zrange_In in Hj. assert (j = i) by (apply (order_inj r); unfold c in Q; lia). lia. }
    rewrite Ef. pose proof (predicted_range r c Hr Hc) as Hp. set (pr := n_predicted e pic r c) in *.
    rewrite i32add_ok by (change (2 ^ 31) with 2147483648; lia). cbn [bind].
    pose proof (nf_sum _ _ _ _ Hfit r c Hr Hc) as Sum. replace (c / 16) with g in Sum by (unfold c; lia). fold pr d sc in Sum.
    pose proof (nf_pic _ _ _ _ Hfit r c Hr Hc) as Hpic. pose proof (pic_range e pic w h Hfit r c Hr Hc) as Hpr.
    replace (pr + (d * (sc * 2 + 1) + sc)) with (pr + d * (2 * sc + 1) + sc) by lia.
    rewrite clamp_max; [|exact Hdep|change (2 ^ 31) with 2147483648; lia]. cbn [bind]. rewrite <- Sum. rewrite as_u16_sample by (unfold sample; lia).
    destruct (Shows_upd w h (Fs r g i) o1 r c (pic r c) Hr Hc S1) as [o2 [E3 S3]]. rewrite E3. cbn [bind].
    exists (p2, o2). split; [reflexivity|split; [|exact R2]]. eapply Shows_ext; [|exact S3]. intros r' c' Hr' Hc'. cbv beta. unfold Fs. rewrite (zrange_snoc 0 i) by lia. rewrite existsb_app. cbn [existsb]. rewrite orb_false_r. fold c.
    destruct (r' =? r) eqn:Qr; [|reflexivity]. rewrite (Z.eqb_sym c c'). destruct (c' =? c) eqn:Qc.
    + replace c' with c by lia. replace r' with r by lia. rewrite orb_true_r. replace (16 * g <=? c) with true by (unfold c; lia). replace (c <? 16 * g + 16) with true by (unfold c; lia). reflexivity.
    + cbn [andb]. rewrite orb_false_r. reflexivity.
  - rewrite E. exists p1, o1. split; [reflexivity|split].
    + eapply Shows_ext; [|exact S1]. intros r' c' Hr' Hc'. unfold Fs, Fp, Fd. destruct (r' =? r) eqn:Qr.
      * replace r' with r by lia. replace (r <? r) with false by lia. cbn [andb orb]. destruct (16 * g <=? c') eqn:Q1; cbn [andb]; [|replace (c' <? 16 * (g + 1)) with (c' <? 16 * g) by lia; reflexivity].
        destruct (c' <? 16 * g + 16) eqn:Q2; cbn [andb]; [|replace (c' <? 16 * (g + 1)) with (c' <? 16 * g) by lia; reflexivity].
        replace (existsb (fun i => 16 * g + n_order r i =? c') (zrange 0 16)) with true; [replace (c' <? 16 * (g + 1)) with true by lia; reflexivity|].
        symmetry. pose proof (order_onto r (c' - 16 * g) ltac:(lia)) as On. apply existsb_exists in On. destruct On as [j [Hj Ej]]. apply existsb_exists. exists j. split; [exact Hj|lia].
      * cbn [andb]. reflexivity.
    + rewrite (zrange_empty 16 16) in R1 by lia. exact R1.
Qed.

(** A group and a row *)
Definition State (r g : Z) (st : pump * Z * Z * list (Z * Z) * list Z) (t : list bool) : Prop :=
  let '(p, motion, sc, modes, out) := st in
  motion = n_motion_before e r g /\ (n_scaled e g = true -> sc = 0) /\ Modes r g modes /\ Shows w h (Fd pic r g) out /\ Reads N p t.
Lemma group_ok : forall r g st t, 0 <= r < h -> 0 <= g < groups -> State r g st (n_group e r g ++ t) ->
  exists st', srw3_group w r (n_depth e) fl (n_init e) (16 * g) st = Ok st' /\ State r (g + 1) st' t.
Proof.
  intros r g [[[[p motion] sc] modes] out] t Hr Hg [Em [Es [Hm [HS R]]]]. unfold n_group in R. rewrite <- !app_assoc in R. unfold srw3_group.
  destruct (scale_ok e pic w h fl N Hfit F4 r g sc p _ Hr Hg Es R) as [p1 [E1 R1]]. rewrite E1. cbn [bind]. rewrite Em.
  destruct (motion_ok e pic w h fl N Hfit F2 r g p1 _ Hr Hg R1) as [p2 [E2 R2]]. rewrite E2. cbn [bind].
  destruct (reference_ok e pic w h Hfit Hw16 r g out Hr Hg HS) as [o1 [E3 S3]]. rewrite E3. cbn [bind].
  unfold n_lens_bits in R2. rewrite <- app_assoc in R2. rewrite F1, negb_involutive.
  assert (Sk : exists p3, (if n_full e then Ok (0, p2) else get_bits MSB32 p2 1) = Ok (Z.b2z (n_skip e r g), p3) /\
    Reads N p3 ((if n_skip e r g then [] else flat_map (fun i => binary 2 (n_op e r g i)) (upto 4) ++ flat_map (fun i => if n_op e r g i =? 3 then binary 4 (n_len e r g i) else []) (upto 4)) ++ n_diffs_bits e r g ++ t)).
  { destruct (n_full e) eqn:Fu.
    - exists p2. rewrite (nf_skip _ _ _ _ Hfit r g Hr Hg Fu) in *. split; [reflexivity|exact R2].
    - cbn [app] in R2. destruct (reads_bit N _ p2 _ R2) as [p3 [E4 R4]]. exists p3. split; [exact E4|exact R4]. }
  destruct Sk as [p3 [E4 R4]]. rewrite E4. cbn [bind].
  assert (Ln : exists p4 modes' bits, (if Z.b2z (n_skip e r g) =? 0 then
       '(f0, p) <- get_bits MSB32 p3 2 ;; '(f1, p) <- get_bits MSB32 p 2 ;;
       '(f2, p) <- get_bits MSB32 p 2 ;; '(f3, p) <- get_bits MSB32 p 2 ;;
       rfold (srw3_bits r (n_depth e)) (enumerate [f0; f1; f2; f3]) (p, modes, zeros 4)
     else Ok (p3, modes, zeros 4)) = Ok (p4, modes', bits) /\ Modes r (g + 1) modes' /\ zlen bits = 4 /\ (forall i, 0 <= i < 4 -> znth bits i = n_len_at e r g i) /\ Reads N p4 (n_diffs_bits e r g ++ t)).
  { unfold n_len_at. destruct (n_skip e r g) eqn:Sk; cbn [Z.b2z Z.eqb] in *.
    - exists p3, modes, (zeros 4). split; [reflexivity|split; [|split; [reflexivity|split; [|exact R4]]]].
      + destruct Hm as [x ->]. exists x. rewrite !(fun i => before_next r i g (proj1 Hg)), Sk. reflexivity.
      + intros i Hi. unfold znth, zeros. apply nth_repeat.
    - rewrite <- app_assoc in R4. destruct (lens_ok r g p3 modes _ Hr Hg Sk Hm R4) as [p4 [m' [E5 [M5 R5]]]]. exists p4, m'. eexists. split; [exact E5|split; [exact M5|split; [reflexivity|split; [|exact R5]]]].
      intros i Hi. assert (i = 0 \/ i = 1 \/ i = 2 \/ i = 3) as [-> |[-> |[-> | ->]]] by lia; reflexivity. }
  destruct Ln as [p4 [m' [bits [E5 [M5 [L5 [V5 R5]]]]]]]. rewrite E5. cbn [bind].
  destruct (diffs_ok r g p4 bits o1 t Hr Hg L5 V5 S3 R5) as [p5 [o2 [E6 [S6 R6]]]]. rewrite E6. cbn [bind].
  eexists. split; [reflexivity|]. split; [|split; [|split; [exact M5|split; [exact S6|exact R6]]]].
  - unfold n_motion_before. replace (g + 1 =? 0) with false by lia. replace (g + 1 - 1) with g by lia. reflexivity.
  - unfold n_scale_at, n_scaled. intros Q. apply andb_prop in Q. destruct Q as [_ Q]. replace (g mod 4 =? 0) with false by lia. rewrite andb_false_r. reflexivity.
Qed.
Lemma row_ok : forall r p out t, 0 <= r < h -> Reads N p (n_row e w r ++ t) -> Shows w h (Fd pic r 0) out ->
  exists p' x1 x2 x3 out', rfold (srw3_group w r (n_depth e) fl (n_init e)) (zrange_step 0 w 16) (p, 7, 0, repeat (if r <? 2 then 7 else 4, if r <? 2 then 7 else 4) 3, out) = Ok (p', x1, x2, x3, out') /\
    Shows w h (Fd pic (r + 1) 0) out' /\ Reads N p' t.
Proof.
  intros r p out t Hr R HS.
  assert (Er : zrange_step 0 w 16 = map (fun j => 16 * j) (zrange 0 groups)).
  { unfold zrange_step, zrange. rewrite map_map. replace ((w - 0 + 16 - 1) / 16) with groups by lia. rewrite Z.sub_0_r. apply map_ext. intros j. lia. }
  rewrite Er, rfold_map. unfold n_row in R. rewrite upto_zrange in R.
  match goal with |- context [rfold ?f (zrange 0 groups) ?st0] => destruct (rfold_zrange f (fun g st => State r g st (flat_map (n_group e r) (zrange g groups) ++ t)) 0 groups st0) as [[[[[p1 x1] x2] x3] o1] [E [_ [_ [_ [S1 R1]]]]]] end.
  - lia.
  - split; [reflexivity|split; [intros _; reflexivity|split; [|split; [exact HS|exact R]]]].
    eexists. cbn [Z.to_nat n_before repeat]. destruct (Z.even r); reflexivity.
  - intros g st Hg HSt. rewrite (zrange_cons g groups) in HSt by lia. cbn [flat_map] in HSt. rewrite <- app_assoc in HSt. exact (group_ok r g st _ Hr Hg HSt).
  - rewrite E. exists p1, x1, x2, x3, o1. split; [reflexivity|split].
    + eapply Shows_ext; [|exact S1]. intros r' c' Hr' Hc'. unfold Fd. replace ((r' <? r + 1) || (r' =? r + 1) && (c' <? 16 * 0)) with ((r' <? r) || (r' =? r) && (c' <? 16 * groups)) by lia. reflexivity.
    + rewrite (zrange_empty groups groups) in R1 by lia. exact R1.
Qed.
End Rows.

Lemma fst_pre : forall {A} (a b : list A), firstn (length a) (a ++ b) = a.
Proof. intros. rewrite firstn_app, Nat.sub_diag, firstn_all. apply app_nil_r. Qed.
Lemma skp_pre : forall {A} (a b : list A), skipn (length a) (a ++ b) = b.
Proof. intros. rewrite skipn_app, Nat.sub_diag, skipn_all. reflexivity. Qed.
Lemma stream_app : forall a b q, length a = (4 * q)%nat -> stream MSB32 (a ++ b) 0 = stream MSB32 a 0 ++ stream MSB32 b 0.
Proof.
  intros a b q L. cbn [stream]. rewrite (swapped_split 4 q (a ++ b)) by (rewrite ?app_length; lia). rewrite bits_of_app. rewrite <- L.
  rewrite fst_pre, skp_pre. reflexivity.
Qed.
Lemma stream_length : forall a q, bytes a -> length a = (4 * q)%nat -> zlen (stream MSB32 a 0) = 8 * zlen a.
Proof. intros a q B L. cbn [stream]. unfold zlen. rewrite bits_of_length, (swapped_length 4 q) by lia. lia. Qed.
Lemma align_ok : forall x, 0 <= x -> (if negb (x &&& 15 =? 0) then x + (16 - (x &&& 15)) else x) = 16 * ((x + 15) / 16).
Proof.
  intros x Hx. change 15 with (Z.ones 4) at 1 2. rewrite Z.land_ones by lia. change (2 ^ 4) with 16. destruct (x mod 16 =? 0) eqn:E; cbn [negb]; lia.
Qed.

Lemma srw3_ok : forall e pic w h x other head data pad more, 0 < w -> w mod 16 = 0 -> 0 <= h -> n_fits e pic w h ->
  bytes head -> zlen head = 16 -> stream MSB32 head 0 = n_header e x other ->
  (forall r, 0 <= r < h -> bytes (data r) /\ zlen (data r) = 16 * ((zlen (n_row e w r) + 127) / 128) /\ zlen (data r) < 2 ^ 60 /\ stream MSB32 (data r) 0 = n_row e w r ++ pad r) -> bytes more ->
  exists out, decode_srw3 (head ++ flat_map data (upto h) ++ more) w h = Ok out /\ is_image out w h pic.
Proof.
  intros e pic w h x other head data pad more Hw Hw16 Hh Hfit Bh Lh Eh Hd Bm. rewrite upto_zrange. set (buf := head ++ flat_map data (zrange 0 h) ++ more).
  assert (Bt : forall r, 0 <= r <= h -> bytes (flat_map data (zrange r h) ++ more)).
  { intros r Hr. apply Forall_app. split; [|exact Bm]. apply Forall_forall. intros z Hz. apply in_flat_map in Hz. destruct Hz as [k [Hk Hz]]. apply zrange_In in Hk.
    destruct (Hd k ltac:(lia)) as [B _]. apply (proj1 (Forall_forall _ _) B). exact Hz. }
  assert (Bb : bytes buf) by (apply Forall_app; split; [exact Bh|apply (Bt 0); lia]).
  unfold decode_srw3. pose proof (reads_new buf Bb) as R. set (N := zlen (stream MSB32 buf 0)) in *. unfold buf in R at 2. rewrite (stream_app head _ 4) in R by (unfold zlen in Lh; lia). rewrite Eh in R.
  destruct (header_ok N e x other _ _ (nf_depth _ _ _ _ Hfit) (nf_init _ _ _ _ Hfit) R) as [fl [p [E [R1 [F4 [F2 F1]]]]]]. rewrite E. cbn [bind].
  assert (Pos0 : msb32_get_pos p = Ok 16).
  { rewrite (pos_ok N p _ R1).
    - f_equal. unfold N, buf. rewrite (stream_app head _ 4) by (unfold zlen in Lh; lia). rewrite zlen_app, (stream_length head 4 Bh) by (unfold zlen in Lh; lia). rewrite Lh. lia.
    - unfold N, buf. rewrite (stream_app head _ 4) by (unfold zlen in Lh; lia). rewrite zlen_app, (stream_length head 4 Bh) by (unfold zlen in Lh; lia). rewrite Lh. change (2 ^ 64) with 18446744073709551616. lia. }
  match goal with |- context [rfold ?f (zrange 0 h) ?st0] => destruct (rfold_zrange f (fun r '(lo, p, out) => exists pos, msb32_get_pos p = Ok pos /\ 0 <= pos /\ 0 <= lo /\ 16 * ((lo + pos + 15) / 16) <= zlen buf /\
      skipn (Z.to_nat (16 * ((lo + pos + 15) / 16))) buf = flat_map data (zrange r h) ++ more /\ Shows w h (Fd pic r 0) out) 0 h st0) as [[[lo p1] o1] [E1 [pos [_ [_ [_ [_ [_ S1]]]]]]]] end.
  - lia.
  - exists 16. split; [exact Pos0|]. split; [lia|split; [lia|split; [unfold buf; rewrite zlen_app; change (16 * ((0 + 16 + 15) / 16)) with 16; unfold zlen in *; lia|split]]].
    + change (Z.to_nat (16 * ((0 + 16 + 15) / 16))) with 16%nat. unfold buf. replace 16%nat with (length head) by (unfold zlen in Lh; lia). apply skp_pre.
    + split; [unfold zlen, zeros; rewrite repeat_length; nia|]. intros r c Hr Hc. unfold Fd. replace ((r <? 0) || (r =? 0) && (c <? 16 * 0)) with false by lia. unfold znth, zeros. apply nth_repeat.
  - intros r [[lo p1] o1] Hr [pos [Ep [Hp [Hlo [Hb [Sk S1]]]]]]. rewrite Ep. cbn [bind]. rewrite align_ok by lia. set (off := 16 * ((lo + pos + 15) / 16)) in *.
    assert (0 <= off) by (unfold off; lia). rewrite slice_from_ok by lia. cbn [bind]. rewrite Sk. rewrite (zrange_cons r h) in Sk |- * by lia. cbn [flat_map] in Sk |- *. rewrite <- app_assoc in Sk |- *.
    destruct (Hd r Hr) as [Bd [Ld [Lm Ed]]]. set (T := flat_map data (zrange (r + 1) h) ++ more) in *. set (q := Z.to_nat (4 * ((zlen (n_row e w r) + 127) / 128))).
    assert (Hz0 : 0 <= zlen (n_row e w r)) by (unfold zlen; lia).
    assert (Lq : length (data r) = (4 * q)%nat) by (unfold q, zlen in *; lia).
    assert (BT : bytes (data r ++ T)) by (apply Forall_app; split; [exact Bd|apply (Bt (r + 1)); lia]).
    pose proof (reads_new (data r ++ T) BT) as Rr. set (Nr := zlen (stream MSB32 (data r ++ T) 0)) in *. rewrite (stream_app (data r) T q Lq) in Rr. rewrite Ed in Rr. rewrite <- app_assoc in Rr.
    destruct (row_ok e pic w h fl Nr Hfit Hw Hw16 F4 F2 F1 r (pump_new (data r ++ T)) o1 _ Hr Rr S1) as [p2 [x1 [x2 [x3 [o2 [E2 [S2 R2]]]]]]]. rewrite E2. cbn [bind].
    exists (off, p2, o2). split; [reflexivity|].
    assert (EN : Nr - zlen (pad r ++ stream MSB32 T 0) = zlen (n_row e w r)).
    { unfold Nr. rewrite (stream_app (data r) T q Lq), Ed, !zlen_app. lia. }
    assert (Cap : zlen (n_row e w r) <= 8 * zlen (data r)).
    { rewrite <- (stream_length (data r) q Bd Lq), Ed, zlen_app. unfold zlen. lia. }
    exists ((zlen (n_row e w r) + 7) / 8). split; [rewrite (pos_ok Nr p2 _ R2); rewrite EN; [reflexivity|change (2 ^ 60) with 1152921504606846976 in Lm; change (2 ^ 64) with 18446744073709551616; lia]|].
    assert (Off : 16 * ((off + (zlen (n_row e w r) + 7) / 8 + 15) / 16) = off + zlen (data r)) by (rewrite Ld; unfold off; clear; lia).
    assert (Lskip : zlen (skipn (Z.to_nat off) buf) = zlen buf - off) by (unfold zlen in *; rewrite skipn_length; lia).
    split; [lia|split; [lia|split; [|split; [|exact S2]]]].
    + rewrite Off. rewrite Sk, zlen_app in Lskip. unfold zlen in *. lia.
    + rewrite Off. replace (Z.to_nat (off + zlen (data r))) with (Z.to_nat off + length (data r))%nat by (unfold zlen; lia). rewrite <- skipn_skipn', Sk. apply skp_pre.
  - rewrite E1. cbn [bind]. exists o1. split; [reflexivity|]. destruct S1 as [L V]. split; [exact L|]. intros r c Hr Hc. change (nth (Z.to_nat (r * w + c)) o1 0) with (znth o1 (r * w + c)). rewrite V by assumption.
    unfold Fd. replace ((r <? h) || (r =? h) && (c <? 16 * 0)) with true by lia. reflexivity.
Qed.

(** ** Widths that are no multiple of 16 *)
Lemma reference_length : forall w r col m iv out o, srw3_reference w r col m iv out = Ok o -> zlen o = zlen out /\ w * r + col + 15 < zlen out.
Proof.
  intros w r col m iv out o E. unfold srw3_reference in E. cbv zeta in E.
  assert (Main : forall f : Z -> list Z -> res (list Z), (forall i s1 s2, f i s1 = Ok s2 -> exists v, upd s1 (w * r + col + i) v = Ok s2) -> rfold f (zrange 0 16) out = Ok o -> zlen o = zlen out /\ w * r + col + 15 < zlen out).
  { intros f Hf Ef. assert (St : forall i s1 s2, f i s1 = Ok s2 -> zlen s2 = zlen s1 /\ w * r + col + i < zlen s1).
    { intros i s1 s2 Q. destruct (Hf i s1 s2 Q) as [v Hv]. apply upd_inv in Hv. destruct Hv as [B ->]. rewrite zlen_upd_nat. lia. }
    split; [refine (rfold_inv f (fun o => zlen o = zlen out) _ out o _ eq_refl Ef); intros i s1 s2 _ L Q; apply St in Q; lia|].
    destruct (Z.lt_ge_cases (w * r + col + 15) (zlen out)) as [Q|Q]; [exact Q|exfalso].
    refine (rfold_stuck f (fun o => zlen o = zlen out) _ 15 out o _ eq_refl _ _ Ef); [intros i s1 s2 _ L Q1; apply St in Q1; lia|apply zrange_In; lia|]. intros s1 s2 L Q1. apply St in Q1. lia. }
  destruct (m =? 7).
  - eapply Main; [|exact E]. intros i s1 s2 Q. apply bind_inv in Q. destruct Q as [v [_ Q]]. exists v. exact Q.
  - destruct (r <? 2); [discriminate E|]. apply bind_inv in E. destruct E as [sl [_ E]]. apply bind_inv in E. destruct E as [av [_ E]].
    eapply Main; [|exact E]. intros i s1 s2 Q. apply bind_inv in Q. destruct Q as [v [_ Q]]. exists v. exact Q.
Qed.
Lemma diffs_length : forall w r col d sc bits p out p' o, srw3_diffs w r col d sc bits (p, out) = Ok (p', o) -> zlen o = zlen out.
Proof.
  intros w r col d sc bits p out p' o E. unfold srw3_diffs in E.
  refine (rfold_inv _ (fun st : pump * list Z => zlen (snd st) = zlen out) _ (p, out) (p', o) _ eq_refl E).
  intros i [q s1] [q' s2] _ L Q. cbn [snd] in *. repeat (apply bind_inv in Q; destruct Q as [? [? Q]]; try match goal with v : (Z * pump)%type |- _ => destruct v end). injection Q as _ <-.
  match goal with U : upd _ _ _ = Ok _ |- _ => apply upd_inv in U; destruct U as [_ ->] end. rewrite zlen_upd_nat. exact L.
Qed.
Lemma group_length : forall w r d fl iv col st st', srw3_group w r d fl iv col st = Ok st' -> zlen (snd st') = zlen (snd st) /\ w * r + col + 15 < zlen (snd st).
Proof.
  intros w r d fl iv col [[[[p m] sc] modes] out] st' E. unfold srw3_group in E. cbn [snd].
  apply bind_inv in E. destruct E as [[s1 q1] [_ E]]. apply bind_inv in E. destruct E as [[s2 q2] [_ E]]. apply bind_inv in E. destruct E as [o1 [E1 E]]. apply reference_length in E1.
  apply bind_inv in E. destruct E as [[s3 q3] [_ E]]. apply bind_inv in E. destruct E as [[[s4 q4] b4] [_ E]]. apply bind_inv in E. destruct E as [[s5 o2] [E2 E]]. apply diffs_length in E2. injection E as <-. cbn [snd]. lia.
Qed.
Lemma srw3_odd : forall buf w h out, 0 < w -> 0 < h -> w mod 16 <> 0 -> decode_srw3 buf w h <> Ok out.
Proof.
  intros buf w h out Hw Hh Hm E. unfold decode_srw3 in E. apply bind_inv in E. destruct E as [[[[d fl] iv] p] [_ E]]. apply bind_inv in E. destruct E as [[[lo p1] o1] [E _]].
  assert (Row : forall row p o p' x1 x2 x3 o', rfold (srw3_group w row d fl iv) (zrange_step 0 w 16) (p, 7, 0, repeat (if row <? 2 then 7 else 4, if row <? 2 then 7 else 4) 3, o) = Ok (p', x1, x2, x3, o') -> zlen o' = zlen o /\ w * row + 16 * (w / 16) + 15 < zlen o).
  { intros row q o p' x1 x2 x3 o' Er. split.
    - refine (rfold_inv _ (fun st : pump * Z * Z * list (Z * Z) * list Z => zlen (snd st) = zlen o) _ _ (p', x1, x2, x3, o') _ _ Er); [intros col s1 s2 _ L Q; apply group_length in Q; lia|reflexivity].
    - destruct (Z.lt_ge_cases (w * row + 16 * (w / 16) + 15) (zlen o)) as [Q|Q]; [exact Q|exfalso].
      refine (rfold_stuck _ (fun st : pump * Z * Z * list (Z * Z) * list Z => zlen (snd st) = zlen o) _ (16 * (w / 16)) _ (p', x1, x2, x3, o') _ _ _ _ Er).
      + intros col s1 s2 _ L Q1. apply group_length in Q1. lia.
      + reflexivity.
      + unfold zrange_step. apply in_map_iff. exists (Z.to_nat (w / 16)). split; [lia|]. apply in_seq. lia.
      + intros s1 s2 L Q1. apply group_length in Q1. lia. }
  refine (rfold_stuck _ (fun st : Z * pump * list Z => zlen (snd st) = w * h) _ (h - 1) _ (lo, p1, o1) _ _ _ _ E).
  - intros row [[lo1 q1] s1] [[lo2 q2] s2] _ L Q. cbn [snd] in *. apply bind_inv in Q. destruct Q as [pos [_ Q]]. cbv zeta in Q. apply bind_inv in Q. destruct Q as [src [_ Q]]. apply bind_inv in Q. destruct Q as [[[[[q3 x1] x2] x3] o3] [Er Q]]. apply Row in Er. injection Q as _ _ <-. lia.
  - cbn [snd]. unfold zlen, zeros. rewrite repeat_length. nia.
  - apply zrange_In. lia.
  - intros [[lo1 q1] s1] [[lo2 q2] s2] L Q. cbn [snd] in *. apply bind_inv in Q. destruct Q as [pos [_ Q]]. cbv zeta in Q. apply bind_inv in Q. destruct Q as [src [_ Q]]. apply bind_inv in Q. destruct Q as [[[[[q3 x1] x2] x3] o3] [Er Q]]. apply Row in Er.
    destruct Er as [_ B]. rewrite L in B. clear - B Hm Hw Hh. assert (w * (h - 1) = w * h - w) by ring. lia.
Qed.
End Srw3.

(** ** Checking the choices of an encoder *)
Definition all2 (a b : Z) (f : Z -> Z -> bool) : bool := forallb (fun r => forallb (f r) (upto b)) (upto a).
Lemma all2_ok : forall a b f, all2 a b f = true -> forall r c, 0 <= r < a -> 0 <= c < b -> f r c = true.
Proof. intros a b f H r c Hr Hc. apply (upto_all b (f r)); [|exact Hc]. apply (upto_all a (fun r => forallb (f r) (upto b))); assumption. Qed.
Definition signed_check (l v : Z) : bool := if l =? 0 then v =? 0 else (- 2 ^ (l - 1) <=? v) && (v <? 2 ^ (l - 1)).
Lemma signed_check_ok : forall l v, signed_check l v = true -> signed_fits l v.
Proof. intros l v H. unfold signed_check, signed_fits in *. destruct (l =? 0); lia. Qed.
Definition n_len_check (e : samsung3) (r g i : Z) : bool :=
  let before := n_before e r i (Z.to_nat g) in let l := n_len e r g i in let o := n_op e r g i in
  (0 <=? l) && (l <=? n_depth e + 1) && ((o =? 0) && (l =? before) || (o =? 1) && (l =? before + 1) || (o =? 2) && (l =? before - 1) || (o =? 3) && (l <? 16)).
Definition n_group_check (e : samsung3) (r g : Z) : bool :=
  let m := n_motion e r g in let o := n_scale_op e r g in let s := n_scale e r g in
  (negb (n_scaled e g) || ((o =? 0) && (s =? 0) || (o =? 1) && (s =? -2) || (o =? 2) && (s =? 2) || (o =? 3) && (0 <=? s) && (s <? 4096))) &&
  ((0 <=? m) && (m <=? 7) && (negb (r <? 2) || (m =? 7)) && (if n_simple e then (m =? 3) || (m =? 7) else negb (n_keep e r g) || (m =? n_motion_before e r g))) &&
  (negb (n_full e) || negb (n_skip e r g)) &&
  (n_skip e r g || forallb (n_len_check e r g) (upto 4)) &&
  forallb (fun i => signed_check (n_len_at e r g (i / 4)) (n_diff e r (16 * g + n_order r i))) (upto 16).
Definition n_pixel_check (e : samsung3) (pic : Z -> Z -> Z) (w r c : Z) : bool :=
  let m := n_motion e r (c / 16) in
  (0 <=? pic r c) && (pic r c <? 2 ^ n_depth e) &&
  ((m =? 7) || (0 <=? n_above_column m r c) && (n_above_column m r c + (if n_mean m then 2 else 0) <? w)) &&
  (pic r c =? Z.max 0 (n_predicted e pic r c + n_diff e r c * (2 * n_scale_at e r (c / 16) + 1) + n_scale_at e r (c / 16))).
Definition n_check (e : samsung3) (pic : Z -> Z -> Z) (w h : Z) : bool :=
  (1 <=? n_depth e) && (n_depth e <=? 15) && (0 <=? n_init e) && (n_init e <? 2 ^ 14) && all2 h (w / 16) (n_group_check e) && all2 h w (n_pixel_check e pic w).
Lemma n_check_ok : forall e pic w h, n_check e pic w h = true -> n_fits e pic w h.
Proof.
  intros e pic w h H. unfold n_check in H. repeat (apply andb_prop in H; destruct H as [H ?]).
  match goal with G : all2 h (w / 16) _ = true |- _ => pose proof (all2_ok _ _ _ G) as HG; clear G end. match goal with G : all2 h w _ = true |- _ => pose proof (all2_ok _ _ _ G) as HP; clear G end.
  assert (G : forall r g, 0 <= r < h -> 0 <= g < w / 16 -> (n_scaled e g = true -> n_scale_fits e r g) /\ n_motion_fits e r g /\ (n_full e = true -> n_skip e r g = false) /\
    (n_skip e r g = false -> forall i, 0 <= i < 4 -> n_len_fits e r g i) /\ forall i, 0 <= i < 16 -> signed_fits (n_len_at e r g (i / 4)) (n_diff e r (16 * g + n_order r i))).
  { intros r g Hr Hg. specialize (HG r g Hr Hg). unfold n_group_check in HG. cbv zeta in HG. apply andb_prop in HG. destruct HG as [HG G5]. apply andb_prop in HG. destruct HG as [HG G4]. apply andb_prop in HG. destruct HG as [HG G3]. apply andb_prop in HG. destruct HG as [G1 G2].
    split; [|split; [|split; [|split]]].
    - intros Hs. rewrite Hs in G1. unfold n_scale_fits. lia.
    - unfold n_motion_fits. destruct (n_simple e); [lia|]. split; [lia|split; [lia|]]. intros K. rewrite K in G2. lia.
    - intros Fu. rewrite Fu in G3. destruct (n_skip e r g); [discriminate G3|reflexivity].
    - intros Sk i Hi. rewrite Sk in G4. cbn [orb] in G4. pose proof (upto_all 4 _ G4 i Hi) as Q. unfold n_len_check in Q. cbv zeta in Q. unfold n_len_fits. cbv zeta. lia.
    - intros i Hi. apply signed_check_ok. exact (upto_all 16 _ G5 i Hi). }
  assert (P : forall r c, 0 <= r < h -> 0 <= c < w -> n_pixel_check e pic w r c = true) by exact HP. clear HG HP. unfold n_pixel_check in P. cbv zeta in P.
  split.
  - lia.
  - lia.
  - intros r c Hr Hc. specialize (P r c Hr Hc). clear - P. lia.
  - intros r g Hr Hg. apply G; assumption.
  - intros r g Hr Hg. apply G; assumption.
  - intros r c Hr Hc Hm. specialize (P r c Hr Hc). clear - P Hm. lia.
  - intros r g Hr Hg. apply G; assumption.
  - intros r g i Hr Hg Hi Sk. apply G; assumption.
  - intros r g i Hr Hg Hi. apply G; assumption.
  - intros r c Hr Hc. specialize (P r c Hr Hc). apply andb_prop in P. destruct P as [_ P]. apply Z.eqb_eq in P. exact P.
Qed.

Lemma bytes_check : forall l, forallb (fun b => (0 <=? b) && (b <? 256)) l = true -> bytes l.
Proof. intros l H. apply Forall_forall. intros x Hx. pose proof (proj1 (forallb_forall _ _) H x Hx) as Q. cbv beta in Q. unfold byte. lia. Qed.
