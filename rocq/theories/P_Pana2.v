(** Proofs about Panasonic: a group of fourteen pixels. *)
From Coq Require Import String ZArith List Bool Lia ZifyBool ZifyNat.
From Verif Require Import Base Bytes Pumps Huffman Packed Threads Dec_Pred Spec_Bits Spec_Pump Spec_Stream Spec_Image Spec_Huffman Spec_Ljpeg Spec_Pana
  P_Base P_Bits P_Threads P_Pumps P_Huff1 P_Huff4 P_Huff5 P_Ljpeg1 P_Sensor4 P_Pred1 P_Pred10 P_Orf1 P_Pana1.
Import ListNotations.
Local Open Scope Z_scope.
Ltac Zify.zify_post_hook ::= Z.div_mod_to_equations.

Section Group.
Context {M : Mode}.
Variables (buf : list Z) (split : bool).
Hypothesis Hb : bytes buf.
Hypothesis Hlen : zlen buf < 2 ^ 64.
Variable g : Z.
Hypothesis Hg : 0 <= g.
Hypothesis Hroom : forall b, 0 <= b < 16 -> pana_place split (16 * g + b) + 1 < zlen buf.

Section Value.
Hypothesis U : unbroken split g.
Definition Rd (bs : list bool) (p : pana) : Prop := exists u, 0 <= u <= 128 /\ Pa buf split (128 * g + u) p /\ bs = skipn (Z.to_nat u) (bits_of (pana_group_bytes split buf g)).
Lemma group_length : length (bits_of (pana_group_bytes split buf g)) = 128%nat.
Proof. rewrite bits_of_length. unfold pana_group_bytes. rewrite map_length. reflexivity. Qed.
Lemma pread : forall n v p tail, (1 <= n <= 8)%nat -> 0 <= v < 2 ^ Z.of_nat n -> Rd (binary n v ++ tail) p ->
  exists p', pana_bits p (Z.of_nat n) = Ok (v, p') /\ Rd tail p'.
Proof.
  intros n v p tail Hn Hv [u [Hu [P E]]].
  assert (Lb : length (binary n v) = n) by (rewrite binary_zbits, zbits_length; reflexivity).
  pose proof (f_equal (@length bool) E) as L. rewrite app_length, Lb, skipn_length, group_length in L.
  destruct (read_value buf split Hb Hlen g u (Z.of_nat n) p P Hg ltac:(lia) ltac:(lia) ltac:(lia) U) as [p' [E1 P']].
  { unfold at_place. replace (16 * ((128 * g + u) / 128) + (128 - (128 * g + u) mod 128 - Z.of_nat n) / 8) with (16 * g + (128 - u - Z.of_nat n) / 8) by lia. apply Hroom. lia. }
  exists p'. rewrite E1. split.
  - f_equal. f_equal. rewrite <- E, Nat2Z.id. rewrite <- Lb at 1. rewrite firstn_pre, binary_zbits, number_zbits, Z.mod_small by assumption. reflexivity.
  - exists (u + Z.of_nat n). split; [lia|split; [exact P'|]]. replace (Z.to_nat (u + Z.of_nat n)) with (Z.to_nat u + n)%nat by lia. rewrite <- skipn_skipn', <- E.
    rewrite <- Lb at 1. rewrite skipn_pre. reflexivity.
Qed.
Lemma binary_12 : forall v, 0 <= v < 4096 -> binary 12 v = binary 8 (v / 16) ++ binary 4 (v mod 16).
Proof.
  intros v Hv. rewrite !binary_zbits. rewrite zbits_concat by (change (2 ^ Z.of_nat 4) with 16; lia). change (2 ^ Z.of_nat 4) with 16. f_equal. lia.
Qed.

Variables (choice byte v : Z -> Z).
Hypothesis Hf : pana_group_fits choice byte v.
Hypothesis Hc : bits_of (pana_group_bytes split buf g) = pana_group_coded choice byte v.

Lemma started_next : forall i, 0 <= i -> pana_started v (i + 2) = pana_started v i || negb (v i =? 0).
Proof.
  intros i Hi. unfold pana_started. rewrite !upto_zrange. rewrite (zrange_split 0 i (i + 2)) by lia. rewrite existsb_app.
  rewrite (zrange_cons i), (zrange_cons (i + 1)), (zrange_empty (i + 1 + 1) (i + 2)) by lia. cbn [existsb].
  replace (i mod 2 =? (i + 2) mod 2) with true by lia. replace ((i + 1) mod 2 =? (i + 2) mod 2) with false by lia. cbn [andb]. rewrite !orb_false_r. f_equal.
  induction (zrange 0 i) as [|a l IH]; [reflexivity|]. cbn [existsb]. rewrite IH. f_equal. f_equal. lia.
Qed.
Lemma started_2 : forall i, i < 2 -> 0 <= i -> pana_started v i = false.
Proof. intros i H1 H2. assert (i = 0 \/ i = 1) as [-> | ->] by lia; reflexivity. Qed.

Definition Inv (i : Z) (st : pana * Z * list Z * list Z * list Z) : Prop :=
  let '(p, sh, preds, nonzs, out) := st in
  Rd (flat_map (pana_pixel_coded choice byte v) (zrange i 14)) p /\ (3 <= i -> sh = pana_shift choice (i - 1)) /\
  (exists x y a b, preds = [x; y] /\ nonzs = [a; b] /\
    forall j, i <= j < i + 2 -> j < 14 -> (if j mod 2 =? 0 then x else y) = pana_before v j /\ negb ((if j mod 2 =? 0 then a else b) =? 0) = pana_started v j) /\
  zlen out = 14 /\ forall k, 0 <= k < i -> znth out k = v k.

Lemma pixel_ok : forall i st, 0 <= i < 14 -> Inv i st -> exists st', pana_pixel i st = Ok st' /\ Inv (i + 1) st'.
Proof.
  intros i [[[[p sh] preds] nonzs] out] Hi [R [Hsh [[x [y [a [b [Ep [En Hj]]]]]] [Lo Vo]]]]. unfold pana_pixel.
  rewrite (zrange_cons i) in R by lia. cbn [flat_map] in R. unfold pana_pixel_coded at 1 in R.
  destruct (Hf i Hi) as [Hch [Sv Fv]]. set (s := pana_shift choice i) in *. rewrite <- app_assoc in R.
  set (code := if pana_started v i then binary 8 (byte i) else if (v i =? 0) && (i <? 12) then binary 8 0 else binary 12 (v i)) in *.
  set (tail := flat_map (pana_pixel_coded choice byte v) (zrange (i + 1) 14)) in *.
  assert (S1 : exists p1 sh1, (if i mod 3 =? 2 then '(b0, p0) <- pana_bits p 2 ;; s0 <- u32sub 3 b0 ;; Ok (4 >>> s0, p0) else Ok (sh, p)) = Ok (sh1, p1) /\
    Rd (code ++ tail) p1 /\ (2 <= i -> sh1 = s)).
  { destruct (i mod 3 =? 2) eqn:E3.
    - destruct (pread 2 (choice ((i + 1) / 3)) p (code ++ tail) ltac:(lia) ltac:(change (2 ^ Z.of_nat 2) with 4; lia) R) as [p1 [E1 R1]].
      change (Z.of_nat 2) with 2 in E1. rewrite E1. cbn [bind]. unfold u32sub. rewrite arith_u_ok by (change (2 ^ 32) with 4294967296; lia). cbn [bind].
      exists p1, (4 >>> (3 - choice ((i + 1) / 3))). split; [reflexivity|split; [exact R1|]]. intros _. unfold s, pana_shift.
      clear - Hch. set (q := choice ((i + 1) / 3)) in *. assert (q = 0 \/ q = 1 \/ q = 2 \/ q = 3) as [-> |[-> |[-> | ->]]] by lia; reflexivity.
    - exists p, sh. split; [reflexivity|split; [exact R|]]. intros H2. rewrite Hsh by lia. unfold s, pana_shift. replace ((i + 1) / 3) with ((i - 1 + 1) / 3) by lia. reflexivity. }
  destruct S1 as [p1 [sh1 [E1 [R1 Hs1]]]]. rewrite E1. cbn [bind]. rewrite land1.
  rewrite (get2_ok nonzs a b (i mod 2) En) by lia. cbn [bind]. rewrite (get2_ok preds x y (i mod 2) Ep) by lia. cbn [bind].
  destruct (Hj i ltac:(lia) ltac:(lia)) as [Hx Ha]. set (nz := if i mod 2 =? 0 then a else b) in *. set (pr := if i mod 2 =? 0 then x else y) in *.
  assert (S2 : exists nz2 p2, (if negb (nz =? 0) then '(j, p0) <- pana_bits p1 8 ;; pred <- pana_next j sh1 pr ;; Ok (nz, pred, p0)
     else
       '(nonz, p0) <- pana_bits p1 8 ;;
       if negb (nonz =? 0) || (11 <? i) then
         '(b0, p0) <- pana_bits p0 4 ;; Ok (nonz, Z.lor (Z.shiftl nonz 4) b0, p0)
       else Ok (nonz, pr, p0)) = Ok (nz2, v i, p2) /\ Rd tail p2 /\ (i < 12 -> negb (nz2 =? 0) = pana_started v i || negb (v i =? 0))).
  { rewrite Ha. unfold code in R1. destruct (pana_started v i) eqn:Est.
    - assert (H2 : 2 <= i) by (destruct (Z.lt_ge_cases i 2) as [H|H]; [rewrite started_2 in Est by lia; discriminate Est|exact H]). rewrite (Hs1 H2).
      assert (Hby : 0 <= byte i < 256) by lia.
      destruct (pread 8 (byte i) p1 tail ltac:(lia) ltac:(change (2 ^ Z.of_nat 8) with 256; lia) R1) as [p2 [E2 R2]]. change (Z.of_nat 8) with 8 in E2. rewrite E2. cbn [bind].
      assert (E3 : pana_next (byte i) s pr = Ok (v i)).
      { unfold pana_next. destruct Fv as [[-> Hv]|[Hby2 Hv]]; [rewrite Hv, Hx; reflexivity|]. replace (byte i =? 0) with false by lia. cbn [negb].
        assert (Spr : sample pr) by (rewrite Hx; unfold pana_before; destruct (i <? 2) eqn:E; [unfold sample; lia|]; destruct (Hf (i - 2) ltac:(lia)) as [_ [S _]]; exact S).
        unfold sample in Spr, Sv. assert (Hs4 : s = 0 \/ s = 1 \/ s = 2 \/ s = 4).
        { unfold s, pana_shift. clear - Hch. generalize dependent (choice ((i + 1) / 3)). intros q Hq. assert (q = 0 \/ q = 1 \/ q = 2 \/ q = 3) as [-> |[-> |[-> | ->]]] by lia; cbn; tauto. }
        rewrite !Z.shiftl_mul_pow2 by lia. change 0x80 with 128. rewrite i32sub_ok by (change (2 ^ 31) with 2147483648; destruct Hs4 as [-> |[-> |[-> | ->]]]; cbn; lia). cbn [bind].
        unfold pana_base in Hv. rewrite <- Hx in Hv. replace (pr - 128 * 2 ^ s <? 0) with (pr <? 128 * 2 ^ s) by lia.
        assert (Hl : (pr - 128 * 2 ^ s) &&& (2 ^ s - 1) = pr mod 2 ^ s).
        { replace (2 ^ s - 1) with (Z.ones s) by (rewrite Z.ones_equiv; lia). rewrite Z.land_ones by lia. replace (pr - 128 * 2 ^ s) with (pr + (-128) * 2 ^ s) by lia. apply Z.mod_add. apply Z.pow_nonzero; lia. }
        rewrite Hl. clear Hl. revert Hv. destruct ((pr <? 128 * 2 ^ s) || (s =? 4)); intros Hv; rewrite i32add_ok by (rewrite <- Hv; change (2 ^ 31) with 2147483648; lia); rewrite <- Hv; reflexivity. }
      rewrite E3. cbn [bind]. exists nz, p2. split; [reflexivity|split; [exact R2|]]. intros _. rewrite Ha. reflexivity.
    - cbn [negb]. destruct ((v i =? 0) && (i <? 12)) eqn:Ez.
      + destruct (pread 8 0 p1 tail ltac:(lia) ltac:(change (2 ^ Z.of_nat 8) with 256; lia) R1) as [p2 [E2 R2]]. change (Z.of_nat 8) with 8 in E2. rewrite E2. cbn [bind Z.eqb negb orb].
        replace (11 <? i) with false by lia. exists 0, p2. replace (v i) with 0 by lia. split; [|split; [exact R2|reflexivity]]. do 3 f_equal. rewrite Hx. unfold pana_before.
        destruct (i <? 2) eqn:E; [reflexivity|]. replace i with (i - 2 + 2) in Est by lia. rewrite started_next in Est by lia. lia.
      + destruct Fv as [Fr F16]. rewrite binary_12 in R1 by exact Fr. rewrite <- app_assoc in R1.
        destruct (pread 8 (v i / 16) p1 (binary 4 (v i mod 16) ++ tail) ltac:(lia) ltac:(change (2 ^ Z.of_nat 8) with 256; lia) R1) as [p2 [E2 R2]]. change (Z.of_nat 8) with 8 in E2. rewrite E2. cbn [bind].
        destruct (pread 4 (v i mod 16) p2 tail ltac:(lia) ltac:(change (2 ^ Z.of_nat 4) with 16; lia) R2) as [p3 [E3 R3]]. change (Z.of_nat 4) with 4 in E3.
        replace (negb (v i / 16 =? 0) || (11 <? i)) with true by lia. rewrite E3. cbn [bind]. exists (v i / 16), p3.
        rewrite lor_split by (change (2 ^ 4) with 16; lia). change (2 ^ 4) with 16. split; [|split; [exact R3|]].
        * do 3 f_equal. lia.
        * intros H12. cbn [orb]. lia. }
  destruct S2 as [nz2 [p2 [E2 [R2 Hn2]]]]. rewrite E2. cbn [bind].
  rewrite (upd2_ok nonzs a b (i mod 2) nz2 En) by lia. cbn [bind]. rewrite (upd2_ok preds x y (i mod 2) (v i) Ep) by lia. cbn [bind].
  rewrite as_u16_sample by exact Sv. rewrite upd_ok by lia. cbn [bind]. eexists. split; [reflexivity|]. split; [exact R2|]. split.
  { intros H3. replace (i + 1 - 1) with i by lia. apply Hs1. lia. }
  split; [|split; [rewrite zlen_upd_nat; exact Lo|]].
  - assert (Hother : forall j, j = i + 1 -> j < 14 -> (if j mod 2 =? 0 then x else y) = pana_before v j /\ negb ((if j mod 2 =? 0 then a else b) =? 0) = pana_started v j) by (intros j -> H14; apply Hj; lia).
    assert (Hnew : v i = pana_before v (i + 2)) by (unfold pana_before; replace (i + 2 <? 2) with false by lia; f_equal; lia).
    destruct (Z.lt_ge_cases i 12) as [L12|L12].
    + specialize (Hn2 L12). rewrite <- started_next in Hn2 by lia. destruct (i mod 2 =? 0) eqn:Ei.
      * exists (v i), y, nz2, b. split; [reflexivity|split; [reflexivity|]]. intros j Hj2 H14. assert (j = i + 1 \/ j = i + 2) as [-> | ->] by lia.
        -- specialize (Hother (i + 1) eq_refl ltac:(lia)). replace ((i + 1) mod 2 =? 0) with false in * by lia. exact Hother.
        -- replace ((i + 2) mod 2 =? 0) with true by lia. split; [exact Hnew|exact Hn2].
      * exists x, (v i), a, nz2. split; [reflexivity|split; [reflexivity|]]. intros j Hj2 H14. assert (j = i + 1 \/ j = i + 2) as [-> | ->] by lia.
        -- specialize (Hother (i + 1) eq_refl ltac:(lia)). replace ((i + 1) mod 2 =? 0) with true in * by lia. exact Hother.
        -- replace ((i + 2) mod 2 =? 0) with false by lia. split; [exact Hnew|exact Hn2].
    + destruct (i mod 2 =? 0) eqn:Ei.
      * exists (v i), y, nz2, b. split; [reflexivity|split; [reflexivity|]]. intros j Hj2 H14. assert (j = i + 1) as -> by lia.
        specialize (Hother (i + 1) eq_refl ltac:(lia)). replace ((i + 1) mod 2 =? 0) with false in * by lia. exact Hother.
      * exists x, (v i), a, nz2. split; [reflexivity|split; [reflexivity|]]. intros j Hj2 H14. assert (j = i + 1) as -> by lia.
        specialize (Hother (i + 1) eq_refl ltac:(lia)). replace ((i + 1) mod 2 =? 0) with true in * by lia. exact Hother.
  - intros k Hk. rewrite znth_upd_nat by lia. destruct (k =? i) eqn:E; [f_equal; lia|]. apply Vo. lia.
Qed.

Lemma group_ok : forall p sh done, Pa buf split (128 * g) p ->
  exists p' sh' line, pana_group (zeros 14) (p, sh, done) = Ok (p', sh', done ++ line) /\ Pa buf split (128 * (g + 1)) p' /\ zlen line = 14 /\ forall i, 0 <= i < 14 -> znth line i = v i.
Proof.
  intros p sh done P. unfold pana_group.
  match goal with |- context [rfold ?f (zrange 0 14) ?s] => destruct (rfold_zrange f Inv 0 14 s) as [[[[[p' sh'] preds] nonzs] out] [E [R [_ [_ [L V]]]]]] end.
  - lia.
  - split; [|split; [lia|split; [|split; [reflexivity|lia]]]].
    + exists 0. split; [lia|split; [rewrite Z.add_0_r; exact P|]]. cbn [Z.to_nat skipn]. rewrite Hc. unfold pana_group_coded. rewrite upto_zrange. reflexivity.
    + exists 0, 0, 0, 0. split; [reflexivity|split; [reflexivity|]]. intros j Hj _. assert (j = 0 \/ j = 1) as [-> | ->] by lia; split; reflexivity.
  - intros i st Hi I. apply pixel_ok; assumption.
  - rewrite E. cbn [bind]. exists p', sh', out. split; [reflexivity|split; [|split; [exact L|exact V]]].
    destruct R as [u [Hu [P' Eu]]]. rewrite zrange_empty in Eu by lia. pose proof (f_equal (@length bool) Eu) as Q. rewrite skipn_length, group_length in Q. cbn [flat_map length] in Q.
    replace (128 * (g + 1)) with (128 * g + u) by lia. exact P'.
Qed.
End Value.

(** Any group, even one that is split, takes 128 bits. *)
Lemma pread_any : forall u n p, Pa buf split (128 * g + u) p -> 0 <= u -> 1 <= n <= 8 -> u + n <= 128 ->
  exists v p', pana_bits p n = Ok (v, p') /\ 0 <= v < 2 ^ n /\ Pa buf split (128 * g + (u + n)) p'.
Proof.
  intros u n p P Hu Hn Hun. destruct (read_at buf split Hb Hlen (128 * g + u) n p P Hn ltac:(lia)) as [p' [E P']].
  - unfold at_place. replace (16 * ((128 * g + u) / 128) + (128 - (128 * g + u) mod 128 - n) / 8) with (16 * g + (128 - u - n) / 8) by lia. apply Hroom. lia.
  - eexists. exists p'. split; [exact E|split; [apply Z.mod_pos_bound; apply Z.pow_pos_nonneg; lia|]]. replace (128 * g + (u + n)) with (128 * g + u + n) by lia. exact P'.
Qed.
Definition Any (i : Z) (st : pana * Z * list Z * list Z * list Z) : Prop :=
  let '(p, sh, preds, nonzs, out) := st in
  0 <= sh <= 4 /\ zlen out = 14 /\
  exists x y a b, preds = [x; y] /\ nonzs = [a; b] /\ 0 <= x < 4096 * (i + 1) /\ 0 <= y < 4096 * (i + 1) /\
    Pa buf split (128 * g + (8 * i + 2 * (i / 3) + 4 * Z.b2z (negb (a =? 0) || (12 <? i)) + 4 * Z.b2z (negb (b =? 0) || (13 <? i)))) p.
Lemma pixel_any : forall i st, 0 <= i < 14 -> Any i st -> exists st', pana_pixel i st = Ok st' /\ Any (i + 1) st'.
Proof.
  intros i [[[[p sh] preds] nonzs] out] Hi [Hsh [Lo [x [y [a [b [Ep [En [Hx [Hy P]]]]]]]]]]. unfold pana_pixel.
  set (u := 8 * i + 2 * (i / 3) + 4 * Z.b2z (negb (a =? 0) || (12 <? i)) + 4 * Z.b2z (negb (b =? 0) || (13 <? i))) in *.
  assert (Hu : 8 * i + 2 * (i / 3) <= u <= 8 * i + 2 * (i / 3) + 8) by (unfold u; destruct (_ || _), (negb (b =? 0) || _); cbn [Z.b2z]; lia).
  assert (S1 : exists p1 sh1, (if i mod 3 =? 2 then '(b0, p0) <- pana_bits p 2 ;; s0 <- u32sub 3 b0 ;; Ok (4 >>> s0, p0) else Ok (sh, p)) = Ok (sh1, p1) /\
    0 <= sh1 <= 4 /\ Pa buf split (128 * g + (u + 2 * (Z.b2z (i mod 3 =? 2)))) p1).
  { destruct (i mod 3 =? 2) eqn:E3; cbn [Z.b2z].
    - destruct (pread_any u 2 p P ltac:(lia) ltac:(lia) ltac:(lia)) as [v [p1 [E1 [Hv P1]]]]. change (2 ^ 2) with 4 in Hv.
      rewrite E1. cbn [bind]. unfold u32sub. rewrite arith_u_ok by (change (2 ^ 32) with 4294967296; lia). cbn [bind].
      exists p1, (4 >>> (3 - v)). split; [reflexivity|split; [|exact P1]]. assert (v = 0 \/ v = 1 \/ v = 2 \/ v = 3) as [-> |[-> |[-> | ->]]] by lia; cbn; lia.
    - exists p, sh. split; [reflexivity|split; [exact Hsh|]]. rewrite Z.mul_0_r, Z.add_0_r. exact P. }
  destruct S1 as [p1 [sh1 [E1 [Hs1 P1]]]]. rewrite E1. cbn [bind]. rewrite land1. set (u1 := u + 2 * Z.b2z (i mod 3 =? 2)) in *.
  assert (Hu1 : u1 <= 8 * i + 2 * ((i + 1) / 3) + 8 /\ 0 <= u1) by (unfold u1; destruct (i mod 3 =? 2) eqn:E; cbn [Z.b2z]; lia).
  rewrite (get2_ok nonzs a b (i mod 2) En) by lia. cbn [bind]. rewrite (get2_ok preds x y (i mod 2) Ep) by lia. cbn [bind].
  set (nz := if i mod 2 =? 0 then a else b) in *. set (pr := if i mod 2 =? 0 then x else y) in *.
  assert (Hpr : 0 <= pr < 4096 * (i + 1)) by (unfold pr; destruct (i mod 2 =? 0); assumption).
  assert (Hbig : negb (nz =? 0) = false -> u1 + 12 <= 128).
  { intros H. unfold u1, u, nz in *. clear - H Hi. destruct (i mod 2 =? 0) eqn:E2; destruct (i mod 3 =? 2) eqn:E3; cbn [Z.b2z];
      destruct (negb (a =? 0) || (12 <? i)) eqn:Fa; destruct (negb (b =? 0) || (13 <? i)) eqn:Fb; cbn [Z.b2z]; lia. }
  assert (S2 : exists nz2 pr2 p2, (if negb (nz =? 0) then '(j, p0) <- pana_bits p1 8 ;; pred <- pana_next j sh1 pr ;; Ok (nz, pred, p0)
     else
       '(nonz, p0) <- pana_bits p1 8 ;;
       if negb (nonz =? 0) || (11 <? i) then
         '(b0, p0) <- pana_bits p0 4 ;; Ok (nonz, Z.lor (Z.shiftl nonz 4) b0, p0)
       else Ok (nonz, pr, p0)) = Ok (nz2, pr2, p2) /\ 0 <= pr2 < 4096 * (i + 2) /\
     Pa buf split (128 * g + (u1 + 8 + 4 * (Z.b2z (negb (nz =? 0) || negb (nz2 =? 0) || (11 <? i)) - Z.b2z (negb (nz =? 0))))) p2 /\ (negb (nz =? 0) = true -> nz2 = nz)).
  { destruct (negb (nz =? 0)) eqn:Enz.
    - destruct (pread_any u1 8 p1 P1 ltac:(lia) ltac:(lia)) as [j [p2 [E2 [Hj P2]]]].
      { clear - Hu1 Hi. lia. }
      change (2 ^ 8) with 256 in Hj. rewrite E2. cbn [bind].
      assert (En2 : exists pr2, pana_next j sh1 pr = Ok pr2 /\ 0 <= pr2 < 4096 * (i + 2)).
      { unfold pana_next. destruct (j =? 0) eqn:Ej; cbn [negb]; [exists pr; split; [reflexivity|lia]|].
        rewrite !Z.shiftl_mul_pow2 by lia. assert (Hp : 1 <= 2 ^ sh1 <= 16) by (split; [apply (Z.pow_le_mono_r 2 0 sh1); lia|apply (Z.pow_le_mono_r 2 sh1 4); lia]).
        rewrite i32sub_ok by (change (2 ^ 31) with 2147483648; lia). cbn [bind]. change 0x80 with 128.
        set (q := if (pr - 128 * 2 ^ sh1 <? 0) || (sh1 =? 4) then (pr - 128 * 2 ^ sh1) &&& (2 ^ sh1 - 1) else pr - 128 * 2 ^ sh1).
        assert (Hq : 0 <= q /\ (q < 16 \/ q <= pr)).
        { unfold q. destruct ((_ <? 0) || _) eqn:F; [|lia]. replace (2 ^ sh1 - 1) with (Z.ones sh1) by (rewrite Z.ones_equiv; lia). rewrite Z.land_ones by lia. pose proof (Z.mod_pos_bound (pr - 128 * 2 ^ sh1) (2 ^ sh1) ltac:(lia)). lia. }
        assert (Hj2 : 0 <= j * 2 ^ sh1 <= 255 * 16) by nia.
        rewrite i32add_ok by (change (2 ^ 31) with 2147483648; lia). eexists. split; [reflexivity|lia]. }
      destruct En2 as [pr2 [En2 Hp2]]. rewrite En2. cbn [bind]. exists nz, pr2, p2. split; [reflexivity|split; [exact Hp2|split; [|reflexivity]]].
      cbn [orb Z.b2z]. replace (u1 + 8 + 4 * (1 - 1)) with (u1 + 8) by lia. exact P2.
    - specialize (Hbig eq_refl). destruct (pread_any u1 8 p1 P1 ltac:(lia) ltac:(lia) ltac:(lia)) as [nz2 [p2 [E2 [Hn2 P2]]]]. change (2 ^ 8) with 256 in Hn2. rewrite E2. cbn [bind orb].
      destruct (negb (nz2 =? 0) || (11 <? i)) eqn:F; cbn [Z.b2z].
      + destruct (pread_any (u1 + 8) 4 p2 P2 ltac:(lia) ltac:(lia) ltac:(lia)) as [lo [p3 [E3 [Hlo P3]]]]. change (2 ^ 4) with 16 in Hlo. rewrite E3. cbn [bind].
        rewrite lor_split by (change (2 ^ 4) with 16; lia). change (2 ^ 4) with 16. eexists _, _, p3. split; [reflexivity|split; [lia|split; [|discriminate]]].
        rewrite F. cbn [Z.b2z]. replace (u1 + 8 + 4 * (1 - 0)) with (u1 + 8 + 4) by lia. exact P3.
      + eexists _, _, p2. split; [reflexivity|split; [lia|split; [|discriminate]]]. rewrite F. cbn [Z.b2z]. replace (u1 + 8 + 4 * (0 - 0)) with (u1 + 8) by lia. exact P2. }
  destruct S2 as [nz2 [pr2 [p2 [E2 [Hp2 [P2 Hsame]]]]]]. rewrite E2. cbn [bind].
  rewrite (upd2_ok nonzs a b (i mod 2) nz2 En) by lia. cbn [bind]. rewrite (upd2_ok preds x y (i mod 2) pr2 Ep) by lia. cbn [bind].
  rewrite upd_ok by lia. cbn [bind]. eexists. split; [reflexivity|]. split; [exact Hs1|]. split; [rewrite zlen_upd_nat; exact Lo|].
  assert (Hpos : forall z : Z, (forall n2, n2 = nz2 -> z = 8 * (i + 1) + 2 * ((i + 1) / 3) + 4 * Z.b2z (negb ((if i mod 2 =? 0 then n2 else a) =? 0) || (12 <? i + 1)) + 4 * Z.b2z (negb ((if i mod 2 =? 0 then b else n2) =? 0) || (13 <? i + 1))) ->
    u1 + 8 + 4 * (Z.b2z (negb (nz =? 0) || negb (nz2 =? 0) || (11 <? i)) - Z.b2z (negb (nz =? 0))) = z).
  { intros z Hz. specialize (Hz nz2 eq_refl). subst z. unfold u1, u, nz in *. clear - Hi Hsame.
    assert (H3 : 2 * (i / 3) + 2 * Z.b2z (i mod 3 =? 2) = 2 * ((i + 1) / 3)) by (destruct (i mod 3 =? 2) eqn:E; cbn [Z.b2z]; lia).
    rewrite <- H3. generalize (2 * (i / 3)) (2 * Z.b2z (i mod 3 =? 2)). intros c1 c2.
    destruct (i mod 2 =? 0) eqn:E2.
    - assert ((12 <? i + 1) = (11 <? i)) as -> by lia. assert ((13 <? i + 1) = (13 <? i)) as -> by lia. assert ((12 <? i) = false) as -> by lia.
      destruct (negb (a =? 0)) eqn:Ea; [rewrite (Hsame eq_refl), Ea|]; cbn [orb Z.b2z]; destruct (negb (nz2 =? 0) || (11 <? i)); cbn [Z.b2z]; lia.
    - assert ((13 <? i + 1) = (11 <? i)) as -> by lia. assert ((12 <? i + 1) = (12 <? i)) as -> by lia. assert ((13 <? i) = false) as -> by lia.
      destruct (negb (b =? 0)) eqn:Ea; [rewrite (Hsame eq_refl), Ea|]; cbn [orb Z.b2z]; destruct (negb (nz2 =? 0) || (11 <? i)); cbn [Z.b2z]; lia. }
  erewrite Hpos in P2 by (intros n2 ->; reflexivity).
  destruct (i mod 2 =? 0); do 4 eexists; (split; [reflexivity|split; [reflexivity|split; [lia|split; [lia|exact P2]]]]).
Qed.
Lemma group_any : forall p sh done, Pa buf split (128 * g) p -> 0 <= sh <= 4 ->
  exists p' sh' line, pana_group (zeros 14) (p, sh, done) = Ok (p', sh', done ++ line) /\ Pa buf split (128 * (g + 1)) p' /\ 0 <= sh' <= 4 /\ zlen line = 14.
Proof.
  intros p sh done P Hsh. unfold pana_group.
  match goal with |- context [rfold ?f (zrange 0 14) ?s] => destruct (rfold_zrange f Any 0 14 s) as [[[[[p' sh'] preds] nonzs] out] [E [Hs [L [x [y [a [b [_ [_ [_ [_ P']]]]]]]]]]]] end.
  - lia.
  - split; [exact Hsh|split; [reflexivity|]]. exists 0, 0, 0, 0. repeat (split; [reflexivity || lia|]). rewrite Z.add_0_r. exact P.
  - intros i st Hi I. apply pixel_any; assumption.
  - rewrite E. cbn [bind]. exists p', sh', out. split; [reflexivity|split; [|split; [exact Hs|exact L]]].
    replace (128 * (g + 1)) with (128 * g + (8 * 14 + 2 * (14 / 3) + 4 * Z.b2z (negb (a =? 0) || (12 <? 14)) + 4 * Z.b2z (negb (b =? 0) || (13 <? 14)))); [exact P'|].
    change (12 <? 14) with true. change (13 <? 14) with true. rewrite !orb_true_r. cbn [Z.b2z]. change (14 / 3) with 4. lia.
Qed.
End Group.
