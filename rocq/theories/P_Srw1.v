(** Proofs about Samsung's first compression. *)
From Coq Require Import String ZArith List Bool Lia ZifyBool ZifyNat.
From Verif Require Import Base Bytes Pumps Huffman Packed Threads Dec_Nef Spec_Bits Spec_Pump Spec_Stream Spec_Image Spec_Huffman Spec_Ljpeg Spec_Srw1
  P_Base P_Bits P_Threads P_Pumps P_Huff1 P_Huff4 P_Huff5 P_Ljpeg1 P_Ljpeg2 P_Pred1 P_Pred10.
Import ListNotations.
Local Open Scope Z_scope.
Ltac Zify.zify_post_hook ::= Z.div_mod_to_equations.

Lemma signed_zbits : forall n v, signed_fits (Z.of_nat n) v -> signed_value (zbits n (v mod 2 ^ Z.of_nat n)) = v.
Proof.
  intros n v H. unfold signed_fits in H. destruct n as [|n]; [cbn in *; lia|]. replace (Z.of_nat (S n) =? 0) with false in H by lia.
  replace (Z.of_nat (S n) - 1) with (Z.of_nat n) in H by lia. set (x := v mod 2 ^ Z.of_nat (S n)).
  assert (P : 2 ^ Z.of_nat (S n) = 2 * 2 ^ Z.of_nat n) by (rewrite Nat2Z.inj_succ, Z.pow_succ_r by lia; reflexivity). assert (Q : 0 < 2 ^ Z.of_nat n) by (apply Z.pow_pos_nonneg; lia).
  assert (Hx : 0 <= x < 2 ^ Z.of_nat (S n)) by (apply Z.mod_pos_bound; lia).
  assert (Ex : x = if v <? 0 then v + 2 ^ Z.of_nat (S n) else v).
  { unfold x. symmetry. destruct (v <? 0) eqn:E; [apply Z.mod_unique_pos with (-1); lia|apply Z.mod_unique_pos with 0; lia]. }
  assert (N : number (zbits (S n) x) = x) by (rewrite number_zbits; apply Z.mod_small; exact Hx).
  pose proof (zbits_length (S n) x) as L. destruct (zbits (S n) x) as [|b l] eqn:Ez; [cbn in L; lia|]. cbn [length] in L. injection L as L.
  pose proof (number_range l) as Bl. rewrite L in Bl. cbn [number] in N. unfold signed_value. cbn [length]. rewrite L. rewrite P in *.
  destruct b; cbn [number] in *; rewrite ?L in *; destruct (v <? 0) eqn:E; lia.
Qed.
Lemma signed_read : forall {M : Mode} k l v p tail, k <> LSB -> 0 <= l <= 32 -> signed_fits l v -> Repr k p (signed_bits l v ++ tail) ->
  exists p', get_ibits_sextended k p l = Ok (v, p') /\ Repr k p' tail.
Proof.
  intros M k l v p tail Hk Hl Hv R. unfold signed_bits in R. rewrite binary_zbits in R. assert (El : Z.of_nat (Z.to_nat l) = l) by lia.
  set (n := Z.to_nat l) in *. rewrite <- El in *. pose proof (zbits_length n (v mod 2 ^ Z.of_nat n)) as Lb.
  destruct (sextended_ok k p _ n Hk R ltac:(lia) ltac:(rewrite app_length; lia)) as [p2 [E2 R2]].
  rewrite <- Lb in R2 at 1. rewrite skipn_pre in R2. exists p2. split; [|exact R2]. rewrite E2. do 2 f_equal.
  rewrite <- Lb at 1. rewrite firstn_pre. apply signed_zbits. exact Hv.
Qed.

(** Cells that have been written. *)
Definition Cells (w h : Z) (raw : Z -> Z -> Z) (W : Z -> Z -> bool) (out : list Z) : Prop :=
  zlen out = w * h /\ forall r c, 0 <= r < h -> 0 <= c < w -> znth out (r * w + c) = if W r c then raw r c else 0.
Lemma Cells_ext : forall w h raw W W' out, (forall r c, 0 <= r < h -> 0 <= c < w -> W r c = W' r c) -> Cells w h raw W out -> Cells w h raw W' out.
Proof. intros w h raw W W' out H [L V]. split; [exact L|]. intros r c Hr Hc. rewrite V by assumption. rewrite H by assumption. reflexivity. Qed.
Lemma cell_range : forall w h r c, 0 <= r < h -> 0 <= c < w -> 0 <= r * w + c < w * h.
Proof. intros. nia. Qed.
Lemma Cells_put : forall w h raw W out r c, 0 <= r < h -> 0 <= c < w -> Cells w h raw W out ->
  exists out', upd out (r * w + c) (raw r c) = Ok out' /\ Cells w h raw (fun r' c' => (r' =? r) && (c' =? c) || W r' c') out'.
Proof.
  intros w h raw W out r c Hr Hc [L V]. pose proof (cell_range w h r c Hr Hc) as B. rewrite upd_ok by lia. eexists. split; [reflexivity|].
  split; [rewrite zlen_upd_nat; exact L|]. intros r' c' Hr' Hc'. pose proof (cell_range w h r' c' Hr' Hc') as B'. rewrite znth_upd_nat by lia.
  destruct (r' * w + c' =? r * w + c) eqn:E.
  - destruct (cell_inj' w c' c r' r Hc' Hc) as [-> ->]; [lia|]. replace (r =? r) with true by lia. replace (c =? c) with true by lia. reflexivity.
  - rewrite V by assumption. destruct (r' =? r) eqn:E1; [|reflexivity]. destruct (c' =? c) eqn:E2; [|reflexivity]. exfalso. assert (r' = r) by lia. assert (c' = c) by lia. subst. lia.
Qed.

Section Srw.
Context {M : Mode}.
Variables (w h : Z) (raw : Z -> Z -> Z) (up : Z -> Z -> bool) (op len : Z -> Z -> Z -> Z) (diff : Z -> Z -> Z).
Hypothesis Hw : 16 <= w.
Hypothesis Hh : 2 <= h.
Hypothesis Hs : forall r c, 0 <= r < h -> 0 <= c < w -> sample (raw r c).
Hypothesis Hf : samsung_fits raw up op len diff w h.

(** The lengths *)
Definition Lens (r g i : Z) (lens : list Z) : Prop := zlen lens = 4 /\ forall k, 0 <= k < 4 -> znth lens k = if k <? i then len r g k else samsung_length_before len r g k.
Lemma len_ok : forall r g i p lens tail, 0 <= r < h -> 0 <= g < samsung_groups w -> 0 <= i < 4 -> Lens r g i lens ->
  Repr MSB32 p ((if op r g i =? 3 then binary 4 (len r g i) else []) ++ tail) ->
  exists p' lens', (l <- get lens i ;; '(l, p) <- srw1_len (op r g i) l p ;; lens <- upd lens i l ;; Ok (p, lens)) = Ok (p', lens') /\ Lens r g (i + 1) lens' /\ Repr MSB32 p' tail.
Proof.
  intros r g i p lens tail Hr Hg Hi [L V] R. destruct (proj1 Hf r g i Hr Hg Hi) as [Hl Hop]. rewrite get_ok by lia. fold (znth lens i). cbn [bind]. rewrite V by exact Hi. replace (i <? i) with false by lia.
  set (bef := samsung_length_before len r g i) in *.
  assert (S : exists p', srw1_len (op r g i) bef p = Ok (len r g i, p') /\ Repr MSB32 p' tail).
  { unfold srw1_len. destruct Hop as [[O E]|[[O E]|[[O E]|[O E]]]]; rewrite O in *; cbn [Z.eqb Pos.eqb app] in *.
    - exists p. rewrite E. split; [reflexivity|exact R].
    - unfold u32add. rewrite arith_u_ok by (change (2 ^ 32) with 4294967296; lia). cbn [bind]. exists p. rewrite E. split; [reflexivity|exact R].
    - unfold u32sub. rewrite arith_u_ok by (change (2 ^ 32) with 4294967296; lia). cbn [bind]. exists p. rewrite E. split; [reflexivity|exact R].
    - apply (word_read MSB32 4 (len r g i) p tail); [discriminate|lia|change (2 ^ Z.of_nat 4) with 16; lia|exact R]. }
  destruct S as [p' [E R']]. rewrite E. cbn [bind]. rewrite upd_ok by lia. cbn [bind]. do 2 eexists. split; [reflexivity|]. split; [|exact R'].
  split; [rewrite zlen_upd_nat; exact L|]. intros k Hk. rewrite znth_upd_nat by lia. destruct (k =? i) eqn:Ek.
  - replace k with i by lia. replace (i <? i + 1) with true by lia. reflexivity.
  - rewrite V by exact Hk. replace (k <? i + 1) with (k <? i) by lia. reflexivity.
Qed.

(** A pixel *)
Lemma pixel_ok : forall r g c W p out tail lft u pv, 0 <= r < h -> 0 <= g < samsung_groups w -> 0 <= c < 16 -> Cells w h raw W out ->
  Repr MSB32 p (signed_bits (len r g (samsung_which (16 * g + c))) (diff r (16 * g + c)) ++ tail) ->
  (if up r g then get out u else if 16 * g =? 0 then Ok 128 else get out lft) = Ok pv ->
  (16 * g + c < w -> pv = samsung_predicted raw up r (16 * g + c) /\ sample pv) ->
  exists p' out', srw1_pixel w (w * r) (16 * g) c (up r g) (len r g (samsung_which (16 * g + c))) u lft (p, out) = Ok (p', out') /\
    Cells w h raw (fun r' c' => (r' =? r) && (c' =? 16 * g + c) || W r' c') out' /\ Repr MSB32 p' tail.
Proof.
  intros r g c W p out tail lft u pv Hr Hg Hc HC R Ep Hpv. unfold srw1_pixel.
  assert (Hk : 0 <= samsung_which (16 * g + c) < 4) by (unfold samsung_which; lia).
  destruct (proj2 Hf r (16 * g + c) Hr ltac:(lia)) as [F1 F2]. replace ((16 * g + c) / 16) with g in F1 by lia.
  destruct (proj1 Hf r g _ Hr Hg Hk) as [Hl _].
  destruct (signed_read MSB32 _ _ p tail ltac:(discriminate) Hl F1 R) as [p' [E R']]. rewrite E. cbn [bind]. rewrite Ep. cbn [bind].
  destruct (16 * g + c <? w) eqn:Q.
  - destruct (Hpv ltac:(lia)) as [P1 P2]. rewrite (F2 ltac:(lia)), <- P1. pose proof (Hs r (16 * g + c) Hr ltac:(lia)) as S1. unfold sample in S1, P2.
    rewrite i32add_ok by (change (2 ^ 31) with 2147483648; lia). cbn [bind]. replace (pv + (raw r (16 * g + c) - pv)) with (raw r (16 * g + c)) by lia.
    rewrite as_u16_sample by exact S1. replace (w * r + 16 * g + c) with (r * w + (16 * g + c)) by lia.
    destruct (Cells_put w h raw W out r (16 * g + c) Hr ltac:(lia) HC) as [out' [E2 C2]]. rewrite E2. cbn [bind]. exists p', out'. split; [reflexivity|split; [exact C2|exact R']].
  - exists p', out. split; [reflexivity|split; [|exact R']]. apply (Cells_ext w h raw W); [|exact HC]. intros r' c' _ Hc'. replace (c' =? 16 * g + c) with false by lia. rewrite andb_false_r. reflexivity.
Qed.
(** What has been written when the even pixels of group [g] of row [r0] up to [je] and the odd ones up to [jo] have been decoded *)
Definition Wr (r0 g je jo r c : Z) : bool := (r <? r0) || (r =? r0) && ((c <? 16 * g) || (if c mod 2 =? 0 then c <? 16 * g + 2 * je else c <? 16 * g + 2 * jo)).

Lemma which_even : forall g j, 0 <= j < 8 -> samsung_which (16 * g + 2 * j) = (2 * j) >>> 3.
Proof. intros g j Hj. unfold samsung_which. rewrite Z.shiftr_div_pow2 by lia. change (2 ^ 3) with 8. lia. Qed.
Lemma which_odd : forall g j, 0 <= j < 8 -> samsung_which (16 * g + (2 * j + 1)) = Z.lor 2 ((2 * j + 1) >>> 3).
Proof.
  intros g j Hj. unfold samsung_which. rewrite Z.shiftr_div_pow2 by lia. change (2 ^ 3) with 8.
  assert (H : (2 * j + 1) / 8 = 0 \/ (2 * j + 1) / 8 = 1) by lia. replace ((16 * g + (2 * j + 1)) mod 16 / 8) with ((2 * j + 1) / 8) by lia. replace ((16 * g + (2 * j + 1)) mod 2) with 1 by lia.
  destruct H as [-> | ->]; reflexivity.
Qed.
Lemma get_cell : forall W out r c, 0 <= r < h -> 0 <= c < w -> Cells w h raw W out -> get out (r * w + c) = Ok (if W r c then raw r c else 0).
Proof. intros W out r c Hr Hc [L V]. pose proof (cell_range w h r c Hr Hc). rewrite get_ok by lia. rewrite <- V by assumption. reflexivity. Qed.
Lemma get_any : forall W out k, 0 <= k < w * h -> Cells w h raw W out -> exists v, get out k = Ok v.
Proof. intros W out k Hk [L V]. rewrite get_ok by lia. eexists. reflexivity. Qed.
Lemma even_mod : forall c, Z.even c = (c mod 2 =? 0).
Proof. intros c. pose proof (Zmod_even c) as H. destruct (Z.even c); lia. Qed.

Lemma group_range : forall g, 0 <= g < samsung_groups w -> 16 * g < w.
Proof. intros g Hg. unfold samsung_groups in Hg. lia. Qed.
(** The prediction of a pixel *)
Lemma even_predicted : forall r g j out, 0 <= r < h -> 0 <= g < samsung_groups w -> 0 <= j < 8 -> Cells w h raw (Wr r g j 0) out ->
  exists pv, (if up r g then get out (w * (Z.max 1 r - 1) + 16 * g + 2 * j) else if 16 * g =? 0 then Ok 128 else get out (w * r + 16 * g - 2)) = Ok pv /\
    (16 * g + 2 * j < w -> pv = samsung_predicted raw up r (16 * g + 2 * j) /\ sample pv).
Proof.
  intros r g j out Hr Hg Hj HC. pose proof (group_range g Hg) as G. unfold samsung_predicted. rewrite even_mod. replace ((16 * g + 2 * j) mod 2 =? 0) with true by lia. replace ((16 * g + 2 * j) / 16) with g by lia.
  cbv zeta. destruct (up r g).
  - destruct (Z.lt_ge_cases (16 * g + 2 * j) w) as [Q|Q].
    + replace (w * (Z.max 1 r - 1) + 16 * g + 2 * j) with ((Z.max 1 r - 1) * w + (16 * g + 2 * j)) by lia. rewrite (get_cell (Wr r g j 0)) by (assumption || lia). eexists. split; [reflexivity|]. intros _.
      destruct (r =? 0) eqn:E0.
      * replace (Wr r g j 0 (Z.max 1 r - 1) (16 * g + 2 * j)) with false; [unfold sample; lia|]. unfold Wr. replace ((16 * g + 2 * j) mod 2 =? 0) with true by lia. lia.
      * replace (Wr r g j 0 (Z.max 1 r - 1) (16 * g + 2 * j)) with true by (unfold Wr; lia). replace (Z.max 1 r - 1) with (r - 1) by lia. split; [reflexivity|apply Hs; lia].
    + destruct (get_any (Wr r g j 0) out (w * (Z.max 1 r - 1) + 16 * g + 2 * j)) as [v E]; [nia|exact HC|]. rewrite E. exists v. split; [reflexivity|lia].
  - destruct (16 * g =? 0) eqn:E0.
    + exists 128. split; [reflexivity|]. intros _. replace (g =? 0) with true by lia. unfold sample. lia.
    + replace (w * r + 16 * g - 2) with (r * w + (16 * g - 2)) by lia. rewrite (get_cell (Wr r g j 0)) by (assumption || lia). eexists. split; [reflexivity|]. intros _.
      replace (Wr r g j 0 r (16 * g - 2)) with true by (unfold Wr; lia). replace (g =? 0) with false by lia. split; [reflexivity|apply Hs; lia].
Qed.
Lemma odd_predicted : forall r g j out, 0 <= r < h -> 0 <= g < samsung_groups w -> 0 <= j < 8 -> Cells w h raw (Wr r g 8 j) out ->
  exists pv, (if up r g then get out (w * (Z.max 2 r - 2) + 16 * g + (2 * j + 1)) else if 16 * g =? 0 then Ok 128 else get out (w * r + 16 * g - 1)) = Ok pv /\
    (16 * g + (2 * j + 1) < w -> pv = samsung_predicted raw up r (16 * g + (2 * j + 1)) /\ sample pv).
Proof.
  intros r g j out Hr Hg Hj HC. pose proof (group_range g Hg) as G. unfold samsung_predicted. rewrite even_mod. replace ((16 * g + (2 * j + 1)) mod 2 =? 0) with false by lia. replace ((16 * g + (2 * j + 1)) / 16) with g by lia.
  cbv zeta. destruct (up r g).
  - destruct (Z.lt_ge_cases (16 * g + (2 * j + 1)) w) as [Q|Q].
    + replace (w * (Z.max 2 r - 2) + 16 * g + (2 * j + 1)) with ((Z.max 2 r - 2) * w + (16 * g + (2 * j + 1))) by lia. rewrite (get_cell (Wr r g 8 j)) by (assumption || lia). eexists. split; [reflexivity|]. intros _.
      destruct (r =? 0) eqn:E0.
      * replace (Wr r g 8 j (Z.max 2 r - 2) (16 * g + (2 * j + 1))) with false; [unfold sample; lia|]. unfold Wr. replace ((16 * g + (2 * j + 1)) mod 2 =? 0) with false by lia. lia.
      * replace (Wr r g 8 j (Z.max 2 r - 2) (16 * g + (2 * j + 1))) with true by (unfold Wr; lia). replace (Z.max 2 r - 2) with (Z.max 0 (r - 2)) by lia. split; [reflexivity|apply Hs; lia].
    + destruct (get_any (Wr r g 8 j) out (w * (Z.max 2 r - 2) + 16 * g + (2 * j + 1))) as [v E]; [nia|exact HC|]. rewrite E. exists v. split; [reflexivity|lia].
  - destruct (16 * g =? 0) eqn:E0.
    + exists 128. split; [reflexivity|]. intros _. replace (g =? 0) with true by lia. unfold sample. lia.
    + replace (w * r + 16 * g - 1) with (r * w + (16 * g - 1)) by lia. rewrite (get_cell (Wr r g 8 j)) by (assumption || lia). eexists. split; [reflexivity|]. intros _.
      replace (Wr r g 8 j r (16 * g - 1)) with true by (unfold Wr; lia). replace (g =? 0) with false by lia. split; [reflexivity|apply Hs; lia].
Qed.

Definition evens (r g j : Z) : list bool := flat_map (fun j => signed_bits (len r g (samsung_which (16 * g + 2 * j))) (diff r (16 * g + 2 * j))) (zrange j 8).
Definition odds (r g j : Z) : list bool := flat_map (fun j => signed_bits (len r g (samsung_which (16 * g + (2 * j + 1)))) (diff r (16 * g + (2 * j + 1)))) (zrange j 8).
Lemma evens_ok : forall r g p lens out tail, 0 <= r < h -> 0 <= g < samsung_groups w -> Lens r g 4 lens -> Cells w h raw (Wr r g 0 0) out -> Repr MSB32 p (evens r g 0 ++ tail) ->
  exists p' out', rfold (fun c '(p, out) =>
      l <- get lens (c >>> 3) ;;
      srw1_pixel w (w * r) (16 * g) c (up r g) l (w * (Z.max 1 r - 1) + 16 * g + c) (w * r + 16 * g - 2) (p, out))
    (zrange_step 0 16 2) (p, out) = Ok (p', out') /\ Cells w h raw (Wr r g 8 0) out' /\ Repr MSB32 p' tail.
Proof.
  intros r g p lens out tail Hr Hg [Ll Vl] HC R. change (zrange_step 0 16 2) with (map (fun j => 2 * j) (zrange 0 8)). rewrite rfold_map.
  match goal with |- context [rfold ?f (zrange 0 8) ?st0] => destruct (rfold_zrange f (fun j '(p, out) => Cells w h raw (Wr r g j 0) out /\ Repr MSB32 p (evens r g j ++ tail)) 0 8 st0) as [[p1 o1] [E [C1 R1]]] end.
  - lia.
  - split; assumption.
  - intros j [p1 o1] Hj [C1 R1]. unfold evens in R1. rewrite (zrange_cons j 8) in R1 by lia. cbn [flat_map] in R1. rewrite <- app_assoc in R1.
    assert (Hk : 0 <= samsung_which (16 * g + 2 * j) < 4) by (unfold samsung_which; lia).
    rewrite <- (which_even g j Hj). rewrite get_ok by lia. fold (znth lens (samsung_which (16 * g + 2 * j))). cbn [bind]. rewrite Vl by exact Hk. replace (samsung_which (16 * g + 2 * j) <? 4) with true by lia.
    destruct (even_predicted r g j o1 Hr Hg Hj C1) as [pv [Ep Hp]].
    destruct (pixel_ok r g (2 * j) (Wr r g j 0) p1 o1 _ _ _ pv Hr Hg ltac:(lia) C1 R1 Ep Hp) as [p2 [o2 [E2 [C2 R2]]]].
    exists (p2, o2). split; [exact E2|split; [|exact R2]]. eapply Cells_ext; [|exact C2]. intros r' c' Hr' Hc'. unfold Wr. destruct (r' =? r) eqn:Er; [|cbn [andb orb]; reflexivity].
    replace (r' <? r) with false by lia. cbn [andb orb]. destruct (c' mod 2 =? 0) eqn:Ec; lia.
  - exists p1, o1. split; [exact E|split; [exact C1|]]. unfold evens in R1. rewrite (zrange_empty 8 8) in R1 by lia. exact R1.
Qed.
Lemma odds_ok : forall r g p lens out tail, 0 <= r < h -> 0 <= g < samsung_groups w -> Lens r g 4 lens -> Cells w h raw (Wr r g 8 0) out -> Repr MSB32 p (odds r g 0 ++ tail) ->
  exists p' out', rfold (fun c '(p, out) =>
      l <- get lens (Z.lor 2 (c >>> 3)) ;;
      srw1_pixel w (w * r) (16 * g) c (up r g) l (w * (Z.max 2 r - 2) + 16 * g + c) (w * r + 16 * g - 1) (p, out))
    (zrange_step 1 16 2) (p, out) = Ok (p', out') /\ Cells w h raw (Wr r (g + 1) 0 0) out' /\ Repr MSB32 p' tail.
Proof.
  intros r g p lens out tail Hr Hg [Ll Vl] HC R. change (zrange_step 1 16 2) with (map (fun j => 2 * j + 1) (zrange 0 8)). rewrite rfold_map.
  match goal with |- context [rfold ?f (zrange 0 8) ?st0] => destruct (rfold_zrange f (fun j '(p, out) => Cells w h raw (Wr r g 8 j) out /\ Repr MSB32 p (odds r g j ++ tail)) 0 8 st0) as [[p1 o1] [E [C1 R1]]] end.
  - lia.
  - split; assumption.
  - intros j [p1 o1] Hj [C1 R1]. unfold odds in R1. rewrite (zrange_cons j 8) in R1 by lia. cbn [flat_map] in R1. rewrite <- app_assoc in R1.
    assert (Hk : 0 <= samsung_which (16 * g + (2 * j + 1)) < 4) by (unfold samsung_which; lia).
    rewrite <- (which_odd g j Hj). rewrite get_ok by lia. fold (znth lens (samsung_which (16 * g + (2 * j + 1)))). cbn [bind]. rewrite Vl by exact Hk. replace (samsung_which (16 * g + (2 * j + 1)) <? 4) with true by lia.
    destruct (odd_predicted r g j o1 Hr Hg Hj C1) as [pv [Ep Hp]].
    destruct (pixel_ok r g (2 * j + 1) (Wr r g 8 j) p1 o1 _ _ _ pv Hr Hg ltac:(lia) C1 R1 Ep Hp) as [p2 [o2 [E2 [C2 R2]]]].
    exists (p2, o2). split; [exact E2|split; [|exact R2]]. eapply Cells_ext; [|exact C2]. intros r' c' Hr' Hc'. unfold Wr. destruct (r' =? r) eqn:Er; [|cbn [andb orb]; reflexivity].
    replace (r' <? r) with false by lia. cbn [andb orb]. destruct (c' mod 2 =? 0) eqn:Ec; lia.
  - exists p1, o1. split; [exact E|split].
    + eapply Cells_ext; [|exact C1]. intros r' c' Hr' Hc'. unfold Wr. destruct (r' =? r) eqn:Er; [|reflexivity]. destruct (c' mod 2 =? 0) eqn:Ec; lia.
    + unfold odds in R1. rewrite (zrange_empty 8 8) in R1 by lia. exact R1.
Qed.
Lemma op_range : forall r g i, 0 <= r < h -> 0 <= g < samsung_groups w -> 0 <= i < 4 -> 0 <= op r g i < 4.
Proof. intros r g i Hr Hg Hi. destruct (proj1 Hf r g i Hr Hg Hi) as [_ H]. lia. Qed.
Lemma srw1_group_ok : forall r g p lens out tail, 0 <= r < h -> 0 <= g < samsung_groups w -> Lens r g 0 lens -> Cells w h raw (Wr r g 0 0) out ->
  Repr MSB32 p (samsung_group up op len diff r g ++ tail) ->
  exists p' lens' out', srw1_group w r (16 * g) (p, lens, out) = Ok (p', lens', out') /\ Lens r (g + 1) 0 lens' /\ Cells w h raw (Wr r (g + 1) 0 0) out' /\ Repr MSB32 p' tail.
Proof.
  intros r g p lens out tail Hr Hg HL HC R. unfold samsung_group in R. rewrite !upto_zrange in R. cbv zeta in R. change (flat_map _ (zrange 0 8) ++ flat_map _ (zrange 0 8)) with (evens r g 0 ++ odds r g 0) in R.
  change (zrange 0 4) with [0; 1; 2; 3] in R. cbn [flat_map] in R. rewrite !app_nil_r in R. rewrite <- !app_assoc in R. cbn [app] in R. unfold srw1_group. cbv zeta.
  destruct (bit_read MSB32 _ p _ ltac:(discriminate) R) as [p0 [E0 R0]]. rewrite E0. cbn [bind]. replace (Z.b2z (up r g) =? 1) with (up r g) by (destruct (up r g); reflexivity). clear R E0 p.
  pose proof (fun i => op_range r g i Hr Hg) as Hop.
  destruct (word_read MSB32 2 _ p0 _ ltac:(discriminate) ltac:(lia) (Hop 0 ltac:(lia)) R0) as [p1 [E1 R1]]. change (Z.of_nat 2) with 2 in E1. rewrite E1. cbn [bind].
  destruct (word_read MSB32 2 _ p1 _ ltac:(discriminate) ltac:(lia) (Hop 1 ltac:(lia)) R1) as [p2 [E2 R2]]. change (Z.of_nat 2) with 2 in E2. rewrite E2. cbn [bind].
  destruct (word_read MSB32 2 _ p2 _ ltac:(discriminate) ltac:(lia) (Hop 2 ltac:(lia)) R2) as [p3 [E3 R3]]. change (Z.of_nat 2) with 2 in E3. rewrite E3. cbn [bind].
  destruct (word_read MSB32 2 _ p3 _ ltac:(discriminate) ltac:(lia) (Hop 3 ltac:(lia)) R3) as [p4 [E4 R4]]. change (Z.of_nat 2) with 2 in E4. rewrite E4. cbn [bind].
  clear E1 E2 E3 E4 R0 R1 R2 R3.
  change (enumerate [op r g 0; op r g 1; op r g 2; op r g 3]) with [(0, op r g 0); (1, op r g 1); (2, op r g 2); (3, op r g 3)]. cbn [rfold].
  destruct (len_ok r g 0 p4 lens _ Hr Hg ltac:(lia) HL R4) as [q1 [l1 [E1 [L1 R1]]]]. rewrite E1. cbn [bind].
  destruct (len_ok r g 1 q1 l1 _ Hr Hg ltac:(lia) L1 R1) as [q2 [l2 [E2 [L2 R2]]]]. rewrite E2. cbn [bind].
  destruct (len_ok r g 2 q2 l2 _ Hr Hg ltac:(lia) L2 R2) as [q3 [l3 [E3 [L3 R3]]]]. rewrite E3. cbn [bind].
  destruct (len_ok r g 3 q3 l3 _ Hr Hg ltac:(lia) L3 R3) as [q4 [l4 [E4 [L4 R4']]]]. rewrite E4. cbn [bind].
  destruct (evens_ok r g q4 l4 out _ Hr Hg L4 HC R4') as [q5 [o5 [E5 [C5 R5]]]]. rewrite E5. cbn [bind].
  destruct (odds_ok r g q5 l4 o5 _ Hr Hg L4 C5 R5) as [q6 [o6 [E6 [C6 R6]]]]. rewrite E6. cbn [bind].
  exists q6, l4, o6. split; [reflexivity|split; [|split; [exact C6|exact R6]]]. destruct L4 as [La Lb]. change (3 + 1) with 4 in Lb. split; [exact La|]. intros k Hk. rewrite Lb by exact Hk. replace (k <? 4) with true by lia. replace (k <? 0) with false by lia.
  unfold samsung_length_before. destruct (g + 1 =? 0) eqn:Z0; [lia|]. replace (g + 1 - 1) with g by lia. reflexivity.
Qed.
Lemma srw1_row_ok : forall r src out rest, 0 <= r < h -> readable MSB32 src -> stream MSB32 src 0 = samsung_row up op len diff w r ++ rest -> Cells w h raw (Wr r 0 0 0) out ->
  exists p' lens' out', rfold (srw1_group w r) (zrange_step 0 w 16) (pump_new src, repeat (if r <? 2 then 7 else 4) 4, out) = Ok (p', lens', out') /\ Cells w h raw (Wr (r + 1) 0 0 0) out'.
Proof.
  intros r src out rest Hr Hsrc Est HC. set (n := samsung_groups w) in *.
  assert (Er : zrange_step 0 w 16 = map (fun j => 16 * j) (zrange 0 n)).
  { unfold zrange_step, zrange. rewrite map_map. replace ((w - 0 + 16 - 1) / 16) with n by (unfold n, samsung_groups; f_equal; lia). rewrite Z.sub_0_r. apply map_ext. intros j. lia. }
  rewrite Er, rfold_map.
  match goal with |- context [rfold ?f (zrange 0 n) ?st0] => destruct (rfold_zrange f (fun g '(p, lens, out) => Lens r g 0 lens /\ Cells w h raw (Wr r g 0 0) out /\ Repr MSB32 p (flat_map (samsung_group up op len diff r) (zrange g n) ++ rest)) 0 n st0) as [[[p1 l1] o1] [E [_ [C1 _]]]] end.
  - unfold n, samsung_groups. lia.
  - split; [|split; [exact HC|]].
    + split; [reflexivity|]. intros k Hk. unfold samsung_length_before. replace (k <? 0) with false by lia. change (0 =? 0) with true. assert (k = 0 \/ k = 1 \/ k = 2 \/ k = 3) as [-> |[-> |[-> | ->]]] by lia; reflexivity.
    + unfold samsung_row in Est. rewrite upto_zrange in Est. fold n in Est. rewrite <- Est. apply Repr_new. exact Hsrc.
  - intros g [[p1 l1] o1] Hg [L1 [C1 R1]]. rewrite (zrange_cons g n) in R1 by lia. cbn [flat_map] in R1. rewrite <- app_assoc in R1.
    destruct (srw1_group_ok r g p1 l1 o1 _ Hr ltac:(fold n; lia) L1 C1 R1) as [p2 [l2 [o2 [E2 [L2 [C2 R2]]]]]]. exists (p2, l2, o2). split; [exact E2|split; [exact L2|split; [exact C2|exact R2]]].
  - rewrite E. exists p1, l1, o1. split; [reflexivity|]. eapply Cells_ext; [|exact C1]. intros r' c' Hr' Hc'. unfold Wr. assert (w <= 16 * n) by (unfold n, samsung_groups; lia). destruct (r' =? r) eqn:Q; destruct (c' mod 2 =? 0); lia.
Qed.
End Srw.
