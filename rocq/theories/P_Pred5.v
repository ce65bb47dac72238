(** Proofs about predictive formats: Samsung, second compression. *)
From Coq Require Import String ZArith List Bool Lia ZifyBool ZifyNat.
From Verif Require Import Base Bytes Pumps Huffman Packed Arw Dec_Nef Spec_Bits Spec_Pump Spec_Stream Spec_Image Spec_Huffman Spec_Ljpeg Spec_Pred
  P_Base P_Bits P_Pumps P_Huff1 P_Huff3 P_Huff4 P_Huff5 P_Huff6 P_Ljpeg1 P_Ljpeg2 P_Sensor4 P_Pred1 P_Pred2 P_Pred3.
Import ListNotations.
Local Open Scope Z_scope.
Ltac Zify.zify_post_hook ::= Z.div_mod_to_equations.

Lemma get_repeat : forall {A} (x : A) n i, 0 <= i < Z.of_nat n -> get (repeat x n) i = Ok x.
Proof.
  intros A x n i H. unfold get, zlen. rewrite repeat_length. replace ((0 <=? i) && (i <? Z.of_nat n)) with true by lia.
  assert (E : nth_error (repeat x n) (Z.to_nat i) = Some x); [|rewrite E; reflexivity].
  rewrite (nth_error_nth' _ x) by (rewrite repeat_length; lia). rewrite nth_repeat_lt by lia. reflexivity.
Qed.
Lemma get_skip : forall {A} (a b : list A) i, zlen a <= i -> get (a ++ b) i = get b (i - zlen a).
Proof.
  intros A a b i H. unfold get. rewrite zlen_app. pose proof (zlen_nonneg a).
  replace ((0 <=? i) && (i <? zlen a + zlen b)) with ((0 <=? i - zlen a) && (i - zlen a <? zlen b)) by lia.
  destruct ((0 <=? i - zlen a) && (i - zlen a <? zlen b)); [|reflexivity].
  rewrite nth_error_app2 by (unfold zlen in *; lia). replace (Z.to_nat i - length a)%nat with (Z.to_nat (i - zlen a)) by (unfold zlen in *; lia). reflexivity.
Qed.
Lemma get_first : forall {A} (a b : list A) i, i < zlen a -> get (a ++ b) i = get a i.
Proof.
  intros A a b i H. unfold get. rewrite zlen_app. pose proof (zlen_nonneg b).
  replace ((0 <=? i) && (i <? zlen a + zlen b)) with ((0 <=? i) && (i <? zlen a)) by lia.
  destruct ((0 <=? i) && (i <? zlen a)) eqn:E; [|reflexivity]. rewrite nth_error_app1 by (unfold zlen in *; lia). reflexivity.
Qed.
(** Entry [x] of block [e]. *)
Lemma get_block : forall {A} (size : A -> nat) pre e post x, 0 <= x < Z.of_nat (size e) ->
  get (flat_map (fun e => repeat e (size e)) (pre ++ e :: post)) (fold_right (fun e s => Z.of_nat (size e) + s) 0 pre + x) = Ok e.
Proof.
  intros A size pre. induction pre as [|a pre IH]; intros e post x Hx.
  - cbn [app flat_map fold_right]. rewrite get_first by (unfold zlen; rewrite repeat_length; lia). apply get_repeat. lia.
  - cbn [app flat_map fold_right]. assert (0 <= fold_right (fun e s => Z.of_nat (size e) + s) 0 pre) by (clear; induction pre; cbn; lia).
    rewrite get_skip by (unfold zlen; rewrite repeat_length; lia). unfold zlen. rewrite repeat_length.
    rewrite <- (IH e post x Hx). f_equal. lia.
Qed.

(** The extra bits of a difference. *)
Lemma extra_read : forall {M : Mode} k d p tail, k <> LSB -> (category d <= 32)%nat -> Repr k p (binary (category d) (extra d) ++ tail) ->
  exists p', get_bits k p (Z.of_nat (category d)) = Ok (extra d, p') /\ Repr k p' tail.
Proof.
  intros M k d p tail Hk Hc R. set (n := category d) in *.
  assert (Lb : length (binary n (extra d)) = n) by (rewrite binary_zbits, zbits_length; reflexivity).
  destruct (get_bits_ok k p _ n R Hc ltac:(rewrite app_length; lia)) as [p2 [E2 R2]].
  rewrite <- Lb in R2 at 1. rewrite skipn_pre in R2. exists p2. split; [|exact R2]. rewrite E2. do 2 f_equal.
  destruct (difference_extra d) as [X1 _]. fold n in X1.
  replace (value_of k (firstn n (binary n (extra d) ++ tail))) with (number (firstn n (binary n (extra d) ++ tail))) by (destruct k; [congruence|reflexivity..]).
  rewrite <- Lb at 1. rewrite firstn_pre, binary_zbits, number_zbits, Z.mod_small by assumption. reflexivity.
Qed.

Section Srw2.
Context {M : Mode}.

Lemma srw2_entry : forall n tail, (n <= 13)%nat -> (10 <= length tail)%nat ->
  (length (samsung_prefix n) <= 10)%nat /\
  get srw2_tbl (number (firstn 10 (samsung_prefix n ++ tail))) = Ok (Z.of_nat (length (samsung_prefix n)), Z.of_nat n).
Proof.
  intros n tail Hn Ht.
  assert (W : forall l pre post, (l <= 10)%nat -> srw2_tab = pre ++ (Z.of_nat l, Z.of_nat n) :: post -> length (samsung_prefix n) = l ->
    fold_right (fun e s => Z.of_nat (Z.to_nat (1024 >>> fst e)) + s) 0 pre = number (samsung_prefix n) * 2 ^ Z.of_nat (10 - l) ->
    (length (samsung_prefix n) <= 10)%nat /\
    get srw2_tbl (number (firstn 10 (samsung_prefix n ++ tail))) = Ok (Z.of_nat (length (samsung_prefix n)), Z.of_nat n)).
  { intros l pre post Hl Et El Ef. split; [lia|]. rewrite El. rewrite firstn_app, El. rewrite firstn_all2 by lia.
    rewrite number_app, firstn_length_le by lia. rewrite <- Ef. unfold srw2_tbl. rewrite Et.
    pose proof (number_range (firstn (10 - l) tail)) as R. rewrite firstn_length_le in R by lia.
    apply (get_block (fun e => Z.to_nat (1024 >>> fst e))). cbn [fst].
    replace (Z.of_nat (Z.to_nat (1024 >>> Z.of_nat l))) with (2 ^ Z.of_nat (10 - l)); [exact R|].
    clear - Hl. do 11 (destruct l as [|l]; [reflexivity|]). lia. }
  destruct n as [|[|[|[|[|[|[|[|[|[|[|[|[|[|n]]]]]]]]]]]]]].
  1: apply (W 6%nat (firstn 5 srw2_tab) (skipn 6 srw2_tab)); [lia|reflexivity..].
  1: apply (W 5%nat (firstn 11 srw2_tab) (skipn 12 srw2_tab)); [lia|reflexivity..].
  1: apply (W 4%nat (firstn 13 srw2_tab) (skipn 14 srw2_tab)); [lia|reflexivity..].
  1: apply (W 4%nat (firstn 4 srw2_tab) (skipn 5 srw2_tab)); [lia|reflexivity..].
  1: apply (W 3%nat (firstn 0 srw2_tab) (skipn 1 srw2_tab)); [lia|reflexivity..].
  1: apply (W 2%nat (firstn 3 srw2_tab) (skipn 4 srw2_tab)); [lia|reflexivity..].
  1: apply (W 2%nat (firstn 2 srw2_tab) (skipn 3 srw2_tab)); [lia|reflexivity..].
  1: apply (W 3%nat (firstn 1 srw2_tab) (skipn 2 srw2_tab)); [lia|reflexivity..].
  1: apply (W 4%nat (firstn 12 srw2_tab) (skipn 13 srw2_tab)); [lia|reflexivity..].
  1: apply (W 7%nat (firstn 6 srw2_tab) (skipn 7 srw2_tab)); [lia|reflexivity..].
  1: apply (W 8%nat (firstn 7 srw2_tab) (skipn 8 srw2_tab)); [lia|reflexivity..].
  1: apply (W 9%nat (firstn 8 srw2_tab) (skipn 9 srw2_tab)); [lia|reflexivity..].
  1: apply (W 10%nat (firstn 9 srw2_tab) (skipn 10 srw2_tab)); [lia|reflexivity..].
  1: apply (W 10%nat (firstn 10 srw2_tab) (skipn 11 srw2_tab)); [lia|reflexivity..].
  lia.
Qed.

Lemma srw2_diff_ok : forall d p tail, (category d <= 13)%nat -> (10 <= length tail)%nat -> Repr MSB p (samsung_code d ++ tail) ->
  exists p', srw2_diff p = Ok (d, p') /\ Repr MSB p' tail.
Proof.
  intros d p tail Hc Ht R. unfold samsung_code in R. rewrite <- app_assoc in R.
  destruct (srw2_entry (category d) (binary (category d) (extra d) ++ tail) Hc ltac:(rewrite app_length; lia)) as [Hl He].
  unfold srw2_diff.
  destruct (peek_ok MSB p _ 10 R ltac:(lia) ltac:(rewrite !app_length; lia)) as [p1 [E1 [R1 B1]]]. cbn [value_of] in E1.
  change (Z.of_nat 10) with 10 in E1. rewrite E1. cbn [bind]. clear E1. rewrite He. cbn [bind].
  destruct (consume_ok MSB p1 _ (length (samsung_prefix (category d))) R1 ltac:(lia)) as [p2 [E2 [R2 _]]]. rewrite E2. cbn [bind]. clear E2.
  rewrite skipn_pre in R2.
  destruct (extra_read MSB d p2 tail ltac:(discriminate) ltac:(lia) R2) as [p3 [E3 R3]]. rewrite E3. cbn [bind]. clear E3.
  exists p3. split; [|exact R3]. do 2 f_equal.
  destruct (difference_extra d) as [X1 X2]. set (n := category d) in *. unfold difference in X2.
  destruct (n =? 0)%nat eqn:N0.
  - replace (Z.of_nat n =? 0) with true by lia. cbn [negb andb]. replace n with 0%nat in X1 by lia. cbn in X1. lia.
  - replace (Z.of_nat n =? 0) with false by lia. cbn [negb andb]. rewrite top_bit by (assumption || lia).
    destruct (2 ^ (Z.of_nat n - 1) <=? extra d); cbn [negb]; exact X2.
Qed.

Section Rows.
Variables (w h : Z) (pic : Z -> Z -> Z).
Notation step := (step_of (fun _ _ => 0) pic).
Hypothesis Hs : sample_picture pic w h.
Hypothesis Hf : forall r c, 0 <= r < h -> 0 <= c < w -> (category (step r c) <= 13)%nat.
Hypothesis Hw : 2 <= w.
Hypothesis Hh : 0 <= h.

Definition cells_from (r c : Z) : list bool := flat_map (fun c => samsung_code (step r c)) (zrange c w).
Definition lines_from (r : Z) : list bool := flat_map (fun r => cells_from r 0) (zrange r h).

(** Predictors at row [r], column [c]. *)
Definition vp (r c j k : Z) : Z := if (r mod 2 =? j) && (k <? c) then pic r k else above pic r j k.
Definition Preds (r c : Z) (vpred hpred : list Z) : Prop :=
  vpred = [vp r c 0 0; vp r c 0 1; vp r c 1 0; vp r c 1 1] /\
  zlen hpred = 2 /\ forall k, 0 <= k < 2 -> k < c -> znth hpred k = pic r (c - 1 - (c - 1 - k) mod 2).

Lemma above_now : forall r k, 0 <= r -> above pic r (r mod 2) k = if r <? 2 then 0 else pic (r - 2) k.
Proof.
  intros r k Hr. unfold above. destruct (r <? 2) eqn:E.
  - assert (r = 0 \/ r = 1) as [-> | ->] by lia; reflexivity.
  - replace (r - 1 - (r - 1 - r mod 2) mod 2) with (r - 2) by lia. replace (r - 2 <? 0) with false by lia. reflexivity.
Qed.
Lemma get4 : forall (a b c d : Z) j k, 0 <= j < 2 -> 0 <= k < 2 ->
  get [a; b; c; d] (j * 2 + k) = Ok (if j =? 0 then if k =? 0 then a else b else if k =? 0 then c else d).
Proof. intros a b c d j k Hj Hk. assert (j = 0 \/ j = 1) as [-> | ->] by lia; assert (k = 0 \/ k = 1) as [-> | ->] by lia; reflexivity. Qed.
Lemma upd4 : forall (a b c d : Z) j k v, 0 <= j < 2 -> 0 <= k < 2 ->
  upd [a; b; c; d] (j * 2 + k) v = Ok [if (j =? 0) && (k =? 0) then v else a; if (j =? 0) && (k =? 1) then v else b;
    if (j =? 1) && (k =? 0) then v else c; if (j =? 1) && (k =? 1) then v else d].
Proof. intros a b c d j k v Hj Hk. assert (j = 0 \/ j = 1) as [-> | ->] by lia; assert (k = 0 \/ k = 1) as [-> | ->] by lia; reflexivity. Qed.

Lemma srw2_pixel_ok : forall r c vpred hpred p out tail, 0 <= r < h -> 0 <= c < w -> (10 <= length tail)%nat ->
  Preds r c vpred hpred -> Repr MSB p (samsung_code (step r c) ++ tail) -> Filled w h (r * w + c) pic out ->
  exists vpred' hpred' p' out', srw2_pixel w r c (vpred, hpred, p, out) = Ok (vpred', hpred', p', out') /\
    Preds r (c + 1) vpred' hpred' /\ Repr MSB p' tail /\ Filled w h (r * w + c + 1) pic out'.
Proof.
  intros r c vpred hpred p out tail Hr Hc Ht [V [L H]] R F. unfold srw2_pixel.
  destruct (srw2_diff_ok (step r c) p tail (Hf r c Hr Hc) Ht R) as [p1 [E1 R1]]. rewrite E1. cbn [bind]. clear E1.
  assert (S0 : sample (pic r c)) by (apply Hs; lia).
  assert (G : exists vpred' hpred', (if c <? 2 then
       v <- get vpred ((r &&& 1) * 2 + c) ;; v <- i32add v (step r c) ;;
       vpred <- upd vpred ((r &&& 1) * 2 + c) v ;; hpred <- upd hpred c v ;; Ok (vpred, hpred)
     else
       h <- get hpred (c &&& 1) ;; h <- i32add h (step r c) ;; hpred <- upd hpred (c &&& 1) h ;; Ok (vpred, hpred)) = Ok (vpred', hpred') /\
     Preds r (c + 1) vpred' hpred' /\ znth hpred' (c mod 2) = pic r c).
  { rewrite !land1. unfold step_of, two_before. destruct (c <? 2) eqn:Q.
    - rewrite V, get4 by lia. cbn [bind].
      set (x := if r mod 2 =? 0 then _ else _).
      assert (X : x = if r <? 2 then 0 else pic (r - 2) c).
      { unfold x, vp. rewrite <- above_now by lia. assert (c = 0 \/ c = 1) as [-> | ->] by lia; (destruct (r mod 2 =? 0) eqn:Q0;
          [replace (r mod 2) with 0 by lia|replace (r mod 2) with 1 by lia]; reflexivity). }
      assert (SX : sample x) by (rewrite X; destruct (r <? 2) eqn:Q2; [unfold sample; lia|apply Hs; lia]). rewrite <- X. unfold sample in *.
      rewrite i32add_ok by lia. cbn [bind]. replace (x + (pic r c - x)) with (pic r c) by lia. rewrite upd4 by lia. cbn [bind]. rewrite upd_ok by lia. cbn [bind].
      do 2 eexists. split; [reflexivity|]. split; [split; [|split]|].
      + assert (N : forall j k, 0 <= j < 2 -> 0 <= k < 2 -> vp r (c + 1) j k = if (r mod 2 =? j) && (c =? k) then pic r c else vp r c j k).
        { intros j k Hj Hk. unfold vp. destruct (r mod 2 =? j) eqn:Q1; cbn [andb]; [|reflexivity]. destruct (c =? k) eqn:Q3.
          - replace (k <? c + 1) with true by lia. f_equal. lia.
          - replace (k <? c + 1) with (k <? c) by lia. reflexivity. }
        rewrite !N by lia. reflexivity.
      + rewrite zlen_upd_nat. exact L.
      + intros k Hk Hkc. rewrite znth_upd_nat by lia. destruct (k =? c) eqn:Q3.
        * f_equal. lia.
        * rewrite H by lia. f_equal. lia.
      + rewrite znth_upd_nat by lia. replace (c mod 2 =? c) with true by lia. reflexivity.
    - rewrite get_ok by lia. cbn [bind]. rewrite H by lia. replace (c - 1 - (c - 1 - c mod 2) mod 2) with (c - 2) by lia.
      assert (S2 : sample (pic r (c - 2))) by (apply Hs; lia). unfold sample in *. rewrite i32add_ok by lia. cbn [bind].
      replace (pic r (c - 2) + (pic r c - pic r (c - 2))) with (pic r c) by lia. rewrite upd_ok by lia. cbn [bind].
      do 2 eexists. split; [reflexivity|]. split; [split; [|split]|].
      + rewrite V. assert (N : forall j k, 0 <= j < 2 -> 0 <= k < 2 -> vp r (c + 1) j k = vp r c j k).
        { intros j k Hj Hk. unfold vp. replace (k <? c + 1) with true by lia. replace (k <? c) with true by lia. reflexivity. }
        rewrite !N by lia. reflexivity.
      + rewrite zlen_upd_nat. exact L.
      + intros k Hk Hkc. rewrite znth_upd_nat by lia. destruct (k =? c mod 2) eqn:Q3.
        * f_equal. lia.
        * rewrite H by lia. f_equal. lia.
      + rewrite znth_upd_nat by lia. rewrite Z.eqb_refl. reflexivity. }
  destruct G as [vpred' [hpred' [E [P' X]]]]. rewrite E. cbn [bind]. clear E. rewrite land1. destruct P' as [P1 [P2 P3]].
  rewrite get_ok by lia. cbn [bind]. rewrite X, as_u16_sample by exact S0.
  destruct (Filled_put w h pic out r c (pic r c) Hr Hc eq_refl F) as [out' [E F']]. rewrite E. cbn [bind].
  exists vpred', hpred', p1, out'. split; [reflexivity|]. split; [split; [exact P1|split; [exact P2|exact P3]]|]. split; [exact R1|exact F'].
Qed.

Theorem srw2_ok : forall buf rest, readable MSB buf ->
  stream MSB buf 0 = steps_coded (fun _ => samsung_code) (fun _ _ => 0) pic w h ++ rest -> (10 <= length rest)%nat ->
  exists out, decode_srw2 buf w h = Ok out /\ is_image out w h pic.
Proof.
  intros buf rest Hrd Es Hrest. pose proof (Repr_new MSB buf 0 Hrd) as R. rewrite Es in R. clear Es. unfold decode_srw2.
  unfold steps_coded in R. rewrite !upto_zrange in R. change (flat_map _ (zrange 0 h)) with (lines_from 0) in R.
  match goal with |- context [rfold ?f (zrange 0 h) ?s] => destruct (rfold_zrange f (fun r '(vpred, hpred, p, out) =>
      Preds r 0 vpred hpred /\ Repr MSB p (lines_from r ++ rest) /\ Filled w h (r * w) pic out) 0 h s) as [[[[a b] p'] o'] [E [_ [_ F']]]] end.
  - exact Hh.
  - split; [|split; [exact R|apply Filled_0; rewrite zlen_zeros; nia]]. split; [reflexivity|]. split; [reflexivity|]. intros; lia.
  - intros r [[[vpred hpred] p] out] Hr [P [R1 F1]].
    unfold lines_from in R1. rewrite (zrange_cons r) in R1 by lia. cbn [flat_map] in R1. fold (lines_from (r + 1)) in R1. rewrite <- app_assoc in R1.
    destruct (rfold_zrange (srw2_pixel w r) (fun c '(vpred, hpred, p, out) => Preds r c vpred hpred /\ Repr MSB p (cells_from r c ++ lines_from (r + 1) ++ rest) /\
      Filled w h (r * w + c) pic out) 0 w (vpred, hpred, p, out)) as [[[[v2 h2] p2] o2] [E2 [P2 [R2 F2]]]].
    + lia.
    + split; [exact P|]. split; [exact R1|]. rewrite Z.add_0_r. exact F1.
    + intros c [[[v1 h1] p1] o1] Hc [P1 [R3 F3]]. unfold cells_from in R3. rewrite (zrange_cons c) in R3 by lia. cbn [flat_map] in R3. rewrite <- app_assoc in R3.
      destruct (srw2_pixel_ok r c v1 h1 p1 o1 (cells_from r (c + 1) ++ lines_from (r + 1) ++ rest) Hr Hc ltac:(rewrite !app_length; lia) P1 R3 F3) as [v4 [h4 [p4 [o4 [E4 [P4 [R4 F4]]]]]]].
      rewrite E4. eexists. split; [reflexivity|]. cbv beta iota. split; [exact P4|]. split; [exact R4|]. rewrite Z.add_assoc. exact F4.
    + rewrite E2. eexists. split; [reflexivity|]. cbv beta iota. unfold cells_from in R2. rewrite zrange_empty in R2 by lia.
      split; [|split; [exact R2|replace ((r + 1) * w) with (r * w + w) by lia; exact F2]].
      destruct P2 as [V2 [L2 _]]. split; [|split; [exact L2|intros; lia]].
      rewrite V2. assert (N : forall j k, 0 <= j < 2 -> 0 <= k < 2 -> vp r w j k = vp (r + 1) 0 j k).
      { intros j k Hj Hk. unfold vp. replace (k <? 0) with false by lia. rewrite andb_false_r. rewrite above_step by lia.
        replace (k <? w) with true by lia. rewrite andb_true_r. reflexivity. }
      rewrite !N by lia. reflexivity.
  - rewrite E. cbn [bind]. exists o'. split; [reflexivity|]. apply Filled_image. replace (w * h) with (h * w) by lia. exact F'.
Qed.
End Rows.
End Srw2.
