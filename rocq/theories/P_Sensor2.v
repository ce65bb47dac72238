(** Proofs about pictures that are turned, interlaced or cut into stripes. *)
From Coq Require Import String ZArith List Bool Lia ZifyBool ZifyNat.
From Verif Require Import Base Threads Raf Mos Cr2 Spec_Bits Spec_Image Spec_Huffman Spec_Sensor P_Base P_Threads P_Huff2 P_Huff4 P_Ljpeg6.
Import ListNotations.
Local Open Scope Z_scope.
Ltac Zify.zify_post_hook ::= Z.div_mod_to_equations.

(** ** Loops that write *)

(** Every step writes one cell. *)
Lemma scatter : forall {A} (pos val : A -> Z) xs out,
  (forall x, In x xs -> 0 <= pos x < zlen out) ->
  (forall x y, In x xs -> In y xs -> pos x = pos y -> val x = val y) ->
  exists r, rfold (fun x o => upd o (pos x) (val x)) xs out = Ok r /\ zlen r = zlen out /\
    (forall x, In x xs -> znth r (pos x) = val x) /\
    (forall j, 0 <= j -> ~ In j (map pos xs) -> znth r j = znth out j).
Proof.
  induction xs as [|x xs IH]; intros out R N.
  - exists out. split; [reflexivity|]. split; [reflexivity|]. split; [intros x []|reflexivity].
  - cbn [rfold].
    destruct (upd_exists out (pos x) (val x)) as [o1 E]; [apply R; left; reflexivity|]. rewrite E. cbn [bind].
    pose proof (zlen_upd _ _ _ _ E) as L.
    destruct (IH o1) as [r [Er [Lr [V O]]]];
      [intros y Hy; rewrite L; apply R; right; exact Hy|intros y z Hy Hz; apply N; right; assumption|].
    exists r. split; [exact Er|]. split; [lia|]. split.
    + intros y [<-|Hy]; [|apply V; exact Hy].
      destruct (in_dec Z.eq_dec (pos x) (map pos xs)) as [Hi|Hi].
      * apply in_map_iff in Hi. destruct Hi as [z [Ez Hz]]. rewrite <- Ez, V by exact Hz.
        apply N; [right; exact Hz|left; reflexivity|exact Ez].
      * rewrite O; [|apply R; left; reflexivity|exact Hi].
        rewrite (znth_upd _ _ _ _ _ E) by (apply R; left; reflexivity). rewrite Z.eqb_refl. reflexivity.
    + intros j Hj Hn. cbn [map] in Hn. rewrite O; [|exact Hj|intros Hi; apply Hn; right; exact Hi].
      rewrite (znth_upd _ _ _ _ _ E) by exact Hj. destruct (j =? pos x) eqn:Ej; [|reflexivity].
      exfalso. apply Hn. left. lia.
Qed.

(** A loop over pairs. *)
Lemma rfold_pairs : forall {A B S} (f : A -> B -> S -> res S) (ys : list B) xs s,
  rfold (fun x s => rfold (f x) ys s) xs s = rfold (fun p s => f (fst p) (snd p) s) (list_prod xs ys) s.
Proof.
  induction xs as [|x xs IH]; intros s; [reflexivity|]. cbn [rfold list_prod]. rewrite rfold_app.
  assert (E : forall s, rfold (f x) ys s = rfold (fun p s => f (fst p) (snd p) s) (map (fun y => (x, y)) ys) s).
  { clear. induction ys as [|y ys IH]; intros s; [reflexivity|]. cbn [rfold map fst snd]. destruct (f x y s); cbn [bind]; auto. }
  rewrite <- E. destruct (rfold (f x) ys s); cbn [bind]; auto.
Qed.

(** ** Turned pictures *)

Lemma prod_In : forall cw ch p, In p (list_prod (zrange 0 ch) (zrange 0 cw)) <-> 0 <= fst p < ch /\ 0 <= snd p < cw.
Proof. intros cw ch [r c]. rewrite in_prod_iff, !zrange_In. reflexivity. Qed.

Lemma turned_in : forall cw ch r c, 0 < cw -> Z.even ch = true -> 0 <= r < ch -> 0 <= c < cw ->
  0 <= fst (turned cw r c) < cw + ch / 2 - 1 /\ 0 <= snd (turned cw r c) < cw + ch / 2.
Proof. intros cw ch r c Hw He Hr Hc. apply Zeven_bool_iff, Zeven_ex in He. destruct He as [k ->]. cbn [turned fst snd]. lia. Qed.
Lemma turned_alt_in : forall cw ch r c, 0 < ch -> Z.even cw = true -> 0 <= r < ch -> 0 <= c < cw ->
  0 <= fst (turned_alt cw r c) < ch + cw / 2 - 1 /\ 0 <= snd (turned_alt cw r c) < ch + cw / 2.
Proof. intros cw ch r c Hw He Hr Hc. apply Zeven_bool_iff, Zeven_ex in He. destruct He as [k ->]. cbn [turned_alt fst snd]. lia. Qed.
Lemma turned_inj : forall cw ch, one_to_one cw ch (turned cw).
Proof. intros cw ch r c r' c' _ _ _ _ E. unfold turned in E. injection E. lia. Qed.
Lemma turned_alt_inj : forall cw ch, one_to_one cw ch (turned_alt cw).
Proof. intros cw ch r c r' c' _ _ _ _ E. unfold turned_alt in E. injection E. lia. Qed.

(** A loop that puts each pixel in its place. *)
Lemma place_ok : forall cw ch w h (place : Z -> Z -> Z * Z) (pix : Z -> Z -> Z),
  0 < w -> 0 <= h -> one_to_one cw ch place ->
  (forall r c, 0 <= r < ch -> 0 <= c < cw -> 0 <= fst (place r c) < h /\ 0 <= snd (place r c) < w) ->
  exists img, rfold (fun r o => rfold (fun c o => upd o (fst (place r c) * w + snd (place r c)) (pix r c)) (zrange 0 cw) o)
      (zrange 0 ch) (zeros (w * h)) = Ok img /\ placed img w h cw ch place pix.
Proof.
  intros cw ch w h place pix Hw Hh Inj R.
  assert (Cell : forall y x y' x', 0 <= x < w -> 0 <= x' < w -> y * w + x = y' * w + x' -> y = y' /\ x = x')
    by (intros; apply (Z.div_mod_unique w); [left|left|]; lia).
  rewrite (rfold_pairs (fun r c o => upd o (fst (place r c) * w + snd (place r c)) (pix r c))).
  destruct (scatter (fun p => fst (place (fst p) (snd p)) * w + snd (place (fst p) (snd p))) (fun p => pix (fst p) (snd p))
     (list_prod (zrange 0 ch) (zrange 0 cw)) (zeros (w * h))) as [img [E [L [V O]]]].
  - intros p Hp. apply prod_In in Hp. specialize (R (fst p) (snd p) (proj1 Hp) (proj2 Hp)).
    rewrite zlen_zeros. nia.
  - intros p q Hp Hq E. apply prod_In in Hp. apply prod_In in Hq.
    pose proof (R _ _ (proj1 Hp) (proj2 Hp)) as Rp. pose proof (R _ _ (proj1 Hq) (proj2 Hq)) as Rq.
    apply Cell in E; [|tauto|tauto]. destruct (Inj (fst p) (snd p) (fst q) (snd q)) as [Er Ec]; try tauto; [|congruence].
    rewrite (surjective_pairing (place (fst p) (snd p))), (surjective_pairing (place (fst q) (snd q))).
    f_equal; tauto.
  - exists img. split; [exact E|]. exists (fun y x => znth img (y * w + x)). split; [|split].
    + split; [fold (zlen img); rewrite L, zlen_zeros; lia|]. intros r c Hr Hc. reflexivity.
    + intros r c Hr Hc. pose proof (R r c Hr Hc). split; [tauto|]. split; [tauto|].
      apply (V (r, c)). apply prod_In. cbn [fst snd]. tauto.
    + intros y x Hy Hx Hn. rewrite O; [apply znth_zeros|nia|].
      intros Hi. apply in_map_iff in Hi. destruct Hi as [[r c] [Ei Hi]]. apply prod_In in Hi. cbn [fst snd] in *.
      apply Cell in Ei; [|apply (R r c); tauto|exact Hx]. apply (Hn r c); try tauto.
      rewrite (surjective_pairing (place r c)). f_equal; tauto.
Qed.

Section Turn.
Context {M : Mode}.
Variables (src : list Z) (width height top right_ bottom left_ : Z).
Let cw := width - right_ - left_.
Let ch := height - bottom - top.
Hypothesis Hpos : 0 <= top /\ 0 <= right_ /\ 0 <= bottom /\ 0 <= left_.
Hypothesis Hw : 0 < cw.
Hypothesis Hh : 0 < ch.
Hypothesis Hsmall : width < 2 ^ 62 /\ height < 2 ^ 62.
Hypothesis Hsrc : zlen src = width * height.

Lemma row_slice : forall row, 0 <= row < ch ->
  slice_from src ((row + top) * width + left_) = Ok (skipn (Z.to_nat ((row + top) * width + left_)) src).
Proof. intros row Hr. apply slice_from_ok. rewrite Hsrc. unfold cw, ch in *. nia. Qed.
Lemma row_get : forall row col, 0 <= row < ch -> 0 <= col < cw ->
  get (skipn (Z.to_nat ((row + top) * width + left_)) src) col = Ok (znth src ((row + top) * width + (col + left_))).
Proof.
  intros row col Hr Hc.
  assert (B : 0 <= (row + top) * width + left_ /\ (row + top) * width + left_ + col < width * height) by (unfold cw, ch in *; nia).
  rewrite get_ok by (rewrite zlen_skipn, Hsrc; lia). f_equal. rewrite znth_skipn by lia. f_equal. lia.
Qed.

Theorem rotate_normal_ok : Z.even ch = true ->
  exists img, rotate_image src false (top, right_, bottom, left_) width height = Ok (cw + ch / 2, cw + ch / 2 - 1, img) /\
    placed img (cw + ch / 2) (cw + ch / 2 - 1) cw ch (turned cw) (fun r c => znth src ((r + top) * width + (c + left_))).
Proof.
  intros He. unfold rotate_image. rewrite (usub_ok width right_) by (unfold cw in *; lia). cbn [bind].
  rewrite (usub_ok (width - right_) left_) by (unfold cw in *; lia). cbn [bind].
  rewrite (usub_ok height bottom) by (unfold ch in *; lia). cbn [bind].
  rewrite (usub_ok (height - bottom) top) by (unfold ch in *; lia). cbn [bind].
  fold cw ch. unfold rotate_normal. rewrite (usub_ok (cw + ch / 2)) by (unfold cw, ch in *; lia). cbn [bind].
  destruct (place_ok cw ch (cw + ch / 2) (cw + ch / 2 - 1) (turned cw) (fun r c => znth src ((r + top) * width + (c + left_))))
    as [img [E P]]; [lia|lia|apply turned_inj|intros; apply turned_in; assumption|].
  exists img. split; [|exact P].
  rewrite (rfold_ext _ (fun r o => rfold (fun c o => upd o (fst (turned cw r c) * (cw + ch / 2) + snd (turned cw r c))
      (znth src ((r + top) * width + (c + left_)))) (zrange 0 cw) o)).
  - rewrite E. reflexivity.
  - intros r o Hr. apply zrange_In in Hr. rewrite row_slice by exact Hr. cbn [bind]. apply rfold_ext.
    intros c o' Hc. apply zrange_In in Hc. rewrite (usub_ok cw 1) by (unfold cw in *; lia). cbn [bind].
    rewrite usub_ok by (unfold cw in *; lia). cbn [bind]. rewrite row_get by assumption. cbn [bind].
    rewrite !Z.shiftr_div_pow2 by lia. change (2 ^ 1) with 2. cbn [turned fst snd]. reflexivity.
Qed.

Theorem rotate_alt_ok : Z.even cw = true ->
  exists img, rotate_image src true (top, right_, bottom, left_) width height = Ok (ch + cw / 2, ch + cw / 2 - 1, img) /\
    placed img (ch + cw / 2) (ch + cw / 2 - 1) cw ch (turned_alt cw) (fun r c => znth src ((r + top) * width + (c + left_))).
Proof.
  intros He. unfold rotate_image. rewrite (usub_ok width right_) by (unfold cw in *; lia). cbn [bind].
  rewrite (usub_ok (width - right_) left_) by (unfold cw in *; lia). cbn [bind].
  rewrite (usub_ok height bottom) by (unfold ch in *; lia). cbn [bind].
  rewrite (usub_ok (height - bottom) top) by (unfold ch in *; lia). cbn [bind].
  fold cw ch. unfold rotate_alt. rewrite (usub_ok (ch + cw / 2)) by (unfold cw, ch in *; lia). cbn [bind].
  destruct (place_ok cw ch (ch + cw / 2) (ch + cw / 2 - 1) (turned_alt cw) (fun r c => znth src ((r + top) * width + (c + left_))))
    as [img [E P]]; [lia|lia|apply turned_alt_inj|intros; apply turned_alt_in; assumption|].
  exists img. split; [|exact P].
  rewrite (rfold_ext _ (fun r o => rfold (fun c o => upd o (fst (turned_alt cw r c) * (ch + cw / 2) + snd (turned_alt cw r c))
      (znth src ((r + top) * width + (c + left_)))) (zrange 0 cw) o)).
  - rewrite E. reflexivity.
  - intros r o Hr. apply zrange_In in Hr. rewrite row_slice by exact Hr. cbn [bind]. apply rfold_ext.
    intros c o' Hc. apply zrange_In in Hc. rewrite (usub_ok (ch + 1)) by (unfold ch in *; lia). cbn [bind].
    rewrite !Z.shiftr_div_pow2 by lia. change (2 ^ 1) with 2.
    apply Zeven_bool_iff, Zeven_ex in He. destruct He as [k Hk].
    rewrite usub_ok by (unfold cw, ch in *; lia). cbn [bind]. rewrite row_get by assumption. cbn [bind].
    cbn [turned_alt fst snd]. f_equal. lia.
Qed.
End Turn.
