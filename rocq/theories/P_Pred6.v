(** Proofs about predictive formats: pairs of pixels need an even width. *)
From Coq Require Import String ZArith List Bool Lia ZifyBool ZifyNat.
From Verif Require Import Base Bytes Pumps Huffman Packed Lookup Tiff Decoder Dec_Pred Dec_Nef
  P_Base P_Huff2.
Import ListNotations.
Local Open Scope Z_scope.
Ltac Zify.zify_post_hook ::= Z.div_mod_to_equations.

Lemma rfold_stuck : forall {A S} (f : A -> S -> res S) (P : S -> Prop) xs x s s',
  (forall x s1 s2, In x xs -> P s1 -> f x s1 = Ok s2 -> P s2) -> P s -> In x xs ->
  (forall s1 s2, P s1 -> f x s1 = Ok s2 -> False) -> rfold f xs s = Ok s' -> False.
Proof.
  intros A S f P xs x s s' Hs H0 Hin Hx E. apply in_split in Hin. destruct Hin as [a [b ->]].
  rewrite rfold_app in E. apply bind_inv in E. destruct E as [s1 [E1 E]]. cbn [rfold] in E. apply bind_inv in E. destruct E as [s2 [E2 _]].
  apply (Hx s1 s2); [|exact E2]. refine (rfold_inv f P a s s1 _ H0 E1). intros y t1 t2 Hy. apply Hs. apply in_or_app. left. exact Hy.
Qed.
Lemma last_pair : forall x w, 0 <= x -> x < w -> (w - x) mod 2 = 1 -> In (w - 1) (zrange_step x w 2).
Proof.
  intros x w Hx Hw Hm. unfold zrange_step. apply in_map_iff. exists (Z.to_nat ((w - 1 - x) / 2)).
  split; [lia|]. apply in_seq. lia.
Qed.

Ltac ep E := repeat match type of E with (match ?x with (_, _) => _ end) = _ => destruct x end.
Ltac eb E := let x := fresh "x" in let F := fresh "F" in apply bind_inv in E; destruct E as [x [F E]]; cbv beta iota zeta in E; ep E; cbv beta iota zeta in E.

Section Odd.
Context {M : Mode}.
Lemma put_pair_len : forall out i a b o, put_pair out i a b = Ok o -> zlen o = zlen out /\ i + 1 < zlen out.
Proof.
  intros out i a b o E. unfold put_pair in E. eb E. pose proof (zlen_upd _ _ _ _ F) as L. pose proof (zlen_upd _ _ _ _ E) as L'.
  apply upd_inv in E. lia.
Qed.
Lemma pef_odd : forall t src w h out, Z.odd w = true -> 0 < w -> 0 < h -> pef_rows t src w h <> Ok out.
Proof.
  intros t src w h out Ho Hw Hh E. unfold pef_rows in E. eb E. clear E.
  rewrite Zodd_mod in Ho. apply Zeq_bool_eq in Ho.
  assert (Col : forall row xs s s', rfold (fun col '(a, b, p, out) => '(a, b, p) <- pair_diff t a b p ;; out <- put_pair out (row * w + col) a b ;; Ok (a, b, p, out)) xs s = Ok s' ->
      zlen (snd s') = zlen (snd s)).
  { intros row xs s s' E. refine (rfold_inv _ (fun st : Z * Z * pump * list Z => zlen (snd st) = zlen (snd s)) _ _ _ _ eq_refl E).
    intros c [[[a b] p] o] s2 _ P E2. eb E2. eb E2. injection E2 as <-. apply put_pair_len in F1. cbn [snd] in *. lia. }
  revert F. refine (rfold_stuck _ (fun st : list Z * list Z * pump * list Z => zlen (snd st) = w * h) _ (h - 1) _ _ _ _ _ _).
  - intros row [[[u1 u2] p] o] s2 _ P E. do 2 eb E. eb E. do 3 eb E. eb E. injection E as <-.
    apply put_pair_len in F4. apply Col in F5. cbn [snd] in *. lia.
  - cbn [snd]. rewrite zlen_zeros. nia.
  - apply zrange_In. lia.
  - intros [[[u1 u2] p] o] s2 P E. cbn [snd] in P. do 2 eb E. eb E. do 3 eb E. apply put_pair_len in F4.
    assert (Hw1 : w <> 1) by (intros ->; nia). eb E. clear E. revert F5.
    refine (rfold_stuck _ (fun st : Z * Z * pump * list Z => zlen (snd st) = w * h) _ (w - 1) _ _ _ _ _ _).
    + intros col [[[a b] p'] o'] s3 _ P' E'. eb E'. eb E'. injection E' as <-. apply put_pair_len in F6. cbn [snd] in *. lia.
    + cbn [snd]. lia.
    + apply last_pair; lia.
    + intros [[[a b] p'] o'] s3 P' E'. cbn [snd] in P'. eb E'. eb E'. apply put_pair_len in F6. nia.
Qed.
Theorem pentax_odd : forall tiff src w h out, Z.odd w = true -> 0 < w -> 0 < h -> pef_decompress tiff src w h <> Ok out.
Proof. intros tiff src w h out Ho Hw Hh E. unfold pef_decompress in E. eb E. exact (pef_odd _ _ _ _ _ Ho Hw Hh E). Qed.

Lemma nef_put_len : forall c out i a b r o r', nef_put c out i a b r = Ok (o, r') -> zlen o = zlen out /\ i + 1 < zlen out.
Proof.
  intros c out i a b r o r' E. unfold nef_put in E. eb E. eb E. eb E. eb E. eb E. eb E. injection E as <- <-.
  pose proof (zlen_upd _ _ _ _ F1) as L. pose proof (zlen_upd _ _ _ _ F4) as L'. apply upd_inv in F4. lia.
Qed.
Theorem nikon_odd : forall m src w h bps out, Z.odd w = true -> 0 < w -> 0 < h -> nef_rows m src w h bps <> Ok out.
Proof.
  intros m src w h bps out Ho Hw Hh E. unfold nef_rows in E. eb E. eb E. eb E. clear E.
  rewrite Zodd_mod in Ho. apply Zeq_bool_eq in Ho.
  assert (Step : forall t row col s s', (fun col '(a, b, p, random, out) =>
          '(a, b, p) <- (if 0 <? col then pair_diff t a b p else Ok (a, b, p)) ;;
          '(out, random) <- nef_put (nf_curve m) out (row * w + col) a b random ;;
          Ok (a, b, p, random, out)) col s = Ok s' -> zlen (snd s') = zlen (snd s) /\ row * w + col + 1 < zlen (snd s)).
  { intros t row col [[[[a b] q] rn] o] s' E. eb E. eb E. injection E as <-. apply nef_put_len in F3. cbn [snd]. lia. }
  revert F1. refine (rfold_stuck _ (fun st : hufftable * list Z * list Z * pump * Z * list Z => zlen (snd st) = w * h) _ (h - 1) _ _ _ _ _ _).
  - intros row [[[[[t u1] u2] q] rn] o] s2 _ P E. do 3 eb E. eb E. do 2 eb E. eb E. injection E as <-.
    cbn [snd] in *. refine (rfold_inv _ (fun st : Z * Z * pump * Z * list Z => zlen (snd st) = w * h) _ _ _ _ _ F7).
    + intros col s3 s4 _ P3 E4. apply Step in E4. lia.
    + exact P.
  - cbn [snd]. rewrite zlen_zeros. nia.
  - apply zrange_In. lia.
  - intros [[[[[t u1] u2] q] rn] o] s2 P E. cbn [snd] in P. do 3 eb E. eb E. do 2 eb E. eb E. clear E. revert F7.
    refine (rfold_stuck _ (fun st : Z * Z * pump * Z * list Z => zlen (snd st) = w * h) _ (w - 1) _ _ _ _ _ _).
    + intros col s3 s4 _ P3 E4. apply Step in E4. lia.
    + cbn [snd]. lia.
    + apply last_pair; lia.
    + intros s3 s4 P3 E4. apply Step in E4. nia.
Qed.
Theorem nikon_odd_width : forall tiff src w h bps out, Z.odd w = true -> 0 < w -> 0 < h -> nef_decompress tiff src w h bps <> Ok out.
Proof. intros tiff src w h bps out Ho Hw Hh E. unfold nef_decompress in E. eb E. eb E. eb E. exact (nikon_odd _ _ _ _ _ _ Ho Hw Hh E). Qed.
End Odd.
