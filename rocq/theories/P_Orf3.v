(** Proofs about Olympus: the last column of a picture of odd width is black. *)
From Coq Require Import String ZArith List Bool Lia ZifyBool ZifyNat.
From Verif Require Import Base Bytes Pumps Huffman Packed Threads Dec_Pred P_Base P_Pred1 P_Pred6.
Import ListNotations.
Local Open Scope Z_scope.
Ltac Zify.zify_post_hook ::= Z.div_mod_to_equations.

Section Odd.
Context {M : Mode}.
Variables (w h : Z).
Hypothesis Hw : 0 < w.
Hypothesis Hh : 0 <= h.
Hypothesis Hodd : w mod 2 = 1.
Definition Black (out : list Z) : Prop := zlen out = w * h /\ forall r, 0 <= r < h -> znth out (r * w + (w - 1)) = 0.
Lemma step_black : forall row c s st p out a0 a1 a2 l n p' out', 0 <= row -> 0 <= c < w / 2 -> 0 <= s < 2 -> Black out ->
  orf_step w row (c * 2) s st p out = Ok (a0, a1, a2, l, n, p', out') -> Black out'.
Proof.
  intros row c s st p out a0 a1 a2 l n p' out' Hr Hc Hs [L B] E. unfold orf_step in E. ep E. eb E. eb E. injection E as <- <- <- <- <- <- <-.
  rename F0 into E. unfold orf_pixel in E. do 3 eb E. injection E as <- <- <-.
  apply upd_inv in F2. destruct F2 as [Hi ->]. split; [rewrite zlen_upd_nat; exact L|].
  intros r Hr2. rewrite znth_upd_nat by nia. replace (r * w + (w - 1) =? row * w + (c * 2 + s)) with false; [apply B; exact Hr2|].
  symmetry. apply Z.eqb_neq. intros Q. assert (Hcs : 0 <= c * 2 + s <= w - 2) by lia. apply (cell_inj' w) in Q; lia.
Qed.
Theorem orf_odd : forall buf out, orf_decompress buf w h = Ok out -> forall r, 0 <= r < h -> nth (Z.to_nat (r * w + (w - 1))) out 0 = 0.
Proof.
  intros buf out E. unfold orf_decompress in E. eb E. eb E. injection E as <-.
  cut (Black l); [intros [_ B]; exact B|].
  refine (rfold_inv _ (fun '(_, _, _, _, _, out) => Black out) _ _ _ _ _ F0).
  - intros row [[[[[l0 n0] l1] n1] p1] o1] [[[[[l2 n2] l3] n3] p3] o3] I B E. apply zrange_In in I. eb E. injection E as <- <- <- <- <- <-.
    refine (rfold_inv _ (fun '(_, _, _, out) => Black out) _ _ _ _ _ F1); [|exact B].
    intros c [[[s0 s1] p4] o4] [[[s2 s3] p5] o5] I2 B4 E. apply zrange_In in I2. do 2 eb E. injection E as <- <- <- <-.
    eapply step_black; [| | | |exact F3]; [lia|exact I2|lia|]. eapply step_black; [| | |exact B4|exact F2]; lia.
  - split; [unfold zlen, zeros; rewrite repeat_length; nia|]. intros r _. unfold znth, zeros. apply nth_repeat.
Qed.
End Odd.
