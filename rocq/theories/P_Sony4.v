(** Proofs about Sony's compression of blocks (C58): widths. *)
From Coq Require Import String ZArith List Bool Lia ZifyBool ZifyNat.
From Verif Require Import Base Bytes Pumps Packed Threads Lookup Arw P_Base P_Bits P_Threads.
Import ListNotations.
Local Open Scope Z_scope.

Section Widths.
Context {M : Mode}.
Lemma half_needs : forall tbl j p random out p' random' out', arw2_half tbl j (p, random, out) = Ok (p', random', out') ->
  zlen out' = zlen out /\ j + 30 < zlen out.
Proof.
  intros tbl j p random out p' random' out' H. unfold arw2_half in H.
  apply bind_inv in H. destruct H as [[max q1] [_ H]]. apply bind_inv in H. destruct H as [[min q2] [_ H]].
  apply bind_inv in H. destruct H as [delta [_ H]]. apply bind_inv in H. destruct H as [[imax q3] [_ H]]. apply bind_inv in H. destruct H as [[imin q4] [_ H]].
  change 16 with (15 + 1) in H. rewrite zrange_snoc in H by lia. rewrite rfold_app in H. apply bind_inv in H. destruct H as [[[q5 r5] o5] [H1 H2]].
  assert (L : zlen o5 = zlen out).
  { refine (rfold_inv _ (fun st => zlen (snd st) = zlen out) _ _ _ _ _ H1); [|reflexivity].
    intros i [[a b] c] [[a2 b2] c2] _ Hc E. cbn [snd] in *. apply bind_inv in E. destruct E as [[val q] [_ E]]. apply bind_inv in E. destruct E as [[v rr] [_ E]].
    apply bind_inv in E. destruct E as [o [E1 E2]]. injection E2 as _ _ <-. apply upd_inv in E1. destruct E1 as [_ ->]. rewrite zlen_upd_nat. exact Hc. }
  cbn [rfold] in H2. apply bind_inv in H2. destruct H2 as [s2 [E0 E9]]. injection E9 as ->.
  apply bind_inv in E0. destruct E0 as [[val q] [_ E]]. apply bind_inv in E. destruct E as [[v rr] [_ E]].
  apply bind_inv in E. destruct E as [o [E1 E2]]. injection E2 as _ _ <-. apply upd_inv in E1. destruct E1 as [R ->]. rewrite zlen_upd_nat. lia.
Qed.
Lemma pieces_need : forall tbl cs st st', rfold (fun piece '(p, random, done) =>
      '(p, random, piece) <- rfold (arw2_half tbl) (zrange 0 2) (p, random, piece) ;;
      Ok (p, random, done ++ piece)) cs st = Ok st' -> Forall (fun c => 32 <= zlen c) cs.
Proof.
  induction cs as [|c cs IH]; intros [[p random] done] st' H; [constructor|]. cbn [rfold] in H. apply bind_inv in H. destruct H as [st1 [H1 H2]].
  apply bind_inv in H1. destruct H1 as [[[p2 r2] c2] [H1 _]]. constructor; [|apply (IH _ _ H2)].
  change (zrange 0 2) with [0; 1] in H1. cbn [rfold] in H1. apply bind_inv in H1. destruct H1 as [[[p3 r3] c3] [E1 E2]]. apply bind_inv in E2. destruct E2 as [[[p4 r4] c4] [E2 _]].
  apply half_needs in E1. apply half_needs in E2. lia.
Qed.
Lemma whole_chunks : forall (l : list Z), Forall (fun c => 32 <= zlen c) (chunks 32 l) -> zlen l mod 32 = 0.
Proof.
  intros l. remember (length l) as n eqn:En. revert l En. induction n as [n IH] using lt_wf_ind. intros l En F.
  destruct l as [|x l]; [reflexivity|]. rewrite chunks_cons in F by (try discriminate; lia). apply Forall_cons_iff in F. destruct F as [F1 F2].
  set (k := x :: l) in *. assert (32 <= length k)%nat by (unfold zlen in F1; rewrite firstn_length in F1; lia).
  specialize (IH (length (skipn 32 k)) ltac:(rewrite skipn_length; lia) _ eq_refl F2). unfold zlen in *. rewrite skipn_length in IH.
  replace (Z.of_nat (length k)) with (Z.of_nat (length k - 32) + 1 * 32) by lia. rewrite Z.mod_add by lia. exact IH.
Qed.
Lemma sony_widths : forall buf w h table out, 0 < w -> 0 < h -> decode_arw2 buf w h table = Ok out -> w mod 32 = 0.
Proof.
  intros buf w h table out Hw Hh H. destruct (decode_threaded_inv w h _ out H ltac:(lia) ltac:(lia)) as [_ [ls [F _]]].
  rewrite zrange_cons in F by lia. inversion F as [|r l rs ls2 E F2]; subst. cbv beta in E. apply bind_inv in E. destruct E as [inb [_ E]]. apply bind_inv in E. destruct E as [[random p] [_ E]].
  unfold arw2_line in E. apply bind_inv in E. destruct E as [[[p2 r2] d] [E _]]. apply pieces_need, whole_chunks in E.
  unfold zlen, zeros in E. rewrite repeat_length in E. rewrite Z2Nat.id in E by lia. exact E.
Qed.
End Widths.
