(** Proofs about the search for a marker. *)
From Coq Require Import String ZArith List Bool Lia ZifyBool ZifyNat.
From Verif Require Import Base Bytes ByteStream Spec_Bits Spec_Ljpeg P_Base.
Import ListNotations.
Local Open Scope Z_scope.

Lemma skip_marker : forall fuel buf pos p, 0 <= pos <= p -> (Z.to_nat (p - pos) < fuel)%nat -> marker_at buf p ->
  (forall q, pos <= q < p -> ~ marker_at buf q) -> bs_skip fuel buf pos = Ok (p + 1).
Proof.
  induction fuel; intros buf pos p Hp Hf Hm Hn; [lia|]. cbn [bs_skip].
  assert (R : p + 1 < zlen buf).
  { destruct Hm as [_ [H1 _]]. destruct (Z_lt_ge_dec (p + 1) (zlen buf)) as [H|H]; [exact H|]. exfalso. apply H1.
    apply (znth_overflow buf). lia. }
  rewrite get_ok by lia. cbn [bind]. destruct (Z.eq_dec pos p) as [->|Ne].
  - destruct Hm as [H0 [H1 H2]]. fold (znth buf p) in H0. rewrite H0, Z.eqb_refl. rewrite get_ok by lia. cbn [bind].
    fold (znth buf (p + 1)) in H1, H2. replace (negb (znth buf (p + 1) =? 0) && negb (znth buf (p + 1) =? 0xff)) with true by lia.
    reflexivity.
  - assert (F : (if znth buf pos =? 0xff then c <- get buf (pos + 1) ;; Ok (negb (c =? 0) && negb (c =? 0xff)) else Ok false) = Ok false).
    { destruct (znth buf pos =? 0xff) eqn:E; [|reflexivity]. rewrite get_ok by lia. cbn [bind]. f_equal.
      destruct (negb (znth buf (pos + 1) =? 0) && negb (znth buf (pos + 1) =? 0xff)) eqn:X; [|reflexivity]. exfalso.
      apply (Hn pos); [lia|]. unfold marker_at. fold (znth buf pos) (znth buf (pos + 1)). lia. }
    rewrite F. cbn [bind]. replace (zlen buf <=? pos + 1) with false by lia. apply IHfuel; try assumption; [lia|lia|].
    intros q Hq. apply Hn. lia.
Qed.

Theorem next_marker_found : forall buf pos p, 0 <= pos <= p -> marker_at buf p ->
  (forall q, pos <= q < p -> ~ marker_at buf q) -> bs_skip_to_marker buf pos = Ok (p + 1).
Proof.
  intros buf pos p Hp Hm Hn. apply skip_marker; try assumption.
  destruct Hm as [H0 _]. assert (p < zlen buf); [|unfold zlen in *; lia].
  destruct (Z_lt_ge_dec p (zlen buf)) as [H|H]; [exact H|]. exfalso. fold (znth buf p) in H0. rewrite znth_overflow in H0 by lia. discriminate.
Qed.
