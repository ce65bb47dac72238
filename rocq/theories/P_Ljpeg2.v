(** Proofs about lossless JPEG: whole pictures. *)
From Coq Require Import String ZArith List Bool Lia ZifyBool ZifyNat.
From Verif Require Import Base Pumps Threads Packed Huffman Ljpeg Spec_Bits Spec_Pump Spec_Stream Spec_Huffman Spec_Ljpeg
  P_Base P_Bits P_Pumps P_Huff4 P_Huff5 P_Huff6 P_Ljpeg1.
Import ListNotations.
Local Open Scope Z_scope.
Ltac Zify.zify_post_hook ::= Z.div_mod_to_equations.

Lemma cell_inj : forall sw a b r r', 0 <= a < sw -> 0 <= b < sw -> r * sw + a = r' * sw + b -> r = r' /\ a = b.
Proof. intros sw a b r r' Ha Hb E. apply (Z.div_mod_unique sw); [left; exact Ha|left; exact Hb|lia]. Qed.

Lemma zrange_step_map : forall x n a w, 0 < n -> zrange_step (x + n * a) (n * w + x) n = map (fun j => x + n * j) (zrange a w).
Proof.
  intros x n a w Hn. unfold zrange_step, zrange. rewrite map_map.
  replace ((n * w + x - (x + n * a) + n - 1) / n) with (w - a).
  - apply map_ext. intros. lia.
  - apply Z.div_unique with (n - 1); [lia|]. lia.
Qed.
Lemma rfold_map : forall {A B S} (f : B -> S -> res S) (g : A -> B) l s, rfold f (map g l) s = rfold (fun x => f (g x)) l s.
Proof. induction l; intros s; cbn; [reflexivity|]. destruct (f (g a) s); cbn; auto. Qed.

Lemma wrap16_range : forall d, -32768 <= wrap16 d <= 32767.
Proof. intros. unfold wrap16. lia. Qed.
Lemma wrap16_undo : forall p v, 0 <= v < 65536 -> (p + wrap16 (v - p)) mod 65536 = v.
Proof. intros. unfold wrap16. lia. Qed.

Section Rows.
Context {M : Mode}.
Variables (n : Z) (tab : Z -> hufftable) (enc : Z -> Z -> list bool) (fits : Z -> Z -> Prop).
Hypothesis Hn : 0 < n.
Hypothesis Hcodes : forall i, 0 <= i < n -> codes JPEG (tab i) (enc i) (fits i).
Hypothesis Hfits : forall i d, fits i d -> -32768 <= d <= 32767.
Notation ts := (map tab (zrange 0 n)).
Variables (base : Z) (pic : picture) (W H x sw w h : Z) (out0 : list Z).
Hypothesis Hbase : 0 <= base < 65536.
Hypothesis Hpic : forall r j i, 0 <= r < H -> 0 <= j < W -> 0 <= i < n -> 0 <= pic r j i < 65536.
Hypothesis Hcodable : forall r j i, 0 <= r < H -> 0 <= j < W -> 0 <= i < n -> fits i (residual base pic r j i).
Hypothesis Hw : 0 < w <= W.
Hypothesis Hh : 0 < h <= H.
Hypothesis Hx : 0 <= x.
Hypothesis Hsw : x + n * w <= sw.
Hypothesis Hout : (h - 1) * sw + x + n * w <= zlen out0.

Definition gbits (r j : Z) : list bool := pbits n enc (fun i => residual base pic r j i).
Definition at_ (r j i : Z) : Z := r * sw + x + n * j + i.

Record Inv (r j : Z) (out : list Z) : Prop := {
  I_len : zlen out = zlen out0;
  I_done : forall r' j' i, 0 <= r' < h -> 0 <= j' < w -> 0 <= i < n -> (r' < r \/ r' = r /\ j' < j) -> znth out (at_ r' j' i) = pic r' j' i;
  I_keep : forall q, 0 <= q -> (forall r' c, 0 <= r' < h -> 0 <= c < n * w -> q <> r' * sw + x + c) -> znth out q = znth out0 q
}.

Lemma nw_bound : forall j i, 0 <= j < w -> 0 <= i < n -> 0 <= n * j + i < n * w.
Proof. intros. nia. Qed.
Lemma at_bound : forall r j, 0 <= r < h -> 0 <= j < w -> 0 <= at_ r j 0 /\ at_ r j 0 + n <= zlen out0.
Proof.
  intros r j Hr Hj. unfold at_. assert (n * j + n <= n * w) by nia.
  assert (0 <= sw) by nia. assert (r * sw <= (h - 1) * sw) by nia. nia.
Qed.

Lemma write_inv : forall r j out out', 0 <= r < h -> 0 <= j < w -> Inv r j out -> zlen out' = zlen out ->
  (forall i, 0 <= i < n -> znth out' (at_ r j 0 + i) = pic r j i) ->
  (forall q, 0 <= q -> ~ (at_ r j 0 <= q < at_ r j 0 + n) -> znth out' q = znth out q) ->
  Inv r (j + 1) out'.
Proof.
  intros r j out out' Hr Hj [L D K] L' A B. split; [lia| |].
  - intros r' j' i Hr' Hj' Hi Hd. destruct (Z.eq_dec r r') as [<-|Nr].
    + destruct (Z.eq_dec j j') as [<-|Nj].
      * rewrite <- A by assumption. f_equal. unfold at_. lia.
      * rewrite B; [apply D; lia| |].
        -- unfold at_. nia.
        -- unfold at_. intros C. assert (n * j <= n * j' + i < n * j + n) by lia. apply Nj. nia.
    + rewrite B; [apply D; lia| |].
      * unfold at_. nia.
      * intros C. apply Nr. unfold at_ in C. set (q := r' * sw + x + n * j' + i) in *.
        apply (cell_inj sw (x + n * j + (q - (r * sw + x + n * j + 0))) (x + (n * j' + i)) r r'); [|pose proof (nw_bound j' i Hj' Hi); lia|unfold q; lia].
        pose proof (nw_bound j (q - (r * sw + x + n * j + 0)) Hj ltac:(lia)). lia.
  - intros q Hq Hnot. rewrite B; [apply K; assumption|assumption|].
    intros C. apply (Hnot r (n * j + (q - at_ r j 0))); [assumption| |unfold at_; lia].
    apply nw_bound; [assumption|lia].
Qed.

Definition row_from (r j : Z) : list bool := flat_map (gbits r) (zrange j W).
(** The columns of a row. *)
Lemma row_ok : forall r j0 out p rest, 0 <= r < h -> 0 <= j0 <= w -> (r = 0 -> 0 < j0) -> Inv r j0 out -> (32 <= length rest)%nat ->
  Repr JPEG p (row_from r j0 ++ rest) ->
  exists out' p', rfold (fun col '(out, p) =>
          let from := if col =? x then (r - 1) * sw + x else r * sw + col - n in
          next_pixel ts out from (r * sw + col) p)
        (zrange_step (x + n * j0) (n * w + x) n) (out, p) = Ok (out', p') /\ Inv r w out' /\ Repr JPEG p' (row_from r w ++ rest).
Proof.
  intros r j0 out p rest Hr Hj0 H0 HI Hl R. rewrite zrange_step_map by assumption. rewrite rfold_map.
  destruct (rfold_zrange (fun j '(out, p) =>
     let from := if x + n * j =? x then (r - 1) * sw + x else r * sw + (x + n * j) - n in
     next_pixel ts out from (r * sw + (x + n * j)) p)
    (fun j '(out, p) => Inv r j out /\ Repr JPEG p (row_from r j ++ rest)) j0 w (out, p)) as [[out' p'] [E [I' R']]].
  - lia.
  - split; assumption.
  - intros j [o1 p1] Hj [I1 R1]. cbv zeta. unfold row_from in R1. rewrite zrange_cons in R1 by lia. cbn [flat_map] in R1. rewrite <- app_assoc in R1.
    set (from := if x + n * j =? x then (r - 1) * sw + x else r * sw + (x + n * j) - n).
    assert (HF : 0 <= from /\ from + n <= zlen out0 /\ forall i, 0 <= i < n -> znth o1 (from + i) = prediction base pic r j i).
    { unfold from, prediction. destruct (j =? 0) eqn:Ej.
      - replace (x + n * j =? x) with true by nia. assert (r <> 0) by lia.
        destruct (at_bound (r - 1) 0 ltac:(lia) ltac:(lia)) as [B1 B2]. unfold at_ in B1, B2.
        split; [lia|]. split; [lia|]. intros i Hi. replace (r =? 0) with false by lia.
        rewrite <- (I_done r j o1 I1 (r - 1) 0 i) by lia. f_equal. unfold at_. lia.
      - replace (x + n * j =? x) with false by nia.
        destruct (at_bound r (j - 1) ltac:(lia) ltac:(lia)) as [B1 B2]. unfold at_ in B1, B2.
        split; [lia|]. split; [lia|]. intros i Hi.
        rewrite <- (I_done r j o1 I1 r (j - 1) i) by lia. f_equal. unfold at_. lia. }
    destruct HF as [F1 [F2 F3]]. destruct (at_bound r j Hr ltac:(lia)) as [B1 B2].
    assert (Eto : r * sw + (x + n * j) = at_ r j 0) by (unfold at_; lia). rewrite Eto.
    destruct (next_pixel_ok n tab enc fits Hn Hcodes Hfits o1 from (at_ r j 0) (fun i => residual base pic r j i) p1
                (flat_map (gbits r) (zrange (j + 1) W) ++ rest)) as [o2 [p2 [E2 [R2 [L2 [A2 K2]]]]]].
    + assumption.
    + rewrite (I_len _ _ _ I1). assumption.
    + assumption.
    + rewrite (I_len _ _ _ I1). assumption.
    + intros i Hi. rewrite F3 by assumption. unfold prediction. destruct (j =? 0) eqn:Ej; [destruct (r =? 0) eqn:Er|]; [exact Hbase| |]; apply Hpic; lia.
    + intros i Hi. apply Hcodable; lia.
    + rewrite app_length. lia.
    + exact R1.
    + exists (o2, p2). split; [exact E2|]. split; [|exact R2].
      apply (write_inv r j o1 o2); try assumption; try lia.
      intros i Hi. rewrite A2, F3 by assumption. unfold residual. apply wrap16_undo. apply Hpic; lia.
  - exists out', p'. split; [exact E|]. split; assumption.
Qed.

(** The pixels to the right of the output. *)
Lemma skip_ok : forall r p rest, 0 <= r < h -> (32 <= length rest)%nat -> Repr JPEG p (row_from r w ++ rest) ->
  exists p', rfold (fun _ p => '(_, p) <- diffs JPEG ts p ;; Ok p) (zrange 0 (W - w)) p = Ok p' /\ Repr JPEG p' rest.
Proof.
  intros r p rest Hr Hl R.
  destruct (rfold_zrange (fun (_ : Z) p => '(_, p) <- diffs JPEG ts p ;; Ok p)
     (fun j p => Repr JPEG p (row_from r (w + j) ++ rest)) 0 (W - w) p) as [p' [E R']].
  - lia.
  - rewrite Z.add_0_r. exact R.
  - intros j p1 Hj R1. unfold row_from in R1. rewrite zrange_cons in R1 by lia. cbn [flat_map] in R1. rewrite <- app_assoc in R1.
    destruct (diffs_ts n tab enc fits Hcodes Hfits (fun i => residual base pic r (w + j) i) p1 (flat_map (gbits r) (zrange (w + j + 1) W) ++ rest)) as [p2 [E2 R2]].
    + intros i Hi. apply Hcodable; lia.
    + rewrite app_length. lia.
    + exact R1.
    + exists p2. rewrite E2. split; [reflexivity|]. unfold row_from. rewrite Z.add_assoc. exact R2.
  - exists p'. split; [exact E|]. replace (w + (W - w)) with W in R' by lia. unfold row_from in R'. rewrite zrange_empty in R' by lia. exact R'.
Qed.

Definition rows_from (r : Z) : list bool := flat_map (fun r => row_from r 0) (zrange r H).
Lemma next_row : forall r out, Inv r w out -> Inv (r + 1) 0 out.
Proof. intros r out [L D K]. split; [assumption| |assumption]. intros r' j' i Hr' Hj' Hi Hd. apply D; lia. Qed.

(** After the first pixel. *)
Lemma first_ok : forall p rest, (32 <= length rest)%nat -> Repr JPEG p (rows_from 0 ++ rest) ->
  exists out p', first_pixel ts base out0 x p = Ok (out, p') /\ Inv 0 1 out /\ Repr JPEG p' (row_from 0 1 ++ rows_from 1 ++ rest).
Proof.
  intros p rest Hl R. unfold rows_from in R. rewrite zrange_cons in R by lia. cbn [flat_map] in R. rewrite <- app_assoc in R.
  unfold row_from at 1 in R. rewrite zrange_cons in R by lia. cbn [flat_map] in R. rewrite <- app_assoc in R.
  destruct (at_bound 0 0 ltac:(lia) ltac:(lia)) as [B1 B2]. unfold at_ in B1, B2.
  destruct (first_pixel_ok n tab enc fits Hcodes Hfits (Z.to_nat n) 0 base out0 x (fun i => residual base pic 0 0 i) p
     (flat_map (gbits 0) (zrange (0 + 1) W) ++ flat_map (fun r => row_from r 0) (zrange (0 + 1) H) ++ rest)) as [o [p' [E [R' [L [A B]]]]]]; try lia.
  - intros i Hi. apply Hcodable; lia.
  - rewrite !app_length. lia.
  - exact R.
  - exists o, p'. split; [exact E|]. split; [|exact R'].
    rewrite Z2Nat.id in A, B by lia.
    apply (write_inv 0 0 out0 o); try lia.
    + split; [reflexivity| |reflexivity]. intros; lia.
    + intros i Hi. replace (at_ 0 0 0 + i) with (x + i) by (unfold at_; lia). rewrite A by assumption.
      unfold residual, prediction. cbn [Z.eqb]. apply wrap16_undo. apply Hpic; lia.
    + intros q Hq Hnot. apply B; [assumption|]. unfold at_ in Hnot. lia.
Qed.

(** All rows. *)
Lemma rows_ok : forall p rest out, (32 <= length rest)%nat -> Inv 0 1 out -> Repr JPEG p (row_from 0 1 ++ rows_from 1 ++ rest) ->
  exists out' p', rfold (fun row '(out, p) =>
      let startcol := if row =? 0 then x + n else x in
      '(out, p) <- rfold (fun col '(out, p) =>
          let from := if col =? x then (row - 1) * sw + x else row * sw + col - n in
          next_pixel ts out from (row * sw + col) p)
        (zrange_step startcol (n * w + x) n) (out, p) ;;
      p <- rfold (fun _ p => '(_, p) <- diffs JPEG ts p ;; Ok p) (zrange 0 (W - w)) p ;;
      Ok (out, p))
    (zrange 0 h) (out, p) = Ok (out', p') /\ Inv h 0 out' /\ Repr JPEG p' (rows_from h ++ rest).
Proof.
  intros p rest out Hl HI R.
  match goal with |- context [rfold ?f (zrange 0 h) _] =>
  destruct (rfold_zrange f (fun r '(out, p) => if r =? 0 then Inv 0 1 out /\ Repr JPEG p (row_from 0 1 ++ rows_from 1 ++ rest)
      else Inv r 0 out /\ Repr JPEG p (rows_from r ++ rest)) 0 h (out, p)) as [[out' p'] [E I']] end.
  - lia.
  - split; assumption.
  - intros r [o1 p1] Hr HI1. cbv zeta.
    assert (HS : exists j0, (if r =? 0 then x + n else x) = x + n * j0 /\ 0 <= j0 <= w /\ (r = 0 -> 0 < j0) /\ Inv r j0 o1 /\
       Repr JPEG p1 (row_from r j0 ++ rows_from (r + 1) ++ rest)).
    { destruct (r =? 0) eqn:Er.
      - assert (r = 0) by lia. subst r. exists 1. destruct HI1. split; [lia|]. split; [lia|]. split; [lia|]. split; assumption.
      - exists 0. destruct HI1 as [I1 R1]. split; [lia|]. split; [lia|]. split; [lia|]. split; [assumption|].
        unfold rows_from in R1. rewrite zrange_cons in R1 by lia. cbn [flat_map] in R1. rewrite <- app_assoc in R1. exact R1. }
    destruct HS as [j0 [E0 [Hj0 [Hj1 [I1 R1]]]]]. rewrite E0.
    destruct (row_ok r j0 o1 p1 (rows_from (r + 1) ++ rest) Hr Hj0 Hj1 I1 ltac:(rewrite app_length; lia) R1) as [o2 [p2 [E2 [I2 R2]]]].
    cbv zeta in E2. rewrite E2. cbn [bind].
    destruct (skip_ok r p2 (rows_from (r + 1) ++ rest) Hr ltac:(rewrite app_length; lia) R2) as [p3 [E3 R3]].
    rewrite E3. cbn [bind]. exists (o2, p3). split; [reflexivity|]. replace (r + 1 =? 0) with false by lia. split; [|exact R3].
    apply next_row. exact I2.
  - exists out', p'. split; [exact E|]. replace (h =? 0) with false in I' by lia. exact I'.
Qed.

Lemma rows_coded : forall codes, (forall i d, enc i d = code_of (codes i) d) -> rows_from 0 = coded codes n base pic W H.
Proof.
  intros codes He. unfold rows_from, coded. rewrite upto_zrange. apply flat_map_ext. intros r.
  unfold row_from, coded_row. rewrite upto_zrange. apply flat_map_ext. intros j.
  unfold gbits, pbits, coded_pixel. rewrite upto_zrange. apply flat_map_ext. intros i. apply He.
Qed.
Lemma Inv_pasted : forall out, Inv h 0 out -> pasted n x sw w h pic out0 out.
Proof.
  intros out [L D K]. split; [unfold zlen in L; lia|]. split.
  - intros r j i Hr Hj Hi. apply D; try assumption. lia.
  - intros q Hq. specialize (K (Z.of_nat q) ltac:(lia)). unfold znth in K. rewrite Nat2Z.id in K. apply K. exact Hq.
Qed.
End Rows.
